(** Proofs about the shipped runway database. *)
From Coq Require Import Ascii QArith Qreals.
From Verif Require Import Base BaseFacts AtmosModel ConceptModel PropulsionModel RunwayModel RunwaySpec RunwayProofs ShippedModel RunwayText RunwayDbSpec RunwayDbFacts.
Open Scope R_scope.

(** ** One row *)
Definition reads (rw : runway) (code : string) (v : list Q) : Prop :=
  airport_ident rw = code /\
  map Fin (map Q2R v) = [length_ft rw; width_ft rw; le_elevation_ft rw; le_heading_degt rw; he_elevation_ft rw; he_heading_degt rw].
Lemma column_at r d i k name : row_of_text r d -> In (i, k) number_columns -> (forall r, (20 <= List.length r)%nat -> RunwaySpec.column header r name = nth_error r k) ->
  RunwaySpec.column header r name = Some (nth i (split_on ","%char (snd d)) ""%string).
Proof. intros (L & _ & C) I H. rewrite H by lia. exact (C _ _ I). Qed.
Lemma columns_at name k : In (name, k) [("length_ft", 3); ("width_ft", 4); ("le_elevation_ft", 11); ("le_heading_degT", 12); ("he_elevation_ft", 17); ("he_heading_degT", 18)]%string%nat ->
  forall r, (20 <= List.length r)%nat -> RunwaySpec.column header r name = nth_error r k.
Proof.
  intros I r L. destruct (twenty_cons r L) as (a0&a1&a2&a3&a4&a5&a6&a7&a8&a9&a10&a11&a12&a13&a14&a15&a16&a17&a18&a19&t&->).
  repeat (destruct I as [I|I]; [injection I as <- <-; reflexivity|]). destruct I.
Qed.
Lemma row_read r d : row_of_text r d ->
  match six (snd d) with
  | Some v => exists rw, runway_of_row parse_float r = Ok rw /\ reads rw (fst d) v
  | None => runway_of_row parse_float r = Err ValueError
  end.
Proof.
  intros RT. assert (20 <= List.length r)%nat as L by (destruct RT; lia).
  pose proof (column_at r d 0 3 "length_ft" RT ltac:(cbn; tauto) (columns_at "length_ft" 3 ltac:(cbn; tauto))) as C0.
  pose proof (column_at r d 1 4 "width_ft" RT ltac:(cbn; tauto) (columns_at "width_ft" 4 ltac:(cbn; tauto))) as C1.
  pose proof (column_at r d 2 11 "le_elevation_ft" RT ltac:(cbn; tauto) (columns_at "le_elevation_ft" 11 ltac:(cbn; tauto))) as C2.
  pose proof (column_at r d 3 12 "le_heading_degT" RT ltac:(cbn; tauto) (columns_at "le_heading_degT" 12 ltac:(cbn; tauto))) as C3.
  pose proof (column_at r d 4 17 "he_elevation_ft" RT ltac:(cbn; tauto) (columns_at "he_elevation_ft" 17 ltac:(cbn; tauto))) as C4.
  pose proof (column_at r d 5 18 "he_heading_degT" RT ltac:(cbn; tauto) (columns_at "he_heading_degT" 18 ltac:(cbn; tauto))) as C5.
  unfold six, six_texts. cbn [seq map].
  set (s0 := nth 0 _ _) in *. set (s1 := nth 1 _ _) in *. set (s2 := nth 2 _ _) in *. set (s3 := nth 3 _ _) in *. set (s4 := nth 4 _ _) in *. set (s5 := nth 5 _ _) in *.
  clearbody s0 s1 s2 s3 s4 s5.
  destruct (row_usable parse_float r L) as (U & F).
  assert (forall rw, runway_of_row parse_float r = Ok rw -> exists v, numbers [s0; s1; s2; s3; s4; s5] = Some v /\ reads rw (fst d) v) as G.
  { intros rw E. pose proof (row_attributes _ _ _ E) as (_ & N & _ & A & _).
    assert (forall name get s, In (name, get) number_attrs -> RunwaySpec.column header r name = Some s -> exists q, decimal s = Some q /\ get rw = Fin (Q2R q)) as N'.
    { intros name get s I C. destruct (N _ _ I) as (s' & x & C' & P & Q). rewrite C in C'. injection C' as <-. unfold parse_float in P.
      destruct (decimal s) as [q|]; [|discriminate]. injection P as <-. exists q. auto. }
    destruct (N' _ _ _ ltac:(cbn; left; reflexivity) C0) as (q0 & D0 & E0).
    destruct (N' _ _ _ ltac:(cbn; right; left; reflexivity) C1) as (q1 & D1 & E1).
    destruct (N' _ _ _ ltac:(cbn; right; right; left; reflexivity) C2) as (q2 & D2 & E2).
    destruct (N' _ _ _ ltac:(cbn; do 3 right; left; reflexivity) C3) as (q3 & D3 & E3).
    destruct (N' _ _ _ ltac:(cbn; do 4 right; left; reflexivity) C4) as (q4 & D4 & E4).
    destruct (N' _ _ _ ltac:(cbn; do 5 right; left; reflexivity) C5) as (q5 & D5 & E5).
    exists [q0; q1; q2; q3; q4; q5]. cbn [numbers]. rewrite D0, D1, D2, D3, D4, D5. split; [reflexivity|]. split.
    - destruct RT as (_ & RA & _). unfold of_airport in RA. destruct (twenty_cons r L) as (a0&a1&a2&a3&a4&a5&a6&a7&a8&a9&a10&a11&a12&a13&a14&a15&a16&a17&a18&a19&t&->).
      cbn in RA, A. congruence.
    - cbn [map]. rewrite E0, E1, E2, E3, E4, E5. reflexivity. }
  destruct (numbers [s0; s1; s2; s3; s4; s5]) as [v|] eqn:E.
  - assert (exists rw, runway_of_row parse_float r = Ok rw) as (rw & RW).
    { apply U. assert (forall s, In s [s0; s1; s2; s3; s4; s5] -> exists x, parse_float s = Some x) as P.
      { clear - E. revert v E. induction [s0; s1; s2; s3; s4; s5] as [|a l IH]; intros v E s I; [destruct I|]. cbn [numbers] in E.
        destruct (decimal a) as [q|] eqn:D; [|discriminate]. destruct (numbers l) as [w|]; [|discriminate]. destruct I as [<- |I]; [unfold parse_float; rewrite D; eexists; reflexivity|].
        exact (IH _ eq_refl _ I). }
      assert (forall name s, RunwaySpec.column header r name = Some s -> In s [s0; s1; s2; s3; s4; s5] -> exists s x, RunwaySpec.column header r name = Some s /\ parse_float s = Some x) as W.
      { intros name s C I. destruct (P s I) as (x & X). exists s, x. split; assumption. }
      intros name I. change (map fst number_attrs) with ["length_ft"; "width_ft"; "le_elevation_ft"; "le_heading_degT"; "he_elevation_ft"; "he_heading_degT"]%string in I.
      destruct I as [<- |I]; [refine (W _ _ C0 _); left; reflexivity|]. destruct I as [<- |I]; [refine (W _ _ C1 _); right; left; reflexivity|].
      destruct I as [<- |I]; [refine (W _ _ C2 _); do 2 right; left; reflexivity|]. destruct I as [<- |I]; [refine (W _ _ C3 _); do 3 right; left; reflexivity|].
      destruct I as [<- |I]; [refine (W _ _ C4 _); do 4 right; left; reflexivity|]. destruct I as [<- |I]; [refine (W _ _ C5 _); do 5 right; left; reflexivity|]. destruct I. }
    exists rw. split; [assumption|]. destruct (G _ RW) as (v' & E' & R). injection E' as <-. exact R.
  - apply F. intros rw RW. destruct (G _ RW) as (v' & E' & _). discriminate.
Qed.

(** ** The rows of an airport *)
Lemma key_inj s t len acc : code_key len s acc <> code_key len t acc -> s <> t.
Proof. intros H ->. exact (H eq_refl). Qed.
Lemma ascending_later : forall l low x, ascending low l = true -> In x l -> (low < code_key 7 x 0)%N.
Proof.
  induction l as [|y l IH]; intros low x H I; [destruct I|]; destruct I as [-> |I]; cbn [ascending] in H.
  - destruct (N.ltb_spec low (code_key 7 x 0)); [assumption|discriminate].
  - destruct (N.ltb_spec low (code_key 7 y 0)); [|discriminate]. specialize (IH _ _ H I). lia.
Qed.
Lemma ascending_nodup : forall l low, ascending low l = true -> NoDup l.
Proof.
  induction l as [|y l IH]; intros low H; [constructor|]. cbn [ascending] in H.
  destruct (N.ltb_spec low (code_key 7 y 0)); [|discriminate]. constructor; [|exact (IH _ H)].
  intros I. pose proof (ascending_later _ _ _ H I). lia.
Qed.
Lemma codes_nodup : NoDup (map fst shipped_airports).
Proof. exact (ascending_nodup _ _ codes_ascend). Qed.
Lemma not_header code : In code (map fst shipped_airports) -> code <> "airport_ident"%string.
Proof.
  intros I ->. assert (existsb (String.eqb "airport_ident") (map fst shipped_airports) = true) as H; [|rewrite no_header_code in H; discriminate].
  apply existsb_exists. exists "airport_ident"%string. split; [assumption|apply String.eqb_refl].
Qed.
Definition texts (l : list (string * list string)) : list (string * string) := flat_map (fun a => map (pair (fst a)) (snd a)) l.
Lemma texts_in l d : In d (texts l) <-> exists ss, In (fst d, ss) l /\ In (snd d) ss.
Proof.
  unfold texts. rewrite in_flat_map. split.
  - intros ((c & ss) & I & J). cbn in J. apply in_map_iff in J as (s & <- & J). exists ss. cbn. auto.
  - intros (ss & I & J). exists (fst d, ss). split; [assumption|]. cbn. apply in_map_iff. exists (snd d). destruct d; auto.
Qed.
Lemma rows_not l rows code : Forall2 row_of_text rows (texts l) -> ~ In code (map fst l) ->
  Forall (fun r => (3 <= List.length r)%nat /\ ~ of_airport code r) rows.
Proof.
  intros F N. apply Forall_forall. intros r I. apply In_nth_error in I as (n & E).
  assert (exists d, nth_error (texts l) n = Some d /\ row_of_text r d) as (d & E' & R).
  { clear N. revert n E. induction F as [|r' d' rows' ds' R F IH]; intros [|n] E; cbn in E; [discriminate|discriminate| |].
    - injection E as <-. exists d'. split; [reflexivity|exact R].
    - exact (IH _ E). }
  destruct R as (L & A & _). split; [lia|]. intros A'. unfold of_airport in *. rewrite A in A'. injection A' as A'.
  apply nth_error_In in E'. apply texts_in in E' as (ss & I & _). apply N. rewrite <- A'. exact (in_map fst _ _ I).
Qed.
Lemma rows_all code ss rows : Forall2 row_of_text rows (map (pair code) ss) -> Forall (of_airport code) rows.
Proof.
  revert ss. induction rows as [|r rows IH]; intros [|s ss] F; inversion F; subst; constructor.
  - match goal with H : row_of_text _ _ |- _ => exact (proj1 (proj2 H)) end.
  - exact (IH _ ltac:(eassumption)).
Qed.
Lemma group db code ss A B : shipped_database db -> shipped_airports = (A ++ (code, ss) :: B)%list ->
  exists ra mid rb, consecutive db code ((header ++ [""%string])%list :: ra) mid rb /\
    Forall2 row_of_text ra (texts A) /\ Forall2 row_of_text mid (map (pair code) ss).
Proof.
  intros (rows & -> & F) E. change row_texts with (texts shipped_airports) in F. rewrite E in F. unfold texts in F. rewrite flat_map_app in F. cbn [flat_map fst snd] in F.
  apply Forall2_app_inv_r in F as (ra & rest & FA & F & ->). apply Forall2_app_inv_r in F as (mid & rb & FM & FB & ->).
  exists ra, mid, rb. split; [|split; assumption].
  pose proof codes_nodup as N. rewrite E, map_app in N. cbn [map fst] in N. apply NoDup_remove_2 in N.
  split; [reflexivity|]. split; [exact (rows_all _ _ _ FM)|].
  cbn [app]. constructor.
  - split; [cbn; lia|]. unfold of_airport. cbn. intros H. injection H as H. refine (not_header code _ (eq_sym H)). rewrite E, map_app. apply in_app_iff. right. left. reflexivity.
  - apply Forall_app. split.
    + apply (rows_not A); [exact FA|]. intros I. apply N. apply in_app_iff. auto.
    + apply (rows_not B); [exact FB|]. intros I. apply N. apply in_app_iff. auto.
Qed.
Lemma forall2_length {X Y} (P : X -> Y -> Prop) l m : Forall2 P l m -> List.length l = List.length m.
Proof. induction 1; cbn; congruence. Qed.
Lemma forall2_nth {X Y} (P : X -> Y -> Prop) l m n y : Forall2 P l m -> nth_error m n = Some y -> exists x, nth_error l n = Some x /\ P x y.
Proof.
  intros F. revert n. induction F as [|a b l m H F IH]; intros [|n] E; cbn in E; [discriminate|discriminate| |].
  - injection E as <-. exists a. auto.
  - exact (IH _ E).
Qed.
Lemma look db code ss n s : shipped_database db -> In (code, ss) shipped_airports -> nth_error ss n = Some s ->
  match six s with
  | Some v => exists rw, runway_lookup parse_float db code (Z.of_nat n) = Ok (Z.of_nat (List.length ss), rw) /\ reads rw code v
  | None => runway_lookup parse_float db code (Z.of_nat n) = Err ValueError
  end.
Proof.
  intros D I E. apply in_split in I as (A & B & S). destruct (group _ _ _ _ _ D S) as (ra & mid & rb & C & _ & M).
  pose proof (forall2_length _ _ _ M) as LM. rewrite map_length in LM. unfold csvrow in LM.
  destruct (lookup_consecutive parse_float _ _ _ _ _ n C) as (row & ER & EL).
  { rewrite LM. apply nth_error_Some. rewrite E. discriminate. }
  destruct (forall2_nth _ _ _ n (code, s) M) as (row' & ER' & R); [apply map_nth_error; exact E|]. unfold csvrow in ER'. rewrite ER' in ER. injection ER as <-.
  pose proof (row_read _ _ R) as RR. cbn [fst snd] in RR. rewrite EL, LM. destruct (six s) as [v|].
  - destruct RR as (rw & -> & RD). exists rw. split; [reflexivity|exact RD].
  - rewrite RR. reflexivity.
Qed.
Lemma airport_group db code : shipped_database db -> (airport db code <-> exists ss, In (code, ss) shipped_airports /\ ss <> []).
Proof.
  intros (rows & -> & F). unfold airport. cbn [tl]. split.
  - intros (r & I & A). apply In_nth_error in I as (n & E).
    assert (exists d, nth_error row_texts n = Some d /\ row_of_text r d) as (d & E' & R).
    { revert n E. induction F as [|r' d' rows' ds' R F IH]; intros [|n] E; cbn in E; [discriminate|discriminate| |].
      - injection E as <-. exists d'. split; [reflexivity|exact R].
      - exact (IH _ E). }
    destruct R as (_ & A' & _). unfold of_airport in *. rewrite A in A'. injection A' as ->.
    apply nth_error_In in E'. apply (texts_in shipped_airports) in E' as (ss & I & J). exists ss. split; [assumption|]. intros ->. destruct J.
  - intros (ss & I & N). destruct ss as [|s ss]; [congruence|].
    assert (In (code, s) row_texts) as J by (apply (texts_in shipped_airports); exists (s :: ss); split; [exact I|left; reflexivity]).
    apply In_nth_error in J as (n & E). destruct (forall2_nth _ _ _ _ _ F E) as (r & ER & R). exists r.
    split; [exact (nth_error_In _ _ ER)|exact (proj1 (proj2 R))].
Qed.

(** ** All rows *)
Definition ok6 (s : string) : bool := match six s with Some _ => true | None => false end.
Lemma survey_rows_spec c : forall l good fine,
  survey_rows c l good fine = ((good + N.of_nat (List.length (filter ok6 l)))%N, (fine && forallb (fun s => match six s with Some v => plausible c v | None => true end) l)%bool).
Proof.
  induction l as [|s l IH]; intros good fine; cbn [survey_rows filter forallb List.length].
  - f_equal; [cbn; lia|destruct fine; reflexivity].
  - unfold ok6 at 1. destruct (six s) as [v|]; rewrite IH; f_equal.
    + cbn [List.length]. lia.
    + destruct (plausible c v), fine; reflexivity.
Qed.
Definition fine_group (a : string * list string) : bool := forallb (fun s => match six s with Some v => plausible (fst a) v | None => true end) (snd a).
Definition empty_group (a : string * list string) : bool := negb (existsb ok6 (snd a)).
Lemma filter_none {X} (f : X -> bool) l : N.eqb (N.of_nat (List.length (filter f l))) 0 = negb (existsb f l).
Proof. induction l as [|x l IH]; [reflexivity|]. cbn [filter existsb]. destruct (f x); [cbn [List.length orb negb]; apply N.eqb_neq; lia|exact IH]. Qed.
Lemma survey_spec : forall l rows good airports none fine,
  survey l rows good airports none fine =
  ((rows + N.of_nat (List.length (texts l)))%N, (good + N.of_nat (List.length (filter (fun d => ok6 (snd d)) (texts l))))%N,
   (airports + N.of_nat (List.length l))%N, (none + N.of_nat (List.length (filter empty_group l)))%N, (fine && forallb fine_group l)%bool).
Proof.
  induction l as [|(c, ss) l IH]; intros rows good airports none fine; cbn [survey].
  - cbn. rewrite !N.add_0_r, Bool.andb_true_r. reflexivity.
  - rewrite survey_rows_spec, IH. unfold texts. cbn [flat_map fst snd filter forallb]. fold (texts l).
    rewrite app_length, map_length, filter_app, app_length. change (empty_group (c, ss)) with (negb (existsb ok6 ss)).
    replace (List.length (filter (fun d => ok6 (snd d)) (map (pair c) ss))) with (List.length (filter ok6 ss)).
    2: { clear. induction ss as [|s ss IH]; [reflexivity|]. cbn [filter map snd]. destruct (ok6 s); cbn [List.length]; rewrite IH; reflexivity. }
    rewrite N.add_0_l, filter_none. change (fine_group (c, ss)) with (forallb (fun s => match six s with Some v => plausible c v | None => true end) ss).
    rewrite Bool.andb_assoc. destruct (existsb ok6 ss); cbn [negb List.length]; repeat (f_equal; try lia).
Qed.
