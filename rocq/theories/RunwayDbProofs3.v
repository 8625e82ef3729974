(** Proofs about the shipped runway database: counts, exceptions and cases. *)
From Coq Require Import Ascii QArith Qreals.
From Verif Require Import Base BaseFacts AtmosModel ConceptModel PropulsionModel RunwayModel RunwaySpec RunwayProofs ShippedModel RunwayText RunwayDbSpec RunwayDbFacts RunwayDbProofs RunwayDbProofs2.
Open Scope R_scope.

(** ** Counts *)
Lemma read_counts rows ds : Forall2 row_of_text rows ds -> List.length (filter can_be_read rows) = List.length (filter (fun d => ok6 (snd d)) ds).
Proof.
  induction 1 as [|r d rows ds R F IH]; [reflexivity|]. cbn [filter]. pose proof (row_read _ _ R) as E. unfold can_be_read at 1, ok6 at 1.
  destruct (six (snd d)) as [v|]; [destruct E as (rw & -> & _)|rewrite E]; cbn [List.length]; rewrite IH; reflexivity.
Qed.
Lemma counts_of {X} (l : list X) n : N.of_nat (List.length l) = n -> Z.of_nat (List.length l) = Z.of_N n.
Proof. intros <-. rewrite nat_N_Z. reflexivity. Qed.
Lemma db_rows db : shipped_database db -> Z.of_nat (List.length (tl db)) = 40489%Z /\ Z.of_nat (List.length (filter can_be_read (tl db))) = 10425%Z.
Proof.
  intros (rows & -> & F). cbn [tl]. rewrite (forall2_length _ _ _ F), (read_counts _ _ F). destruct (survey_means _ _ _ _ _ surveyed) as (A & B & _).
  split; [exact (counts_of _ _ A)|exact (counts_of _ _ B)].
Qed.
Lemma group_airport db code ss : shipped_database db -> In (code, ss) shipped_airports -> airport db code.
Proof.
  intros D I. apply (airport_group db code D). exists ss. split; [exact I|]. pose proof groups_nonempty as G. rewrite forallb_forall in G. specialize (G _ I). cbn [snd] in G. destruct ss; [discriminate|discriminate].
Qed.
Lemma codes_airports db c : shipped_database db -> airport db c <-> In c (map fst shipped_airports).
Proof.
  intros D. split.
  - intros A. apply (airport_group db c D) in A as (ss & I & _). exact (in_map fst _ _ I).
  - intros I. apply in_map_iff in I as ((c' & ss) & <- & I). exact (group_airport _ _ _ D I).
Qed.
Lemma db_airports db : shipped_database db -> exists codes, NoDup codes /\ Z.of_nat (List.length codes) = 34113%Z /\ forall c, airport db c <-> In c codes.
Proof.
  intros D. exists (map fst shipped_airports). split; [exact codes_nodup|]. split; [|intros c; apply codes_airports; exact D].
  rewrite map_length. destruct (survey_means _ _ _ _ _ surveyed) as (_ & _ & A & _). exact (counts_of _ _ A).
Qed.
Lemma nodup_filter_fst (f : string * list string -> bool) l : NoDup (map fst l) -> NoDup (map fst (filter f l)).
Proof.
  induction l as [|a l IH]; intros N; [constructor|]. inversion N; subst. cbn [filter]. destruct (f a); [|auto]. cbn [map]. constructor; [|auto].
  intros I. apply in_map_iff in I as (b & E & I). apply filter_In in I as (I & _). match goal with H : ~ In _ _ |- _ => apply H end. rewrite <- E. exact (in_map fst _ _ I).
Qed.
Lemma db_unusable db : shipped_database db -> exists codes, NoDup codes /\ Z.of_nat (List.length codes) = 26685%Z /\
  forall c, In c codes -> airport db c /\ forall n rw, (0 <= n)%Z -> ~ gives db c n rw.
Proof.
  intros D. exists (map fst (filter empty_group shipped_airports)). split; [apply nodup_filter_fst; exact codes_nodup|]. split.
  - rewrite map_length. destruct (survey_means _ _ _ _ _ surveyed) as (_ & _ & _ & A & _). exact (counts_of _ _ A).
  - intros c I. apply in_map_iff in I as ((c' & ss) & <- & I). apply filter_In in I as (I & E). cbn [fst]. split; [exact (group_airport _ _ _ D I)|].
    intros n rw N G. destruct (gives_text _ _ _ _ D N G) as (ss' & s & v & I' & ES & E6 & _).
    assert (ss' = ss) as ->.
    { pose proof codes_nodup as ND. clear - I I' ND. revert I I' ND. generalize shipped_airports. induction l as [|a l IH]; intros I I' ND; [destruct I|]. inversion ND; subst.
      destruct I as [-> |I], I' as [E|I'].
      - congruence.
      - exfalso. match goal with H : ~ In _ _ |- _ => apply H end. exact (in_map fst _ _ I').
      - subst a. exfalso. match goal with H : ~ In _ _ |- _ => apply H end. exact (in_map fst _ _ I).
      - auto. }
    unfold empty_group in E. cbn [snd] in E. apply Bool.negb_true_iff in E. assert (existsb ok6 ss = true) as X; [|congruence].
    apply existsb_exists. exists s. split; [exact (nth_error_In _ _ ES)|]. unfold ok6. rewrite E6. reflexivity.
Qed.

(** ** Exceptions *)
Lemma group_of_in c : forall l s, In s (group_of c l) -> In (c, group_of c l) l.
Proof.
  induction l as [|a l IH]; intros s I; [destruct I|]. cbn [group_of] in *. destruct (String.eqb_spec (fst a) c) as [<- |N].
  - left. destruct a; reflexivity.
  - right. exact (IH _ I).
Qed.
Lemma shown db P c : shipped_database db -> shows P c = true -> exists n rw v, (0 <= n)%Z /\ gives db c n rw /\ reads rw c v /\ P v = true.
Proof.
  intros D S. apply existsb_exists in S as (s & I & E). pose proof (group_of_in _ _ _ I) as G. apply In_nth_error in I as (n & ES).
  pose proof (look _ _ _ _ _ D G ES) as L. destruct (six s) as [v|]; [|discriminate]. destruct L as (rw & L & R).
  exists (Z.of_nat n), rw, v. split; [lia|]. split; [eexists; exact L|]. split; assumption.
Qed.
Lemma six_reads rw c v : reads rw c v -> exists l w e1 h1 e2 h2, v = [l; w; e1; h1; e2; h2] /\ length_ft rw = Fin (Q2R l) /\ width_ft rw = Fin (Q2R w) /\
  le_elevation_ft rw = Fin (Q2R e1) /\ le_heading_degt rw = Fin (Q2R h1) /\ he_elevation_ft rw = Fin (Q2R e2) /\ he_heading_degt rw = Fin (Q2R h2).
Proof.
  intros (_ & R). destruct v as [|l [|w [|e1 [|h1 [|e2 [|h2 [|]]]]]]]; try discriminate. injection R as R0 R1 R2 R3 R4 R5.
  exists l, w, e1, h1, e2, h2. repeat split; congruence.
Qed.
Lemma Q2R_Z z : Q2R (Qmake z 1) = IZR z.
Proof. unfold Q2R. cbn. lra. Qed.
Lemma db_crooked db c : shipped_database db -> In c crooked ->
  exists n rw h1 h2, (0 <= n)%Z /\ gives db c n rw /\ le_heading_degt rw = Fin h1 /\ he_heading_degt rw = Fin h2 /\ 10 < Rabs (Rabs (h1 - h2) - 180).
Proof.
  intros D I. pose proof crooked_shown as C. rewrite forallb_forall in C. destruct (shown _ _ _ D (C _ I)) as (n & rw & v & N & G & R & P).
  destruct (six_reads _ _ _ R) as (l & w & e1 & h1 & e2 & h2 & -> & _ & _ & _ & H1 & _ & H2). exists n, rw, (Q2R h1), (Q2R h2). do 4 (split; [assumption|]).
  unfold off_line in P. apply Bool.negb_true_iff in P. apply Qlt_R in P. rewrite Q2R_off, Q2R_Z in P. exact P.
Qed.
Lemma db_beyond db c : shipped_database db -> In c ["EGCL"; "EGED"]%string ->
  exists n rw h2, (0 <= n)%Z /\ gives db c n rw /\ he_heading_degt rw = Fin h2 /\ 360 < h2.
Proof.
  intros D I. pose proof beyond_shown as C. rewrite forallb_forall in C. destruct (shown _ _ _ D (C _ I)) as (n & rw & v & N & G & R & P).
  destruct (six_reads _ _ _ R) as (l & w & e1 & h1 & e2 & h2 & -> & _ & _ & _ & H1 & _ & H2). exists n, rw, (Q2R h2). do 3 (split; [assumption|]).
  unfold beyond_360 in P. apply Bool.negb_true_iff in P. apply Qlt_R in P. rewrite Q2R_Z in P. exact P.
Qed.
Lemma db_wide db c : shipped_database db -> In c ["CPC7"; "EINN"]%string ->
  exists n rw l w, (0 <= n)%Z /\ gives db c n rw /\ length_ft rw = Fin l /\ width_ft rw = Fin w /\ l < w.
Proof.
  intros D I. pose proof wide_shown as C. rewrite forallb_forall in C. destruct (shown _ _ _ D (C _ I)) as (n & rw & v & N & G & R & P).
  destruct (six_reads _ _ _ R) as (l & w & e1 & h1 & e2 & h2 & -> & L & W & _). exists n, rw, (Q2R l), (Q2R w). do 4 (split; [assumption|]).
  unfold too_wide in P. apply Bool.negb_true_iff in P. apply Qlt_R in P. exact P.
Qed.

(** ** Cases *)
Lemma db_heathrow db : shipped_database db -> exists rw, runway_lookup parse_float db "EGLL" 0 = Ok (2%Z, rw) /\
  le_heading_degt rw = Fin 89.6 /\ he_heading_degt rw = Fin 269.6 /\ le_elevation_ft rw = Fin 79 /\ length_ft rw = Fin 12799.
Proof.
  intros D. assert (In ("EGLL"%string, group_of "EGLL" shipped_airports) shipped_airports) as I by (apply (group_of_in _ _ "12799,164,79,89.6,78,269.6"); rewrite heathrow; left; reflexivity).
  rewrite heathrow in I. pose proof (look _ _ _ 0%nat _ D I eq_refl) as L.
  replace (six "12799,164,79,89.6,78,269.6") with (Some [Qmake 12799 1; Qmake 164 1; Qmake 79 1; Qmake 896 10; Qmake 78 1; Qmake 2696 10]) in L by (vm_compute; reflexivity).
  destruct L as (rw & L & (_ & R)). exists rw. split; [exact L|]. injection R as R0 R1 R2 R3 R4 R5. rewrite <- R3, <- R5, <- R2, <- R0. repeat split; f_equal; unfold Q2R; cbn; lra.
Qed.
Lemma db_denver db : shipped_database db -> exists rw, runway_lookup parse_float db "KDEN" 0 = Ok (6%Z, rw) /\ le_heading_degt rw = Fin 90.5.
Proof.
  intros D. destruct denver as (L6 & r & E).
  assert (In ("KDEN"%string, group_of "KDEN" shipped_airports) shipped_airports) as I by (apply (group_of_in _ _ "12000,150,5347,90.5,5352,270.5"); rewrite E; left; reflexivity).
  assert (nth_error (group_of "KDEN" shipped_airports) 0 = Some "12000,150,5347,90.5,5352,270.5"%string) as E0 by (rewrite E; reflexivity).
  pose proof (look _ _ _ 0%nat _ D I E0) as L. rewrite L6 in L.
  replace (six "12000,150,5347,90.5,5352,270.5") with (Some [Qmake 12000 1; Qmake 150 1; Qmake 5347 1; Qmake 905 10; Qmake 5352 1; Qmake 2705 10]) in L by (vm_compute; reflexivity).
  destruct L as (rw & L & (_ & R)). exists rw. split; [exact L|]. injection R as R0 R1 R2 R3 R4 R5. rewrite <- R3. f_equal; unfold Q2R; cbn; lra.
Qed.
Lemma neighbours_split c : forall l a b, neighbours c l = Some (a, b) -> exists x y, l = (x ++ a :: b :: y)%list.
Proof.
  induction l as [|p l IH]; intros a b E; [discriminate|]. destruct l as [|q l]; [discriminate|]. cbn [neighbours] in E.
  destruct (String.eqb (fst q) c); [injection E as <- <-; exists [], l; reflexivity|]. destruct (IH _ _ E) as (x & y & Z). exists (p :: x), y. cbn. rewrite Z. reflexivity.
Qed.
Lemma shift_one {X} (l x y : list X) a b : l = (x ++ a :: b :: y)%list -> l = ((x ++ [a]) ++ b :: y)%list.
Proof. intros ->. rewrite <- app_assoc. reflexivity. Qed.
Lemma db_negative db : shipped_database db -> exists rw, gives db "2K1" (-1) rw /\ airport_ident rw = "2K0"%string.
Proof.
  intros D. destruct two as (r & T). apply neighbours_split in T as (x & y & S).
  apply shift_one in S.
  destruct (group _ _ _ _ _ D S) as (ra & mid & rb & C & FA & FM). unfold texts in FA. rewrite flat_map_app in FA. cbn [flat_map fst snd map app] in FA.
  apply Forall2_app_inv_r in FA as (rx & r1 & _ & F1 & ->). inversion F1 as [|row d r2 ds R F2]; subst. inversion F2; subst.
  pose proof (row_read _ _ R) as RR. cbn [fst snd] in RR.
  replace (six "2797,100,737,179,722,360") with (Some [Qmake 2797 1; Qmake 100 1; Qmake 737 1; Qmake 179 1; Qmake 722 1; Qmake 360 1]) in RR by (vm_compute; reflexivity).
  destruct RR as (rw & RW & (A & _)). exists rw. split; [|exact A].
  assert (r <> []) as NE.
  { intros ->. pose proof groups_nonempty as G. rewrite forallb_forall in G. specialize (G ("2K1"%string, [])). cbn [snd] in G. discriminate G. rewrite S. apply in_app_iff. right. left. reflexivity. }
  exists (Z.of_nat (List.length mid)). unfold runway_lookup. rewrite (rindlst_consecutive _ _ _ _ _ C). cbn [rbind]. rewrite seq_length.
  assert (0 < List.length mid)%nat as LM. { pose proof (forall2_length _ _ _ FM) as L. rewrite map_length in L. unfold csvrow in L. rewrite L. destruct r; [congruence|cbn; lia]. }
  rewrite Z.gtb_ltb. destruct (Z.ltb_spec (Z.of_nat (List.length mid) - 1) (-1)); [lia|].
  destruct C as (-> & _ & _). destruct mid as [|m0 mid]; [cbn in LM; lia|]. cbn [List.length seq].
  match goal with |- context [pyindex (?k :: ?t) 0] => change (pyindex (k :: t) 0) with (pyindex (k :: t) (Z.of_nat 0)) end.
  rewrite pyindex_nth. cbn [nth_error rbind].
  rewrite app_length. cbn [List.length].
  replace (Z.of_nat (Datatypes.S (List.length rx + 1)) + -1)%Z with (Z.of_nat (Datatypes.S (List.length rx))) by lia.
  rewrite pyindex_nth. cbn [app nth_error]. rewrite <- app_assoc, nth_error_app2, Nat.sub_diag by lia. cbn [app nth_error rbind]. rewrite RW. reflexivity.
Qed.

(** ** A database *)
Definition made (d : string * string) : csvrow :=
  let f i := nth i (split_on ","%char (snd d)) ""%string in
  [""; ""; fst d; f 0%nat; f 1%nat; ""; ""; ""; ""; ""; ""; f 2%nat; f 3%nat; ""; ""; ""; ""; f 4%nat; f 5%nat; ""]%string.
Lemma made_ok d : row_of_text (made d) d.
Proof.
  split; [reflexivity|]. split; [reflexivity|]. intros i k I. repeat (destruct I as [I|I]; [injection I as <- <-; reflexivity|]). destruct I.
Qed.
Lemma db_exists : exists db, shipped_database db.
Proof.
  exists ((header ++ [""%string])%list :: map made row_texts). eexists. split; [reflexivity|]. generalize row_texts. induction l; constructor; [apply made_ok|assumption].
Qed.
