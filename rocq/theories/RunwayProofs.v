(** Proofs about runways, handbook profiles and METAR files. *)
From Coq Require Import Ascii.
From Verif Require Import Base BaseFacts UnitsModel AtmosModel RunwayModel RunwaySpec AtmosProofs3.
Open Scope R_scope.

(** ** Python indexing *)
Lemma pyindex_nth {A} (l : list A) n : pyindex l (Z.of_nat n) =
  match nth_error l n with Some x => Ok x | None => Err IndexError end.
Proof.
  unfold pyindex. replace (Z.of_nat n <? 0)%Z with false by (symmetry; apply Z.ltb_ge; lia).
  replace (Z.of_nat n <? 0)%Z with false by (symmetry; apply Z.ltb_ge; lia). cbn [orb].
  destruct (Z.leb_spec (Z.of_nat (List.length l)) (Z.of_nat n)).
  - destruct (nth_error l n) eqn:E; [|reflexivity].
    assert (nth_error l n <> None) by congruence. apply nth_error_Some in H0. lia.
  - rewrite Nat2Z.id. destruct (nth_error l n); reflexivity.
Qed.
Lemma pyindex_neg {A} (l : list A) n : (0 < n)%nat -> pyindex l (- Z.of_nat n) =
  if (List.length l <? n)%nat then Err IndexError
  else match nth_error l (List.length l - n) with Some x => Ok x | None => Err IndexError end.
Proof.
  intros Hn. unfold pyindex.
  replace (- Z.of_nat n <? 0)%Z with true by (symmetry; apply Z.ltb_lt; lia).
  destruct (Nat.ltb_spec (List.length l) n).
  - replace (- Z.of_nat n + Z.of_nat (List.length l) <? 0)%Z with true by (symmetry; apply Z.ltb_lt; lia).
    reflexivity.
  - replace (- Z.of_nat n + Z.of_nat (List.length l) <? 0)%Z with false by (symmetry; apply Z.ltb_ge; lia).
    replace (Z.of_nat (List.length l) <=? - Z.of_nat n + Z.of_nat (List.length l))%Z with false
      by (symmetry; apply Z.leb_gt; lia).
    cbn [orb].
    replace (Z.to_nat (- Z.of_nat n + Z.of_nat (List.length l))) with (List.length l - n)%nat by lia.
    reflexivity.
Qed.
Lemma pyindex_ok {A} (l : list A) z x : pyindex l z = Ok x -> In x l.
Proof.
  unfold pyindex. destruct (_ || _)%bool; [discriminate|].
  destruct (nth_error l _) eqn:E; [|discriminate]. intros H. injection H as <-.
  eapply nth_error_In; eassumption.
Qed.

(** ** C15 *)
Lemma rel_angle d h : ndeg2rad (Fin d - Fin h)%num = Fin ((d - h) / 180 * PI).
Proof. unfold ndeg2rad. simpl. f_equal. field. Qed.

Lemma resolved h d w : wind_resolved h d w (w * cos ((d - h) / 180 * PI)) (w * sin ((d - h) / 180 * PI)).
Proof.
  split; [|split; reflexivity]. pose proof (sin2_cos2 ((d - h) / 180 * PI)) as T. unfold Rsqr in T.
  replace (w ^ 2) with (w ^ 2 * (sin ((d - h) / 180 * PI) * sin ((d - h) / 180 * PI) +
     cos ((d - h) / 180 * PI) * cos ((d - h) / 180 * PI))) by (rewrite T; ring).
  ring.
Qed.

Lemma wind_scalar rw h d w : le_heading_degt rw = Fin h ->
  exists a c, windcomponents rw (VNum (Fin d)) (VNum (Fin w)) = Ok (VNum (Fin a), VNum (Fin c)) /\
   wind_resolved h d (Rabs w) a c.
Proof.
  intros E. unfold windcomponents. rewrite E. cbn [recastasnpfloatarray map]. rewrite rel_angle.
  unfold broadcast. cbn. do 2 eexists. split; [reflexivity|]. apply resolved.
Qed.

Lemma wind_bcast (f : num -> num -> num) l m : List.length l = List.length m ->
  broadcast f l m = Ok (map (fun p => f (fst p) (snd p)) (combine l m)).
Proof. intros H. unfold broadcast. rewrite H, Nat.eqb_refl. reflexivity. Qed.

Lemma wind_arrays rw h ds ws : le_heading_degt rw = Fin h -> List.length ds = List.length ws ->
  forall dv, dv = VList (map Fin ds) \/ dv = VArr (map Fin ds) ->
  exists hs cs, windcomponents rw dv (VList (map Fin ws)) = Ok (VArr (map Fin hs), VArr (map Fin cs)) /\
   List.length hs = List.length ds /\ List.length cs = List.length ds /\
   forall n d w, nth_error ds n = Some d -> nth_error ws n = Some w ->
     exists a c, nth_error hs n = Some a /\ nth_error cs n = Some c /\ wind_resolved h d (Rabs w) a c.
Proof.
  intros E L dv Hdv.
  exists (map (fun p => Rabs (snd p) * cos ((fst p - h) / 180 * PI)) (combine ds ws)),
         (map (fun p => Rabs (snd p) * sin ((fst p - h) / 180 * PI)) (combine ds ws)).
  assert (R : recastasnpfloatarray dv = map Fin ds) by (destruct Hdv as [-> | ->]; reflexivity).
  assert (M : windcomponents rw dv (VList (map Fin ws)) =
    (do a <- broadcast nmul (map nabs (map Fin ws)) (map ncos (map (fun d => ndeg2rad (d - Fin h)%num) (map Fin ds)));
     do b <- broadcast nmul (map nabs (map Fin ws)) (map nsin (map (fun d => ndeg2rad (d - Fin h)%num) (map Fin ds)));
     Ok (VArr a, VArr b))).
  { unfold windcomponents. rewrite R, E. destruct Hdv as [-> | ->]; reflexivity. }
  rewrite M. clear M R Hdv.
  rewrite !wind_bcast by (rewrite !map_length; congruence). cbn [rbind].
  assert (X : forall (f : R -> num) (g : R -> R) (k : num -> num), (forall d, f d = k (ndeg2rad (Fin d - Fin h)%num)) ->
      (forall d, f d = Fin (g d)) ->
      map (fun p => nmul (fst p) (snd p)) (combine (map nabs (map Fin ws))
         (map k (map (fun d => ndeg2rad (d - Fin h)%num) (map Fin ds)))) =
      map Fin (map (fun p => Rabs (snd p) * g (fst p)) (combine ds ws))).
  { intros f g k F G. clear E. revert ws L. induction ds as [|d ds IH]; intros [|w ws] L; try discriminate; [reflexivity|].
    cbn [map combine fst snd]. rewrite <- F, G. f_equal. apply IH. now injection L. }
  split.
  { do 2 f_equal; f_equal.
    - apply (X (fun d => Fin (cos ((d - h) / 180 * PI))) (fun d => cos ((d - h) / 180 * PI)) ncos);
        [intros; rewrite rel_angle; reflexivity|reflexivity].
    - apply (X (fun d => Fin (sin ((d - h) / 180 * PI))) (fun d => sin ((d - h) / 180 * PI)) nsin);
        [intros; rewrite rel_angle; reflexivity|reflexivity]. }
  rewrite !map_length, !combine_length. split; [lia|]. split; [lia|].
  intros n d w Hd Hw. pose proof (combine_nth ds ws n d w Hd Hw) as C.
  do 2 eexists. split; [apply (map_nth_error _ _ _ C)|]. split; [apply (map_nth_error _ _ _ C)|].
  apply resolved.
Qed.

Lemma wind_mismatch rw h ds ws : le_heading_degt rw = Fin h ->
  (2 <= List.length ds)%nat -> (2 <= List.length ws)%nat -> List.length ds <> List.length ws ->
  windcomponents rw (VList (map Fin ds)) (VList (map Fin ws)) = Err ValueError.
Proof.
  intros E L1 L2 N. unfold windcomponents. cbn [recastasnpfloatarray]. unfold broadcast.
  rewrite !map_length. destruct (Nat.eqb_spec (List.length ws) (List.length ds)); [congruence|].
  destruct ws as [|w [|w' ws]]; simpl in L2; [lia|lia|].
  destruct ds as [|d [|d' ds]]; simpl in L1; [lia|lia|]. reflexivity.
Qed.

Lemma resolved_inj h d w a c a' c' : wind_resolved h d w a c -> wind_resolved h d w a' c' -> a = a' /\ c = c'.
Proof. intros (_ & -> & ->) (_ & -> & ->). auto. Qed.

Lemma wind_full_turn rw h d w : le_heading_degt rw = Fin h ->
  windcomponents rw (VNum (Fin (d + 360))) (VNum (Fin w)) = windcomponents rw (VNum (Fin d)) (VNum (Fin w)).
Proof.
  intros E. unfold windcomponents. rewrite E. cbn [recastasnpfloatarray map]. rewrite !rel_angle.
  replace ((d + 360 - h) / 180 * PI) with ((d - h) / 180 * PI + 2 * PI) by (field).
  unfold broadcast. cbn. rewrite cos_plus, sin_plus, cos_2PI, sin_2PI.
  rewrite !Rmult_1_r, !Rmult_0_r, Rminus_0_r, Rplus_0_r. reflexivity.
Qed.

Lemma wind_reversed rw h d w : le_heading_degt rw = Fin h -> exists a c,
  windcomponents rw (VNum (Fin d)) (VNum (Fin w)) = Ok (VNum (Fin a), VNum (Fin c)) /\
  windcomponents rw (VNum (Fin (d + 180))) (VNum (Fin w)) = Ok (VNum (Fin (- a)), VNum (Fin (- c))).
Proof.
  intros E. unfold windcomponents. rewrite E. cbn [recastasnpfloatarray map]. rewrite !rel_angle.
  replace ((d + 180 - h) / 180 * PI) with ((d - h) / 180 * PI + PI) by (field).
  unfold broadcast. cbn. do 2 eexists. split; [reflexivity|].
  rewrite neg_cos, neg_sin. rewrite !Ropp_mult_distr_r. reflexivity.
Qed.

Lemma wind_sign rw d w : windcomponents rw (VNum d) (VNum (Fin (- w))) = windcomponents rw (VNum d) (VNum (Fin w)).
Proof. unfold windcomponents. cbn [recastasnpfloatarray map nabs lift1]. rewrite Rabs_Ropp. reflexivity. Qed.

Lemma wind_axes rw h w : le_heading_degt rw = Fin h -> 0 <= w ->
  windcomponents rw (VNum (Fin h)) (VNum (Fin w)) = Ok (VNum (Fin w), VNum (Fin 0)) /\
  windcomponents rw (VNum (Fin (h + 90))) (VNum (Fin w)) = Ok (VNum (Fin 0), VNum (Fin w)).
Proof.
  intros E W. unfold windcomponents. rewrite E. cbn [recastasnpfloatarray map]. rewrite !rel_angle.
  replace ((h - h) / 180 * PI) with 0 by field.
  replace ((h + 90 - h) / 180 * PI) with (PI / 2) by field.
  unfold broadcast. cbn. rewrite cos_0, sin_0, cos_PI2, sin_PI2, !Rmult_1_r, !Rmult_0_r.
  rewrite Rabs_right by lra. auto.
Qed.

(** a scalar direction with several speeds: only the first speed is resolved *)
Lemma wind_drops rw h d w ws : le_heading_degt rw = Fin h ->
  windcomponents rw (VNum (Fin d)) (VList (map Fin (w :: ws))) =
  windcomponents rw (VNum (Fin d)) (VNum (Fin w)).
Proof.
  intros E. unfold windcomponents. rewrite E. cbn [recastasnpfloatarray map]. rewrite !rel_angle.
  unfold broadcast. cbn [map List.length].
  destruct ws as [|w' ws]; [reflexivity|]. cbn. reflexivity.
Qed.

(** ** C16 *)
Section LookupProofs.
Variable pfloat : string -> option num.

Lemma rindlst_app i a b code x y : rindlst i a code = Ok x -> rindlst (i + List.length a) b code = Ok y ->
  rindlst i (a ++ b) code = Ok (x ++ y).
Proof.
  revert i x. induction a as [|r a IH]; intros i x Ha Hb.
  - injection Ha as <-. rewrite Nat.add_0_r in Hb. exact Hb.
  - cbn [rindlst app] in *. destruct (pyindex r 2) as [f|e]; [|discriminate]. cbn [rbind] in *.
    destruct (rindlst (S i) a code) as [t|e] eqn:Et; [|discriminate]. cbn [rbind] in *.
    rewrite (IH (S i) t Et) by (rewrite <- Hb; f_equal; simpl; lia). cbn [rbind].
    injection Ha as <-. destruct (String.eqb f code); reflexivity.
Qed.

Lemma third (r : csvrow) : pyindex r 2 = match nth_error r 2 with Some x => Ok x | None => Err IndexError end.
Proof. apply (pyindex_nth r 2). Qed.

Lemma rindlst_none i l code : Forall (fun r => (3 <= List.length r)%nat /\ ~ of_airport code r) l ->
  rindlst i l code = Ok [].
Proof.
  intros F. revert i. induction F as [|r l [H1 H2] F IH]; intros i; [reflexivity|].
  cbn [rindlst]. rewrite third. destruct (nth_error r 2) as [f|] eqn:E.
  - cbn [rbind]. rewrite IH. cbn [rbind]. destruct (String.eqb_spec f code); [|reflexivity].
    subst. exfalso. apply H2. exact E.
  - apply nth_error_None in E. lia.
Qed.

Lemma rindlst_all i l code : Forall (of_airport code) l -> rindlst i l code = Ok (seq i (List.length l)).
Proof.
  intros F. revert i. induction F as [|r l H F IH]; intros i; [reflexivity|].
  cbn [rindlst List.length seq]. rewrite third. unfold of_airport in H. rewrite H. cbn [rbind].
  rewrite IH. cbn [rbind]. rewrite String.eqb_refl. reflexivity.
Qed.

Lemma rindlst_consecutive db code pre mid post : consecutive db code pre mid post ->
  rindlst 0 db code = Ok (seq (List.length pre) (List.length mid)).
Proof.
  intros (-> & Fm & F). apply Forall_app in F as [F1 F2].
  rewrite <- (app_nil_r (seq _ _)).
  change (seq (List.length pre) (List.length mid) ++ []) with ([] ++ (seq (List.length pre) (List.length mid) ++ [])).
  apply rindlst_app; [apply rindlst_none; exact F1|].
  apply rindlst_app; [apply rindlst_all; exact Fm|apply rindlst_none; exact F2].
Qed.

Lemma lookup_consecutive db code pre mid post n : consecutive db code pre mid post ->
  (n < List.length mid)%nat ->
  exists row, nth_error mid n = Some row /\
    runway_lookup pfloat db code (Z.of_nat n) =
    rmap (fun rw => (Z.of_nat (List.length mid), rw)) (runway_of_row pfloat row).
Proof.
  intros C L. pose proof (rindlst_consecutive _ _ _ _ _ C) as R.
  destruct (nth_error mid n) as [row|] eqn:E; [|apply nth_error_None in E; lia].
  exists row. split; [reflexivity|]. unfold runway_lookup. rewrite R. cbn [rbind].
  rewrite seq_length. rewrite Z.gtb_ltb.
  destruct (Z.ltb_spec (Z.of_nat (List.length mid) - 1) (Z.of_nat n)); [lia|].
  destruct mid as [|m0 mid]; [simpl in L; lia|]. cbn [List.length seq].
  change (pyindex (List.length pre :: seq (S (List.length pre)) (List.length mid)) 0)
    with (pyindex (List.length pre :: seq (S (List.length pre)) (List.length mid)) (Z.of_nat 0)).
  rewrite pyindex_nth. cbn [nth_error rbind].
  replace (Z.of_nat (List.length pre) + Z.of_nat n)%Z with (Z.of_nat (List.length pre + n)) by lia.
  rewrite pyindex_nth. destruct C as (-> & _ & _).
  rewrite nth_error_app2 by lia. replace (List.length pre + n - List.length pre)%nat with n by lia.
  rewrite nth_error_app1 by assumption. rewrite E. cbn [rbind].
  destruct (runway_of_row pfloat row); reflexivity.
Qed.

Lemma rindlst_sound db code : forall i inds, rindlst i db code = Ok inds ->
  forall k, In k inds <-> (i <= k /\ exists r, nth_error db (k - i) = Some r /\ of_airport code r)%nat.
Proof.
  induction db as [|r db IH]; intros i inds H k.
  - injection H as <-. split; [intros []|]. intros [_ (r & E & _)]. destruct (k - i)%nat; discriminate.
  - cbn [rindlst] in H. rewrite third in H.
    destruct (nth_error r 2) as [f|] eqn:Ef; [|discriminate]. cbn [rbind] in H.
    destruct (rindlst (S i) db code) as [t|e] eqn:Et; [|discriminate]. cbn [rbind] in H. injection H as <-.
    specialize (IH (S i) t Et k).
    assert (G : In k t <-> (i < k /\ exists r', nth_error (r :: db) (k - i) = Some r' /\ of_airport code r')%nat).
    { rewrite IH. split.
      - intros [A (r' & B & C)]. split; [lia|]. exists r'. replace (k - i)%nat with (S (k - S i)) by lia. auto.
      - intros [A (r' & B & C)]. split; [lia|]. exists r'. replace (k - i)%nat with (S (k - S i)) in B by lia. auto. }
    destruct (String.eqb_spec f code) as [->|N].
    + split.
      * intros [<-|H]; [|apply G in H; destruct H; split; [lia|assumption]].
        split; [lia|]. exists r. rewrite Nat.sub_diag. split; [reflexivity|exact Ef].
      * intros [A B]. destruct (Nat.eq_dec i k); [left; assumption|]. right. apply G. split; [lia|exact B].
    + rewrite G. split; [intros [A B]; split; [lia|exact B]|].
      intros [A (r' & B & C)]. split; [|exists r'; auto].
      destruct (Nat.eq_dec i k) as [->|]; [|lia].
      rewrite Nat.sub_diag in B. injection B as <-. unfold of_airport in C. congruence.
Qed.

Lemma rindlst_length db code : forall i inds, rindlst i db code = Ok inds ->
  List.length inds = List.length (rows_of db code).
Proof.
  induction db as [|r db IH]; intros i inds H; [injection H as <-; reflexivity|].
  cbn [rindlst rows_of] in *. rewrite third in H.
  destruct (nth_error r 2) as [f|]; [|discriminate]. cbn [rbind] in H.
  destruct (rindlst (S i) db code) eqn:Et; [|discriminate]. cbn [rbind] in H. injection H as <-.
  specialize (IH _ _ Et). destruct (String.eqb f code); simpl; congruence.
Qed.

(** too large a number, for every database *)
Lemma lookup_too_large db code n : Forall (fun r => (3 <= List.length r)%nat) db ->
  (Z.of_nat (List.length (rows_of db code)) <= n)%Z ->
  runway_lookup pfloat db code n = Err ValueError.
Proof.
  intros F H. unfold runway_lookup.
  assert (G : forall i, exists inds, rindlst i db code = Ok inds).
  { clear H. induction F as [|r db Hr F IH]; intros i; [eexists; reflexivity|].
    cbn [rindlst]. rewrite third.
    destruct (nth_error r 2) eqn:E; [|apply nth_error_None in E; lia]. cbn [rbind].
    destruct (IH (S i)) as [t ->]. eexists; reflexivity. }
  destruct (G O) as [inds E]. rewrite E. cbn [rbind]. rewrite (rindlst_length _ _ _ _ E).
  rewrite Z.gtb_ltb.
  destruct (Z.ltb_spec (Z.of_nat (List.length (rows_of db code)) - 1) n); [reflexivity|lia].
Qed.

(** an unknown airport never yields a runway *)
Lemma lookup_unknown db code n rw : (forall r, In r db -> ~ of_airport code r) ->
  runway_lookup pfloat db code n <> Ok rw.
Proof.
  intros N. unfold runway_lookup. destruct (rindlst 0 db code) as [inds|e] eqn:E; [|discriminate].
  cbn [rbind]. assert (inds = []) as ->.
  { destruct inds as [|k inds]; [reflexivity|exfalso].
    destruct (proj1 (rindlst_sound _ _ _ _ E k) (or_introl eq_refl)) as [_ (r & A & B)].
    apply (N r); [eapply nth_error_In; eassumption|exact B]. }
  destruct (n >? _)%Z; [discriminate|]. discriminate.
Qed.
End LookupProofs.

Section RowProofs.
Variable pfloat : string -> option num.

Lemma pyindex_at (r : csvrow) z k : z = Z.of_nat k -> (k < List.length r)%nat ->
  exists f, nth_error r k = Some f /\ pyindex r z = Ok f.
Proof.
  intros -> L. rewrite pyindex_nth. destruct (nth_error r k) eqn:E; [eauto|].
  apply nth_error_None in E. lia.
Qed.
Lemma pyindex_out (r : csvrow) z k : z = Z.of_nat k -> (List.length r <= k)%nat -> pyindex r z = Err IndexError.
Proof. intros -> L. rewrite pyindex_nth. apply nth_error_None in L. rewrite L. reflexivity. Qed.

Lemma bind_ok {A B} (x : res A) (f : A -> res B) b : rbind x f = Ok b -> exists a, x = Ok a /\ f a = Ok b.
Proof. destruct x; [eauto|discriminate]. Qed.

Lemma row_twenty r rw : runway_of_row pfloat r = Ok rw -> (20 <= List.length r)%nat.
Proof.
  unfold runway_of_row. intros H.
  repeat match type of H with rbind _ _ = Ok _ =>
    apply bind_ok in H; destruct H as (? & ? & H) end.
  destruct (Nat.le_gt_cases (List.length r) 19) as [L|L]; [exfalso|lia].
  match goal with E : pyindex r 19 = Ok _ |- _ => rewrite (pyindex_out r 19 19 eq_refl L) in E; discriminate end.
Qed.

Lemma twenty_cons {A} (r : list A) : (20 <= List.length r)%nat ->
  exists a0 a1 a2 a3 a4 a5 a6 a7 a8 a9 a10 a11 a12 a13 a14 a15 a16 a17 a18 a19 t,
  r = a0 :: a1 :: a2 :: a3 :: a4 :: a5 :: a6 :: a7 :: a8 :: a9 :: a10 :: a11 :: a12 ::
      a13 :: a14 :: a15 :: a16 :: a17 :: a18 :: a19 :: t.
Proof.
  intros H. do 20 (destruct r as [|? r]; [simpl in H; lia|]).
  do 21 eexists. reflexivity.
Qed.

Lemma pyi_pos {A} (l : list A) p : pyindex l (Z.pos p) =
  match nth_error l (Pos.to_nat p) with Some x => Ok x | None => Err IndexError end.
Proof. rewrite <- positive_nat_Z. apply pyindex_nth. Qed.
Lemma pyi_0 {A} (l : list A) : pyindex l 0 =
  match nth_error l 0 with Some x => Ok x | None => Err IndexError end.
Proof. apply (pyindex_nth l 0). Qed.

Ltac posnat := repeat match goal with
  | H : context [Pos.to_nat ?p] |- _ => let n := eval compute in (Pos.to_nat p) in change (Pos.to_nat p) with n in H
  | |- context [Pos.to_nat ?p] => let n := eval compute in (Pos.to_nat p) in change (Pos.to_nat p) with n
  end.

Lemma row_attributes r rw : runway_of_row pfloat r = Ok rw ->
  (forall name get, In (name, get) text_attrs -> exists s, column header r name = Some s /\ get rw = AText s) /\
  (forall name get, In (name, get) number_attrs ->
     exists s x, column header r name = Some s /\ pfloat s = Some x /\ get rw = x) /\
  (forall name get, In (name, get) threshold_attrs ->
     exists s, column header r name = Some s /\
       get rw = match pfloat s with Some x => x | None => NonFin end) /\
  column header r "airport_ident" = Some (airport_ident rw) /\
  column header r "surface" = Some (surface rw).
Proof.
  intros H. pose proof (row_twenty r rw H) as L.
  destruct (twenty_cons r L) as (a0&a1&a2&a3&a4&a5&a6&a7&a8&a9&a10&a11&a12&a13&a14&a15&a16&a17&a18&a19&t&->).
  unfold runway_of_row in H. rewrite !pyi_pos, pyi_0 in H.
  posnat; cbn [nth_error rbind] in H. unfold tofloat in H.
  destruct (pfloat a3) as [x3|] eqn:E3; cbn [rbind] in H; [|discriminate H].
  destruct (pfloat a4) as [x4|] eqn:E4; cbn [rbind] in H; [|discriminate H].
  destruct (pfloat a11) as [x11|] eqn:E11; cbn [rbind] in H; [|discriminate H].
  destruct (pfloat a12) as [x12|] eqn:E12; cbn [rbind] in H; [|discriminate H].
  destruct (pfloat a17) as [x17|] eqn:E17; cbn [rbind] in H; [|discriminate H].
  destruct (pfloat a18) as [x18|] eqn:E18; cbn [rbind] in H; [|discriminate H].
  injection H as <-.
  split.
  { intros name get I. cbn in I.
    repeat (destruct I as [I|I]; [injection I as <- <-; eexists; split; reflexivity|]). destruct I. }
  split.
  { intros name get I. cbn in I.
    repeat (destruct I as [I|I]; [injection I as <- <-; do 2 eexists; split; [reflexivity|]; split; [eassumption|reflexivity]|]).
    destruct I. }
  split.
  { intros name get I. cbn in I.
    repeat (destruct I as [I|I]; [injection I as <- <-; eexists; split; reflexivity|]). destruct I. }
  split; reflexivity.
Qed.

(** a row of the database can be used exactly if its six numbers can be read *)
Lemma row_usable r : (20 <= List.length r)%nat ->
  ((exists rw, runway_of_row pfloat r = Ok rw) <->
   forall name, In name (map fst number_attrs) ->
     exists s x, column header r name = Some s /\ pfloat s = Some x) /\
  ((forall rw, runway_of_row pfloat r <> Ok rw) -> runway_of_row pfloat r = Err ValueError).
Proof.
  intros L.
  destruct (twenty_cons r L) as (a0&a1&a2&a3&a4&a5&a6&a7&a8&a9&a10&a11&a12&a13&a14&a15&a16&a17&a18&a19&t&->).
  split.
  - split.
    + intros [rw H] name I. apply row_attributes in H as (_ & H & _).
      apply in_map_iff in I as ([n get] & E & I). cbn in E. subst.
      destruct (H _ _ I) as (s & x & A & B & _). eauto.
    + intros H. unfold runway_of_row. rewrite !pyi_pos, pyi_0.
      posnat; cbn [nth_error rbind]. unfold tofloat.
      assert (G : forall s x : string, Some s = Some x -> s = x) by (intros ? ? E; injection E; auto).
      destruct (H "length_ft"%string ltac:(cbn; tauto)) as (s3 & x3 & C3 & E3). apply G in C3. subst s3.
      destruct (H "width_ft"%string ltac:(cbn; tauto)) as (s4 & x4 & C4 & E4). apply G in C4. subst s4.
      destruct (H "le_elevation_ft"%string ltac:(cbn; tauto)) as (s11 & x11 & C11 & E11). apply G in C11. subst s11.
      destruct (H "le_heading_degT"%string ltac:(cbn; tauto)) as (s12 & x12 & C12 & E12). apply G in C12. subst s12.
      destruct (H "he_elevation_ft"%string ltac:(cbn; tauto)) as (s17 & x17 & C17 & E17). apply G in C17. subst s17.
      destruct (H "he_heading_degT"%string ltac:(cbn; tauto)) as (s18 & x18 & C18 & E18). apply G in C18. subst s18.
      rewrite E3. cbn [rbind]. rewrite E4. cbn [rbind]. rewrite E11. cbn [rbind]. rewrite E12. cbn [rbind].
      rewrite E17. cbn [rbind]. rewrite E18. cbn [rbind]. eexists; reflexivity.
  - intros H. unfold runway_of_row in *. rewrite !pyi_pos, pyi_0 in *.
    posnat; cbn [nth_error rbind] in *. unfold tofloat in *.
    destruct (pfloat a3); cbn [rbind] in *; [|reflexivity].
    destruct (pfloat a4); cbn [rbind] in *; [|reflexivity].
    destruct (pfloat a11); cbn [rbind] in *; [|reflexivity].
    destruct (pfloat a12); cbn [rbind] in *; [|reflexivity].
    destruct (pfloat a17); cbn [rbind] in *; [|reflexivity].
    destruct (pfloat a18); cbn [rbind] in *; [|reflexivity].
    exfalso. eapply H. reflexivity.
Qed.
End RowProofs.

(** *** Counterexamples: a database row for an airport *)
Definition sample_row (id code : string) : csvrow :=
  [id; "7"; code; "5000"; "100"; "ASP"; "1"; "0"; "09"; ""; ""; "10"; "90"; ""; "27"; ""; ""; "12"; "270"; ""]%string.
Definition sample_float (s : string) : option num :=
  if String.eqb s "" then None else Some (Fin 1).

Lemma lookup_negative : exists db code n rw,
  consecutive db code [sample_row "1" "AAAA"] [sample_row "2" "BBBB"] [] /\
  runway_lookup sample_float db code n = Ok rw /\ (n < 0)%Z /\ airport_ident (snd rw) <> code.
Proof.
  exists [sample_row "1" "AAAA"; sample_row "2" "BBBB"], "BBBB"%string, (-1)%Z.
  eexists. split.
  { split; [reflexivity|]. split; repeat constructor; try (simpl; lia).
    unfold of_airport. cbn. discriminate. }
  split; [vm_compute; reflexivity|]. split; [lia|]. cbn. discriminate.
Qed.

Lemma lookup_scattered : exists db code rw,
  List.length (rows_of db code) = 2%nat /\
  runway_lookup sample_float db code 1 = Ok rw /\ airport_ident (snd rw) <> code.
Proof.
  exists [sample_row "1" "AAAA"; sample_row "2" "BBBB"; sample_row "3" "AAAA"], "AAAA"%string.
  eexists. split; [reflexivity|]. split; [vm_compute; reflexivity|]. cbn. discriminate.
Qed.

(** ** Custom runways *)
Lemma rtrunc_spec x : 0 <= x -> IZR (rtrunc x) <= x < IZR (rtrunc x) + 1.
Proof.
  intros H. unfold rtrunc. destruct (Rlt_dec x 0); [lra|].
  destruct (base_Int_part x). lra.
Qed.

Lemma custom_runway e h surf l w : 0 < h <= 360 -> exists rw r li hi,
  runway_custom e (Fin h) surf l w = Ok rw /\
  le_heading_degt rw = Fin h /\ he_heading_degt rw = Fin r /\ (r = h + 180 \/ r = h - 180) /\ 0 < r <= 360 /\
  le_ident rw = AInt li /\ he_ident rw = AInt hi /\
  IZR li <= h / 10 < IZR li + 1 /\ IZR hi <= r / 10 < IZR hi + 1 /\
  length_ft rw = l /\ width_ft rw = w /\ surface rw = surf /\
  le_elevation_ft rw = e /\ he_elevation_ft rw = e /\
  le_displaced_threshold_ft rw = Fin 0 /\ he_displaced_threshold_ft rw = Fin 0 /\
  ident rw = AText "0000000" /\ airport_ref rw = AText "0000" /\ airport_ident rw = "CUST"%string /\ lighted rw = AInt 1 /\ closed rw = AInt 0 /\
  le_latitude_deg rw = AInt 0 /\ le_longitude_deg rw = AInt 0 /\ he_latitude_deg rw = AInt 0 /\ he_longitude_deg rw = AInt 0.
Proof.
  intros H. destruct (recip_spec h H) as (r & E & R & S & _).
  unfold runway_custom. rewrite E. cbn. unfold Reqb.
  destruct (Req_EM_T 10 0); [lra|]. cbn.
  do 4 eexists. split; [reflexivity|]. cbn. 
  repeat (split; [first [reflexivity|exact S|exact R]|]).
  split; [apply rtrunc_spec; lra|]. split; [apply rtrunc_spec; lra|]. repeat split.
Qed.

Lemma metric_attributes rw x : 
  (length_ft rw = Fin x -> length_m rw = Fin (0.3048 * x)) /\
  (width_ft rw = Fin x -> width_m rw = Fin (0.3048 * x)) /\
  (le_elevation_ft rw = Fin x -> le_elevation_m rw = Fin (0.3048 * x)) /\
  (he_elevation_ft rw = Fin x -> he_elevation_m rw = Fin (0.3048 * x)) /\
  (le_displaced_threshold_ft rw = Fin x -> le_displaced_threshold_m rw = Fin (0.3048 * x)) /\
  (he_displaced_threshold_ft rw = Fin x -> he_displaced_threshold_m rw = Fin (0.3048 * x)).
Proof.
  unfold length_m, width_m, le_elevation_m, he_elevation_m, le_displaced_threshold_m, he_displaced_threshold_m, feet2m.
  repeat split; intros ->; cbn; f_equal; apply Rmult_comm.
Qed.
