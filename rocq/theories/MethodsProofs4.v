(** Span efficiency, chord sweep and lift slope: final forms. *)
From Verif Require Import Base BaseFacts AnalysisFacts UnitsModel AtmosModel ConceptModel
  MethodsModel MethodsSpec MethodsExamples MethodsProofs MethodsProofs2 MethodsProofs3.
Open Scope R_scope.

Lemma Rpower_cube x p q : 0 < x -> q = 3 * p -> Rpower (x ^ 3) p = Rpower x q.
Proof.
  intros Hx ->. rewrite <- (Rpower_pow 3 x) by exact Hx. rewrite Rpower_mult. f_equal. cbn [INR]. lra.
Qed.

Lemma ar_power AR x : 1 < x -> x ^ 3 <= AR -> x ^ 2 < Rpower AR 0.68.
Proof.
  intros Hx HA. assert (1 < x ^ 3) by (simpl; nra).
  apply Rlt_le_trans with (Rpower (x ^ 3) 0.68).
  - rewrite <- (Rpower_pow 2 x) by lra. rewrite (Rpower_cube x 0.68 2.04) by lra.
    apply Rpower_lt; cbn [INR]; lra.
  - destruct (Rle_lt_or_eq_dec _ _ HA) as [L|E]; [|rewrite E; lra].
    unfold Rpower. apply Rlt_le, exp_increasing. apply Rmult_lt_compat_l; [lra|]. apply ln_increasing; lra.
Qed.

Lemma named_one (d : N) : (1 <= d <= 4)%N -> methods_named d [d].
Proof.
  intros H. split; [repeat constructor; intros []|]. intros e; split.
  - intros [<-|[]]. split; [exact H|]. exists 0%N. cbn. split; [|right; reflexivity].
    rewrite N.div_1_r, N.mod_small; lia.
  - intros (E & k & D & K). left. destruct K as [K|K].
    + destruct (N.eq_dec k 0) as [->|NZ].
      * cbn in D. rewrite N.div_1_r, N.mod_small in D by lia. congruence.
      * exfalso. assert (10 ^ 1 <= 10 ^ k)%N by (apply N.pow_le_mono_r; lia). change (10 ^ 1)%N with 10%N in *. lia.
    + subst k. cbn in D. rewrite N.div_1_r, N.mod_small in D by lia. congruence.
Qed.

Lemma methods13_negative c w z mo m : has_wing c w -> regular w ->
  mo = Some (Fin m) \/ mo = None /\ m = 0.3 ->
  (z = 1%Z /\ 64 <= w_ar w) \/ (z = 3%Z /\ 27 <= w_ar w) ->
  exists k, induceddragfact c (SelInt z) mo = Ok (Fin k) /\ k < 0.
Proof.
  intros HW HR HM HZ. destruct (regular_cos w HR) as (HAR & HLE & _). pose proof PI_RGT_0 as Hpi.
  assert (HP : 0 < PI * w_ar w) by (apply Rmult_lt_0_compat; lra).
  assert (K : exists d : N, z = Z.of_N d /\ (1 <= d <= 4)%N /\ estimate w m d < 0).
  { destruct HZ as [(-> & A) | (-> & A)].
    - exists 1%N. repeat split; try lia. cbn. unfold raymer_straight.
      pose proof (ar_power (w_ar w) 4 ltac:(lra) ltac:(lra)). lra.
    - exists 3%N. repeat split; try lia. cbn. unfold raymer_swept.
      pose proof (ar_power (w_ar w) 3 ltac:(lra) ltac:(lra)) as P.
      assert (C : 0 < Rpower (cos (rad (w_le w))) 0.15 <= 1).
      { split; [apply Rpower_pos|]. unfold Rpower. apply Rle_trans with (exp 0); [|rewrite exp_0; lra].
        pose proof (COS_bound (rad (w_le w))) as CB.
        assert (L : ln (cos (rad (w_le w))) <= 0).
        { destruct (Rle_lt_or_eq_dec _ _ (proj2 CB)) as [L|E]; [|rewrite E, ln_1; lra].
          apply Rlt_le, Rlt_le_trans with (ln 1); [apply ln_increasing; lra|rewrite ln_1; lra]. }
        destruct (Rle_lt_or_eq_dec (0.15 * ln (cos (rad (w_le w)))) 0 ltac:(lra)) as [Q|Q];
          [apply Rlt_le, exp_increasing; exact Q|rewrite Q; lra]. }
      set (e := Rpower (cos (rad (w_le w))) 0.15) in *. set (r := Rpower (w_ar w) 0.68) in *.
      assert (4.61 * (1 - 0.045 * r) < 2.75) by lra. nra. }
  destruct K as (d & -> & Hd & Hneg).
  assert (E : mean_of (map (estimate w m) [d]) = estimate w m d).
  { unfold mean_of. cbn [map fold_right List.length INR]. lra. }
  exists (1 / (PI * w_ar w * mean_of (map (estimate w m) [d]))). split.
  - apply factor_named; try assumption; try lia; [|discriminate|rewrite E; lra].
    rewrite N2Z.id. apply named_one, Hd.
  - rewrite E. unfold Rdiv. rewrite Rmult_1_l. apply Rinv_lt_0_compat. nra.
Qed.

Lemma sweep_straight c w x : has_wing c w -> regular w ->
  (x = 0 \/ x = 1 / 4 \/ (w_le w = w_25 w /\ 0 <= x <= 1)) ->
  exists s, findchordsweep_rad c (Some (Fin x)) = Ok (Fin s) /\
    straight_edges (rad (w_le w)) (rad (w_25 w)) x s.
Proof.
  intros HW HR HX. assert (0 <= x <= 1) by lra.
  rewrite (sweep_real c w HW x H). eexists; split; [reflexivity|]. unfold straight_edges.
  destruct HX as [-> | [-> | (E & _)]].
  - rewrite !Rmult_0_r, !Rplus_0_r. reflexivity.
  - replace (rad (w_le w) + (rad (w_25 w) - rad (w_le w)) / 0.25 * (1 / 4)) with (rad (w_25 w)) by lra. lra.
  - rewrite E. replace (rad (w_25 w) + (rad (w_25 w) - rad (w_25 w)) / 0.25 * x) with (rad (w_25 w)) by lra. lra.
Qed.

Lemma sweep_not_straight c w : has_wing c w -> w_le w = 0 -> 0 < w_25 w < 45 ->
  exists s, findchordsweep_rad c (Some (Fin 0.5)) = Ok (Fin s) /\
    ~ straight_edges (rad (w_le w)) (rad (w_25 w)) 0.5 s.
Proof.
  intros HW Z H. rewrite (sweep_real c w HW 0.5) by lra. eexists; split; [reflexivity|].
  unfold straight_edges. rewrite Z. replace (rad 0) with 0 by (unfold rad; lra). rewrite tan_0.
  set (d := rad (w_25 w)). pose proof PI_RGT_0 as Hpi.
  assert (Hd : 0 < d < PI / 4) by (unfold d, rad; split; nra).
  replace (0 + (d - 0) / 0.25 * 0.5) with (2 * d) by lra.
  assert (0 < tan d < 1).
  { split; [apply tan_gt_0; lra|]. rewrite <- tan_PI4. apply tan_increasing; lra. }
  rewrite tan_2a; [|apply Rgt_not_eq; apply cos_gt_0; lra|apply Rgt_not_eq; apply cos_gt_0; lra|].
  2: { unfold Rminus. nra. }
  set (t := tan d) in *. intros E.
  assert (0 < 1 - t * t < 1) by nra.
  apply (f_equal (fun v => v * (1 - t * t))) in E. unfold Rdiv at 1 in E.
  rewrite Rmult_assoc, Rinv_l in E by lra. nra.
Qed.

(** ** transonic points *)
Lemma t23_small : 0 < Rpower 0.05 (2 / 3) < 0.25.
Proof.
  split; [apply Rpower_pos|].
  replace 0.25 with (Rpower 0.125 (2 / 3)).
  - unfold Rpower. apply exp_increasing, Rmult_lt_compat_l; [lra|]. apply ln_increasing; lra.
  - replace 0.125 with ((/ 2) ^ 3) by (simpl; lra). rewrite (Rpower_cube (/ 2) (2 / 3) 2) by lra.
    replace 2 with (INR 2) at 2 by (cbn [INR]; lra). rewrite Rpower_pow by lra. simpl; lra.
Qed.
Lemma t13_pos : 0 < Rpower 0.05 (1 / 3). Proof. apply Rpower_pos. Qed.

Definition gx (i : nat) : R := 1.5 * INR i / 199.
Lemma fit_ar_real i : fit_ar i = Fin (reduced_ar (gx i)).
Proof.
  unfold fit_ar, reduced_ar. rewrite npow_fin by lra. pose proof t13_pos.
  rewrite ndiv_fin by lra. reflexivity.
Qed.
Lemma fit_radicand x : 0 < (3.2784414 * x ^ 2 - 9.73119668 * x + 6.0546588) * Rpower 0.05 (2 / 3) + 1.
Proof.
  pose proof t23_small as T. set (t := Rpower 0.05 (2 / 3)) in *.
  assert (-1.17 <= 3.2784414 * x ^ 2 - 9.73119668 * x + 6.0546588).
  { assert (0 <= (x - 1.4841) ^ 2) by apply pow2_ge_0. nra. }
  set (q := 3.2784414 * x ^ 2 - 9.73119668 * x + 6.0546588) in *. nra.
Qed.
Lemma fit_mach_real i : fit_mach i = Fin (fitted_mach (gx i)).
Proof.
  unfold fit_mach, fitted_mach. cbv zeta. pose proof (fit_radicand (gx i)) as F.
  rewrite npow_fin by lra. rewrite npown_fin, !nmul_fin, !nadd_fin, nmul_fin, nadd_fin.
  fold (gx i).
  replace (3.2784414 * gx i ^ 2 + -9.73119668 * gx i + 6.0546588) with
    (3.2784414 * gx i ^ 2 - 9.73119668 * gx i + 6.0546588) by lra.
  rewrite npow_fin by exact F. f_equal. replace 0.5 with (/ 2) by lra. apply Rpower_sqrt, F.
Qed.

Lemma gx_grid i : (i < 200)%nat -> fit_grid (gx i).
Proof. intros H. exists i. split; [exact H|reflexivity]. Qed.
Lemma gx_lt i j : gx i < gx j -> (i < j)%nat.
Proof. intros H. unfold gx in H. apply INR_lt. lra. Qed.

Lemma find_first (f : nat -> bool) n s i : find f (seq s n) = Some i ->
  (s <= i < s + n)%nat /\ f i = true /\ forall j, (s <= j < i)%nat -> f j = false.
Proof.
  revert s. induction n as [|n IH]; intros s H; [discriminate|]. cbn in H.
  destruct (f s) eqn:E.
  - injection H as <-. repeat split; try lia. assumption.
  - destruct (IH (S s) H) as (A & B & C). repeat split; try lia; [exact B|].
    intros j Hj. destruct (Nat.eq_dec j s) as [->|]; [exact E|]. apply C; lia.
Qed.
Lemma find_none_seq (f : nat -> bool) n s : find f (seq s n) = None -> forall j, (s <= j < s + n)%nat -> f j = false.
Proof. intros H j Hj. apply (find_none _ _ H). apply in_seq. lia. Qed.

Lemma fold_nmin l a : exists i, fold_left nmin (map fit_mach l) (Fin (fitted_mach a)) = Fin (fitted_mach i) /\
  (i = a \/ exists k, In k l /\ i = gx k) /\ fitted_mach i <= fitted_mach a /\
  forall k, In k l -> fitted_mach i <= fitted_mach (gx k).
Proof.
  revert a. induction l as [|k l IH]; intros a; cbn [map fold_left].
  - exists a. repeat split; [left; reflexivity|lra|intros _ []].
  - rewrite fit_mach_real. unfold nmin at 2. rewrite nltb_fin.
    destruct (Rltb_reflect (fitted_mach (gx k)) (fitted_mach a)) as [L|L].
    + destruct (IH (gx k)) as (i & A & B & C & D). exists i. repeat split; [exact A| |lra|].
      * right. destruct B as [->|(k' & I & E)]; [exists k; split; [left|]; reflexivity|].
        exists k'. split; [right; exact I|exact E].
      * intros k' [<-|I]; [exact C|apply D, I].
    + destruct (IH a) as (i & A & B & C & D). exists i. repeat split; [exact A| |exact C|].
      * destruct B as [->|(k' & I & E)]; [left; reflexivity|].
        right. exists k'. split; [right; exact I|exact E].
      * intros k' [<-|I]; [lra|apply D, I].
Qed.

Lemma slopepeak_real AR : exists p, slopepeak_mach (Fin AR) = Fin p /\ peak_mach AR p.
Proof.
  unfold slopepeak_mach. destruct (find _ _) as [i|] eqn:E.
  - destruct (find_first _ _ _ _ E) as (A & B & C). exists (fitted_mach (gx i)). split; [apply fit_mach_real|].
    exists (gx i). split; [apply gx_grid; lia|]. split; [reflexivity|]. left. split.
    + rewrite fit_ar_real, nleb_fin in B. destruct (Rleb_reflect AR (reduced_ar (gx i))); [assumption|discriminate].
    + intros y (j & Hj & Hy) L. change (1.5 * INR j / 199) with (gx j) in Hy. subst y. apply gx_lt in L.
      specialize (C j ltac:(lia)). rewrite fit_ar_real, nleb_fin in C.
      destruct (Rleb_reflect AR (reduced_ar (gx j))); [discriminate|lra].
  - rewrite (fit_mach_real 0). destruct (fold_nmin (seq 1 199) (gx 0)) as (i & A & B & C & D).
    exists (fitted_mach i). split; [exact A|]. exists i.
    assert (G : fit_grid i).
    { destruct B as [->|(k & I & ->)]; [apply gx_grid; lia|]. apply in_seq in I. apply gx_grid; lia. }
    split; [exact G|]. split; [reflexivity|]. right. split.
    + intros y (j & Hj & Hy). change (1.5 * INR j / 199) with (gx j) in Hy. subst y.
      pose proof (find_none_seq _ _ _ E j ltac:(lia)) as F. cbv beta in F. rewrite fit_ar_real, nleb_fin in F.
      destruct (Rleb_reflect AR (reduced_ar (gx j))); [discriminate|lra].
    + intros y (j & Hj & Hy). change (1.5 * INR j / 199) with (gx j) in Hy. subst y.
      destruct j as [|j]; [exact C|]. apply D, in_seq. lia.
Qed.

Section Final.
  Variables (c : concept) (w : wing) (a0 : R).
  Hypothesis HW : has_wing c w.
  Hypothesis HR : regular w.
  Hypothesis HH : half_ok w.
  Hypothesis HA : a_0i c = Some (Fin a0).
  Hypothesis Ha0 : 0 < a0.

  Lemma transonic_real : exists p, peak_mach (w_ar w) p /\
    transonic_table c = Ok (map (fun q => (Fin (fst q), Fin (snd q))) (transonic_points w a0 p)).
  Proof.
    destruct (slopepeak_real (w_ar w)) as (p & E & S). exists p. split; [exact S|].
    unfold transonic_table. rewrite (w_arE c w HW), E.
    rewrite !nadd_fin, !nsub_fin, !nmul_fin, !nadd_fin, !nsub_fin, (ndiv_fin PI 2) by lra.
    replace (0.6 + 3e-2) with 0.63 by lra. replace (1.4 - 3e-2) with 1.37 by lra.
    rewrite (proj1 (subsonic_real c w a0 HW HR HH HA Ha0 0.6 ltac:(lra))),
      (proj1 (subsonic_real c w a0 HW HR HH HA Ha0 0.63 ltac:(lra))).
    rewrite (supersonic_real c w HW HR 1.37), (supersonic_real c w HW HR 1.4) by lra.
    cbn [rbind]. rewrite !nmul_fin. cbn [transonic_points map fst snd].
    replace (p - 2 * 3e-2) with (p - 0.06) by lra. replace (p + 2 * 3e-2) with (p + 0.06) by lra.
    reflexivity.
  Qed.

  (** [T] is the curve the interpolator draws through the table of [c] *)
  Lemma liftslope_weighted ext T : 
    (forall m tab, 0.6 <= m <= 1.4 -> transonic_table c = Ok tab -> cubic ext tab (Fin m) = Ok (Fin (T m))) ->
    forall m, 0 <= m ->
    liftslope_prad ext c (Fin m) = Ok (Fin (weight_sub m * mean_of (subsonic_slopes w a0 m)
      + weight_trans m * T m + weight_sup m * mean_of (supersonic_slopes w m))) /\
    0 <= weight_sub m /\ 0 <= weight_trans m /\ 0 <= weight_sup m /\
    weight_sub m + weight_trans m + weight_sup m = 1.
  Proof.
    intros HT m Hm. split; [|apply weights_range].
    apply (liftslope_blend c w a0 HW HR HH HA Ha0 ext T m Hm). intros Hm2 tab TB. apply HT; assumption.
  Qed.

  Lemma liftslope_continuous ext T F :
    (forall m tab, 0.6 <= m <= 1.4 -> transonic_table c = Ok tab -> cubic ext tab (Fin m) = Ok (Fin (T m))) ->
    continuity T ->
    (forall m, 0 <= m -> liftslope_prad ext c (Fin m) = Ok (Fin (F m))) ->
    forall m, 0 < m -> m <> sonic_le w \/ m < 1.3 \/ w_le w <= 0 -> continuity_pt F m.
  Proof.
    intros HT CT HF m Hm Hs.
    apply (continuity_pt_locally_ext (slope_real w a0 T) F m); [exact Hm| |].
    - intros y D. unfold R_dist in D. apply Rabs_def2 in D.
      pose proof (liftslope_blend c w a0 HW HR HH HA Ha0 ext T y ltac:(lra)) as B.
      rewrite (HF y) in B by lra. specialize (B (fun H tab TB => HT y tab H TB)). congruence.
    - apply slope_continuous; try assumption. intros P. destruct Hs as [|[|]]; [left|right|]; lra.
  Qed.

  Lemma liftslope_jump ext F : 0 < w_le w -> 1.4 < sonic_le w ->
    (forall m, 1.4 < m -> liftslope_prad ext c (Fin m) = Ok (Fin (F m))) -> ~ continuity_pt F (sonic_le w).
  Proof.
    intros P S HF C.
    apply (slope_jump w a0 HR (fun _ => 0) P S).
    apply (continuity_pt_locally_ext F _ (sonic_le w - 1.4)); [lra| |exact C].
    intros y D. unfold R_dist in D. apply Rabs_def2 in D.
    pose proof (liftslope_blend c w a0 HW HR HH HA Ha0 ext (fun _ => 0) y ltac:(lra)) as B.
    rewrite (HF y) in B by lra. assert (Q : ~ (0.6 <= y <= 1.4)) by lra.
    specialize (B (fun H => False_ind _ (Q H))). congruence.
  Qed.
End Final.

Lemma estimates_published c w m : has_wing c w -> regular w ->
  oswaldspaneff1 c = Fin (raymer_straight (w_ar w)) /\
  oswaldspaneff2 c = Ok (Fin (brandt (w_ar w) (rad (w_mt w)))) /\
  oswaldspaneff3 c = Fin (raymer_swept (w_ar w) (rad (w_le w))) /\
  oswaldspaneff4 c (Fin m) = Fin (nita w m).
Proof.
  intros HW HR. destruct (regular_cos w HR) as (HAR & HLE & _ & HMT).
  split; [|split; [|split]].
  - apply eff1_real; assumption.
  - apply eff2_real; [assumption|lra].
  - apply eff3_real; assumption.
  - apply eff4_real; assumption.
Qed.
Lemma estimates_ranges w m : regular w ->
  0 < brandt (w_ar w) (rad (w_mt w)) < 1 /\ 0.001 <= nita w m <= 0.8280.
Proof. intros (HAR & _). split; [apply brandt_range|apply nita_range, HAR]. Qed.

Lemma named_examples : methods_named 24 [2%N; 4%N] /\ methods_named 50 [].
Proof.
  assert (P : forall k, (2 <= k -> 100 <= 10 ^ k)%N).
  { intros k H. change 100%N with (10 ^ 2)%N. apply N.pow_le_mono_r; lia. }
  assert (D : forall d n k, (n < 100 -> d = (n / 10 ^ k) mod 10 -> (10 ^ k <= n \/ k = 0) ->
     d = n mod 10 \/ d = (n / 10) mod 10)%N).
  { intros d n k Hn E K. destruct (N.eq_dec k 0) as [->|K0].
    - left. change (10 ^ 0)%N with 1%N in E. rewrite N.div_1_r in E. exact E.
    - destruct (N.eq_dec k 1) as [->|K1]; [right; exact E|].
      pose proof (P k ltac:(lia)). exfalso; lia. }
  split.
  - split.
    + repeat constructor; cbn; intuition congruence.
    + intros d; split.
      * intros [<-|[<-|[]]]; (split; [lia|]); [exists 1%N|exists 0%N]; cbv; intuition congruence.
      * intros (_ & k & E & K). destruct (D d 24%N k ltac:(lia) E K) as [->| ->]; cbn; auto.
  - split; [constructor|]. intros d; split; [intros []|].
    intros (R & k & E & K). exfalso. destruct (D d 50%N k ltac:(lia) E K) as [->| ->]; cbn in R; lia.
Qed.

Lemma wing_example : has_wing (example_jet 20 18) (example_wing 20 18) /\
  regular (example_wing 20 18) /\ methods_named (Z.to_N 4) [4%N].
Proof.
  split; [apply example_has_wing|]. split; [apply example_regular|]. apply named_one. lia.
Qed.
Lemma slope_example :
  (has_wing (example_jet 20 18) (example_wing 20 18) /\ regular (example_wing 20 18) /\
   half_ok (example_wing 20 18) /\ a_0i (example_jet 20 18) = Some (Fin 6.28)) /\
  (has_wing (example_jet 60 50) (example_wing 60 50) /\ regular (example_wing 60 50) /\
   half_ok (example_wing 60 50) /\ 0 < w_le (example_wing 60 50) /\ 1.4 < sonic_le (example_wing 60 50) /\
   exists F, forall m, 0 <= m -> liftslope_prad example_ext (example_jet 60 50) (Fin m) = Ok (Fin (F m))).
Proof.
  destruct example_regular as (A & B & C & D & E).
  split; [repeat split; try apply example_has_wing; try apply A; try apply B|].
  split; [apply example_has_wing|]. split; [exact C|]. split; [exact D|].
  split; [cbn; lra|]. split; [rewrite E; lra|].
  exists (slope_real (example_wing 60 50) 6.28 (fun _ => 5)). intros m Hm.
  apply (liftslope_blend (example_jet 60 50)); try assumption; [apply example_has_wing|reflexivity|lra|].
  intros; reflexivity.
Qed.
