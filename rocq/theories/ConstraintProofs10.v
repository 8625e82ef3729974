(** Concrete cases that meet the hypotheses of the constraint properties. *)
From Verif Require Import Base BaseFacts AnalysisFacts UnitsModel AtmosModel AtmosSpec IsaReal IsaProofs AtmosProofs
  AtmosProofs2 AtmosProofs4 ConceptModel ConceptProofs MethodsModel MethodsSpec MethodsExamples MethodsProofs MethodsProofs2
  MethodsProofs3 MethodsProofs4 ConstraintSpec ConstraintProofs ConstraintProofs2 ConstraintProofs3 ConstraintProofs4
  ConstraintProofs5 ConstraintProofs6 ConstraintProofs7 ConstraintProofs8 ConstraintProofs9.
Open Scope R_scope.

Lemma exp_ub x n : (0 < n)%nat -> 0 <= x < INR n -> exp x <= (/ (1 - x / INR n)) ^ n.
Proof.
  intros Hn Hx. assert (P : 0 < INR n) by (apply lt_0_INR; exact Hn).
  assert (X : 0 <= x / INR n < 1).
  { split; [apply Rdiv_le_0_compat; lra|]. apply (Rmult_lt_reg_r (INR n)); [exact P|].
    unfold Rdiv. rewrite Rmult_assoc, Rinv_l; lra. }
  replace x with (x / INR n * INR n) at 1 by (field; lra).
  assert (E : forall y k, exp (y * INR k) = exp y ^ k).
  { intros y. induction k; [simpl; rewrite Rmult_0_r; apply exp_0|].
    rewrite S_INR, Rmult_plus_distr_l, exp_plus, IHk, Rmult_1_r. simpl. ring. }
  rewrite E. apply pow_incr. split; [left; apply exp_pos|].
  rewrite <- (Rinv_inv (exp (x / INR n))). apply Rinv_le_contravar; [lra|].
  rewrite <- exp_Ropp. pose proof (exp_ineq1_le (- (x / INR n))). lra.
Qed.

Lemma tan_small x : 0 < x <= 0.1 -> 0 < tan x <= x * 1.0051.
Proof.
  intros H. pose proof PI2_3_2. assert (C : 0.995 <= cos x).
  { pose proof (cos_bound x 0 ltac:(lra) ltac:(lra)) as (L & _). unfold cos_approx, cos_term in L.
    simpl in L. unfold Rdiv in L. nra. }
  assert (S : 0 < sin x) by (apply sin_gt_0; lra). assert (S2 : sin x < x) by (apply sin_lt_x; lra).
  unfold tan. split; [apply Rdiv_lt_0_compat; lra|].
  apply (Rmult_le_reg_r (cos x)); [lra|]. unfold Rdiv. rewrite Rmult_assoc, Rinv_l by lra. nra.
Qed.

Lemma suction_small clc d : 0 <= clc <= 0.3 -> Rabs d <= 0.005 -> suction_ok d /\ 0 < suction clc d < 1.
Proof.
  intros Hc Hd. assert (D : -0.005 <= d <= 0.005).
  { pose proof (Rle_abs d). pose proof (Rle_abs (- d)) as A. rewrite Rabs_Ropp in A. lra. }
  pose proof PI2_3_2. split.
  { split; apply Rgt_not_eq, cos_gt_0; lra. }
  assert (W : design_weight clc = 1).
  { unfold design_weight, clamp01. rewrite Rmin_left by lra. apply Rmax_right. lra. }
  unfold suction. rewrite W. rewrite Rminus_diag_eq by reflexivity. rewrite Rmult_0_l, Rplus_0_r, Rmult_1_l.
  unfold suction_curve. cbv zeta.
  replace (- (1 / 2) * 0.3 ^ 2 - 1 / 4 * 0.3 - 0.22) with (-0.34) by lra.
  replace (d - -0.34) with (d + 0.34) by lra.
  replace (d - (1 + 0 * -0.34)) with (d - 1) by lra.
  destruct (tan_small (0.1 * (d + 0.34)) ltac:(lra)) as (T1 & T2).
  set (t := tan (0.1 * (d + 0.34))) in *.
  assert (E : exp (- (1.95) * (d - 0.1)) <= 1.26).
  { apply Rle_trans with (exp 0.20475).
    - destruct (Rle_lt_or_eq_dec (- (1.95) * (d - 0.1)) 0.20475 ltac:(lra)) as [Q|Q]; [left; apply exp_increasing, Q|rewrite Q; lra].
    - pose proof (exp_ub 0.20475 1 ltac:(lia) ltac:(simpl; lra)) as U. simpl in U.
      assert (/ (1 - 0.20475 / 1) <= 1.26) by (rewrite <- (Rinv_inv 1.26); apply Rinv_le_contravar; lra). lra. }
  pose proof (exp_pos (- (1.95) * (d - 0.1))) as EP. set (e := exp _) in *.
  replace (22.5 * (d - 1) * e * - t) with (22.5 * ((1 - d) * (e * t))) by ring.
  assert (0 < e * t) by (apply Rmult_lt_0_compat; assumption).
  assert (e * t <= 1.26 * (0.0345 * 1.0051)) by (apply Rmult_le_compat; lra).
  split; [apply Rmult_lt_0_compat; [lra|]; apply Rmult_lt_0_compat; lra|]. nra.
Qed.

Lemma sum_pos l : Forall (fun s => 0 < s) l -> l <> [] -> 0 < fold_right Rplus 0 l.
Proof.
  induction l as [|a l IH]; [contradiction|]. intros F _. inversion F; subst. simpl.
  destruct l as [|b l]; [simpl; lra|]. specialize (IH H2 ltac:(discriminate)). lra.
Qed.
Lemma subsonic_slope_pos ext c w a0 m : has_wing c w -> regular w -> half_ok w -> a_0i c = Some (Fin a0) -> 0 < a0 ->
  0 <= m < 0.6 -> exists a, liftslope_prad ext c (Fin m) = Ok (Fin a) /\ 0 < a.
Proof.
  intros HW HR HH HA Ha Hm.
  pose proof (liftslope_blend c w a0 HW HR HH HA Ha ext (fun _ => 0) m ltac:(lra) ltac:(intros; lra)) as L.
  exists (slope_real w a0 (fun _ => 0) m). split; [exact L|].
  unfold slope_real. destruct (subsonic_real c w a0 HW HR HH HA Ha m ltac:(lra)) as (_ & P).
  assert (W1 : weight_sub m = 1).
  { unfold weight_sub, clamp01. rewrite Rmin_left by lra. apply Rmax_right; lra. }
  assert (W2 : weight_sup m = 0).
  { unfold weight_sup, clamp01. rewrite Rmin_right by lra. apply Rmax_left; lra. }
  rewrite W1, W2. rewrite Rmult_0_r, Rmult_0_l, Rmult_1_l, !Rplus_0_r.
  unfold mean_of. apply Rdiv_lt_0_compat.
  - apply sum_pos; [exact P|]. unfold subsonic_slopes. discriminate.
  - apply lt_0_INR. unfold subsonic_slopes. simpl. lia.
Qed.

Lemma induced_slow ext c m x cl clc : wing_ok ext c -> 0 <= m < 0.6 -> cruise_cl c x clc -> 0 <= clc <= 0.3 ->
  Rabs (cl - clc) <= 0.005 -> exists k, induced ext c m x cl k /\ 0 < k.
Proof.
  intros (w & a0 & HW & HR & HH & HA & Ha & _) Hm HC Hc Hd.
  destruct (subsonic_slope_pos ext c w a0 m HW HR HH HA Ha Hm) as (a & L & P).
  destruct (suction_small clc (cl - clc) Hc Hd) as (SO & S1 & S2).
  eexists. split; [apply (lesm_subsonic ext c w HW HR m a x cl clc); try assumption; lra|].
  pose proof (Ms_ge1 w HR) as M1. destruct (estimates_ranges w (Rmin m 0.6) HR) as (B1 & B2).
  destruct (regular_cos w HR) as (HAR & _). pose proof PI_RGT_0 as PP.
  unfold lesm_factor. cbv zeta. destruct (Rlt_dec m (sonic_le w)); [|lra].
  assert (X : 0 < 1 - m / sonic_le w <= 1).
  { assert (0 <= m / sonic_le w) by (apply Rdiv_le_0_compat; lra).
    assert (m / sonic_le w < 1) by (apply (Rmult_lt_reg_r (sonic_le w)); [lra|]; unfold Rdiv; rewrite Rmult_assoc, Rinv_l; lra). lra. }
  assert (WT : 0 < Rpower (1 - m / sonic_le w) 0.2 <= 1).
  { split; [apply Rpower_pos|]. apply Rle_trans with (exp 0); [unfold Rpower|rewrite exp_0; lra].
    destruct (Rle_lt_or_eq_dec _ _ (proj2 X)) as [Q|Q]; [|rewrite Q, ln_1, !Rmult_0_r; lra].
    left. apply exp_increasing. assert (ln (1 - m / sonic_le w) < 0) by (rewrite <- ln_1; apply ln_increasing; lra). lra. }
  set (wt := Rpower _ _) in *. set (S := suction clc (cl - clc)) in *.
  assert (K0 : 0 < 1 / a) by (apply Rdiv_lt_0_compat; lra).
  assert (KP : 0 < PI * w_ar w) by (apply Rmult_lt_0_compat; assumption).
  assert (K1 : 0 < 1 / (PI * w_ar w)) by (apply Rdiv_lt_0_compat; lra).
  assert (KE : 0 < PI * w_ar w * ((brandt (w_ar w) (rad (w_mt w)) + nita w (Rmin m 0.6)) / 2)).
  { apply Rmult_lt_0_compat; lra. }
  assert (KO : 0 < 1 / (PI * w_ar w * ((brandt (w_ar w) (rad (w_mt w)) + nita w (Rmin m 0.6)) / 2))).
  { apply Rdiv_lt_0_compat; lra. }
  set (ko := 1 / (PI * w_ar w * ((brandt (w_ar w) (rad (w_mt w)) + nita w (Rmin m 0.6)) / 2))) in *.
  assert (0 < ko * wt) by (apply Rmult_lt_0_compat; lra).
  assert (0 <= (S * (1 / (PI * w_ar w)) + (1 - S) * (1 / a)) * (1 - wt)).
  { apply Rmult_le_pos; [|lra]. apply Rplus_le_le_0_compat; apply Rmult_le_pos; lra. }
  lra.
Qed.

(** ** The example aircraft in the standard atmosphere *)
Definition std_air (h : R) : airstate := {| a_rho := exp (ld h); a_temp := std_temp h; a_press := exp (lp h) |}.
Lemma std_temp_low h : 0 <= h <= 11000 -> std_temp h = 288.15 - 0.0065 * h.
Proof.
  intros H. unfold std_temp, climb. rewrite (Rmin_left h 32000), (Rmin_left h 47000), (Rmin_left h 11000) by lra.
  rewrite !Rmax_left by lra. lra.
Qed.
Lemma std_air_at c h : designatm c = isa 0 -> 0 <= h <= 11000 -> air_at c h (std_air h).
Proof.
  intros E H. pose proof (std_temp_low h H) as T. pose proof (isa_air c 0 h E ltac:(lra) ltac:(lra)) as A.
  unfold std_air. replace (exp (ld h) * std_temp h / (std_temp h + 0)) with (exp (ld h)) in A by (field; lra).
  rewrite Rplus_0_r in A. exact A.
Qed.
Lemma rho_ratio h : 0 <= h < 11000 -> 0 < exp (ld 0) / exp (ld h) <= exp (0.000128 * h).
Proof.
  intros H. split; [apply Rdiv_lt_0_compat; apply exp_pos|].
  replace (exp (ld 0) / exp (ld h)) with (exp (ld 0 - ld h)).
  2:{ unfold Rminus. rewrite exp_plus, exp_Ropp. reflexivity. }
  assert (L : ld 0 - ld h <= 0.000128 * h).
  { unfold ld. rewrite !layer1 by lra. pose proof (ld1_slope 0 h ltac:(lra) ltac:(lra) ltac:(lra)). lra. }
  destruct (Rle_lt_or_eq_dec _ _ L) as [Q|Q]; [left; apply exp_increasing, Q|rewrite Q; lra].
Qed.
(** Mach number squared from above *)
Lemma mach_ub V h B : 0 <= h <= 11000 -> 0 <= V -> 0 <= B ->
  V ^ 2 < B ^ 2 * (1.4 * 287.05287 * (288.15 - 0.0065 * h)) -> 0 <= mach_no V (std_air h) < B.
Proof.
  intros H HV HB L. unfold mach_no, sound_speed. cbn [std_air a_temp]. rewrite (std_temp_low h H).
  set (q := 1.4 * 287.05287 * (288.15 - 0.0065 * h)) in *. assert (Q : 0 < q) by (unfold q; lra).
  pose proof (sqrt_lt_R0 q Q) as SQ. split; [apply Rdiv_le_0_compat; assumption|].
  apply (Rmult_lt_reg_r (sqrt q)); [exact SQ|]. unfold Rdiv. rewrite Rmult_assoc, Rinv_l, Rmult_1_r by lra.
  apply Rsqr_incrst_0; [|exact HV|nra]. unfold Rsqr. pose proof (sqrt_sqrt q ltac:(lra)). nra.
Qed.
Lemma true_sq e h X : 0 <= h < 11000 -> exp (0.000128 * h) <= X -> true_speed e (std_air h) (std_air 0) ^ 2 <= e ^ 2 * X.
Proof.
  intros H L. unfold true_speed. cbn [std_air a_rho]. rewrite Rpow_mult_distr, pow2_sqrt.
  - apply Rmult_le_compat_l; [apply pow2_ge_0|]. pose proof (rho_ratio h H). lra.
  - pose proof (rho_ratio h H). lra.
Qed.

Notation jet := (example_jet 20 18).
Lemma jet_wing by' p atm : wing_ok example_ext (example_aircraft 20 18 by' p atm).
Proof.
  exists (example_wing 20 18), 6.28. destruct example_regular as (R1 & R2 & _).
  split; [repeat split|]. split; [exact R1|]. split; [exact R2|]. split; [reflexivity|]. split; [lra|].
  intros. eexists. reflexivity.
Qed.
Lemma std_brief by' p : brief_complete (example_aircraft 20 18 by' p (isa 0)).
Proof.
  assert (A : forall h, 0 <= h <= 11000 -> air_at (example_aircraft 20 18 by' p (isa 0)) h (std_air h))
    by (intros; apply std_air_at; [reflexivity|assumption]).
  split; [do 2 eexists; repeat split; lra|]. split; [eexists; split; [reflexivity|lra]|].
  split; [eexists; split; [reflexivity|lra]|]. split; [do 2 eexists; repeat split; lra|].
  split; [eexists; reflexivity|]. split; [exists (std_air 0); apply A; lra|].
  repeat constructor; do 2 eexists; (split; [reflexivity|apply A; lra]).
Qed.
Lemma jet_engine : engine_ok jet.
Proof. left. exists 4, 1.07, LowBypass. repeat split. constructor; [left; reflexivity|lra]. Qed.
Lemma piston_engine : engine_ok (example_aircraft 20 18 (-1) (PropStr "piston") (isa 0)).
Proof. left. exists (-1), 1.07, Piston. repeat split. constructor. right; reflexivity. Qed.

Lemma jet_lapse V h : 0 <= h <= 11000 -> 0 <= V -> 0 <= mach_no V (std_air h) < 0.59 ->
  exists tau, lapse example_ext jet true V h tau /\ 0 < tau.
Proof.
  intros H HV HM. pose proof (std_temp_low h H) as T.
  assert (HA : air_at jet h (std_air h)) by (apply std_air_at; [reflexivity|lra]).
  assert (G : generic_of 4 (propulsion jet) LowBypass) by (constructor; [left; reflexivity|lra]).
  pose proof (slcorr_generic jet h (std_air h) HA example_ext 4 1.07 LowBypass eq_refl eq_refl G V HV) as E.
  cbn [engine_lapse] in E. unfold low_bypass_lapse in E. set (m := mach_no V (std_air h)) in *.
  cbn [std_air a_temp a_press] in E. rewrite T in E.
  assert (TH : theta0 (288.15 - 0.0065 * h - 273.15) m - 1.07 <= 0).
  { unfold theta0. replace (288.15 - 0.0065 * h - 273.15 + 273.15) with (288.15 - 0.0065 * h) by lra.
    assert (0 <= m ^ 2 <= 0.3481) by (split; [apply pow2_ge_0|simpl; nra]).
    assert (0 <= (288.15 - 0.0065 * h) / 288.15 <= 1) by (split; lra).
    assert (0 <= 1 + 0.2005 * m ^ 2 <= 1.07) by lra.
    pose proof (Rmult_le_compat ((288.15 - 0.0065 * h) / 288.15) 1 (1 + 0.2005 * m ^ 2) 1.07). lra. }
  rewrite (excess_0 _ TH) in E. 
  assert (P : 0 < delta0 (exp (lp h)) m).
  { unfold delta0. apply Rmult_lt_0_compat; [apply Rdiv_lt_0_compat; [apply exp_pos|lra]|apply Rpower_pos]. }
  exists (delta0 (exp (lp h)) m). split; [|exact P].
  do 2 eexists. split; [exact E|]. cbv beta iota. split; [lra|]. right. do 2 f_equal. apply Fin_eq. unfold Rdiv. lra.
Qed.

Lemma jet_induced m w cl : 0 <= m < 0.6 -> 0 < w -> 0 <= cl <= 0.005 ->
  w <= 0.005 * dyn_press (knots 300) (std_air 6000) -> exists k, induced example_ext jet m w cl k /\ 0 < k.
Proof.
  intros Hm Hw L2 Hc.
  assert (HA : air_at jet 6000 (std_air 6000)) by (apply std_air_at; [reflexivity|lra]).
  set (qc := dyn_press (knots 300) (std_air 6000)) in *. assert (QC : 0 < qc) by lra.
  assert (L1 : 0 <= w * 0.9 / qc <= 0.005).
  { split; [apply Rdiv_le_0_compat; lra|]. apply (Rmult_le_reg_r qc); [exact QC|]. unfold Rdiv. rewrite Rmult_assoc, Rinv_l; lra. }
  apply (induced_slow example_ext jet m w cl (w * 0.9 / qc)); [apply jet_wing|exact Hm| |lra|apply Rabs_le; lra].
  right. exists 300, 6000, (std_air 6000), 0.9. repeat split; try exact HA; try apply HA. lra.
Qed.

Lemma std_q_pos V h : 0 < V -> 0 < dyn_press V (std_air h).
Proof. intros. apply q_pos; [apply exp_pos|assumption]. Qed.
Lemma true_pos_std e h : 0 < e -> 0 < true_speed e (std_air h) (std_air 0).
Proof. intros. apply true_pos; try apply exp_pos. assumption. Qed.
Lemma true_ratio a b h : a <= b -> true_speed a (std_air h) (std_air 0) <= true_speed b (std_air h) (std_air 0).
Proof. intros. unfold true_speed. apply Rmult_le_compat_r; [apply sqrt_pos|assumption]. Qed.

Definition climb_V : R := true_speed (knots 250) (std_air 1000) (std_air 0).
Definition ceiling_V : R := true_speed (knots 180) (std_air 9000) (std_air 0).
Definition flown (V h w cl : R) : Prop :=
  (exists tau, lapse example_ext jet true V h tau /\ 0 < tau) /\
  exists k, induced example_ext jet (mach_no V (std_air h)) w (cl / dyn_press V (std_air h)) k /\ 0 < k.

Lemma jet_machs : 0 <= mach_no climb_V (std_air 1000) < 0.59 /\ 0 <= mach_no (knots 300) (std_air 6000) < 0.59 /\
  0 <= mach_no ceiling_V (std_air 9000) < 0.59 /\ 0 <= mach_no (knots 240) (std_air 2000) < 0.59.
Proof.
  assert (K : forall x, 0 < x -> 0 < knots x) by (intros; unfold knots; lra).
  pose proof (true_pos_std (knots 250) 1000 (K 250 ltac:(lra))) as P1.
  pose proof (true_pos_std (knots 180) 9000 (K 180 ltac:(lra))) as P2.
  fold climb_V in P1. fold ceiling_V in P2.
  split; [|split; [|split]]; apply mach_ub; try lra; try (unfold knots; simpl; lra).
  - assert (E : exp (0.000128 * 1000) <= 1.15).
    { replace (0.000128 * 1000) with 0.128 by lra. pose proof (exp_ub 0.128 1 ltac:(lia) ltac:(simpl; lra)) as U. simpl in U.
      assert (/ (1 - 0.128 / 1) <= 1.15) by (rewrite <- (Rinv_inv 1.15); apply Rinv_le_contravar; lra). lra. }
    pose proof (true_sq (knots 250) 1000 1.15 ltac:(lra) E) as S. fold climb_V in S.
    eapply Rle_lt_trans; [exact S|]. unfold knots. simpl. lra.
  - assert (E : exp (0.000128 * 9000) <= 3.47).
    { replace (0.000128 * 9000) with 1.152 by lra.
      pose proof (exp_ub 1.152 8 ltac:(lia) ltac:(simpl; lra)) as U.
      assert (B : / (1 - 1.152 / INR 8) <= 1.16823).
      { rewrite <- (Rinv_inv 1.16823). apply Rinv_le_contravar; [apply Rinv_0_lt_compat; lra|]. simpl.
        assert (/ 1.16823 <= 0.856) by (rewrite <- (Rinv_inv 0.856); apply Rinv_le_contravar; lra). lra. }
      assert (B0 : 0 < / (1 - 1.152 / INR 8)) by (apply Rinv_0_lt_compat; simpl; lra).
      assert ((/ (1 - 1.152 / INR 8)) ^ 8 <= 1.16823 ^ 8) by (apply pow_incr; lra).
      assert (1.16823 ^ 8 <= 3.4715) by (simpl; lra). lra. }
    pose proof (true_sq (knots 180) 9000 3.48 ltac:(lra) ltac:(lra)) as S. fold ceiling_V in S.
    eapply Rle_lt_trans; [exact S|]. unfold knots. simpl. lra.
Qed.

Lemma jet_cases : exists w, 0 < w /\
  Rabs (true_speed (feet_per_min 1000) (std_air 1000) (std_air 0)) <= climb_V /\
  true_speed (feet_per_min 100) (std_air 9000) (std_air 0) <= ceiling_V /\
  flown climb_V 1000 w (0.95 * w) /\ flown (knots 300) 6000 w (0.9 * w) /\
  flown ceiling_V 9000 w (0.85 * w) /\ flown (knots 240) 2000 (0.92 * w) (1.5 * (0.92 * w)) /\
  flown (knots 240) 2000 (0.92 * w) (1.5 * (0.92 * w) * 0.95).
Proof.
  assert (K : forall x, 0 < x -> 0 < knots x) by (intros; unfold knots; lra).
  pose proof (true_pos_std (knots 250) 1000 (K 250 ltac:(lra))) as P1.
  pose proof (true_pos_std (knots 180) 9000 (K 180 ltac:(lra))) as P2.
  fold climb_V in P1. fold ceiling_V in P2. destruct jet_machs as (M1 & M2 & M3 & M4).
  pose proof (std_q_pos climb_V 1000 P1) as Q1. pose proof (std_q_pos (knots 300) 6000 (K 300 ltac:(lra))) as Q2.
  pose proof (std_q_pos ceiling_V 9000 P2) as Q3. pose proof (std_q_pos (knots 240) 2000 (K 240 ltac:(lra))) as Q4.
  set (q1 := dyn_press climb_V (std_air 1000)) in *. set (q2 := dyn_press (knots 300) (std_air 6000)) in *.
  set (q3 := dyn_press ceiling_V (std_air 9000)) in *. set (q4 := dyn_press (knots 240) (std_air 2000)) in *.
  set (q := Rmin (Rmin q1 q2) (Rmin q3 q4)).
  assert (Hq : 0 < q /\ q <= q1 /\ q <= q2 /\ q <= q3 /\ q <= q4).
  { unfold q. pose proof (Rmin_l (Rmin q1 q2) (Rmin q3 q4)). pose proof (Rmin_r (Rmin q1 q2) (Rmin q3 q4)).
    pose proof (Rmin_l q1 q2). pose proof (Rmin_r q1 q2). pose proof (Rmin_l q3 q4). pose proof (Rmin_r q3 q4).
    split; [repeat apply Rmin_glb_lt; assumption|]. lra. }
  exists (0.002 * q). split; [lra|]. split.
  { rewrite Rabs_right; [apply true_ratio; unfold feet_per_min, knots; lra|].
    left. apply true_pos_std. unfold feet_per_min. lra. }
  split; [apply true_ratio; unfold feet_per_min, knots; lra|].
  assert (D : forall a x, 0 < x -> 0 <= a <= 0.005 * x -> 0 <= a / x <= 0.005).
  { intros a x Hx Ha. split; [apply Rdiv_le_0_compat; lra|]. apply (Rmult_le_reg_r x); [exact Hx|].
    unfold Rdiv. rewrite Rmult_assoc, Rinv_l; lra. }
  split; [|split; [|split; [|split]]]; (split; [apply jet_lapse; solve [lra|assumption|left; assumption|left; apply K; lra]|]);
    (apply jet_induced; [lra|lra|apply D; [assumption|]|]); fold q1 q2 q3 q4; lra.
Qed.

Lemma jet_air h : 0 <= h <= 11000 -> air_at jet h (std_air h).
Proof. intros. apply std_air_at; [reflexivity|assumption]. Qed.

Lemma takeoff_example : takeoff_data jet 1200 0 1.7 0.06 0.8 0.03 4 /\ air_at jet 0 (std_air 0) /\
  exists w tau, 0 < w /\
    forall L, liftoff_speed w (a_rho (std_air 0)) 1.7 L -> lapse example_ext jet true L 0 tau.
Proof.
  split; [repeat split|]. split; [apply jet_air; lra|].
  pose proof (exp_pos (ld 0)) as P. set (w := 1 / 2 * a_rho (std_air 0) * 20 ^ 2 * 1.7).
  destruct (jet_lapse 22 0 ltac:(lra) ltac:(lra)) as (tau & HL & _).
  { apply mach_ub; try lra. }
  exists w, tau. split; [unfold w; cbn [std_air a_rho]; lra|].
  intros L (HL0 & vs & E1 & E2). assert (L = 22) as ->; [|exact HL].
  cbn [std_air a_rho] in *. unfold w in E2. cbn [std_air a_rho] in E2.
  assert (Q : vs ^ 2 = 20 ^ 2).
  { apply (Rmult_eq_reg_l (1 / 2 * exp (ld 0) * 1.7)); [|lra]. lra. }
  assert (vs = 20) by nra. lra.
Qed.

Lemma turn_example : let c := with_climb_fraction jet (Some (Fin 1)) in
  turn_data c 240 2000 1.5 0.92 1 0.02 /\ air_at c 2000 (std_air 2000) /\
  exists w tau k, 0 < w /\ lapse example_ext c true (knots 240) 2000 tau /\
    induced example_ext c (mach_no (knots 240) (std_air 2000)) (0.92 * w)
      (1.5 * (0.92 * w) / dyn_press (knots 240) (std_air 2000)) k.
Proof.
  intros c. split; [repeat split|]. split; [apply std_air_at; [reflexivity|lra]|].
  destruct jet_cases as (w & W & _ & _ & _ & _ & _ & ((tau & T & _) & (k & K & _)) & _).
  exists w, tau, k. split; [exact W|]. split; [exact T|exact K].
Qed.

(** with a climb fraction below one the turn constraint asks for too little thrust *)
Lemma turn_deficit ext c map2sl v ws spd h n b bc cd0 s tau k :
  elements v = map Fin ws -> ws <> [] -> (forall w, In w ws -> 0 < w) ->
  turn_data c spd h n b bc cd0 -> 0 < spd -> 0 < n -> 0 < b -> bc < 1 -> air_at c h s ->
  let V := knots spd in
  let q := dyn_press V s in
  lapse ext c map2sl V h tau -> 0 < tau ->
  (forall w, In w ws -> induced ext c (mach_no V s) (b * w) (n * (b * w) * bc / q) (k w) /\ 0 < k w) ->
  exists T C F, twrequired_trn ext c v map2sl = Ok (results ws T, C, F) /\
  forall w t, In w ws -> drag_balance q cd0 (k w) (b * w) n 0 t -> T w < b * t / tau.
Proof.
  intros HV HN HP HD Hs Hn Hb Hbc HA V q HL Ht HK.
  pose proof HA as (_ & _ & _ & RP & _). assert (HVp : 0 < V) by (unfold V, knots; lra).
  pose proof (q_pos V s RP HVp) as Hq. fold q in Hq.
  do 3 eexists. split.
  { apply (turn_general ext c map2sl v ws HV HN HP spd h n b bc cd0 s tau k HD Hs Hb HA HL (fun w I => proj1 (HK w I))). }
  cbv beta zeta. fold V. fold q. intros w t I HB. pose proof (HP w I) as Hw. pose proof (proj2 (HK w I)) as Hk.
  assert (0 < b * w) by nra.
  assert (t = q * (cd0 / (b * w) + k w * (n / q) ^ 2 * (b * w))) as ->.
  { unfold drag_balance in HB. rewrite sin_0 in HB. apply (Rmult_eq_reg_r (b * w)); [|lra]. rewrite HB. field. lra. }
  apply Rmult_lt_compat_r; [apply Rinv_0_lt_compat; exact Ht|]. apply Rmult_lt_compat_l; [exact Hb|].
  apply Rmult_lt_compat_l; [exact Hq|]. apply Rplus_lt_compat_l. apply Rmult_lt_compat_l; [|nra].
  apply Rmult_lt_0_compat; [exact Hk|]. apply pow_lt. apply Rdiv_lt_0_compat; assumption.
Qed.

Lemma deficit_example : turn_data jet 240 2000 1.5 0.92 0.95 0.02 /\ air_at jet 2000 (std_air 2000) /\
  exists w, 0 < w /\ flown (knots 240) 2000 (0.92 * w) (1.5 * (0.92 * w) * 0.95).
Proof.
  split; [repeat split|]. split; [apply jet_air; lra|]. destruct jet_cases as (w & A). exists w. tauto.
Qed.

Lemma fraction_example : turn_data jet 240 2000 1.5 0.92 0.95 0.02 /\ air_at jet 2000 (std_air 2000) /\
  forall v map2sl, (exists r, twrequired_trn example_ext jet v map2sl = Ok r) /\
    exists r, twrequired_trn example_ext (with_climb_fraction jet (Some (Fin 0.8))) v map2sl = Ok r.
Proof.
  split; [repeat split|]. split; [apply jet_air; lra|]. intros v map2sl.
  assert (X : forall c, twrequired_trn example_ext c v map2sl = twrequired_trn example_ext c (VArr (elements v)) map2sl).
  { intros c. unfold twrequired_trn. rewrite !recast_elements. reflexivity. }
  rewrite !X. split.
  - destruct (twrequired_ok example_ext jet map2sl (jet_wing _ _ _) jet_engine (std_brief _ _) v true) as (r & H).
    destruct (twrequired_parts _ _ _ _ _ _ H) as (_ & E & _). eexists; exact E.
  - set (c := with_climb_fraction jet (Some (Fin 0.8))).
    assert (W : wing_ok example_ext c) by exact (jet_wing 4 PropFalse (isa 0)).
    assert (E : engine_ok c) by exact jet_engine.
    assert (B : brief_complete c) by exact (std_brief 4 PropFalse).
    destruct (twrequired_ok example_ext c map2sl W E B v true) as (r & H).
    destruct (twrequired_parts _ _ _ _ _ _ H) as (_ & E' & _). eexists; exact E'.
Qed.

Lemma flight_example :
  (climb_data jet 250 1000 1000 0.95 0.02 /\ cruise_data jet 300 6000 0.9 1 0.02 /\
   ceiling_data jet 180 9000 0.85 0.02 /\
   air_at jet 0 (std_air 0) /\ air_at jet 1000 (std_air 1000) /\ air_at jet 6000 (std_air 6000) /\
   air_at jet 9000 (std_air 9000)) /\
  exists w, 0 < w /\
  Rabs (true_speed (feet_per_min 1000) (std_air 1000) (std_air 0)) <= climb_V /\
  true_speed (feet_per_min 100) (std_air 9000) (std_air 0) <= ceiling_V /\
  flown climb_V 1000 w (0.95 * w) /\ flown (knots 300) 6000 w (0.9 * w) /\
  flown ceiling_V 9000 w (0.85 * w).
Proof.
  split; [repeat (split; [solve [repeat split|apply jet_air; lra]|]); apply jet_air; lra|].
  destruct jet_cases as (w & W1 & W2 & W3 & W4 & W5 & W6 & _). exists w. tauto.
Qed.

Lemma entries_are_constraints ext c v fo map2sl r :
  twrequired ext c v fo map2sl = Ok r ->
  let ws := VArr (elements v) in
  twrequired_to ext c ws map2sl = Ok (rq_takeoff r, rq_liftoffspeed r, rq_avspeed r) /\
  twrequired_trn ext c ws map2sl = Ok (rq_turn r, rq_turncl r, rq_turnfeasible r) /\
  twrequired_clm ext c ws map2sl = Ok (rq_climb r) /\ twrequired_crs ext c ws map2sl = Ok (rq_cruise r) /\
  twrequired_sec ext c ws map2sl = Ok (rq_servceil r).
Proof. intros H. destruct (twrequired_parts _ _ _ _ _ _ H) as (A & B & C & D & E & _). repeat split; assumption. Qed.

Lemma complete_example : wing_ok example_ext jet /\ engine_ok jet /\ brief_complete jet.
Proof. split; [apply jet_wing|]. split; [apply jet_engine|apply std_brief]. Qed.
Lemma requirement_example : forall v fo map2sl, exists r, twrequired example_ext jet v fo map2sl = Ok r.
Proof. intros. destruct complete_example as (A & B & C). apply twrequired_ok; assumption. Qed.
Lemma power_example : (etaprop_to jet = Some (Fin 0.45) /\ etaprop_turn jet = Some (Fin 0.85) /\
    etaprop_climb jet = Some (Fin 0.75) /\ etaprop_cruise jet = Some (Fin 0.85) /\ etaprop_sec jet = Some (Fin 0.65)) /\
  air_at jet 0 (std_air 0) /\ air_at jet 1000 (std_air 1000) /\ air_at jet 9000 (std_air 9000) /\
  forall v m fo map2sl, exists r, powerrequired example_ext jet v m fo map2sl = Ok r.
Proof.
  split; [repeat split|]. split; [apply jet_air; lra|]. split; [apply jet_air; lra|]. split; [apply jet_air; lra|].
  intros. destruct complete_example as (A & B & C). apply powerrequired_ok; assumption.
Qed.
Lemma piston_example : let c := example_aircraft 20 18 (-1) (PropStr "piston") (isa 0) in
  forall v m fo map2sl, exists r, powerrequired example_ext c v m fo map2sl = Ok r.
Proof. intros. apply powerrequired_ok; [apply jet_wing|apply piston_engine|apply std_brief]. Qed.
Lemma stall_example : let c := example_aircraft 20 18 4 PropFalse (isa 15) in
  designatm c = isa 15 /\ clmaxclean c = Some (Fin 1.5) /\ vstallclean_kcas c = Some (Fin 110) /\
  exists s, air_at c 0 s.
Proof.
  intros c. repeat (split; [reflexivity|]). eexists. apply isa_air; [reflexivity|lra|].
  rewrite std_temp_0. lra.
Qed.
Lemma two_loadings : List.length (elements (VList [Fin 1000; Fin 2000])) <> 1%nat.
Proof. cbn. lia. Qed.
Lemma bypass_example : bpr jet = Some (Fin 4) /\ bpr (example_aircraft 20 18 0.5 PropFalse (isa 0)) = Some (Fin 0.5).
Proof. split; reflexivity. Qed.
Lemma height_example : wingheightratio jet = Some (Fin 0.1).
Proof. reflexivity. Qed.
Lemma turnspeed_example : turnspeed_ktas jet = Some (Fin 240).
Proof. reflexivity. Qed.
Lemma engine_example : generic_of 4 (propulsion jet) LowBypass /\
  (let c := example_aircraft 20 18 (-1) PropFalse (isa 0) in generic_of (-1) (propulsion c) Piston) /\
  air_at jet 6000 (std_air 6000).
Proof.
  split; [constructor; [left; reflexivity|lra]|]. split; [|apply jet_air; lra].
  constructor. left. split; reflexivity.
Qed.
Lemma suction_example : has_wing jet (example_wing 20 18) /\ regular (example_wing 20 18) /\ suction_ok 0.001 /\
  exists x clc a, cruise_cl jet x clc /\ 0 <= clc <= 0.3 /\ liftslope_prad example_ext jet (Fin 0.5) = Ok (Fin a) /\ 0 < a.
Proof.
  destruct example_regular as (R1 & R2 & _). split; [apply example_has_wing|]. split; [exact R1|].
  split; [apply (suction_small 0.1); [lra|]; apply Rabs_le; lra|].
  assert (HA : air_at jet 6000 (std_air 6000)) by (apply jet_air; lra).
  pose proof (std_q_pos (knots 300) 6000 ltac:(unfold knots; lra)) as Q. set (q := dyn_press (knots 300) (std_air 6000)) in *.
  destruct (subsonic_slope_pos example_ext jet (example_wing 20 18) 6.28 0.5 (example_has_wing _ _) R1 R2 eq_refl
    ltac:(lra) ltac:(lra)) as (a & L & P).
  exists (0.1 * q), (0.1 * q * 0.9 / q), a. split; [|split; [|split; assumption]].
  - right. exists 300, 6000, (std_air 6000), 0.9. repeat split; try exact HA; try apply HA. lra.
  - replace (0.1 * q * 0.9 / q) with 0.09; [lra|]. set (x := 0.1). set (y := 0.9). assert (E : 0.09 = x * y) by (unfold x, y; lra).
    rewrite E. field. lra.
Qed.
