(** Proofs about the ISA model: C06-C10. *)
From Verif Require Import Base BaseFacts AnalysisFacts UnitsModel AtmosModel AtmosSpec IsaReal.
Open Scope R_scope.

(** ** temperature *)
Ltac minmax := unfold climb, Rmin, Rmax; repeat (destruct (Rle_dec _ _)); try lra.

Lemma tl_std h : h <= 50000 -> tl h = std_temp h.
Proof.
  intros Hh. unfold tl, std_temp.
  apply (layer_cases (fun x => x = _)); intros H.
  all: repeat first [ rewrite (Rmin_left h 11000) by lra | rewrite (Rmin_right h 11000) by lra ];
       unfold climb;
       repeat first [ rewrite (Rmin_left h 32000) by lra | rewrite (Rmin_right h 32000) by lra ];
       repeat first [ rewrite (Rmin_left h 47000) by lra | rewrite (Rmin_right h 47000) by lra ];
       repeat first [ rewrite Rmax_left by lra | rewrite Rmax_right by lra ]; lra.
Qed.

Lemma isatemp_std o h : h <= 50000 -> isatemp1 (Fin o) (Fin h) = Fin (std_temp h + o).
Proof. intros H. rewrite isatemp1_real, tl_std by exact H. reflexivity. Qed.

Lemma climb_mono lo hi a b : a <= b -> 0 <= climb lo hi b - climb lo hi a <= b - a.
Proof. intros H; minmax. Qed.
Lemma std_temp_lipschitz a b : Rabs (std_temp a - std_temp b) <= 0.0065 * Rabs (a - b).
Proof.
  assert (forall x y, x <= y -> Rabs (std_temp x - std_temp y) <= 0.0065 * Rabs (x - y)) as K.
  { intros x y Hxy. unfold std_temp.
    rewrite (Rabs_minus_sym x y), (Rabs_pos_eq (y - x)) by lra.
    pose proof (climb_mono 20000 32000 x y Hxy). pose proof (climb_mono 32000 47000 x y Hxy).
    assert (0 <= Rmin y 11000 - Rmin x 11000 <= y - x) by minmax.
    apply Rabs_le. lra. }
  destruct (Rle_dec a b) as [H|H]; [apply K; exact H|].
  rewrite (Rabs_minus_sym a b), (Rabs_minus_sym (std_temp a)). apply K; lra.
Qed.

(** ** near-monotonicity of pressure and density *)
Ltac split_layers h :=
  destruct (Rlt_dec h 11000); [|destruct (Rlt_dec h 20000); [|destruct (Rlt_dec h 32000);
    [|destruct (Rlt_dec h 47000)]]].

Lemma lp_decreases a b : -5000 <= a -> a <= b -> b <= 50000 ->
  lp b - lp a <= -0.0001 * (b - a) + 5e-6.
Proof.
  intros Ha Hab Hb.
  pose proof lp_joint1; pose proof lp_joint2; pose proof lp_joint3; pose proof lp_joint4.
  unfold lp, layer.
  split_layers a; split_layers b; try lra.
  - pose proof (lp1_slope a b ltac:(lra) ltac:(lra) ltac:(lra)); lra.
  - pose proof (lp1_slope a 11000 ltac:(lra) ltac:(lra) ltac:(lra)).
    pose proof (lp2_slope 11000 b); lra.
  - pose proof (lp1_slope a 11000 ltac:(lra) ltac:(lra) ltac:(lra)).
    pose proof (lp2_slope 11000 20000). pose proof (lp3_slope 20000 b ltac:(lra) ltac:(lra) ltac:(lra)); lra.
  - pose proof (lp1_slope a 11000 ltac:(lra) ltac:(lra) ltac:(lra)).
    pose proof (lp2_slope 11000 20000). pose proof (lp3_slope 20000 32000 ltac:(lra) ltac:(lra) ltac:(lra)).
    pose proof (lp4_slope 32000 b ltac:(lra) ltac:(lra) ltac:(lra)); lra.
  - pose proof (lp1_slope a 11000 ltac:(lra) ltac:(lra) ltac:(lra)).
    pose proof (lp2_slope 11000 20000). pose proof (lp3_slope 20000 32000 ltac:(lra) ltac:(lra) ltac:(lra)).
    pose proof (lp4_slope 32000 47000 ltac:(lra) ltac:(lra) ltac:(lra)). pose proof (lp5_slope 47000 b); lra.
  - pose proof (lp2_slope a b); lra.
  - pose proof (lp2_slope a 20000). pose proof (lp3_slope 20000 b ltac:(lra) ltac:(lra) ltac:(lra)); lra.
  - pose proof (lp2_slope a 20000). pose proof (lp3_slope 20000 32000 ltac:(lra) ltac:(lra) ltac:(lra)).
    pose proof (lp4_slope 32000 b ltac:(lra) ltac:(lra) ltac:(lra)); lra.
  - pose proof (lp2_slope a 20000). pose proof (lp3_slope 20000 32000 ltac:(lra) ltac:(lra) ltac:(lra)).
    pose proof (lp4_slope 32000 47000 ltac:(lra) ltac:(lra) ltac:(lra)). pose proof (lp5_slope 47000 b); lra.
  - pose proof (lp3_slope a b ltac:(lra) ltac:(lra) ltac:(lra)); lra.
  - pose proof (lp3_slope a 32000 ltac:(lra) ltac:(lra) ltac:(lra)).
    pose proof (lp4_slope 32000 b ltac:(lra) ltac:(lra) ltac:(lra)); lra.
  - pose proof (lp3_slope a 32000 ltac:(lra) ltac:(lra) ltac:(lra)).
    pose proof (lp4_slope 32000 47000 ltac:(lra) ltac:(lra) ltac:(lra)). pose proof (lp5_slope 47000 b); lra.
  - pose proof (lp4_slope a b ltac:(lra) ltac:(lra) ltac:(lra)); lra.
  - pose proof (lp4_slope a 47000 ltac:(lra) ltac:(lra) ltac:(lra)). pose proof (lp5_slope 47000 b); lra.
  - pose proof (lp5_slope a b); lra.
Qed.

Lemma ld_decreases a b : -5000 <= a -> a <= b -> b <= 50000 ->
  ld b - ld a <= -0.00008 * (b - a) + 5e-6.
Proof.
  intros Ha Hab Hb.
  pose proof ld_joint1; pose proof ld_joint2; pose proof ld_joint3; pose proof ld_joint4.
  unfold ld, layer.
  split_layers a; split_layers b; try lra.
  - pose proof (ld1_slope a b ltac:(lra) ltac:(lra) ltac:(lra)); lra.
  - pose proof (ld1_slope a 11000 ltac:(lra) ltac:(lra) ltac:(lra)).
    pose proof (ld2_slope 11000 b); lra.
  - pose proof (ld1_slope a 11000 ltac:(lra) ltac:(lra) ltac:(lra)).
    pose proof (ld2_slope 11000 20000). pose proof (ld3_slope 20000 b ltac:(lra) ltac:(lra) ltac:(lra)); lra.
  - pose proof (ld1_slope a 11000 ltac:(lra) ltac:(lra) ltac:(lra)).
    pose proof (ld2_slope 11000 20000). pose proof (ld3_slope 20000 32000 ltac:(lra) ltac:(lra) ltac:(lra)).
    pose proof (ld4_slope 32000 b ltac:(lra) ltac:(lra) ltac:(lra)); lra.
  - pose proof (ld1_slope a 11000 ltac:(lra) ltac:(lra) ltac:(lra)).
    pose proof (ld2_slope 11000 20000). pose proof (ld3_slope 20000 32000 ltac:(lra) ltac:(lra) ltac:(lra)).
    pose proof (ld4_slope 32000 47000 ltac:(lra) ltac:(lra) ltac:(lra)). pose proof (ld5_slope 47000 b); lra.
  - pose proof (ld2_slope a b); lra.
  - pose proof (ld2_slope a 20000). pose proof (ld3_slope 20000 b ltac:(lra) ltac:(lra) ltac:(lra)); lra.
  - pose proof (ld2_slope a 20000). pose proof (ld3_slope 20000 32000 ltac:(lra) ltac:(lra) ltac:(lra)).
    pose proof (ld4_slope 32000 b ltac:(lra) ltac:(lra) ltac:(lra)); lra.
  - pose proof (ld2_slope a 20000). pose proof (ld3_slope 20000 32000 ltac:(lra) ltac:(lra) ltac:(lra)).
    pose proof (ld4_slope 32000 47000 ltac:(lra) ltac:(lra) ltac:(lra)). pose proof (ld5_slope 47000 b); lra.
  - pose proof (ld3_slope a b ltac:(lra) ltac:(lra) ltac:(lra)); lra.
  - pose proof (ld3_slope a 32000 ltac:(lra) ltac:(lra) ltac:(lra)).
    pose proof (ld4_slope 32000 b ltac:(lra) ltac:(lra) ltac:(lra)); lra.
  - pose proof (ld3_slope a 32000 ltac:(lra) ltac:(lra) ltac:(lra)).
    pose proof (ld4_slope 32000 47000 ltac:(lra) ltac:(lra) ltac:(lra)). pose proof (ld5_slope 47000 b); lra.
  - pose proof (ld4_slope a b ltac:(lra) ltac:(lra) ltac:(lra)); lra.
  - pose proof (ld4_slope a 47000 ltac:(lra) ltac:(lra) ltac:(lra)). pose proof (ld5_slope 47000 b); lra.
  - pose proof (ld5_slope a b); lra.
Qed.

Lemma press_near_mono a b : -5000 <= a -> a + 0.1 <= b -> b <= 50000 ->
  exists pa pb, isapress1 (Fin a) = Fin pa /\ isapress1 (Fin b) = Fin pb /\ 0 < pb < pa.
Proof.
  intros Ha Hab Hb. exists (exp (lp a)), (exp (lp b)).
  repeat split; try apply isapress1_real; try apply exp_pos.
  apply exp_increasing. pose proof (lp_decreases a b Ha ltac:(lra) Hb). lra.
Qed.
Lemma dens_near_mono a b : -5000 <= a -> a + 0.1 <= b -> b <= 50000 ->
  exists da db, isadens1 (Fin 0) (Fin a) = Fin da /\ isadens1 (Fin 0) (Fin b) = Fin db /\ 0 < db < da.
Proof.
  intros Ha Hab Hb. exists (exp (ld a)), (exp (ld b)).
  pose proof (tl_pos' a). pose proof (tl_pos' b).
  repeat split.
  - rewrite isadens1_real by lra. apply Fin_eq. field; lra.
  - rewrite isadens1_real by lra. apply Fin_eq. field; lra.
  - apply exp_pos.
  - apply exp_increasing. pose proof (ld_decreases a b Ha ltac:(lra) Hb). lra.
Qed.

Definition same_layer (a b : R) : Prop :=
  layer a 1%nat 2%nat 3%nat 4%nat 5%nat = layer b 1%nat 2%nat 3%nat 4%nat 5%nat.

Lemma lp_strict_layer a b : -5000 <= a -> a < b -> b <= 50000 -> same_layer a b -> lp b < lp a.
Proof.
  intros Ha Hab Hb. unfold same_layer, lp, layer.
  split_layers a; split_layers b; try discriminate; intros _.
  - pose proof (lp1_slope a b ltac:(lra) ltac:(lra) ltac:(lra)); lra.
  - pose proof (lp2_slope a b); lra.
  - pose proof (lp3_slope a b ltac:(lra) ltac:(lra) ltac:(lra)); lra.
  - pose proof (lp4_slope a b ltac:(lra) ltac:(lra) ltac:(lra)); lra.
  - pose proof (lp5_slope a b); lra.
Qed.
Lemma ld_strict_layer a b : -5000 <= a -> a < b -> b <= 50000 -> same_layer a b -> ld b < ld a.
Proof.
  intros Ha Hab Hb. unfold same_layer, ld, layer.
  split_layers a; split_layers b; try discriminate; intros _.
  - pose proof (ld1_slope a b ltac:(lra) ltac:(lra) ltac:(lra)); lra.
  - pose proof (ld2_slope a b); lra.
  - pose proof (ld3_slope a b ltac:(lra) ltac:(lra) ltac:(lra)); lra.
  - pose proof (ld4_slope a b ltac:(lra) ltac:(lra) ltac:(lra)); lra.
  - pose proof (ld5_slope a b); lra.
Qed.

(** The exact statement fails: pressure *rises* across 20 km and 47 km. *)
Lemma press_rises : exists a b pa pb, 0 <= a /\ a < b /\ b <= 50000 /\
  isapress1 (Fin a) = Fin pa /\ isapress1 (Fin b) = Fin pb /\ pa < pb.
Proof.
  exists 19999.999, 20000, (exp (lp 19999.999)), (exp (lp 20000)).
  repeat split; try lra; try apply isapress1_real.
  apply exp_increasing. unfold lp. rewrite layer2 by lra. rewrite layer3 by lra.
  pose proof lp_joint2. pose proof (lp2_slope 19999.999 20000). lra.
Qed.
Lemma dens_rises : exists a b da db, 0 <= a /\ a < b /\ b <= 50000 /\
  isadens1 (Fin 0) (Fin a) = Fin da /\ isadens1 (Fin 0) (Fin b) = Fin db /\ da < db.
Proof.
  exists 19999.999, 20000, (exp (ld 19999.999)), (exp (ld 20000)).
  pose proof (tl_pos' 19999.999). pose proof (tl_pos' 20000).
  repeat split; try lra.
  - rewrite isadens1_real by lra. apply Fin_eq. field; lra.
  - rewrite isadens1_real by lra. apply Fin_eq. field; lra.
  - apply exp_increasing. unfold ld. rewrite layer2 by lra. rewrite layer3 by lra.
    pose proof ld_joint2. pose proof (ld2_slope 19999.999 20000). lra.
Qed.

(** ** ideal gas law *)


Ltac llslope Q E C D K A B u0 v0 M a b :=
  assert (Q : - M * (b - a) <= (E * ln (C + D * b) + K * ln (A + B * b))
                 - (E * ln (C + D * a) + K * ln (A + B * a)) <= M * (b - a))
  by (apply (loglog_slope E C D K A B u0 v0 M a b); [lra..|];
      let c := fresh "c" in let Hc := fresh in intros c Hc; repeat split; lra).

(** log defect of the gas law *)
Lemma gas_defect h : -5000 <= h -> h <= 50000 ->
  Rabs (lp h - ld h - ln 287.05287 - ln (tl h)) <= 3e-7.
Proof.
  intros Ha Hb. pose proof lnE_R. pose proof lnE_T0. pose proof lnE_T1.
  pose proof lnE_T3. pose proof lnE_T4.
  apply Rabs_le. unfold lp, ld, tl, layer. split_layers h.
  - (* layer 1: compare with sea level *)
    pose proof lnE_C1 as HC. pose proof lnE_I1 as HI.
    assert (ln (288.15 + (-6.5e-3) * 0) = ln 288.15) as E0 by (f_equal; lra).
    unfold lp1, ld1.
    destruct (Rle_dec 0 h) as [Hp|Hp].
    + llslope Q1 5.2558797 8.9619638 (-0.20216125e-3) (-5.2558797) 288.15 (-6.5e-3) 6 216 1e-11 0 h.
      llslope Q2 4.2558797 1.048840 (-23.659414e-6) (-4.2558797) 288.15 (-6.5e-3) 0.7 216 1e-11 0 h.
      rewrite E0 in Q1, Q2. split; lra.
    + llslope Q1 5.2558797 8.9619638 (-0.20216125e-3) (-5.2558797) 288.15 (-6.5e-3) 6 216 1e-11 h 0.
      llslope Q2 4.2558797 1.048840 (-23.659414e-6) (-4.2558797) 288.15 (-6.5e-3) 0.7 216 1e-11 h 0.
      rewrite E0 in Q1, Q2. split; lra.
  - unfold lp2, ld2. pose proof lnE_F2. pose proof lnE_M2. split; lra.
  - unfold lp3, ld3.
    llslope Q1 (-34.163218) 0.70551848 3.5876861e-6 34.163218 196.65 1e-3 0.77 216 3e-12 20000 h.
    llslope Q2 (-35.163218) 0.9726309 4.94600e-6 35.163218 196.65 1e-3 1.05 216 3e-12 20000 h.
    assert (ln (196.65 + 1e-3 * 20000) = ln 216.65) as E0 by (f_equal; lra).
    rewrite E0 in Q1, Q2. pose proof lnE_p3a. pose proof lnE_d3a. split; lra.
  - unfold lp4, ld4.
    llslope Q1 (-12.201149) 0.34926867 7.0330980e-6 12.201149 139.05 2.8e-3 0.57 228 1e-12 32000 h.
    llslope Q2 (-13.201149) 0.84392929 16.993902e-6 13.201149 139.05 2.8e-3 1.38 228 3e-12 32000 h.
    assert (ln (139.05 + 2.8e-3 * 32000) = ln 228.65) as E0 by (f_equal; lra).
    rewrite E0 in Q1, Q2. pose proof lnE_p4a. pose proof lnE_d4a. split; lra.
  - unfold lp5, ld5. pose proof lnE_F5. pose proof lnE_M5. split; lra.
Qed.

(** ** the hydrostatic standard in logarithmic form *)
Definition q0 := 9.80665 / 287.05287.
Definition P1 := ln 101325 + q0 / 0.0065 * (ln 216.65 - ln 288.15).
Definition P2 := P1 - q0 / 216.65 * 9000.
Definition P3 := P2 - q0 / 0.001 * (ln 228.65 - ln 216.65).
Definition P4 := P3 - q0 / 0.0028 * (ln 270.65 - ln 228.65).
Definition ls h := layer h
  (ln 101325 + q0 / 0.0065 * (ln (288.15 + (-6.5e-3) * h) - ln 288.15))
  (P1 - q0 / 216.65 * (h - 11000))
  (P2 - q0 / 0.001 * (ln (196.65 + 1e-3 * h) - ln 216.65))
  (P3 - q0 / 0.0028 * (ln (139.05 + 2.8e-3 * h) - ln 228.65))
  (P4 - q0 / 270.65 * (h - 47000)).

Lemma press_ratio_iso T dh : 0 < T -> press_ratio 0 T dh = exp (- (q0 / T * dh)).
Proof.
  intros HT. unfold press_ratio. destruct (Req_EM_T 0 0) as [_|n]; [|lra].
  f_equal. unfold g0, Rair, q0. field. split; lra.
Qed.
Lemma press_ratio_grad L T dh : L <> 0 -> 0 < T -> 0 < T + L * dh ->
  press_ratio L T dh = exp (- (q0 / L * (ln (T + L * dh) - ln T))).
Proof.
  intros HL HT Hp. unfold press_ratio. destruct (Req_EM_T L 0) as [e|n]; [lra|].
  unfold Rpower, Rdiv at 2. rewrite ln_mult, ln_Rinv by (try assumption; apply Rinv_0_lt_compat; assumption). f_equal. unfold g0, Rair, q0. field. split; lra.
Qed.
Lemma press_ratio_0 L T : 0 < T -> press_ratio L T 0 = 1.
Proof.
  intros HT. destruct (Req_EM_T L 0) as [->|n].
  - rewrite press_ratio_iso by exact HT. rewrite Rmult_0_r, Ropp_0. apply exp_0.
  - rewrite press_ratio_grad by lra. rewrite Rmult_0_r, Rplus_0_r. replace (- (q0 / L * (ln T - ln T))) with 0 by ring.
    apply exp_0.
Qed.

Lemma climb_low lo hi h : lo <= hi -> h <= lo -> climb lo hi h = 0.
Proof. intros; minmax. Qed.
Lemma climb_mid lo hi h : lo <= h <= hi -> climb lo hi h = h - lo.
Proof. intros; minmax. Qed.
Lemma climb_high lo hi h : lo <= hi -> hi <= h -> climb lo hi h = hi - lo.
Proof. intros; minmax. Qed.

Lemma std_press_ls h : -5000 <= h -> h <= 50000 -> std_press h = exp (ls h).
Proof.
  intros Ha Hb. unfold std_press, ls.
  replace 101325 with (exp (ln 101325)) at 1 by (apply exp_ln; lra).
  unfold layer. split_layers h.
  - rewrite Rmin_left by lra. rewrite !climb_low by lra. rewrite !press_ratio_0 by lra.
    rewrite press_ratio_grad by lra. rewrite !Rmult_1_r, <- exp_plus. f_equal.
    replace (288.15 + -0.0065 * h) with (288.15 + -6.5e-3 * h) by lra. lra.
  - rewrite Rmin_right by lra. rewrite climb_mid by lra. rewrite !climb_low by lra.
    rewrite !press_ratio_0 by lra.
    rewrite press_ratio_grad, press_ratio_iso by lra. rewrite !Rmult_1_r, <- !exp_plus. f_equal.
    replace (288.15 + -0.0065 * 11000) with 216.65 by lra. unfold P1. lra.
  - rewrite Rmin_right by lra. rewrite climb_high by lra. rewrite climb_mid by lra.
    rewrite !climb_low by lra. rewrite !press_ratio_0 by lra.
    rewrite press_ratio_iso by lra. rewrite !press_ratio_grad by lra. rewrite !Rmult_1_r, <- !exp_plus. f_equal.
    replace (288.15 + -0.0065 * 11000) with 216.65 by lra.
    replace (216.65 + 0.001 * (h - 20000)) with (196.65 + 1e-3 * h) by lra. unfold P2, P1. lra.
  - rewrite Rmin_right by lra. rewrite (climb_high 11000), (climb_high 20000) by lra.
    rewrite climb_mid by lra.
    rewrite !climb_low by lra. rewrite !press_ratio_0 by lra.
    rewrite press_ratio_iso by lra. rewrite !press_ratio_grad by lra. rewrite !Rmult_1_r, <- !exp_plus. f_equal.
    replace (288.15 + -0.0065 * 11000) with 216.65 by lra.
    replace (216.65 + 0.001 * (32000 - 20000)) with 228.65 by lra.
    replace (228.65 + 0.0028 * (h - 32000)) with (139.05 + 2.8e-3 * h) by lra. unfold P3, P2, P1. lra.
  - rewrite Rmin_right by lra. rewrite (climb_high 11000), (climb_high 20000), (climb_high 32000) by lra.
    rewrite climb_mid by lra.
    rewrite !press_ratio_iso by lra. rewrite !press_ratio_grad by lra. rewrite <- !exp_plus. f_equal.
    replace (288.15 + -0.0065 * 11000) with 216.65 by lra.
    replace (216.65 + 0.001 * (32000 - 20000)) with 228.65 by lra.
    replace (228.65 + 0.0028 * (47000 - 32000)) with 270.65 by lra. unfold P4, P3, P2, P1. lra.
Qed.

Lemma lp_ls h : -5000 <= h -> h <= 50000 -> Rabs (lp h - ls h) <= 4e-6.
Proof.
  intros Ha Hb. pose proof lnE_T0. pose proof lnE_T1.
  pose proof lnE_T3. pose proof lnE_T4. pose proof lnE_p0.
  apply Rabs_le. unfold lp, ls, layer, P4, P3, P2, P1, q0. split_layers h.
  - pose proof lnE_C1 as HC.
    assert (ln (288.15 + (-6.5e-3) * 0) = ln 288.15) as E0 by (f_equal; lra).
    unfold lp1.
    destruct (Rle_dec 0 h) as [Hp|Hp].
    + llslope Q1 5.2558797 8.9619638 (-0.20216125e-3) (-(9.80665 / 287.05287 / 0.0065)) 288.15 (-6.5e-3) 6 216 1e-10 0 h.
      rewrite E0 in Q1. split; lra.
    + llslope Q1 5.2558797 8.9619638 (-0.20216125e-3) (-(9.80665 / 287.05287 / 0.0065)) 288.15 (-6.5e-3) 6 216 1e-10 h 0.
      rewrite E0 in Q1. split; lra.
  - unfold lp2. pose proof lnE_F2. split; lra.
  - unfold lp3.
    llslope Q1 (-34.163218) 0.70551848 3.5876861e-6 (9.80665/287.05287/0.001) 196.65 1e-3 0.77 216 1e-10 20000 h.
    assert (ln (196.65 + 1e-3 * 20000) = ln 216.65) as E0 by (f_equal; lra).
    rewrite E0 in Q1. pose proof lnE_p3a. split; lra.
  - unfold lp4.
    llslope Q1 (-12.201149) 0.34926867 7.0330980e-6 (9.80665/287.05287/0.0028) 139.05 2.8e-3 0.57 228 1e-10 32000 h.
    assert (ln (139.05 + 2.8e-3 * 32000) = ln 228.65) as E0 by (f_equal; lra).
    rewrite E0 in Q1. pose proof lnE_p4a. split; lra.
  - unfold lp5. pose proof lnE_F5. split; lra.
Qed.

Lemma exp_agrees x y t : Rabs (x - y) <= t -> t <= 1/2 -> agrees (2 * t) (exp x) (exp y).
Proof.
  intros H1 H2. unfold agrees. pose proof (exp_pos y) as Hy.
  replace (exp x - exp y) with ((exp (x - y) - 1) * exp y).
  2:{ rewrite Rmult_minus_distr_r, <- exp_plus. replace (x - y + y) with x by ring. ring. }
  rewrite Rabs_mult, (Rabs_pos_eq (exp y)) by lra.
  apply Rmult_le_compat_r; [lra|].
  eapply Rle_trans; [apply exp_near; lra|]. lra.
Qed.

Lemma agrees_weaken t t' x y : t <= t' -> 0 <= y -> agrees t x y -> agrees t' x y.
Proof. unfold agrees; intros; nra. Qed.

Lemma press_std h : -5000 <= h -> h <= 50000 ->
  exists p, isapress1 (Fin h) = Fin p /\ agrees 1e-5 p (std_press h).
Proof.
  intros Ha Hb. exists (exp (lp h)). split; [apply isapress1_real|].
  rewrite std_press_ls by assumption.
  eapply agrees_weaken; [|left; apply exp_pos|apply exp_agrees; [apply lp_ls; assumption|lra]]. lra.
Qed.

Lemma dens_std h : -5000 <= h -> h <= 50000 ->
  exists d, isadens1 (Fin 0) (Fin h) = Fin d /\ agrees 1e-5 d (std_dens h).
Proof.
  intros Ha Hb. exists (exp (ld h)). pose proof (tl_pos' h) as Ht. split.
  - rewrite isadens1_real by lra. apply Fin_eq. field; lra.
  - unfold std_dens, Rair. rewrite std_press_ls, <- tl_std by assumption.
    replace (exp (ls h) / (287.05287 * tl h)) with (exp (ls h - ln 287.05287 - ln (tl h))).
    2:{ unfold Rminus. rewrite !exp_plus, !exp_Ropp, !exp_ln by lra. field; lra. }
    eapply agrees_weaken; [|left; apply exp_pos|apply (exp_agrees _ _ 4.5e-6); [|lra]]; [lra|].
    pose proof (gas_defect h Ha Hb) as G. pose proof (lp_ls h Ha Hb) as L.
    assert (forall x e, Rabs x <= e -> - e <= x <= e) as Rd.
    { intros x e. unfold Rabs; destruct (Rcase_abs x); lra. }
    apply Rd in G. apply Rd in L. apply Rabs_le. lra.
Qed.

(** the three ISA functions obey p = rho R T, for every offset *)
Lemma gas_law o h : -5000 <= h -> h <= 50000 -> 0 < std_temp h + o ->
  exists p d t, isapress1 (Fin h) = Fin p /\ isadens1 (Fin o) (Fin h) = Fin d /\
    isatemp1 (Fin o) (Fin h) = Fin t /\ agrees 1e-6 p (d * Rair * t).
Proof.
  intros Ha Hb Ho. rewrite <- tl_std in Ho by exact Hb. pose proof (tl_pos' h) as Ht.
  exists (exp (lp h)), (exp (ld h) * tl h / (tl h + o)), (tl h + o).
  split; [apply isapress1_real|]. split; [apply isadens1_real; lra|].
  split; [apply isatemp1_real|]. unfold Rair.
  replace (exp (ld h) * tl h / (tl h + o) * 287.05287 * (tl h + o))
    with (exp (ld h + ln 287.05287 + ln (tl h))).
  2:{ rewrite !exp_plus, !exp_ln by lra. field; lra. }
  eapply agrees_weaken; [|left; apply exp_pos|apply (exp_agrees _ _ 3e-7); [|lra]]; [lra|].
  replace (lp h - (ld h + ln 287.05287 + ln (tl h))) with (lp h - ld h - ln 287.05287 - ln (tl h)) by ring.
  apply gas_defect; assumption.
Qed.
