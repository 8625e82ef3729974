(** The pressures and densities of the standard atmosphere in double precision: every layer. *)
From Coq Require Import Reals ZArith List Lra Lia Bool.
From Coq.Floats Require Import SpecFloat.
From Verif Require Import Base BaseFacts AtmosSpec FloatSpec FloatModel FloatArith FloatProofs FloatProofs2 FloatProofs3 FloatProofs4 FloatAtmosModel FloatAtmosProofs FloatPressModel FloatPressSpec FloatPressProofs FloatPressProofs2 IsaReal.
Open Scope R_scope.

Lemma ln_le_minus t : 0 < t -> ln t <= t - 1.
Proof. intros T. assert (K := exp_ineq1_le (ln t)). rewrite exp_ln in K by exact T. lra. Qed.
Lemma ln_size t l : 0 < t -> t <= 1 + l -> 1 <= (1 + l) * t -> Rabs (ln t) <= l.
Proof.
  intros T A B. assert (U := ln_le_minus t T). assert (V := ln_le_minus (/ t) (Rinv_0_lt_compat _ T)). rewrite ln_Rinv in V by exact T.
  assert (/ t <= 1 + l). { apply Rmult_le_reg_r with t; [exact T|]. rewrite Rinv_l by lra. lra. } apply Rabs_le. lra.
Qed.
Lemma ln_upto_11 t : 1 <= t <= 11 -> Rabs (ln t) <= 3.
Proof.
  intros T. assert (0 <= ln t). { rewrite <- ln_1. destruct (Req_dec t 1) as [->|N]; [lra|]. left. apply ln_increasing; lra. } rewrite Rabs_right by lra.
  apply Rnot_lt_le. intros L. apply exp_increasing in L. rewrite exp_ln in L by lra. assert (K := exp_ineq1_le (1/2)).
  replace 3 with (1/2 + 1/2 + 1/2 + 1/2 + 1/2 + 1/2) in L by lra. rewrite !exp_plus in L. set (q := exp (1/2)) in *.
  assert (Q2 : 2.25 <= q * q) by (apply Rle_trans with (1.5 * 1.5); [lra|apply Rmult_le_compat; lra]). assert (Q4 : 2.25 * 2.25 <= (q * q) * (q * q)) by (apply Rmult_le_compat; lra).
  assert (Q6 : 2.25 * 2.25 * 2.25 <= (q * q) * (q * q) * (q * q)) by (apply Rmult_le_compat; lra). replace (q * q * q * q * q * q) with (q * q * (q * q) * (q * q)) in L by ring. lra.
Qed.
Lemma quotient_le w t v : 0 < t -> w <= v * t -> w / t <= v.
Proof. intros T H. apply Rmult_le_reg_r with t; [exact T|]. unfold Rdiv. rewrite Rmult_assoc, Rinv_l, Rmult_1_r by lra. exact H. Qed.
(** one layer given by a power: line a + b h between lo and hi, exponent e *)
Lemma line_power k power A B Y n m i a b e x h d hi w v l c : good_power k power -> 0 <= k <= 100 -> tracks A 1 n a -> tracks B 1 m b -> (m <= 20)%Z -> tracks Y 1 i e ->
  double x -> stands_for x h -> in_range h -> 0 <= a <= 10 -> Rabs (b * h) <= d -> d <= 10 -> 0.51 <= a + b * h <= hi -> hi <= 10.99 -> Rabs e <= 39 ->
  1.002 * a + 2.003 * d + hi + 0.001 <= w -> 0 <= w <= 100 -> w <= v * (a + b * h) -> Rabs (ln (a + b * h)) <= l -> l <= 3 ->
  1.02 * (Rabs e * (1.011 * v + 1.002 * l)) + 0.02 <= c -> c <= 200 -> off (power (fadd A (fmul B x)) Y) (k + c) (exp (e * ln (a + b * h))).
Proof.
  intros G K TA TB M TY D H I Ba Bd Ld Bt Bh Be W W2 V L Ll C C2. apply near_off.
  assert (N := near_line A B n m a b x h d hi w TA TB M D H I ltac:(rewrite Rabs_right; lra) Bd ltac:(lra) ltac:(rewrite Rabs_right; lra) ltac:(lra) ltac:(rewrite (Rabs_right a); lra)).
  apply (power_layer k power _ _ i _ e w l c G K N TY ltac:(lra) Be W2 L Ll); [|exact C2].
  assert (Q := quotient_le w (a + b * h) v ltac:(lra) V). apply Rle_trans with (2 := C). apply Rplus_le_compat_r. apply Rmult_le_compat_l; [lra|]. apply Rmult_le_compat_l; [apply Rabs_pos|]. lra.
Qed.
Ltac opposite := match goal with |- tracks (SFopp _) _ _ ?c => replace c with (Ropp (Ropp c)) by lra; apply tracks_opp; literal' | |- tracks (lit _ _) _ _ _ => literal' end.
Ltac size_of := apply Rabs_le; lra.
Section Layers.
  Variables (k : R) (power : spec_float -> spec_float -> spec_float) (expo : spec_float -> spec_float).
  Hypotheses (K : 0 <= k <= 100) (GP : good_power k power) (GE : good_exp k expo).
  Variables (x : spec_float) (h : R).
  Hypotheses (D : double x) (H : stands_for x h) (I : in_range h).

  Lemma press1_off : -10000 <= h <= 11000 -> off (press1 power x) (k + 100) (exp (lp1 h)).
  Proof.
    intros B. unfold press1, lp1. apply (line_power k power _ _ _ 20 20 20 8.9619638 (-0.20216125e-3) 5.2558797 x h 2.23 10.99 24.6 3.7 3 100); try assumption; try lia; try lra; try opposite; try size_of.
    - apply ln_upto_11. lra.
    - rewrite Rabs_right by lra. lra.
  Qed.
  Lemma press3_off : 20000 <= h <= 32000 -> off (press3 power x) (k + 100) (exp (lp3 h)).
  Proof.
    intros B. unfold press3, lp3. apply (line_power k power _ _ _ 20 20 20 0.70551848 3.5876861e-6 (-34.163218) x h 0.115 0.8204 1.76 2.27 0.29 100); try assumption; try lia; try lra; try opposite; try size_of.
    - apply ln_size; lra.
    - rewrite Rabs_left by lra. lra.
  Qed.
  Lemma press4_off : 32000 <= h <= 47000 -> off (press4 power x) (k + 100) (exp (lp4 h)).
  Proof.
    intros B. unfold press4, lp4. apply (line_power k power _ _ _ 20 20 20 0.34926867 7.0330980e-6 (-12.201149) x h 0.331 0.68 1.695 2.96 0.75 100); try assumption; try lia; try lra; try opposite; try size_of.
    - apply ln_size; lra.
    - rewrite Rabs_left by lra. lra.
  Qed.
  Lemma press2_off : 11000 <= h <= 20000 -> off (press2 expo x) (k + 100) (exp (lp2 h)).
  Proof.
    intros B. unfold press2, lp2. apply (off_weaken _ (k + 30)); [apply exp_pos| |lra]. apply (exp_layer k expo _ _ 20 20); try assumption; try lia; try lra; try opposite.
  Qed.
  Lemma press5_off : 47000 <= h <= 50000 -> off (press5 expo x) (k + 100) (exp (lp5 h)).
  Proof.
    intros B. unfold press5, lp5. apply (off_weaken _ (k + 30)); [apply exp_pos| |lra]. apply (exp_layer k expo _ _ 20 20); try assumption; try lia; try lra; try opposite.
  Qed.
  Lemma press_off : -10000 <= h <= 50000 -> off (fl_isapress power expo x) (k + 100) (exp (lp h)).
  Proof.
    intros B. unfold fl_isapress, lp, layer. rewrite (ltb_int x h 11000 D H ltac:(lia)), (ltb_int x h 20000 D H ltac:(lia)), (ltb_int x h 32000 D H ltac:(lia)), (ltb_int x h 47000 D H ltac:(lia)).
    destruct (Rlt_dec h 11000); [apply press1_off; lra|]. destruct (Rlt_dec h 20000); [apply press2_off; lra|]. destruct (Rlt_dec h 32000); [apply press3_off; lra|]. destruct (Rlt_dec h 47000); [apply press4_off; lra|apply press5_off; lra].
  Qed.

  Lemma dens1_off : -10000 <= h <= 11000 -> off (dens1 power x) (k + 100) (exp (ld1 h)).
  Proof.
    intros B. unfold dens1, ld1. apply (line_power k power _ _ _ 20 20 20 1.048840 (-23.659414e-6) 4.2558797 x h 0.2604 1.2856 2.87 3.65 0.29 100); try assumption; try lia; try lra; try opposite; try size_of.
    - apply ln_size; lra.
    - rewrite Rabs_right by lra. lra.
  Qed.
  Lemma dens3_off : 20000 <= h <= 32000 -> off (dens3 power x) (k + 100) (exp (ld3 h)).
  Proof.
    intros B. unfold dens3, ld3. apply (line_power k power _ _ _ 20 20 20 0.9726309 4.94600e-6 (-35.163218) x h 0.1583 1.131 2.425 2.27 0.131 100); try assumption; try lia; try lra; try opposite; try size_of.
    - apply ln_size; lra.
    - rewrite Rabs_left by lra. lra.
  Qed.
  Lemma dens4_off : 32000 <= h <= 47000 -> off (dens4 power x) (k + 100) (exp (ld4 h)).
  Proof.
    intros B. unfold dens4, ld4. apply (line_power k power _ _ _ 20 20 20 0.84392929 16.993902e-6 (-13.201149) x h 0.7988 1.643 4.095 2.96 0.65 100); try assumption; try lia; try lra; try opposite; try size_of.
    - apply ln_size; lra.
    - rewrite Rabs_left by lra. lra.
  Qed.
  Lemma dens2_off : 11000 <= h <= 20000 -> off (dens2 expo x) (k + 100) (exp (ld2 h)).
  Proof.
    intros B. unfold dens2, ld2. apply (off_weaken _ (k + 30)); [apply exp_pos| |lra]. apply (exp_layer k expo _ _ 20 20); try assumption; try lia; try lra; try opposite.
  Qed.
  Lemma dens5_off : 47000 <= h <= 50000 -> off (dens5 expo x) (k + 100) (exp (ld5 h)).
  Proof.
    intros B. unfold dens5, ld5. apply (off_weaken _ (k + 30)); [apply exp_pos| |lra]. apply (exp_layer k expo _ _ 20 20); try assumption; try lia; try lra; try opposite.
  Qed.

  (** the correction for the temperature offset *)
  Variables (o : spec_float) (t : R).
  Hypotheses (Do : double o) (Ho : stands_for o t) (Io : in_range t) (Bo : Rabs t <= 100).
  Lemma std_temp_bounds : -10000 <= h <= 50000 -> 216 <= std_temp h <= 354.
  Proof.
    intros B. unfold std_temp, climb. destruct (Rle_dec h 11000) as [L1|L1].
    { rewrite (Rmin_left h 11000), (Rmin_left h 32000), (Rmin_left h 47000) by lra. rewrite !Rmax_left by lra. lra. }
    rewrite (Rmin_right h 11000) by lra. destruct (Rle_dec h 32000) as [L2|L2].
    { rewrite (Rmin_left h 32000), (Rmin_left h 47000) by lra. rewrite (Rmax_left 0 (h - 32000)) by lra. assert (0 <= Rmax 0 (h - 20000) <= 12000); [|lra]. split; [apply Rmax_l|apply Rmax_lub; lra]. }
    rewrite (Rmin_right h 32000) by lra. rewrite (Rmax_right 0 (32000 - 20000)) by lra. assert (0 <= Rmax 0 (Rmin h 47000 - 32000) <= 15000); [|lra]. split; [apply Rmax_l|apply Rmax_lub; [lra|]]. pose proof (Rmin_r h 47000). lra.
  Qed.
  Lemma correction_off : -10000 <= h <= 50000 -> off (fadd (of_int 1) (fdiv o (fsub (fl_isatemp o x) o))) 19 (1 + t / std_temp h).
  Proof.
    intros B. pose proof u_pos as [U1 _]. pose proof u_small as U2. assert (U3 : 0.00000000000000011 <= u) by (rewrite u_val; lra). assert (Bt := std_temp_bounds B). set (s := std_temp h) in *. pose proof (abs_le_inv _ _ Bo) as Bo'.
    destruct (temperature_near o t x h Do Ho Bo D H I B) as (Dt & a & Ha & Ea). fold s in Ea. pose proof (abs_le_inv _ _ Ea) as Ea'.
    assert (A1 : Rabs (a - t) <= 355) by (apply Rabs_le; lra).
    destruct (sub_ok _ o a t Dt Do Ha Ho) as (Ds & b & Hb & _ & Eb). { apply Rle_lt_trans with (1 := A1). apply Rlt_le_trans with (p2 10); [|apply p2_le; lia]. rewrite p2_Z by lia. change (2 ^ 10)%Z with 1024%Z. lra. }
    change (powerRZ 2 (-53)) with u in Eb. change (SFsub 53 1024) with fsub in Ds, Hb.
    assert (Eb2 : Rabs (b - (a - t)) <= 355 * u). { apply Rle_trans with (1 := Eb). rewrite Rmult_comm. apply u_cancel, A1. } pose proof (abs_le_inv _ _ Eb2) as Eb'.
    assert (Es : Rabs (b - s) <= 2180 * u) by (apply Rabs_le; lra). pose proof (abs_le_inv _ _ Es) as Es'.
    assert (Pb : 215 <= b <= 355) by lra. assert (Ib : 0 < / b) by (apply Rinv_0_lt_compat; lra). assert (Ib1 : / b <= / 215) by (apply Rinv_le_contravar; lra). assert (Ib2 : / 355 <= / b) by (apply Rinv_le_contravar; lra).
    assert (Qb : Rabs (t / b) <= 0.4652). { unfold Rdiv. rewrite Rabs_mult, (Rabs_right (/ b)) by lra. apply Rle_trans with (100 * / 215); [apply Rmult_le_compat; try apply Rabs_pos; lra|lra]. }
    assert (Low : t = 0 \/ p2 (-1022) <= Rabs (t / b)).
    { destruct Io as [->|[L _]]; [left; reflexivity|right]. unfold Rdiv. rewrite Rabs_mult, (Rabs_right (/ b)) by lra. change (powerRZ 2 (-800)) with (p2 (-800)) in L.
      apply Rle_trans with (p2 (-800) * p2 (-10)); [rewrite <- p2_add; apply p2_le; lia|]. apply Rmult_le_compat; try (left; apply p2_pos); [exact L|]. apply Rle_trans with (2 := Ib2). replace (-10)%Z with (Z.opp 10) by reflexivity. rewrite p2_opp, p2_Z by lia. change (2 ^ 10)%Z with 1024%Z. lra. }
    destruct (div_ok o _ t b Do Ds Ho Hb ltac:(lra) Low) as (Dq & q & Hq & Rq). { apply Rle_lt_trans with (1 := Qb). apply Rlt_trans with 1; [lra|]. rewrite <- p2_0. apply p2_lt. lia. }
    change (SFdiv 53 1024) with fdiv in Dq, Hq.
    assert (Eq : Rabs (q - t / b) <= u * Rabs (t / b)). { apply (rounded_error _ _ Rq). destruct Low as [->|L]; [left; unfold Rdiv; ring|right; exact L]. }
    assert (Is : / s <= / 216) by (apply Rinv_le_contravar; lra). assert (Is0 : 0 < / s) by (apply Rinv_0_lt_compat; lra).
    assert (Eqs : Rabs (q - t / s) <= 5.2 * u).
    { replace (q - t / s) with ((q - t / b) + (t / b) * ((s - b) * / s)) by (field; lra). apply Rle_trans with (1 := Rabs_triang _ _). rewrite !Rabs_mult, (Rabs_right (/ s)) by lra.
      assert (T1 : u * Rabs (t / b) <= u * 0.4652) by (apply Rmult_le_compat_l; lra). assert (T2 : Rabs (s - b) <= 2180 * u) by (rewrite Rabs_minus_sym; exact Es).
      assert (T3 : Rabs (s - b) * / s <= 2180 * u * / 216) by (apply Rmult_le_compat; try apply Rabs_pos; lra).
      assert (T4 : Rabs (t / b) * (Rabs (s - b) * / s) <= 0.4652 * (2180 * u * / 216)) by (apply Rmult_le_compat; try apply Rabs_pos; try assumption; apply Rmult_le_pos; [apply Rabs_pos|lra]). lra. }
    destruct (int_exact 1 ltac:(lia)) as [D1 H1].
    assert (N1 : near (of_int 1) 1 0) by (apply near_self; assumption).
    assert (N2 : near (fdiv o (fsub (fl_isatemp o x) o)) (t / s) (5.2 * u)). { split; [exact Dq|]. exists q. split; [exact Hq|exact Eqs]. }
    assert (Qs0 : Rabs (t / s) <= 0.4652).
    { unfold Rdiv. rewrite Rabs_mult, (Rabs_right (/ s)) by lra. apply Rle_trans with (100 * / 216); [apply Rmult_le_compat; try apply Rabs_pos; lra|lra]. }
    apply abs_le_inv in Qs0. assert (Abs1 : Rabs (1 + t / s) = 1 + t / s) by (apply Rabs_right; lra).
    assert (N := near_add _ _ _ _ _ _ N1 N2 ltac:(rewrite Abs1; lra)). rewrite Abs1 in N. apply near_off. apply (near_weaken _ _ _ _ N). fold u.
    assert (u * (5.2 * u) <= u * 0.001) by (apply Rmult_le_compat_l; lra). assert (Y : 0.53 <= 1 + t / s) by lra. generalize dependent (1 + t / s). intros y _ _ Y. assert (u * 0.53 <= u * y) by (apply Rmult_le_compat_l; lra). lra.
  Qed.
  Lemma ld_size : -10000 <= h <= 50000 -> -9 <= ld h <= 9.
  Proof.
    intros B. unfold ld, layer, ld1, ld2, ld3, ld4, ld5.
    destruct (Rlt_dec h 11000) as [L1|L1]; [|destruct (Rlt_dec h 20000) as [L2|L2]; [|destruct (Rlt_dec h 32000) as [L3|L3]; [|destruct (Rlt_dec h 47000) as [L4|L4]]]].
    - pose proof (abs_le_inv _ _ (ln_size (1.048840 + -23.659414e-6 * h) 0.29 ltac:(lra) ltac:(lra) ltac:(lra))). lra.
    - assert (U := ln_le_minus 2.0621400 ltac:(lra)). assert (0 < ln 2.0621400) by (rewrite <- ln_1; apply ln_increasing; lra). lra.
    - pose proof (abs_le_inv _ _ (ln_size (0.9726309 + 4.94600e-6 * h) 0.132 ltac:(lra) ltac:(lra) ltac:(lra))). lra.
    - pose proof (abs_le_inv _ _ (ln_size (0.84392929 + 16.993902e-6 * h) 0.65 ltac:(lra) ltac:(lra) ltac:(lra))). lra.
    - pose proof (abs_le_inv _ _ (ln_size 0.53839563 0.9 ltac:(lra) ltac:(lra) ltac:(lra))). lra.
  Qed.
  Lemma exp_9 : exp 9 <= 19683.
  Proof.
    replace 9 with (1 + 1 + 1 + (1 + 1 + 1) + (1 + 1 + 1)) by ring. rewrite !exp_plus. pose proof exp_le_3. pose proof (exp_pos 1). set (e := exp 1) in *.
    assert (e * e <= 3 * 3) by (apply Rmult_le_compat; lra). assert (0 <= e * e) by (apply Rmult_le_pos; lra). assert (e * e * e <= 9 * 3) by (apply Rmult_le_compat; lra). assert (0 <= e * e * e) by (apply Rmult_le_pos; lra).
    set (c := e * e * e) in *. assert (c * c <= 27 * 27) by (apply Rmult_le_compat; lra). assert (0 <= c * c) by (apply Rmult_le_pos; lra). apply Rle_trans with (729 * 27); [apply Rmult_le_compat; lra|lra].
  Qed.
  Lemma exp_le a b : a <= b -> exp a <= exp b.
  Proof. intros L. destruct (Req_dec a b) as [->|N]; [lra|]. left. apply exp_increasing. lra. Qed.
  Lemma ld_positive : -10000 <= h <= 50000 -> 1/1000000 <= exp (ld h) <= 1000000.
  Proof.
    intros B. assert (S := ld_size B). assert (X := exp_9). split.
    - apply Rle_trans with (exp (Ropp 9)); [|apply exp_le; lra]. rewrite exp_Ropp. replace (1/1000000) with (/ 1000000) by lra. apply Rinv_le_contravar; [apply exp_pos|lra].
    - apply Rle_trans with (exp 9); [apply exp_le; lra|lra].
  Qed.
  Lemma dens_off : -10000 <= h <= 50000 -> off (fl_isadens power expo o x) (k + 125) (exp (ld h) * std_temp h / (std_temp h + t)).
  Proof.
    intros B. destruct (ld_positive B) as [X2 X1]. assert (C := correction_off B). assert (Bt := std_temp_bounds B). pose proof (abs_le_inv _ _ Bo) as Bo'.
    assert (Den : off (if SFltb x (of_int 11000) then dens1 power x else if SFltb x (of_int 20000) then dens2 expo x else if SFltb x (of_int 32000) then dens3 power x else if SFltb x (of_int 47000) then dens4 power x else dens5 expo x) (k + 100) (exp (ld h))).
    { unfold ld, layer. rewrite (ltb_int x h 11000 D H ltac:(lia)), (ltb_int x h 20000 D H ltac:(lia)), (ltb_int x h 32000 D H ltac:(lia)), (ltb_int x h 47000 D H ltac:(lia)).
      destruct (Rlt_dec h 11000); [apply dens1_off; lra|]. destruct (Rlt_dec h 20000); [apply dens2_off; lra|]. destruct (Rlt_dec h 32000); [apply dens3_off; lra|]. destruct (Rlt_dec h 47000); [apply dens4_off; lra|apply dens5_off; lra]. }
    assert (Qs0 : Rabs (t / std_temp h) <= 0.4652).
    { unfold Rdiv. assert (0 < / std_temp h) by (apply Rinv_0_lt_compat; lra). assert (/ std_temp h <= / 216) by (apply Rinv_le_contravar; lra). rewrite Rabs_mult, (Rabs_right (/ std_temp h)) by lra. apply Rle_trans with (100 * / 216); [apply Rmult_le_compat; try apply Rabs_pos; lra|lra]. }
    apply abs_le_inv in Qs0. pose proof (exp_pos (ld h)) as P.
    assert (Q := off_div _ _ _ _ _ _ Den C ltac:(lra) ltac:(lra) X2 ltac:(lra) ltac:(lra) ltac:(lra)).
    replace (exp (ld h) * std_temp h / (std_temp h + t)) with (exp (ld h) / (1 + t / std_temp h)) by (field; split; lra).
    unfold fl_isadens. apply (off_weaken _ _ _ _ (Rdiv_lt_0_compat (exp (ld h)) (1 + t / std_temp h) P ltac:(lra)) Q). lra.
  Qed.
End Layers.
