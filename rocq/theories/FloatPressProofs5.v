(** Computed pressures and densities rise at 47 km. *)
From Coq Require Import Reals ZArith List Lra Lia Bool.
From Coq.Floats Require Import SpecFloat.
From Verif Require Import Base BaseFacts AtmosSpec AtmosModel FloatSpec FloatModel FloatArith FloatProofs FloatProofs2 FloatProofs3 FloatProofs4 FloatAtmosModel FloatAtmosProofs FloatPressModel FloatPressSpec FloatPressProofs FloatPressProofs2 FloatPressProofs3 FloatPressProofs4 IsaReal IsaProofs AtmosProofs2 AtmosProofs4 FloatAtmosProofs4.
Open Scope R_scope.

(** 47 km less 1/1024 m *)
Definition below47 : spec_float := S754_finite false (48127999 * 134217728) (-37).
Lemma below47_ok : double below47 /\ stands_for below47 (47000 - /1024).
Proof.
  split; [reflexivity|]. replace (47000 - / 1024) with (IZR (Zpos (48127999 * 134217728)) * powerRZ 2 (-37)); [apply positive_value|]. change (powerRZ 2 (-37)) with (p2 (Z.opp 37)). rewrite p2_opp, p2_Z by lia.
  change (2 ^ 37)%Z with 137438953472%Z. change (Zpos (48127999 * 134217728)) with 6459630678966272%Z. lra.
Qed.
Lemma ln_step t s : 0 < t -> t <= s -> 0 <= ln s - ln t <= (s - t) / t.
Proof.
  intros T L. split; [destruct (Req_dec t s) as [->|N]; [lra|]; assert (ln t < ln s) by (apply ln_increasing; lra); lra|].
  assert (Z : 0 < s / t) by (apply Rdiv_lt_0_compat; lra). assert (K := ln_le_minus (s / t) Z). unfold Rdiv in K at 1. rewrite ln_mult, ln_Rinv in K by (lra || (apply Rinv_0_lt_compat; lra)).
  replace ((s - t) / t) with (s / t - 1) by (field; lra). lra.
Qed.
Lemma lp_step : lp (47000 - /1024) <= lp 47000 - 0.000001.
Proof.
  unfold lp. rewrite layer4, layer5 by lra. pose proof lp_joint4. unfold lp4 in *.
  destruct (ln_step (0.34926867 + 7.0330980e-6 * (47000 - /1024)) (0.34926867 + 7.0330980e-6 * 47000) ltac:(lra) ltac:(lra)) as [A B].
  assert (((0.34926867 + 7.0330980e-6 * 47000) - (0.34926867 + 7.0330980e-6 * (47000 - /1024))) / (0.34926867 + 7.0330980e-6 * (47000 - /1024)) <= 0.0000001) by (apply quotient_le; lra). lra.
Qed.
Lemma ld_step : ld (47000 - /1024) <= ld 47000 - 0.000001.
Proof.
  unfold ld. rewrite layer4, layer5 by lra. pose proof ld_joint4. unfold ld4 in *.
  destruct (ln_step (0.84392929 + 16.993902e-6 * (47000 - /1024)) (0.84392929 + 16.993902e-6 * 47000) ltac:(lra) ltac:(lra)) as [A B].
  assert (((0.84392929 + 16.993902e-6 * 47000) - (0.84392929 + 16.993902e-6 * (47000 - /1024))) / (0.84392929 + 16.993902e-6 * (47000 - /1024)) <= 0.0000001) by (apply quotient_le; lra). lra.
Qed.
Lemma rises_at_47 k power expo : 0 <= k <= 100 -> good_power k power -> good_exp k expo ->
  exists x y a b r s r' s', double x /\ double y /\ stands_for x a /\ stands_for y b /\ 46999.999 <= a < b /\ b = 47000 /\
  stands_for (fl_isapress power expo x) r /\ stands_for (fl_isapress power expo y) s /\ r < s /\
  stands_for (fl_isadens power expo (of_int 0) x) r' /\ stands_for (fl_isadens power expo (of_int 0) y) s' /\ r' < s'.
Proof.
  intros K GP GE. destruct below47_ok as [Dx Hx]. destruct (int_in_range 47000 ltac:(lia)) as (Dy & Hy & Iy). set (a := 47000 - / 1024) in *. assert (A : 46999.999 <= a < 47000) by (unfold a; lra).
  assert (Ix : in_range a). { right. rewrite Rabs_right by lra. change (powerRZ 2 (-800)) with (p2 (-800)). change (powerRZ 2 800) with (p2 800). split; [apply Rle_trans with (p2 0); [apply p2_le; lia|rewrite p2_0; lra]|].
    apply Rle_trans with (p2 16); [rewrite p2_Z by lia; change (2 ^ 16)%Z with 65536%Z; lra|apply p2_le; lia]. }
  destruct (int_exact 0 ltac:(lia)) as [D0 H0]. assert (I0 : in_range 0) by (left; reflexivity). assert (B0 : Rabs 0 <= 100) by (rewrite Rabs_R0; lra).
  destruct (press_off k power expo K GP GE below47 a Dx Hx Ix ltac:(lra)) as (_ & r & Sr & Or). destruct (press_off k power expo K GP GE (of_int 47000) 47000 Dy Hy Iy ltac:(lra)) as (_ & s & Ss & Os).
  destruct (dens_off k power expo K GP GE below47 a Dx Hx Ix (of_int 0) 0 D0 H0 I0 B0 ltac:(lra)) as (_ & r' & Sr' & Or'). destruct (dens_off k power expo K GP GE (of_int 47000) 47000 Dy Hy Iy (of_int 0) 0 D0 H0 I0 B0 ltac:(lra)) as (_ & s' & Ss' & Os').
  assert (T := std_temp_bounds a ltac:(lra)). assert (T' := std_temp_bounds 47000 ltac:(lra)).
  replace (exp (ld a) * std_temp a / (std_temp a + 0)) with (exp (ld a)) in Or' by (field; lra). replace (exp (ld 47000) * std_temp 47000 / (std_temp 47000 + 0)) with (exp (ld 47000)) in Os' by (field; lra).
  exists below47, (of_int 47000), a, 47000, r, s, r', s'. repeat (split; [assumption || reflexivity || lra|]).
  split; [apply (off_order (k + 100) (lp 47000) (lp a)); [lra|exact Os|exact Or|exact lp_step]|]. split; [exact Sr'|]. split; [exact Ss'|].
  apply (off_order (k + 125) (ld 47000) (ld a)); [lra|exact Os'|exact Or'|exact ld_step].
Qed.
