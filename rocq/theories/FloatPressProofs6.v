(** Computed pressures, temperatures and densities obey the gas law. *)
From Coq Require Import Reals ZArith List Lra Lia Bool.
From Coq.Floats Require Import SpecFloat.
From Verif Require Import Base BaseFacts AtmosSpec AtmosModel FloatSpec FloatModel FloatArith FloatProofs FloatProofs2 FloatProofs3 FloatProofs4 FloatAtmosModel FloatAtmosProofs FloatAtmosProofs3 FloatPressModel FloatPressSpec FloatPressProofs FloatPressProofs2 FloatPressProofs3 FloatPressProofs4 IsaReal IsaProofs AtmosProofs2 AtmosProofs4 FloatAtmosProofs4.
Open Scope R_scope.

Definition tiny (e x : R) : Prop := Rabs (x - 1) <= e.
Lemma tiny_mul a b x y : 0 <= a <= 0.001 -> 0 <= b <= 0.001 -> tiny a x -> tiny b y -> tiny (a + b + a * b) (x * y).
Proof.
  unfold tiny. intros A B X Y. replace (x * y - 1) with ((x - 1) + (y - 1) + (x - 1) * (y - 1)) by ring. apply Rle_trans with (1 := Rabs_triang _ _). apply Rplus_le_compat; [apply Rle_trans with (1 := Rabs_triang _ _); lra|].
  rewrite Rabs_mult. apply Rmult_le_compat; try apply Rabs_pos; assumption.
Qed.
Lemma tiny_inv a x : 0 <= a <= 0.001 -> tiny a x -> tiny (1.01 * a) (/ x).
Proof.
  unfold tiny. intros A X. pose proof (abs_le_inv _ _ X) as X'. replace (/ x - 1) with ((1 - x) * / x) by (field; lra). rewrite Rabs_mult, Rabs_minus_sym. rewrite (Rabs_right (/ x)) by (apply Rle_ge; left; apply Rinv_0_lt_compat; lra).
  assert (/ x <= 1.01). { replace 1.01 with (/ (100/101)) by lra. apply Rinv_le_contravar; lra. } assert (0 < / x) by (apply Rinv_0_lt_compat; lra). rewrite (Rmult_comm 1.01). apply Rmult_le_compat; try apply Rabs_pos; lra.
Qed.
Lemma tiny_of k r v : 0 < v -> off_by k r v -> exists g, r = v * g /\ tiny (k * u) g.
Proof. intros V O. destruct (off_factor k r v V O) as (d & E & B). exists (1 + d). split; [exact E|]. unfold tiny. replace (1 + d - 1) with d by ring. exact B. Qed.
Lemma tiny_weaken a b x : tiny a x -> a <= b -> tiny b x. Proof. unfold tiny. lra. Qed.

Lemma computed_gas_law k power expo off alt o h : 0 <= k <= 100 -> good_power k power -> good_exp k expo -> double off -> stands_for off o -> in_range o -> Rabs o <= 100 ->
  double alt -> stands_for alt h -> in_range h -> -5000 <= h <= 50000 ->
  exists d r, stands_for (fl_isadens power expo off alt) d /\ 0 < d /\ stands_for (fl_idealgasdens (fl_isapress power expo alt) (fl_isatemp off alt)) r /\ Rabs (r - d) <= 4e-7 * d.
Proof.
  intros K GP GE Do Ho Io Bo D H I B. pose proof u_pos as [U1 _]. pose proof u_small as U2. pose proof (abs_le_inv _ _ Bo) as Bo'. assert (B10 : -10000 <= h <= 50000) by lra.
  destruct (press_off k power expo K GP GE alt h D H I B10) as (Dp & P & Sp & Op). destruct (dens_off k power expo K GP GE alt h D H I off o Do Ho Io Bo B10) as (Dd & d & Sd & Od).
  destruct (temperature_near off o alt h Do Ho Bo D H I B10) as (Dt & T & St & Et). assert (Tb := std_temp_bounds h B10). assert (G := gas_defect h (proj1 B) (proj2 B)). rewrite tl_std in G by lra. assert (Lb := ld_positive h B10).
  set (s := std_temp h) in *. set (X := exp (ld h) * s / (s + o)) in *. pose proof (exp_pos (ld h)) as Pd. pose proof (exp_pos (lp h)) as Pp.
  assert (PX : 0 < X) by (apply Rdiv_lt_0_compat; [apply Rmult_lt_0_compat; lra|lra]).
  set (de := lp h - ld h - ln 287.05287 - ln s) in *.
  assert (EL : exp (lp h) = exp (ld h) * (287.05287 * s) * exp de).
  { replace (lp h) with (ld h + ln 287.05287 + ln s + de) by (unfold de; ring). rewrite !exp_plus, !exp_ln by lra. ring. }
  assert (Xe : tiny 3.03e-7 (exp de)). { unfold tiny. apply Rle_trans with (1.01 * 3e-7); [apply exp_near; [exact G|lra]|lra]. }
  destruct (tiny_of _ _ _ Pp Op) as (gp & EP & Gp). destruct (tiny_of _ _ _ PX Od) as (gd & ED & Gd).
  assert (KU : (k + 100) * u <= 3e-14) by nra. assert (KU2 : (k + 125) * u <= 3e-14) by nra. apply (tiny_weaken _ 3e-14) in Gp; [|exact KU]. apply (tiny_weaken _ 3e-14) in Gd; [|exact KU2].
  set (gt := T / (s + o)). assert (ET : T = (s + o) * gt) by (unfold gt; field; lra).
  assert (Gt : tiny 3e-15 gt).
  { unfold tiny, gt. replace (T / (s + o) - 1) with ((T - (s + o)) / (s + o)) by (field; lra). unfold Rdiv. rewrite Rabs_mult, (Rabs_right (/ (s + o))) by (apply Rle_ge; left; apply Rinv_0_lt_compat; lra).
    apply Rle_trans with (0.0000000000002 * / 116); [|lra]. apply Rmult_le_compat; try apply Rabs_pos; [left; apply Rinv_0_lt_compat; lra|exact Et|apply Rinv_le_contravar; lra]. }
  pose proof (abs_le_inv _ _ Et) as Et'. pose proof (abs_le_inv _ _ Xe) as Xe'. pose proof (abs_le_inv _ _ Gp) as Gp'. pose proof (abs_le_inv _ _ Gd) as Gd'. pose proof (abs_le_inv _ _ Gt) as Gt'.
  assert (P1 : 0.01 <= exp (lp h) <= 1000000000000).
  { rewrite EL. assert (W1 : 287 * 216 <= 287.05287 * s) by (apply Rmult_le_compat; lra). assert (W2 : 287.05287 * s <= 288 * 354) by (apply Rmult_le_compat; lra).
    assert (V1 : 1/1000000 * (287 * 216) <= exp (ld h) * (287.05287 * s)) by (apply Rmult_le_compat; lra). assert (V2 : exp (ld h) * (287.05287 * s) <= 1000000 * (288 * 354)) by (apply Rmult_le_compat; lra). split.
    - apply Rle_trans with (1/1000000 * (287 * 216) * 0.9); [lra|apply Rmult_le_compat; lra].
    - apply Rle_trans with (1000000 * (288 * 354) * 1.1); [apply Rmult_le_compat; lra|lra]. }
  assert (P2 : 0.001 <= P <= 10000000000000). { rewrite EP. split; [apply Rle_trans with (0.01 * 0.9); [lra|]|apply Rle_trans with (1000000000000 * 1.1); [|lra]]; apply Rmult_le_compat; lra. }
  assert (IP : in_range P). { right. rewrite Rabs_right by lra. change (powerRZ 2 (-800)) with (p2 (-800)). change (powerRZ 2 800) with (p2 800). split.
    - apply Rle_trans with (p2 (Z.opp 10)); [apply p2_le; lia|]. rewrite p2_opp, p2_Z by lia. change (2 ^ 10)%Z with 1024%Z. lra.
    - apply Rle_trans with (p2 50); [rewrite p2_Z by lia; change (2 ^ 50)%Z with 1125899906842624%Z; lra|apply p2_le; lia]. }
  assert (IT : powerRZ 2 (-60) <= T <= powerRZ 2 60). { change (powerRZ 2 (-60)) with (p2 (-60)). change (powerRZ 2 60) with (p2 60). split; [apply Rle_trans with (p2 0); [apply p2_le; lia|rewrite p2_0; lra]|].
    apply Rle_trans with (p2 10); [rewrite p2_Z by lia; change (2 ^ 10)%Z with 1024%Z; lra|apply p2_le; lia]. }
  destruct (proj1 (gas_law _ _ P T Dp Sp IP Dt St IT)) as (r & _ & Sr & Er).
  exists d, r. split; [exact Sd|]. split; [rewrite ED; apply Rmult_lt_0_compat; lra|]. split; [exact Sr|].
  assert (PV : 0 < P / (287.05287 * T)) by (apply Rdiv_lt_0_compat; lra). rewrite (Rabs_right (P / (287.05287 * T))) in Er by lra.
  destruct (tiny_of 3.003 r _ PV Er) as (gr & ER & Gr). apply (tiny_weaken _ 1e-15) in Gr; [|lra].
  assert (F : r = X * (exp de * gp * / gt * gr)). { rewrite ER, EP, ET, EL. unfold X. field. repeat split; lra. }
  assert (T1 := tiny_mul 3.03e-7 3e-14 _ _ ltac:(lra) ltac:(lra) Xe Gp). apply (tiny_weaken _ 3.04e-7) in T1; [|lra]. assert (T2 := tiny_inv 3e-15 _ ltac:(lra) Gt). apply (tiny_weaken _ 4e-15) in T2; [|lra].
  assert (T3 := tiny_mul 3.04e-7 4e-15 _ _ ltac:(lra) ltac:(lra) T1 T2). apply (tiny_weaken _ 3.05e-7) in T3; [|lra]. assert (T4 := tiny_mul 3.05e-7 1e-15 _ _ ltac:(lra) ltac:(lra) T3 Gr). apply (tiny_weaken _ 3.1e-7) in T4; [|lra].
  set (f := exp de * gp * / gt * gr) in *. pose proof (abs_le_inv _ _ T4) as T4'. rewrite F, ED. replace (X * f - X * gd) with (X * (f - gd)) by ring. rewrite Rabs_mult, (Rabs_right X) by lra. replace (4e-7 * (X * gd)) with (X * (4e-7 * gd)) by ring.
  apply Rmult_le_compat_l; [lra|]. apply Rabs_le. lra.
Qed.
