(** The layers of the standard atmosphere in double precision. *)
From Coq Require Import Reals ZArith List Lra Lia Bool.
From Coq.Floats Require Import SpecFloat.
From Verif Require Import Base BaseFacts AtmosSpec FloatSpec FloatModel FloatArith FloatProofs FloatProofs2 FloatProofs3 FloatProofs4 FloatAtmosModel FloatAtmosProofs FloatPressModel FloatPressSpec FloatPressProofs IsaReal.
Open Scope R_scope.

(** relative errors of products and quotients of positive numbers *)
Definition off (x : spec_float) (k v : R) : Prop := double x /\ exists r, stands_for x r /\ off_by k r v.
Lemma off_factor k r v : 0 < v -> off_by k r v -> exists d, r = v * (1 + d) /\ Rabs d <= k * u.
Proof.
  unfold off_by. change (powerRZ 2 (-53)) with u. intros V H. exists ((r - v) / v). split; [field; lra|]. unfold Rdiv. rewrite Rabs_mult, (Rabs_right (/ v)) by (apply Rle_ge; left; apply Rinv_0_lt_compat, V).
  apply Rmult_le_reg_r with v; [exact V|]. rewrite Rmult_assoc, Rinv_l, Rmult_1_r by lra. exact H.
Qed.
Lemma factor_off k v d : 0 < v -> Rabs d <= k * u -> off_by k (v * (1 + d)) v.
Proof.
  intros V H. unfold off_by. change (powerRZ 2 (-53)) with u. replace (v * (1 + d) - v) with (v * d) by ring. rewrite Rabs_mult, (Rabs_right v) by lra. rewrite (Rmult_comm (k * u)). apply Rmult_le_compat_l; lra.
Qed.
Lemma small_products a b c : Rabs a <= c * u -> Rabs b <= 400 * u -> 0 <= c <= 400 -> Rabs (a * b) <= 0.001 * u.
Proof.
  intros A B C. rewrite Rabs_mult. pose proof u_pos as [U1 _]. pose proof u_small as U2. pose proof (Rabs_pos a). pose proof (Rabs_pos b).
  apply Rle_trans with ((400 * u) * (400 * u)); [apply Rmult_le_compat; try assumption; nra|]. replace (400 * u * (400 * u)) with ((160000 * u) * u) by ring. apply Rmult_le_compat_r; lra.
Qed.
Lemma off_mul x y j k a b : off x j a -> off y k b -> 0 < a <= 1000000 -> 0 < b <= 1000000 -> 1/1000000 <= a -> 1/1000000 <= b -> 0 <= j <= 300 -> 0 <= k <= 300 -> off (fmul x y) (j + k + 1.01) (a * b).
Proof.
  intros (Dx & r & Hx & Ox) (Dy & s & Hy & Oy) A B A2 B2 J K. pose proof u_pos as [U1 _]. pose proof u_small as U2.
  destruct (off_factor _ _ _ (proj1 A) Ox) as (d & -> & Ed). destruct (off_factor _ _ _ (proj1 B) Oy) as (e & -> & Ee).
  assert (Bd : Rabs d <= 400 * u) by (apply Rle_trans with (1 := Ed), u_cancel; lra). assert (Be : Rabs e <= 400 * u) by (apply Rle_trans with (1 := Ee), u_cancel; lra).
  assert (Pde := small_products d e 400 Bd Be ltac:(lra)).
  pose proof (abs_le_inv _ _ Ed) as Ed'. pose proof (abs_le_inv _ _ Ee) as Ee'. pose proof (abs_le_inv _ _ Pde) as Pde'.
  assert (Kd : k * u <= 0.0001) by nra. assert (Jd : j * u <= 0.0001) by nra.
  set (v := a * (1 + d) * (b * (1 + e))) in *.
  assert (AB1 : 1/1000000 * (1/1000000) <= a * b) by (apply Rmult_le_compat; lra). assert (AB2 : a * b <= 1000000 * 1000000) by (apply Rmult_le_compat; lra).
  assert (V : v = (a * b) * (1 + (d + e + d * e))) by (unfold v; ring).
  assert (V1 : (a * b) * (1/2) <= v) by (rewrite V; apply Rmult_le_compat_l; lra). assert (V2 : v <= (a * b) * 2) by (rewrite V; apply Rmult_le_compat_l; lra).
  assert (W1 : p2 (-100) <= Rabs v). { rewrite Rabs_right by lra. replace (-100)%Z with (Z.opp 100) by reflexivity. rewrite p2_opp, p2_Z by lia. change (2 ^ 100)%Z with 1267650600228229401496703205376%Z. lra. }
  assert (W2 : Rabs v < p2 1023). { rewrite Rabs_right by lra. apply Rle_lt_trans with (p2 100); [|apply p2_lt; lia]. rewrite p2_Z by lia. change (2 ^ 100)%Z with 1267650600228229401496703205376%Z. lra. }
  destruct (mul_ok x y (a * (1 + d)) (b * (1 + e)) Dx Dy Hx Hy W2) as (D & r & S & Q). split; [exact D|]. exists r. split; [exact S|].
  assert (E := rounded_error _ _ Q (or_intror (Rle_trans _ _ _ (p2_le (-1022) (-100) ltac:(lia)) W1))). fold v in E.
  destruct (off_factor 1 r v ltac:(lra)) as (f & -> & Ef). { unfold off_by. rewrite Rmult_1_l. rewrite (Rabs_right v) in E by lra. exact E. }
  rewrite V. replace (a * b * (1 + (d + e + d * e)) * (1 + f)) with (a * b * (1 + (d + e + d * e + (1 + (d + e + d * e)) * f))) by ring.
  apply factor_off; [lra|]. pose proof (abs_le_inv _ _ Ef) as Ef'.
  assert (Pf : Rabs ((1 + (d + e + d * e)) * f) <= 1.005 * u). { rewrite Rabs_mult. apply Rle_trans with (1.005 * (1 * u)); [|lra]. apply Rmult_le_compat; try apply Rabs_pos; [apply Rabs_le; lra|exact Ef]. }
  pose proof (abs_le_inv _ _ Pf) as Pf'. apply Rabs_le. split; lra.
Qed.
Lemma off_div x y j k a b : off x j a -> off y k b -> 0 < a <= 1000000 -> 0 < b <= 1000000 -> 1/1000000 <= a -> 1/1000000 <= b -> 0 <= j <= 300 -> 0 <= k <= 300 -> off (fdiv x y) (j + k + 1.01) (a / b).
Proof.
  intros (Dx & r & Hx & Ox) (Dy & s & Hy & Oy) A B A2 B2 J K. pose proof u_pos as [U1 _]. pose proof u_small as U2.
  destruct (off_factor _ _ _ (proj1 A) Ox) as (d & -> & Ed). destruct (off_factor _ _ _ (proj1 B) Oy) as (e & -> & Ee).
  assert (Bd : Rabs d <= 400 * u) by (apply Rle_trans with (1 := Ed), u_cancel; lra). assert (Be : Rabs e <= 400 * u) by (apply Rle_trans with (1 := Ee), u_cancel; lra).
  pose proof (abs_le_inv _ _ Ed) as Ed'. pose proof (abs_le_inv _ _ Ee) as Ee'.
  assert (Kd : k * u <= 0.0001) by nra. assert (Jd : j * u <= 0.0001) by nra.
  set (g := / (1 + e) - 1). assert (Eg0 : / (1 + e) = 1 + g) by (unfold g; ring).
  assert (Eg : Rabs (g + e) <= 0.001 * u).
  { replace (g + e) with (e * e * / (1 + e)) by (unfold g; field; lra). assert (Q := small_products e e 400 Be Be ltac:(lra)). rewrite Rabs_mult.
    assert (P : Rabs (e * e) <= 0.0005 * u). { rewrite Rabs_mult. apply Rle_trans with ((400 * u) * (400 * u)); [apply Rmult_le_compat; try apply Rabs_pos; assumption|]. replace (400 * u * (400 * u)) with ((160000 * u) * u) by ring. apply Rmult_le_compat_r; lra. }
    assert (P2 : Rabs (/ (1 + e)) <= 2). { rewrite Rabs_right by (apply Rle_ge; left; apply Rinv_0_lt_compat; lra). replace 2 with (/ (1/2)) by lra. apply Rinv_le_contravar; lra. }
    apply Rle_trans with (0.0005 * u * 2); [apply Rmult_le_compat; try apply Rabs_pos; assumption|lra]. }
  pose proof (abs_le_inv _ _ Eg) as Eg'. assert (Bg : Rabs g <= 400 * u) by (apply Rabs_le; split; nra).
  assert (Pdg := small_products d g 400 Bd Bg ltac:(lra)). pose proof (abs_le_inv _ _ Pdg) as Pdg'.
  set (v := a * (1 + d) / (b * (1 + e))) in *. assert (Ib : 0 < / b) by (apply Rinv_0_lt_compat; lra).
  assert (Ib1 : / 1000000 <= / b) by (apply Rinv_le_contravar; lra). assert (Ib2 : / b <= / (1/1000000)) by (apply Rinv_le_contravar; lra).
  assert (AB1 : 1/1000000 * / 1000000 <= a / b) by (apply Rmult_le_compat; lra). assert (AB2 : a / b <= 1000000 * / (1/1000000)) by (apply Rmult_le_compat; lra).
  assert (V : v = (a / b) * (1 + (d + g + d * g))) by (unfold v; replace (a * (1 + d) / (b * (1 + e))) with (a / b * (1 + d) * / (1 + e)) by (field; split; lra); rewrite Eg0; ring).
  assert (V1 : (a / b) * (1/2) <= v) by (rewrite V; apply Rmult_le_compat_l; lra). assert (V2 : v <= (a / b) * 2) by (rewrite V; apply Rmult_le_compat_l; lra).
  assert (W1 : p2 (-100) <= Rabs v). { rewrite Rabs_right by lra. replace (-100)%Z with (Z.opp 100) by reflexivity. rewrite p2_opp, p2_Z by lia. change (2 ^ 100)%Z with 1267650600228229401496703205376%Z. lra. }
  assert (W2 : Rabs v < p2 1023). { rewrite Rabs_right by lra. apply Rle_lt_trans with (p2 100); [|apply p2_lt; lia]. rewrite p2_Z by lia. change (2 ^ 100)%Z with 1267650600228229401496703205376%Z. lra. }
  assert (W3 : p2 (-1022) <= Rabs v) by (apply Rle_trans with (2 := W1), p2_le; lia). assert (Nb : b * (1 + e) <> 0) by (apply Rgt_not_eq, Rmult_lt_0_compat; lra).
  destruct (div_ok x y (a * (1 + d)) (b * (1 + e)) Dx Dy Hx Hy Nb (or_intror W3) W2) as (D & r & S & Q). split; [exact D|]. exists r. split; [exact S|].
  assert (E := rounded_error _ _ Q (or_intror W3)). fold v in E.
  destruct (off_factor 1 r v ltac:(lra)) as (f & -> & Ef). { unfold off_by. rewrite Rmult_1_l. rewrite (Rabs_right v) in E by lra. exact E. }
  rewrite V. replace (a / b * (1 + (d + g + d * g)) * (1 + f)) with (a / b * (1 + (d + g + d * g + (1 + (d + g + d * g)) * f))) by ring.
  apply factor_off; [lra|]. pose proof (abs_le_inv _ _ Ef) as Ef'.
  assert (Pf : Rabs ((1 + (d + g + d * g)) * f) <= 1.005 * u). { rewrite Rabs_mult. apply Rle_trans with (1.005 * (1 * u)); [|lra]. apply Rmult_le_compat; try apply Rabs_pos; [apply Rabs_le; lra|exact Ef]. }
  pose proof (abs_le_inv _ _ Pf) as Pf'. apply Rabs_le. split; lra.
Qed.
Lemma off_weaken x j k v : 0 < v -> off x j v -> j <= k -> off x k v.
Proof.
  intros V (D & r & S & O) L. split; [exact D|]. exists r. split; [exact S|]. unfold off_by in *. apply Rle_trans with (1 := O). change (powerRZ 2 (-53)) with u. apply Rmult_le_compat_r; [lra|]. apply u_cancel, L.
Qed.
Lemma near_off x k v : near x v (k * u * v) <-> off x k v. Proof. split; intros H; exact H. Qed.

(** layers given by an exponential *)
Lemma exp_layer k expo A B n m a b x h : good_exp k expo -> 0 <= k <= 100 -> tracks A 1 n a -> tracks B 1 m b -> (m <= 20)%Z -> double x -> stands_for x h -> in_range h ->
  0.5 <= a <= 200000 -> -7 <= b * h <= -1 -> off (fmul A (expo (fmul B x))) (k + 30) (exp (ln a + b * h)).
Proof.
  intros G K TA TB M D H I Ba Bh. pose proof u_pos as [U1 _]. pose proof u_small as U2.
  assert (T := tracks_mul _ _ _ _ _ _ _ _ TB (tracks_self x h D H I) ltac:(lia) ltac:(lia)). assert (NB := near_tracks _ 2 _ _ ltac:(lia) T). cbn [INR] in NB.
  assert (Lb : Rabs (b * h) <= 7) by (apply Rabs_le; lra).
  assert (NB' : near (fmul B x) (b * h) (15 * u)). { apply (near_weaken _ _ _ _ NB). assert (u * Rabs (b * h) <= u * 7) by (apply Rmult_le_compat_l; lra). lra. }
  destruct NB' as (D' & c & S' & E'). pose proof (abs_le_inv _ _ E') as E''. destruct (G _ c D' S' ltac:(lra)) as (r & Dr & Sr & Or).
  assert (O2 : off (expo (fmul B x)) (k + 16) (exp (b * h))). { split; [exact Dr|]. exists r. split; [exact Sr|]. apply (shifted k 15 16 r c (b * h) Or E'); lra. }
  assert (O1 : off A 1.001 a). { apply near_off. destruct (near_lit' _ _ _ TA) as (Da & s & Sa & Ea). split; [exact Da|]. exists s. split; [exact Sa|]. rewrite (Rabs_right a) in Ea by lra. exact Ea. }
  assert (P := exp_pos (b * h)).
  assert (X1 : 1/1000000 <= exp (b * h)).
  { apply Rle_trans with (exp (Ropp 7)). 2:{ destruct (Req_dec (b * h) (Ropp 7)) as [->|N]; [lra|]. left. apply exp_increasing. lra. }
    rewrite exp_Ropp. replace (1/1000000) with (/ 1000000) by lra. apply Rinv_le_contravar; [apply exp_pos|]. replace 7 with (1 + 1 + 1 + 1 + 1 + 1 + 1) by ring. rewrite !exp_plus. pose proof exp_le_3. pose proof (exp_pos 1).
    assert (exp 1 * exp 1 <= 3 * 3) by (apply Rmult_le_compat; lra). assert (0 <= exp 1 * exp 1) by (apply Rmult_le_pos; lra). set (q := exp 1 * exp 1) in *.
    replace (q * exp 1 * exp 1 * exp 1 * exp 1 * exp 1) with (q * q * q * exp 1) by (unfold q; ring). assert (q * q <= 9 * 9) by (apply Rmult_le_compat; lra). assert (q * q * q <= 81 * 9) by (apply Rmult_le_compat; try lra; apply Rmult_le_pos; lra).
    apply Rle_trans with (729 * 3); [|lra]. apply Rmult_le_compat; try lra. apply Rmult_le_pos; [apply Rmult_le_pos; lra|lra]. }
  assert (X2 : exp (b * h) <= 1). { rewrite <- exp_0. left. apply exp_increasing. lra. }
  assert (Q := off_mul _ _ _ _ _ _ O1 O2 ltac:(lra) ltac:(lra) ltac:(lra) X1 ltac:(lra) ltac:(lra)).
  rewrite exp_plus, exp_ln by lra. apply (off_weaken _ _ _ _ (Rmult_lt_0_compat a (exp (b * h)) ltac:(lra) P) Q). lra.
Qed.
