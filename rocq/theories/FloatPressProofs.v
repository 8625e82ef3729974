(** The pressures and densities of the standard atmosphere in double precision. *)
From Coq Require Import Reals ZArith List Lra Lia Bool.
From Coq.Floats Require Import SpecFloat.
From Verif Require Import Base BaseFacts AtmosSpec FloatSpec FloatModel FloatArith FloatProofs FloatProofs2 FloatProofs3 FloatProofs4 FloatAtmosModel FloatAtmosProofs FloatPressModel FloatPressSpec IsaReal.
Open Scope R_scope.

Lemma u_small : u <= 0.00000000000000012. Proof. rewrite u_val. lra. Qed.
(** perturbed exponentials and logarithms *)
Lemma exp_above d : 0 <= d <= 0.005 -> exp d <= 1 + 1.01 * d.
Proof.
  intros H. assert (K := exp_ineq1_le (- d)). rewrite exp_Ropp in K. pose proof (exp_pos d).
  apply Rmult_le_reg_r with (1 - d); [lra|]. apply Rle_trans with 1; [|nra].
  apply Rle_trans with (exp d * / exp d); [apply Rmult_le_compat_l; lra|rewrite Rinv_r; lra].
Qed.
Lemma exp_near d e : Rabs d <= e -> 0 <= e <= 0.005 -> Rabs (exp d - 1) <= 1.01 * e.
Proof.
  intros H B. apply abs_le_inv in H. apply Rabs_le. split.
  - assert (K := exp_ineq1_le d). lra.
  - apply Rle_trans with (exp e - 1); [|pose proof (exp_above e B); lra]. destruct (Req_dec d e) as [->|N]; [lra|]. left. apply Rplus_lt_compat_r, exp_increasing. lra.
Qed.
Lemma ln_near t a e : 0 < t -> Rabs (a - t) <= e * t -> 0 <= e <= 0.005 -> 0 < a /\ Rabs (ln a - ln t) <= 1.01 * e.
Proof.
  intros T H B. apply abs_le_inv in H. assert (P : 0 < a) by nra. split; [exact P|].
  assert (U : forall x y, 0 < x -> 0 < y -> ln x - ln y <= (x - y) / y).
  { intros x y X Y. assert (Z : 0 < x / y) by (apply Rdiv_lt_0_compat; assumption). assert (K := exp_ineq1_le (ln (x / y))). rewrite exp_ln in K by exact Z. unfold Rdiv in K; rewrite ln_mult, ln_Rinv in K by (assumption || (apply Rinv_0_lt_compat; assumption)).
    change (x * / y) with (x / y) in K.
    replace ((x - y) / y) with (x / y - 1) by (field; lra). lra. }
  apply Rabs_le. split.
  - assert (K := U t a T P). assert ((t - a) / a <= 1.01 * e); [|lra]. apply Rmult_le_reg_r with a; [exact P|]. unfold Rdiv. rewrite Rmult_assoc, Rinv_l, Rmult_1_r by lra. nra.
  - assert (K := U a t P T). assert ((a - t) / t <= e); [|lra]. apply Rmult_le_reg_r with t; [exact T|]. unfold Rdiv. rewrite Rmult_assoc, Rinv_l, Rmult_1_r by lra. lra.
Qed.
(** a result that is good at x, where x is close to y *)
Lemma shifted k d c r x y : off_by k r (exp x) -> Rabs (x - y) <= d * u -> 0 <= k <= 100 -> 0 <= d <= 200 -> 1.02 * d + 0.01 <= c -> off_by (k + c) r (exp y).
Proof.
  unfold off_by. change (powerRZ 2 (-53)) with u. intros H S K D C. pose proof u_pos as [U1 _]. pose proof u_small as U2. assert (Y := exp_pos y).
  assert (E : 0 <= d * u <= 0.005) by nra. assert (N := exp_near _ _ S E).
  assert (X : exp x = exp y * exp (x - y)) by (rewrite <- exp_plus; f_equal; ring). rewrite X in H. set (g := exp (x - y)) in *. apply abs_le_inv in N.
  replace (r - exp y) with ((r - exp y * g) + exp y * (g - 1)) by ring. apply Rle_trans with (1 := Rabs_triang _ _). rewrite Rabs_mult, (Rabs_right (exp y)) by lra.
  assert (N' : Rabs (g - 1) <= 1.01 * (d * u)) by (apply Rabs_le; lra).
  apply Rle_trans with (k * u * (exp y * g) + exp y * (1.01 * (d * u))); [apply Rplus_le_compat; [exact H|apply Rmult_le_compat_l; lra]|].
  replace (k * u * (exp y * g) + exp y * (1.01 * (d * u))) with (exp y * (u * (k * g + 1.01 * d))) by ring. replace ((k + c) * u * exp y) with (exp y * (u * (k + c))) by ring.
  apply Rmult_le_compat_l; [lra|]. apply Rmult_le_compat_l; [lra|].
  assert (k * g <= k * (1 + 1.01 * (d * u))) by (apply Rmult_le_compat_l; lra). assert (k * (d * u) <= 0.001) by nra. lra.
Qed.
(** longer literals *)
Lemma tracks_lit' p q c : (1 <= p <= 1000000000000000)%Z -> (1 <= 10 ^ q <= 1000000000000000)%Z -> c * IZR (10 ^ q) = IZR p ->
  1 / 1048576 <= c <= 1048576 -> tracks (lit p q) 1 20 c.
Proof.
  intros P Q E C. assert (Z : 0 < IZR (10 ^ q)) by (apply IZR_lt; lia). assert (V : IZR p / IZR (10 ^ q) = c) by (rewrite <- E; field; lra).
  destruct (tracks_div _ _ _ _ _ _ _ _ (tracks_int p P) (tracks_int (10 ^ q) Q)) as [A _]; [lra|lia|lia|]. rewrite V in A. split; [exact A|].
  right. rewrite Rabs_right by lra. rewrite p2_opp, p2_Z by lia. change (2 ^ 20)%Z with 1048576%Z. lra.
Qed.
Ltac literal' := (apply tracks_lit'; [lia | split; vm_compute; discriminate | match goal with |- _ * IZR ?z = _ => let v := eval vm_compute in z in change z with v end; lra | lra]).
Lemma near_lit' x n c : tracks x 1 n c -> near x c (1.001 * u * Rabs c).
Proof. intros T. assert (N := near_tracks _ 1 _ _ ltac:(lia) T). cbn [INR] in N. apply (near_weaken _ _ _ _ N). lra. Qed.
(** the linear part of a layer *)
Lemma near_line A B n m a b x h d e w : tracks A 1 n a -> tracks B 1 m b -> (m <= 20)%Z -> double x -> stands_for x h -> in_range h ->
  Rabs a <= 1000 -> Rabs (b * h) <= d -> d <= 1000 -> Rabs (a + b * h) <= e -> e <= 1000 -> 1.002 * Rabs a + 2.003 * d + e + 0.001 <= w ->
  near (fadd A (fmul B x)) (a + b * h) (w * u).
Proof.
  intros TA TB M D H I Ba Bd Ld Be Le W. pose proof u_pos as [U1 _]. pose proof u_small as U2.
  assert (T := tracks_mul _ _ _ _ _ _ _ _ TB (tracks_self x h D H I) ltac:(lia) ltac:(lia)). assert (NB := near_tracks _ 2 _ _ ltac:(lia) T). cbn [INR] in NB.
  assert (NA := near_lit' _ _ _ TA). assert (0 <= Rabs a) by apply Rabs_pos. assert (0 <= Rabs (b * h)) by apply Rabs_pos. assert (0 <= Rabs (a + b * h)) by apply Rabs_pos.
  assert (NA' : near A a (1.001 * Rabs a * u)) by (apply (near_weaken _ _ _ _ NA); lra).
  assert (NB' : near (fmul B x) (b * h) (2.002 * d * u)).
  { apply (near_weaken _ _ _ _ NB). assert (u * Rabs (b * h) <= u * d) by (apply Rmult_le_compat_l; lra). lra. }
  assert (1.001 * Rabs a * u <= 1) by nra. assert (2.002 * d * u <= 1) by nra.
  apply (near_weaken _ _ _ _ (near_add _ _ _ _ _ _ NA' NB' ltac:(lra))).
  assert (u * (1.001 * Rabs a * u + 2.002 * d * u) <= u * 0.001) by (apply Rmult_le_compat_l; [lra|nra]).
  assert (u * Rabs (a + b * h) <= u * e) by (apply Rmult_le_compat_l; lra). assert (u * (1.002 * Rabs a + 2.003 * d + e + 0.001) <= u * w) by (apply Rmult_le_compat_l; lra).
  assert (0 <= u * Rabs a) by (apply Rmult_le_pos; lra). assert (0 <= u * d) by (apply Rmult_le_pos; lra). lra.
Qed.
Lemma u_cancel x y : x <= y -> x * u <= y * u. Proof. pose proof u_pos as [U1 _]. intros H. apply Rmult_le_compat_r; lra. Qed.
(** a power of a linear part *)
Lemma power_layer k power X Y n t e w l c : good_power k power -> 0 <= k <= 100 -> near X t (w * u) -> tracks Y 1 n e ->
  0.51 <= t <= 10.99 -> Rabs e <= 39 -> 0 <= w <= 100 -> Rabs (ln t) <= l -> l <= 3 -> 1.02 * (Rabs e * (1.011 * (w / t) + 1.002 * l)) + 0.02 <= c ->
  c <= 200 -> near (power X Y) (exp (e * ln t)) ((k + c) * u * exp (e * ln t)).
Proof.
  intros G K (DX & a & HX & EX) TY T Be W L Ll C C2. pose proof u_pos as [U1 _]. pose proof u_small as U2.
  destruct (near_lit' _ _ _ TY) as (DY & b & HY & EY). pose proof (Rabs_pos e) as Pe. pose proof (Rabs_pos (ln t)).
  assert (Wt : 0 <= w / t) by (apply Rmult_le_pos; [lra|left; apply Rinv_0_lt_compat; lra]).
  assert (Wt2 : w / t <= 200). { apply Rmult_le_reg_r with t; [lra|]. unfold Rdiv. rewrite Rmult_assoc, Rinv_l by lra. nra. }
  assert (E1 : Rabs (a - t) <= (w / t * u) * t) by (replace (w / t * u * t) with (w * u) by (field; lra); exact EX).
  destruct (ln_near t a (w / t * u) ltac:(lra) E1 ltac:(nra)) as [Pa Nl].
  assert (Small : w * u <= 0.001) by nra. assert (Small' : 1.001 * u * Rabs e <= 0.001) by nra.
  pose proof (abs_le_inv _ _ EX) as EX'. pose proof (abs_le_inv _ _ EY) as EY'. pose proof (abs_le_inv _ _ Be) as Be'.
  destruct (G X Y a b DX DY HX HY ltac:(lra) ltac:(lra)) as (r & D & S & O). split; [exact D|]. exists r. split; [exact S|].
  unfold Rpower in O. change ((k + c) * u * exp (e * ln t)) with ((k + c) * powerRZ 2 (-53) * exp (e * ln t)).
  apply (shifted k (Rabs e * (1.011 * (w / t) + 1.002 * l)) c r (b * ln a) (e * ln t) O); try assumption; try lra.
  2:{ split; [apply Rmult_le_pos; lra|lra]. }
  replace (b * ln a - e * ln t) with (b * (ln a - ln t) + (b - e) * ln t) by ring. apply Rle_trans with (1 := Rabs_triang _ _). rewrite !Rabs_mult.
  assert (Bb : Rabs b <= 1.0001 * Rabs e).
  { replace b with (e + (b - e)) by ring. apply Rle_trans with (1 := Rabs_triang _ _). assert (1.001 * u * Rabs e <= 0.0001 * Rabs e) by (apply Rmult_le_compat_r; nra). lra. }
  assert (P1 : Rabs b * Rabs (ln a - ln t) <= (1.0001 * Rabs e) * (1.01 * (w / t * u))) by (apply Rmult_le_compat; try apply Rabs_pos; assumption).
  assert (P2 : Rabs (b - e) * Rabs (ln t) <= (1.001 * u * Rabs e) * l) by (apply Rmult_le_compat; try apply Rabs_pos; assumption).
  apply Rle_trans with ((1.0001 * Rabs e) * (1.01 * (w / t * u)) + (1.001 * u * Rabs e) * l); [lra|].
  assert (Q1 : 0 <= Rabs e * (w / t * u)) by (apply Rmult_le_pos; [lra|apply Rmult_le_pos; lra]). assert (Q2 : 0 <= u * Rabs e * l) by (apply Rmult_le_pos; [apply Rmult_le_pos; lra|lra]).
  replace (Rabs e * (1.011 * (w / t) + 1.002 * l) * u) with (1.011 * (Rabs e * (w / t * u)) + 1.002 * (u * Rabs e * l)) by ring. lra.
Qed.
