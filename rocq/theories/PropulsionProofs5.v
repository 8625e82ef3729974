(** The propeller efficiency iteration. *)
From Verif Require Import Base BaseFacts AtmosModel AtmosProofs2 ConceptModel ConceptProofs PropulsionModel PropulsionSpec PropulsionProofs.
Open Scope R_scope.

(** ** Rounding *)
Lemma nearest_rounds x : rounds_to x (nearest x).
Proof.
  unfold nearest, rounds_to. pose proof (archimed x) as (H1 & H2).
  set (f := (up x - 1)%Z). assert (Hf : IZR f = IZR (up x) - 1) by (unfold f; rewrite minus_IZR; reflexivity).
  assert (A : 0 <= x - IZR f < 1) by lra.
  destruct (Rltb_reflect (x - IZR f) (1/2)) as [L|L].
  - left. rewrite Rabs_right by lra. exact L.
  - destruct (Rltb_reflect (1/2) (x - IZR f)) as [G|G].
    + left. rewrite plus_IZR. rewrite Rabs_left by lra. lra.
    + assert (E : x - IZR f = 1/2) by lra. destruct (Z.even f) eqn:P.
      * right. split; [rewrite E; apply Rabs_right; lra|exact P].
      * right. rewrite plus_IZR. split; [replace (x - (IZR f + 1)) with (-(1/2)) by lra; rewrite Rabs_Ropp; apply Rabs_right; lra|].
        change (Z.even (Z.succ f) = true). rewrite Z.even_succ, <- Z.negb_even, P. reflexivity.
Qed.
Lemma rounds_unique x a b : rounds_to x a -> rounds_to x b -> a = b.
Proof.
  unfold rounds_to. intros Ha Hb.
  assert (A1 : Rabs (x - IZR a) <= 1/2) by (destruct Ha as [H|[H _]]; lra).
  assert (B1 : Rabs (x - IZR b) <= 1/2) by (destruct Hb as [H|[H _]]; lra).
  assert (D : Rabs (IZR a - IZR b) <= 1).
  { replace (IZR a - IZR b) with ((x - IZR b) - (x - IZR a)) by ring. unfold Rminus at 1. eapply Rle_trans; [apply Rabs_triang|]. rewrite Rabs_Ropp. lra. }
  rewrite <- minus_IZR, <- abs_IZR in D. apply le_IZR in D.
  destruct (Z.eq_dec a b) as [E|N]; [exact E|]. exfalso.
  assert (D1 : (a = b + 1 \/ b = a + 1)%Z) by lia.
  assert (HE : forall u v, (u = v + 1)%Z -> Z.even u = true -> Z.even v = true -> False).
  { intros u v -> E1 E2. change (Z.even (Z.succ v) = true) in E1. rewrite Z.even_succ, <- Z.negb_even, E2 in E1. discriminate. }
  assert (K : Rabs (x - IZR a) = 1/2 /\ Rabs (x - IZR b) = 1/2).
  { destruct D1 as [->| ->]; rewrite plus_IZR in *; revert A1 B1; unfold Rabs; destruct (Rcase_abs _), (Rcase_abs _); intros; lra. }
  destruct K as (K1 & K2). destruct Ha as [Ha|(_ & Ea)]; [lra|]. destruct Hb as [Hb|(_ & Eb)]; [lra|].
  destruct D1 as [D1|D1]; [exact (HE a b D1 Ea Eb)|exact (HE b a D1 Eb Ea)].
Qed.
Lemma round_eqb_agree dp x y : round_eqb dp (Fin x) (Fin y) = true <-> agree dp x y.
Proof.
  cbn [round_eqb]. rewrite Z.eqb_eq. split.
  - intros E. exists (nearest (x * 10 ^ dp)). split; [apply nearest_rounds|rewrite E; apply nearest_rounds].
  - intros (z & A & B). rewrite (rounds_unique _ _ _ (nearest_rounds _) A). symmetry. exact (rounds_unique _ _ _ (nearest_rounds _) B).
Qed.
Lemma agree_close dp x y : agree dp x y -> Rabs (x - y) <= / 10 ^ dp.
Proof.
  intros (z & A & B). assert (P : 0 < 10 ^ dp) by (apply pow_lt; lra).
  assert (A1 : Rabs (x * 10 ^ dp - IZR z) <= 1/2) by (destruct A as [H|[H _]]; lra).
  assert (B1 : Rabs (y * 10 ^ dp - IZR z) <= 1/2) by (destruct B as [H|[H _]]; lra).
  assert (D : Rabs ((x - y) * 10 ^ dp) <= 1).
  { replace ((x - y) * 10 ^ dp) with ((x * 10 ^ dp - IZR z) - (y * 10 ^ dp - IZR z)) by ring. unfold Rminus at 1.
    eapply Rle_trans; [apply Rabs_triang|]. rewrite Rabs_Ropp. lra. }
  rewrite Rabs_mult, (Rabs_right (10 ^ dp)) in D by lra.
  apply Rmult_le_reg_r with (10 ^ dp); [exact P|]. rewrite Rinv_l by lra. exact D.
Qed.
Lemma agree_refl dp x : agree dp x x.
Proof. exists (nearest (x * 10 ^ dp)). split; apply nearest_rounds. Qed.

(** ** One pass *)
Lemma interp01_fin x : interp01 (Fin x) = Fin (clip01 x).
Proof.
  unfold interp01, clip01. rewrite !nltb_fin. destruct (Rltb_reflect x 0) as [H|H].
  - f_equal. rewrite Rmin_right, Rmax_left; lra.
  - destruct (Rltb_reflect 1 x) as [G|G]; f_equal; [rewrite Rmin_left, Rmax_right; lra|rewrite Rmin_right, Rmax_right; lra].
Qed.
Lemma clip01_range x : 0 <= clip01 x <= 1.
Proof. unfold clip01. split; [apply Rmax_l|]. apply Rmax_lub; [lra|apply Rmin_l]. Qed.
Lemma cos_atan_bounds y : y <> 0 -> 0 < cos (atan y) < 1.
Proof.
  intros N. pose proof (atan_bound y) as B. assert (P : 0 < cos (atan y)) by (apply cos_gt_0; lra). split; [exact P|].
  assert (Q : tan (atan y) = y) by apply tan_atan. unfold tan in Q.
  assert (Ns : sin (atan y) <> 0) by (intros E; rewrite E in Q; apply N; rewrite <- Q; field; lra).
  pose proof (sin2_cos2 (atan y)) as S. unfold Rsqr in S.
  assert (0 < sin (atan y) * sin (atan y)) by nra. nra.
Qed.
Lemma glauert_fin y : y <> 0 -> glauert (Fin (atan y)) = Fin (glauert_factor (atan y)).
Proof.
  intros N. pose proof (cos_atan_bounds y N) as (C1 & C2). unfold glauert, glauert_factor, ncos, ntan, nlog, lift1.
  destruct (Req_EM_T (cos (atan y)) 0) as [E|E]; [lra|]. unfold Reqb. destruct (Req_EM_T (cos (atan y)) 0) as [E'|_]; [contradiction|].
  rewrite !npown_fin, !nmul_fin, !nadd_fin, nsub_fin.
  rewrite (ndiv_fin _ (8 * cos (atan y))) by lra. rewrite (ndiv_fin (1 - cos (atan y))) by lra. rewrite (ndiv_fin 3 16) by lra.
  assert (L : 0 < (1 - cos (atan y)) / (1 + cos (atan y))) by (apply Rdiv_lt_0_compat; lra).
  destruct (Rltb_reflect 0 ((1 - cos (atan y)) / (1 + cos (atan y)))) as [H|H]; [|lra]. rewrite !nmul_fin, nsub_fin. reflexivity.
Qed.
Lemma eta_pass_fin J cp sol cd e1 : J <> 0 -> cp <> 0 -> e1 <> 0 ->
  eta_pass (Fin cp) (Fin J) (Fin sol) (Fin cd) (Fin e1) = (Fin (axial J cp sol cd e1), Fin (swirl J cp e1), Fin (profile_eff J cp sol cd e1)).
Proof.
  intros HJ Hc H1. pose proof PI_RGT_0 as HP. unfold eta_pass.
  assert (P3 : PI ^ 3 * J <> 0) by (apply Rmult_integral_contrapositive_currified; [apply pow_nonzero; lra|exact HJ]).
  rewrite !npown_fin, !nmul_fin. rewrite (ndiv_fin _ (PI ^ 3 * J)) by exact P3. rewrite interp01_fin, nsub_fin.
  fold (swirl J cp e1). rewrite !npown_fin, !nmul_fin.
  assert (Q : (if neqb (Fin (swirl J cp e1)) #0 then #0 else glauert (natan (Fin J / Fin (PI * e1 * swirl J cp e1))))%num =
    Fin (if Reqb (swirl J cp e1) 0 then 0 else glauert_factor (inflow J cp e1))).
  { unfold neqb, Reqb. destruct (Req_EM_T (swirl J cp e1) 0) as [E|H2]; [reflexivity|].
    assert (P2 : PI * e1 * swirl J cp e1 <> 0) by (apply Rmult_integral_contrapositive_currified; [apply Rmult_integral_contrapositive_currified; [lra|exact H1]|exact H2]).
    rewrite ndiv_fin by exact P2. unfold natan, lift1. apply glauert_fin.
    unfold Rdiv; apply Rmult_integral_contrapositive_currified; [exact HJ|apply Rinv_neq_0_compat; exact P2]. }
  rewrite Q. rewrite !nmul_fin, (ndiv_fin _ (8 * cp)) by (intros E; apply Hc; lra). rewrite nsub_fin.
  replace (1 - PI ^ 4 * swirl J cp e1 ^ 2 * sol * cd * (if Reqb (swirl J cp e1) 0 then 0 else glauert_factor (inflow J cp e1)) / (8 * cp))
    with (profile_eff J cp sol cd e1).
  2:{ unfold profile_eff, Reqb. destruct (Req_EM_T (swirl J cp e1) 0) as [E|H2]; [|reflexivity]. rewrite E. unfold Rdiv. ring. }
  rewrite !nmul_fin.
  assert (P1 : PI * J ^ 3 <> 0) by (apply Rmult_integral_contrapositive_currified; [lra|apply pow_nonzero; exact HJ]).
  rewrite (ndiv_fin _ (PI * J ^ 3)) by exact P1. rewrite nsub_fin. fold (axial J cp sol cd e1). reflexivity.
Qed.

(** ** The loop *)
Section Loop.
Variables (dp : nat) (J cp sol cd : R).
Notation E k := (passes J cp sol cd k).
Lemma eta_loop_spec : forall n k, regular J cp sol cd (k + n) ->
  (forall j, (S j < S k)%nat -> ~ agree dp (snd (E j)) (snd (E (S j)))) ->
  exists m, (k <= m)%nat /\ stops dp (fun j => snd (E j)) (k + n) m /\
    eta_loop n dp (Fin cp) (Fin J) (Fin sol) (Fin cd) (Fin (fst (E k))) (Fin (snd (E k))) = Fin (snd (E m)).
Proof.
  induction n as [|n IH]; intros k Rg Nk.
  - exists k. split; [lia|]. split; [|reflexivity]. split; [lia|]. split; [intros j L; apply Nk; lia|left; lia].
  - cbn [eta_loop]. destruct Rg as (HJ & Hc & Rg). pose proof (Rg k ltac:(lia)) as H1.
    rewrite eta_pass_fin by assumption. rewrite !nmul_fin.
    change (axial J cp sol cd (fst (E k)) * swirl J cp (fst (E k)) * profile_eff J cp sol cd (fst (E k))) with (snd (E (S k))).
    change (axial J cp sol cd (fst (E k))) with (fst (E (S k))).
    destruct (round_eqb dp (Fin (snd (E k))) (Fin (snd (E (S k))))) eqn:Q.
    + apply round_eqb_agree in Q. exists (S k). split; [lia|]. split; [|reflexivity]. split; [lia|]. split; [intros j L; apply Nk; lia|].
      right. exists k. split; [reflexivity|exact Q].
    + assert (Nq : ~ agree dp (snd (E k)) (snd (E (S k)))) by (rewrite <- round_eqb_agree, Q; discriminate).
      destruct (IH (S k)) as (m & L & S & V).
      * replace (S k + n)%nat with (k + S n)%nat by lia. split; [exact HJ|]. split; [exact Hc|exact Rg].
      * intros j Lj. destruct (Nat.eq_dec j k) as [->|Nj]; [exact Nq|apply Nk; lia].
      * exists m. split; [lia|]. replace (k + Datatypes.S n)%nat with (Datatypes.S k + n)%nat by lia. split; [exact S|exact V].
Qed.
End Loop.

(** ** One entry of the efficiency array *)
Lemma vsound_at_air h rho a : standard_air h rho a -> vsound_at (Fin h) = Ok (Fin a).
Proof. intros (_ & E & _). unfold vsound_at. rewrite E. reflexivity. Qed.
Lemma airdens_at_air h rho a : standard_air h rho a -> airdens_at (Fin h) = Ok (Fin rho).
Proof. intros (E & _). unfold airdens_at. rewrite E. reflexivity. Qed.

Lemma efficiency_at_spec p D cl sol rpm h rho a m P :
  diameter_m p = Some (Fin D) -> idesign_cl p = Some (Fin cl) -> standard_air h rho a -> D <> 0 -> rpm <> 0 ->
  let cp := power_coefficient P rho (rpm / 60) D in let J := advance_ratio (m * a) (rpm / 60) D in
  let cd := drag_polar (cl * cp / J) in
  regular J cp sol cd (Z.to_nat (solve_maxiter p)) ->
  exists k, stops (solve_dp p) (fun j => snd (passes J cp sol cd j)) (Z.to_nat (solve_maxiter p)) k /\
    efficiency_at p (Fin sol) (Fin m) (Fin h) (Fin rho) (Fin P) (Fin rpm) = Ok (Fin (snd (passes J cp sol cd k))).
Proof.
  intros HD Hcl Air ND Nr cp J cd Rg. unfold efficiency_at. rewrite HD, Hcl. cbn [attr0].
  rewrite (vsound_at_air _ _ _ Air). cbn [rbind]. rewrite (ndiv_fin rpm 60) by lra. rewrite !npown_fin, !nmul_fin.
  assert (Nn : rpm / 60 <> 0) by (intros E; apply Nr; lra). destruct Air as (_ & _ & Hr & Ha).
  assert (N1 : rho * (rpm / 60) ^ 3 * D ^ 5 <> 0).
  { apply Rmult_integral_contrapositive_currified; [apply Rmult_integral_contrapositive_currified; [lra|]|]; apply pow_nonzero; assumption. }
  rewrite (ndiv_fin P) by exact N1. rewrite (ndiv_fin (m * a)) by (apply Rmult_integral_contrapositive_currified; assumption).
  fold (power_coefficient P rho (rpm / 60) D). fold cp. fold (advance_ratio (m * a) (rpm / 60) D). fold J.
  rewrite !nmul_fin, (ndiv_fin _ J) by (destruct Rg; assumption). rewrite npown_fin, !nmul_fin, !nadd_fin.
  change (-0.136 * (cl * cp / J) ^ 2 + 0.116 * (cl * cp / J) + 0.00627) with cd.
  destruct (eta_loop_spec (solve_dp p) J cp sol cd (Z.to_nat (solve_maxiter p)) 0 Rg) as (k & _ & S & V); [intros j L; lia|].
  exists k. split; [exact S|]. cbn [fst snd passes] in V. rewrite V. reflexivity.
Qed.

(** ** Bounds *)
Lemma ln_ratio_bound c : 0 < c < 1 -> 0 < - ln ((1 - c) / (1 + c)) <= 2 * c / (1 - c).
Proof.
  intros (H1 & H2). replace (- ln ((1 - c) / (1 + c))) with (ln ((1 + c) / (1 - c))).
  2:{ replace ((1 + c) / (1 - c)) with (/ ((1 - c) / (1 + c))) by (field; lra). rewrite ln_Rinv; [reflexivity|]. apply Rdiv_lt_0_compat; lra. }
  assert (Q : (1 + c) / (1 - c) = 1 + 2 * c / (1 - c)) by (field; lra).
  assert (P : 0 < 2 * c / (1 - c)) by (apply Rdiv_lt_0_compat; lra). rewrite Q. split.
  - rewrite <- ln_1. apply ln_increasing; lra.
  - pose proof (exp_ineq1 (2 * c / (1 - c))) as K. apply Rlt_le. apply exp_lt_inv. rewrite exp_ln by lra. apply K. lra.
Qed.
Lemma cos_atan_val y : cos (atan y) = / sqrt (1 + y ^ 2).
Proof. rewrite cos_atan. unfold Rdiv. rewrite Rmult_1_l. do 2 f_equal. unfold Rsqr. ring. Qed.
(** 0 < G(atan y) <= an algebraic bound, increasing in y *)
Lemma glauert_bounds y : 0 < y -> 0 < glauert_factor (atan y) <= glauert_bound y.
Proof.
  intros Hy. unfold glauert_factor. rewrite tan_atan, cos_atan_val.
  assert (G1 : 1 < 1 + y ^ 2) by (pose proof (pow_lt y 2 Hy); lra).
  set (s := sqrt (1 + y ^ 2)). assert (S1 : 1 < s) by (rewrite <- sqrt_1; apply sqrt_lt_1; lra).
  assert (S2 : s * s = 1 + y ^ 2) by (apply sqrt_sqrt; lra).
  assert (C : 0 < / s < 1) by (split; [apply Rinv_0_lt_compat; lra|rewrite <- Rinv_1; apply Rinv_lt_contravar; lra]).
  pose proof (ln_ratio_bound (/ s) C) as (L1 & L2). set (l := ln ((1 - / s) / (1 + / s))) in *.
  assert (E : (2 + 5 * y ^ 2) / (8 * / s) = (2 + 5 * y ^ 2) * s / 8) by (field; lra). rewrite E.
  assert (Y4 : 0 < y ^ 4) by (apply pow_lt; exact Hy). assert (Y2 : 0 < y ^ 2) by (apply pow_lt; exact Hy).
  assert (A : 0 < (2 + 5 * y ^ 2) * s / 8) by (apply Rdiv_lt_0_compat; [apply Rmult_lt_0_compat; lra|lra]).
  assert (B : 0 < 3 / 16 * y ^ 4 * - l) by (apply Rmult_lt_0_compat; lra).
  replace ((2 + 5 * y ^ 2) * s / 8 - 3 / 16 * y ^ 4 * l) with ((2 + 5 * y ^ 2) * s / 8 + 3 / 16 * y ^ 4 * - l) by ring.
  split; [lra|]. unfold glauert_bound. fold s. apply Rplus_le_compat_l.
  assert (B2 : 3 / 16 * y ^ 4 * - l <= 3 / 16 * y ^ 4 * (2 * / s / (1 - / s))) by (apply Rmult_le_compat_l; lra).
  eapply Rle_trans; [exact B2|]. apply Req_le.
  replace (2 * / s / (1 - / s)) with (2 / (s - 1)) by (field; lra).
  replace (y ^ 4) with (y ^ 2 * y ^ 2) by ring. replace (y ^ 2) with (s * s - 1) by lra. field. lra.
Qed.
Lemma glauert_bound_mono y z : 0 <= y <= z -> glauert_bound y <= glauert_bound z.
Proof.
  intros (H0 & H). unfold glauert_bound.
  assert (Q : y ^ 2 <= z ^ 2) by (apply pow_incr; lra). assert (Q0 : 0 <= y ^ 2) by (apply pow_le; lra).
  assert (S : sqrt (1 + y ^ 2) <= sqrt (1 + z ^ 2)) by (apply sqrt_le_1; lra). pose proof (sqrt_pos (1 + y ^ 2)) as S0.
  assert (A : (2 + 5 * y ^ 2) * sqrt (1 + y ^ 2) <= (2 + 5 * z ^ 2) * sqrt (1 + z ^ 2)) by (apply Rmult_le_compat; lra).
  assert (B : y ^ 2 * (sqrt (1 + y ^ 2) + 1) <= z ^ 2 * (sqrt (1 + z ^ 2) + 1)) by (apply Rmult_le_compat; lra). lra.
Qed.

(** every pass of a lightly loaded propeller with little profile drag gives an efficiency between 0 and 1 *)
Section Bounded.
Variables J cp sol cd : R.
Hypothesis HJ : 0 < J.
Hypothesis Hcp : 0 < cp.
Hypothesis Hsol : 0 <= sol.
Hypothesis Hcd : 0 <= cd.
Notation least_axial := (least_axial J cp).
Notation least_swirl := (least_swirl J cp).
Hypothesis Hax : 0 < least_axial.
Hypothesis Hsw : 0 < least_swirl.
Hypothesis Hpr : PI ^ 4 * sol * cd * glauert_bound (J / (PI * least_axial * least_swirl)) <= 8 * cp.
Lemma swirl_range e : 0 <= e <= 1 -> least_swirl <= swirl J cp e <= 1.
Proof.
  intros H. pose proof PI_RGT_0. unfold swirl. pose proof (clip01_range (4 * e * cp / (PI ^ 3 * J))) as C. split; [|lra].
  assert (P3 : 0 < PI ^ 3 * J) by (apply Rmult_lt_0_compat; [apply pow_lt; lra|exact HJ]).
  unfold PropulsionSpec.least_swirl in *. assert (clip01 (4 * e * cp / (PI ^ 3 * J)) <= 4 * cp / (PI ^ 3 * J)); [|lra].
  assert (T : 4 * e * cp / (PI ^ 3 * J) <= 4 * cp / (PI ^ 3 * J)).
  { unfold Rdiv. apply Rmult_le_compat_r; [apply Rlt_le, Rinv_0_lt_compat, P3|nra]. }
  unfold clip01. apply Rmax_lub; [apply Rlt_le, Rdiv_lt_0_compat; lra|]. eapply Rle_trans; [apply Rmin_r|exact T].
Qed.
Lemma profile_range e : least_axial <= e <= 1 -> 0 <= profile_eff J cp sol cd e <= 1.
Proof.
  intros H. pose proof PI_RGT_0 as HP. pose proof (swirl_range e ltac:(lra)) as S. unfold profile_eff.
  set (s := swirl J cp e) in *. assert (Hs : 0 < s) by lra.
  assert (Hy : 0 < J / (PI * e * s)) by (apply Rdiv_lt_0_compat; [exact HJ|apply Rmult_lt_0_compat; [apply Rmult_lt_0_compat|]; lra]).
  assert (Hy2 : J / (PI * e * s) <= J / (PI * least_axial * least_swirl)).
  { unfold Rdiv. apply Rmult_le_compat_l; [lra|]. apply Rinv_le_contravar; [apply Rmult_lt_0_compat; [apply Rmult_lt_0_compat|]; lra|].
    apply Rmult_le_compat; try lra; [apply Rlt_le, Rmult_lt_0_compat; lra|]. apply Rmult_le_compat_l; lra. }
  pose proof (glauert_bounds _ Hy) as (G1 & G2). pose proof (glauert_bound_mono _ _ (conj (Rlt_le _ _ Hy) Hy2)) as G3.
  unfold inflow. fold s. set (G := glauert_factor (atan (J / (PI * e * s)))) in *. set (B := glauert_bound (J / (PI * least_axial * least_swirl))) in *.
  assert (K0 : 0 <= PI ^ 4 * sol * cd) by (apply Rmult_le_pos; [apply Rmult_le_pos; [apply pow_le; lra|exact Hsol]|exact Hcd]).
  assert (S2 : 0 < s ^ 2 <= 1) by (split; [apply pow_lt; exact Hs|replace 1 with (1 ^ 2) by ring; apply pow_incr; lra]).
  assert (N0 : 0 <= PI ^ 4 * s ^ 2 * sol * cd * G).
  { replace (PI ^ 4 * s ^ 2 * sol * cd * G) with (PI ^ 4 * sol * cd * (s ^ 2 * G)) by ring. apply Rmult_le_pos; [exact K0|nra]. }
  assert (N1 : PI ^ 4 * s ^ 2 * sol * cd * G <= 8 * cp).
  { eapply Rle_trans; [|exact Hpr]. replace (PI ^ 4 * s ^ 2 * sol * cd * G) with (PI ^ 4 * sol * cd * (s ^ 2 * G)) by ring.
    apply Rmult_le_compat_l; [exact K0|]. apply Rle_trans with (1 * G); [apply Rmult_le_compat_r; lra|lra]. }
  assert (D0 : 0 <= PI ^ 4 * s ^ 2 * sol * cd * G / (8 * cp)) by (unfold Rdiv; apply Rmult_le_pos; [exact N0|apply Rlt_le, Rinv_0_lt_compat; lra]).
  assert (D1 : PI ^ 4 * s ^ 2 * sol * cd * G / (8 * cp) <= 1).
  { apply Rmult_le_reg_r with (8 * cp); [lra|]. unfold Rdiv. rewrite Rmult_assoc, Rinv_l by lra. lra. }
  lra.
Qed.
Lemma axial_range e : least_axial <= e <= 1 -> least_axial <= axial J cp sol cd e <= 1.
Proof.
  intros H. pose proof PI_RGT_0 as HP. pose proof (swirl_range e ltac:(lra)) as S. pose proof (profile_range e H) as P. unfold axial.
  set (s := swirl J cp e) in *. set (q := profile_eff J cp sol cd e) in *.
  assert (PJ : 0 < PI * J ^ 3) by (apply Rmult_lt_0_compat; [lra|apply pow_lt; exact HJ]).
  assert (E3 : 0 <= e ^ 3 <= 1) by (split; [apply pow_le; lra|replace 1 with (1 ^ 3) by ring; apply pow_incr; lra]).
  assert (X : 0 <= s * q * e ^ 3 <= 1).
  { assert (0 <= s * q <= 1) by (split; [apply Rmult_le_pos; lra|replace 1 with (1 * 1) by ring; apply Rmult_le_compat; lra]).
    split; [apply Rmult_le_pos; lra|]. replace 1 with (1 * 1) by ring. apply Rmult_le_compat; lra. }
  replace (2 * cp * s * q * e ^ 3 / (PI * J ^ 3)) with (s * q * e ^ 3 * (2 * cp / (PI * J ^ 3))) by (field; split; [apply Rgt_not_eq; exact HJ|lra]).
  assert (T : 0 < 2 * cp / (PI * J ^ 3)) by (apply Rdiv_lt_0_compat; lra).
  assert (U : 0 <= s * q * e ^ 3 * (2 * cp / (PI * J ^ 3)) <= 2 * cp / (PI * J ^ 3)).
  { split; [apply Rmult_le_pos; lra|]. rewrite <- (Rmult_1_l (2 * cp / (PI * J ^ 3))) at 2. apply Rmult_le_compat_r; lra. }
  split; [|lra]. eapply Rle_trans; [apply Rmin_r|]. lra.
Qed.
Lemma passes_axial : forall k, least_axial <= fst (passes J cp sol cd k) <= 1.
Proof.
  induction k as [|k IH]; [cbn [passes fst]; split; [apply Rmin_l|lra]|]. exact (axial_range _ IH).
Qed.
Lemma passes_bounded k : 0 <= snd (passes J cp sol cd k) <= 1.
Proof.
  destruct k as [|k]; [cbn [passes snd]; lra|]. pose proof (passes_axial k) as A.
  change (snd (passes J cp sol cd (S k))) with (axial J cp sol cd (fst (passes J cp sol cd k)) * swirl J cp (fst (passes J cp sol cd k)) * profile_eff J cp sol cd (fst (passes J cp sol cd k))).
  set (e := fst (passes J cp sol cd k)) in *. pose proof (swirl_range e ltac:(lra)). pose proof (profile_range e A). pose proof (axial_range e A).
  assert (0 <= axial J cp sol cd e * swirl J cp e <= 1) by (split; [apply Rmult_le_pos; lra|replace 1 with (1 * 1) by ring; apply Rmult_le_compat; lra]).
  split; [apply Rmult_le_pos; lra|]. replace 1 with (1 * 1) by ring. apply Rmult_le_compat; lra.
Qed.
Lemma passes_regular n : regular J cp sol cd n.
Proof.
  split; [lra|]. split; [lra|]. intros j _. pose proof (passes_axial j). lra.
Qed.
(** a lower bound: what the profile drag leaves *)
Definition left_over : R := 1 - PI ^ 4 * sol * cd * glauert_bound (J / (PI * least_axial * least_swirl)) / (8 * cp).
Lemma profile_low e : least_axial <= e <= 1 -> left_over <= profile_eff J cp sol cd e.
Proof.
  intros H. pose proof PI_RGT_0 as HP. pose proof (swirl_range e ltac:(lra)) as S. unfold profile_eff, left_over.
  set (s := swirl J cp e) in *. assert (Hs : 0 < s) by lra.
  assert (Hy : 0 < J / (PI * e * s)) by (apply Rdiv_lt_0_compat; [exact HJ|apply Rmult_lt_0_compat; [apply Rmult_lt_0_compat|]; lra]).
  assert (Hy2 : J / (PI * e * s) <= J / (PI * least_axial * least_swirl)).
  { unfold Rdiv. apply Rmult_le_compat_l; [lra|]. apply Rinv_le_contravar; [apply Rmult_lt_0_compat; [apply Rmult_lt_0_compat|]; lra|].
    apply Rmult_le_compat; try lra; [apply Rlt_le, Rmult_lt_0_compat; lra|]. apply Rmult_le_compat_l; lra. }
  pose proof (glauert_bounds _ Hy) as (G1 & G2). pose proof (glauert_bound_mono _ _ (conj (Rlt_le _ _ Hy) Hy2)) as G3.
  unfold inflow. fold s. set (G := glauert_factor (atan (J / (PI * e * s)))) in *. set (B := glauert_bound (J / (PI * least_axial * least_swirl))) in *.
  assert (K0 : 0 <= PI ^ 4 * sol * cd) by (apply Rmult_le_pos; [apply Rmult_le_pos; [apply pow_le; lra|exact Hsol]|exact Hcd]).
  assert (S2 : 0 < s ^ 2 <= 1) by (split; [apply pow_lt; exact Hs|replace 1 with (1 ^ 2) by ring; apply pow_incr; lra]).
  assert (N1 : PI ^ 4 * s ^ 2 * sol * cd * G <= PI ^ 4 * sol * cd * B).
  { replace (PI ^ 4 * s ^ 2 * sol * cd * G) with (PI ^ 4 * sol * cd * (s ^ 2 * G)) by ring.
    apply Rmult_le_compat_l; [exact K0|]. apply Rle_trans with (1 * G); [apply Rmult_le_compat_r; lra|lra]. }
  assert (I : 0 < / (8 * cp)) by (apply Rinv_0_lt_compat; lra). unfold Rdiv.
  pose proof (Rmult_le_compat_r _ _ _ (Rlt_le _ _ I) N1). lra.
Qed.
Lemma passes_low k : least_axial * least_swirl * left_over <= snd (passes J cp sol cd (S k)).
Proof.
  pose proof (passes_axial k) as A.
  change (snd (passes J cp sol cd (S k))) with (axial J cp sol cd (fst (passes J cp sol cd k)) * swirl J cp (fst (passes J cp sol cd k)) * profile_eff J cp sol cd (fst (passes J cp sol cd k))).
  set (e := fst (passes J cp sol cd k)) in *. pose proof (swirl_range e ltac:(lra)). pose proof (profile_range e A). pose proof (axial_range e A). pose proof (profile_low e A).
  assert (0 <= left_over).
  { unfold left_over. assert (PI ^ 4 * sol * cd * glauert_bound (J / (PI * least_axial * least_swirl)) / (8 * cp) <= 1); [|lra].
    apply Rmult_le_reg_r with (8 * cp); [lra|]. unfold Rdiv at 1. rewrite Rmult_assoc, Rinv_l by lra. lra. }
  apply Rmult_le_compat; try lra; [apply Rmult_le_pos; lra|]. apply Rmult_le_compat; lra.
Qed.
End Bounded.
