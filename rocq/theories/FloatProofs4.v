(** The square root, and true and equivalent airspeeds, in double-precision arithmetic. *)
From Coq Require Import Reals ZArith List Lra Lia Bool.
From Coq.Floats Require Import SpecFloat.
From Verif Require Import Base BaseFacts UnitsModel FloatSpec FloatModel FloatArith FloatProofs FloatProofs2 FloatProofs3.
Open Scope R_scope.

Lemma sqrt_above a x : 0 <= a -> a * a <= x -> a <= sqrt x.
Proof. intros P H. rewrite <- (sqrt_square a P). apply sqrt_le_1_alt, H. Qed.
Lemma sqrt_below a x : 0 <= a -> x <= a * a -> sqrt x <= a.
Proof. intros P H. rewrite <- (sqrt_square a P). apply sqrt_le_1_alt, H. Qed.
Lemma sqrt_above_strict a x : 0 <= a -> a * a < x -> a < sqrt x.
Proof. intros P H. rewrite <- (sqrt_square a P). apply sqrt_lt_1_alt. split; [apply Rmult_le_pos; assumption|exact H]. Qed.
Lemma sqrt_below_strict a x : 0 <= a -> 0 <= x -> x < a * a -> sqrt x < a.
Proof. intros P Q H. rewrite <- (sqrt_square a P). apply sqrt_lt_1_alt. split; assumption. Qed.
Lemma sqrt_core m e : exists q e' l x, SFsqrt_core_binary 53 1024 (Zpos m) e = (Zpos q, e', l) /\ located x (Zpos q) l /\
  sqrt (IZR (Zpos m) * p2 e) = x * p2 e' /\ (e' <= fexp64 (Zpos (digits2_pos q) + e'))%Z.
Proof.
  unfold SFsqrt_core_binary. cbn [Zdigits2]. set (d := Zpos (digits2_pos m)). set (h := Z.div2 (d + e + 1)). set (e' := Z.min (fexp64 h) (Z.div2 e)).
  set (s := (e - 2 * e')%Z). pose proof (Z.div2_odd e) as Oe. pose proof (Z.div2_odd (d + e + 1)) as Oh. fold h in Oh.
  assert (Be : (0 <= Z.b2z (Z.odd e) <= 1)%Z) by (destruct (Z.odd e); cbn; lia). assert (Bh : (0 <= Z.b2z (Z.odd (d + e + 1)) <= 1)%Z) by (destruct (Z.odd (d + e + 1)); cbn; lia).
  assert (Dp : (1 <= d)%Z) by (unfold d; lia). assert (Sp : (0 <= s)%Z) by (unfold s, e'; lia).
  assert (M : match s with Z0 => Zpos m | Zpos _ => Z.shiftl (Zpos m) s | Zneg _ => 0%Z end = (Zpos m * 2 ^ s)%Z).
  { destruct s as [|p|p]; [lia|apply Z.shiftl_mul_pow2; lia|lia]. }
  rewrite M. set (m' := (Zpos m * 2 ^ s)%Z). assert (Pm : (0 < m')%Z) by (unfold m'; apply Z.mul_pos_pos; [lia|apply Z.pow_pos_nonneg; lia]).
  assert (Mv : sqrt (IZR (Zpos m) * p2 e) = sqrt (IZR m') * p2 e').
  { pose proof (p2_pos e') as Pe. rewrite <- (sqrt_square (p2 e')) at 1 by lra. rewrite <- sqrt_mult_alt by (apply IZR_le; lia). f_equal.
    unfold m'. rewrite mult_IZR, <- p2_Z by exact Sp. rewrite Rmult_assoc, <- !p2_add. f_equal. f_equal. unfold s. lia. }
  pose proof (Z.sqrtrem_spec m' ltac:(lia)) as Q. destruct (Z.sqrtrem m') as [q r]. destruct Q as [Q1 Q2].
  assert (Qn : (0 <= q)%Z) by lia.
  assert (K : (0 <= h - 1 - e')%Z) by (unfold e'; lia).
  assert (Ql : (2 ^ (h - 1 - e') <= q)%Z).
  { destruct (Z_le_gt_dec (2 ^ (h - 1 - e')) q) as [L|G]; [exact L|exfalso].
    assert (A : (m' < 2 ^ (h - 1 - e') * 2 ^ (h - 1 - e'))%Z). { apply Z.lt_le_trans with ((q + 1) * (q + 1))%Z; [lia|]. apply Z.mul_le_mono_nonneg; lia. }
    rewrite <- Z.pow_add_r in A by lia. destruct (digits_bounds m) as [Dm _]. fold d in Dm.
    assert (B : (2 ^ (d - 1 + s) <= m')%Z). { unfold m'. rewrite Z.pow_add_r by lia. apply Z.mul_le_mono_nonneg_r; [apply Z.pow_nonneg; lia|exact Dm]. }
    assert (C : (2 ^ (h - 1 - e' + (h - 1 - e')) <= 2 ^ (d - 1 + s))%Z) by (apply Z.pow_le_mono_r; unfold s; lia). lia. }
  assert (Qp : (0 < q)%Z) by (assert (0 < 2 ^ (h - 1 - e'))%Z by (apply Z.pow_pos_nonneg; lia); lia).
  destruct q as [|q|q]; try lia.
  exists q, e', (if Zeq_bool r 0 then loc_Exact else loc_Inexact (if Zle_bool r (Zpos q) then Lt else Gt)), (sqrt (IZR m')). split; [reflexivity|]. split; [|split; [exact Mv|]].
  - assert (Pq : 0 < IZR (Zpos q)) by (apply IZR_lt; lia). assert (E : IZR m' = IZR (Zpos q) * IZR (Zpos q) + IZR r) by (rewrite Q1, plus_IZR, mult_IZR; reflexivity).
    assert (Pr : 0 <= IZR r) by (apply IZR_le; lia). assert (Pr2 : IZR r <= 2 * IZR (Zpos q)) by (rewrite <- mult_IZR; apply IZR_le; lia).
    destruct (Zeq_bool r 0) eqn:Er.
    + apply Zeq_bool_eq in Er. subst r. cbn [located]. rewrite E, Rplus_0_r. apply sqrt_square. lra.
    + apply Zeq_bool_neq in Er. assert (Pr1 : 1 <= IZR r) by (apply IZR_le; lia). destruct (Zle_bool r (Zpos q)) eqn:Lr; cbn [located].
      * apply Zle_bool_imp_le in Lr. apply IZR_le in Lr. rewrite E. split; [apply sqrt_above_strict; lra|]. apply sqrt_below_strict; nra.
      * assert (Gr : (Zpos q + 1 <= r)%Z) by (destruct (Z.leb_spec r (Zpos q)) as [X|X]; [unfold Z.leb in *; apply Z.leb_le in X; congruence|lia]).
        apply IZR_le in Gr. rewrite plus_IZR in Gr. rewrite E. split; [apply sqrt_above_strict; nra|]. apply sqrt_below_strict; nra.
  - apply digits_ge in Ql; [|exact K]. unfold e', fexp, emin in *. lia.
Qed.
Lemma sqrt_ok x a : double x -> stands_for x a -> 0 <= a ->
  double (SFsqrt 53 1024 x) /\ exists r, stands_for (SFsqrt 53 1024 x) r /\ rounded (sqrt a) r.
Proof.
  intros D H P. destruct (stands_inv _ _ H) as [(s & -> & ->)|(s & m & e & -> & ->)].
  - cbn [SFsqrt]. split; [reflexivity|]. exists 0. split; [constructor|]. left. split; [apply sqrt_0|reflexivity].
  - assert (Pm : 0 < IZR (Zpos m) * p2 e) by (apply Rmult_lt_0_compat; [apply IZR_lt; lia|apply p2_pos]). destruct s; cbn [signed] in *; [lra|]. cbn [SFsqrt].
    destruct (sqrt_core m e) as (q & e' & l & t & -> & L & E & F). rewrite E. destruct (double_finite _ _ _ D) as (Ee & G & _). destruct (digits_R m) as [_ B].
    apply (round_signed false); [exact L|exact F|]. rewrite <- E. apply sqrt_below_strict; [left; apply p2_pos|lra|].
    rewrite <- p2_add. apply Rlt_le_trans with (p2 53 * p2 e).
    + apply Rmult_lt_compat_r; [apply p2_pos|]. apply Rlt_le_trans with (1 := B). apply p2_le. exact G.
    + rewrite <- p2_add. apply p2_le. lia.
Qed.
Lemma ieee_root : near_root (SFsqrt 53 1024).
Proof.
  intros x v D H [A B]. pose proof (p2_pos (-900)). destruct (sqrt_ok x v D H ltac:(lra)) as (D' & w & H' & Q). exists w. split; [exact D'|]. split; [exact H'|].
  assert (S1 : p2 (-450) <= sqrt v). { apply sqrt_above; [left; apply p2_pos|]. rewrite <- p2_add. exact A. }
  pose proof (p2_pos (-450)). assert (E := rounded_error _ _ Q). rewrite (Rabs_right (sqrt v)) in E by lra.
  assert (S2 : p2 (-1022) <= sqrt v) by (apply Rle_trans with (2 := S1); apply p2_le; lia). specialize (E (or_intror S2)).
  change (powerRZ 2 (-53)) with u in *. pose proof u_pos. assert (0 <= u * sqrt v) by (apply Rmult_le_pos; lra). lra.
Qed.

Lemma factor_sqrt k g : factor k g -> factor k (sqrt g).
Proof.
  intros [A B]. pose proof (w_pos k) as W. assert (W1 : (1 - u) ^ k <= 1). { apply Rle_trans with (1 ^ k); [apply pow_incr; pose proof u_pos; lra|rewrite pow1; lra]. }
  unfold factor. set (w := (1 - u) ^ k) in *. split.
  - apply sqrt_above; [lra|]. apply Rle_trans with (2 := A). nra.
  - assert (I : 1 <= / w) by (rewrite <- Rinv_1; apply Rinv_le_contravar; lra). apply sqrt_below; [lra|]. apply Rle_trans with (1 := B). nra.
Qed.
Lemma rng_sqrt n m t : (n <= 2 * m)%Z -> 0 <= t -> rng n t -> rng m (sqrt t).
Proof.
  intros L P [->|[A B]]; [left; apply sqrt_0|right]. rewrite Rabs_right in A, B by lra. rewrite Rabs_right by (apply Rle_ge, sqrt_pos). split.
  - apply sqrt_above; [left; apply p2_pos|]. rewrite <- p2_add. apply Rle_trans with (2 := A). apply p2_le. lia.
  - apply sqrt_below; [left; apply p2_pos|]. rewrite <- p2_add. apply Rle_trans with (1 := B). apply p2_le. lia.
Qed.
(** the root of the density ratio *)
Lemma ratio_root root rho d : near_root root -> double rho -> stands_for rho d -> powerRZ 2 (-60) <= d <= powerRZ 2 60 ->
  tracks (root (fdiv rho (lit 1225 3))) 5 35 (sqrt (d / 1.225)).
Proof.
  intros N D H [A B]. pose proof (p2_pos (-60)) as P.
  assert (Td : tracks rho 0 60 d). { split; [split; [exact D|exists d; split; [exact H|exists 1; split; [apply factor_0|ring]]]|]. right. rewrite Rabs_right by lra. split; [exact A|exact B]. }
  assert (Tc : tracks (lit 1225 3) 1 10 1.225) by literal.
  assert (Nc : 1.225 <> 0) by lra. assert (Tq := tracks_div _ _ _ _ _ _ _ _ Td Tc Nc ltac:(lia) ltac:(lia)). destruct Tq as [(Dq & a & Ha & (g & F & Ea)) Rq].
  assert (F2 := factor_half 2 g ltac:(lia) F). assert (Pq : 0 < d / 1.225) by (apply Rdiv_lt_0_compat; lra).
  assert (Rq' : rng 71 a). { subst a. destruct Rq as [Z|[R1 R2]]; [lra|right]. rewrite Rabs_mult, (Rabs_right g) by lra. change (-(71))%Z with (- (60 + 10) - 1)%Z. change 71%Z with (60 + 10 + 1)%Z. rewrite p2_sub, p2_add, p2_1.
    pose proof (p2_pos (- (60 + 10))). split; [apply Rle_trans with (Rabs (d / 1.225) * (1/2)); [lra|apply Rmult_le_compat_l; lra]|apply Rmult_le_compat; lra]. }
  assert (Pa : 0 < a) by (subst a; apply Rmult_lt_0_compat; lra).
  destruct (N _ a Dq Ha) as (w & Dw & Hw & Ew).
  { destruct Rq' as [Z|[R1 R2]]; [lra|]. rewrite Rabs_right in R1, R2 by lra. split; [apply Rle_trans with (2 := R1)|apply Rle_trans with (1 := R2)]; apply p2_le; lia. }
  assert (Ps : 0 < sqrt a) by (apply sqrt_lt_R0; exact Pa). pose proof u_pos as [U1 U2]. change (powerRZ 2 (-53)) with u in Ew.
  split; [|apply (rng_sqrt (60 + 10)); [lia|lra|exact Rq]]. split; [exact Dw|]. exists w. split; [exact Hw|].
  change 5%nat with (2 + 3)%nat. apply (within_trans _ _ _ (sqrt a)).
  - exists (w / sqrt a). split; [|field; lra]. apply abs_le_inv in Ew. destruct Ew as [E1 E2].
    assert (L1 : 1 - 2 * u <= w / sqrt a) by (apply (Rmult_le_reg_r (sqrt a)); [exact Ps|]; replace (w / sqrt a * sqrt a) with w by (field; lra); lra).
    assert (L2 : w / sqrt a <= 1 + 2 * u) by (apply (Rmult_le_reg_r (sqrt a)); [exact Ps|]; replace (w / sqrt a * sqrt a) with w by (field; lra); lra).
    assert (W3 : (1 - u) ^ 3 <= 1 - 2 * u) by (cbn [pow]; nra). pose proof (w_pos 3). split; [lra|].
    apply (Rmult_le_reg_r ((1 - u) ^ 3)); [assumption|]. rewrite Rinv_l by lra. apply Rle_trans with ((1 + 2 * u) * (1 - 2 * u)); [|nra]. apply Rmult_le_compat; try lra.
  - exists (sqrt g). split; [apply factor_sqrt; exact F|]. rewrite Ea. apply sqrt_mult; lra.
Qed.
Lemma airspeeds root tas v rho d : near_root root -> double tas -> stands_for tas v -> in_range v -> double rho -> stands_for rho d -> powerRZ 2 (-60) <= d <= powerRZ 2 60 ->
  (exists r, double (fl_tas2eas root tas rho) /\ stands_for (fl_tas2eas root tas rho) r /\ Rabs (r - v * sqrt (d / 1.225)) <= 6.006 * powerRZ 2 (-53) * Rabs (v * sqrt (d / 1.225))) /\
  (exists r, double (fl_eas2tas root tas rho) /\ stands_for (fl_eas2tas root tas rho) r /\ Rabs (r - v / sqrt (d / 1.225)) <= 6.006 * powerRZ 2 (-53) * Rabs (v / sqrt (d / 1.225))).
Proof.
  intros N D H I Dr Hr B. assert (Tx := tracks_self tas v D H I). assert (Ts := ratio_root root rho d N Dr Hr B).
  assert (Ps : sqrt (d / 1.225) <> 0). { assert (0 < sqrt (d / 1.225)); [|lra]. apply sqrt_lt_R0. pose proof (p2_pos (-60)). apply Rdiv_lt_0_compat; lra. }
  assert (T1 := tracks_mul _ _ _ _ _ _ _ _ Tx Ts ltac:(lia) ltac:(lia)). assert (T2 := tracks_div _ _ _ _ _ _ _ _ Tx Ts Ps ltac:(lia) ltac:(lia)).
  destruct (tracks_error _ 6 _ _ ltac:(lia) T1) as (D1 & a & Ha & Ea). destruct (tracks_error _ 6 _ _ ltac:(lia) T2) as (D2 & b & Hb & Eb). cbn [INR] in Ea, Eb. change (powerRZ 2 (-53)) with u.
  split; [exists a; split; [exact D1|]; split; [exact Ha|]; lra|exists b; split; [exact D2|]; split; [exact Hb|]; lra].
Qed.
Lemma airspeeds_back root rho d : near_root root -> double rho -> stands_for rho d -> powerRZ 2 (-60) <= d <= powerRZ 2 60 ->
  recovers (fun v => fl_tas2eas root v rho) (fun v => fl_eas2tas root v rho) 2.002 0 /\ recovers (fun v => fl_eas2tas root v rho) (fun v => fl_tas2eas root v rho) 2.002 0.
Proof.
  intros N Dr Hr B. destruct (ratio_root root rho d N Dr Hr B) as [(Dc & b & Hb & (g & F & Eb)) Rg]. unfold fl_tas2eas, fl_eas2tas. set (c := root (fdiv rho (lit 1225 3))) in *.
  assert (F2 := factor_half 5 g ltac:(lia) F). assert (Ps : 0 < sqrt (d / 1.225)) by (apply sqrt_lt_R0; pose proof (p2_pos (-60)); apply Rdiv_lt_0_compat; lra).
  assert (Nb : b <> 0) by (subst b; assert (0 < sqrt (d / 1.225) * g) by (apply Rmult_lt_0_compat; lra); lra).
  assert (Rb : rng 36 b). { subst b. destruct Rg as [Z|[R1 R2]]; [lra|right]. rewrite Rabs_mult, (Rabs_right g) by lra. change (-(36))%Z with (- (35) - 1)%Z. change 36%Z with (35 + 1)%Z. rewrite p2_sub, p2_add, p2_1.
    pose proof (p2_pos (- (35))). split; [apply Rle_trans with (Rabs (sqrt (d / 1.225)) * (1/2)); [lra|apply Rmult_le_compat_l; lra]|apply Rmult_le_compat; lra]. }
  assert (Tb : tracks c 0 36 b) by (split; [split; [exact Dc|exists b; split; [exact Hb|exists 1; split; [apply factor_0|ring]]]|exact Rb]).
  split; intros x r D H I; assert (Tx := tracks_self x r D H I).
  - assert (T1 := tracks_mul _ _ _ _ _ _ _ _ Tx Tb ltac:(lia) ltac:(lia)). assert (T2 := tracks_div _ _ _ _ _ _ _ _ T1 Tb Nb ltac:(lia) ltac:(lia)).
    destruct (tracks_error _ 2 _ _ ltac:(lia) T2) as (D' & a & Ha & E). exists a. split; [exact D'|]. split; [exact Ha|].
    replace (r * b / b) with r in E by (field; exact Nb). rewrite Rplus_0_r. cbn [INR] in E. change (powerRZ 2 (-53)) with u. lra.
  - assert (T1 := tracks_div _ _ _ _ _ _ _ _ Tx Tb Nb ltac:(lia) ltac:(lia)). assert (T2 := tracks_mul _ _ _ _ _ _ _ _ T1 Tb ltac:(lia) ltac:(lia)).
    destruct (tracks_error _ 2 _ _ ltac:(lia) T2) as (D' & a & Ha & E). exists a. split; [exact D'|]. split; [exact Ha|].
    replace (r / b * b) with r in E by (field; exact Nb). rewrite Rplus_0_r. cbn [INR] in E. change (powerRZ 2 (-53)) with u. lra.
Qed.
(** a case: the density at sea level *)
Lemma sea_level : near_root (SFsqrt 53 1024) /\ exists d, double (lit 1225 3) /\ stands_for (lit 1225 3) d /\ powerRZ 2 (-60) <= d <= powerRZ 2 60 /\ fl_tas2eas (SFsqrt 53 1024) (of_int 100) (lit 1225 3) = of_int 100.
Proof.
  split; [exact ieee_root|]. assert (T : tracks (lit 1225 3) 1 10 1.225) by literal. destruct (tracks_error _ 1 _ _ ltac:(lia) T) as (D & d & H & E). exists d. split; [exact D|]. split; [exact H|].
  split; [|vm_compute; reflexivity]. cbn [INR] in E. rewrite (Rabs_right 1.225) in E by lra. apply abs_le_inv in E. pose proof u_pos. split.
  - apply Rle_trans with (p2 0); [apply p2_le; lia|rewrite p2_0; lra].
  - apply Rle_trans with (p2 1); [rewrite p2_1; lra|apply p2_le; lia].
Qed.
