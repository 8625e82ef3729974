(** Round trips and temperatures in double-precision arithmetic. *)
From Coq Require Import Reals ZArith List Lra Lia Bool.
From Coq.Floats Require Import SpecFloat.
From Verif Require Import Base BaseFacts UnitsModel FloatSpec FloatModel FloatArith FloatProofs.
Open Scope R_scope.

(** the exact value of a literal *)
Lemma exact_value x k t : tracks x k 10 t -> (k <= 10)%nat -> t <> 0 -> exists b, tracks x 0 11 b /\ b <> 0 /\ Rabs (b - t) <= INR k * 1.001 * u * Rabs t.
Proof.
  intros [(D & b & H & W) Rg] K Nz. assert (E := within_error _ _ _ K W). destruct W as (g & G & ->). exists (t * g).
  assert (F := factor_half _ _ K G). assert (Nb : t * g <> 0) by (apply Rmult_integral_contrapositive; lra). split; [|split; assumption].
  split; [split; [exact D|exists (t * g); split; [exact H|exists 1; split; [apply factor_0|ring]]]|].
  destruct Rg as [Z|[A B]]; [contradiction|]. right. rewrite Rabs_mult, (Rabs_right g) by lra. change (-(11))%Z with (-10 - 1)%Z. change 11%Z with (10 + 1)%Z.
  rewrite p2_sub, p2_add, p2_1. pose proof (p2_pos (-10)). pose proof (Rabs_pos t). split.
  - apply Rle_trans with (Rabs t * (1/2)); [cbn [Z.opp] in A; lra|apply Rmult_le_compat_l; lra].
  - apply Rmult_le_compat; lra.
Qed.
Lemma mul_then_div c k t : tracks c k 10 t -> (k <= 10)%nat -> t <> 0 -> recovers (fun x => fmul x c) (fun x => fdiv x c) 2.002 0.
Proof.
  intros T K Nz x r D H I. destruct (exact_value _ _ _ T K Nz) as (b & Tb & Nb & _). assert (Tx := tracks_self x r D H I).
  assert (T1 := tracks_mul _ _ _ _ _ _ _ _ Tx Tb ltac:(lia) ltac:(lia)). assert (T2 := tracks_div _ _ _ _ _ _ _ _ T1 Tb Nb ltac:(lia) ltac:(lia)).
  destruct (tracks_error _ 2 _ _ ltac:(lia) T2) as (D' & a & Ha & E). exists a. split; [exact D'|]. split; [exact Ha|].
  replace (r * b / b) with r in E by (field; exact Nb). rewrite Rplus_0_r. cbn [INR] in E. fold u. pose proof (Rabs_pos r). lra.
Qed.
Lemma div_then_mul c k t : tracks c k 10 t -> (k <= 10)%nat -> t <> 0 -> recovers (fun x => fdiv x c) (fun x => fmul x c) 2.002 0.
Proof.
  intros T K Nz x r D H I. destruct (exact_value _ _ _ T K Nz) as (b & Tb & Nb & _). assert (Tx := tracks_self x r D H I).
  assert (T1 := tracks_div _ _ _ _ _ _ _ _ Tx Tb Nb ltac:(lia) ltac:(lia)). assert (T2 := tracks_mul _ _ _ _ _ _ _ _ T1 Tb ltac:(lia) ltac:(lia)).
  destruct (tracks_error _ 2 _ _ ltac:(lia) T2) as (D' & a & Ha & E). exists a. split; [exact D'|]. split; [exact Ha|].
  replace (r / b * b) with r in E by (field; exact Nb). rewrite Rplus_0_r. cbn [INR] in E. fold u. pose proof (Rabs_pos r). lra.
Qed.
Definition round_trips : list ((spec_float -> spec_float) * (spec_float -> spec_float)) :=
  [ (fl_feet2m, fl_m2feet); (fl_m22feet2, fl_feet22m2); (fl_km2m, fl_m2km); (fl_pa2mbar, fl_mbar2pa); (fl_inhg2mbar, fl_mbar2inhg);
    (fl_mbar2lbfft2, fl_lbfft22mbar); (fl_pa2lbfft2, fl_lbfft22pa); (fl_kg2n, fl_n2kg); (fl_lbs2kg, fl_kg2lbs); (fl_n2lbf, fl_lbf2n);
    (fl_kw2hp, fl_hp2kw); (fl_kgm32sft3, fl_sft32kgm3) ].
Lemma lit_trip p q c : tracks (lit p q) 1 10 c -> c <> 0 ->
  recovers (fun x => fmul x (lit p q)) (fun x => fdiv x (lit p q)) 2.002 0 /\ recovers (fun x => fdiv x (lit p q)) (fun x => fmul x (lit p q)) 2.002 0.
Proof. intros T N. split; [apply (mul_then_div _ _ _ T)|apply (div_then_mul _ _ _ T)]; [lia|exact N|lia|exact N]. Qed.
Lemma trip_km : recovers fl_km2m fl_m2km 2.002 0 /\ recovers fl_m2km fl_km2m 2.002 0.
Proof. split; [apply (mul_then_div (of_int 1000) 0 1000)|apply (div_then_mul (of_int 1000) 0 1000)]; first [apply tracks_small; lia|lia|lra]. Qed.
Lemma round_trips_close F G : In (F, G) round_trips -> recovers F G 2.002 0 /\ recovers G F 2.002 0.
Proof.
  intros H. unfold round_trips in H. cbn [In] in H.
  destruct H as [[= <- <-]|H]; [apply (lit_trip 3048 4 0.3048); [literal|lra]|].
  destruct H as [[= <- <-]|H]; [apply (lit_trip 107639 4 10.7639); [literal|lra]|].
  destruct H as [[= <- <-]|H]; [exact trip_km|].
  destruct H as [[= <- <-]|H]; [apply (lit_trip 1 2 0.01); [literal|lra]|].
  destruct H as [[= <- <-]|H]; [apply (lit_trip 338639 4 33.8639); [literal|lra]|].
  destruct H as [[= <- <-]|H]; [apply (lit_trip 208854 5 2.08854); [literal|lra]|].
  destruct H as [[= <- <-]|H]; [apply (lit_trip 20885434273039 15 0.020885434273039); [literal|lra]|].
  destruct H as [[= <- <-]|H]; [apply (lit_trip 980665 5 9.80665); [literal|lra]|].
  destruct H as [[= <- <-]|H]; [apply (lit_trip 453592 6 0.453592); [literal|lra]|].
  destruct H as [[= <- <-]|H]; [apply (lit_trip 224809 6 0.224809); [literal|lra]|].
  destruct H as [[= <- <-]|H]; [apply (lit_trip 134102 5 1.34102); [literal|lra]|].
  destruct H as [[= <- <-]|H]; [apply (lit_trip 194032 8 0.00194032); [literal|lra]|].
  destruct H.
Qed.
Lemma trip_kr : recovers fl_k2r fl_r2k 4.004 0 /\ recovers fl_r2k fl_k2r 4.004 0.
Proof.
  assert (T9 : tracks (of_int 9) 0 10 9) by (apply tracks_small; lia). assert (T5 : tracks (of_int 5) 0 10 5) by (apply tracks_small; lia).
  split; intros x r D H I; assert (Tx := tracks_self x r D H I).
  - assert (T1 := tracks_mul _ _ _ _ _ _ _ _ Tx T9 ltac:(lia) ltac:(lia)). assert (T2 := tracks_div _ _ _ _ _ _ _ _ T1 T5 ltac:(lra) ltac:(lia) ltac:(lia)).
    assert (T3 := tracks_mul _ _ _ _ _ _ _ _ T2 T5 ltac:(lia) ltac:(lia)). assert (T4 := tracks_div _ _ _ _ _ _ _ _ T3 T9 ltac:(lra) ltac:(lia) ltac:(lia)).
    destruct (tracks_error _ 4 _ _ ltac:(lia) T4) as (D' & a & Ha & E). exists a. split; [exact D'|]. split; [exact Ha|].
    replace (r * 9 / 5 * 5 / 9) with r in E by field. rewrite Rplus_0_r. cbn [INR] in E. fold u. pose proof (Rabs_pos r). lra.
  - assert (T1 := tracks_mul _ _ _ _ _ _ _ _ Tx T5 ltac:(lia) ltac:(lia)). assert (T2 := tracks_div _ _ _ _ _ _ _ _ T1 T9 ltac:(lra) ltac:(lia) ltac:(lia)).
    assert (T3 := tracks_mul _ _ _ _ _ _ _ _ T2 T9 ltac:(lia) ltac:(lia)). assert (T4 := tracks_div _ _ _ _ _ _ _ _ T3 T5 ltac:(lra) ltac:(lia) ltac:(lia)).
    destruct (tracks_error _ 4 _ _ ltac:(lia) T4) as (D' & a & Ha & E). exists a. split; [exact D'|]. split; [exact Ha|].
    replace (r * 5 / 9 * 9 / 5) with r in E by field. rewrite Rplus_0_r. cbn [INR] in E. fold u. pose proof (Rabs_pos r). lra.
Qed.

(** sums *)
Definition lower (n : Z) (r : R) : Prop := r = 0 \/ p2 n <= Rabs r.
Lemma lower_weaken m n r : (m <= n)%Z -> lower n r -> lower m r.
Proof. intros H [A|A]; [left; exact A|right]. apply Rle_trans with (p2 n); [apply p2_le, H|exact A]. Qed.
Lemma multiple n x a : double x -> stands_for x a -> lower n a -> exists A, a = IZR A * p2 (n - 53).
Proof.
  intros D H L. destruct (stands_inv _ _ H) as [(s & -> & ->)|(s & m & e & -> & ->)]; [exists 0%Z; ring|].
  destruct (double_finite _ _ _ D) as (_ & G & _). destruct (digits_R m) as [_ B]. pose proof (p2_pos e) as Pe.
  assert (B' : IZR (Zpos m) < p2 53) by (apply Rlt_le_trans with (1 := B); apply p2_le; exact G).
  assert (Pm : 0 < IZR (Zpos m)) by (apply IZR_lt; lia).
  assert (K : (n < 53 + e)%Z).
  { apply p2_lt_inv. rewrite p2_add. destruct L as [Z|L].
    - destruct s; cbn [signed] in Z; nra.
    - rewrite signed_abs in L by nra. apply Rle_lt_trans with (1 := L). apply Rmult_lt_compat_r; assumption. }
  exists (cond_Zopp s (Zpos m * 2 ^ (e - (n - 53)))).
  assert (V : IZR (Zpos m * 2 ^ (e - (n - 53))) * p2 (n - 53) = IZR (Zpos m) * p2 e).
  { rewrite mult_IZR, <- p2_Z by lia. rewrite Rmult_assoc, <- p2_add. do 2 f_equal. lia. }
  destruct s; cbn [cond_Zopp signed]; rewrite ?opp_IZR; rewrite <- V; ring.
Qed.
Lemma multiple_lower n A : lower n (IZR A * p2 n).
Proof.
  destruct (Z.eq_dec A 0) as [->|N]; [left; ring|right]. rewrite Rabs_mult. pose proof (p2_pos n). rewrite (Rabs_right (p2 n)) by lra.
  rewrite <- abs_IZR. assert (1 <= IZR (Z.abs A)) by (apply IZR_le; lia). nra.
Qed.
Lemma rounded_size v r n : Rabs (r - v) <= u * Rabs v -> lower n v -> lower (n - 1) r.
Proof.
  intros E [->|L].
  - left. rewrite Rabs_R0, Rmult_0_r, Rminus_0_r in E. destruct (Req_dec r 0) as [Z|Z]; [exact Z|]. apply Rabs_pos_lt in Z. lra.
  - right. rewrite p2_sub, p2_1. pose proof u_pos. pose proof (Rabs_triang_inv v (v - r)). replace (v - (v - r)) with r in * by ring.
    rewrite <- (Rabs_Ropp (r - v)) in E. replace (- (r - v)) with (v - r) in E by ring. pose proof (p2_pos n). nra.
Qed.
Lemma abs_round v r : Rabs (r - v) <= u * Rabs v -> Rabs r <= 2 * Rabs v.
Proof. intros E. pose proof u_pos. pose proof (Rabs_triang (r - v) v). replace (r - v + v) with r in * by ring. pose proof (Rabs_pos v). nra. Qed.
Lemma double_p2 n : 2 * p2 n = p2 (n + 1). Proof. rewrite p2_add, p2_1. ring. Qed.

Lemma add_step n x y a b : double x -> double y -> stands_for x a -> stands_for y b -> lower n a -> lower n b -> Rabs a <= p2 960 -> Rabs b <= p2 960 ->
  exists s, double (fadd x y) /\ stands_for (fadd x y) s /\ Rabs (s - (a + b)) <= u * Rabs (a + b) /\ lower (n - 54) s /\ Rabs s <= p2 962.
Proof.
  intros Dx Dy Hx Hy La Lb Ua Ub. assert (T : Rabs (a + b) <= p2 961).
  { apply Rle_trans with (1 := Rabs_triang a b). change 961%Z with (960 + 1)%Z. rewrite <- double_p2. lra. }
  destruct (add_ok x y a b Dx Dy Hx Hy) as (D & s & H & _ & E). { apply Rle_lt_trans with (1 := T). apply p2_lt. lia. }
  exists s. split; [exact D|]. split; [exact H|]. split; [exact E|]. split.
  - replace (n - 54)%Z with (n - 53 - 1)%Z by lia. apply (rounded_size _ _ _ E). destruct (multiple _ _ _ Dx Hx La) as (A & ->). destruct (multiple _ _ _ Dy Hy Lb) as (B & ->).
    rewrite <- Rmult_plus_distr_r, <- plus_IZR. apply multiple_lower.
  - apply abs_round in E. change 962%Z with (961 + 1)%Z. rewrite <- double_p2. lra.
Qed.
Lemma sub_step n x y a b : double x -> double y -> stands_for x a -> stands_for y b -> lower n a -> lower n b -> Rabs a <= p2 960 -> Rabs b <= p2 960 ->
  exists s, double (fsub x y) /\ stands_for (fsub x y) s /\ Rabs (s - (a - b)) <= u * Rabs (a - b) /\ lower (n - 54) s /\ Rabs s <= p2 962.
Proof.
  intros Dx Dy Hx Hy La Lb Ua Ub. assert (T : Rabs (a - b) <= p2 961).
  { apply Rle_trans with (1 := Rabs_triang a (- b)). rewrite Rabs_Ropp. change 961%Z with (960 + 1)%Z. rewrite <- double_p2. lra. }
  destruct (sub_ok x y a b Dx Dy Hx Hy) as (D & s & H & _ & E). { apply Rle_lt_trans with (1 := T). apply p2_lt. lia. }
  exists s. split; [exact D|]. split; [exact H|]. split; [exact E|]. split.
  - replace (n - 54)%Z with (n - 53 - 1)%Z by lia. apply (rounded_size _ _ _ E). destruct (multiple _ _ _ Dx Hx La) as (A & ->). destruct (multiple _ _ _ Dy Hy Lb) as (B & ->).
    rewrite <- Rmult_minus_distr_r, <- minus_IZR. apply multiple_lower.
  - apply abs_round in E. change 962%Z with (961 + 1)%Z. rewrite <- double_p2. lra.
Qed.

(** the constants of the temperature scales *)
Lemma const_value p q c : tracks (lit p q) 1 10 c -> 0 < c -> exists b, double (lit p q) /\ stands_for (lit p q) b /\ Rabs (b - c) <= 1.001 * u * c /\ lower (-20) b /\ Rabs b <= p2 960.
Proof.
  intros T Pc. destruct (exact_value _ _ _ T ltac:(lia) ltac:(lra)) as (b & [(D & b' & H & (g & F & Eb)) Rg] & Nb & E).
  assert (b' = b). { rewrite Eb. destruct F as [F1 F2]. cbn in F1, F2. assert (g = 1) by lra. subst g. ring. } clear Eb. subst b'.
  exists b. split; [exact D|]. split; [exact H|]. rewrite (Rabs_right c) in E by lra. cbn [INR] in E. split; [lra|].
  destruct Rg as [Z|[A B]]; [contradiction|]. split.
  - apply (lower_weaken _ (-11)); [lia|]. right. exact A.
  - apply Rle_trans with (1 := B). apply p2_le. lia.
Qed.
Lemma in_range_bounds r : in_range r -> lower (-800) r /\ Rabs r <= p2 960.
Proof.
  intros [->|[A B]].
  - split; [left; reflexivity|]. rewrite Rabs_R0. left. apply p2_pos.
  - split; [right; exact A|]. apply Rle_trans with (1 := B). apply p2_le. lia.
Qed.
Lemma lit_27315 : tracks (lit 27315 2) 1 10 273.15. Proof. literal. Qed.
Lemma lit_49167 : tracks (lit 49167 2) 1 10 491.67. Proof. literal. Qed.

Lemma two_errors e e1 e2 B A {c} : e <= e1 + e2 -> e1 <= u * B -> e2 <= 1.001 * u * c -> B <= A + 1.001 * u * c -> 0 <= A -> 0 < c -> e <= 1.01 * u * (A + c).
Proof.
  intros H H1 H2 HB HA Hc. pose proof u_pos as [U1 U2].
  assert (u * B <= u * (A + 1.001 * u * c)) by (apply Rmult_le_compat_l; lra).
  assert (0 <= u * A) by (apply Rmult_le_pos; lra). assert (P : 0 < u * c) by (apply Rmult_lt_0_compat; lra).
  assert (u * (u * c) <= 1/1000000000000000 * (u * c)) by (apply Rmult_le_compat_r; lra). lra.
Qed.
(** after the offset, a product and a quotient *)
Lemma scaled_errors k s t y c : 0 < k -> 0 < c -> Rabs (s - t) <= 1.01 * u * (Rabs t + c) -> Rabs (y - s * k) <= 2.002 * u * Rabs (s * k) ->
  Rabs (y - t * k) <= 3.1 * u * (Rabs (t * k) + c * k).
Proof.
  intros Pk Pc E1 E2. rewrite Rabs_mult in E2 |- *. rewrite (Rabs_right k) in E2 |- * by lra.
  pose proof (Rabs_triang (y - s * k) ((s - t) * k)) as T1. replace (y - s * k + (s - t) * k) with (y - t * k) in T1 by ring.
  rewrite (Rabs_mult (s - t)), (Rabs_right k) in T1 by lra. pose proof u_pos as [U1 U2].
  pose proof (Rabs_triang t (s - t)) as T2. replace (t + (s - t)) with s in T2 by ring. pose proof (Rabs_pos t) as Pt.
  set (A := (Rabs t + c) * k) in *. assert (PA : 0 < A) by (unfold A; apply Rmult_lt_0_compat; lra).
  assert (F1 : Rabs (s - t) * k <= 1.01 * u * A) by (unfold A; rewrite <- Rmult_assoc; apply Rmult_le_compat_r; lra).
  assert (F2 : Rabs s * k <= A + 1.01 * u * A).
  { apply Rle_trans with ((Rabs t + Rabs (s - t)) * k); [apply Rmult_le_compat_r; lra|]. rewrite Rmult_plus_distr_r. apply Rplus_le_compat; [|exact F1]. unfold A. apply Rmult_le_compat_r; lra. }
  assert (F3 : 2.002 * u * (Rabs s * k) <= 2.002 * u * (A + 1.01 * u * A)) by (apply Rmult_le_compat_l; lra).
  replace (Rabs t * k + c * k) with A by (unfold A; ring). assert (P : 0 < u * A) by (apply Rmult_lt_0_compat; lra).
  assert (u * (u * A) <= 1/1000000000000000 * (u * A)) by (apply Rmult_le_compat_r; lra). lra.
Qed.

(** x + c and x - c, for values that may themselves come from a conversion *)
Lemma offset_add p q c n x r : tracks (lit p q) 1 10 c -> 0 < c -> (n <= -20)%Z -> double x -> stands_for x r -> lower n r -> Rabs r <= p2 960 ->
  exists s, double (fadd x (lit p q)) /\ stands_for (fadd x (lit p q)) s /\ lower (n - 54) s /\ Rabs s <= p2 962 /\ Rabs (s - (r + c)) <= 1.01 * u * (Rabs (r + c) + c).
Proof.
  intros T Pc N D H L U. destruct (const_value p q c T Pc) as (b & Db & Hb & Eb & Lb & Ub).
  destruct (add_step n x (lit p q) r b D Db H Hb L (lower_weaken _ _ _ N Lb) U Ub) as (s & Ds & Hs & Es & Ls & Us).
  exists s. split; [exact Ds|]. split; [exact Hs|]. split; [exact Ls|]. split; [exact Us|]. pose proof u_pos.
  pose proof (Rabs_triang (s - (r + b)) (b - c)) as T1. replace (s - (r + b) + (b - c)) with (s - (r + c)) in T1 by ring.
  pose proof (Rabs_triang (r + c) (b - c)) as T2. replace (r + c + (b - c)) with (r + b) in T2 by ring. pose proof (Rabs_pos (r + c)).
  assert (HB : Rabs (r + b) <= Rabs (r + c) + 1.001 * u * c) by lra. apply (two_errors _ _ _ _ _ T1 Es Eb HB); assumption.
Qed.
Lemma offset_sub p q c n x r : tracks (lit p q) 1 10 c -> 0 < c -> (n <= -20)%Z -> double x -> stands_for x r -> lower n r -> Rabs r <= p2 960 ->
  exists s, double (fsub x (lit p q)) /\ stands_for (fsub x (lit p q)) s /\ lower (n - 54) s /\ Rabs s <= p2 962 /\ Rabs (s - (r - c)) <= 1.01 * u * (Rabs (r - c) + c).
Proof.
  intros T Pc N D H L U. destruct (const_value p q c T Pc) as (b & Db & Hb & Eb & Lb & Ub).
  destruct (sub_step n x (lit p q) r b D Db H Hb L (lower_weaken _ _ _ N Lb) U Ub) as (s & Ds & Hs & Es & Ls & Us).
  exists s. split; [exact Ds|]. split; [exact Hs|]. split; [exact Ls|]. split; [exact Us|]. pose proof u_pos.
  rewrite <- (Rabs_Ropp (b - c)) in Eb. pose proof (Rabs_triang (s - (r - b)) (- (b - c))) as T1. replace (s - (r - b) + - (b - c)) with (s - (r - c)) in T1 by ring.
  pose proof (Rabs_triang (r - c) (- (b - c))) as T2. replace (r - c + - (b - c)) with (r - b) in T2 by ring. pose proof (Rabs_pos (r - c)).
  assert (HB : Rabs (r - b) <= Rabs (r - c) + 1.001 * u * c) by lra. apply (two_errors _ _ _ _ _ T1 Es Eb HB); assumption.
Qed.
(** s * a / b *)
Lemma ratio a b n x s : (1 <= a <= 1024)%Z -> (1 <= b <= 1024)%Z -> (-960 <= n)%Z -> double x -> stands_for x s -> lower n s -> Rabs s <= p2 962 ->
  exists y, double (fdiv (fmul x (of_int a)) (of_int b)) /\ stands_for (fdiv (fmul x (of_int a)) (of_int b)) y /\
    Rabs (y - s * IZR a / IZR b) <= 2.002 * u * Rabs (s * IZR a / IZR b) /\ lower (n - 11) y.
Proof.
  intros Ha Hb N D H L U.
  assert (Tx : tracks x 0 962 s).
  { split; [split; [exact D|exists s; split; [exact H|exists 1; split; [apply factor_0|ring]]]|]. destruct L as [Z|L]; [left; exact Z|right]. split; [|exact U].
    apply Rle_trans with (2 := L). apply p2_le. lia. }
  assert (Nb : IZR b <> 0) by (apply not_0_IZR; lia).
  assert (T1 := tracks_mul _ _ _ _ _ _ _ _ Tx (tracks_small a Ha) ltac:(lia) ltac:(lia)).
  assert (T2 := tracks_div _ _ _ _ _ _ _ _ T1 (tracks_small b Hb) Nb ltac:(lia) ltac:(lia)).
  destruct (tracks_error _ 2 _ _ ltac:(lia) T2) as (D' & y & Hy & E). exists y. split; [exact D'|]. split; [exact Hy|]. cbn [INR] in E. split; [lra|].
  destruct L as [->|L].
  - left. unfold Rdiv in E. rewrite !Rmult_0_l, Rabs_R0, Rmult_0_r, Rminus_0_r in E. destruct (Req_dec y 0) as [Z|Z]; [exact Z|]. apply Rabs_pos_lt in Z. lra.
  - right. replace (s * IZR a / IZR b) with (s * (IZR a / IZR b)) in E by (field; exact Nb). set (v := s * (IZR a / IZR b)) in *.
    assert (K : p2 (n - 10) <= Rabs v).
    { unfold v. rewrite Rabs_mult, p2_sub. assert (Pa : 1 <= IZR a) by (apply IZR_le; lia). assert (Pb : 1 <= IZR b) by (apply IZR_le; lia). assert (Pb' : IZR b <= 1024) by (apply IZR_le; lia).
      assert (Q : 1 / 1024 <= IZR a / IZR b). { unfold Rdiv. apply Rmult_le_compat; try lra. apply Rinv_le_contravar; lra. }
      rewrite (Rabs_right (IZR a / IZR b)) by lra. unfold Rdiv at 1. replace (/ p2 10) with (1/1024) by (rewrite p2_Z by lia; cbn [Z.pow Z.pow_pos Pos.iter Z.mul Pos.mul]; lra).
      pose proof (p2_pos n). apply Rmult_le_compat; lra. }
    pose proof u_pos as [U1 U2]. pose proof (Rabs_triang_inv v (v - y)) as T3. replace (v - (v - y)) with y in T3 by ring.
    rewrite <- (Rabs_Ropp (y - v)) in E. replace (- (y - v)) with (v - y) in E by ring. pose proof (p2_pos (n - 10)).
    replace (n - 11)%Z with (n - 10 - 1)%Z by lia. rewrite p2_sub, p2_1.
    assert (u * Rabs v <= 1/1000000000000000 * Rabs v) by (apply Rmult_le_compat_r; lra). lra.
Qed.

Lemma acc_c2k : computes fl_c2k c2k 1.01 273.15.
Proof.
  intros x r D H I. destruct (in_range_bounds r I) as [L U].
  destruct (offset_add 27315 2 273.15 (-800) x r lit_27315 ltac:(lra) ltac:(lia) D H L U) as (s & Ds & Hs & _ & _ & E).
  exists s, (r + 273.15). split; [exact Ds|]. split; [exact Hs|]. split; [reflexivity|exact E].
Qed.
Lemma acc_k2c : computes fl_k2c k2c 1.01 273.15.
Proof.
  intros x r D H I. destruct (in_range_bounds r I) as [L U].
  destruct (offset_sub 27315 2 273.15 (-800) x r lit_27315 ltac:(lra) ltac:(lia) D H L U) as (s & Ds & Hs & _ & _ & E).
  exists s, (r - 273.15). split; [exact Ds|]. split; [exact Hs|]. split; [reflexivity|exact E].
Qed.
(** the wider versions, used for round trips *)
Lemma wide_c2r n x r : (-900 <= n <= -20)%Z -> double x -> stands_for x r -> lower n r -> Rabs r <= p2 960 ->
  exists y, double (fl_c2r x) /\ stands_for (fl_c2r x) y /\ Rabs (y - (r + 273.15) * 9 / 5) <= 3.1 * u * (Rabs ((r + 273.15) * 9 / 5) + 491.67) /\ lower (n - 65) y.
Proof.
  intros N D H L U. destruct (offset_add 27315 2 273.15 n x r lit_27315 ltac:(lra) (proj2 N) D H L U) as (s & Ds & Hs & Ls & Us & E).
  destruct (ratio 9 5 (n - 54) _ s ltac:(lia) ltac:(lia) ltac:(lia) Ds Hs Ls Us) as (y & Dy & Hy & Ey & Ly).
  exists y. split; [exact Dy|]. split; [exact Hy|]. split; [|replace (n - 65)%Z with (n - 54 - 11)%Z by lia; exact Ly]. set (t := r + 273.15) in *.
  replace (s * 9 / 5) with (s * (9/5)) in Ey by field. replace (t * 9 / 5) with (t * (9/5)) by field. replace 491.67 with (273.15 * (9/5)) by lra. apply (scaled_errors _ s); try assumption; lra.
Qed.
Lemma wide_r2c n x r : (-900 <= n <= -20)%Z -> double x -> stands_for x r -> lower n r -> Rabs r <= p2 960 ->
  exists y, double (fl_r2c x) /\ stands_for (fl_r2c x) y /\ Rabs (y - (r - 491.67) * 5 / 9) <= 3.1 * u * (Rabs ((r - 491.67) * 5 / 9) + 273.15) /\ lower (n - 65) y.
Proof.
  intros N D H L U. destruct (offset_sub 49167 2 491.67 n x r lit_49167 ltac:(lra) (proj2 N) D H L U) as (s & Ds & Hs & Ls & Us & E).
  destruct (ratio 5 9 (n - 54) _ s ltac:(lia) ltac:(lia) ltac:(lia) Ds Hs Ls Us) as (y & Dy & Hy & Ey & Ly).
  exists y. split; [exact Dy|]. split; [exact Hy|]. split; [|replace (n - 65)%Z with (n - 54 - 11)%Z by lia; exact Ly]. set (t := r - 491.67) in *.
  replace (s * 5 / 9) with (s * (5/9)) in Ey by field. replace (t * 5 / 9) with (t * (5/9)) by field. replace 273.15 with (491.67 * (5/9)) by lra. apply (scaled_errors _ s); try assumption; lra.
Qed.

Lemma acc_c2r : computes fl_c2r c2r 3.1 491.67.
Proof.
  intros x r D H I. destruct (in_range_bounds r I) as [L U]. destruct (wide_c2r (-800) x r ltac:(lia) D H L U) as (y & Dy & Hy & E & _).
  exists y, ((r + 273.15) * 9 / 5). split; [exact Dy|]. split; [exact Hy|]. split; [|exact E]. unfold c2r. rewrite nadd_fin, nmul_fin. apply ndiv_fin. lra.
Qed.
Lemma acc_r2c : computes fl_r2c r2c 3.1 273.15.
Proof.
  intros x r D H I. destruct (in_range_bounds r I) as [L U]. destruct (wide_r2c (-800) x r ltac:(lia) D H L U) as (y & Dy & Hy & E & _).
  exists y, ((r - 491.67) * 5 / 9). split; [exact Dy|]. split; [exact Hy|]. split; [|exact E]. unfold r2c. rewrite nsub_fin, nmul_fin. apply ndiv_fin. lra.
Qed.
Lemma acc_c2f : computes fl_c2f c2f 3.1 32.
Proof.
  intros x r D H I. destruct (in_range_bounds r I) as [L U].
  destruct (ratio 9 5 (-800) x r ltac:(lia) ltac:(lia) ltac:(lia) D H L) as (y & Dy & Hy & Ey & _). { apply Rle_trans with (1 := U). apply p2_le. lia. }
  assert (T32 := tracks_small 32 ltac:(lia)). destruct T32 as [(D32 & b & H32 & (g & F & Eb)) _].
  assert (Hb : b = 32). { destruct F as [F1 F2]. cbn in F1, F2. assert (g = 1) by lra. subst g. rewrite Eb. ring. } clear Eb. subst b.
  set (t := r * 9 / 5) in *. pose proof u_pos as [U1 U2]. pose proof (Rabs_pos t) as Pt.
  assert (B : Rabs y <= 2 * Rabs t).
  { pose proof (Rabs_triang (y - t) t) as T. replace (y - t + t) with y in T by ring. assert (u * Rabs t <= 1/1000000000000000 * Rabs t) by (apply Rmult_le_compat_r; lra). lra. }
  assert (Bt : Rabs t <= 2 * p2 960).
  { unfold t. replace (r * 9 / 5) with (r * (9/5)) by field. rewrite Rabs_mult, (Rabs_right (9/5)) by lra. pose proof (p2_pos 960). lra. }
  destruct (add_ok (fdiv (fmul x (of_int 9)) (of_int 5)) (of_int 32) y 32 Dy D32 Hy H32) as (Ds & s & Hs & _ & Es).
  { apply Rle_lt_trans with (p2 963).
    - apply Rle_trans with (1 := Rabs_triang y 32). rewrite (Rabs_right 32) by lra. assert (32 <= p2 960) by (replace 32 with (p2 5) by (rewrite p2_Z by lia; reflexivity); apply p2_le; lia).
      change 963%Z with (960 + 3)%Z. rewrite p2_add. replace (p2 3) with 8 by (rewrite p2_Z by lia; reflexivity). pose proof (p2_pos 960). lra.
    - apply p2_lt. lia. }
  exists s, (t + 32). split; [exact Ds|]. split; [exact Hs|]. split.
  { unfold c2f. rewrite nmul_fin, ndiv_fin by lra. reflexivity. }
  pose proof (Rabs_triang (s - (y + 32)) (y - t)) as T1. replace (s - (y + 32) + (y - t)) with (s - (t + 32)) in T1 by ring.
  pose proof (Rabs_triang (t + 32) (y - t)) as T2. replace (t + 32 + (y - t)) with (y + 32) in T2 by ring.
  pose proof (Rabs_triang (t + 32) (- 32)) as T3. replace (t + 32 + - 32) with t in T3 by ring. rewrite (Rabs_left (-32)) in T3 by lra.
  set (A := Rabs (t + 32)) in *. assert (0 <= A) by apply Rabs_pos.
  assert (F1 : u * Rabs (y + 32) <= u * (A + Rabs (y - t))) by (apply Rmult_le_compat_l; lra).
  assert (F2 : u * Rabs t <= u * (A + 32)) by (apply Rmult_le_compat_l; lra).
  assert (0 < u * (A + 32)) by (apply Rmult_lt_0_compat; lra).
  assert (F3 : u * Rabs (y - t) <= 1/1000000000000000 * (2.002 * (u * (A + 32)))).
  { apply Rle_trans with (u * (2.002 * (u * (A + 32)))); [apply Rmult_le_compat_l; lra|apply Rmult_le_compat_r; lra]. }
  change (Rabs (s - (y + 32)) <= u * Rabs (y + 32)) in Es. change (Rabs (s - (t + 32)) <= 3.1 * u * (A + 32)). assert (0 <= u * A) by (apply Rmult_le_pos; lra). lra.
Qed.

(** there and back *)
Lemma there_and_back s w r b : 0 <= b -> Rabs (s - (r + b)) <= u * Rabs (r + b) -> Rabs (w - (s - b)) <= u * Rabs (s - b) -> Rabs (w - r) <= 2.05 * u * (Rabs r + b).
Proof.
  intros Pb E1 E2. pose proof u_pos as [U1 U2].
  pose proof (Rabs_triang r b) as T1. rewrite (Rabs_right b) in T1 by lra.
  pose proof (Rabs_triang (w - (s - b)) (s - (r + b))) as T2. replace (w - (s - b) + (s - (r + b))) with (w - r) in T2 by ring.
  pose proof (Rabs_triang r (s - (r + b))) as T3. replace (r + (s - (r + b))) with (s - b) in T3 by ring.
  set (A := Rabs r + b) in *. pose proof (Rabs_pos r). assert (0 <= A) by (unfold A; lra).
  assert (F1 : u * Rabs (r + b) <= u * A) by (apply Rmult_le_compat_l; lra).
  assert (F2 : u * Rabs (s - b) <= u * (A + u * A)) by (apply Rmult_le_compat_l; [lra|]; unfold A in *; lra).
  assert (0 <= u * A) by (apply Rmult_le_pos; lra).
  assert (u * (u * A) <= 1/1000000000000000 * (u * A)) by (apply Rmult_le_compat_r; lra). lra.
Qed.
Lemma there_and_back' s w r b : 0 <= b -> Rabs (s - (r - b)) <= u * Rabs (r - b) -> Rabs (w - (s + b)) <= u * Rabs (s + b) -> Rabs (w - r) <= 2.05 * u * (Rabs r + b).
Proof.
  intros Pb E1 E2. rewrite <- (Rabs_Ropp (w - r)), <- (Rabs_Ropp r). replace (- (w - r)) with ((- w) - (- r)) by ring.
  apply (there_and_back (- s)); [exact Pb| |].
  - replace (- s - (- r + b)) with (- (s - (r - b))) by ring. replace (- r + b) with (- (r - b)) by ring. rewrite !Rabs_Ropp. exact E1.
  - replace (- w - (- s - b)) with (- (w - (s + b))) by ring. replace (- s - b) with (- (s + b)) by ring. rewrite !Rabs_Ropp. exact E2.
Qed.
Lemma trip_ck : recovers fl_c2k fl_k2c 2.1 273.15 /\ recovers fl_k2c fl_c2k 2.1 273.15.
Proof.
  destruct (const_value 27315 2 273.15 lit_27315 ltac:(lra)) as (b & Db & Hb & Eb & Lb & Ub).
  pose proof u_pos as [U1 U2]. apply abs_le_inv in Eb. assert (Pb : 0 <= b <= 1.001 * 273.15) by (assert (1.001 * u * 273.15 <= 1.001 * (1/1000000000000000) * 273.15) by lra; lra).
  assert (K : forall r e, e <= 2.05 * u * (Rabs r + b) -> e <= 2.1 * u * (Rabs r + 273.15)).
  { intros r e E. pose proof (Rabs_pos r). assert (0 <= u * Rabs r) by (apply Rmult_le_pos; lra). assert (u * b <= u * (1.001 * 273.15)) by (apply Rmult_le_compat_l; lra). lra. }
  split; intros x r D H I; destruct (in_range_bounds r I) as [L U].
  - destruct (add_step (-800) x _ r b D Db H Hb L (lower_weaken (-800) (-20) b ltac:(lia) Lb) U Ub) as (s & Ds & Hs & Es & Ls & Us).
    assert (Us' : Rabs s <= p2 960).
    { apply abs_round in Es. apply Rle_trans with (1 := Es). apply Rle_trans with (2 * (p2 800 + p2 800)).
      - apply Rmult_le_compat_l; [lra|]. apply Rle_trans with (1 := Rabs_triang r b). apply Rplus_le_compat.
        + destruct I as [->|[_ I]]; [rewrite Rabs_R0; left; apply p2_pos|exact I].
        + rewrite Rabs_right by lra. apply Rle_trans with (p2 10); [|apply p2_le; lia]. rewrite p2_Z by lia. cbn [Z.pow Z.pow_pos Pos.iter Z.mul Pos.mul]. lra.
      - replace (2 * (p2 800 + p2 800)) with (2 * (2 * p2 800)) by ring. rewrite !double_p2. apply p2_le. lia. }
    destruct (sub_step (-860) _ _ s b Ds Db Hs Hb (lower_weaken (-860) (-854) s ltac:(lia) Ls) (lower_weaken (-860) (-20) b ltac:(lia) Lb) Us' Ub) as (w & Dw & Hw & Ew & _).
    exists w. split; [exact Dw|]. split; [exact Hw|]. apply K. apply (there_and_back s); [lra|exact Es|exact Ew].
  - destruct (sub_step (-800) x _ r b D Db H Hb L (lower_weaken (-800) (-20) b ltac:(lia) Lb) U Ub) as (s & Ds & Hs & Es & Ls & Us).
    assert (Us' : Rabs s <= p2 960).
    { apply abs_round in Es. apply Rle_trans with (1 := Es). apply Rle_trans with (2 * (p2 800 + p2 800)).
      - apply Rmult_le_compat_l; [lra|]. apply Rle_trans with (1 := Rabs_triang r (- b)). rewrite Rabs_Ropp. apply Rplus_le_compat.
        + destruct I as [->|[_ I]]; [rewrite Rabs_R0; left; apply p2_pos|exact I].
        + rewrite Rabs_right by lra. apply Rle_trans with (p2 10); [|apply p2_le; lia]. rewrite p2_Z by lia. cbn [Z.pow Z.pow_pos Pos.iter Z.mul Pos.mul]. lra.
      - replace (2 * (p2 800 + p2 800)) with (2 * (2 * p2 800)) by ring. rewrite !double_p2. apply p2_le. lia. }
    destruct (add_step (-860) _ _ s b Ds Db Hs Hb (lower_weaken (-860) (-854) s ltac:(lia) Ls) (lower_weaken (-860) (-20) b ltac:(lia) Lb) Us' Ub) as (w & Dw & Hw & Ew & _).
    exists w. split; [exact Dw|]. split; [exact Hw|]. apply K. apply (there_and_back' s); [lra|exact Es|exact Ew].
Qed.

Lemma affine_back k c y w r : 0 < k -> 0 < c -> let T := (r + c) * k in
  Rabs (y - T) <= 3.1 * u * (Rabs T + c * k) -> Rabs (w - (y / k - c)) <= 3.1 * u * (Rabs (y / k - c) + c) ->
  Rabs (w - r) <= 9.4 * u * (Rabs r + c).
Proof.
  intros Pk Pc T E1 E2. pose proof u_pos as [U1 U2]. unfold T in E1. clear T.
  assert (E3 : Rabs (y / k - c - r) <= 3.1 * u * (Rabs (r + c) + c)).
  { replace (y / k - c - r) with ((y - (r + c) * k) * / k) by (field; lra). rewrite Rabs_mult, (Rabs_right (/ k)) by (left; apply Rinv_0_lt_compat; exact Pk).
    rewrite (Rabs_mult (r + c)), (Rabs_right k) in E1 by lra. apply (Rmult_le_reg_r k); [exact Pk|]. rewrite Rmult_assoc, Rinv_l, Rmult_1_r by lra.
    apply Rle_trans with (1 := E1). right. ring. }
  set (z := y / k - c) in *. pose proof (Rabs_triang r c) as T1. rewrite (Rabs_right c) in T1 by lra. pose proof (Rabs_pos r) as Pr.
  pose proof (Rabs_triang (w - z) (z - r)) as T2. replace (w - z + (z - r)) with (w - r) in T2 by ring.
  pose proof (Rabs_triang r (z - r)) as T3. replace (r + (z - r)) with z in T3 by ring.
  set (A := Rabs r + c) in *. assert (PA : 0 < A) by (unfold A; lra). assert (P : 0 < u * A) by (apply Rmult_lt_0_compat; lra).
  assert (F1 : Rabs (z - r) <= 6.2 * (u * A)).
  { apply Rle_trans with (1 := E3). replace (6.2 * (u * A)) with (3.1 * u * (2 * A)) by lra. apply Rmult_le_compat_l; unfold A in *; lra. }
  assert (F2 : u * (Rabs z + c) <= u * (A + 6.2 * (u * A))) by (apply Rmult_le_compat_l; unfold A in *; lra).
  assert (u * (u * A) <= 1/1000000000000000 * (u * A)) by (apply Rmult_le_compat_r; lra). lra.
Qed.
Lemma bounded_result y T c : Rabs (y - T) <= 3.1 * u * (Rabs T + c) -> 0 <= c -> Rabs y <= 2 * (Rabs T + c).
Proof.
  intros E Pc. pose proof u_pos as [U1 U2]. pose proof (Rabs_triang (y - T) T) as T2. replace (y - T + T) with y in T2 by ring. pose proof (Rabs_pos T).
  assert (u * (Rabs T + c) <= 1/1000000000000000 * (Rabs T + c)) by (apply Rmult_le_compat_r; lra). lra.
Qed.
Lemma p2_big : p2 800 + 1000 <= p2 801.
Proof.
  change 801%Z with (800 + 1)%Z. rewrite <- double_p2. assert (1000 <= p2 800); [|lra]. apply Rle_trans with (p2 10); [|apply p2_le; lia].
  rewrite p2_Z by lia. cbn [Z.pow Z.pow_pos Pos.iter Z.mul Pos.mul]. lra.
Qed.
Lemma in_range_800 r : in_range r -> Rabs r <= p2 800.
Proof. intros [->|[_ I]]; [rewrite Rabs_R0; left; apply p2_pos|exact I]. Qed.
Lemma trip_cr : recovers fl_c2r fl_r2c 9.4 273.15 /\ recovers fl_r2c fl_c2r 9.4 491.67.
Proof.
  assert (B16 : 16 * p2 801 <= p2 960). { replace 16 with (p2 4) by (rewrite p2_Z by lia; reflexivity). rewrite <- p2_add. apply p2_le. lia. }
  pose proof p2_big as Big. pose proof (p2_pos 801) as P801.
  split; intros x r D H I; destruct (in_range_bounds r I) as [L U]; pose proof (in_range_800 r I) as I8.
  - destruct (wide_c2r (-800) x r ltac:(lia) D H L U) as (y & Dy & Hy & Ey & Ly).
    assert (Uy : Rabs y <= p2 960).
    { apply Rle_trans with (1 := bounded_result _ _ _ Ey ltac:(lra)). replace ((r + 273.15) * 9 / 5) with ((r + 273.15) * (9/5)) by field. rewrite Rabs_mult, (Rabs_right (9/5)) by lra.
      pose proof (Rabs_triang r 273.15) as T. rewrite (Rabs_right 273.15) in T by lra. lra. }
    destruct (wide_r2c (-870) _ y ltac:(lia) Dy Hy (lower_weaken (-870) (-865) y ltac:(lia) Ly) Uy) as (w & Dw & Hw & Ew & _).
    exists w. split; [exact Dw|]. split; [exact Hw|]. apply (affine_back (9/5) 273.15 y); [lra|lra| |].
    + replace ((r + 273.15) * (9/5)) with ((r + 273.15) * 9 / 5) by field. replace (273.15 * (9/5)) with 491.67 by lra. exact Ey.
    + replace (y / (9/5) - 273.15) with ((y - 491.67) * 5 / 9) by lra. exact Ew.
  - destruct (wide_r2c (-800) x r ltac:(lia) D H L U) as (y & Dy & Hy & Ey & Ly).
    assert (Uy : Rabs y <= p2 960).
    { apply Rle_trans with (1 := bounded_result _ _ _ Ey ltac:(lra)). replace ((r - 491.67) * 5 / 9) with ((r - 491.67) * (5/9)) by field. rewrite Rabs_mult, (Rabs_right (5/9)) by lra.
      pose proof (Rabs_triang r (Ropp 491.67)) as T. rewrite Rabs_Ropp, (Rabs_right 491.67) in T by lra. change (r + Ropp 491.67) with (r - 491.67) in T. pose proof (Rabs_pos (r - 491.67)). lra. }
    destruct (wide_c2r (-870) _ y ltac:(lia) Dy Hy (lower_weaken (-870) (-865) y ltac:(lia) Ly) Uy) as (w & Dw & Hw & Ew & _).
    exists w. split; [exact Dw|]. split; [exact Hw|].
    rewrite <- (Rabs_Ropp (w - r)), <- (Rabs_Ropp r). replace (- (w - r)) with ((- w) - (- r)) by ring.
    apply (affine_back (5/9) 491.67 (- y)); [lra|lra| |].
    + replace (- y - (- r + 491.67) * (5/9)) with (- (y - (r - 491.67) * 5 / 9)) by lra. replace ((- r + 491.67) * (5/9)) with (- ((r - 491.67) * 5 / 9)) by lra. rewrite !Rabs_Ropp.
      replace (491.67 * (5/9)) with 273.15 by lra. exact Ey.
    + replace (- y / (5/9)) with (- y * (9/5)) by field. replace (- w - (- y * (9/5) - 491.67)) with (- (w - (y + 273.15) * 9 / 5)) by lra. replace (- y * (9/5) - 491.67) with (- ((y + 273.15) * 9 / 5)) by lra. rewrite !Rabs_Ropp. exact Ew.
Qed.
