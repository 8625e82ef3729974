(** The atmosphere in double-precision arithmetic. *)
From Coq Require Import Reals ZArith List Lra Lia Bool.
From Coq.Floats Require Import SpecFloat.
From Verif Require Import Base BaseFacts AtmosSpec FloatSpec FloatModel FloatArith FloatProofs FloatProofs2 FloatProofs3 FloatProofs4 FloatAtmosModel.
Open Scope R_scope.

(** comparisons are exact *)
Lemma finite_less m1 e1 m2 e2 s1 s2 : double (S754_finite s1 m1 e1) -> double (S754_finite s2 m2 e2) -> (e1 < e2)%Z -> IZR (Zpos m1) * p2 e1 < IZR (Zpos m2) * p2 e2.
Proof.
  intros D1 D2 L. destruct (double_finite _ _ _ D1) as (E1 & G1 & _). destruct (double_finite _ _ _ D2) as (E2 & G2 & F2). assert (F : Zpos (digits2_pos m2) = 53%Z) by lia.
  destruct (digits_R m1) as [_ B1]. destruct (digits_R m2) as [A2 _]. rewrite F in A2. pose proof (p2_pos e1). pose proof (p2_pos e2).
  apply Rlt_le_trans with (p2 53 * p2 e1).
  - apply Rmult_lt_compat_r; [assumption|]. apply Rlt_le_trans with (1 := B1). apply p2_le. exact G1.
  - apply Rle_trans with (p2 (53 - 1) * p2 e2); [rewrite <- !p2_add; apply p2_le; lia|apply Rmult_le_compat_r; lra].
Qed.
Lemma compare_abs m1 e1 m2 e2 s1 s2 : double (S754_finite s1 m1 e1) -> double (S754_finite s2 m2 e2) ->
  match (match Z.compare e1 e2 with Lt => Lt | Gt => Gt | Eq => Pcompare m1 m2 Eq end) with
  | Lt => IZR (Zpos m1) * p2 e1 < IZR (Zpos m2) * p2 e2
  | Gt => IZR (Zpos m2) * p2 e2 < IZR (Zpos m1) * p2 e1
  | Eq => IZR (Zpos m1) * p2 e1 = IZR (Zpos m2) * p2 e2
  end.
Proof.
  intros D1 D2. destruct (Z.compare_spec e1 e2) as [->|L|L].
  - change (Pcompare m1 m2 Eq) with (Pos.compare m1 m2). pose proof (p2_pos e2). destruct (Pos.compare_spec m1 m2) as [->|L|L]; [reflexivity| |]; (apply Rmult_lt_compat_r; [assumption|apply IZR_lt; lia]).
  - exact (finite_less _ _ _ _ _ _ D1 D2 L).
  - exact (finite_less _ _ _ _ _ _ D2 D1 L).
Qed.
Lemma finite_positive m e : 0 < IZR (Zpos m) * p2 e. Proof. apply Rmult_lt_0_compat; [apply IZR_lt; lia|apply p2_pos]. Qed.
Lemma compare_ok x y a b : double x -> double y -> stands_for x a -> stands_for y b ->
  exists c, SFcompare x y = Some c /\ match c with Lt => a < b | Eq => a = b | Gt => b < a end.
Proof.
  intros Dx Dy Hx Hy. destruct (stands_inv _ _ Hx) as [(s & -> & ->)|(s & m & e & -> & ->)]; destruct (stands_inv _ _ Hy) as [(s' & -> & ->)|(s' & m' & e' & -> & ->)]; cbn [SFcompare]; eexists; (split; [reflexivity|]).
  - reflexivity.
  - pose proof (finite_positive m' e'). destruct s'; cbn [signed]; lra.
  - pose proof (finite_positive m e). destruct s; cbn [signed]; lra.
  - pose proof (finite_positive m e). pose proof (finite_positive m' e'). pose proof (compare_abs m e m' e' s s' Dx Dy) as C.
    destruct s, s'; cbn [signed]; try lra.
    + destruct (Z.compare e e'); [destruct (Pcompare m m' Eq)| |]; cbn [CompOpp]; lra.
    + destruct (Z.compare e e'); [destruct (Pcompare m m' Eq)| |]; lra.
Qed.
Lemma ltb_ok x y a b : double x -> double y -> stands_for x a -> stands_for y b -> SFltb x y = if Rlt_dec a b then true else false.
Proof.
  intros Dx Dy Hx Hy. unfold SFltb. destruct (compare_ok x y a b Dx Dy Hx Hy) as (c & -> & H). destruct c; destruct (Rlt_dec a b); try reflexivity; lra.
Qed.
Lemma ltb_int x a z : double x -> stands_for x a -> (Z.abs z < 2 ^ 53)%Z -> SFltb x (of_int z) = if Rlt_dec a (IZR z) then true else false.
Proof. intros D H Hz. destruct (int_exact z Hz) as [Dz Sz]. exact (ltb_ok _ _ _ _ D Dz H Sz). Qed.

(** absolute errors *)
Definition near (x : spec_float) (t e : R) : Prop := double x /\ exists a, stands_for x a /\ Rabs (a - t) <= e.
Lemma near_weaken x t e f : near x t e -> e <= f -> near x t f.
Proof. intros (D & a & H & E) L. split; [exact D|]. exists a. split; [exact H|lra]. Qed.
Lemma near_add x y s t e f : near x s e -> near y t f -> Rabs (s + t) + e + f <= 1000000 -> near (fadd x y) (s + t) (e + f + u * (Rabs (s + t) + e + f)).
Proof.
  intros (Dx & a & Ha & Ea) (Dy & b & Hb & Eb) B.
  assert (T : Rabs (a + b - (s + t)) <= e + f). { replace (a + b - (s + t)) with ((a - s) + (b - t)) by ring. apply Rle_trans with (1 := Rabs_triang _ _). lra. }
  assert (T2 : Rabs (a + b) <= Rabs (s + t) + e + f). { replace (a + b) with ((s + t) + (a + b - (s + t))) by ring. apply Rle_trans with (1 := Rabs_triang _ _). lra. }
  destruct (add_ok x y a b Dx Dy Ha Hb) as (D & r & H & _ & E).
  { apply Rle_lt_trans with (p2 20); [|apply p2_lt; lia]. rewrite p2_Z by lia. change (2 ^ 20)%Z with 1048576%Z. lra. }
  split; [exact D|]. exists r. split; [exact H|]. change (powerRZ 2 (-53)) with u in E. pose proof u_pos as [U1 U2].
  assert (u * Rabs (a + b) <= u * (Rabs (s + t) + e + f)) by (apply Rmult_le_compat_l; lra).
  replace (r - (s + t)) with ((r - (a + b)) + (a + b - (s + t))) by ring. apply Rle_trans with (1 := Rabs_triang _ _). lra.
Qed.
Lemma near_tracks x k n t : (k <= 10)%nat -> tracks x k n t -> near x t (INR k * 1.001 * u * Rabs t).
Proof. intros K T. destruct (tracks_error _ _ _ _ K T) as (D & a & H & E). split; [exact D|]. exists a. split; assumption. Qed.
Lemma near_self x a : double x -> stands_for x a -> near x a 0.
Proof. intros D H. split; [exact D|]. exists a. split; [exact H|]. rewrite Rminus_diag_eq by reflexivity. rewrite Rabs_R0. lra. Qed.
Lemma stands_opp x a : stands_for x a -> stands_for (SFopp x) (- a).
Proof. intros []; cbn [SFopp negb]; rewrite ?Ropp_0, ?Ropp_involutive; constructor. Qed.
Lemma double_opp x : double x -> double (SFopp x). Proof. destruct x; intros D; exact D || reflexivity. Qed.
Lemma tracks_opp x k n t : tracks x k n t -> tracks (SFopp x) k n (- t).
Proof.
  intros [(D & a & H & (g & F & E)) Rg]. split; [split; [apply double_opp, D|]|].
  - exists (- a). split; [apply stands_opp, H|]. exists g. split; [exact F|]. rewrite E. ring.
  - destruct Rg as [->|Rg]; [left; ring|right; rewrite Rabs_Ropp; exact Rg].
Qed.
Lemma zero_times x a : double x -> stands_for x a -> double (fmul (of_int 0) x) /\ stands_for (fmul (of_int 0) x) 0.
Proof.
  intros D H. destruct (int_exact 0 ltac:(lia)) as [D0 S0]. destruct (mul_ok (of_int 0) x 0 a D0 D S0 H) as (D' & r & Hr & Q). { rewrite Rmult_0_l, Rabs_R0. apply p2_pos. }
  split; [exact D'|]. rewrite Rmult_0_l in Q. assert (r = 0); [|subst r; exact Hr]. destruct Q as [[_ Q]|(k & n & [K1 _] & _)]; [exact Q|]. rewrite Rabs_R0 in K1. pose proof (p2_pos (k - 1)). lra.
Qed.

(** the temperature of the layers *)
Lemma near_layer A p q B t x h : near (lit p q) A (1.001 * u * A) -> tracks B 1 10 t -> double x -> stands_for x h -> in_range h ->
  0 <= A <= 290 -> Rabs (t * h) <= 140 -> near (fadd (lit p q) (fmul B x)) (A + t * h) (1100 * u).
Proof.
  intros NA TB D H I PA PB. assert (T := tracks_mul _ _ _ _ _ _ _ _ TB (tracks_self x h D H I) ltac:(lia) ltac:(lia)).
  assert (NB := near_tracks _ 2 _ _ ltac:(lia) T). pose proof u_pos as [U1 U2]. cbn [INR] in NB.
  assert (NB' : near (fmul B x) (t * h) (281 * u)).
  { apply (near_weaken _ _ _ _ NB). assert (u * Rabs (t * h) <= u * 140) by (apply Rmult_le_compat_l; lra). lra. }
  assert (NA' : near (lit p q) A (291 * u)).
  { apply (near_weaken _ _ _ _ NA). assert (u * A <= u * 290) by (apply Rmult_le_compat_l; lra). lra. }
  assert (Bd : Rabs (A + t * h) <= 430). { apply Rle_trans with (1 := Rabs_triang _ _). rewrite (Rabs_right A) by lra. lra. }
  apply (near_weaken _ _ _ _ (near_add _ _ _ _ _ _ NA' NB' ltac:(lra))).
  assert (u * Rabs (A + t * h) <= u * 430) by (apply Rmult_le_compat_l; lra). nra.
Qed.
Lemma near_constant A p q x h : near (lit p q) A (1.001 * u * A) -> double x -> stands_for x h -> 0 <= A <= 290 -> near (fadd (lit p q) (fmul (of_int 0) x)) A (1100 * u).
Proof.
  intros NA D H PA. destruct (zero_times x h D H) as [D0 S0]. pose proof u_pos as [U1 U2]. pose proof (near_self _ _ D0 S0) as N0.
  assert (NA' : near (lit p q) A (291 * u)).
  { apply (near_weaken _ _ _ _ NA). assert (u * A <= u * 290) by (apply Rmult_le_compat_l; lra). lra. }
  assert (Bd : Rabs (A + 0) <= 290) by (rewrite Rplus_0_r, Rabs_right by lra; lra).
  assert (N := near_add _ _ _ _ _ _ NA' N0 ltac:(lra)). rewrite Rplus_0_r in N, Bd. apply (near_weaken _ _ _ _ N).
  assert (u * Rabs A <= u * 290) by (apply Rmult_le_compat_l; lra). nra.
Qed.
Lemma near_lit p q c : tracks (lit p q) 1 10 c -> 0 < c -> near (lit p q) c (1.001 * u * c).
Proof. intros T P. assert (N := near_tracks _ 1 _ _ ltac:(lia) T). cbn [INR] in N. rewrite (Rabs_right c) in N by lra. apply (near_weaken _ _ _ _ N). lra. Qed.

Lemma temperature_near off o alt h : double off -> stands_for off o -> Rabs o <= 100 -> double alt -> stands_for alt h -> in_range h -> -10000 <= h <= 50000 ->
  near (fl_isatemp off alt) (std_temp h + o) 0.0000000000002.
Proof.
  intros Do Ho Bo D H I Bh. unfold fl_isatemp. cbv zeta. pose proof u_pos as [U1 U2].
  assert (Final : forall t v, near t v (1100 * u) -> 0 <= v <= 360 -> near (fadd t off) (v + o) 0.0000000000002).
  { intros t v N Pv. assert (Bd : Rabs (v + o) <= 460) by (apply Rle_trans with (1 := Rabs_triang _ _); rewrite (Rabs_right v) by lra; lra).
    apply (near_weaken _ _ _ _ (near_add _ _ _ _ _ _ N (near_self _ _ Do Ho) ltac:(lra))).
    assert (u * Rabs (v + o) <= u * 460) by (apply Rmult_le_compat_l; lra). assert (U3 : u <= 0.00000000000000012) by (rewrite u_val; lra). nra. }
  rewrite (ltb_int alt h 11000 D H ltac:(lia)), (ltb_int alt h 20000 D H ltac:(lia)), (ltb_int alt h 32000 D H ltac:(lia)), (ltb_int alt h 47000 D H ltac:(lia)).
  unfold std_temp, climb, layer1, layer2, layer3, layer4, layer5.
  destruct (Rlt_dec h 11000) as [L1|L1].
  { replace (288.15 - 0.0065 * Rmin h 11000 + 0.001 * Rmax 0 (Rmin h 32000 - 20000) + 0.0028 * Rmax 0 (Rmin h 47000 - 32000)) with (288.15 + Ropp 0.0065 * h).
    - apply Final; [|lra]. apply (near_layer 288.15 28815 2); [apply near_lit; [literal|lra]|apply tracks_opp; literal|exact D|exact H|exact I|lra|]. apply Rabs_le. lra.
    - rewrite (Rmin_left h 11000), (Rmin_left h 32000), (Rmin_left h 47000) by lra. rewrite !Rmax_left by lra. lra. }
  rewrite (Rmin_right h 11000) by lra.
  destruct (Rlt_dec h 20000) as [L2|L2].
  { replace (288.15 - 0.0065 * 11000 + 0.001 * Rmax 0 (Rmin h 32000 - 20000) + 0.0028 * Rmax 0 (Rmin h 47000 - 32000)) with 216.65.
    - apply Final; [|lra]. apply (near_constant 216.65 21665 2 alt h); [apply near_lit; [literal|lra]|exact D|exact H|lra].
    - rewrite (Rmin_left h 32000), (Rmin_left h 47000) by lra. rewrite !Rmax_left by lra. lra. }
  destruct (Rlt_dec h 32000) as [L3|L3].
  { replace (288.15 - 0.0065 * 11000 + 0.001 * Rmax 0 (Rmin h 32000 - 20000) + 0.0028 * Rmax 0 (Rmin h 47000 - 32000)) with (196.65 + 0.001 * h).
    - apply Final; [|lra]. apply (near_layer 196.65 19665 2); [apply near_lit; [literal|lra]|literal|exact D|exact H|exact I|lra|]. apply Rabs_le. lra.
    - rewrite (Rmin_left h 32000), (Rmin_left h 47000) by lra. rewrite (Rmax_right 0 (h - 20000)), (Rmax_left 0 (h - 32000)) by lra. lra. }
  rewrite (Rmin_right h 32000) by lra. rewrite (Rmax_right 0 (32000 - 20000)) by lra.
  destruct (Rlt_dec h 47000) as [L4|L4].
  { replace (288.15 - 0.0065 * 11000 + 0.001 * (32000 - 20000) + 0.0028 * Rmax 0 (Rmin h 47000 - 32000)) with (139.05 + 0.0028 * h).
    - apply Final; [|lra]. apply (near_layer 139.05 13905 2); [apply near_lit; [literal|lra]|literal|exact D|exact H|exact I|lra|]. apply Rabs_le. lra.
    - rewrite (Rmin_left h 47000) by lra. rewrite (Rmax_right 0 (h - 32000)) by lra. lra. }
  rewrite (Rmin_right h 47000) by lra. rewrite (Rmax_right 0 (47000 - 32000)) by lra.
  replace (288.15 - 0.0065 * 11000 + 0.001 * (32000 - 20000) + 0.0028 * (47000 - 32000)) with 270.65 by lra.
  apply Final; [|lra]. apply (near_constant 270.65 27065 2 alt h); [apply near_lit; [literal|lra]|exact D|exact H|lra].
Qed.
