(** The operations of Coq.Floats.SpecFloat on doubles round correctly. *)
From Coq Require Import Reals ZArith List Lra Lia Bool.
From Coq.Floats Require Import SpecFloat.
From Verif Require Import Base FloatSpec.
Open Scope R_scope.

Notation p2 := (powerRZ 2).
Notation fexp64 := (fexp 53 1024).

Lemma p2_pos k : 0 < p2 k. Proof. apply powerRZ_lt. lra. Qed.
Lemma p2_add a b : p2 (a + b) = p2 a * p2 b. Proof. apply powerRZ_add. lra. Qed.
Lemma p2_0 : p2 0 = 1. Proof. reflexivity. Qed.
Lemma p2_1 : p2 1 = 2. Proof. apply powerRZ_1. Qed.
Lemma p2_Z n : (0 <= n)%Z -> p2 n = IZR (2 ^ n).
Proof. intros H. rewrite <- (Z2Nat.id n H) at 1. rewrite <- pow_powerRZ. rewrite pow_IZR. rewrite Z2Nat.id by exact H. reflexivity. Qed.
Lemma p2_opp a : p2 (- a) = / p2 a.
Proof. pose proof (p2_pos a). apply (Rmult_eq_reg_l (p2 a)); [|lra]. rewrite <- p2_add. rewrite Rinv_r by lra. replace (a + - a)%Z with 0%Z by lia. reflexivity. Qed.
Lemma p2_sub a b : p2 (a - b) = p2 a / p2 b.
Proof. unfold Z.sub. rewrite p2_add, p2_opp. reflexivity. Qed.
Lemma p2_ge1 n : (0 <= n)%Z -> 1 <= p2 n.
Proof. intros H. rewrite p2_Z by exact H. apply IZR_le. assert (0 < 2 ^ n)%Z by (apply Z.pow_pos_nonneg; lia). lia. Qed.
Lemma p2_le a b : (a <= b)%Z -> p2 a <= p2 b.
Proof. intros H. replace b with (a + (b - a))%Z by lia. rewrite p2_add. pose proof (p2_pos a). pose proof (p2_ge1 (b - a) ltac:(lia)). nra. Qed.
Lemma p2_lt a b : (a < b)%Z -> p2 a < p2 b.
Proof. intros H. pose proof (p2_le (a + 1) b ltac:(lia)) as L. rewrite p2_add, p2_1 in L. pose proof (p2_pos a). lra. Qed.
Lemma p2_lt_inv a b : p2 a < p2 b -> (a < b)%Z.
Proof. intros H. destruct (Z_lt_le_dec a b) as [L|L]; [exact L|]. pose proof (p2_le b a L). lra. Qed.
Lemma p2_mono_inv a b : p2 a <= p2 b -> (a <= b)%Z.
Proof. intros H. destruct (Z_le_gt_dec a b) as [L|L]; [exact L|]. pose proof (p2_lt b a ltac:(lia)). lra. Qed.

(** digits *)
Lemma digits_bounds m : (2 ^ (Zpos (digits2_pos m) - 1) <= Zpos m < 2 ^ Zpos (digits2_pos m))%Z.
Proof.
  induction m as [m IH|m IH|]; cbn [digits2_pos].
  - rewrite Pos2Z.inj_succ. replace (Z.succ (Zpos (digits2_pos m)) - 1)%Z with (Z.succ (Zpos (digits2_pos m) - 1)) by lia.
    rewrite !Z.pow_succ_r by lia. rewrite (Pos2Z.inj_xI m). lia.
  - rewrite Pos2Z.inj_succ. replace (Z.succ (Zpos (digits2_pos m)) - 1)%Z with (Z.succ (Zpos (digits2_pos m) - 1)) by lia.
    rewrite !Z.pow_succ_r by lia. rewrite (Pos2Z.inj_xO m). lia.
  - cbn. lia.
Qed.
Lemma digits_unique m d : (2 ^ (d - 1) <= Zpos m < 2 ^ d)%Z -> Zpos (digits2_pos m) = d.
Proof.
  intros [A B]. destruct (digits_bounds m) as [C D]. set (k := Zpos (digits2_pos m)) in *.
  assert (0 < d)%Z. { destruct (Z_le_gt_dec d 0) as [L|L]; [|lia]. destruct (Z.eq_dec d 0) as [->|]; [cbn in B; lia|]. rewrite Z.pow_neg_r in B by lia. lia. }
  assert (0 < k)%Z by (unfold k; lia).
  assert (k - 1 < d)%Z by (apply (Z.pow_lt_mono_r_iff 2); lia). assert (d - 1 < k)%Z by (apply (Z.pow_lt_mono_r_iff 2); lia). lia.
Qed.
Lemma digits_R m : p2 (Zpos (digits2_pos m) - 1) <= IZR (Zpos m) < p2 (Zpos (digits2_pos m)).
Proof. destruct (digits_bounds m) as [A B]. rewrite !p2_Z by lia. split; [apply IZR_le|apply IZR_lt]; assumption. Qed.
Lemma digits_ge m k : (0 <= k)%Z -> (2 ^ k <= Zpos m)%Z -> (k < Zpos (digits2_pos m))%Z.
Proof. intros K H. destruct (digits_bounds m) as [_ B]. apply (Z.pow_lt_mono_r_iff 2); lia. Qed.
Lemma digits_le m k : (0 <= k)%Z -> (Zpos m < 2 ^ k)%Z -> (Zpos (digits2_pos m) <= k)%Z.
Proof. intros K H. destruct (digits_bounds m) as [A _]. assert (Zpos (digits2_pos m) - 1 < k)%Z by (apply (Z.pow_lt_mono_r_iff 2); lia). lia. Qed.

(** where a real number lies above an integer *)
Definition located (x : R) (m : Z) (l : location) : Prop :=
  match l with
  | loc_Exact => x = IZR m
  | loc_Inexact Lt => IZR m < x < IZR m + 1/2
  | loc_Inexact Eq => x = IZR m + 1/2
  | loc_Inexact Gt => IZR m + 1/2 < x < IZR m + 1
  end.
Definition rec_located (x : R) (r : shr_record) : Prop := (0 <= shr_m r)%Z /\ located x (shr_m r) (loc_of_shr_record r).

Lemma located_floor x m l : located x m l -> IZR m <= x < IZR m + 1.
Proof. destruct l as [|[]]; cbn; lra. Qed.
Lemma located_nearest x m l : located x m l -> nearest x (round_nearest_even m l).
Proof.
  unfold nearest. destruct l as [|[]]; cbn [located round_nearest_even].
  - intros ->. left. rewrite Rminus_diag_eq by reflexivity. rewrite Rabs_R0. lra.
  - intros ->. right. destruct (Z.even m) eqn:E.
    + split; [|exact E]. rewrite Rabs_right; lra.
    + rewrite plus_IZR. split; [rewrite Rabs_left; lra|]. rewrite Z.even_add, E. reflexivity.
  - intros H. left. rewrite Rabs_right; lra.
  - intros H. left. rewrite plus_IZR. rewrite Rabs_left; lra.
Qed.
Lemma nearest_ge x n a : nearest x n -> IZR a <= x -> (a <= n)%Z.
Proof.
  intros N H. destruct (Z_le_gt_dec a n) as [L|L]; [exact L|]. assert (n + 1 <= a)%Z as K by lia. apply IZR_le in K. rewrite plus_IZR in K.
  destruct N as [N|[N _]]; rewrite Rabs_right in N by lra; lra.
Qed.
Lemma nearest_le x n a : nearest x n -> x <= IZR a -> (n <= a)%Z.
Proof.
  intros N H. destruct (Z_le_gt_dec n a) as [L|L]; [exact L|]. assert (a + 1 <= n)%Z as K by lia. apply IZR_le in K. rewrite plus_IZR in K.
  destruct N as [N|[N _]]; rewrite Rabs_left in N by lra; lra.
Qed.
Lemma nearest_opp x n : nearest x n -> nearest (- x) (- n).
Proof.
  unfold nearest. rewrite opp_IZR. replace (- x - - IZR n) with (- (x - IZR n)) by ring. rewrite Rabs_Ropp. rewrite Z.even_opp. tauto.
Qed.
Lemma nearest_error x n : nearest x n -> Rabs (x - IZR n) <= 1/2.
Proof. intros [H|[H _]]; lra. Qed.

Lemma shr_1_ok x r : rec_located x r -> rec_located (x / 2) (shr_1 r).
Proof.
  destruct r as [m b s]. intros [P L]. cbn [shr_m] in P, L. unfold rec_located.
  assert (F : exists q bit, shr_1 {| shr_m := m; shr_r := b; shr_s := s |} = {| shr_m := q; shr_r := bit; shr_s := (b || s)%bool |} /\ (0 <= q)%Z /\ m = (2 * q + (if bit then 1 else 0))%Z).
  { destruct m as [|[p|p|]|]; cbn [shr_1].
    - exists 0%Z, false. repeat split; lia.
    - exists (Zpos p), true. repeat split; lia.
    - exists (Zpos p), false. repeat split; lia.
    - exists 0%Z, true. repeat split; lia.
    - lia. }
  destruct F as (q & bit & -> & Q & E). cbn [shr_m]. split; [exact Q|].
  assert (E' : IZR m = 2 * IZR q + (if bit then 1 else 0)) by (rewrite E, plus_IZR, mult_IZR; destruct bit; reflexivity).
  destruct bit, b, s; cbn [loc_of_shr_record orb located] in *; lra.
Qed.
Lemma iter_ok p : forall x r, rec_located x r -> rec_located (x / p2 (Zpos p)) (SpecFloat.iter_pos shr_1 p r).
Proof.
  induction p as [p IH|p IH|]; intros x r H; cbn [SpecFloat.iter_pos].
  - apply shr_1_ok in H. apply IH, IH in H.
    replace (x / p2 (Zpos p~1)) with (x / 2 / p2 (Zpos p) / p2 (Zpos p)); [exact H|].
    replace (Zpos p~1) with (1 + (Zpos p + Zpos p))%Z by lia. rewrite !p2_add, p2_1. pose proof (p2_pos (Zpos p)). field. lra.
  - apply IH, IH in H. replace (x / p2 (Zpos p~0)) with (x / p2 (Zpos p) / p2 (Zpos p)); [exact H|].
    replace (Zpos p~0) with (Zpos p + Zpos p)%Z by lia. rewrite !p2_add. pose proof (p2_pos (Zpos p)). field. lra.
  - rewrite p2_1. apply shr_1_ok, H.
Qed.
Lemma shr_ok x r e n : rec_located x r -> (0 <= n)%Z -> exists r', shr r e n = (r', (e + n)%Z) /\ rec_located (x / p2 n) r'.
Proof.
  intros H N. destruct n as [|p|p]; cbn [shr].
  - exists r. rewrite Z.add_0_r. split; [reflexivity|]. rewrite p2_0. replace (x / 1) with x by field. exact H.
  - exists (SpecFloat.iter_pos shr_1 p r). split; [reflexivity|]. apply iter_ok, H.
  - lia.
Qed.
Lemma rec_of_loc x m l : (0 <= m)%Z -> located x m l -> rec_located x (shr_record_of_loc m l).
Proof. intros P H. split; destruct l as [|[]]; cbn in *; assumption. Qed.

(** the value of a rounded result *)
Lemma round_aux_ok s m e l x : located x (Zpos m) l -> let d := Zpos (digits2_pos m) in (e <= fexp64 (d + e))%Z ->
  x * p2 e < p2 1023 ->
  p2 (d + e - 1) <= x * p2 e < p2 (d + e) /\
  exists n, nearest (x * p2 e / p2 (fexp64 (d + e))) n /\ (0 <= n)%Z /\
    double (binary_round_aux 53 1024 s (Zpos m) e l) /\
    stands_for (binary_round_aux 53 1024 s (Zpos m) e l) (if s then - (IZR n * p2 (fexp64 (d + e))) else IZR n * p2 (fexp64 (d + e))).
Proof.
  intros L d N Ov. pose proof (p2_pos e) as Pe.
  assert (Dm := digits_R m). fold d in Dm. assert (Fx := located_floor _ _ _ L).
  assert (Xu : x < p2 d).
  { destruct (digits_bounds m) as [_ B]. fold d in B. assert (B' : (Zpos m + 1 <= 2 ^ d)%Z) by lia. apply IZR_le in B'.
    rewrite plus_IZR in B'. rewrite <- p2_Z in B' by (unfold d; lia). lra. }
  assert (R1 : p2 (d + e - 1) <= x * p2 e < p2 (d + e)).
  { replace (d + e - 1)%Z with (d - 1 + e)%Z by lia. rewrite !p2_add. split; [apply Rmult_le_compat_r|apply Rmult_lt_compat_r]; lra. }
  split; [exact R1|].
  set (e' := fexp64 (d + e)) in *. set (k := (e' - e)%Z).
  destruct (shr_ok x (shr_record_of_loc (Zpos m) l) e k (rec_of_loc x (Zpos m) l ltac:(lia) L) ltac:(unfold k; lia)) as (r' & E1 & R').
  set (n := round_nearest_even (shr_m r') (loc_of_shr_record r')).
  assert (Xn : x / p2 k = x * p2 e / p2 e').
  { unfold k. rewrite p2_sub. pose proof (p2_pos e'). field. lra. }
  assert (Nn : nearest (x * p2 e / p2 e') n). { rewrite <- Xn. apply located_nearest, R'. }
  assert (N0 : (0 <= n)%Z).
  { apply (nearest_ge _ _ 0 Nn). rewrite <- Xn. destruct R' as [Rp Rl]. apply located_floor in Rl. apply IZR_le in Rp. lra. }
  exists n. split; [exact Nn|]. split; [exact N0|].
  assert (De : (d + e - e' <= 53)%Z) by (unfold e', fexp; lia).
  assert (Em : (-1074 <= e')%Z) by (unfold e', fexp, emin; lia).
  assert (Nu : (n <= 2 ^ 53)%Z).
  { apply (nearest_le _ _ _ Nn). rewrite <- p2_Z by lia. apply Rle_trans with (p2 (d + e - e')); [|apply p2_le; exact De].
    rewrite p2_sub. apply Rmult_le_compat_r; [left; apply Rinv_0_lt_compat, p2_pos|]. lra. }
  assert (Ee : (e' <= 970)%Z).
  { assert (d + e - 1 < 1023)%Z by (apply p2_lt_inv; lra). unfold e', fexp, emin. lia. }
  assert (Nl : (e' <> -1074 -> 2 ^ 52 <= n)%Z).
  { intros H. assert (e' = d + e - 53)%Z by (unfold e', fexp, emin in *; lia). apply (nearest_ge _ _ _ Nn). rewrite <- p2_Z by lia.
    replace 52%Z with (d + e - 1 - e')%Z by lia. rewrite p2_sub. apply Rmult_le_compat_r; [left; apply Rinv_0_lt_compat, p2_pos|]. lra. }
  unfold binary_round_aux. unfold shr_fexp at 1 3. cbn [Zdigits2]. fold d. fold e'. fold k. rewrite E1. fold n.
  replace (e + k)%Z with e' by (unfold k; lia). cbn [snd fst].
  unfold shr_fexp. cbn [shr_record_of_loc].
  destruct n as [|q|q] eqn:En; [| |lia].
  - cbn [Zdigits2]. assert (K : exists z, (fexp 53 1024 (0 + e') - e' = - Z.of_nat z)%Z).
    { exists (Z.to_nat (e' - fexp 53 1024 (0 + e'))). rewrite Z2Nat.id; [lia|]. unfold fexp, emin. lia. }
    destruct K as (z & ->). assert (Sz : shr {| shr_m := 0; shr_r := false; shr_s := false |} e' (- Z.of_nat z) = ({| shr_m := 0; shr_r := false; shr_s := false |}, e')) by (destruct z; reflexivity).
    rewrite Sz. cbn [shr_m]. split; [reflexivity|]. replace (if s then _ else _) with 0; [constructor|]. destruct s; ring.
  - cbn [Zdigits2]. destruct (Z_lt_le_dec (Zpos q) (2 ^ 53)) as [Q|Q].
    + assert (Dq := digits_le q 53 ltac:(lia) Q). set (dq := Zpos (digits2_pos q)) in *.
      assert (Fq : fexp 53 1024 (dq + e') = e').
      { destruct (Z.eq_dec e' (-1074)) as [Z|Z]; [rewrite Z; unfold fexp, emin; lia|].
        specialize (Nl Z). apply digits_ge in Nl; [|lia]. fold dq in Nl. unfold fexp, emin. lia. }
      rewrite Fq. rewrite Z.sub_diag. cbn [shr shr_m]. replace (e' <=? 1024 - 53)%Z with true by (symmetry; apply Z.leb_le; lia).
      cbv iota. split.
      * unfold double, valid_binary, SpecFloat.bounded, canonical_mantissa. cbv iota. fold dq. rewrite Fq. apply andb_true_intro. split; [apply Zeq_is_eq_bool; reflexivity|apply Z.leb_le; lia].
      * destruct s; constructor.
    + assert (q = 2 ^ 53)%positive by lia. subst q. change (Zpos (digits2_pos (2 ^ 53))) with 54%Z.
      assert (Fq : (fexp 53 1024 (54 + e') - e' = 1)%Z) by (unfold fexp, emin; lia). rewrite Fq.
      cbn [shr]. change (SpecFloat.iter_pos shr_1 1 {| shr_m := Zpos (2 ^ 53); shr_r := false; shr_s := false |}) with {| shr_m := Zpos (2 ^ 52); shr_r := false; shr_s := false |}.
      cbn [shr_m]. replace (e' + 1 <=? 1024 - 53)%Z with true by (symmetry; apply Z.leb_le; lia).
      cbv iota. split.
      * unfold double, valid_binary, SpecFloat.bounded, canonical_mantissa. cbv iota. change (Zpos (digits2_pos (2 ^ 52))) with 53%Z.
        apply andb_true_intro. split; [apply Zeq_is_eq_bool; unfold fexp, emin; lia|apply Z.leb_le; lia].
      * assert (V : IZR (Zpos (2 ^ 53)) * p2 e' = IZR (Zpos (2 ^ 52)) * p2 (e' + 1)).
        { rewrite p2_add, p2_1. change (Zpos (2 ^ 53)) with (2 * Zpos (2 ^ 52))%Z. rewrite mult_IZR. ring. }
        rewrite V. destruct s; constructor.
Qed.

Definition signed (s : bool) (v : R) : R := if s then - v else v.
Lemma signed_abs s v : 0 <= v -> Rabs (signed s v) = v.
Proof. intros H. destruct s; cbn; [rewrite Rabs_Ropp|]; apply Rabs_right; lra. Qed.
Lemma stands_finite s m e : stands_for (S754_finite s m e) (signed s (IZR (Zpos m) * p2 e)).
Proof. destruct s; constructor. Qed.
Lemma stands_inv x a : stands_for x a -> (exists s, x = S754_zero s /\ a = 0) \/
  exists s m e, x = S754_finite s m e /\ a = signed s (IZR (Zpos m) * p2 e).
Proof. intros []; [left; eexists; split; reflexivity|right; exists false, m, e; split; reflexivity|right; exists true, m, e; split; reflexivity]. Qed.
Lemma stands_unique x a b : stands_for x a -> stands_for x b -> a = b.
Proof. intros A B. destruct A; inversion B; reflexivity. Qed.
Lemma double_finite s m e : double (S754_finite s m e) -> (-1074 <= e <= 971)%Z /\ (Zpos (digits2_pos m) <= 53)%Z /\ (e = -1074 \/ Zpos (digits2_pos m) = 53)%Z.
Proof.
  unfold double, valid_binary, SpecFloat.bounded, canonical_mantissa. intros H. apply andb_prop in H. destruct H as [A B].
  apply Zeq_bool_eq in A. apply Z.leb_le in B. unfold fexp, emin in A. lia.
Qed.

Lemma round_signed s m e l x : located x (Zpos m) l -> (e <= fexp64 (Zpos (digits2_pos m) + e))%Z -> x * p2 e < p2 1023 ->
  double (binary_round_aux 53 1024 s (Zpos m) e l) /\
  exists r, stands_for (binary_round_aux 53 1024 s (Zpos m) e l) r /\ rounded (signed s (x * p2 e)) r.
Proof.
  intros L N Ov. destruct (round_aux_ok s m e l x L N Ov) as (B & n & Nn & N0 & D & V). split; [exact D|].
  eexists. split; [exact V|]. right. exists (Zpos (digits2_pos m) + e)%Z, (if s then - n else n)%Z.
  assert (0 <= x * p2 e). { pose proof (p2_pos (Zpos (digits2_pos m) + e - 1)). lra. }
  rewrite signed_abs by assumption. split; [exact B|]. cbv zeta. change (Z.max (Zpos (digits2_pos m) + e - 53) (-1074)) with (fexp64 (Zpos (digits2_pos m) + e)).
  destruct s; cbn [signed].
  - rewrite opp_IZR. split; [|ring]. replace (- (x * p2 e) / p2 (fexp64 (Zpos (digits2_pos m) + e))) with (- (x * p2 e / p2 (fexp64 (Zpos (digits2_pos m) + e)))) by (pose proof (p2_pos (fexp64 (Zpos (digits2_pos m) + e))); field; lra).
    apply nearest_opp, Nn.
  - split; [exact Nn|reflexivity].
Qed.

(** relative error of rounding *)
Lemma rounded_error v r : rounded v r -> v = 0 \/ p2 (-1022) <= Rabs v -> Rabs (r - v) <= p2 (-53) * Rabs v.
Proof.
  intros [[-> ->]|(k & n & [K1 K2] & N & ->)] H.
  - rewrite Rminus_0_r, Rabs_R0. lra.
  - destruct H as [->|H]. { rewrite Rabs_R0 in K1. pose proof (p2_pos (k - 1)). lra. }
    assert (-1022 < k)%Z by (apply p2_lt_inv; lra). replace (Z.max (k - 53) (-1074)) with (k - 53)%Z in N |- * by lia.
    apply nearest_error in N. set (u := p2 (k - 53)) in *. assert (U : 0 < u) by apply p2_pos.
    replace (IZR n * u - v) with (- (u * (v / u - IZR n))) by (field; lra). rewrite Rabs_Ropp, Rabs_mult, (Rabs_right u) by lra.
    assert (E : p2 (-53) * p2 (k - 1) = u / 2).
    { unfold u. rewrite <- p2_add. replace (-53 + (k - 1))%Z with (k - 53 - 1)%Z by lia. rewrite p2_sub, p2_1. reflexivity. }
    pose proof (p2_pos (-53)). nra.
Qed.
Lemma nearest_int a n : nearest (IZR a) n -> n = a.
Proof. intros N. pose proof (nearest_ge _ _ a N (Rle_refl _)). pose proof (nearest_le _ _ a N (Rle_refl _)). lia. Qed.
(** multiples of the smallest double that are small enough are not changed *)
Lemma rounded_small M r : rounded (IZR M * p2 (-1074)) r -> Rabs (IZR M * p2 (-1074)) < p2 (-1021) -> r = IZR M * p2 (-1074).
Proof.
  intros [[E ->]|(k & n & [K1 K2] & N & ->)] H; [congruence|].
  assert (k - 1 < -1021)%Z by (apply p2_lt_inv; lra). replace (Z.max (k - 53) (-1074)) with (-1074)%Z in N |- * by lia.
  replace (IZR M * p2 (-1074) / p2 (-1074)) with (IZR M) in N by (pose proof (p2_pos (-1074)); field; lra).
  apply nearest_int in N. rewrite N. reflexivity.
Qed.
Lemma p2_lt_1022 : p2 (-1022) < p2 (-1021). Proof. apply p2_lt. lia. Qed.
Lemma rounded_multiple_error M e r : (-1074 <= e)%Z -> rounded (IZR M * p2 e) r -> Rabs (r - IZR M * p2 e) <= p2 (-53) * Rabs (IZR M * p2 e).
Proof.
  intros E H. destruct (Rlt_le_dec (Rabs (IZR M * p2 e)) (p2 (-1022))) as [L|L].
  - assert (V : IZR M * p2 e = IZR (M * 2 ^ (e + 1074)) * p2 (-1074)).
    { rewrite mult_IZR, <- p2_Z by lia. rewrite Rmult_assoc, <- p2_add. do 2 f_equal. lia. }
    rewrite V in *. rewrite (rounded_small _ _ H) by (pose proof p2_lt_1022; lra). rewrite Rminus_diag_eq by reflexivity. rewrite Rabs_R0.
    pose proof (p2_pos (-53)). pose proof (Rabs_pos (IZR (M * 2 ^ (e + 1074)) * p2 (-1074))). nra.
  - apply rounded_error; [exact H|right; exact L].
Qed.
Lemma rounded_double x a : double x -> stands_for x a -> rounded a a.
Proof.
  intros D H. destruct (stands_inv _ _ H) as [(s & -> & ->)|(s & m & e & -> & ->)]; [left; split; reflexivity|].
  destruct (double_finite _ _ _ D) as (E & G & F). destruct (digits_R m) as [A B]. pose proof (p2_pos e).
  assert (0 <= IZR (Zpos m) * p2 e) by (apply Rmult_le_pos; [apply IZR_le; lia|lra]).
  right. exists (Zpos (digits2_pos m) + e)%Z, (if s then - Zpos m else Zpos m)%Z. rewrite signed_abs by assumption. split.
  { replace (Zpos (digits2_pos m) + e - 1)%Z with (Zpos (digits2_pos m) - 1 + e)%Z by lia. rewrite !p2_add. split; nra. }
  replace (Z.max (Zpos (digits2_pos m) + e - 53) (-1074)) with e by lia. cbv zeta.
  assert (V : signed s (IZR (Zpos m) * p2 e) / p2 e = IZR (if s then - Zpos m else Zpos m)).
  { destruct s; cbn [signed]; rewrite ?opp_IZR; field; lra. }
  rewrite V. split; [|rewrite <- V; field; lra]. left. rewrite Rminus_diag_eq by reflexivity. rewrite Rabs_R0. lra.
Qed.

(** multiplication *)
Lemma digits_mul a b : (Zpos (digits2_pos a) + Zpos (digits2_pos b) - 1 <= Zpos (digits2_pos (a * b)))%Z.
Proof.
  destruct (digits_bounds a) as [A _]. destruct (digits_bounds b) as [B _].
  assert (H : (2 ^ (Zpos (digits2_pos a) + Zpos (digits2_pos b) - 2) <= Zpos (a * b))%Z).
  { replace (Zpos (digits2_pos a) + Zpos (digits2_pos b) - 2)%Z with ((Zpos (digits2_pos a) - 1) + (Zpos (digits2_pos b) - 1))%Z by lia.
    rewrite Z.pow_add_r by lia. rewrite Pos2Z.inj_mul. apply Z.mul_le_mono_nonneg; try assumption; apply Z.pow_nonneg; lia. }
  apply digits_ge in H; lia.
Qed.
Lemma mul_ok x y a b : double x -> double y -> stands_for x a -> stands_for y b -> Rabs (a * b) < p2 1023 ->
  double (SFmul 53 1024 x y) /\ exists r, stands_for (SFmul 53 1024 x y) r /\ rounded (a * b) r.
Proof.
  intros Dx Dy Hx Hy Ov.
  destruct (stands_inv _ _ Hx) as [(s & -> & ->)|(s & m & e & -> & ->)]; destruct (stands_inv _ _ Hy) as [(s' & -> & ->)|(s' & m' & e' & -> & ->)];
    cbn [SFmul]; try (split; [reflexivity|]; exists 0; split; [constructor|left; split; [ring|reflexivity]]).
  destruct (double_finite _ _ _ Dx) as (E & _ & F). destruct (double_finite _ _ _ Dy) as (E' & _ & F'). pose proof (digits_mul m m') as L.
  assert (V : signed s (IZR (Zpos m) * p2 e) * signed s' (IZR (Zpos m') * p2 e') = signed (xorb s s') (IZR (Zpos (m * m')) * p2 (e + e'))).
  { rewrite p2_add, Pos2Z.inj_mul, mult_IZR. destruct s, s'; cbn; ring. }
  rewrite V in *. rewrite signed_abs in Ov by (apply Rmult_le_pos; [apply IZR_le; lia|left; apply p2_pos]).
  apply round_signed; [reflexivity| |exact Ov].
  unfold fexp, emin. destruct F as [F|F], F' as [F'|F']; lia.
Qed.

(** sums *)
Lemma shl_value m e e' : (e' <= e)%Z -> IZR (Zpos (fst (shl_align m e e'))) * p2 e' = IZR (Zpos m) * p2 e /\ snd (shl_align m e e') = e'.
Proof.
  intros H. unfold shl_align. destruct (e' - e)%Z as [|p|p] eqn:E; [|lia|].
  - assert (e' = e) by lia. subst. split; reflexivity.
  - cbn [fst snd]. split; [|reflexivity]. rewrite shift_pos_correct. change (Z.pow_pos 2 p) with (2 ^ Zpos p)%Z. rewrite Z.mul_comm.
    rewrite mult_IZR, <- p2_Z by lia. rewrite Rmult_assoc, <- p2_add. do 2 f_equal. lia.
Qed.

Lemma binary_round_ok s m e : (-1074 <= e)%Z -> IZR (Zpos m) * p2 e < p2 1023 ->
  double (binary_round 53 1024 s m e) /\ exists r, stands_for (binary_round 53 1024 s m e) r /\ rounded (signed s (IZR (Zpos m) * p2 e)) r.
Proof.
  intros E Ov. unfold binary_round. set (d := Zpos (digits2_pos m)). set (f := fexp64 (d + e)).
  destruct (Z_le_gt_dec f e) as [L|L].
  - destruct (shl_value m e f L) as [V W]. destruct (shl_align m e f) as [m' e'] eqn:A. cbn [fst snd] in V, W. subst e'.
    rewrite <- V in *. apply round_signed; [reflexivity| |exact Ov].
    assert (D : (Zpos (digits2_pos m') + f = d + e)%Z).
    { assert (Zpos (digits2_pos m') = d + e - f)%Z; [|lia]. apply digits_unique.
      assert (M : (Zpos m' = Zpos m * 2 ^ (e - f))%Z).
      { apply eq_IZR. rewrite mult_IZR, <- p2_Z by lia. rewrite p2_sub. pose proof (p2_pos f). apply (Rmult_eq_reg_r (p2 f)); [|lra]. rewrite V. field. lra. }
      destruct (digits_bounds m) as [B C]. fold d in B, C. rewrite M.
      replace (d + e - f - 1)%Z with (d - 1 + (e - f))%Z by lia. replace (d + e - f)%Z with (d + (e - f))%Z by lia.
      assert (0 < d)%Z by (unfold d; lia). rewrite !Z.pow_add_r by lia. assert (0 < 2 ^ (e - f))%Z by (apply Z.pow_pos_nonneg; lia).
      split; [apply Z.mul_le_mono_nonneg_r; lia|apply Z.mul_lt_mono_pos_r; lia]. }
    rewrite D. fold f. lia.
  - assert (A : shl_align m e f = (m, e)). { unfold shl_align. destruct (f - e)%Z eqn:K; [reflexivity|reflexivity|lia]. }
    rewrite A. apply round_signed; [reflexivity|fold d f; lia|exact Ov].
Qed.
Lemma normalize_ok m e : (-1074 <= e)%Z -> Rabs (IZR m * p2 e) < p2 1023 ->
  double (binary_normalize 53 1024 m e false) /\
  exists r, stands_for (binary_normalize 53 1024 m e false) r /\ rounded (IZR m * p2 e) r /\ Rabs (r - IZR m * p2 e) <= p2 (-53) * Rabs (IZR m * p2 e).
Proof.
  intros E Ov. assert (K : double (binary_normalize 53 1024 m e false) /\ exists r, stands_for (binary_normalize 53 1024 m e false) r /\ rounded (IZR m * p2 e) r).
  { destruct m as [|m|m]; cbn [binary_normalize].
    - split; [reflexivity|]. exists 0. split; [constructor|]. left. split; [ring|reflexivity].
    - rewrite Rabs_right in Ov by (apply Rle_ge, Rmult_le_pos; [apply IZR_le; lia|left; apply p2_pos]). apply (binary_round_ok false m e E Ov).
    - replace (IZR (Zneg m) * p2 e) with (signed true (IZR (Zpos m) * p2 e)) in * by (cbn [signed]; rewrite <- Pos2Z.opp_pos, opp_IZR; ring).
      rewrite signed_abs in Ov by (apply Rmult_le_pos; [apply IZR_le; lia|left; apply p2_pos]). apply (binary_round_ok true m e E Ov). }
  destruct K as (D & r & S1 & R1). split; [exact D|]. exists r. split; [exact S1|]. split; [exact R1|]. apply rounded_multiple_error; assumption.
Qed.
Lemma aligned s m e ez : (ez <= e)%Z -> IZR (cond_Zopp s (Zpos (fst (shl_align m e ez)))) * p2 ez = signed s (IZR (Zpos m) * p2 e).
Proof. intros H. destruct (shl_value m e ez H) as [V _]. destruct s; cbn [cond_Zopp signed]; rewrite ?opp_IZR; rewrite <- V; ring. Qed.
Lemma self_error v : Rabs (v - v) <= p2 (-53) * Rabs v.
Proof. rewrite Rminus_diag_eq by reflexivity. rewrite Rabs_R0. pose proof (p2_pos (-53)). pose proof (Rabs_pos v). nra. Qed.
Lemma add_ok x y a b : double x -> double y -> stands_for x a -> stands_for y b -> Rabs (a + b) < p2 1023 ->
  double (SFadd 53 1024 x y) /\ exists r, stands_for (SFadd 53 1024 x y) r /\ rounded (a + b) r /\ Rabs (r - (a + b)) <= p2 (-53) * Rabs (a + b).
Proof.
  intros Dx Dy Hx Hy Ov.
  destruct (stands_inv _ _ Hx) as [(s & -> & ->)|(s & m & e & -> & ->)]; destruct (stands_inv _ _ Hy) as [(s' & -> & ->)|(s' & m' & e' & -> & ->)]; cbn [SFadd].
  - split; [destruct s, s'; reflexivity|]. exists 0. rewrite Rplus_0_l. split; [destruct s, s'; constructor|]. split; [left; split; reflexivity|apply self_error].
  - split; [exact Dy|]. rewrite Rplus_0_l. eexists. split; [exact Hy|]. split; [apply (rounded_double _ _ Dy Hy)|apply self_error].
  - split; [exact Dx|]. rewrite Rplus_0_r. eexists. split; [exact Hx|]. split; [apply (rounded_double _ _ Dx Hx)|apply self_error].
  - destruct (double_finite _ _ _ Dx) as (E & _). destruct (double_finite _ _ _ Dy) as (E' & _).
    rewrite <- (aligned s m e (Z.min e e')) in * by lia. rewrite <- (aligned s' m' e' (Z.min e e')) in * by lia.
    rewrite <- Rmult_plus_distr_r, <- plus_IZR in *. apply normalize_ok; [lia|exact Ov].
Qed.
Lemma sub_ok x y a b : double x -> double y -> stands_for x a -> stands_for y b -> Rabs (a - b) < p2 1023 ->
  double (SFsub 53 1024 x y) /\ exists r, stands_for (SFsub 53 1024 x y) r /\ rounded (a - b) r /\ Rabs (r - (a - b)) <= p2 (-53) * Rabs (a - b).
Proof.
  intros Dx Dy Hx Hy Ov.
  destruct (stands_inv _ _ Hx) as [(s & -> & ->)|(s & m & e & -> & ->)]; destruct (stands_inv _ _ Hy) as [(s' & -> & ->)|(s' & m' & e' & -> & ->)]; cbn [SFsub].
  - split; [destruct s, s'; reflexivity|]. exists 0. rewrite Rminus_0_r. split; [destruct s, s'; constructor|]. split; [left; split; reflexivity|apply self_error].
  - assert (Dn : double (S754_finite (negb s') m' e')) by exact Dy.
    assert (V : 0 - signed s' (IZR (Zpos m') * p2 e') = signed (negb s') (IZR (Zpos m') * p2 e')) by (destruct s'; cbn; ring).
    rewrite V. split; [exact Dn|]. eexists. split; [apply stands_finite|]. split; [apply (rounded_double _ _ Dn), stands_finite|apply self_error].
  - split; [exact Dx|]. rewrite Rminus_0_r. eexists. split; [exact Hx|]. split; [apply (rounded_double _ _ Dx Hx)|apply self_error].
  - destruct (double_finite _ _ _ Dx) as (E & _). destruct (double_finite _ _ _ Dy) as (E' & _).
    rewrite <- (aligned s m e (Z.min e e')) in * by lia. rewrite <- (aligned s' m' e' (Z.min e e')) in * by lia.
    rewrite <- Rmult_minus_distr_r, <- minus_IZR in *. apply normalize_ok; [lia|exact Ov].
Qed.

(** quotients *)
Lemma new_location_ok q r m : (0 < m)%Z -> (0 <= r < m)%Z -> located (IZR q + IZR r / IZR m) q (new_location m r).
Proof.
  intros M [R0 R1]. assert (M' : 0 < IZR m) by (apply IZR_lt; exact M). apply IZR_le in R0 as R0'. apply IZR_lt in R1 as R1'.
  assert (Zt : IZR r / IZR m * IZR m = IZR r) by (field; lra). set (t := IZR r / IZR m) in *.
  assert (N : new_location m r = if Z.even m then new_location_even m r else new_location_odd m r) by (unfold new_location; destruct (Z.even m); reflexivity).
  rewrite N. clear N. unfold new_location_even, new_location_odd. destruct (Zeq_bool r 0) eqn:Ez.
  { apply Zeq_bool_eq in Ez. subst r. assert (t = 0) by (unfold t; field; lra). destruct (Z.even m); cbn [located]; lra. }
  apply Zeq_bool_neq in Ez. assert (0 < r)%Z as R2 by lia. apply IZR_lt in R2.
  assert (T0 : 0 < t) by (apply (Rmult_lt_reg_r (IZR m)); lra). assert (T1 : t < 1) by (apply (Rmult_lt_reg_r (IZR m)); lra).
  destruct (Z.even m) eqn:Ev.
  - destruct (Z.compare_spec (2 * r) m) as [C|C|C]; cbn [located].
    + apply (f_equal IZR) in C. rewrite mult_IZR in C. assert (t = 1/2) by (apply (Rmult_eq_reg_r (IZR m)); lra). lra.
    + apply IZR_lt in C. rewrite mult_IZR in C. assert (t < 1/2) by (apply (Rmult_lt_reg_r (IZR m)); lra). lra.
    + apply IZR_lt in C. rewrite mult_IZR in C. assert (1/2 < t) by (apply (Rmult_lt_reg_r (IZR m)); lra). lra.
  - assert (N : (2 * r <> m)%Z). { intros C. rewrite <- C, Z.even_mul in Ev. discriminate. }
    destruct (Z.compare_spec (2 * r + 1) m) as [C|C|C]; cbn [located].
    + assert (C' : (2 * r < m)%Z) by lia. apply IZR_lt in C'. rewrite mult_IZR in C'. assert (t < 1/2) by (apply (Rmult_lt_reg_r (IZR m)); lra). lra.
    + assert (C' : (2 * r < m)%Z) by lia. apply IZR_lt in C'. rewrite mult_IZR in C'. assert (t < 1/2) by (apply (Rmult_lt_reg_r (IZR m)); lra). lra.
    + assert (C' : (m < 2 * r)%Z) by lia. apply IZR_lt in C'. rewrite mult_IZR in C'. assert (1/2 < t) by (apply (Rmult_lt_reg_r (IZR m)); lra). lra.
Qed.
Lemma div_core m1 e1 m2 e2 : let v := IZR (Zpos m1) * p2 e1 / (IZR (Zpos m2) * p2 e2) in p2 (-1022) <= v ->
  exists q e l x, SFdiv_core_binary 53 1024 (Zpos m1) e1 (Zpos m2) e2 = (Zpos q, e, l) /\ located x (Zpos q) l /\
    v = x * p2 e /\ (e <= fexp64 (Zpos (digits2_pos q) + e))%Z.
Proof.
  intros v Lv. unfold SFdiv_core_binary. cbn [Zdigits2]. set (d1 := Zpos (digits2_pos m1)). set (d2 := Zpos (digits2_pos m2)).
  set (D := (d1 + e1 - (d2 + e2))%Z). set (e' := Z.min (fexp64 D) (e1 - e2)). set (s := (e1 - e2 - e')%Z).
  assert (Sp : (0 <= s)%Z) by (unfold s, e'; lia).
  assert (M : match s with Z0 => Zpos m1 | Zpos _ => Z.shiftl (Zpos m1) s | Zneg _ => 0%Z end = (Zpos m1 * 2 ^ s)%Z).
  { destruct s as [|p|p]; [lia|apply Z.shiftl_mul_pow2; lia|lia]. }
  rewrite M. set (m' := (Zpos m1 * 2 ^ s)%Z).
  assert (Mv : IZR m' / IZR (Zpos m2) * p2 e' = v).
  { unfold v, m'. rewrite mult_IZR, <- p2_Z by exact Sp. unfold s. rewrite !p2_sub. pose proof (p2_pos e2). pose proof (p2_pos e'). assert (0 < IZR (Zpos m2)) by (apply IZR_lt; lia). field. lra. }
  pose proof (Z_div_mod m' (Zpos m2) ltac:(lia)) as Q. destruct (Z.div_eucl m' (Zpos m2)) as [q r]. destruct Q as [Q1 Q2].
  assert (P2 : 0 < IZR (Zpos m2)) by (apply IZR_lt; lia).
  assert (X : IZR m' / IZR (Zpos m2) = IZR q + IZR r / IZR (Zpos m2)).
  { rewrite Q1, plus_IZR, mult_IZR. field. lra. }
  assert (L := new_location_ok q r (Zpos m2) ltac:(lia) Q2). rewrite <- X in L.
  destruct (digits_R m1) as [A1 B1]. destruct (digits_R m2) as [A2 B2]. fold d1 in A1, B1. fold d2 in A2, B2.
  assert (P1 : 0 < IZR (Zpos m1)) by (apply IZR_lt; lia). pose proof (p2_pos e1) as Pe1. pose proof (p2_pos e2) as Pe2.
  (* bounds of the quotient *)
  assert (Vu : v < p2 (D + 1)).
  { unfold v. apply (Rmult_lt_reg_r (IZR (Zpos m2) * p2 e2)); [apply Rmult_lt_0_compat; assumption|].
    replace (IZR (Zpos m1) * p2 e1 / (IZR (Zpos m2) * p2 e2) * (IZR (Zpos m2) * p2 e2)) with (IZR (Zpos m1) * p2 e1) by (field; lra).
    apply Rlt_le_trans with (p2 d1 * p2 e1); [apply Rmult_lt_compat_r; assumption|].
    apply Rle_trans with (p2 (D + 1) * (p2 (d2 - 1) * p2 e2)); [|apply Rmult_le_compat_l; [left; apply p2_pos|apply Rmult_le_compat_r; lra]].
    rewrite <- !p2_add. apply p2_le. unfold D. lia. }
  assert (Vl : p2 (D - 1) < v).
  { unfold v. apply (Rmult_lt_reg_r (IZR (Zpos m2) * p2 e2)); [apply Rmult_lt_0_compat; assumption|].
    replace (IZR (Zpos m1) * p2 e1 / (IZR (Zpos m2) * p2 e2) * (IZR (Zpos m2) * p2 e2)) with (IZR (Zpos m1) * p2 e1) by (field; lra).
    apply Rlt_le_trans with (p2 (D - 1) * (p2 d2 * p2 e2)).
    { apply Rmult_lt_compat_l; [apply p2_pos|]. apply Rmult_lt_compat_r; assumption. }
    apply Rle_trans with (p2 (d1 - 1) * p2 e1); [|apply Rmult_le_compat_r; lra]. rewrite <- !p2_add. apply p2_le. unfold D. lia. }
  assert (Dl : (-1022 < D + 1)%Z) by (apply p2_lt_inv; lra).
  assert (K : (0 <= D - 1 - e')%Z) by (unfold e', fexp, emin; lia).
  assert (Ql : (2 ^ (D - 1 - e') <= q)%Z).
  { apply located_floor in L. assert (p2 (D - 1 - e') < IZR q + 1).
    { apply Rlt_trans with (IZR m' / IZR (Zpos m2)); [|lra]. rewrite p2_sub. pose proof (p2_pos e'). apply (Rmult_lt_reg_r (p2 e')); [lra|]. rewrite Mv. replace (p2 (D - 1) / p2 e' * p2 e') with (p2 (D - 1)) by (field; lra). exact Vl. }
    rewrite p2_Z in H by exact K. rewrite <- plus_IZR in H. apply lt_IZR in H. lia. }
  assert (Qp : (0 < q)%Z) by (assert (0 < 2 ^ (D - 1 - e'))%Z by (apply Z.pow_pos_nonneg; lia); lia).
  destruct q as [|q|q]; try lia.
  exists q, e', (new_location (Zpos m2) r), (IZR m' / IZR (Zpos m2)). split; [reflexivity|]. split; [exact L|]. split; [symmetry; exact Mv|].
  apply digits_ge in Ql; [|exact K]. unfold e', fexp, emin in *. lia.
Qed.
Lemma div_ok x y a b : double x -> double y -> stands_for x a -> stands_for y b -> b <> 0 -> a = 0 \/ p2 (-1022) <= Rabs (a / b) -> Rabs (a / b) < p2 1023 ->
  double (SFdiv 53 1024 x y) /\ exists r, stands_for (SFdiv 53 1024 x y) r /\ rounded (a / b) r.
Proof.
  intros Dx Dy Hx Hy Nz Lo Ov.
  destruct (stands_inv _ _ Hy) as [(s' & -> & ->)|(s' & m' & e' & -> & ->)]; [lra|].
  destruct (stands_inv _ _ Hx) as [(s & -> & ->)|(s & m & e & -> & ->)]; cbn [SFdiv].
  { split; [reflexivity|]. exists 0. split; [constructor|]. left. split; [field; exact Nz|reflexivity]. }
  assert (P : 0 < IZR (Zpos m) * p2 e) by (apply Rmult_lt_0_compat; [apply IZR_lt; lia|apply p2_pos]).
  assert (P' : 0 < IZR (Zpos m') * p2 e') by (apply Rmult_lt_0_compat; [apply IZR_lt; lia|apply p2_pos]).
  set (v := IZR (Zpos m) * p2 e / (IZR (Zpos m') * p2 e')).
  assert (Pv : 0 < v) by (apply Rdiv_lt_0_compat; assumption).
  assert (V : signed s (IZR (Zpos m) * p2 e) / signed s' (IZR (Zpos m') * p2 e') = signed (xorb s s') v).
  { unfold v. pose proof (p2_pos e'). assert (0 < IZR (Zpos m')) by (apply IZR_lt; lia). destruct s, s'; cbn [signed xorb]; field; lra. }
  rewrite V in Lo, Ov |- *. rewrite signed_abs in Lo, Ov by lra.
  destruct Lo as [Lo|Lo]; [destruct s; cbn [signed] in Lo; lra|].
  destruct (div_core m e m' e' Lo) as (q & ez & l & t & -> & L & E & F). fold v in E. rewrite E in Ov |- *.
  apply round_signed; assumption.
Qed.
