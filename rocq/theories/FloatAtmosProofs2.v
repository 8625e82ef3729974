(** Altitudes, the gas law, the speed of sound and the order of temperatures in
    double-precision arithmetic. *)
From Coq Require Import Reals ZArith List Lra Lia Bool.
From Coq.Floats Require Import SpecFloat.
From Verif Require Import Base BaseFacts AtmosSpec FloatSpec FloatModel FloatArith FloatProofs FloatProofs2 FloatProofs3 FloatProofs4 FloatAtmosModel FloatAtmosProofs.
Open Scope R_scope.

Lemma tracks_exact x a n : double x -> stands_for x a -> rng n a -> tracks x 0 n a.
Proof. intros D H Rg. split; [split; [exact D|]|exact Rg]. exists a. split; [exact H|]. exists 1. split; [apply factor_0|ring]. Qed.
Lemma tracks_round x a t n : double x -> stands_for x a -> Rabs (a - t) <= u * Rabs t -> rng n t -> tracks x 1 n t.
Proof. intros D H E Rg. split; [split; [exact D|]|exact Rg]. exists a. split; [exact H|]. apply error_within, E. Qed.
Lemma earth_exact : double fl_earth /\ stands_for fl_earth 6356766. Proof. exact (int_exact 6356766 ltac:(lia)). Qed.
Lemma rng_between n t lo : p2 (- n) <= lo -> lo <= t -> t <= p2 n -> rng n t.
Proof. intros A B C. right. pose proof (p2_pos (- n)). rewrite Rabs_right by lra. lra. Qed.
Lemma p2_23 : p2 23 = 8388608. Proof. rewrite p2_Z by lia. reflexivity. Qed.
Lemma p2_m23 : p2 (- (23)) <= 1. Proof. rewrite <- p2_0. apply p2_le. lia. Qed.
Lemma rng_earth t : 6000000 <= t <= 7000000 -> rng 23 t.
Proof. intros H. apply (rng_between 23 t 6000000); [pose proof p2_m23; lra|lra|rewrite p2_23; lra]. Qed.
Lemma tracks_earth : tracks fl_earth 0 23 6356766.
Proof. destruct earth_exact as [D S]. apply tracks_exact; [exact D|exact S|]. apply rng_earth. lra. Qed.
Lemma tracks_sum x h : double x -> stands_for x h -> Rabs h <= 110000 -> tracks (fadd fl_earth x) 1 23 (6356766 + h) /\ tracks (fsub fl_earth x) 1 23 (6356766 - h).
Proof.
  intros D H B. apply abs_le_inv in B. destruct earth_exact as [De Se].
  assert (P : 7000000 < p2 1023). { apply Rlt_le_trans with (p2 23); [rewrite p2_23; lra|apply p2_le; lia]. }
  destruct (add_ok _ _ _ _ De D Se H) as (D1 & r & H1 & _ & E1). { rewrite Rabs_right by lra. lra. }
  destruct (sub_ok _ _ _ _ De D Se H) as (D2 & s & H2 & _ & E2). { rewrite Rabs_right by lra. lra. }
  split; [apply (tracks_round _ r)|apply (tracks_round _ s)]; try assumption; apply rng_earth; lra.
Qed.
Lemma geop_tracks x h n : double x -> stands_for x h -> rng n h -> (n <= 960)%Z -> Rabs h <= 110000 ->
  tracks (fl_geom2geop x) 3 (23 + n + 23) (6356766 * h / (6356766 + h)) /\ tracks (fl_geop2geom x) 3 (23 + n + 23) (6356766 * h / (6356766 - h)).
Proof.
  intros D H Rg N B. destruct (tracks_sum x h D H B) as [T1 T2]. apply abs_le_inv in B.
  assert (T := tracks_mul _ _ _ _ _ _ _ _ tracks_earth (tracks_exact x h n D H Rg) ltac:(lia) ltac:(lia)).
  split; [refine (tracks_div _ _ _ _ _ _ _ _ T T1 _ _ _)|refine (tracks_div _ _ _ _ _ _ _ _ T T2 _ _ _)]; first [lra|lia].
Qed.
Definition altitude (F : spec_float -> spec_float) (f : R -> R) (k : R) : Prop :=
  forall x h, double x -> stands_for x h -> in_range h -> Rabs h <= 100000 ->
  exists r, double (F x) /\ stands_for (F x) r /\ Rabs (r - f h) <= k * powerRZ 2 (-53) * Rabs (f h).
Lemma to_geop : altitude fl_geom2geop (fun h => 6356766 * h / (6356766 + h)) 3.003.
Proof.
  intros x h D H I B. destruct (geop_tracks x h 800 D H I ltac:(lia) ltac:(lra)) as [T _]. destruct (tracks_error _ 3 _ _ ltac:(lia) T) as (D' & r & Hr & E).
  exists r. split; [exact D'|]. split; [exact Hr|]. change (powerRZ 2 (-53)) with u. cbn [INR] in E. lra.
Qed.
Lemma to_geom : altitude fl_geop2geom (fun h => 6356766 * h / (6356766 - h)) 3.003.
Proof.
  intros x h D H I B. destruct (geop_tracks x h 800 D H I ltac:(lia) ltac:(lra)) as [_ T]. destruct (tracks_error _ 3 _ _ ltac:(lia) T) as (D' & r & Hr & E).
  exists r. split; [exact D'|]. split; [exact Hr|]. change (powerRZ 2 (-53)) with u. cbn [INR] in E. lra.
Qed.
Lemma rng_factor n t g k : (k <= 10)%nat -> factor k g -> rng n t -> rng (n + 1) (t * g).
Proof.
  intros K F [->|[A B]]; [left; ring|right]. assert (G := factor_half k g K F). rewrite Rabs_mult, (Rabs_right g) by lra. replace (- (n + 1))%Z with (- n - 1)%Z by lia. rewrite p2_sub, p2_add, p2_1.
  pose proof (p2_pos (- n)). split; [apply Rle_trans with (Rabs t * (1/2)); [lra|apply Rmult_le_compat_l; lra]|apply Rmult_le_compat; lra].
Qed.
(** two conversions in a row: s is the sign of the first correction *)
Lemma back_error s h a r : Rabs s = 1 -> Rabs h <= 100000 -> within 3 a (6356766 * h / (6356766 + s * h)) -> within 3 r (6356766 * a / (6356766 - s * a)) ->
  Rabs (r - h) <= 6.1 * u * Rabs h.
Proof.
  intros Hs B (g & F & Ea) (f & F' & Er). pose proof u_pos as [U1 U2].
  assert (E1 := factor_error 3 g ltac:(lia) F). assert (E2 := factor_error 3 f ltac:(lia) F'). cbn [INR] in E1, E2.
  assert (B2 : Rabs (s * h) <= 100000) by (rewrite Rabs_mult, Hs; lra). apply abs_le_inv in B2.
  set (K := 6356766) in *. set (q := K / (K + s * h)).
  assert (Q : 0.98 <= q <= 1.016). { unfold q, K. split; [apply (Rmult_le_reg_r (6356766 + s * h)); [lra|]|apply (Rmult_le_reg_r (6356766 + s * h)); [lra|]]; replace (6356766 / (6356766 + s * h) * (6356766 + s * h)) with 6356766 by (field; lra); lra. }
  assert (Ea' : a = q * h * g) by (rewrite Ea; unfold q; field; unfold K; lra).
  assert (G : Rabs (g - 1) <= 0.00000000000001) by lra. apply abs_le_inv in G.
  set (w := K - s * a).
  assert (Sa : s * a = (s * h) * (q * g)) by (rewrite Ea'; ring).
  assert (QG : 0.97 <= q * g <= 1.017) by nra.
  assert (W : 6254000 <= w). { unfold w. rewrite Sa. unfold K. nra. }
  (* the exact return trip *)
  assert (X : K * a / w = h * (1 + K * (g - 1) / w)).
  { assert (Z1 : w = K - q * (s * h) * g) by (unfold w; rewrite Sa; ring). assert (Z2 : q * (K + s * h) = K) by (unfold q; field; unfold K; lra).
    apply (Rmult_eq_reg_r w); [|lra]. replace (K * a / w * w) with (K * a) by (field; lra). replace (h * (1 + K * (g - 1) / w) * w) with (h * (w + K * (g - 1))) by (field; lra).
    rewrite Ea'. rewrite Z1. replace (K - q * (s * h) * g + K * (g - 1)) with (g * (K - q * (s * h))) by ring. replace (K - q * (s * h)) with (q * K) by lra. ring. }
  set (d := K * (g - 1) / w) in *.
  assert (Dd : Rabs d <= 3.06 * u).
  { unfold d. replace (K * (g - 1) / w) with ((g - 1) * (K / w)) by (field; lra). rewrite Rabs_mult.
    assert (V : 0 <= K / w <= 1.0165). { split; [apply Rmult_le_pos; [unfold K; lra|left; apply Rinv_0_lt_compat; lra]|]. apply (Rmult_le_reg_r w); [lra|]. replace (K / w * w) with K by (field; lra). unfold K. lra. }
    rewrite (Rabs_right (K / w)) by lra. apply Rle_trans with (3 * u * 1.001 * 1.0165); [|lra]. apply Rmult_le_compat; [apply Rabs_pos|lra|lra|lra]. }
  replace (r - h) with (h * (f * (1 + d) - 1)) by (rewrite Er; fold w; rewrite X; ring). rewrite Rabs_mult.
  assert (T : Rabs (f * (1 + d) - 1) <= 6.1 * u).
  { replace (f * (1 + d) - 1) with ((f - 1) + f * d) by ring. apply Rle_trans with (1 := Rabs_triang _ _). rewrite Rabs_mult. apply abs_le_inv in E2. rewrite (Rabs_right f) by lra.
    assert (f * Rabs d <= 1.001 * (3.06 * u)) by (apply Rmult_le_compat; [lra|apply Rabs_pos|lra|exact Dd]). assert (Rabs (f - 1) <= 3 * u * 1.001) by (apply Rabs_le; lra). lra. }
  pose proof (Rabs_pos h). assert (Rabs h * Rabs (f * (1 + d) - 1) <= Rabs h * (6.1 * u)) by (apply Rmult_le_compat_l; lra). lra.
Qed.
Definition returns (F G : spec_float -> spec_float) : Prop :=
  forall x h, double x -> stands_for x h -> in_range h -> Rabs h <= 100000 ->
  exists r, double (G (F x)) /\ stands_for (G (F x)) r /\ Rabs (r - h) <= 6.1 * powerRZ 2 (-53) * Rabs h.
Lemma quotient_bound s h : Rabs s = 1 -> Rabs h <= 100000 -> Rabs (6356766 * h / (6356766 + s * h)) <= 101600.
Proof.
  intros Hs B. assert (B2 : Rabs (s * h) <= 100000) by (rewrite Rabs_mult, Hs; lra). apply abs_le_inv in B2.
  replace (6356766 * h / (6356766 + s * h)) with (h * (6356766 / (6356766 + s * h))) by (field; lra). rewrite Rabs_mult.
  assert (Q : 0 <= 6356766 / (6356766 + s * h) <= 1.01599). { split; [apply Rmult_le_pos; [lra|left; apply Rinv_0_lt_compat; lra]|]. apply (Rmult_le_reg_r (6356766 + s * h)); [lra|]. replace (6356766 / (6356766 + s * h) * (6356766 + s * h)) with 6356766 by (field; lra). lra. }
  rewrite (Rabs_right (6356766 / _)) by lra. apply Rle_trans with (100000 * 1.01599); [|lra]. apply Rmult_le_compat; try lra. apply Rabs_pos.
Qed.
Lemma altitudes_return : returns fl_geom2geop fl_geop2geom /\ returns fl_geop2geom fl_geom2geop.
Proof.
  split; intros x h D H I B; pose proof (geop_tracks x h 800 D H I ltac:(lia) ltac:(lra)) as T.
  - destruct T as [[(D1 & a & Ha & W) Rg] _]. assert (Hs : Rabs 1 = 1) by apply Rabs_R1.
    assert (Ba : Rabs a <= 110000). { assert (E := within_error 3 _ _ ltac:(lia) W). pose proof (quotient_bound 1 h Hs B) as Qb. rewrite Rmult_1_l in Qb. set (t := 6356766 * h / (6356766 + h)) in *. pose proof u_pos. cbn [INR] in E. replace a with (t + (a - t)) by ring. apply Rle_trans with (1 := Rabs_triang _ _). assert (u * Rabs t <= 1/1000000000000000 * Rabs t) by (apply Rmult_le_compat_r; [apply Rabs_pos|lra]). lra. }
    assert (Ra : rng (23 + 800 + 23 + 1) a). { destruct W as (g & F & ->). exact (rng_factor _ _ _ 3 ltac:(lia) F Rg). }
    destruct (geop_tracks _ a _ D1 Ha Ra ltac:(lia) Ba) as [_ [(D2 & r & Hr & W2) _]]. exists r. split; [exact D2|]. split; [exact Hr|].
    apply (back_error 1 h a r Hs B); rewrite Rmult_1_l; assumption.
  - destruct T as [_ [(D1 & a & Ha & W) Rg]]. assert (Hs : Rabs (-1) = 1) by (rewrite Rabs_left; lra).
    assert (Ba : Rabs a <= 110000). { assert (E := within_error 3 _ _ ltac:(lia) W). pose proof (quotient_bound (-1) h Hs B) as Qb. replace (6356766 + -1 * h) with (6356766 - h) in Qb by ring. set (t := 6356766 * h / (6356766 - h)) in *. pose proof u_pos. cbn [INR] in E. replace a with (t + (a - t)) by ring. apply Rle_trans with (1 := Rabs_triang _ _). assert (u * Rabs t <= 1/1000000000000000 * Rabs t) by (apply Rmult_le_compat_r; [apply Rabs_pos|lra]). lra. }
    assert (Ra : rng (23 + 800 + 23 + 1) a). { destruct W as (g & F & ->). exact (rng_factor _ _ _ 3 ltac:(lia) F Rg). }
    destruct (geop_tracks _ a _ D1 Ha Ra ltac:(lia) Ba) as [[(D2 & r & Hr & W2) _] _]. exists r. split; [exact D2|]. split; [exact Hr|].
    apply (back_error (-1) h a r Hs B); [replace (6356766 + -1 * h) with (6356766 - h) by ring|replace (6356766 - -1 * a) with (6356766 + a) by ring]; assumption.
Qed.
Lemma four_metres : ~ undoes fl_geom2geop fl_geop2geom /\ ~ undoes fl_geop2geom fl_geom2geop.
Proof. split; [apply (spoils_ok _ _ (of_int 4))|apply (spoils_ok _ _ (of_int 4))]; vm_compute; reflexivity. Qed.

(** order *)
Definition at_most (x y : spec_float) : Prop := exists a b, stands_for x a /\ stands_for y b /\ a <= b.
Lemma at_most_trans x y z : at_most x y -> at_most y z -> at_most x z.
Proof. intros (a & b & Ha & Hb & L) (b' & c & Hb' & Hc & L'). rewrite (stands_unique _ _ _ Hb' Hb) in L'. exists a, c. split; [exact Ha|]. split; [exact Hc|lra]. Qed.
Lemma add_order x y z a b c : double x -> double y -> double z -> stands_for x a -> stands_for y b -> stands_for z c -> a <= b -> Rabs (c + a) <= 1000000 -> Rabs (c + b) <= 1000000 ->
  at_most (fadd z x) (fadd z y) /\ at_most (fadd x z) (fadd y z).
Proof.
  intros Dx Dy Dz Hx Hy Hz L B1 B2. assert (P : 1000000 < p2 1023). { apply Rlt_le_trans with (p2 23); [rewrite p2_23; lra|apply p2_le; lia]. }
  destruct (add_ok z x c a Dz Dx Hz Hx ltac:(lra)) as (_ & r & Hr & Q & _). destruct (add_ok z y c b Dz Dy Hz Hy ltac:(lra)) as (_ & s & Hs & Q' & _).
  destruct (add_ok x z a c Dx Dz Hx Hz) as (_ & r2 & Hr2 & Q2 & _); [rewrite Rplus_comm; lra|]. destruct (add_ok y z b c Dy Dz Hy Hz) as (_ & s2 & Hs2 & Q2' & _); [rewrite Rplus_comm; lra|].
  split; [exists r, s|exists r2, s2]; (split; [assumption|]); (split; [assumption|]); [apply (rounded_mono (c + a) (c + b)); [lra| |]|apply (rounded_mono (a + c) (b + c)); [lra| |]]; assumption.
Qed.
Lemma mul_order x y z a b c : double x -> double y -> double z -> stands_for x a -> stands_for y b -> stands_for z c -> c * a <= c * b -> Rabs (c * a) <= 1000 -> Rabs (c * b) <= 1000 ->
  exists r s, double (fmul z x) /\ double (fmul z y) /\ stands_for (fmul z x) r /\ stands_for (fmul z y) s /\ r <= s /\ Rabs r <= 2000 /\ Rabs s <= 2000.
Proof.
  intros Dx Dy Dz Hx Hy Hz L B1 B2. assert (P : 1000000 < p2 1023). { apply Rlt_le_trans with (p2 23); [rewrite p2_23; lra|apply p2_le; lia]. }
  destruct (mul_ok z x c a Dz Dx Hz Hx ltac:(lra)) as (D1 & r & Hr & Q). destruct (mul_ok z y c b Dz Dy Hz Hy ltac:(lra)) as (D2 & s & Hs & Q').
  assert (K : forall v w, rounded v w -> Rabs v <= 1000 -> Rabs w <= 2000).
  { intros v w Rd Bv. apply abs_le_inv in Bv.
    assert (R1 : rounded 1000 1000).
    { destruct (int_exact 1000 ltac:(lia)) as [D3 S3]. destruct (int_exact 0 ltac:(lia)) as [D0 S0]. destruct (add_ok _ _ _ _ D3 D0 S3 S0) as (_ & e & _ & Qe & _); [rewrite Rplus_0_r, Rabs_right by lra; lra|].
      rewrite Rplus_0_r in Qe. pose proof (rounded_int 1000 e ltac:(lia) Qe) as ->. exact Qe. }
    assert (w <= 1000) by (apply (rounded_mono v 1000); [lra|exact Rd|exact R1]). assert (- (1000) <= w) by (apply (rounded_mono (- (1000)) v); [lra|apply rounded_opp; exact R1|exact Rd]). apply Rabs_le. lra. }
  exists r, s. split; [exact D1|]. split; [exact D2|]. split; [exact Hr|]. split; [exact Hs|]. split; [exact (rounded_mono _ _ _ _ L Q Q')|]. split; [exact (K _ _ Q B1)|exact (K _ _ Q' B2)].
Qed.
(** the temperature of a layer, with the offset *)
Lemma layer_order A B o x y a b t s c : double A -> stands_for A a -> Rabs a <= 1000 -> double B -> stands_for B b -> double x -> stands_for x s -> double y -> stands_for y t -> double o -> stands_for o c -> Rabs c <= 1000 ->
  b * s <= b * t -> Rabs (b * s) <= 1000 -> Rabs (b * t) <= 1000 -> at_most (fadd (fadd A (fmul B x)) o) (fadd (fadd A (fmul B y)) o).
Proof.
  intros DA SA BA DB SB Dx Sx Dy Sy Do So Bo L B1 B2.
  destruct (mul_order x y B s t b Dx Dy DB Sx Sy SB L B1 B2) as (r & r' & D1 & D2 & H1 & H2 & L1 & R1 & R2).
  assert (BB : forall w, Rabs w <= 2000 -> Rabs (a + w) <= 3000) by (intros w Hw; apply Rle_trans with (1 := Rabs_triang _ _); lra).
  destruct (add_order _ _ A r r' a D1 D2 DA H1 H2 SA L1) as [(p & q & Hp & Hq & L2) _]; [specialize (BB r R1); lra|specialize (BB r' R2); lra|].
  assert (P : 1000000 < p2 1023). { apply Rlt_le_trans with (p2 23); [rewrite p2_23; lra|apply p2_le; lia]. }
  destruct (add_ok A _ a r DA D1 SA H1) as (D3 & p' & Hp' & _ & E1); [specialize (BB r R1); lra|]. destruct (add_ok A _ a r' DA D2 SA H2) as (D4 & q' & Hq' & _ & E2); [specialize (BB r' R2); lra|].
  rewrite (stands_unique _ _ _ Hp' Hp) in E1. rewrite (stands_unique _ _ _ Hq' Hq) in E2. apply (abs_round (a + r) p) in E1. apply (abs_round (a + r') q) in E2.
  assert (BC : forall w, Rabs w <= 6000 -> Rabs (c + w) <= 1000000) by (intros w Hw; apply Rle_trans with (1 := Rabs_triang _ _); lra).
  apply (add_order _ _ o p q c D3 D4 Do Hp Hq So L2); apply BC; [specialize (BB r R1); lra|specialize (BB r' R2); lra].
Qed.
Lemma constant_value p q c : tracks (lit p q) 1 10 c -> 0 < c <= 900 -> exists a, double (lit p q) /\ stands_for (lit p q) a /\ 0 < a /\ a <= 1.001 * c.
Proof.
  intros T P. destruct (tracks_error _ 1 _ _ ltac:(lia) T) as (D & a & H & E). exists a. split; [exact D|]. split; [exact H|]. cbn [INR] in E. rewrite (Rabs_right c) in E by lra. apply abs_le_inv in E. pose proof u_pos as [U1 U2].
  assert (u * c <= 1/1000000000000000 * c) by (apply Rmult_le_compat_r; lra). lra.
Qed.
Lemma branch off alt h : double alt -> stands_for alt h ->
  fl_isatemp off alt = fadd (if Rlt_dec h 11000 then layer1 alt else if Rlt_dec h 20000 then layer2 alt else if Rlt_dec h 32000 then layer3 alt else if Rlt_dec h 47000 then layer4 alt else layer5 alt) off.
Proof.
  intros D H. unfold fl_isatemp. rewrite (ltb_int alt h 11000 D H ltac:(lia)), (ltb_int alt h 20000 D H ltac:(lia)), (ltb_int alt h 32000 D H ltac:(lia)), (ltb_int alt h 47000 D H ltac:(lia)).
  destruct (Rlt_dec h 11000), (Rlt_dec h 20000), (Rlt_dec h 32000), (Rlt_dec h 47000); reflexivity.
Qed.
Section Order.
  Variables (off : spec_float) (c : R).
  Hypotheses (Do : double off) (So : stands_for off c) (Bo : Rabs c <= 1000).
  Lemma order1 x y s t : double x -> double y -> stands_for x s -> stands_for y t -> s <= t -> Rabs s <= 50000 -> Rabs t <= 50000 -> at_most (fadd (layer1 y) off) (fadd (layer1 x) off).
  Proof.
    intros Dx Dy Sx Sy L Bs Bt. destruct (constant_value 28815 2 288.15) as (a & DA & SA & PA & QA); [literal|lra|]. destruct (constant_value 65 4 0.0065) as (b & DB & SB & PB & QB); [literal|lra|].
    assert (BA : Rabs a <= 1000) by (rewrite Rabs_right by lra; lra). apply abs_le_inv in Bs. apply abs_le_inv in Bt.
    assert (0 <= b * (t - s)) by (apply Rmult_le_pos; lra).
    apply (layer_order _ _ off y x a (- b) s t c DA SA BA (double_opp _ DB) (stands_opp _ _ SB) Dy Sy Dx Sx Do So Bo); [lra| |]; apply Rabs_le; nra.
  Qed.
  Lemma order0 p q k x y s t : tracks (lit p q) 1 10 k -> 0 < k <= 900 -> double x -> double y -> stands_for x s -> stands_for y t ->
    at_most (fadd (fadd (lit p q) (fmul (of_int 0) x)) off) (fadd (fadd (lit p q) (fmul (of_int 0) y)) off).
  Proof.
    intros T Pk Dx Dy Sx Sy. destruct (constant_value p q k T Pk) as (a & DA & SA & PA & QA). destruct (int_exact 0 ltac:(lia)) as [D0 S0].
    assert (BA : Rabs a <= 1000) by (rewrite Rabs_right by lra; lra).
    apply (layer_order _ _ off x y a 0 t s c DA SA BA D0 S0 Dx Sx Dy Sy Do So Bo); [lra| |]; rewrite Rmult_0_l, Rabs_R0; lra.
  Qed.
  Lemma orderB p q k p' q' m x y s t : tracks (lit p q) 1 10 k -> 0 < k <= 900 -> tracks (lit p' q') 1 10 m -> 0 < m <= 0.01 -> double x -> double y -> stands_for x s -> stands_for y t -> s <= t -> Rabs s <= 50000 -> Rabs t <= 50000 ->
    at_most (fadd (fadd (lit p q) (fmul (lit p' q') x)) off) (fadd (fadd (lit p q) (fmul (lit p' q') y)) off).
  Proof.
    intros T Pk T' Pm Dx Dy Sx Sy L Bs Bt. destruct (constant_value p q k T Pk) as (a & DA & SA & PA & QA). destruct (constant_value p' q' m T') as (b & DB & SB & PB & QB); [lra|].
    assert (BA : Rabs a <= 1000) by (rewrite Rabs_right by lra; lra). apply abs_le_inv in Bs. apply abs_le_inv in Bt. assert (0 <= b * (t - s)) by (apply Rmult_le_pos; lra).
    apply (layer_order _ _ off x y a b t s c DA SA BA DB SB Dx Sx Dy Sy Do So Bo); [lra| |]; apply Rabs_le; nra.
  Qed.
  Lemma joints : layer2 (of_int 20000) = layer3 (of_int 20000) /\ layer3 (of_int 32000) = layer4 (of_int 32000) /\ layer4 (of_int 47000) = layer5 (of_int 47000).
  Proof. vm_compute. repeat split; reflexivity. Qed.
  Lemma falling x y s t : double x -> double y -> stands_for x s -> stands_for y t -> -50000 <= s -> s <= t -> t < 11000 -> at_most (fl_isatemp off y) (fl_isatemp off x).
  Proof.
    intros Dx Dy Sx Sy L0 L L1. rewrite (branch off x s Dx Sx), (branch off y t Dy Sy). destruct (Rlt_dec s 11000); [|lra]. destruct (Rlt_dec t 11000); [|lra].
    apply (order1 x y s t Dx Dy Sx Sy L); apply Rabs_le; lra.
  Qed.
  Lemma not_falling x y s t : double x -> double y -> stands_for x s -> stands_for y t -> 11000 <= s -> s <= t -> t <= 50000 -> at_most (fl_isatemp off x) (fl_isatemp off y).
  Proof.
    intros Dx Dy Sx Sy L0 L L1. rewrite (branch off x s Dx Sx), (branch off y t Dy Sy).
    assert (As : Rabs s <= 50000) by (apply Rabs_le; lra). assert (At : Rabs t <= 50000) by (apply Rabs_le; lra).
    destruct (int_exact 20000 ltac:(lia)) as [D20 S20]. destruct (int_exact 32000 ltac:(lia)) as [D32 S32]. destruct (int_exact 47000 ltac:(lia)) as [D47 S47]. destruct joints as (J1 & J2 & J3).
    assert (A20 : Rabs 20000 <= 50000) by (apply Rabs_le; lra). assert (A32 : Rabs 32000 <= 50000) by (apply Rabs_le; lra). assert (A47 : Rabs 47000 <= 50000) by (apply Rabs_le; lra).
    assert (O2 : forall v w a b, double v -> double w -> stands_for v a -> stands_for w b -> at_most (fadd (layer2 v) off) (fadd (layer2 w) off)) by (intros v w a b; apply (order0 21665 2 216.65); [literal|lra]).
    assert (O5 : forall v w a b, double v -> double w -> stands_for v a -> stands_for w b -> at_most (fadd (layer5 v) off) (fadd (layer5 w) off)) by (intros v w a b; apply (order0 27065 2 270.65); [literal|lra]).
    assert (O3 : forall v w a b, double v -> double w -> stands_for v a -> stands_for w b -> a <= b -> Rabs a <= 50000 -> Rabs b <= 50000 -> at_most (fadd (layer3 v) off) (fadd (layer3 w) off)) by (intros v w a b; apply (orderB 19665 2 196.65 1 3 0.001); [literal|lra|literal|lra]).
    assert (O4 : forall v w a b, double v -> double w -> stands_for v a -> stands_for w b -> a <= b -> Rabs a <= 50000 -> Rabs b <= 50000 -> at_most (fadd (layer4 v) off) (fadd (layer4 w) off)) by (intros v w a b; apply (orderB 13905 2 139.05 28 4 0.0028); [literal|lra|literal|lra]).
    (* from the layer of x up to its top, then layer by layer *)
    assert (U3 : forall w b, double w -> stands_for w b -> 20000 <= b -> b <= 50000 -> at_most (fadd (layer2 (of_int 20000)) off)
       (fadd (if Rlt_dec b 32000 then layer3 w else if Rlt_dec b 47000 then layer4 w else layer5 w) off)).
    { intros w b Dw Sw Lb Ub. assert (Ab : Rabs b <= 50000) by (apply Rabs_le; lra). rewrite J1. destruct (Rlt_dec b 32000); [apply (O3 _ _ 20000 b); auto|].
      apply at_most_trans with (fadd (layer3 (of_int 32000)) off); [apply (O3 _ _ 20000 32000); auto; lra|]. rewrite J2. destruct (Rlt_dec b 47000); [apply (O4 _ _ 32000 b); auto; lra|].
      apply at_most_trans with (fadd (layer4 (of_int 47000)) off); [apply (O4 _ _ 32000 47000); auto; lra|]. rewrite J3. apply (O5 _ _ 47000 b); auto. }
    destruct (Rlt_dec s 11000); [lra|]. destruct (Rlt_dec t 11000); [lra|].
    destruct (Rlt_dec s 20000).
    - destruct (Rlt_dec t 20000); [apply (O2 _ _ s t); auto|]. apply at_most_trans with (fadd (layer2 (of_int 20000)) off); [apply (O2 _ _ s 20000); auto|apply U3; auto; lra].
    - destruct (Rlt_dec t 20000); [lra|]. destruct (Rlt_dec s 32000).
      + destruct (Rlt_dec t 32000); [apply (O3 _ _ s t); auto|]. apply at_most_trans with (fadd (layer3 (of_int 32000)) off); [apply (O3 _ _ s 32000); auto; lra|]. rewrite J2.
        destruct (Rlt_dec t 47000); [apply (O4 _ _ 32000 t); auto; lra|]. apply at_most_trans with (fadd (layer4 (of_int 47000)) off); [apply (O4 _ _ 32000 47000); auto; lra|]. rewrite J3. apply (O5 _ _ 47000 t); auto.
      + destruct (Rlt_dec t 32000); [lra|]. destruct (Rlt_dec s 47000).
        * destruct (Rlt_dec t 47000); [apply (O4 _ _ s t); auto|]. apply at_most_trans with (fadd (layer4 (of_int 47000)) off); [apply (O4 _ _ s 47000); auto; lra|]. rewrite J3. apply (O5 _ _ 47000 t); auto.
        * destruct (Rlt_dec t 47000); [lra|]. apply (O5 _ _ s t); auto.
  Qed.
End Order.
