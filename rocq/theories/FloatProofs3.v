(** Monotonicity of the unit conversions in double-precision arithmetic; inverses that are
    not exact. *)
From Coq Require Import Reals ZArith List Lra Lia Bool.
From Coq.Floats Require Import SpecFloat.
From Verif Require Import Base BaseFacts UnitsModel FloatSpec FloatModel FloatArith FloatProofs FloatProofs2.
Open Scope R_scope.
Import ListNotations.

(** rounding is monotone *)
Lemma nearest_mono x y n m : x <= y -> nearest x n -> nearest y m -> (n <= m)%Z.
Proof.
  intros L Hx Hy. destruct (Z_le_gt_dec n m) as [|G]; [assumption|exfalso].
  assert (N : IZR m + 1 <= IZR n) by (rewrite <- plus_IZR; apply IZR_le; lia).
  pose proof (abs_le_inv _ _ (nearest_error _ _ Hx)) as Ex. pose proof (abs_le_inv _ _ (nearest_error _ _ Hy)) as Ey.
  assert (Tx : x - IZR n = - (1/2)) by lra. assert (Ty : y - IZR m = 1/2) by lra.
  destruct Hx as [A|[_ A]]; [rewrite Tx, Rabs_left in A by lra; lra|]. destruct Hy as [B|[_ B]]; [rewrite Ty, Rabs_right in B by lra; lra|].
  assert (E : IZR n = IZR (m + 1)) by (rewrite plus_IZR; lra). apply eq_IZR in E. subst n. rewrite Z.even_add, B in A. discriminate A.
Qed.
Lemma rounded_opp v r : rounded v r -> rounded (- v) (- r).
Proof.
  intros [[-> ->]|(k & n & K & N & ->)]; [left; split; ring|right]. exists k, (- n)%Z. rewrite Rabs_Ropp. split; [exact K|]. split.
  - unfold Rdiv. rewrite Ropp_mult_distr_l_reverse. apply nearest_opp, N.
  - rewrite opp_IZR. ring.
Qed.
Lemma rounded_sign v r : 0 <= v -> rounded v r -> 0 <= r.
Proof.
  intros P [[-> ->]|(k & n & K & N & ->)]; [lra|]. cbv zeta in N. set (g := powerRZ 2 (Z.max (k - 53) (-1074))) in *. assert (G : 0 < g) by apply p2_pos.
  assert (0 <= n)%Z. { apply (nearest_ge _ _ 0 N). apply Rmult_le_pos; [exact P|]. left. apply Rinv_0_lt_compat, G. }
  apply Rmult_le_pos; [apply IZR_le; assumption|lra].
Qed.
Lemma rounded_mono_pos v w r s : 0 < v <= w -> rounded v r -> rounded w s -> r <= s.
Proof.
  intros [P L] [[-> _]|(k & n & [K1 K2] & N & ->)]; [lra|]. intros [[-> _]|(j & m & [J1 J2] & M & ->)]; [lra|].
  rewrite Rabs_right in K1, K2, J1, J2 by lra. assert (KJ : (k - 1 < j)%Z) by (apply p2_lt_inv; lra).
  destruct (Z.eq_dec (Z.max (k - 53) (-1074)) (Z.max (j - 53) (-1074))) as [E|E]; cbv zeta in N, M.
  - rewrite E in *. set (g := powerRZ 2 (Z.max (j - 53) (-1074))) in *. assert (G : 0 < g) by apply p2_pos.
    apply Rmult_le_compat_r; [lra|]. apply IZR_le. refine (nearest_mono _ _ _ _ _ N M). apply Rmult_le_compat_r; [left; apply Rinv_0_lt_compat, G|exact L].
  - assert (J : (-1074 < j - 53 /\ k < j)%Z) by lia. replace (Z.max (j - 53) (-1074)) with (j - 53)%Z in M |- * by lia.
    set (e := Z.max (k - 53) (-1074)) in *. assert (Ej : (e <= j - 1)%Z) by lia. pose proof (p2_pos e) as Pe. pose proof (p2_pos (j - 53)) as Pj.
    assert (A : (n <= 2 ^ (j - 1 - e))%Z).
    { apply (nearest_le _ _ _ N). rewrite <- p2_Z by lia. rewrite p2_sub. apply Rmult_le_compat_r; [left; apply Rinv_0_lt_compat, Pe|].
      apply Rle_trans with (p2 k); [lra|apply p2_le; lia]. }
    assert (B : (2 ^ 52 <= m)%Z).
    { apply (nearest_ge _ _ _ M). rewrite <- p2_Z by lia. replace 52%Z with (j - 1 - (j - 53))%Z by lia. rewrite p2_sub. apply Rmult_le_compat_r; [left; apply Rinv_0_lt_compat, Pj|exact J1]. }
    apply Rle_trans with (p2 (j - 1)).
    + replace (p2 (j - 1)) with (IZR (2 ^ (j - 1 - e)) * p2 e) by (rewrite <- p2_Z by lia; rewrite <- p2_add; f_equal; lia). apply Rmult_le_compat_r; [lra|apply IZR_le, A].
    + replace (p2 (j - 1)) with (IZR (2 ^ 52) * p2 (j - 53)) by (rewrite <- p2_Z by lia; rewrite <- p2_add; f_equal; lia). apply Rmult_le_compat_r; [lra|apply IZR_le, B].
Qed.
Lemma rounded_mono v w r s : v <= w -> rounded v r -> rounded w s -> r <= s.
Proof.
  intros L Hr Hs. destruct (Rlt_le_dec 0 v) as [P|P]; [apply (rounded_mono_pos v w); [lra| |]; assumption|].
  assert (R0 : r <= 0). { assert (0 <= - r) by (apply (rounded_sign (- v)); [lra|apply rounded_opp, Hr]). lra. }
  destruct (Rlt_le_dec w 0) as [Q|Q].
  - assert (- s <= - r) by (apply (rounded_mono_pos (- w) (- v)); [lra|apply rounded_opp, Hs|apply rounded_opp, Hr]). lra.
  - pose proof (rounded_sign _ _ Q Hs). lra.
Qed.

(** one operation, as a monotone step between ranges *)
Definition step (F : spec_float -> spec_float) (m m' : Z) : Prop :=
  (forall x a, double x -> stands_for x a -> rng m a -> exists a', double (F x) /\ stands_for (F x) a' /\ rng m' a') /\
  (forall x y a b a' b', double x -> double y -> stands_for x a -> stands_for y b -> rng m a -> rng m b -> a <= b ->
     stands_for (F x) a' -> stands_for (F y) b' -> a' <= b').
Lemma step_rounds F f m m' : (forall a b, a <= b -> f a <= f b) ->
  (forall x a, double x -> stands_for x a -> rng m a -> exists a', double (F x) /\ stands_for (F x) a' /\ rounded (f a) a' /\ rng m' a') -> step F m m'.
Proof.
  intros Mf H. split.
  - intros x a D Hx Ra. destruct (H x a D Hx Ra) as (a' & D' & H' & _ & R'). exists a'. repeat split; assumption.
  - intros x y a b a' b' Dx Dy Hx Hy Ra Rb L Ha Hb. destruct (H x a Dx Hx Ra) as (a2 & _ & Ha2 & Q & _). destruct (H y b Dy Hy Rb) as (b2 & _ & Hb2 & Q' & _).
    rewrite (stands_unique _ _ _ Ha Ha2), (stands_unique _ _ _ Hb Hb2). exact (rounded_mono _ _ _ _ (Mf _ _ L) Q Q').
Qed.
Lemma step_comp F G m n k : step F m n -> step G n k -> step (fun x => G (F x)) m k.
Proof.
  intros [F1 F2] [G1 G2]. split.
  - intros x a D H Ra. destruct (F1 x a D H Ra) as (a' & D' & H' & R'). exact (G1 _ _ D' H' R').
  - intros x y a b a' b' Dx Dy Hx Hy Ra Rb L Ha Hb. destruct (F1 x a Dx Hx Ra) as (a1 & D1 & H1 & R1). destruct (F1 y b Dy Hy Rb) as (b1 & D2 & H2 & R2).
    exact (G2 _ _ _ _ _ _ D1 D2 H1 H2 R1 R2 (F2 _ _ _ _ _ _ Dx Dy Hx Hy Ra Rb L H1 H2) Ha Hb).
Qed.
Lemma step_rising F m : step F 800 m -> rising F.
Proof.
  intros [F1 F2] x y a b Dx Dy Hx Hy Ra Rb L. assert (Qa : rng 800 a) by exact Ra. assert (Qb : rng 800 b) by exact Rb.
  destruct (F1 x a Dx Hx Qa) as (a' & _ & Ha & _). destruct (F1 y b Dy Hy Qb) as (b' & _ & Hb & _).
  exists a', b'. split; [exact Ha|]. split; [exact Hb|]. exact (F2 _ _ _ _ _ _ Dx Dy Hx Hy Qa Qb L Ha Hb).
Qed.
Lemma rng_round n v r : Rabs (r - v) <= u * Rabs v -> rng n v -> rng (n + 1) r.
Proof.
  intros E Rv. assert (Lo : lower (- n) v) by (destruct Rv as [Z|[A _]]; [left; exact Z|right; exact A]).
  destruct (rounded_size _ _ _ E Lo) as [Z|A]; [left; exact Z|right]. split.
  - replace (- (n + 1))%Z with (- n - 1)%Z by lia. exact A.
  - apply abs_round in E. apply Rle_trans with (1 := E). rewrite <- double_p2. apply Rmult_le_compat_l; [lra|]. destruct Rv as [->|[_ B]]; [rewrite Rabs_R0; left; apply p2_pos|exact B].
Qed.
(** a positive constant, exactly *)
Definition const (c : spec_float) : Prop := exists b, double c /\ stands_for c b /\ 0 < b /\ rng 11 b.
Lemma const_lit p q c : tracks (lit p q) 1 10 c -> 0 < c -> const (lit p q).
Proof.
  intros T P. destruct (exact_value _ _ _ T ltac:(lia) ltac:(lra)) as (b & [(D & b' & H & (g & F & Eb)) Rg] & Nb & E).
  assert (b' = b). { rewrite Eb. destruct F as [F1 F2]. cbn in F1, F2. assert (g = 1) by lra. subst g. ring. } clear Eb. subst b'.
  exists b. split; [exact D|]. split; [exact H|]. split; [|exact Rg]. cbn [INR] in E. rewrite (Rabs_right c) in E by lra. apply abs_le_inv in E. pose proof u_pos.
  assert (u * c <= 1/1000000000000000 * c) by (apply Rmult_le_compat_r; lra). lra.
Qed.
Lemma const_int z : (1 <= z <= 1024)%Z -> const (of_int z).
Proof.
  intros Hz. destruct (tracks_small z Hz) as [(D & b & H & (g & F & Eb)) Rg].
  assert (Hb : b = IZR z). { rewrite Eb. destruct F as [F1 F2]. cbn in F1, F2. assert (g = 1) by lra. subst g. ring. } clear Eb. subst b.
  exists (IZR z). split; [exact D|]. split; [exact H|]. split; [apply IZR_lt; lia|]. destruct Rg as [Z|[A B]]; [left; exact Z|right]. split.
  - apply Rle_trans with (2 := A). apply p2_le. lia.
  - apply Rle_trans with (1 := B). apply p2_le. lia.
Qed.
Lemma mid_low t : mid t -> (t = 0 \/ p2 (-1022) <= Rabs t) /\ Rabs t < p2 1023.
Proof.
  intros [->|[A B]].
  - rewrite Rabs_R0. split; [left; reflexivity|apply p2_pos].
  - split; [right; apply Rle_trans with (2 := A); apply p2_le; lia|apply Rle_lt_trans with (1 := B); apply p2_lt; lia].
Qed.
Lemma step_mul c m : const c -> (m <= 1000)%Z -> step (fun x => fmul x c) m (m + 12).
Proof.
  intros (b & Db & Hb & Pb & Rb) M. apply (step_rounds _ (fun a => a * b)); [intros; apply Rmult_le_compat_r; lra|].
  intros x a D H Ra. assert (Rt := rng_mul _ _ _ _ Ra Rb). destruct (mid_low _ (rng_mid (m + 11) _ ltac:(lia) Rt)) as [Lo Ov].
  destruct (mul_ok x c a b D Db H Hb Ov) as (D' & r & H' & Q). exists r. split; [exact D'|]. split; [exact H'|]. split; [exact Q|].
  replace (m + 12)%Z with (m + 11 + 1)%Z by lia. exact (rng_round _ _ _ (rounded_error _ _ Q Lo) Rt).
Qed.
Lemma step_div c m : const c -> (m <= 1000)%Z -> step (fun x => fdiv x c) m (m + 12).
Proof.
  intros (b & Db & Hb & Pb & Rb) M. apply (step_rounds _ (fun a => a / b)).
  { intros. apply Rmult_le_compat_r; [left; apply Rinv_0_lt_compat; exact Pb|assumption]. }
  intros x a D H Ra. assert (Nb : b <> 0) by lra. assert (Rt := rng_mul _ _ _ _ Ra (rng_inv _ _ Nb Rb)). destruct (mid_low _ (rng_mid (m + 11) _ ltac:(lia) Rt)) as [Lo Ov].
  assert (Lo' : a = 0 \/ p2 (-1022) <= Rabs (a / b)).
  { destruct Lo as [Z|Lo]; [left|right; exact Lo]. apply Rmult_integral in Z. destruct Z as [Z|Z]; [exact Z|]. apply Rinv_neq_0_compat in Nb. contradiction. }
  destruct (div_ok x c a b D Db H Hb Nb Lo' Ov) as (D' & r & H' & Q). exists r. split; [exact D'|]. split; [exact H'|]. split; [exact Q|].
  replace (m + 12)%Z with (m + 11 + 1)%Z by lia. exact (rng_round _ _ _ (rounded_error _ _ Q Lo) Rt).
Qed.
Lemma rng_lower n t : rng n t -> lower (- n) t /\ Rabs t <= p2 n.
Proof. intros [->|[A B]]; [split; [left; reflexivity|rewrite Rabs_R0; left; apply p2_pos]|split; [right; exact A|exact B]]. Qed.
Lemma lower_rng n t : lower (- n) t -> Rabs t <= p2 n -> rng n t.
Proof. intros [->|A] B; [left; reflexivity|right; split; assumption]. Qed.
Lemma step_add c m : const c -> (100 <= m <= 900)%Z -> step (fun x => fadd x c) m (m + 60).
Proof.
  intros (b & Db & Hb & Pb & Rb) M. apply (step_rounds _ (fun a => a + b)); [intros; lra|].
  intros x a D H Ra. destruct (rng_lower _ _ Ra) as [La Ua]. destruct (rng_lower _ _ Rb) as [Lb Ub].
  assert (Ub' : Rabs b <= p2 m) by (apply Rle_trans with (1 := Ub); apply p2_le; lia).
  assert (U2 : Rabs (a + b) <= p2 (m + 1)) by (apply Rle_trans with (1 := Rabs_triang a b); rewrite <- double_p2; lra).
  assert (M9 : p2 m <= p2 960) by (apply p2_le; lia).
  destruct (add_step (- m) x c a b D Db H Hb La (lower_weaken (- m) (- 11) b ltac:(lia) Lb) ltac:(lra) ltac:(lra)) as (r & D' & H' & E & L' & _).
  destruct (add_ok x c a b D Db H Hb) as (_ & r2 & H2 & Q & _). { apply Rle_lt_trans with (1 := U2). apply p2_lt. lia. }
  assert (r2 = r) by exact (stands_unique _ _ _ H2 H'). subst r2. exists r. split; [exact D'|]. split; [exact H'|]. split; [exact Q|].
  apply lower_rng; [apply (lower_weaken _ (- m - 54)); [lia|exact L']|]. apply abs_round in E. apply Rle_trans with (1 := E).
  apply Rle_trans with (2 * p2 (m + 1)); [lra|]. rewrite double_p2. apply p2_le. lia.
Qed.
Lemma step_sub c m : const c -> (100 <= m <= 900)%Z -> step (fun x => fsub x c) m (m + 60).
Proof.
  intros (b & Db & Hb & Pb & Rb) M. apply (step_rounds _ (fun a => a - b)); [intros; lra|].
  intros x a D H Ra. destruct (rng_lower _ _ Ra) as [La Ua]. destruct (rng_lower _ _ Rb) as [Lb Ub].
  assert (Ub' : Rabs b <= p2 m) by (apply Rle_trans with (1 := Ub); apply p2_le; lia).
  assert (U2 : Rabs (a - b) <= p2 (m + 1)) by (apply Rle_trans with (1 := Rabs_triang a (- b)); rewrite Rabs_Ropp, <- double_p2; lra).
  assert (M9 : p2 m <= p2 960) by (apply p2_le; lia).
  destruct (sub_step (- m) x c a b D Db H Hb La (lower_weaken (- m) (- 11) b ltac:(lia) Lb) ltac:(lra) ltac:(lra)) as (r & D' & H' & E & L' & _).
  destruct (sub_ok x c a b D Db H Hb) as (_ & r2 & H2 & Q & _). { apply Rle_lt_trans with (1 := U2). apply p2_lt. lia. }
  assert (r2 = r) by exact (stands_unique _ _ _ H2 H'). subst r2. exists r. split; [exact D'|]. split; [exact H'|]. split; [exact Q|].
  apply lower_rng; [apply (lower_weaken _ (- m - 54)); [lia|exact L']|]. apply abs_round in E. apply Rle_trans with (1 := E).
  apply Rle_trans with (2 * p2 (m + 1)); [lra|]. rewrite double_p2. apply p2_le. lia.
Qed.

Definition all_conversions : list (spec_float -> spec_float) :=
  [ fl_c2f; fl_feet2m; fl_feet22m2; fl_m22feet2; fl_m2km; fl_km2m; fl_c2k; fl_k2c; fl_c2r; fl_r2c; fl_k2r; fl_r2k; fl_pa2mbar; fl_mbar2pa; fl_inhg2mbar;
    fl_mbar2inhg; fl_mbar2lbfft2; fl_lbfft22mbar; fl_mps2kts; fl_kts2mps; fl_m2feet; fl_pa2kgm2; fl_kg2n; fl_n2kg; fl_kgm22pa; fl_fpm2mps; fl_lbs2kg;
    fl_kg2lbs; fl_lbf2n; fl_n2lbf; fl_wn2wkg; fl_wn2kwkg; fl_wn2hpkg; fl_kw2hp; fl_hp2kw; fl_kgm32sft3; fl_sft32kgm3; fl_pa2lbfft2; fl_lbfft22pa ].
Lemma up_mul p q c : tracks (lit p q) 1 10 c -> 0 < c -> rising (fun x => fmul x (lit p q)).
Proof. intros T P. apply (step_rising _ 812). apply (step_mul (lit p q) 800); [exact (const_lit p q c T P)|lia]. Qed.
Lemma up_div p q c : tracks (lit p q) 1 10 c -> 0 < c -> rising (fun x => fdiv x (lit p q)).
Proof. intros T P. apply (step_rising _ 812). apply (step_div (lit p q) 800); [exact (const_lit p q c T P)|lia]. Qed.
Lemma c_27315 : const (lit 27315 2). Proof. apply (const_lit _ _ 273.15 lit_27315). lra. Qed.
Lemma c_49167 : const (lit 49167 2). Proof. apply (const_lit _ _ 491.67 lit_49167). lra. Qed.
Lemma lit_g : tracks (lit 980665 5) 1 10 9.80665. Proof. literal. Qed.
Lemma lit_feet : tracks (lit 3048 4) 1 10 0.3048. Proof. literal. Qed.
Lemma lit_hp : tracks (lit 134102 5) 1 10 1.34102. Proof. literal. Qed.
Lemma up_c2f : rising fl_c2f.
Proof.
  apply (step_rising _ (824 + 60)). apply (step_comp (fun x => fdiv (fmul x (of_int 9)) (of_int 5)) (fun x => fadd x (of_int 32)) 800 824).
  - apply (step_comp (fun x => fmul x (of_int 9)) (fun x => fdiv x (of_int 5)) 800 812); [apply (step_mul (of_int 9) 800)|apply (step_div (of_int 5) 812)]; first [apply const_int; lia|lia].
  - apply (step_add (of_int 32) 824); [apply const_int; lia|lia].
Qed.
Lemma step_ratio a b m : (1 <= a <= 1024)%Z -> (1 <= b <= 1024)%Z -> (m <= 980)%Z -> step (fun x => fdiv (fmul x (of_int a)) (of_int b)) m (m + 24).
Proof.
  intros Ha Hb M. apply (step_comp (fun x => fmul x (of_int a)) (fun x => fdiv x (of_int b)) m (m + 12)).
  - apply step_mul; [apply const_int; exact Ha|lia].
  - replace (m + 24)%Z with (m + 12 + 12)%Z by lia. apply step_div; [apply const_int; exact Hb|lia].
Qed.
Lemma up_c2r : rising fl_c2r.
Proof.
  apply (step_rising _ 884). apply (step_comp (fun x => fadd x (lit 27315 2)) (fun x => fdiv (fmul x (of_int 9)) (of_int 5)) 800 860).
  - apply (step_add _ 800); [exact c_27315|lia].
  - apply (step_ratio 9 5 860); lia.
Qed.
Lemma up_r2c : rising fl_r2c.
Proof.
  apply (step_rising _ 884). apply (step_comp (fun x => fsub x (lit 49167 2)) (fun x => fdiv (fmul x (of_int 5)) (of_int 9)) 800 860).
  - apply (step_sub _ 800); [exact c_49167|lia].
  - apply (step_ratio 5 9 860); lia.
Qed.
Lemma up_wn : rising fl_wn2kwkg /\ rising fl_wn2hpkg.
Proof.
  assert (A : step fl_wn2kwkg 800 824).
  { apply (step_comp (fun x => fmul x (lit 980665 5)) (fun x => fdiv x (of_int 1000)) 800 812).
    - apply (step_mul _ 800); [apply (const_lit _ _ 9.80665 lit_g); lra|lia].
    - apply (step_div _ 812); [apply const_int; lia|lia]. }
  split; [exact (step_rising _ _ A)|]. apply (step_rising _ 836). apply (step_comp fl_wn2kwkg (fun x => fmul x (lit 134102 5)) 800 824); [exact A|].
  apply (step_mul _ 824); [apply (const_lit _ _ 1.34102 lit_hp); lra|lia].
Qed.
Lemma up_fpm : rising fl_fpm2mps.
Proof.
  apply (step_rising _ 824). apply (step_comp (fun x => fmul x (lit 3048 4)) (fun x => fdiv x (of_int 60)) 800 812).
  - apply (step_mul _ 800); [apply (const_lit _ _ 0.3048 lit_feet); lra|lia].
  - apply (step_div _ 812); [apply const_int; lia|lia].
Qed.
Ltac pick H := destruct H as [<-|H].
Lemma all_rising F : In F all_conversions -> rising F.
Proof.
  intros H. unfold all_conversions in H. cbn [In] in H.
  pick H; [exact up_c2f|]. pick H; [apply (up_mul 3048 4 0.3048); [literal|lra]|]. pick H; [apply (up_div 107639 4 10.7639); [literal|lra]|].
  pick H; [apply (up_mul 107639 4 10.7639); [literal|lra]|].
  pick H; [apply (step_rising _ 812), (step_div _ 800); [apply const_int; lia|lia]|]. pick H; [apply (step_rising _ 812), (step_mul _ 800); [apply const_int; lia|lia]|].
  pick H; [apply (step_rising _ 860), (step_add _ 800); [exact c_27315|lia]|]. pick H; [apply (step_rising _ 860), (step_sub _ 800); [exact c_27315|lia]|].
  pick H; [exact up_c2r|]. pick H; [exact up_r2c|].
  pick H; [apply (step_rising _ 824), (step_ratio 9 5 800); lia|]. pick H; [apply (step_rising _ 824), (step_ratio 5 9 800); lia|].
  pick H; [apply (up_mul 1 2 0.01); [literal|lra]|]. pick H; [apply (up_div 1 2 0.01); [literal|lra]|].
  pick H; [apply (up_mul 338639 4 33.8639); [literal|lra]|]. pick H; [apply (up_div 338639 4 33.8639); [literal|lra]|].
  pick H; [apply (up_mul 208854 5 2.08854); [literal|lra]|]. pick H; [apply (up_div 208854 5 2.08854); [literal|lra]|].
  pick H; [apply (up_mul 19438445 7 1.9438445); [literal|lra]|]. pick H; [apply (up_mul 5144444 7 0.5144444); [literal|lra]|].
  pick H; [apply (up_div 3048 4 0.3048); [literal|lra]|]. pick H; [apply (up_mul 1019716212978 13 0.1019716212978); [literal|lra]|].
  pick H; [apply (up_mul 980665 5 9.80665); [literal|lra]|]. pick H; [apply (up_div 980665 5 9.80665); [literal|lra]|].
  pick H; [apply (up_mul 980665 5 9.80665); [literal|lra]|]. pick H; [exact up_fpm|].
  pick H; [apply (up_mul 453592 6 0.453592); [literal|lra]|]. pick H; [apply (up_div 453592 6 0.453592); [literal|lra]|].
  pick H; [apply (up_div 224809 6 0.224809); [literal|lra]|]. pick H; [apply (up_mul 224809 6 0.224809); [literal|lra]|].
  pick H; [apply (up_mul 980665 5 9.80665); [literal|lra]|]. pick H; [exact (proj1 up_wn)|]. pick H; [exact (proj2 up_wn)|].
  pick H; [apply (up_mul 134102 5 1.34102); [literal|lra]|]. pick H; [apply (up_div 134102 5 1.34102); [literal|lra]|].
  pick H; [apply (up_mul 194032 8 0.00194032); [literal|lra]|]. pick H; [apply (up_div 194032 8 0.00194032); [literal|lra]|].
  pick H; [apply (up_mul 20885434273039 15 0.020885434273039); [literal|lra]|]. pick H; [apply (up_div 20885434273039 15 0.020885434273039); [literal|lra]|].
  destruct H.
Qed.

(** knots *)
Lemma knots_drift x r : double x -> stands_for x r -> in_range r ->
  (exists r', double (fl_kts2mps (fl_mps2kts x)) /\ stands_for (fl_kts2mps (fl_mps2kts x)) r' /\ Rabs (r' - r) <= 0.0000001 * Rabs r) /\
  (exists r', double (fl_mps2kts (fl_kts2mps x)) /\ stands_for (fl_mps2kts (fl_kts2mps x)) r' /\ Rabs (r' - r) <= 0.0000001 * Rabs r).
Proof.
  intros D H I. assert (Tx := tracks_self x r D H I). assert (A : tracks (lit 19438445 7) 1 10 1.9438445) by literal. assert (B : tracks (lit 5144444 7) 1 10 0.5144444) by literal.
  assert (K : forall t a, t = r * (1.9438445 * 0.5144444) -> Rabs (a - t) <= INR 4 * 1.001 * u * Rabs t -> Rabs (a - r) <= 0.0000001 * Rabs r).
  { intros t a -> E. rewrite Rabs_mult, (Rabs_right (1.9438445 * 0.5144444)) in E by lra. cbn [INR] in E. pose proof u_pos as [U1 U2]. pose proof (Rabs_pos r) as P.
    pose proof (Rabs_triang (a - r * (1.9438445 * 0.5144444)) (r * (1.9438445 * 0.5144444 - 1))) as T.
    replace (a - r * (1.9438445 * 0.5144444) + r * (1.9438445 * 0.5144444 - 1)) with (a - r) in T by ring. rewrite (Rabs_mult r) in T.
    assert (Q : Rabs (1.9438445 * 0.5144444 - 1) <= 0.00000009) by (apply Rabs_le; lra).
    assert (Rabs r * Rabs (1.9438445 * 0.5144444 - 1) <= Rabs r * 0.00000009) by (apply Rmult_le_compat_l; lra).
    assert (u * Rabs r <= 1/1000000000000000 * Rabs r) by (apply Rmult_le_compat_r; lra). lra. }
  split.
  - assert (T1 := tracks_mul _ _ _ _ _ _ _ _ Tx A ltac:(lia) ltac:(lia)). assert (T2 := tracks_mul _ _ _ _ _ _ _ _ T1 B ltac:(lia) ltac:(lia)).
    destruct (tracks_error _ 4 _ _ ltac:(lia) T2) as (D' & a & Ha & E). exists a. split; [exact D'|]. split; [exact Ha|]. refine (K _ _ _ E). ring.
  - assert (T1 := tracks_mul _ _ _ _ _ _ _ _ Tx B ltac:(lia) ltac:(lia)). assert (T2 := tracks_mul _ _ _ _ _ _ _ _ T1 A ltac:(lia) ltac:(lia)).
    destruct (tracks_error _ 4 _ _ ltac:(lia) T2) as (D' & a & Ha & E). exists a. split; [exact D'|]. split; [exact Ha|]. refine (K _ _ _ E). ring.
Qed.

(** inverses that are not exact *)
Definition differ (x y : spec_float) : bool :=
  match x, y with
  | S754_finite s m e, S754_finite s' m' e' =>
      let d := Z.min e e' in negb (Z.eqb (cond_Zopp s (Zpos m) * 2 ^ (e - d)) (cond_Zopp s' (Zpos m') * 2 ^ (e' - d)))
  | S754_nan, _ | S754_infinity _, _ => false
  | S754_zero _, S754_zero _ => false
  | _, _ => true
  end.
Lemma scaled_value s m e d r : (d <= e)%Z -> stands_for (S754_finite s m e) r -> r = IZR (cond_Zopp s (Zpos m) * 2 ^ (e - d)) * p2 d.
Proof.
  intros L H. rewrite mult_IZR, <- p2_Z by lia. rewrite Rmult_assoc, <- p2_add. replace (e - d + d)%Z with e by lia.
  rewrite (stands_unique _ _ _ H (stands_finite s m e)). destruct s; cbn [signed cond_Zopp]; rewrite ?opp_IZR; ring.
Qed.
Lemma finite_nonzero s m e r : stands_for (S754_finite s m e) r -> r <> 0.
Proof.
  intros H. rewrite (stands_unique _ _ _ H (stands_finite s m e)). pose proof (p2_pos e). assert (0 < IZR (Zpos m)) by (apply IZR_lt; lia).
  assert (0 < IZR (Zpos m) * p2 e) by (apply Rmult_lt_0_compat; assumption). destruct s; cbn [signed]; lra.
Qed.
Lemma differ_ok x y r : differ x y = true -> stands_for x r -> stands_for y r -> False.
Proof.
  intros Hd Hx Hy. destruct x as [|s| |s m e]; [|inversion Hx|inversion Hx|].
  - destruct y as [|s'| |s' m' e']; try discriminate; [inversion Hy|inversion Hy|]. assert (r = 0) by (inversion Hx; reflexivity). exact (finite_nonzero _ _ _ _ Hy H).
  - destruct y as [|s'| |s' m' e']; [|inversion Hy|inversion Hy|].
    + assert (r = 0) by (inversion Hy; reflexivity). exact (finite_nonzero _ _ _ _ Hx H).
    + cbn [differ] in Hd. apply negb_true_iff, Z.eqb_neq in Hd. apply Hd. apply eq_IZR.
      pose proof (p2_pos (Z.min e e')). apply (Rmult_eq_reg_r (p2 (Z.min e e'))); [|lra].
      rewrite <- (scaled_value s m e _ r), <- (scaled_value s' m' e' _ r); [reflexivity|lia|exact Hy|lia|exact Hx].
Qed.
Definition moderate (x : spec_float) : bool :=
  match x with S754_finite _ m e => (Z.leb (-100) e && Z.leb e 40)%bool | _ => false end.
Lemma moderate_ok x : double x -> moderate x = true -> exists r, stands_for x r /\ in_range r.
Proof.
  intros D M. destruct x as [|s| |s m e]; try discriminate. cbn [moderate] in M. apply andb_prop in M. destruct M as [M1 M2]. apply Z.leb_le in M1, M2.
  exists (signed s (IZR (Zpos m) * p2 e)). split; [apply stands_finite|]. right. pose proof (p2_pos e) as Pe. assert (1 <= IZR (Zpos m)) by (apply IZR_le; lia).
  assert (0 < IZR (Zpos m) * p2 e) by (apply Rmult_lt_0_compat; lra). rewrite signed_abs by lra. destruct (double_finite _ _ _ D) as (_ & G & _). destruct (digits_R m) as [_ B].
  assert (IZR (Zpos m) <= p2 53) by (apply Rle_trans with (1 := Rlt_le _ _ B); apply p2_le; exact G). split.
  - apply Rle_trans with (p2 e); [apply p2_le; lia|]. rewrite <- (Rmult_1_l (p2 e)) at 1. apply Rmult_le_compat_r; lra.
  - apply Rle_trans with (p2 53 * p2 e); [apply Rmult_le_compat_r; lra|]. rewrite <- p2_add. apply p2_le. lia.
Qed.
Definition spoils (F G : spec_float -> spec_float) (x : spec_float) : bool := (valid_binary 53 1024 x && moderate x && differ x (G (F x)))%bool.
Lemma spoils_ok F G x : spoils F G x = true -> ~ undoes F G.
Proof.
  unfold spoils. intros H U. apply andb_prop in H. destruct H as [H H3]. apply andb_prop in H. destruct H as [H1 H2].
  destruct (moderate_ok x H1 H2) as (r & Hx & I). exact (differ_ok _ _ _ H3 Hx (U x r H1 Hx I)).
Qed.
Definition pairs : list ((spec_float -> spec_float) * (spec_float -> spec_float)) :=
  [ (fl_feet2m, fl_m2feet); (fl_m22feet2, fl_feet22m2); (fl_km2m, fl_m2km); (fl_c2k, fl_k2c); (fl_c2r, fl_r2c); (fl_k2r, fl_r2k); (fl_pa2mbar, fl_mbar2pa);
    (fl_inhg2mbar, fl_mbar2inhg); (fl_mbar2lbfft2, fl_lbfft22mbar); (fl_mps2kts, fl_kts2mps); (fl_pa2lbfft2, fl_lbfft22pa); (fl_pa2kgm2, fl_kgm22pa); (fl_kg2n, fl_n2kg);
    (fl_lbs2kg, fl_kg2lbs); (fl_n2lbf, fl_lbf2n); (fl_kw2hp, fl_hp2kw); (fl_kgm32sft3, fl_sft32kgm3) ].
Lemma both_spoiled F G x y : spoils F G x = true -> spoils G F y = true -> ~ undoes F G /\ ~ undoes G F.
Proof. intros A B. split; [exact (spoils_ok _ _ _ A)|exact (spoils_ok _ _ _ B)]. Qed.
Ltac pick2 H := destruct H as [[= <- <-]|H].
Ltac both x y := apply (both_spoiled _ _ x y); vm_compute; reflexivity.
Lemma none_exact F G : In (F, G) pairs -> ~ undoes F G /\ ~ undoes G F.
Proof.
  intros H. unfold pairs in H. cbn [In] in H.
  pick2 H; [both (of_int 7) (of_int 1)|]. pick2 H; [both (of_int 7) (of_int 25)|].
  pick2 H; [both (S754_finite false 0x1ed1a7f614ffc0 (-52)) (of_int 1001)|]. pick2 H; [both (of_int 751) (lit 16 1)|]. pick2 H; [both (of_int 1) (of_int 1)|].
  pick2 H; [both (lit 74607 1) (lit 7 3)|]. pick2 H; [both (of_int 7) (lit 76654 1)|]. pick2 H; [both (of_int 63) (of_int 3)|]. pick2 H; [both (of_int 31) (of_int 2139)|].
  pick2 H; [both (of_int 1) (of_int 1)|]. pick2 H; [both (of_int 7) (of_int 7)|]. pick2 H; [both (of_int 1) (of_int 1)|]. pick2 H; [both (of_int 7) (of_int 3)|].
  pick2 H; [both (of_int 9) (of_int 59)|]. pick2 H; [both (of_int 31) (of_int 29)|]. pick2 H; [both (of_int 107) (of_int 13)|]. pick2 H; [both (of_int 451) (of_int 1023)|].
  destruct H.
Qed.
(** two ways to the same temperature *)
Lemma kelvin_then_rankine x : fl_k2r (fl_c2k x) = fl_c2r x. Proof. reflexivity. Qed.
Lemma kelvin_then_celsius : exists x a b, double x /\ stands_for x 3 /\ stands_for (fl_k2c (fl_r2k x)) a /\ stands_for (fl_r2c x) b /\ a <> b.
Proof.
  exists (of_int 3). eexists _, _. split; [reflexivity|]. split.
  { replace 3 with (IZR 6755399441055744 * powerRZ 2 (-51)).
    - change (of_int 3) with (S754_finite false 6755399441055744 (-51)). constructor.
    - change (-51)%Z with (- (51))%Z. rewrite p2_opp, p2_Z by lia. change (2 ^ 51)%Z with 2251799813685248%Z. lra. }
  split; [let v := eval vm_compute in (fl_k2c (fl_r2k (of_int 3))) in change (fl_k2c (fl_r2k (of_int 3))) with v; constructor|].
  split; [let v := eval vm_compute in (fl_r2c (of_int 3)) in change (fl_r2c (of_int 3)) with v; constructor|].
  intros E. apply Ropp_eq_compat in E. rewrite !Ropp_involutive in E. apply Rmult_eq_reg_r in E; [|pose proof (p2_pos (-44)); lra]. apply eq_IZR in E. discriminate E.
Qed.
(** pascal and kilograms per square metre *)
Lemma kgm2_drift x r : double x -> stands_for x r -> in_range r ->
  (exists r', double (fl_kgm22pa (fl_pa2kgm2 x)) /\ stands_for (fl_kgm22pa (fl_pa2kgm2 x)) r' /\ Rabs (r' - r) <= 0.000000000001 * Rabs r) /\
  (exists r', double (fl_pa2kgm2 (fl_kgm22pa x)) /\ stands_for (fl_pa2kgm2 (fl_kgm22pa x)) r' /\ Rabs (r' - r) <= 0.000000000001 * Rabs r).
Proof.
  intros D H I. assert (Tx := tracks_self x r D H I). assert (A : tracks (lit 1019716212978 13) 1 10 0.1019716212978) by literal. assert (B : tracks (lit 980665 5) 1 10 9.80665) by literal.
  assert (K : forall t a, t = r * (0.1019716212978 * 9.80665) -> Rabs (a - t) <= INR 4 * 1.001 * u * Rabs t -> Rabs (a - r) <= 0.000000000001 * Rabs r).
  { intros t a -> E. rewrite Rabs_mult, (Rabs_right (0.1019716212978 * 9.80665)) in E by lra. cbn [INR] in E. pose proof u_pos as [U1 U2]. pose proof (Rabs_pos r) as P.
    pose proof (Rabs_triang (a - r * (0.1019716212978 * 9.80665)) (r * (0.1019716212978 * 9.80665 - 1))) as T.
    replace (a - r * (0.1019716212978 * 9.80665) + r * (0.1019716212978 * 9.80665 - 1)) with (a - r) in T by ring. rewrite (Rabs_mult r) in T.
    assert (Q : Rabs (0.1019716212978 * 9.80665 - 1) <= 0.0000000000009) by (apply Rabs_le; lra).
    assert (Rabs r * Rabs (0.1019716212978 * 9.80665 - 1) <= Rabs r * 0.0000000000009) by (apply Rmult_le_compat_l; lra).
    assert (u * Rabs r <= 1/1000000000000000 * Rabs r) by (apply Rmult_le_compat_r; lra). lra. }
  split.
  - assert (T1 := tracks_mul _ _ _ _ _ _ _ _ Tx A ltac:(lia) ltac:(lia)). assert (T2 := tracks_mul _ _ _ _ _ _ _ _ T1 B ltac:(lia) ltac:(lia)).
    destruct (tracks_error _ 4 _ _ ltac:(lia) T2) as (D' & a & Ha & E). exists a. split; [exact D'|]. split; [exact Ha|]. refine (K _ _ _ E). ring.
  - assert (T1 := tracks_mul _ _ _ _ _ _ _ _ Tx B ltac:(lia) ltac:(lia)). assert (T2 := tracks_mul _ _ _ _ _ _ _ _ T1 A ltac:(lia) ltac:(lia)).
    destruct (tracks_error _ 4 _ _ ltac:(lia) T2) as (D' & a & Ha & E). exists a. split; [exact D'|]. split; [exact Ha|]. refine (K _ _ _ E). ring.
Qed.
(** the operations and the literals *)
Lemma operations_round x y a b : double x -> double y -> stands_for x a -> stands_for y b ->
  (Rabs (a * b) < powerRZ 2 1023 -> double (fmul x y) /\ exists r, stands_for (fmul x y) r /\ rounded (a * b) r) /\
  (Rabs (a + b) < powerRZ 2 1023 -> double (fadd x y) /\ exists r, stands_for (fadd x y) r /\ rounded (a + b) r) /\
  (Rabs (a - b) < powerRZ 2 1023 -> double (fsub x y) /\ exists r, stands_for (fsub x y) r /\ rounded (a - b) r) /\
  (b <> 0 -> a = 0 \/ powerRZ 2 (-1022) <= Rabs (a / b) -> Rabs (a / b) < powerRZ 2 1023 -> double (fdiv x y) /\ exists r, stands_for (fdiv x y) r /\ rounded (a / b) r).
Proof.
  intros Dx Dy Hx Hy. split; [exact (mul_ok _ _ _ _ Dx Dy Hx Hy)|]. split; [|split].
  - intros Ov. destruct (add_ok _ _ _ _ Dx Dy Hx Hy Ov) as (D & r & H & Q & _). split; [exact D|]. exists r. split; assumption.
  - intros Ov. destruct (sub_ok _ _ _ _ Dx Dy Hx Hy Ov) as (D & r & H & Q & _). split; [exact D|]. exists r. split; assumption.
  - exact (div_ok _ _ _ _ Dx Dy Hx Hy).
Qed.
Lemma int_exact z : (Z.abs z < 2 ^ 53)%Z -> double (of_int z) /\ stands_for (of_int z) (IZR z).
Proof.
  intros H. destruct (approx_int z H) as (D & b & Hb & (g & F & Eb)). split; [exact D|].
  assert (E : b = IZR z). { rewrite Eb. destruct F as [F1 F2]. cbn in F1, F2. assert (g = 1) by lra. subst g. ring. } rewrite <- E. exact Hb.
Qed.
Lemma literals_rounded p q : (1 <= p < 2 ^ 53)%Z -> (0 <= q <= 15)%Z ->
  double (lit p q) /\ exists r, stands_for (lit p q) r /\ rounded (IZR p / IZR (10 ^ q)) r.
Proof.
  intros Hp Hq. assert (Q : (1 <= 10 ^ q <= 10 ^ 15)%Z). { split; [apply (Z.pow_le_mono_r 10 0 q); lia|apply Z.pow_le_mono_r; lia]. }
  assert (Q2 : (10 ^ 15 < 2 ^ 53)%Z) by reflexivity.
  destruct (int_exact p ltac:(lia)) as [Dp Sp]. destruct (int_exact (10 ^ q) ltac:(lia)) as [Dq Sq].
  assert (P1 : 1 <= IZR p) by (apply IZR_le; lia). assert (P2 : IZR p <= p2 53) by (rewrite p2_Z by lia; apply IZR_le; lia).
  assert (Q3 : 1 <= IZR (10 ^ q)) by (apply IZR_le; lia). assert (Q4 : IZR (10 ^ q) <= p2 53) by (rewrite p2_Z by lia; apply IZR_le; lia).
  assert (I1 : 0 < / IZR (10 ^ q) <= 1). { split; [apply Rinv_0_lt_compat; lra|]. rewrite <- Rinv_1. apply Rinv_le_contravar; lra. }
  assert (I2 : p2 (-53) <= / IZR (10 ^ q)). { change (-53)%Z with (- (53))%Z. rewrite p2_opp. apply Rinv_le_contravar; lra. }
  assert (V1 : p2 (-53) <= IZR p / IZR (10 ^ q)). { rewrite <- (Rmult_1_l (p2 (-53))). apply Rmult_le_compat; try lra. left. apply p2_pos. }
  assert (V2 : IZR p / IZR (10 ^ q) <= p2 53). { rewrite <- (Rmult_1_r (p2 53)). apply Rmult_le_compat; lra. }
  pose proof (p2_pos (-53)). apply (div_ok (of_int p) (of_int (10 ^ q)) _ _ Dp Dq Sp Sq); [lra|right|]; rewrite Rabs_right by lra.
  - apply Rle_trans with (2 := V1). apply p2_le. lia.
  - apply Rle_lt_trans with (1 := V2). apply p2_lt. lia.
Qed.

(** the same table, with the formulas *)
Definition formulas : list ((spec_float -> spec_float) * (R -> R) * R) :=
  [ (fl_feet2m, (fun r => r * 0.3048), 2.002);
    (fl_feet22m2, (fun r => r / 10.7639), 2.002);
    (fl_m22feet2, (fun r => r * 10.7639), 2.002);
    (fl_m2km, (fun r => r / 1000), 1.001);
    (fl_km2m, (fun r => r * 1000), 1.001);
    (fl_k2r, (fun r => r * 9 / 5), 2.002);
    (fl_r2k, (fun r => r * 5 / 9), 2.002);
    (fl_pa2mbar, (fun r => r * 0.01), 2.002);
    (fl_mbar2pa, (fun r => r / 0.01), 2.002);
    (fl_inhg2mbar, (fun r => r * 33.8639), 2.002);
    (fl_mbar2inhg, (fun r => r / 33.8639), 2.002);
    (fl_mbar2lbfft2, (fun r => r * 2.08854), 2.002);
    (fl_lbfft22mbar, (fun r => r / 2.08854), 2.002);
    (fl_mps2kts, (fun r => r * 1.9438445), 2.002);
    (fl_kts2mps, (fun r => r * 0.5144444), 2.002);
    (fl_m2feet, (fun r => r / 0.3048), 2.002);
    (fl_pa2kgm2, (fun r => r * 0.1019716212978), 2.002);
    (fl_kg2n, (fun r => r * 9.80665), 2.002);
    (fl_n2kg, (fun r => r / 9.80665), 2.002);
    (fl_kgm22pa, (fun r => r * 9.80665), 2.002);
    (fl_fpm2mps, (fun r => r * 0.3048 / 60), 3.003);
    (fl_lbs2kg, (fun r => r * 0.453592), 2.002);
    (fl_kg2lbs, (fun r => r / 0.453592), 2.002);
    (fl_lbf2n, (fun r => r / 0.224809), 2.002);
    (fl_n2lbf, (fun r => r * 0.224809), 2.002);
    (fl_wn2wkg, (fun r => r * 9.80665), 2.002);
    (fl_wn2kwkg, (fun r => r * 9.80665 / 1000), 3.003);
    (fl_wn2hpkg, (fun r => r * 9.80665 / 1000 * 1.34102), 5.005);
    (fl_kw2hp, (fun r => r * 1.34102), 2.002);
    (fl_hp2kw, (fun r => r / 1.34102), 2.002);
    (fl_kgm32sft3, (fun r => r * 0.00194032), 2.002);
    (fl_sft32kgm3, (fun r => r / 0.00194032), 2.002);
    (fl_pa2lbfft2, (fun r => r * 0.020885434273039), 2.002);
    (fl_lbfft22pa, (fun r => r / 0.020885434273039), 2.002) ].
Ltac pick3 H n := destruct H as [[= <- <- <-]|H]; [apply (computes_accurate _ n); [apply conversions_accurate; unfold conversions; cbn [In]; tauto|]|].
Lemma formulas_accurate F f k : In (F, f, k) formulas -> accurate F f k 0.
Proof.
  intros H. unfold formulas in H. cbn [In] in H.
  pick3 H feet2m. { reflexivity. }
  pick3 H feet22m2. { intros r; apply ndiv_fin; lra. }
  pick3 H m22feet2. { reflexivity. }
  pick3 H m2km. { intros r; apply ndiv_fin; lra. }
  pick3 H km2m. { reflexivity. }
  pick3 H k2r. { intros r; unfold k2r; rewrite nmul_fin; apply ndiv_fin; lra. }
  pick3 H r2k. { intros r; unfold r2k; rewrite nmul_fin; apply ndiv_fin; lra. }
  pick3 H pa2mbar. { reflexivity. }
  pick3 H mbar2pa. { intros r; apply ndiv_fin; lra. }
  pick3 H inhg2mbar. { reflexivity. }
  pick3 H mbar2inhg. { intros r; apply ndiv_fin; lra. }
  pick3 H mbar2lbfft2. { reflexivity. }
  pick3 H lbfft22mbar. { intros r; apply ndiv_fin; lra. }
  pick3 H mps2kts. { reflexivity. }
  pick3 H kts2mps. { reflexivity. }
  pick3 H m2feet. { intros r; apply ndiv_fin; lra. }
  pick3 H pa2kgm2. { reflexivity. }
  pick3 H kg2n. { reflexivity. }
  pick3 H n2kg. { intros r; apply ndiv_fin; lra. }
  pick3 H kgm22pa. { reflexivity. }
  pick3 H fpm2mps. { intros r; unfold fpm2mps, feet2m; cbv zeta; rewrite nmul_fin; apply ndiv_fin; lra. }
  pick3 H lbs2kg. { reflexivity. }
  pick3 H kg2lbs. { intros r; apply ndiv_fin; lra. }
  pick3 H lbf2n. { intros r; apply ndiv_fin; lra. }
  pick3 H n2lbf. { reflexivity. }
  pick3 H wn2wkg. { reflexivity. }
  pick3 H wn2kwkg. { intros r; unfold wn2kwkg, wn2wkg, sc_g; rewrite nmul_fin; apply ndiv_fin; lra. }
  pick3 H wn2hpkg. { intros r; unfold wn2hpkg, wn2kwkg, wn2wkg, sc_g; rewrite nmul_fin, ndiv_fin by lra; reflexivity. }
  pick3 H kw2hp. { reflexivity. }
  pick3 H hp2kw. { intros r; apply ndiv_fin; lra. }
  pick3 H kgm32sft3. { reflexivity. }
  pick3 H sft32kgm3. { intros r; apply ndiv_fin; lra. }
  pick3 H pa2lbfft2. { reflexivity. }
  pick3 H lbfft22pa. { intros r; apply ndiv_fin; lra. }
  destruct H.
Qed.
Definition temperatures : list ((spec_float -> spec_float) * (R -> R) * R * R) :=
  [ (fl_c2k, (fun r => r + 273.15), 1.01, 273.15); (fl_k2c, (fun r => r - 273.15), 1.01, 273.15); (fl_c2r, (fun r => (r + 273.15) * 9 / 5), 3.1, 491.67);
    (fl_r2c, (fun r => (r - 491.67) * 5 / 9), 3.1, 273.15); (fl_c2f, (fun r => r * 9 / 5 + 32), 3.1, 32) ].
Lemma temperatures_accurate F f k c : In (F, f, k, c) temperatures -> accurate F f k c.
Proof.
  intros H. unfold temperatures in H. cbn [In] in H.
  destruct H as [[= <- <- <- <-]|H]; [apply (computes_accurate _ c2k); [exact acc_c2k|reflexivity]|].
  destruct H as [[= <- <- <- <-]|H]; [apply (computes_accurate _ k2c); [exact acc_k2c|reflexivity]|].
  destruct H as [[= <- <- <- <-]|H]; [apply (computes_accurate _ c2r); [exact acc_c2r|intros r; unfold c2r; rewrite nadd_fin, nmul_fin; apply ndiv_fin; lra]|].
  destruct H as [[= <- <- <- <-]|H]; [apply (computes_accurate _ r2c); [exact acc_r2c|intros r; unfold r2c; rewrite nsub_fin, nmul_fin; apply ndiv_fin; lra]|].
  destruct H as [[= <- <- <- <-]|H]; [apply (computes_accurate _ c2f); [exact acc_c2f|intros r; unfold c2f; rewrite nmul_fin, ndiv_fin by lra; reflexivity]|].
  destruct H.
Qed.
(** a case: seven feet *)
Lemma seven : double (of_int 7) /\ stands_for (of_int 7) 7 /\ in_range 7.
Proof.
  destruct (int_exact 7 ltac:(lia)) as [D H]. split; [exact D|]. split; [exact H|]. right. rewrite Rabs_right by lra. split.
  - apply Rle_trans with (p2 0); [apply p2_le; lia|rewrite p2_0; lra].
  - apply Rle_trans with (p2 3); [rewrite p2_Z by lia; change (2 ^ 3)%Z with 8%Z; lra|apply p2_le; lia].
Qed.

Lemma double_sum z m e : (0 <= - e)%Z -> IZR z * IZR (2 ^ (- e)) = IZR (Zpos m) -> stands_for (S754_finite false m e) (IZR z).
Proof.
  intros He E. replace (IZR z) with (IZR (Zpos m) * p2 e); [constructor|]. rewrite <- E. rewrite <- p2_Z by exact He. rewrite Rmult_assoc, <- p2_add.
  replace (- e + e)%Z with 0%Z by lia. rewrite p2_0. ring.
Qed.
Lemma seven_feet : exists r, stands_for (fl_feet2m (of_int 7)) r /\ r <> 7 * 0.3048 /\ Rabs (r - 7 * 0.3048) <= 2.002 * powerRZ 2 (-53) * (7 * 0.3048).
Proof.
  let v := eval vm_compute in (fl_feet2m (of_int 7)) in change (fl_feet2m (of_int 7)) with v.
  eexists. split; [constructor|].
  change (-51)%Z with (- (51))%Z. change (-53)%Z with (- (53))%Z. rewrite !p2_opp, !p2_Z by lia. change (2 ^ 51)%Z with 2251799813685248%Z. change (2 ^ 53)%Z with 9007199254740992%Z. split; [lra|]. apply Rabs_le. lra.
Qed.
Lemma boiling : exists r, stands_for (fl_c2f (of_int 100)) r /\ r = 212.
Proof. exists 212. split; [|reflexivity]. let v := eval vm_compute in (fl_c2f (of_int 100)) in change (fl_c2f (of_int 100)) with v. apply (double_sum 212); [lia|]. rewrite <- mult_IZR. f_equal. Qed.
Lemma seven_feet_back : exists r, stands_for (fl_m2feet (fl_feet2m (of_int 7))) r /\ r <> 7 /\ Rabs (r - 7) <= 2.002 * powerRZ 2 (-53) * 7.
Proof.
  let v := eval vm_compute in (fl_m2feet (fl_feet2m (of_int 7))) in change (fl_m2feet (fl_feet2m (of_int 7))) with v.
  eexists. split; [constructor|].
  change (-50)%Z with (- (50))%Z. change (-53)%Z with (- (53))%Z. rewrite !p2_opp, !p2_Z by lia. change (2 ^ 50)%Z with 1125899906842624%Z. change (2 ^ 53)%Z with 9007199254740992%Z. split; [lra|]. apply Rabs_le. lra.
Qed.
Lemma drifts x r : double x -> stands_for x r -> in_range r ->
  (exists r', stands_for (fl_kts2mps (fl_mps2kts x)) r' /\ Rabs (r' - r) <= 0.0000001 * Rabs r) /\
  (exists r', stands_for (fl_mps2kts (fl_kts2mps x)) r' /\ Rabs (r' - r) <= 0.0000001 * Rabs r) /\
  (exists r', stands_for (fl_kgm22pa (fl_pa2kgm2 x)) r' /\ Rabs (r' - r) <= 0.000000000001 * Rabs r) /\
  (exists r', stands_for (fl_pa2kgm2 (fl_kgm22pa x)) r' /\ Rabs (r' - r) <= 0.000000000001 * Rabs r).
Proof.
  intros D H I. destruct (knots_drift x r D H I) as [(a & _ & A) (b & _ & B)]. destruct (kgm2_drift x r D H I) as [(c & _ & C) (d & _ & E)].
  split; [exists a; exact A|]. split; [exists b; exact B|]. split; [exists c; exact C|exists d; exact E].
Qed.
