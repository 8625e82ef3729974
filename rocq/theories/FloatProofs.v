(** Accuracy of the unit conversions in double-precision arithmetic. *)
From Coq Require Import Reals ZArith List Lra Lia Bool.
From Coq.Floats Require Import SpecFloat.
From Verif Require Import Base BaseFacts UnitsModel FloatSpec FloatModel FloatArith.
Open Scope R_scope.

(** the same, against the model in real numbers *)
Definition computes (F : spec_float -> spec_float) (f : num -> num) (k c : R) : Prop :=
  forall x r, double x -> stands_for x r -> in_range r ->
  exists r' t, double (F x) /\ stands_for (F x) r' /\ f (Fin r) = Fin t /\ Rabs (r' - t) <= k * powerRZ 2 (-53) * (Rabs t + c).
Lemma computes_accurate F f g k c : computes F f k c -> (forall r, f (Fin r) = Fin (g r)) -> accurate F g k c.
Proof. intros H E x r D Hx I. destruct (H x r D Hx I) as (r' & t & D' & H' & Et & B). rewrite E in Et. injection Et as <-. exists r'. repeat split; assumption. Qed.

Definition u : R := p2 (-53).
Lemma u_val : u = / 9007199254740992.
Proof. unfold u. change (-53)%Z with (- (53))%Z. rewrite p2_opp. rewrite p2_Z by lia. reflexivity. Qed.
Lemma u_pos : 0 < u < 1/1000000000000000.
Proof. rewrite u_val. lra. Qed.

Lemma abs_le_inv x a : Rabs x <= a -> - a <= x <= a.
Proof. unfold Rabs. destruct (Rcase_abs x); lra. Qed.

(** a product of at most k rounding errors and their inverses *)
Definition factor (k : nat) (g : R) : Prop := (1 - u) ^ k <= g <= / (1 - u) ^ k.
Definition within (k : nat) (r t : R) : Prop := exists g, factor k g /\ r = t * g.

Lemma w_pos k : 0 < (1 - u) ^ k. Proof. apply pow_lt. pose proof u_pos. lra. Qed.
Lemma factor_pos k g : factor k g -> 0 < g. Proof. intros [A _]. pose proof (w_pos k). lra. Qed.
Lemma factor_mul j k g h : factor j g -> factor k h -> factor (j + k) (g * h).
Proof.
  intros G H. pose proof (factor_pos _ _ G) as P1. pose proof (factor_pos _ _ H) as P2. destruct G as [G1 G2], H as [H1 H2].
  unfold factor. rewrite pow_add. pose proof (w_pos j). pose proof (w_pos k). rewrite Rinv_mult. split; apply Rmult_le_compat; lra.
Qed.
Lemma factor_inv k g : factor k g -> factor k (/ g).
Proof.
  intros G. pose proof (factor_pos _ _ G). destruct G as [G1 G2]. pose proof (w_pos k). split.
  - rewrite <- (Rinv_inv ((1 - u) ^ k)). apply Rinv_le_contravar; lra.
  - apply Rinv_le_contravar; lra.
Qed.
Lemma factor_0 : factor 0 1. Proof. unfold factor. cbn. lra. Qed.
Lemma factor_round d : Rabs d <= u -> factor 1 (1 + d).
Proof.
  intros H. apply abs_le_inv in H. pose proof u_pos. unfold factor. rewrite pow_1. split; [lra|].
  apply (Rmult_le_reg_r (1 - u)); [lra|]. rewrite Rinv_l by lra. nra.
Qed.
Lemma w_lower k : 1 - INR k * u <= (1 - u) ^ k.
Proof.
  induction k as [|k IH]; [cbn; lra|]. rewrite S_INR. cbn [pow]. pose proof u_pos. pose proof (pos_INR k).
  destruct (Rle_dec 0 (1 - INR k * u)) as [L|L]; [nra|]. pose proof (w_pos k). nra.
Qed.
Lemma factor_error k g : (k <= 10)%nat -> factor k g -> Rabs (g - 1) <= INR k * u * 1.001.
Proof.
  intros K [A B]. pose proof (w_lower k) as L. pose proof u_pos as U. assert (K' : INR k <= 10) by (apply le_INR in K; cbn in K; lra). pose proof (pos_INR k).
  assert (M : 0 <= INR k * u <= 1/100000000000000) by (split; nra).
  assert (/ (1 - u) ^ k <= 1 + INR k * u * 1.001).
  { apply Rle_trans with (/ (1 - INR k * u)); [apply Rinv_le_contravar; lra|]. apply (Rmult_le_reg_r (1 - INR k * u)); [lra|]. rewrite Rinv_l by lra. nra. }
  apply Rabs_le. nra.
Qed.
Lemma factor_half k g : (k <= 10)%nat -> factor k g -> 1/2 <= g <= 2.
Proof.
  intros K F. apply factor_error in F; [|exact K]. pose proof u_pos. assert (INR k <= 10) by (apply le_INR in K; cbn in K; lra). pose proof (pos_INR k).
  assert (INR k * u * 1.001 <= 1/2) by nra. apply abs_le_inv in F. lra.
Qed.
Lemma within_error k r t : (k <= 10)%nat -> within k r t -> Rabs (r - t) <= INR k * 1.001 * u * Rabs t.
Proof.
  intros K (g & F & ->). apply factor_error in F; [|exact K]. replace (t * g - t) with (t * (g - 1)) by ring. rewrite Rabs_mult.
  pose proof (Rabs_pos t). nra.
Qed.
Lemma error_within v r : Rabs (r - v) <= u * Rabs v -> within 1 r v.
Proof.
  intros H. destruct (Req_dec v 0) as [->|N].
  - rewrite Rabs_R0 in H. exists 1. split. { pose proof (factor_round 0) as F. rewrite Rplus_0_r in F. apply F. rewrite Rabs_R0. pose proof u_pos. lra. }
    rewrite Rminus_0_r in H. pose proof (Rabs_pos r). assert (E : Rabs r = 0) by lra. destruct (Req_dec r 0) as [->|X]; [ring|]. apply Rabs_no_R0 in X. lra.
  - exists (1 + (r - v) / v). split; [|field; exact N]. apply factor_round. unfold Rdiv. rewrite Rabs_mult, Rabs_inv.
    apply Rabs_pos_lt in N. apply (Rmult_le_reg_r (Rabs v)); [exact N|]. rewrite Rmult_assoc, Rinv_l by lra. lra.
Qed.

(** the double x stands for t up to k rounding errors *)
Definition approx (x : spec_float) (k : nat) (t : R) : Prop := double x /\ exists a, stands_for x a /\ within k a t.
Definition mid (t : R) : Prop := t = 0 \/ p2 (-1015) <= Rabs t <= p2 1015.

Lemma mid_scaled t g k : (k <= 10)%nat -> factor k g -> mid t -> (t * g = 0 \/ p2 (-1022) <= Rabs (t * g)) /\ Rabs (t * g) < p2 1023.
Proof.
  intros K F [->|[L U]].
  - rewrite Rmult_0_l, Rabs_R0. split; [left; reflexivity|apply p2_pos].
  - apply factor_half in F; [|exact K]. rewrite Rabs_mult, (Rabs_right g) by lra. split.
    + right. apply Rle_trans with (p2 (-1015) * (1/2)); [|pose proof (p2_pos (-1015)); nra].
      replace (p2 (-1015) * (1/2)) with (p2 (-1016)); [apply p2_le; lia|]. change (-1016)%Z with (-1015 - 1)%Z. rewrite p2_sub, p2_1. field.
    + apply Rle_lt_trans with (p2 1015 * 2); [pose proof (p2_pos 1015); pose proof (Rabs_pos t); nra|]. replace (p2 1015 * 2) with (p2 1016) by (change 1016%Z with (1015 + 1)%Z; rewrite p2_add, p2_1; reflexivity). apply p2_lt. lia.
Qed.
Lemma within_trans j k a b c : within j a b -> within k b c -> within (k + j) a c.
Proof. intros (g & G & ->) (h & H & ->). exists (h * g). split; [apply factor_mul; assumption|ring]. Qed.

Lemma approx_mul x y j k s t : approx x j s -> approx y k t -> (j + k <= 10)%nat -> mid (s * t) -> approx (fmul x y) (j + k + 1) (s * t).
Proof.
  intros (Dx & a & Ha & (g & G & ->)) (Dy & b & Hb & (h & H & ->)) K M.
  assert (F := factor_mul _ _ _ _ G H). destruct (mid_scaled _ _ _ K F M) as [Lo Hi].
  replace (s * t * (g * h)) with (s * g * (t * h)) in Lo, Hi by ring.
  destruct (mul_ok x y _ _ Dx Dy Ha Hb Hi) as (D & r & R1 & R2). split; [exact D|]. exists r. split; [exact R1|].
  apply rounded_error in R2; [|exact Lo]. apply error_within in R2. apply (within_trans _ _ _ _ _ R2). exists (g * h). split; [exact F|ring].
Qed.
Lemma approx_div x y j k s t : approx x j s -> approx y k t -> (j + k <= 10)%nat -> t <> 0 -> mid (s / t) -> approx (fdiv x y) (j + k + 1) (s / t).
Proof.
  intros (Dx & a & Ha & (g & G & ->)) (Dy & b & Hb & (h & H & ->)) K Nz M.
  assert (F := factor_mul _ _ _ _ G (factor_inv _ _ H)). destruct (mid_scaled _ _ _ K F M) as [Lo Hi].
  pose proof (factor_pos _ _ G) as Pg. pose proof (factor_pos _ _ H) as Ph.
  assert (E : s / t * (g * / h) = s * g / (t * h)) by (field; lra). rewrite E in Lo, Hi.
  assert (Nb : t * h <> 0) by (apply Rmult_integral_contrapositive; lra).
  assert (Lo' : s * g = 0 \/ p2 (-1022) <= Rabs (s * g / (t * h))).
  { destruct Lo as [Z|Lo]; [left|right; exact Lo]. replace (s * g) with (s * g / (t * h) * (t * h)) by (field; lra). rewrite Z. ring. }
  destruct (div_ok x y _ _ Dx Dy Ha Hb Nb Lo' Hi) as (D & r & R1 & R2). split; [exact D|]. exists r. split; [exact R1|].
  apply rounded_error in R2; [|exact Lo]. apply error_within in R2. apply (within_trans _ _ _ _ _ R2). exists (g * / h). split; [exact F|symmetry; exact E].
Qed.

(** literals *)
Lemma rounded_int M r : (Z.abs M < 2 ^ 53)%Z -> rounded (IZR M) r -> r = IZR M.
Proof.
  intros H [[-> ->]|(k & n & [K1 K2] & N & ->)]; [reflexivity|].
  assert (k - 1 < 53)%Z. { apply p2_lt_inv. apply Rle_lt_trans with (Rabs (IZR M)); [exact K1|]. rewrite p2_Z by lia. rewrite <- abs_IZR. apply IZR_lt, H. }
  set (e := Z.max (k - 53) (-1074)) in *. assert (E : (e <= 0)%Z) by (unfold e; lia). pose proof (p2_pos e).
  assert (V : IZR M / p2 e = IZR (M * 2 ^ (- e))). { rewrite mult_IZR, <- p2_Z by lia. rewrite p2_opp. reflexivity. }
  cbv zeta in N. rewrite V in N. apply nearest_int in N. rewrite N, <- V. field. lra.
Qed.
Lemma approx_int z : (Z.abs z < 2 ^ 53)%Z -> approx (of_int z) 0 (IZR z).
Proof.
  intros H. assert (E : IZR z * p2 0 = IZR z) by (rewrite p2_0; ring).
  destruct (normalize_ok z 0 ltac:(lia)) as (D & r & S1 & R1 & _).
  { rewrite E. rewrite <- abs_IZR. apply Rlt_trans with (p2 53); [rewrite p2_Z by lia; apply IZR_lt, H|apply p2_lt; lia]. }
  rewrite E in R1. apply rounded_int in R1; [|exact H]. split; [exact D|]. exists r. split; [exact S1|]. subst r. exists 1. split; [apply factor_0|ring].
Qed.

(** magnitudes *)
Definition rng (n : Z) (t : R) : Prop := t = 0 \/ p2 (- n) <= Rabs t <= p2 n.
Lemma rng_mid n t : (n <= 1015)%Z -> rng n t -> mid t.
Proof.
  intros N [H|[A B]]; [left; exact H|right]. split.
  - apply Rle_trans with (p2 (- n)); [apply p2_le; lia|exact A].
  - apply Rle_trans with (p2 n); [exact B|apply p2_le; exact N].
Qed.
Lemma rng_mul a b s t : rng a s -> rng b t -> rng (a + b) (s * t).
Proof.
  intros [->|[A B]] H; [left; ring|]. destruct H as [->|[C D]]; [left; ring|]. right. rewrite Rabs_mult.
  replace (- (a + b))%Z with (- a + - b)%Z by lia. rewrite !p2_add. pose proof (p2_pos (- a)). pose proof (p2_pos (- b)). pose proof (Rabs_pos s). pose proof (Rabs_pos t).
  split; apply Rmult_le_compat; lra.
Qed.
Lemma rng_inv a t : t <> 0 -> rng a t -> rng a (/ t).
Proof.
  intros N [->|[A B]]; [lra|]. right. rewrite Rabs_inv. apply Rabs_pos_lt in N. pose proof (p2_pos a). rewrite p2_opp in *. split.
  - apply Rinv_le_contravar; lra.
  - rewrite <- (Rinv_inv (p2 a)). apply Rinv_le_contravar; [apply Rinv_0_lt_compat; lra|lra].
Qed.
Lemma rng_const t : 1 / 1000000000000000 <= t <= 1000000000000000 -> rng 50 t.
Proof.
  intros H. right. rewrite Rabs_right by lra. rewrite p2_opp, p2_Z by lia. change (2 ^ 50)%Z with 1125899906842624%Z. lra.
Qed.
Lemma rng_small t : 1 / 1024 <= t <= 1024 -> rng 10 t.
Proof. intros H. right. rewrite Rabs_right by lra. rewrite p2_opp, p2_Z by lia. change (2 ^ 10)%Z with 1024%Z. lra. Qed.
Lemma rng_in r : in_range r -> rng 900 r.
Proof.
  intros [H|[A B]]; [left; exact H|right]. split; [apply Rle_trans with (p2 (-800)); [apply p2_le; lia|exact A]|apply Rle_trans with (p2 800); [exact B|apply p2_le; lia]].
Qed.

Definition tracks (x : spec_float) (k : nat) (n : Z) (t : R) : Prop := approx x k t /\ rng n t.
Lemma tracks_mul x y j k m n s t : tracks x j m s -> tracks y k n t -> (j + k <= 10)%nat -> (m + n <= 1015)%Z -> tracks (fmul x y) (j + k + 1) (m + n) (s * t).
Proof.
  intros [A B] [C D] K N. assert (R1 := rng_mul _ _ _ _ B D). split; [|exact R1]. apply approx_mul; try assumption. apply (rng_mid (m + n)); assumption.
Qed.
Lemma tracks_div x y j k m n s t : tracks x j m s -> tracks y k n t -> t <> 0 -> (j + k <= 10)%nat -> (m + n <= 1015)%Z -> tracks (fdiv x y) (j + k + 1) (m + n) (s / t).
Proof.
  intros [A B] [C D] Z K N. assert (R1 : rng (m + n) (s / t)) by (apply rng_mul; [exact B|apply rng_inv; assumption]). split; [|exact R1].
  apply approx_div; try assumption. apply (rng_mid (m + n)); assumption.
Qed.
Lemma tracks_int z : (1 <= z <= 1000000000000000)%Z -> tracks (of_int z) 0 50 (IZR z).
Proof.
  intros H. split; [apply approx_int; lia|]. apply rng_const. destruct H as [A B]. apply IZR_le in A, B. lra.
Qed.
Lemma tracks_lit p q c : (1 <= p <= 1000000000000000)%Z -> (1 <= 10 ^ q <= 1000000000000000)%Z -> c * IZR (10 ^ q) = IZR p ->
  1 / 1024 <= c <= 1024 -> tracks (lit p q) 1 10 c.
Proof.
  intros P Q E C. assert (Z : 0 < IZR (10 ^ q)) by (apply IZR_lt; lia). assert (V : IZR p / IZR (10 ^ q) = c) by (rewrite <- E; field; lra).
  destruct (tracks_div _ _ _ _ _ _ _ _ (tracks_int p P) (tracks_int (10 ^ q) Q)) as [A _]; [lra|lia|lia|]. rewrite V in A. split; [exact A|]. apply rng_small, C.
Qed.
Lemma tracks_small z : (1 <= z <= 1024)%Z -> tracks (of_int z) 0 10 (IZR z).
Proof.
  intros H. split; [apply approx_int; lia|]. apply rng_small. destruct H as [A B]. apply IZR_le in A, B. lra.
Qed.
Lemma tracks_self x r : double x -> stands_for x r -> in_range r -> tracks x 0 900 r.
Proof. intros D H I. split; [|apply rng_in, I]. split; [exact D|]. exists r. split; [exact H|]. exists 1. split; [apply factor_0|ring]. Qed.

Lemma tracks_error x k n t : (k <= 10)%nat -> tracks x k n t -> double x /\ exists a, stands_for x a /\ Rabs (a - t) <= INR k * 1.001 * u * Rabs t.
Proof. intros K [(D & a & H & W) _]. split; [exact D|]. exists a. split; [exact H|]. apply within_error; assumption. Qed.
Lemma computes_intro F f k kr : kr = INR k * 1.001 -> (k <= 10)%nat ->
  (forall x r, tracks x 0 900 r -> exists n t, f (Fin r) = Fin t /\ tracks (F x) k n t) -> computes F f kr 0.
Proof.
  intros -> K H x r D Hr I. destruct (H x r (tracks_self x r D Hr I)) as (n & t & E & T). destruct (tracks_error _ _ _ _ K T) as (D' & a & Ha & Er).
  exists a, t. split; [exact D'|]. split; [exact Ha|]. split; [exact E|]. rewrite Rplus_0_r. exact Er.
Qed.

Ltac literal := (apply tracks_lit; [lia | split; vm_compute; discriminate | match goal with |- _ * IZR ?z = _ => let v := eval vm_compute in z in change z with v end; lra | lra]).
Ltac side := match goal with
  | |- tracks (of_int _) _ _ _ => apply tracks_small; lia
  | |- tracks (lit _ _) _ _ _ => literal
  | |- tracks _ _ _ _ => assumption
  | |- _ => first [lia | lra]
  end.

Definition conversions : list ((spec_float -> spec_float) * (num -> num) * R) :=
  [ (fl_feet2m, feet2m, 2.002); (fl_feet22m2, feet22m2, 2.002); (fl_m22feet2, m22feet2, 2.002); (fl_m2km, m2km, 1.001); (fl_km2m, km2m, 1.001);
    (fl_k2r, k2r, 2.002); (fl_r2k, r2k, 2.002); (fl_pa2mbar, pa2mbar, 2.002); (fl_mbar2pa, mbar2pa, 2.002);
    (fl_inhg2mbar, inhg2mbar, 2.002); (fl_mbar2inhg, mbar2inhg, 2.002); (fl_mbar2lbfft2, mbar2lbfft2, 2.002); (fl_lbfft22mbar, lbfft22mbar, 2.002);
    (fl_mps2kts, mps2kts, 2.002); (fl_kts2mps, kts2mps, 2.002); (fl_m2feet, m2feet, 2.002); (fl_pa2kgm2, pa2kgm2, 2.002); (fl_kg2n, kg2n, 2.002);
    (fl_n2kg, n2kg, 2.002); (fl_kgm22pa, kgm22pa, 2.002); (fl_fpm2mps, fpm2mps, 3.003); (fl_lbs2kg, lbs2kg, 2.002); (fl_kg2lbs, kg2lbs, 2.002);
    (fl_lbf2n, lbf2n, 2.002); (fl_n2lbf, n2lbf, 2.002); (fl_wn2wkg, wn2wkg, 2.002); (fl_wn2kwkg, wn2kwkg, 3.003); (fl_wn2hpkg, wn2hpkg, 5.005);
    (fl_kw2hp, kw2hp, 2.002); (fl_hp2kw, hp2kw, 2.002); (fl_kgm32sft3, kgm32sft3, 2.002); (fl_sft32kgm3, sft32kgm3, 2.002);
    (fl_pa2lbfft2, pa2lbfft2, 2.002); (fl_lbfft22pa, lbfft22pa, 2.002) ].

Lemma mul_lit F f p q c : (forall x, F x = fmul x (lit p q)) -> (forall r, f (Fin r) = Fin (r * c)) ->
  tracks (lit p q) 1 10 c -> computes F f 2.002 0.
Proof.
  intros EF Ef L. apply (computes_intro _ _ 2); [cbn; lra|lia|]. intros x r T. exists 910%Z, (r * c). split; [apply Ef|]. rewrite EF.
  apply (tracks_mul x (lit p q) 0 1 900 10); try assumption; lia.
Qed.
Lemma div_lit F f p q c : c <> 0 -> (forall x, F x = fdiv x (lit p q)) -> (forall r, f (Fin r) = Fin (r / c)) ->
  tracks (lit p q) 1 10 c -> computes F f 2.002 0.
Proof.
  intros Nz EF Ef L. apply (computes_intro _ _ 2); [cbn; lra|lia|]. intros x r T. exists 910%Z, (r / c). split; [apply Ef|]. rewrite EF.
  apply (tracks_div x (lit p q) 0 1 900 10); try assumption; lia.
Qed.
Lemma acc_feet2m : computes fl_feet2m feet2m 2.002 0.
Proof. apply (mul_lit _ _ 3048 4 0.3048); [reflexivity|reflexivity|literal]. Qed.
Lemma acc_feet22m2 : computes fl_feet22m2 feet22m2 2.002 0.
Proof. apply (div_lit _ _ 107639 4 10.7639); [lra|reflexivity|intros; apply ndiv_fin; lra|literal]. Qed.
Lemma acc_m22feet2 : computes fl_m22feet2 m22feet2 2.002 0.
Proof. apply (mul_lit _ _ 107639 4 10.7639); [reflexivity|reflexivity|literal]. Qed.
Lemma acc_m2km : computes fl_m2km m2km 1.001 0.
Proof.
  apply (computes_intro _ _ 1); [cbn; lra|lia|]. intros x r T. exists 910%Z, (r / 1000). split; [apply ndiv_fin; lra|].
  unfold fl_m2km. cbv zeta.
  apply (tracks_div x (of_int 1000) 0 0 900 10); side.
Qed.
Lemma acc_km2m : computes fl_km2m km2m 1.001 0.
Proof.
  apply (computes_intro _ _ 1); [cbn; lra|lia|]. intros x r T. exists 910%Z, (r * 1000). split; [reflexivity|].
  unfold fl_km2m. cbv zeta.
  apply (tracks_mul x (of_int 1000) 0 0 900 10); side.
Qed.
Lemma acc_k2r : computes fl_k2r k2r 2.002 0.
Proof.
  apply (computes_intro _ _ 2); [cbn; lra|lia|]. intros x r T. exists 920%Z, (r * 9 / 5). split; [apply (ndiv_fin (r * 9)); lra|].
  unfold fl_k2r. cbv zeta.
  apply (tracks_div (fmul x (of_int 9)) (of_int 5) 1 0 910 10); [apply (tracks_mul x (of_int 9) 0 0 900 10); side|side..].
Qed.
Lemma acc_r2k : computes fl_r2k r2k 2.002 0.
Proof.
  apply (computes_intro _ _ 2); [cbn; lra|lia|]. intros x r T. exists 920%Z, (r * 5 / 9). split; [apply (ndiv_fin (r * 5)); lra|].
  unfold fl_r2k. cbv zeta.
  apply (tracks_div (fmul x (of_int 5)) (of_int 9) 1 0 910 10); [apply (tracks_mul x (of_int 5) 0 0 900 10); side|side..].
Qed.
Lemma acc_pa2mbar : computes fl_pa2mbar pa2mbar 2.002 0.
Proof. apply (mul_lit _ _ 1 2 0.01); [reflexivity|reflexivity|literal]. Qed.
Lemma acc_mbar2pa : computes fl_mbar2pa mbar2pa 2.002 0.
Proof. apply (div_lit _ _ 1 2 0.01); [lra|reflexivity|intros; apply ndiv_fin; lra|literal]. Qed.
Lemma acc_inhg2mbar : computes fl_inhg2mbar inhg2mbar 2.002 0.
Proof. apply (mul_lit _ _ 338639 4 33.8639); [reflexivity|reflexivity|literal]. Qed.
Lemma acc_mbar2inhg : computes fl_mbar2inhg mbar2inhg 2.002 0.
Proof. apply (div_lit _ _ 338639 4 33.8639); [lra|reflexivity|intros; apply ndiv_fin; lra|literal]. Qed.
Lemma acc_mbar2lbfft2 : computes fl_mbar2lbfft2 mbar2lbfft2 2.002 0.
Proof. apply (mul_lit _ _ 208854 5 2.08854); [reflexivity|reflexivity|literal]. Qed.
Lemma acc_lbfft22mbar : computes fl_lbfft22mbar lbfft22mbar 2.002 0.
Proof. apply (div_lit _ _ 208854 5 2.08854); [lra|reflexivity|intros; apply ndiv_fin; lra|literal]. Qed.
Lemma acc_mps2kts : computes fl_mps2kts mps2kts 2.002 0.
Proof. apply (mul_lit _ _ 19438445 7 1.9438445); [reflexivity|reflexivity|literal]. Qed.
Lemma acc_kts2mps : computes fl_kts2mps kts2mps 2.002 0.
Proof. apply (mul_lit _ _ 5144444 7 0.5144444); [reflexivity|reflexivity|literal]. Qed.
Lemma acc_m2feet : computes fl_m2feet m2feet 2.002 0.
Proof. apply (div_lit _ _ 3048 4 0.3048); [lra|reflexivity|intros; apply ndiv_fin; lra|literal]. Qed.
Lemma acc_pa2kgm2 : computes fl_pa2kgm2 pa2kgm2 2.002 0.
Proof. apply (mul_lit _ _ 1019716212978 13 0.1019716212978); [reflexivity|reflexivity|literal]. Qed.
Lemma acc_kg2n : computes fl_kg2n kg2n 2.002 0.
Proof. apply (mul_lit _ _ 980665 5 9.80665); [reflexivity|reflexivity|literal]. Qed.
Lemma acc_n2kg : computes fl_n2kg n2kg 2.002 0.
Proof. apply (div_lit _ _ 980665 5 9.80665); [lra|reflexivity|intros; apply ndiv_fin; lra|literal]. Qed.
Lemma acc_kgm22pa : computes fl_kgm22pa kgm22pa 2.002 0.
Proof. apply (mul_lit _ _ 980665 5 9.80665); [reflexivity|reflexivity|literal]. Qed.
Lemma acc_fpm2mps : computes fl_fpm2mps fpm2mps 3.003 0.
Proof.
  apply (computes_intro _ _ 3); [cbn; lra|lia|]. intros x r T. exists 920%Z, (r * 0.3048 / 60). split; [apply (ndiv_fin (r * 0.3048)); lra|].
  unfold fl_fpm2mps, fl_feet2m. cbv zeta.
  apply (tracks_div (fmul x (lit 3048 4)) (of_int 60) 2 0 910 10); [apply (tracks_mul x (lit 3048 4) 0 1 900 10); side|side..].
Qed.
Lemma acc_lbs2kg : computes fl_lbs2kg lbs2kg 2.002 0.
Proof. apply (mul_lit _ _ 453592 6 0.453592); [reflexivity|reflexivity|literal]. Qed.
Lemma acc_kg2lbs : computes fl_kg2lbs kg2lbs 2.002 0.
Proof. apply (div_lit _ _ 453592 6 0.453592); [lra|reflexivity|intros; apply ndiv_fin; lra|literal]. Qed.
Lemma acc_lbf2n : computes fl_lbf2n lbf2n 2.002 0.
Proof. apply (div_lit _ _ 224809 6 0.224809); [lra|reflexivity|intros; apply ndiv_fin; lra|literal]. Qed.
Lemma acc_n2lbf : computes fl_n2lbf n2lbf 2.002 0.
Proof. apply (mul_lit _ _ 224809 6 0.224809); [reflexivity|reflexivity|literal]. Qed.
Lemma acc_wn2wkg : computes fl_wn2wkg wn2wkg 2.002 0.
Proof. apply (mul_lit _ _ 980665 5 9.80665); [reflexivity|reflexivity|literal]. Qed.
Lemma acc_wn2kwkg : computes fl_wn2kwkg wn2kwkg 3.003 0.
Proof.
  apply (computes_intro _ _ 3); [cbn; lra|lia|]. intros x r T. exists 920%Z, (r * 9.80665 / 1000). split; [apply (ndiv_fin (r * 9.80665)); lra|].
  unfold fl_wn2kwkg, fl_wn2wkg, fl_g. cbv zeta.
  apply (tracks_div (fmul x (lit 980665 5)) (of_int 1000) 2 0 910 10); [apply (tracks_mul x (lit 980665 5) 0 1 900 10); side|side..].
Qed.
Lemma acc_wn2hpkg : computes fl_wn2hpkg wn2hpkg 5.005 0.
Proof.
  apply (computes_intro _ _ 5); [cbn; lra|lia|]. intros x r T. exists 930%Z, (r * 9.80665 / 1000 * 1.34102).
  split; [unfold wn2hpkg, wn2kwkg, wn2wkg; replace (Fin r * sc_g)%num with (Fin (r * 9.80665)) by reflexivity; rewrite ndiv_fin by lra; reflexivity|].
  unfold fl_wn2hpkg, fl_wn2kwkg, fl_wn2wkg, fl_g.
  apply (tracks_mul (fdiv (fmul x (lit 980665 5)) (of_int 1000)) (lit 134102 5) 3 1 920 10); [|side..].
  apply (tracks_div (fmul x (lit 980665 5)) (of_int 1000) 2 0 910 10); [apply (tracks_mul x (lit 980665 5) 0 1 900 10); side|side..].
Qed.
Lemma acc_kw2hp : computes fl_kw2hp kw2hp 2.002 0.
Proof. apply (mul_lit _ _ 134102 5 1.34102); [reflexivity|reflexivity|literal]. Qed.
Lemma acc_hp2kw : computes fl_hp2kw hp2kw 2.002 0.
Proof. apply (div_lit _ _ 134102 5 1.34102); [lra|reflexivity|intros; apply ndiv_fin; lra|literal]. Qed.
Lemma acc_kgm32sft3 : computes fl_kgm32sft3 kgm32sft3 2.002 0.
Proof. apply (mul_lit _ _ 194032 8 0.00194032); [reflexivity|reflexivity|literal]. Qed.
Lemma acc_sft32kgm3 : computes fl_sft32kgm3 sft32kgm3 2.002 0.
Proof. apply (div_lit _ _ 194032 8 0.00194032); [lra|reflexivity|intros; apply ndiv_fin; lra|literal]. Qed.
Lemma acc_pa2lbfft2 : computes fl_pa2lbfft2 pa2lbfft2 2.002 0.
Proof. apply (mul_lit _ _ 20885434273039 15 0.020885434273039); [reflexivity|reflexivity|literal]. Qed.
Lemma acc_lbfft22pa : computes fl_lbfft22pa lbfft22pa 2.002 0.
Proof. apply (div_lit _ _ 20885434273039 15 0.020885434273039); [lra|reflexivity|intros; apply ndiv_fin; lra|literal]. Qed.

Lemma conversions_accurate F f k : In (F, f, k) conversions -> computes F f k 0.
Proof.
  intros H. unfold conversions in H. cbn [In] in H.
  destruct H as [[= <- <- <-]|H]; [exact acc_feet2m|].
  destruct H as [[= <- <- <-]|H]; [exact acc_feet22m2|].
  destruct H as [[= <- <- <-]|H]; [exact acc_m22feet2|].
  destruct H as [[= <- <- <-]|H]; [exact acc_m2km|].
  destruct H as [[= <- <- <-]|H]; [exact acc_km2m|].
  destruct H as [[= <- <- <-]|H]; [exact acc_k2r|].
  destruct H as [[= <- <- <-]|H]; [exact acc_r2k|].
  destruct H as [[= <- <- <-]|H]; [exact acc_pa2mbar|].
  destruct H as [[= <- <- <-]|H]; [exact acc_mbar2pa|].
  destruct H as [[= <- <- <-]|H]; [exact acc_inhg2mbar|].
  destruct H as [[= <- <- <-]|H]; [exact acc_mbar2inhg|].
  destruct H as [[= <- <- <-]|H]; [exact acc_mbar2lbfft2|].
  destruct H as [[= <- <- <-]|H]; [exact acc_lbfft22mbar|].
  destruct H as [[= <- <- <-]|H]; [exact acc_mps2kts|].
  destruct H as [[= <- <- <-]|H]; [exact acc_kts2mps|].
  destruct H as [[= <- <- <-]|H]; [exact acc_m2feet|].
  destruct H as [[= <- <- <-]|H]; [exact acc_pa2kgm2|].
  destruct H as [[= <- <- <-]|H]; [exact acc_kg2n|].
  destruct H as [[= <- <- <-]|H]; [exact acc_n2kg|].
  destruct H as [[= <- <- <-]|H]; [exact acc_kgm22pa|].
  destruct H as [[= <- <- <-]|H]; [exact acc_fpm2mps|].
  destruct H as [[= <- <- <-]|H]; [exact acc_lbs2kg|].
  destruct H as [[= <- <- <-]|H]; [exact acc_kg2lbs|].
  destruct H as [[= <- <- <-]|H]; [exact acc_lbf2n|].
  destruct H as [[= <- <- <-]|H]; [exact acc_n2lbf|].
  destruct H as [[= <- <- <-]|H]; [exact acc_wn2wkg|].
  destruct H as [[= <- <- <-]|H]; [exact acc_wn2kwkg|].
  destruct H as [[= <- <- <-]|H]; [exact acc_wn2hpkg|].
  destruct H as [[= <- <- <-]|H]; [exact acc_kw2hp|].
  destruct H as [[= <- <- <-]|H]; [exact acc_hp2kw|].
  destruct H as [[= <- <- <-]|H]; [exact acc_kgm32sft3|].
  destruct H as [[= <- <- <-]|H]; [exact acc_sft32kgm3|].
  destruct H as [[= <- <- <-]|H]; [exact acc_pa2lbfft2|].
  destruct H as [[= <- <- <-]|H]; [exact acc_lbfft22pa|].
  destruct H.
Qed.
