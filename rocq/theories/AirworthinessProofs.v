(** Facts about the paragraphs of CS-23. *)
From Verif Require Import Base BaseFacts AnalysisFacts UnitsModel AtmosModel AtmosSpec ConceptModel
  ConceptProofs MethodsModel MethodsSpec ConstraintSpec ConstraintProofs AirworthinessModel AirworthinessSpec.
Open Scope R_scope.

(** ** interpolation *)
Lemma clamp01_range x : 0 <= clamp01 x <= 1.
Proof.
  unfold clamp01. pose proof (Rmax_l 0 (Rmin 1 x)). pose proof (Rmin_l 1 x).
  pose proof (Rmax_lub 0 (Rmin 1 x) 1). lra.
Qed.
Lemma clamp01_mono x y : x <= y -> clamp01 x <= clamp01 y.
Proof. intros H. unfold clamp01, Rmax, Rmin. repeat destruct (Rle_dec _ _); lra. Qed.
Lemma clamp01_mid x : 0 <= x <= 1 -> clamp01 x = x.
Proof. intros H. unfold clamp01, Rmax, Rmin. repeat destruct (Rle_dec _ _); lra. Qed.
Lemma clamp01_lo x : x <= 0 -> clamp01 x = 0.
Proof. intros H. unfold clamp01, Rmax, Rmin. repeat destruct (Rle_dec _ _); lra. Qed.
Lemma clamp01_hi x : 1 <= x -> clamp01 x = 1.
Proof. intros H. unfold clamp01, Rmax, Rmin. repeat destruct (Rle_dec _ _); lra. Qed.
Lemma clamp01_lip x y : Rabs (clamp01 x - clamp01 y) <= Rabs (x - y).
Proof.
  unfold clamp01, Rmax, Rmin, Rabs. repeat destruct (Rle_dec _ _); repeat destruct (Rcase_abs _); lra.
Qed.

Lemma npinterp2_clamp x x0 x1 y0 y1 : x0 < x1 ->
  npinterp2 (Fin x) (Fin x0) (Fin x1) (Fin y0) (Fin y1) = Fin (y0 + (y1 - y0) * clamp01 ((x - x0) / (x1 - x0))).
Proof.
  intros H. unfold npinterp2. rewrite !nleb_fin. assert (P : 0 < / (x1 - x0)) by (apply Rinv_0_lt_compat; lra).
  destruct (Rleb_reflect x x0) as [A|A].
  - rewrite clamp01_lo. { apply Fin_eq. lra. } unfold Rdiv. nra.
  - destruct (Rleb_reflect x1 x) as [B|B].
    + rewrite clamp01_hi. { apply Fin_eq. lra. }
      apply (Rmult_le_reg_r (x1 - x0)); [lra|]. unfold Rdiv. rewrite Rmult_assoc, Rinv_l by lra. lra.
    + rewrite clamp01_mid.
      * rewrite !nsub_fin, ndiv_fin, nmul_fin, nadd_fin by lra. apply Fin_eq. field. lra.
      * split; [unfold Rdiv; nra|]. apply (Rmult_le_reg_r (x1 - x0)); [lra|].
        unfold Rdiv. rewrite Rmult_assoc, Rinv_l by lra. lra.
Qed.

Lemma pymin_fin a b : pymin (Fin a) (Fin b) = Fin (Rmin a b).
Proof.
  unfold pymin. rewrite nltb_fin. unfold Rmin. destruct (Rltb_reflect b a), (Rle_dec a b); try reflexivity; apply Fin_eq; lra.
Qed.
Lemma pymax_fin a b : pymax (Fin a) (Fin b) = Fin (Rmax a b).
Proof.
  unfold pymax. rewrite nltb_fin. unfold Rmax. destruct (Rltb_reflect a b), (Rle_dec a b); try reflexivity; apply Fin_eq; lra.
Qed.

(** ** CS-23.337 *)
Definition coded_negative (c : cat) (lbf : R) : R :=
  match c with Norm | Util | Comm => -0.4 * limit_positive Norm lbf | Aero => -0.5 * limit_positive Norm lbf end.

Lemma limits_spec s W A : weight_n (acobj s) = Some (Fin W) -> wingarea_m2 (acobj s) = Some A -> 0 <= W ->
  exists l, paragraph337 s = Ok l /\
    forall c, npos_min (l c) = Fin (limit_positive c (pounds W)) /\ nneg_max (l c) = Fin (coded_negative c (pounds W)).
Proof.
  intros EW EA HW. unfold paragraph337. rewrite EW, EA. cbn [required rbind]. eexists. split; [reflexivity|].
  unfold n2lbf. rewrite !nmul_fin, !nadd_fin. fold (pounds W).
  assert (P : 0 <= pounds W) by (unfold pounds; lra). rewrite ndiv_fin by lra. rewrite nadd_fin, pymin_fin.
  intros []; cbn [npos_min nneg_max]; rewrite ?nmul_fin; split; reflexivity.
Qed.

Lemma limit_positive_range c lbf : 0 <= lbf -> 2.1 < limit_positive c lbf <= 6.
Proof.
  intros H. assert (P : 0 < 24000 / (lbf + 10000)) by (apply Rdiv_lt_0_compat; lra).
  destruct c; unfold limit_positive, Rmin; try destruct (Rle_dec _ _); lra.
Qed.
Lemma limit_positive_norm lbf : 0 <= lbf -> 2.1 < limit_positive Norm lbf <= 3.8.
Proof.
  intros H. pose proof (limit_positive_range Norm lbf H). cbn [limit_positive] in *.
  pose proof (Rmin_l 3.8 (2.1 + 24000 / (lbf + 10000))). lra.
Qed.
Lemma limit_positive_mono c w1 w2 : 0 <= w1 <= w2 -> limit_positive c w2 <= limit_positive c w1.
Proof.
  intros H. assert (Q : 24000 / (w2 + 10000) <= 24000 / (w1 + 10000)).
  { unfold Rdiv. apply Rmult_le_compat_l; [lra|]. apply Rinv_le_contravar; lra. }
  destruct c; unfold limit_positive, Rmin; repeat destruct (Rle_dec _ _); lra.
Qed.

Lemma limits_partial s W A : weight_n (acobj s) = Some (Fin W) -> wingarea_m2 (acobj s) = Some A -> 0 <= W ->
  exists l, paragraph337 s = Ok l /\
    (forall c, npos_min (l c) = Fin (limit_positive c (pounds W))) /\
    nneg_max (l Norm) = Fin (limit_negative Norm (pounds W)) /\
    nneg_max (l Comm) = Fin (limit_negative Comm (pounds W)).
Proof.
  intros EW EA HW. destruct (limits_spec s W A EW EA HW) as (l & E & H). exists l. split; [exact E|].
  split; [intros c; apply (H c)|]. split; [apply (H Norm)|apply (H Comm)].
Qed.
Lemma limits_negative_wrong s W A : weight_n (acobj s) = Some (Fin W) -> wingarea_m2 (acobj s) = Some A -> 0 <= W ->
  exists l nu na, paragraph337 s = Ok l /\
    nneg_max (l Util) = Fin nu /\ limit_negative Util (pounds W) + 0.2 < nu < 0 /\
    nneg_max (l Aero) = Fin na /\ limit_negative Aero (pounds W) + 1 < na < 0.
Proof.
  intros EW EA HW. destruct (limits_spec s W A EW EA HW) as (l & E & H). do 3 eexists. split; [exact E|].
  split; [apply (H Util)|]. assert (P : 0 <= pounds W) by (unfold pounds; lra).
  pose proof (limit_positive_norm _ P). unfold coded_negative.
  split; [|split; [apply (H Aero)|]]; cbn [coded_negative limit_negative limit_positive] in *; lra.
Qed.

(** ** CS-23.333 *)
Lemma ft_interp h lo hi :
  npinterp2 (Fin h) (feet2m #20000) (feet2m #50000) (feet2m (Fin lo)) (feet2m (Fin hi))
  = Fin (ft (gust_profile lo hi (h / 0.3048))).
Proof.
  unfold feet2m. rewrite !nmul_fin. rewrite npinterp2_clamp by lra. apply Fin_eq. unfold ft, gust_profile.
  replace ((h - 20000 * 0.3048) / (50000 * 0.3048 - 20000 * 0.3048)) with ((h / 0.3048 - 20000) / 30000) by lra.
  ring.
Qed.
Lemma gusts_spec s W A h : weight_n (acobj s) = Some (Fin W) -> wingarea_m2 (acobj s) = Some A -> 0 <= W ->
  altitude_m s = Fin h ->
  exists m g, paragraph333 s = Ok (m, g) /\
    forall c, npos_D (m c) = Fin (limit_positive c (pounds W)) /\ nneg_C (m c) = Fin (coded_negative c (pounds W)) /\
      nneg_D (m c) = Fin (limit_negative_dive c) /\
      Uc_mps (g c) = Fin (ft (gust_profile 50 25 (h / 0.3048))) /\
      Ud_mps (g c) = Fin (ft (gust_profile 25 12.5 (h / 0.3048))) /\
      Ub_mps (g c) = match c with Comm => Some (Fin (ft (gust_profile 66 38 (h / 0.3048)))) | _ => None end.
Proof.
  intros EW EA HW EH. destruct (limits_spec s W A EW EA HW) as (l & E & H).
  unfold paragraph333. rewrite E, EH. cbn [rbind]. do 2 eexists. split; [reflexivity|].
  intros c. destruct (H c) as (H1 & H2). cbn [npos_D nneg_C nneg_D Uc_mps Ud_mps Ub_mps].
  rewrite !ft_interp. repeat split; try assumption; destruct c; reflexivity.
Qed.

Lemma profile_shape lo hi : hi <= lo ->
  (forall h, h <= 20000 -> gust_profile lo hi h = lo) /\ (forall h, 50000 <= h -> gust_profile lo hi h = hi) /\
  (forall h, 20000 <= h <= 50000 -> gust_profile lo hi h = lo - (lo - hi) * (h - 20000) / 30000) /\
  (forall h1 h2, h1 <= h2 -> gust_profile lo hi h2 <= gust_profile lo hi h1) /\
  (forall h, hi <= gust_profile lo hi h <= lo) /\
  (forall h1 h2, Rabs (gust_profile lo hi h2 - gust_profile lo hi h1) <= (lo - hi) / 30000 * Rabs (h2 - h1)).
Proof.
  intros H. unfold gust_profile. repeat split.
  - intros h A. rewrite clamp01_lo by lra. lra.
  - intros h A. rewrite clamp01_hi by lra. lra.
  - intros h A. rewrite clamp01_mid by lra. lra.
  - intros h1 h2 A. pose proof (clamp01_mono ((h1 - 20000) / 30000) ((h2 - 20000) / 30000)). nra.
  - pose proof (clamp01_range ((h - 20000) / 30000)). nra.
  - pose proof (clamp01_range ((h - 20000) / 30000)). nra.
  - intros h1 h2. pose proof (clamp01_lip ((h2 - 20000) / 30000) ((h1 - 20000) / 30000)) as L.
    replace ((h2 - 20000) / 30000 - (h1 - 20000) / 30000) with ((h2 - h1) * / 30000) in L by lra.
    rewrite Rabs_mult, (Rabs_right (/ 30000)) in L by lra.
    set (p := clamp01 ((h2 - 20000) / 30000)) in *. set (q := clamp01 ((h1 - 20000) / 30000)) in *.
    replace (lo + (hi - lo) * p - (lo + (hi - lo) * q)) with (- ((lo - hi) * (p - q))) by ring.
    rewrite Rabs_Ropp, Rabs_mult, (Rabs_right (lo - hi)) by lra.
    apply (Rmult_le_compat_l (lo - hi)) in L; [|lra]. lra.
Qed.

(** ** Mean chords *)
Lemma antiderivative_unique g G H : (forall x, derivable_pt_lim G x (g x)) -> (forall x, derivable_pt_lim H x (g x)) ->
  G 1 - G 0 = H 1 - H 0.
Proof.
  intros DG DH. set (D := (G - H)%F).
  assert (DD : forall x, derivable_pt_lim D x 0).
  { intros x. replace 0 with (g x - g x) by ring. apply derivable_pt_lim_minus; auto. }
  assert (PD : derivable D) by (intros x; exists 0; apply DD).
  assert (E : forall x, derive_pt D x (PD x) = 0) by (intros x; apply derive_pt_eq; apply DD).
  pose proof (null_derivative_1 D PD E 0 1) as C. unfold D, minus_fct in C. lra.
Qed.
Lemma integral_unique g I J : integral01 g I -> integral01 g J -> I = J.
Proof. intros (G & D1 & <-) (H & D2 & <-). eapply antiderivative_unique; eauto. Qed.
Lemma derivable_cubic a b c x : derivable_pt_lim (fun x => a * x + b * x ^ 2 + c * x ^ 3) x (a + 2 * b * x + 3 * c * x ^ 2).
Proof.
  assert (D1 : derivable_pt_lim (fun x => a * x) x (a * 1)) by (apply derivable_pt_lim_scal, derivable_pt_lim_id).
  assert (D2 : derivable_pt_lim (fun x => b * x ^ 2) x (b * (2 * x))).
  { apply (derivable_pt_lim_scal (fun x => x ^ 2)). replace (2 * x) with (INR 2 * x ^ pred 2) by (simpl; ring).
    apply derivable_pt_lim_pow. }
  assert (D3 : derivable_pt_lim (fun x => c * x ^ 3) x (c * (3 * x ^ 2))).
  { apply (derivable_pt_lim_scal (fun x => x ^ 3)). replace (3 * x ^ 2) with (INR 3 * x ^ pred 3) by (simpl; ring).
    apply derivable_pt_lim_pow. }
  pose proof (derivable_pt_lim_plus _ _ _ _ _ (derivable_pt_lim_plus _ _ _ _ _ D1 D2) D3) as D.
  replace (a + 2 * b * x + 3 * c * x ^ 2) with (a * 1 + b * (2 * x) + c * (3 * x ^ 2)) by ring. exact D.
Qed.
Lemma derivable_ext f g x l : (forall y, f y = g y) -> derivable_pt_lim f x l -> derivable_pt_lim g x l.
Proof. intros E H eps He. destruct (H eps He) as (d & K). exists d. intros h h0 hd. rewrite <- !E. auto. Qed.
Lemma chord_integral r t : integral01 (chord r t) (r * (1 + t) / 2).
Proof.
  exists (fun x => r * x + (- r * (1 - t) / 2) * x ^ 2 + 0 * x ^ 3). split; [|simpl; field].
  intros x. pose proof (derivable_cubic r (- r * (1 - t) / 2) 0 x) as D.
  unfold chord. replace (r * (1 - (1 - t) * x)) with (r + 2 * (- r * (1 - t) / 2) * x + 3 * 0 * x ^ 2) by field. exact D.
Qed.
Lemma chord2_integral r t : integral01 (fun y => chord r t y ^ 2) (r ^ 2 * (1 + t + t ^ 2) / 3).
Proof.
  exists (fun x => r ^ 2 * x + (- r ^ 2 * (1 - t)) * x ^ 2 + (r ^ 2 * (1 - t) ^ 2 / 3) * x ^ 3). split; [|simpl; field].
  intros x. pose proof (derivable_cubic (r ^ 2) (- r ^ 2 * (1 - t)) (r ^ 2 * (1 - t) ^ 2 / 3) x) as D.
  unfold chord. replace ((r * (1 - (1 - t) * x)) ^ 2)
    with (r ^ 2 + 2 * (- r ^ 2 * (1 - t)) * x + 3 * (r ^ 2 * (1 - t) ^ 2 / 3) * x ^ 2) by field. exact D.
Qed.

Lemma chords_spec s A B T : wingarea_m2 (acobj s) = Some (Fin A) -> aspectratio (acobj s) = Some (Fin B) ->
  roottaperratio (acobj s) = Some (Fin T) -> 0 < A -> 0 < B -> -1 < T ->
  meanchord_m s = Ok (Fin (sqrt (A / B)), Fin (sqrt (A / B) * (4 / 3 * (1 + T + T ^ 2) / (1 + T) ^ 2))).
Proof.
  intros EA EB ET HA HB HT. unfold meanchord_m. rewrite EA, EB, ET. cbn [pval].
  assert (P : 0 < A / B) by (apply Rdiv_lt_0_compat; lra).
  rewrite ndiv_fin, msqrt_fin by lra. cbn [rbind]. rewrite !npown_fin, !nadd_fin, !ndiv_fin, !nmul_fin by lra.
  rewrite ndiv_fin by lra. do 3 f_equal. field. lra.
Qed.
Lemma chord_ratio T : -1 < T -> 1 <= 4 / 3 * (1 + T + T ^ 2) / (1 + T) ^ 2.
Proof.
  intros H. assert (P : 0 < (1 + T) ^ 2) by (apply pow_lt; lra). apply (Rmult_le_reg_r ((1 + T) ^ 2)); [exact P|].
  unfold Rdiv. rewrite (Rmult_assoc (4 * / 3 * _)), Rinv_l, Rmult_1_r, Rmult_1_l by lra. assert (0 <= (1 - T) ^ 2) by apply pow2_ge_0. simpl in *. lra.
Qed.
(** the two chords are the mean chord and the mean aerodynamic chord of the trapezoid *)
Lemma chords_geometry s A B T root b : wingarea_m2 (acobj s) = Some (Fin A) -> aspectratio (acobj s) = Some (Fin B) ->
  roottaperratio (acobj s) = Some (Fin T) -> 0 < A -> 0 < B -> -1 < T -> trapezoid A B T root b ->
  exists smc mac, meanchord_m s = Ok (Fin smc, Fin mac) /\
    integral01 (chord root T) smc /\ integral01 (fun y => chord root T y ^ 2) (mac * smc) /\
    smc * b = A /\ 0 < smc <= mac.
Proof.
  intros EA EB ET HA HB HT (HR & Hb & EQ & HI). rewrite (chords_spec s A B T) by assumption.
  do 2 eexists. split; [reflexivity|].
  assert (P : 0 < A / B) by (apply Rdiv_lt_0_compat; lra). pose proof (sqrt_lt_R0 _ P) as PS.
  assert (E : sqrt (A / B) = A / b).
  { apply sqrt_lem_1; [lra|left; apply Rdiv_lt_0_compat; lra|].
    replace (A / b * (A / b)) with (A ^ 2 / b ^ 2) by (field; lra). rewrite EQ. field. lra. }
  split; [rewrite E; exact HI|].
  pose proof (integral_unique _ _ _ HI (chord_integral root T)) as C.
  assert (RT : root = 2 * (A / b) / (1 + T)) by (rewrite C; field; lra).
  split; [|split; [rewrite E; field; lra|split; [exact PS|]]].
  - replace (sqrt (A / B) * (4 / 3 * (1 + T + T ^ 2) / (1 + T) ^ 2) * sqrt (A / B))
      with (root ^ 2 * (1 + T + T ^ 2) / 3). { apply chord2_integral. }
    rewrite E, RT. field. lra.
  - pose proof (chord_ratio T HT). nra.
Qed.
Lemma chords_scale s1 s2 A B T k : wingarea_m2 (acobj s1) = Some (Fin A) -> aspectratio (acobj s1) = Some (Fin B) ->
  roottaperratio (acobj s1) = Some (Fin T) -> wingarea_m2 (acobj s2) = Some (Fin (k ^ 2 * A)) ->
  aspectratio (acobj s2) = Some (Fin B) -> roottaperratio (acobj s2) = Some (Fin T) ->
  0 < A -> 0 < B -> -1 < T -> 0 < k ->
  exists smc mac, meanchord_m s1 = Ok (Fin smc, Fin mac) /\ meanchord_m s2 = Ok (Fin (k * smc), Fin (k * mac)).
Proof.
  intros. assert (K : 0 < k ^ 2) by (apply pow_lt; assumption).
  rewrite (chords_spec s1 A B T), (chords_spec s2 (k ^ 2 * A) B T) by (try assumption; apply Rmult_lt_0_compat; assumption).
  do 2 eexists. split; [reflexivity|].
  assert (E : sqrt (k ^ 2 * A / B) = k * sqrt (A / B)).
  { replace (k ^ 2 * A / B) with (k ^ 2 * (A / B)) by (field; lra).
    rewrite sqrt_mult_alt by lra. rewrite <- Rsqr_pow2, sqrt_Rsqr by lra. reflexivity. }
  rewrite E. do 3 f_equal. ring.
Qed.
