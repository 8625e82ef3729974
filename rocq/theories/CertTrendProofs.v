(** The same aeroplane at a higher weight. *)
From Verif Require Import Base BaseFacts AnalysisFacts UnitsModel AtmosModel AtmosSpec ConceptModel ConceptProofs MethodsModel MethodsSpec MethodsExamples MethodsProofs2 ConstraintSpec
  ConstraintProofs AirworthinessModel AirworthinessSpec AirworthinessProofs AirworthinessProofs2 AirworthinessProofs3 AirworthinessProofs4 AirworthinessProofs5
  AirworthinessProofs6 AirworthinessExamples CertTrendSpec.
Open Scope R_scope.

Definition loaded (f : flight) (w : R) : flight :=
  {| f_weight := w; f_area := f_area f; f_aspect := f_aspect f; f_taper := f_taper f; f_clmax := f_clmax f; f_clmin := f_clmin f; f_vc := f_vc f;
     f_alt := f_alt f; f_wf := f_wf f; f_sl := f_sl f; f_air := f_air f; f_slope := f_slope f |}.
Lemma weighing_describes ext s f w : describes ext s f -> 0 < w -> describes ext (weighing s w) (loaded f w).
Proof.
  intros (A1 & A2 & A3 & A4 & A5 & A6 & A7 & A8 & A9 & A10 & A11 & A12 & B) W.
  split; [reflexivity|]. split; [exact A2|]. split; [exact A3|]. split; [exact A4|]. split; [exact A5|]. split; [exact A6|]. split; [exact A7|]. split; [exact A8|]. split; [exact A9|].
  split; [exact A10|]. split; [exact A11|]. split; [exact A12|]. cbn [loaded f_weight f_area f_aspect f_taper f_clmax f_clmin f_vc f_wf f_slope]. tauto.
Qed.

(** ** Linear coefficients times a root *)
Lemma glue (F : R -> R) : (forall a b, 0 < a -> a < b -> b <= 20 -> F a < F b) -> (forall a b, 20 <= a -> a < b -> b <= 100 -> F a < F b) ->
  (forall a b, 100 <= a -> a < b -> F a < F b) -> forall a b, 0 < a -> a < b -> F a < F b.
Proof.
  intros H1 H2 H3 a b A B. destruct (Rle_dec b 20); [apply H1; lra|]. destruct (Rle_dec b 100).
  - destruct (Rlt_dec a 20) as [L|L]; [|apply H2; lra]. apply Rlt_trans with (F 20); [apply H1; lra|apply H2; lra].
  - destruct (Rlt_dec a 20) as [L|L].
    + apply Rlt_trans with (F 20); [apply H1; lra|]. apply Rlt_trans with (F 100); [apply H2; lra|apply H3; lra].
    + destruct (Rlt_dec a 100) as [M|M]; [|apply H3; lra]. apply Rlt_trans with (F 100); [apply H2; lra|apply H3; lra].
Qed.
Lemma by_low lo hi w : w <= 20 -> by_loading lo hi w = lo.
Proof. intros H. unfold by_loading. rewrite clamp01_lo; [ring|]. apply (Rmult_le_reg_r 80); [lra|]. unfold Rdiv. rewrite Rmult_assoc, Rinv_l; lra. Qed.
Lemma by_mid lo hi w : 20 <= w <= 100 -> by_loading lo hi w = lo + (hi - lo) / 80 * (w - 20).
Proof. intros H. unfold by_loading. rewrite clamp01_mid; [field|]. split; (apply (Rmult_le_reg_r 80); [lra|]; unfold Rdiv; rewrite Rmult_assoc, Rinv_l; lra). Qed.
Lemma by_high lo hi w : 100 <= w -> by_loading lo hi w = hi.
Proof. intros H. unfold by_loading. rewrite clamp01_hi; [ring|]. apply (Rmult_le_reg_r 80); [lra|]. unfold Rdiv. rewrite Rmult_assoc, Rinv_l; lra. Qed.
Lemma root_rises a b : 0 < a -> a < b -> 0 < sqrt a < sqrt b.
Proof. intros A B. split; [apply sqrt_lt_R0; exact A|apply sqrt_lt_1; lra]. Qed.
Lemma affine_root (p q u v : R) : 0 < u -> u < v -> 0 <= q -> 3 * q * v ^ 2 < p -> (p - q * u ^ 2) * u < (p - q * v ^ 2) * v.
Proof.
  intros U V Q H. assert (q * u ^ 2 <= q * v ^ 2) by (apply Rmult_le_compat_l; [lra|simpl; nra]). assert (q * (u * v) <= q * v ^ 2) by (apply Rmult_le_compat_l; [lra|simpl; nra]).
  enough (0 < (v - u) * (p - q * u ^ 2 - q * (u * v) - q * v ^ 2)) by (simpl in *; nra). apply Rmult_lt_0_compat; lra.
Qed.
Lemma affine_root4 (p q u v : R) : 0 < u -> u < v -> 0 <= q -> 5 * q * v ^ 4 < p -> (p - q * u ^ 4) * u < (p - q * v ^ 4) * v.
Proof.
  intros U V Q H. assert (U2 : 0 < u ^ 2) by (simpl; nra). assert (V2 : u ^ 2 < v ^ 2) by (simpl; nra). assert (UV : 0 < u * v < v ^ 2) by (simpl; nra).
  assert (q * (u ^ 4 + u ^ 3 * v + u ^ 2 * v ^ 2 + u * v ^ 3) <= q * (4 * v ^ 4)).
  { apply Rmult_le_compat_l; [lra|]. replace (u ^ 4) with (u ^ 2 * u ^ 2) by ring. replace (u ^ 3 * v) with (u ^ 2 * (u * v)) by ring.
    replace (u * v ^ 3) with ((u * v) * v ^ 2) by ring. replace (v ^ 4) with (v ^ 2 * v ^ 2) by ring. set (x := u ^ 2) in *. set (y := v ^ 2) in *. set (z := u * v) in *. nra. }
  enough (0 < (v - u) * (p - q * (u ^ 4 + u ^ 3 * v + u ^ 2 * v ^ 2 + u * v ^ 3) - q * v ^ 4)) by (simpl in *; nra). apply Rmult_lt_0_compat; lra.
Qed.
Lemma loading_root lo hi a b : 0 < hi <= lo -> 3 * ((lo - hi) / 80) * 100 < lo + (lo - hi) / 4 -> 0 < a -> a < b -> by_loading lo hi a * sqrt a < by_loading lo hi b * sqrt b.
Proof.
  intros P C. apply (glue (fun w => by_loading lo hi w * sqrt w)); intros x y X Y; try intros Z.
  - rewrite !by_low by lra. pose proof (root_rises x y X Y). nra.
  - rewrite !by_mid by lra. destruct (root_rises x y ltac:(lra) Y) as (U & V). set (u := sqrt x) in *. set (v := sqrt y) in *.
    assert (EU : x = u ^ 2) by (unfold u; rewrite pow2_sqrt; lra). assert (EV : y = v ^ 2) by (unfold v; rewrite pow2_sqrt; lra).
    replace (lo + (hi - lo) / 80 * (x - 20)) with (lo + (lo - hi) / 4 - (lo - hi) / 80 * x) by field. replace (lo + (hi - lo) / 80 * (y - 20)) with (lo + (lo - hi) / 4 - (lo - hi) / 80 * y) by field.
    rewrite EU at 1. rewrite EV at 1. apply affine_root; [lra|lra|lra|]. rewrite <- EV. assert ((lo - hi) / 80 * y <= (lo - hi) / 80 * 100) by (apply Rmult_le_compat_l; lra). lra.
  - rewrite !by_high by lra. pose proof (root_rises x y ltac:(lra) Y). nra.
Qed.
Lemma loading_root4 lo hi a b : 0 < hi <= lo -> 5 * ((lo - hi) / 80) * 100 < lo + (lo - hi) / 4 -> 0 < a -> a < b -> by_loading lo hi a * sqrt (sqrt a) < by_loading lo hi b * sqrt (sqrt b).
Proof.
  intros P C. assert (RR : forall x y, 0 < x -> x < y -> 0 < sqrt (sqrt x) < sqrt (sqrt y)) by (intros x y X Y; destruct (root_rises x y X Y); apply root_rises; assumption).
  apply (glue (fun w => by_loading lo hi w * sqrt (sqrt w))); intros x y X Y; try intros Z.
  - rewrite !by_low by lra. pose proof (RR x y X Y). nra.
  - rewrite !by_mid by lra. destruct (RR x y ltac:(lra) Y) as (U & V). set (u := sqrt (sqrt x)) in *. set (v := sqrt (sqrt y)) in *.
    assert (F : forall z, 0 <= z -> z = sqrt (sqrt z) ^ 4) by (intros z Hz; replace (sqrt (sqrt z) ^ 4) with ((sqrt (sqrt z) ^ 2) ^ 2) by ring; rewrite pow2_sqrt by apply sqrt_pos; rewrite pow2_sqrt; lra).
    assert (EU : x = u ^ 4) by (apply F; lra). assert (EV : y = v ^ 4) by (apply F; lra).
    replace (lo + (hi - lo) / 80 * (x - 20)) with (lo + (lo - hi) / 4 - (lo - hi) / 80 * x) by field. replace (lo + (hi - lo) / 80 * (y - 20)) with (lo + (lo - hi) / 4 - (lo - hi) / 80 * y) by field.
    rewrite EU at 1. rewrite EV at 1. apply affine_root4; [lra|lra|lra|]. rewrite <- EV. assert ((lo - hi) / 80 * y <= (lo - hi) / 80 * 100) by (apply Rmult_le_compat_l; lra). lra.
  - rewrite !by_high by lra. pose proof (RR x y ltac:(lra) Y). nra.
Qed.
Lemma vc_rises c a b : 0 < a -> a < b -> vc_coefficient c a * sqrt a < vc_coefficient c b * sqrt b.
Proof. intros A B. destruct c; cbn [vc_coefficient]; apply loading_root; lra. Qed.
Lemma by_pos lo hi w : 0 < hi <= lo -> 0 < by_loading lo hi w.
Proof. intros H. pose proof (by_loading_range lo hi w ltac:(lra)). lra. Qed.
Lemma vd_rises c a b : c <> Aero -> 0 < a -> a < b -> vd_coefficient c a * (vc_coefficient c a * sqrt a) < vd_coefficient c b * (vc_coefficient c b * sqrt b).
Proof.
  intros NA A B. assert (Q : forall z, 0 < z -> 0 < sqrt (sqrt z)) by (intros; apply sqrt_lt_R0, sqrt_lt_R0; assumption).
  assert (E : forall z, 0 < z -> vd_coefficient c z * (vc_coefficient c z * sqrt z) = (vd_coefficient c z * sqrt (sqrt z)) * (vc_coefficient c z * sqrt (sqrt z))).
  { intros z Z. replace (sqrt z) with (sqrt (sqrt z) ^ 2) at 1 by (apply pow2_sqrt, sqrt_pos). ring. }
  rewrite (E a), (E b) by lra. pose proof (Q a A). pose proof (Q b ltac:(lra)). pose proof (vc_coefficient_range c a). pose proof (vd_coefficient_range c a).
  apply Rmult_gt_0_lt_compat; [apply Rmult_lt_0_compat; lra|pose proof (vd_coefficient_range c b); apply Rmult_lt_0_compat; lra| |].
  - destruct c; cbn [vd_coefficient]; try congruence; apply loading_root4; lra.
  - destruct c; cbn [vc_coefficient]; try congruence; apply loading_root4; lra.
Qed.
Lemma aero_falls a b : 99 <= a -> a < b -> b <= 100 -> vd_coefficient Aero b * (vc_coefficient Aero b * sqrt b) < vd_coefficient Aero a * (vc_coefficient Aero a * sqrt a).
Proof.
  intros A B C. cbn [vd_coefficient vc_coefficient]. rewrite !by_mid by lra.
  set (p1 := (1.55 + (1.35 - 1.55) / 80 * (a - 20)) * (36 + (28.6 - 36) / 80 * (a - 20))). set (p2 := (1.55 + (1.35 - 1.55) / 80 * (b - 20)) * (36 + (28.6 - 36) / 80 * (b - 20))).
  assert (P2 : 38 < p2 <= 38.807) by (unfold p2; split; nra). assert (D : 0.196 * (b - a) < p1 - p2) by (unfold p1, p2; nra).
  rewrite <- !Rmult_assoc. fold p1 p2. apply Rsqr_incrst_0; [|apply Rmult_le_pos; [lra|apply sqrt_pos]|apply Rmult_le_pos; [lra|apply sqrt_pos]].
  rewrite !Rsqr_mult, !Rsqr_sqrt by lra. unfold Rsqr. replace b with (a + (b - a)) at 1 by ring. set (d := b - a) in *. assert (0 < d) by (unfold d; lra).
  assert (p2 * p2 * d < (p1 - p2) * (p1 + p2) * a); [|nra].
  apply Rlt_le_trans with (0.196 * d * (2 * p2) * 99);
    [replace (p2 * p2 * d) with ((p2 * d) * p2) by ring; replace (0.196 * d * (2 * p2) * 99) with ((p2 * d) * (0.196 * 2 * 99)) by ring;
     apply Rmult_lt_compat_l; [apply Rmult_lt_0_compat; lra|lra]|]. apply Rmult_le_compat; [|lra| |lra].
  - apply Rmult_le_pos; nra.
  - apply Rmult_le_compat; lra.
Qed.

(** ** Load factor times weight *)
Lemma load_rises c a b : 0 < a -> a < b -> limit_positive c (pounds a) * a < limit_positive c (pounds b) * b.
Proof.
  intros A B. assert (U : limit_positive c (pounds a) * a < limit_positive c (pounds b) * b); [|exact U]. destruct c; cbn [limit_positive]; try lra.
  all: unfold pounds; set (x := a * 0.224809); set (y := b * 0.224809); assert (X : 0 < x) by (unfold x; lra); assert (XY : x < y) by (unfold x, y; lra).
  all: assert (K : forall z, 0 < z -> 24000 / (z + 10000) * z = 24000 - 240000000 / (z + 10000)) by (intros; field; lra).
  all: assert (M : (2.1 + 24000 / (x + 10000)) * x < (2.1 + 24000 / (y + 10000)) * y)
    by (rewrite !Rmult_plus_distr_r, !K by lra; enough (240000000 / (y + 10000) < 240000000 / (x + 10000)) by lra; apply Rmult_lt_compat_l; [lra|apply Rinv_lt_contravar; nra]).
  all: enough (Rmin 3.8 (2.1 + 24000 / (x + 10000)) * x < Rmin 3.8 (2.1 + 24000 / (y + 10000)) * y) by (unfold x, y in *; nra).
  all: pose proof (Rmin_l 3.8 (2.1 + 24000 / (x + 10000))); pose proof (Rmin_r 3.8 (2.1 + 24000 / (x + 10000))).
  all: unfold Rmin at 2; destruct (Rle_dec 3.8 (2.1 + 24000 / (y + 10000))); nra.
Qed.
Lemma carries_rises rho area cl n1 n2 v1 v2 : 0 < rho -> 0 < area -> 0 < cl * n1 -> 0 < cl * n2 -> Rabs n1 < Rabs n2 -> carries rho area cl n1 v1 -> carries rho area cl n2 v2 -> v1 < v2.
Proof.
  intros R A C1 C2 N (P1 & E1) (P2 & E2). apply Rsqr_incrst_0; [|assumption..]. unfold Rsqr. assert (K : 0 < 1 / 2 * rho * area) by (apply Rmult_lt_0_compat; lra).
  set (k := 1 / 2 * rho * area) in *.
  assert (F1 : k * (v1 * v1) * cl = n1) by (rewrite <- E1; unfold k; ring). assert (F2 : k * (v2 * v2) * cl = n2) by (rewrite <- E2; unfold k; ring).
  assert (G : forall z, 0 < cl * z -> Rabs z * Rabs cl = z * cl) by (intros z Z; rewrite <- Rabs_mult, Rabs_right; lra).
  assert (CL : 0 < Rabs cl) by (apply Rabs_pos_lt; intros ->; lra). assert (C2' : 0 < Rabs cl * Rabs cl) by (apply Rmult_lt_0_compat; assumption).
  assert (S2 : Rabs cl * Rabs cl = cl * cl) by (rewrite <- Rabs_mult, Rabs_right; [reflexivity|apply Rle_ge; fold (Rsqr cl); apply Rle_0_sqr]).
  assert (N' : n1 * cl < n2 * cl) by (rewrite <- !G by assumption; apply Rmult_lt_compat_r; assumption). rewrite <- F1, <- F2 in N'.
  apply (Rmult_lt_reg_l (k * (cl * cl))); [apply Rmult_lt_0_compat; lra|]. lra.
Qed.

Section Heavier.
  Variables (ext : externals) (s : cert) (f : flight) (w : R).
  Hypotheses (HD : describes ext s f) (HW : f_weight f < w).
  Let P0 : 0 < f_weight f := p_weight _ _ _ HD.
  Let HD2 : describes ext (weighing s w) (loaded f w).
  Proof. apply weighing_describes; [exact HD|lra]. Qed.

  Lemma loading_rises : 0 < wing_loading f < wing_loading (loaded f w).
  Proof. pose proof (p_loading _ _ _ HD). split; [assumption|]. unfold wing_loading. cbn [f_weight f_area loaded]. apply Rmult_lt_compat_r; [apply Rinv_0_lt_compat, (p_area _ _ _ HD)|exact HW]. Qed.
  Lemma lb_rises : 0 < pounds_per_ft2 (wing_loading f) < pounds_per_ft2 (wing_loading (loaded f w)).
  Proof. pose proof loading_rises. unfold pounds_per_ft2. lra. Qed.
  Lemma milder_gusts : alleviation f < alleviation (loaded f w) /\
    0 < alleviation (loaded f w) / (wing_loading (loaded f w) * f_wf f) < alleviation f / (wing_loading f * f_wf f).
  Proof.
    pose proof loading_rises as L. pose proof (p_rho _ _ _ HD) as R. pose proof (p_chord _ _ _ HD) as C. pose proof (p_slope _ _ _ HD) as S. pose proof (p_wf _ _ _ HD) as F.
    set (d := a_rho (f_air f) * std_chord f * f_slope f * gravity). assert (D : 0 < d) by (unfold d, gravity; repeat (apply Rmult_lt_0_compat; [|lra]); assumption).
    set (y1 := wing_loading f * f_wf f). set (y2 := wing_loading (loaded f w) * f_wf f). assert (Y : 0 < y1 < y2) by (unfold y1, y2; split; [apply Rmult_lt_0_compat; lra|apply Rmult_lt_compat_r; lra]).
    assert (A1 : alleviation f = 0.88 * (2 * y1) / (5.3 * d + 2 * y1)) by (unfold alleviation, mass_ratio; fold d y1; field; split; lra).
    assert (A2 : alleviation (loaded f w) = 0.88 * (2 * y2) / (5.3 * d + 2 * y2)).
    { unfold alleviation, mass_ratio. change (wing_loading (loaded f w) * f_wf (loaded f w)) with y2.
      change (a_rho (f_air (loaded f w)) * std_chord (loaded f w) * f_slope (loaded f w) * gravity) with d. field. split; lra. }
    rewrite A1, A2. split.
    - replace (0.88 * (2 * y1) / (5.3 * d + 2 * y1)) with (0.88 - 0.88 * 5.3 * d / (5.3 * d + 2 * y1)) by (field; lra).
      replace (0.88 * (2 * y2) / (5.3 * d + 2 * y2)) with (0.88 - 0.88 * 5.3 * d / (5.3 * d + 2 * y2)) by (field; lra).
      enough (0.88 * 5.3 * d / (5.3 * d + 2 * y2) < 0.88 * 5.3 * d / (5.3 * d + 2 * y1)) by lra. apply Rmult_lt_compat_l; [lra|apply Rinv_lt_contravar; nra].
    - replace (0.88 * (2 * y1) / (5.3 * d + 2 * y1) / y1) with (0.88 * 2 / (5.3 * d + 2 * y1)) by (field; lra).
      replace (0.88 * (2 * y2) / (5.3 * d + 2 * y2) / y2) with (0.88 * 2 / (5.3 * d + 2 * y2)) by (field; lra).
      split; [apply Rdiv_lt_0_compat; lra|]. apply Rmult_lt_compat_l; [lra|apply Rinv_lt_contravar; nra].
  Qed.
  Lemma gust_pos lo hi h : 0 < hi <= lo -> 0 < ft (gust_profile lo hi h).
  Proof. intros H. unfold ft, gust_profile. pose proof (clamp01_range ((h - 20000) / 30000)). nra. Qed.
  Lemma gusts_milder sp : exists L1 L2 kg1 kg2 a, paragraph341 ext s sp = Ok (L1, Fin kg1, a) /\ paragraph341 ext (weighing s w) sp = Ok (L2, Fin kg2, a) /\ kg1 < kg2 /\
    (forall k v, 0 < v -> at_Uc sp = Some (Fin v) -> milder (l_Uc (L1 k)) (l_Uc (L2 k))) /\
    (forall k v, 0 < v -> at_Ud sp = Some (Fin v) -> milder (l_Ud (L1 k)) (l_Ud (L2 k))) /\
    (forall v, 0 < v -> at_Ub sp = Some (Fin v) -> milder (l_Ub (L1 Comm)) (l_Ub (L2 Comm))).
  Proof.
    destruct (gust_loads _ _ _ HD) as (K1 & E1 & P1 & G1). destruct (gust_loads _ _ _ HD2) as (K2 & E2 & P2 & G2).
    destruct (G1 sp) as (L1 & kg1 & H1 & Q1 & R1 & C1 & D1 & B1 & _). destruct (G2 sp) as (L2 & kg2 & H2 & Q2 & R2 & C2 & D2 & B2 & _).
    destruct milder_gusts as (M1 & M2 & M3). pose proof (p_sl _ _ _ HD) as SL. pose proof (p_slope _ _ _ HD) as S. pose proof (p_wf _ _ _ HD) as F.
    assert (LT : K2 < K1).
    { rewrite E1, E2. cbn [loaded f_sl f_slope f_wf]. set (c := a_rho (f_sl f) * 0.5144444 * f_slope f / 2 / f_wf f).
      assert (CP : 0 < c) by (unfold c; apply Rdiv_lt_0_compat; [|lra]; apply Rdiv_lt_0_compat; [|lra]; apply Rmult_lt_0_compat; lra). pose proof loading_rises as L.
      replace (alleviation f * a_rho (f_sl f) * 0.5144444 * f_slope f / (2 * (wing_loading f * f_wf f)) / f_wf f) with (alleviation f / (wing_loading f * f_wf f) * c) by (unfold c; field; lra).
      replace (alleviation (loaded f w) * a_rho (f_sl f) * 0.5144444 * f_slope f / (2 * (wing_loading (loaded f w) * f_wf f)) / f_wf f)
        with (alleviation (loaded f w) / (wing_loading (loaded f w) * f_wf f) * c) by (unfold c; field; lra).
      apply Rmult_lt_compat_r; assumption. }
    assert (Z : forall g v, 0 < g -> 0 < v -> 1 < 1 + K2 * g * v < 1 + K1 * g * v /\ 1 - K1 * g * v < 1 - K2 * g * v < 1).
    { intros g v G V. assert (0 < g * v) by (apply Rmult_lt_0_compat; assumption). rewrite !Rmult_assoc. nra. }
    exists L1, L2, kg1, kg2, (Fin (f_slope f)). split; [exact H1|]. split; [exact H2|]. split; [rewrite Q1, Q2; exact M1|].
    split; [|split].
    - intros k v V A. rewrite (C1 k v A), (C2 k v A). do 4 eexists. split; [reflexivity|]. split; [reflexivity|]. apply Z; [apply gust_pos; lra|exact V].
    - intros k v V A. rewrite (D1 k v A), (D2 k v A). do 4 eexists. split; [reflexivity|]. split; [reflexivity|]. apply Z; [apply gust_pos; lra|exact V].
    - intros v V A. rewrite (B1 v A), (B2 v A). do 4 eexists. split; [reflexivity|]. split; [reflexivity|]. apply Z; [apply gust_pos; lra|exact V].
  Qed.
  Lemma speeds_rise : exists p1 p2, paragraph335 ext s = Ok p1 /\ paragraph335 ext (weighing s w) = Ok p2 /\ forall k, exists vc1 vc2 va1 va2 vd1 vd2,
    vcmin_keas (p1 k) = Fin vc1 /\ vcmin_keas (p2 k) = Fin vc2 /\ vc1 < vc2 /\ vamin_keas (p1 k) = Fin va1 /\ vamin_keas (p2 k) = Fin va2 /\ va1 < va2 /\
    vdmin_keas (p1 k) = Fin vd1 /\ vdmin_keas (p2 k) = Fin vd2 /\ (k <> Aero -> vd1 <= vd2).
  Proof.
    destruct (design_speeds_meaning _ _ _ HD) as (p1 & E1 & S1). destruct (design_speeds_meaning _ _ _ HD2) as (p2 & E2 & S2).
    exists p1, p2. split; [exact E1|]. split; [exact E2|]. intros k. destruct (S1 k) as (ua1 & _ & _ & C1 & D1 & _ & A1 & _ & R1 & _). destruct (S2 k) as (ua2 & _ & _ & C2 & D2 & _ & A2 & _ & R2 & _).
    exists (vc_minimum k f), (vc_minimum k (loaded f w)), (in_knots ua1), (in_knots ua2), (vd_minimum k f), (vd_minimum k (loaded f w)).
    destruct lb_rises as (L1 & L2). pose proof (vc_rises k _ _ L1 L2) as V.
    split; [exact C1|]. split; [exact C2|]. split; [exact V|]. split; [exact A1|]. split; [exact A2|]. split.
    - unfold in_knots. apply Rmult_lt_compat_r; [lra|]. cbn [loaded f_sl f_area f_clmax f_wf f_weight] in R2.
      pose proof (load_rises k _ _ P0 HW) as LR. pose proof (p_wf _ _ _ HD) as F. pose proof (p_clmax _ _ _ HD) as CL. pose proof (p_limit _ _ _ HD k) as LP. pose proof (p_limit _ _ _ HD2 k) as LP2. cbn [loaded f_weight] in LP2.
      assert (0 < limit_positive k (pounds (f_weight f)) * (f_wf f * f_weight f)) by (apply Rmult_lt_0_compat; [lra|apply Rmult_lt_0_compat; lra]).
      assert (limit_positive k (pounds (f_weight f)) * (f_wf f * f_weight f) < limit_positive k (pounds w) * (f_wf f * w)) by nra.
      refine (carries_rises _ _ _ _ _ _ _ (p_sl _ _ _ HD) (p_area _ _ _ HD) _ _ _ R1 R2); [apply Rmult_lt_0_compat; lra..|]. rewrite !Rabs_right by lra. assumption.
    - split; [exact D1|]. split; [exact D2|]. intros NA. unfold vd_minimum. cbn [loaded f_vc]. apply Rle_max_compat_l. left. exact (vd_rises k _ _ NA L1 L2).
  Qed.
  Lemma stall_rises n : n <> 0 -> exists v1 v2, vs_keas s (Fin n) = Ok (Fin v1) /\ vs_keas (weighing s w) (Fin n) = Ok (Fin v2) /\ v1 < v2.
  Proof.
    intros N. destruct (stall_speed _ _ _ HD n) as (u1 & E1 & C1). destruct (stall_speed _ _ _ HD2 n) as (u2 & E2 & C2). exists (in_knots u1), (in_knots u2). split; [exact E1|]. split; [exact E2|].
    unfold in_knots. apply Rmult_lt_compat_r; [lra|]. cbn [loaded f_sl f_area f_clmax f_clmin f_weight] in C2. pose proof (p_clmax _ _ _ HD). pose proof (p_clmin _ _ _ HD).
    assert (SG : 0 < (if Rle_dec 0 n then f_clmax f else f_clmin f) * n) by (destruct (Rle_dec 0 n); [apply Rmult_lt_0_compat; lra|nra]).
    refine (carries_rises _ _ _ _ _ _ _ (p_sl _ _ _ HD) (p_area _ _ _ HD) _ _ _ C1 C2).
    - rewrite <- Rmult_assoc. apply Rmult_lt_0_compat; lra.
    - rewrite <- Rmult_assoc. apply Rmult_lt_0_compat; lra.
    - rewrite !Rabs_mult, (Rabs_right (f_weight f)), (Rabs_right w) by lra. apply Rmult_lt_compat_l; [apply Rabs_pos_lt; exact N|exact HW].
  Qed.
  Lemma aerobatic_dive : 99 <= loading_at f (f_weight f) -> loading_at f w <= 100 -> f_vc f <= vc_minimum Aero f ->
    exists p1 p2 vd1 vd2, paragraph335 ext s = Ok p1 /\ paragraph335 ext (weighing s w) = Ok p2 /\ vdmin_keas (p1 Aero) = Fin vd1 /\ vdmin_keas (p2 Aero) = Fin vd2 /\ vd2 < vd1.
  Proof.
    intros A B C. destruct (design_speeds_meaning _ _ _ HD) as (p1 & E1 & S1). destruct (design_speeds_meaning _ _ _ HD2) as (p2 & E2 & S2).
    destruct (S1 Aero) as (_ & _ & _ & _ & D1 & _). destruct (S2 Aero) as (_ & _ & _ & _ & D2 & _).
    exists p1, p2, (vd_minimum Aero f), (vd_minimum Aero (loaded f w)). split; [exact E1|]. split; [exact E2|]. split; [exact D1|]. split; [exact D2|].
    destruct lb_rises as (L1 & L2). unfold loading_at in A, B. pose proof (aero_falls (pounds_per_ft2 (wing_loading f)) (pounds_per_ft2 (wing_loading (loaded f w))) A L2 B) as FA.
    unfold vd_minimum. cbn [loaded f_vc]. fold (vc_minimum Aero f) in FA. fold (vc_minimum Aero (loaded f w)) in FA.
    pose proof (vd_coefficient_range Aero (pounds_per_ft2 (wing_loading f))) as VR. pose proof (vc_minimum_pos _ _ _ HD Aero) as VP. pose proof (p_vc _ _ _ HD) as V0.
    apply Rmax_lub_lt; [apply Rlt_le_trans with (vd_coefficient Aero (pounds_per_ft2 (wing_loading f)) * vc_minimum Aero f); [nra|apply Rmax_r]|].
    apply Rlt_le_trans with (1 := FA). apply Rmax_r.
  Qed.
End Heavier.

Lemma limit_load_rises ext s f w : describes ext s f -> f_weight f < w -> exists l1 l2, paragraph337 s = Ok l1 /\ paragraph337 (weighing s w) = Ok l2 /\
  forall k, exists n1 n2, npos_min (l1 k) = Fin n1 /\ npos_min (l2 k) = Fin n2 /\ n2 <= n1 /\ n1 * f_weight f < n2 * w.
Proof.
  intros HD HW. pose proof (p_weight _ _ _ HD) as P. assert (A : wingarea_m2 (acobj s) = Some (Fin (f_area f))) by apply HD. assert (W : weight_n (acobj s) = Some (Fin (f_weight f))) by apply HD.
  destruct (limits_partial s (f_weight f) (Fin (f_area f)) W A ltac:(lra)) as (l1 & E1 & N1 & _).
  destruct (limits_partial (weighing s w) w (Fin (f_area f)) eq_refl A ltac:(lra)) as (l2 & E2 & N2 & _).
  exists l1, l2. split; [exact E1|]. split; [exact E2|]. intros k. do 2 eexists. split; [apply N1|]. split; [apply N2|]. split; [|apply load_rises; assumption].
  destruct (factor_monotone s (weighing s w) (f_weight f) w (Fin (f_area f)) (Fin (f_area f)) W A eq_refl A ltac:(lra)) as (m1 & m2 & F1 & F2 & M).
  rewrite E1 in F1. rewrite E2 in F2. injection F1 as <-. injection F2 as <-. destruct (M k) as (n1 & n2 & Q1 & Q2 & Q3 & _). rewrite N1 in Q1. rewrite N2 in Q2. injection Q1 as <-. injection Q2 as <-. lra.
Qed.

(** ** An aeroplane of 99 lb/ft2 *)
Definition dense : cert := example_cert 21 1.5 200 1 Aero.
Definition dense_flight : flight := example_flight 21 1.5 200 1.
Lemma dense_described : describes example_ext dense dense_flight.
Proof. apply example_describes; lra. Qed.
Lemma dense_loading : 99 <= loading_at dense_flight (f_weight dense_flight) /\ loading_at dense_flight 100400 <= 100.
Proof. unfold loading_at, pounds_per_ft2. cbn. lra. Qed.
Lemma dense_cruise : f_vc dense_flight <= vc_minimum Aero dense_flight.
Proof.
  unfold vc_minimum. pose proof (vc_coefficient_range Aero (pounds_per_ft2 (wing_loading dense_flight))) as R. destruct dense_loading as (D & _). unfold loading_at in D. fold (wing_loading dense_flight) in D.
  assert (S : 9 <= sqrt (pounds_per_ft2 (wing_loading dense_flight))) by (rewrite <- (sqrt_pow2 9) by lra; apply sqrt_le_1; simpl; lra).
  change (f_vc dense_flight) with 200. set (q := sqrt _) in *. cbn zeta. nra.
Qed.
Lemma dense_case : exists ext s f w, describes ext s f /\ f_weight f < w /\ 99 <= loading_at f (f_weight f) /\ loading_at f w <= 100 /\ f_vc f <= vc_minimum Aero f.
Proof.
  exists example_ext, dense, dense_flight, 100400. split; [exact dense_described|]. destruct dense_loading. split; [cbn; lra|]. split; [assumption|]. split; [assumption|exact dense_cruise].
Qed.
Lemma not_monotone : ~ forall ext s f w p1 p2 k v1 v2, describes ext s f -> f_weight f < w -> paragraph335 ext s = Ok p1 -> paragraph335 ext (weighing s w) = Ok p2 ->
  vdmin_keas (p1 k) = Fin v1 -> vdmin_keas (p2 k) = Fin v2 -> v1 <= v2.
Proof.
  intros H. destruct dense_case as (ext & s & f & w & A & B & C & D & E). destruct (aerobatic_dive ext s f w A B C D E) as (p1 & p2 & v1 & v2 & Q1 & Q2 & Q3 & Q4 & Q5).
  specialize (H ext s f w p1 p2 Aero v1 v2 A B Q1 Q2 Q3 Q4). lra.
Qed.
