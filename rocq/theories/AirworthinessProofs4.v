(** Consequences: points of interest, coverage of the limits, shape of the outline. *)
From Verif Require Import Base BaseFacts AnalysisFacts UnitsModel AtmosModel AtmosSpec ConceptModel
  ConceptProofs MethodsModel MethodsSpec MethodsProofs2 ConstraintSpec ConstraintProofs AirworthinessModel
  AirworthinessSpec AirworthinessProofs AirworthinessProofs2 AirworthinessProofs3.
Open Scope R_scope.

(** ** the two knot constants *)
Definition kappa : R := 0.5144444 * 1.9438445.
Lemma kappa_range : 1 - 9e-8 < kappa < 1.
Proof. unfold kappa. split; lra. Qed.
Lemma kappa_sq : 1 - 1.8e-7 < kappa ^ 2 < 1.
Proof. pose proof kappa_range. split; simpl; nra. Qed.
Lemma knots_back x r : knots (in_knots x * r) = kappa * (x * r).
Proof. unfold knots, in_knots, kappa. ring. Qed.
Lemma nearly_scale k y : 1 - 2e-7 <= k <= 1 -> nearly (k * y) y.
Proof.
  intros H. unfold nearly. replace (k * y - y) with (- ((1 - k) * y)) by ring.
  rewrite Rabs_Ropp, Rabs_mult, (Rabs_right (1 - k)) by lra. pose proof (Rabs_pos y). nra.
Qed.

Lemma dget_filter {V} k b (d : dict V) : k <> b ->
  dget k (filter (fun kv => negb (String.eqb (fst kv) b)) d) = dget k d.
Proof.
  intros H. induction d as [|[a v] d IH]; [reflexivity|]. cbn [filter fst].
  destruct (String.eqb a b) eqn:E; cbn [negb dget]; rewrite IH; [|reflexivity].
  apply String.eqb_eq in E. subst a. destruct (String.eqb k b) eqn:E2; [|reflexivity].
  apply String.eqb_eq in E2. contradiction.
Qed.
Lemma dget_filter_same {V} b (d : dict V) : dget b (filter (fun kv => negb (String.eqb (fst kv) b)) d) = None.
Proof.
  induction d as [|[a v] d IH]; [reflexivity|]. cbn [filter fst]. destruct (String.eqb a b) eqn:E; cbn [negb dget]; [exact IH|].
  rewrite String.eqb_sym, E. exact IH.
Qed.

Section Corollaries.
  Variables (ext : externals) (s : cert) (f : flight).
  Hypothesis HD : describes ext s f.

  Lemma stall_line_carries cl force x r : carries (a_rho (f_sl f)) (f_area f) cl force x ->
    stall_line f cl (in_knots x * r) = kappa ^ 2 * (r ^ 2 * (force / (f_weight f * f_wf f)) / f_wf f).
  Proof.
    intros (_ & E). pose proof (p_weight _ _ _ HD). pose proof (p_area _ _ _ HD). pose proof (p_wf _ _ _ HD).
    unfold stall_line. rewrite knots_back, <- E. unfold wing_loading. field. repeat split; lra.
  Qed.
  Lemma va_on_stall c : stall_line f (f_clmax f) (va_speed c f)
    = kappa ^ 2 * (limit_positive c (pounds (f_weight f)) / f_wf f).
  Proof.
    pose proof (p_weight _ _ _ HD). pose proof (p_wf _ _ _ HD). pose proof (p_clmax _ _ _ HD).
    pose proof (p_limit _ _ _ HD c).
    unfold va_speed. rewrite (stall_line_carries _ (f_wf f * f_weight f)).
    - rewrite pow2_sqrt by lra. field. lra.
    - apply (stall_carries _ _ _ HD); [|lra]. apply Rmult_le_pos; lra.
  Qed.
  Lemma coded_negative_neg c : coded_negative c (pounds (f_weight f)) < 0.
  Proof.
    pose proof (limit_positive_norm _ (Rlt_le _ _ (p_pounds _ _ _ HD))). destruct c; unfold coded_negative; lra.
  Qed.
  Lemma via_on_stall c : stall_line f (f_clmin f) (via_speed c f)
    = kappa ^ 2 * (coded_negative c (pounds (f_weight f)) / f_wf f).
  Proof.
    pose proof (p_weight _ _ _ HD). pose proof (p_wf _ _ _ HD). pose proof (p_clmin _ _ _ HD).
    pose proof (coded_negative_neg c).
    unfold via_speed. rewrite (stall_line_carries _ (-1 * f_wf f * f_weight f)).
    - rewrite pow2_sqrt by apply Rabs_pos. rewrite Rabs_left by assumption. field. lra.
    - apply (stall_carries _ _ _ HD); [|lra]. nra.
  Qed.
  (** stall line and gust line in terms of the penetration equation *)
  Lemma stall_line_pen x : stall_line f (f_clmax f) (in_knots x) = (kappa * x) ^ 2 / pen_k f.
  Proof.
    pose proof (p_loading _ _ _ HD). pose proof (p_wf _ _ _ HD). pose proof (p_clmax _ _ _ HD). pose proof (p_sl _ _ _ HD).
    rewrite <- (Rmult_1_r (in_knots x)). unfold stall_line. rewrite knots_back. unfold pen_k. field. repeat split; lra.
  Qed.
  Lemma gust_line_pen u x : coded_increment f u (in_knots x) = pen_p f u * (kappa * x) / pen_k f.
  Proof.
    pose proof (p_loading _ _ _ HD). pose proof (p_wf _ _ _ HD). pose proof (p_clmax _ _ _ HD). pose proof (p_sl _ _ _ HD).
    unfold coded_increment, gust_increment. rewrite <- (Rmult_1_r (in_knots x)), knots_back. unfold pen_k, pen_p.
    field. repeat split; lra.
  Qed.
  Lemma vb_meets c : nearly (stall_line f (f_clmax f) (vb_speed c f))
                            (1 + coded_increment f (rough_gust c f) (vb_speed c f)) /\
    stall_line f (f_clmax f) (vb_speed c f) <= 1 + coded_increment f (rough_gust c f) (vb_speed c f).
  Proof.
    pose proof (rough_pos f c) as U. destruct (penetration_root _ _ _ HD _ U) as (X & E).
    pose proof (pen_p_pos _ _ _ HD _ U) as P. pose proof (pen_k_pos _ _ _ HD) as K.
    unfold vb_speed. rewrite stall_line_pen, gust_line_pen. set (x := penetration f _) in *. set (p := pen_p f _) in *.
    assert (Y : 0 < p * x / pen_k f) by (apply Rdiv_lt_0_compat; [apply Rmult_lt_0_compat; assumption|assumption]).
    replace ((kappa * x) ^ 2 / pen_k f) with (kappa ^ 2 * (1 + p * x / pen_k f)).
    2:{ replace ((kappa * x) ^ 2) with (kappa ^ 2 * x ^ 2) by ring. rewrite E. field. lra. }
    replace (p * (kappa * x) / pen_k f) with (kappa * (p * x / pen_k f)) by (field; lra).
    set (y := p * x / pen_k f) in *. pose proof kappa_range as KR. pose proof kappa_sq as KS.
    assert (L : 0 <= (1 + kappa * y) - kappa ^ 2 * (1 + y) <= 2e-7 * (1 + kappa * y)).
    { replace ((1 + kappa * y) - kappa ^ 2 * (1 + y)) with ((1 - kappa) * (1 + kappa + kappa * y)) by ring.
      assert (KY : 0 <= kappa * y) by (apply Rmult_le_pos; lra).
      pose proof (Rmult_le_pos (1 - kappa) (1 + kappa + kappa * y)).
      pose proof (Rmult_le_compat_r (1 + kappa + kappa * y) (1 - kappa) 9e-8). lra. }
    split; [|lra]. unfold nearly. rewrite Rabs_left1 by lra. rewrite Rabs_right by nra. lra.
  Qed.

  Variables (c : cat) (vd : R).
  Hypothesis HC : category s = CStr (names c).
  Hypothesis HV : dive s c f vd.

  Lemma dive_ratio : 1.25 * vc_used c f <= vd.
  Proof.
    pose proof (vd_ratio _ _ _ HD c) as H. unfold vc_used. destruct HV as [(_ & ->)|(v & _ & ->)]; [exact H|].
    pose proof (Rmax_r v (vd_minimum c f)). lra.
  Qed.
  Lemma vc_used_pos : 0 < vc_used c f.
  Proof. pose proof (vc_minimum_pos _ _ _ HD c). unfold vc_used. pose proof (Rmax_r (f_vc f) (vc_minimum c f)). lra. Qed.
  Lemma vc_lt_vd : vc_used c f < vd.
  Proof. pose proof dive_ratio. pose proof vc_used_pos. lra. Qed.

  (** loads at the corners *)
  Lemma cd_end : cd_load f c vd vd = Rmax (1 + coded_increment f (gust_d f) vd) (limit_positive c (pounds (f_weight f)) / f_wf f).
  Proof. unfold cd_load. rewrite lin_right by (left; apply vc_lt_vd). reflexivity. Qed.
  Lemma cd_start : cd_load f c vd (vc_used c f) = Rmax (sc_load f c (vc_used c f)) (limit_positive c (pounds (f_weight f)) / f_wf f).
  Proof. unfold cd_load. rewrite lin_left by apply vc_lt_vd. reflexivity. Qed.
  Lemma ef_start : ef_load f c vd vd = Rmin (1 - coded_increment f (gust_d f) vd) (limit_negative_dive c / f_wf f).
  Proof. unfold ef_load. rewrite lin_right by (left; apply vc_lt_vd). reflexivity. Qed.
  Lemma ef_end : ef_load f c vd (vc_used c f)
    = Rmin (Rmax (1 - coded_increment f (gust_c f) (vc_used c f)) (stall_line f (f_clmin f) (vc_used c f))) (limit_negative_dive c / f_wf f).
  Proof. unfold ef_load. rewrite lin_left by apply vc_lt_vd. reflexivity. Qed.
  Lemma fs_start : via_speed c f <= vc_used c f -> fs_load f c (vc_used c f)
    = Rmax (Rmin (1 - coded_increment f (gust_c f) (vc_used c f)) (coded_negative c (pounds (f_weight f)) / f_wf f))
           (stall_line f (f_clmin f) (vc_used c f)).
  Proof.
    intros H. unfold fs_load. destruct (Rlt_dec _ _); [lra|]. rewrite lin_right by (left; apply vc_used_pos). reflexivity.
  Qed.
  Lemma sc_end : sc_load f c (vc_used c f)
    = if Rle_dec (vc_used c f) (Rmax (va_speed c f) (vb_speed c f)) then stall_line f (f_clmax f) (vc_used c f)
      else Rmax (1 + coded_increment f (gust_c f) (vc_used c f)) (limit_positive c (pounds (f_weight f)) / f_wf f).
  Proof.
    unfold sc_load. pose proof (Rmax_l (va_speed c f) (vb_speed c f)). pose proof (Rmax_r (va_speed c f) (vb_speed c f)).
    destruct (Rle_dec _ (va_speed c f)); [destruct (Rle_dec _ _); [reflexivity|lra]|].
    destruct (Rle_dec _ (vb_speed c f)); [destruct (Rle_dec _ (Rmax _ _)); [reflexivity|lra]|].
    destruct (Rle_dec _ _) as [Q|Q]. { exfalso. unfold Rmax in Q. destruct (Rle_dec _ _) in Q; lra. }
    rewrite lin_right by lra. reflexivity.
  Qed.

  Lemma dive_asked v : divespeed_keas s = Some (Fin v) -> v <= vd.
  Proof. intros E. destruct HV as [(E' & _)|(w & E' & ->)]; [congruence|]. assert (v = w) as -> by congruence. apply Rmax_l. Qed.

  Theorem points : exists e va vb vc via na nc nd ne nf ng,
    flightenvelope ext s = Ok e /\
    vc = Rmax (f_vc f) (vc_minimum c f) /\ 1.25 * vc <= vd /\
    dget "A" (poi e) = Some (Fin va, Fin na) /\ na = limit_positive c (pounds (f_weight f)) / f_wf f /\
      nearly (stall_line f (f_clmax f) va) na /\
    dget "B" (poi e) = (if Rle_dec vb vc then Some (Fin vb, Fin (stall_line f (f_clmax f) vb)) else None) /\
      0 < vb /\ nearly (stall_line f (f_clmax f) vb) (1 + coded_increment f (rough_gust c f) vb) /\
    dget "C" (poi e) = Some (Fin vc, Fin nc) /\
      nc = (if Rle_dec vc (Rmax va vb) then stall_line f (f_clmax f) vc
            else Rmax (1 + coded_increment f (gust_c f) vc) na) /\
    dget "D" (poi e) = Some (Fin vd, Fin nd) /\ nd = Rmax (1 + coded_increment f (gust_d f) vd) na /\
    dget "E" (poi e) = Some (Fin vd, Fin ne) /\
      ne = Rmin (1 - coded_increment f (gust_d f) vd) (limit_negative_dive c / f_wf f) /\
    dget "F" (poi e) = Some (Fin vc, Fin nf) /\
      nf = Rmin (Rmax (1 - coded_increment f (gust_c f) vc) (stall_line f (f_clmin f) vc))
                (limit_negative_dive c / f_wf f) /\
    dget "G" (poi e) = Some (Fin via, Fin ng) /\ ng = stall_line f (f_clmin f) via /\
      (c = Norm \/ c = Comm -> nearly ng (limit_negative c (pounds (f_weight f)) / f_wf f)).
  Proof.
    exists (env f c vd), (va_speed c f), (vb_speed c f), (vc_used c f), (via_speed c f).
    exists (limit_positive c (pounds (f_weight f)) / f_wf f), (sc_load f c (vc_used c f)), (cd_load f c vd vd).
    exists (Rmin (1 - coded_increment f (gust_d f) vd) (limit_negative_dive c / f_wf f)), (ef_load f c vd (vc_used c f)).
    exists (stall_line f (f_clmin f) (via_speed c f)).
    split; [apply (envelope_spec ext s f HD c vd HC HV)|]. split; [reflexivity|]. split; [apply dive_ratio|].
    assert (K : forall k, k <> "B"%string -> dget k (poi (env f c vd)) = dget k (all_points f c vd)).
    { intros k Hk. unfold env. cbn [poi]. destruct (Rlt_dec _ _); [|reflexivity]. apply dget_filter, Hk. }
    pose proof kappa_sq as KS.
    split; [rewrite K by discriminate; reflexivity|]. split; [reflexivity|].
    split; [rewrite va_on_stall; apply nearly_scale; lra|].
    split.
    { unfold env. cbn [poi]. destruct (Rlt_dec (vc_used c f) (vb_speed c f)), (Rle_dec (vb_speed c f) (vc_used c f));
        try lra; [apply dget_filter_same|reflexivity]. }
    split. { unfold vb_speed, in_knots. pose proof (penetration_root _ _ _ HD _ (rough_pos f c)). lra. }
    split; [apply vb_meets|].
    split; [rewrite K by discriminate; reflexivity|]. split; [apply sc_end|].
    split; [rewrite K by discriminate; reflexivity|]. split; [apply cd_end|].
    split; [rewrite K by discriminate; reflexivity|]. split; [reflexivity|].
    split; [rewrite K by discriminate; reflexivity|]. split; [apply ef_end|].
    split; [rewrite K by discriminate; reflexivity|]. split; [reflexivity|].
    intros HN. rewrite via_on_stall.
    replace (coded_negative c (pounds (f_weight f))) with (limit_negative c (pounds (f_weight f))) by (destruct HN as [->| ->]; reflexivity).
    apply nearly_scale. lra.
  Qed.

  (** ** the upper outline stays below the stall line up to VC, and covers the limit *)
  Lemma stall_sq v : stall_line f (f_clmax f) v = (knots v) ^ 2 / pen_k f.
  Proof.
    pose proof (p_loading _ _ _ HD). pose proof (p_wf _ _ _ HD). pose proof (p_clmax _ _ _ HD). pose proof (p_sl _ _ _ HD).
    unfold stall_line, pen_k. field. repeat split; lra.
  Qed.
  Lemma gust_lin u v : coded_increment f u v = pen_p f u * knots v / pen_k f.
  Proof.
    pose proof (p_loading _ _ _ HD). pose proof (p_wf _ _ _ HD). pose proof (p_clmax _ _ _ HD). pose proof (p_sl _ _ _ HD).
    unfold coded_increment, gust_increment, pen_p, pen_k. field. repeat split; lra.
  Qed.
  (** beyond VB the stall line is above the line of the rough gust *)
  Lemma beyond_vb v : vb_speed c f <= v ->
    1 + coded_increment f (rough_gust c f) v <= (1 + 2e-7) * stall_line f (f_clmax f) v.
  Proof.
    intros H. pose proof (rough_pos f c) as U. destruct (penetration_root _ _ _ HD _ U) as (X & E).
    pose proof (pen_p_pos _ _ _ HD _ U) as P. pose proof (pen_k_pos _ _ _ HD) as K.
    rewrite stall_sq, gust_lin. set (x := penetration f _) in *. set (p := pen_p f _) in *. set (k := pen_k f) in *.
    assert (Y : kappa * x <= knots v).
    { unfold vb_speed in H. fold x in H. unfold knots, in_knots, kappa in *. nra. }
    set (y := knots v) in *. pose proof kappa_range as KR. pose proof kappa_sq as KS.
    apply (Rmult_le_reg_r k); [exact K|]. replace ((1 + p * y / k) * k) with (k + p * y) by (field; lra).
    replace ((1 + 2e-7) * (y ^ 2 / k) * k) with ((1 + 2e-7) * y ^ 2) by (field; lra).
    (* h(y) = (1+e) y^2 - p y - k is nonnegative at kappa x and increasing from there *)
    set (e := 2e-7) in *. assert (EE : 1 <= (1 + e) * kappa ^ 2) by (unfold e; nra).
    assert (PX : p < x). { assert (p * x < x * x) by (simpl in E; lra). nra. }
    assert (H0 : k + p * (kappa * x) <= (1 + e) * (kappa * x) ^ 2).
    { replace ((1 + e) * (kappa * x) ^ 2) with ((1 + e) * kappa ^ 2 * x ^ 2) by ring. rewrite E.
      assert (0 < p * x) by (apply Rmult_lt_0_compat; assumption). nra. }
    assert (HE : 0 < e) by (unfold e; lra).
    assert (H1 : 0 <= (y - kappa * x) * ((1 + e) * (y + kappa * x) - p)).
    { apply Rmult_le_pos; [lra|]. assert (x <= 2 * (kappa * x)) by nra.
      assert (0 <= e * (y + kappa * x)) by (apply Rmult_le_pos; lra). lra. }
    nra.
  Qed.
  Lemma rough_ge_c : gust_c f <= rough_gust c f.
  Proof.
    destruct c; cbn [rough_gust]; try lra. unfold gust_c, gust_b, ft, gust_profile.
    pose proof (clamp01_range ((f_alt f / 0.3048 - 20000) / 30000)). lra.
  Qed.
  Lemma coded_mono u1 u2 v : u1 <= u2 -> 0 <= v -> coded_increment f u1 v <= coded_increment f u2 v.
  Proof.
    intros H1 H2. rewrite (coded_linear f u1), (coded_linear f u2). pose proof (coded_unit_pos _ _ _ HD).
    apply Rmult_le_compat_r; [exact H2|]. apply Rmult_le_compat_l; lra.
  Qed.
  Lemma lin_below v x0 x1 y0 y1 a b : x0 < v <= x1 -> y0 <= a + b * x0 -> y1 <= a + b * x1 -> lin v x0 x1 y0 y1 <= a + b * v.
  Proof.
    intros H A B. unfold lin. destruct (Rlt_dec x1 v); [lra|]. destruct (Rlt_dec v x0); [lra|].
    destruct (Req_EM_T v x1) as [->|]; [lra|]. destruct (Req_EM_T v x0); [lra|].
    set (t := (v - x0) / (x1 - x0)).
    assert (T : 0 <= t <= 1).
    { unfold t. split; [apply Rdiv_le_0_compat; lra|]. apply (Rmult_le_reg_r (x1 - x0)); [lra|].
      unfold Rdiv. rewrite Rmult_assoc, Rinv_l by lra. lra. }
    replace ((y1 - y0) / (x1 - x0) * (v - x0) + y0) with (y0 + t * (y1 - y0)) by (unfold t; field; lra).
    assert (EV : v = x0 + t * (x1 - x0)) by (unfold t; field; lra). rewrite EV.
    assert (0 <= t * (a + b * x1 - y1)) by (apply Rmult_le_pos; lra).
    assert (0 <= (1 - t) * (a + b * x0 - y0)) by (apply Rmult_le_pos; lra). nra.
  Qed.
  Lemma sc_below_stall v : v <= vc_used c f -> sc_load f c v <= (1 + 2e-7) * stall_line f (f_clmax f) v.
  Proof.
    intros H. assert (SP : 0 <= stall_line f (f_clmax f) v).
    { rewrite stall_sq. apply Rdiv_le_0_compat; [apply pow2_ge_0|apply (pen_k_pos _ _ _ HD)]. }
    unfold sc_load. destruct (Rle_dec v (va_speed c f)) as [A|A]; [nra|]. destruct (Rle_dec v (vb_speed c f)) as [B|B]; [nra|].
    assert (VB : 0 < vb_speed c f). { unfold vb_speed, in_knots. pose proof (penetration_root _ _ _ HD _ (rough_pos f c)). lra. }
    apply Rmax_lub.
    - eapply Rle_trans; [|apply beyond_vb; lra].
      rewrite (coded_linear f (rough_gust c f) v), Rmult_assoc, (Rmult_comm (rough_gust c f)), <- Rmult_assoc.
      replace (coded_increment f 1 1 * v * rough_gust c f) with (coded_increment f 1 1 * rough_gust c f * v) by ring.
      pose proof (proj2 (vb_meets c)) as MB. rewrite coded_linear in MB.
      pose proof (coded_mono _ _ (vc_used c f) rough_ge_c (Rlt_le _ _ vc_used_pos)) as MC.
      rewrite (coded_linear f (rough_gust c f)) in MC.
      apply lin_below; lra.
    - pose proof (va_on_stall c) as EA. pose proof kappa_sq as KS. pose proof (p_wf _ _ _ HD) as PW. pose proof (p_limit _ _ _ HD c) as PL.
      assert (N : 0 < limit_positive c (pounds (f_weight f)) / f_wf f) by (apply Rdiv_lt_0_compat; lra).
      assert (stall_line f (f_clmax f) (va_speed c f) <= stall_line f (f_clmax f) v).
      { rewrite !stall_sq. unfold Rdiv. apply Rmult_le_compat_r; [left; apply Rinv_0_lt_compat, (pen_k_pos _ _ _ HD)|].
        apply pow_incr. assert (0 <= va_speed c f).
        { unfold va_speed, in_knots, stall_mps. apply Rmult_le_pos; [|apply sqrt_pos].
          apply Rmult_le_pos; [apply sqrt_pos|lra]. }
        unfold knots. split; nra. }
      nra.
  Qed.
  (** at the manoeuvring speed and above the upper outline covers the positive limit *)
  Lemma sc_covers v : va_speed c f <= v ->
    kappa ^ 2 * (limit_positive c (pounds (f_weight f)) / f_wf f) <= sc_load f c v.
  Proof.
    intros H. pose proof kappa_sq as KS. pose proof (p_wf _ _ _ HD) as PW. pose proof (p_limit _ _ _ HD c) as PL.
    assert (N : 0 < limit_positive c (pounds (f_weight f)) / f_wf f) by (apply Rdiv_lt_0_compat; lra).
    assert (MONO : kappa ^ 2 * (limit_positive c (pounds (f_weight f)) / f_wf f) <= stall_line f (f_clmax f) v).
    { rewrite <- (va_on_stall c), !stall_sq. unfold Rdiv.
      apply Rmult_le_compat_r; [left; apply Rinv_0_lt_compat, (pen_k_pos _ _ _ HD)|].
      apply pow_incr. assert (0 <= va_speed c f).
      { unfold va_speed, in_knots, stall_mps. apply Rmult_le_pos; [|apply sqrt_pos]. apply Rmult_le_pos; [apply sqrt_pos|lra]. }
      unfold knots. split; nra. }
    unfold sc_load. destruct (Rle_dec _ _); [exact MONO|]. destruct (Rle_dec _ _); [exact MONO|].
    eapply Rle_trans; [|apply Rmax_r]. nra.
  Qed.
  Lemma cd_covers v : limit_positive c (pounds (f_weight f)) / f_wf f <= cd_load f c vd v.
  Proof. apply Rmax_r. Qed.
  Lemma ef_covers v : ef_load f c vd v <= limit_negative_dive c / f_wf f.
  Proof. apply Rmin_r. Qed.
  Lemma down_neg v : stall_line f (f_clmin f) v <= 0.
  Proof.
    pose proof (p_loading _ _ _ HD) as A. pose proof (p_wf _ _ _ HD) as B. pose proof (p_clmin _ _ _ HD) as C0. pose proof (p_sl _ _ _ HD) as D0.
    assert (0 < wing_loading f * f_wf f) by (apply Rmult_lt_0_compat; assumption).
    assert (E : stall_line f (f_clmin f) v = - (1 / 2 * a_rho (f_sl f) * knots v ^ 2 * - f_clmin f / (wing_loading f * f_wf f) / f_wf f)).
    { unfold stall_line. field. split; lra. }
    rewrite E. assert (0 <= 1 / 2 * a_rho (f_sl f) * knots v ^ 2 * - f_clmin f / (wing_loading f * f_wf f) / f_wf f); [|lra].
    apply Rdiv_le_0_compat; [|assumption]. apply Rdiv_le_0_compat; [|assumption].
    apply Rmult_le_pos; [|lra]. apply Rmult_le_pos; [lra|apply pow2_ge_0].
  Qed.
  (** the lower outline between VS inverted and VC never passes the inverted stall line *)
  Lemma fs_above_stall v : stall_line f (f_clmin f) v <= fs_load f c v.
  Proof. unfold fs_load. destruct (Rlt_dec _ _); [lra|apply Rmax_r]. Qed.
End Corollaries.
