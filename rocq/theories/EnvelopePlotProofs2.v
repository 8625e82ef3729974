(** The V-n diagram: everything drawn lies between the limits of the axes. *)
From Verif Require Import Base BaseFacts AnalysisFacts UnitsModel AtmosModel AtmosSpec ConceptModel
  ConceptProofs MethodsModel MethodsSpec MethodsProofs2 ConstraintSpec ConstraintProofs SensitivityProofs3 PropulsionModel
  AirworthinessModel AirworthinessSpec AirworthinessProofs AirworthinessProofs2 AirworthinessProofs3 AirworthinessProofs4
  AirworthinessProofs5 AirworthinessProofs6 EnvelopePlotModel EnvelopePlotSpec EnvelopePlotProofs.
Open Scope R_scope.

Section Frame.
  Variables (ext : externals) (s : cert) (f : flight).
  Hypothesis HD : describes ext s f.
  Variables (c : cat) (vd : R).
  Hypothesis HC : category s = CStr (names c).
  Hypothesis HV : dive s c f vd.

  Let vc := vc_used c f.
  Let va := va_speed c f.
  Let vb := vb_speed c f.
  Let vs := in_knots (stall_mps f (1 * f_wf f) (f_clmax f)).
  Let vis := in_knots (stall_mps f (-1 * f_wf f) (f_clmin f)).
  Let via := via_speed c f.
  Let up := stall_line f (f_clmax f).
  Let down := stall_line f (f_clmin f).
  Let npos := limit_positive c (pounds (f_weight f)) / f_wf f.
  Let nneg_c := coded_negative c (pounds (f_weight f)) / f_wf f.
  Let nneg_d := limit_negative_dive c / f_wf f.
  Let qc := coded_increment f (gust_c f) vc.
  Let qd := coded_increment f (gust_d f) vd.
  Let Y1 := ypos f c vd.
  Let Y0 := yneg f c vd.

  (** ** signs and order *)
  Lemma up_sq v : up v = knots v ^ 2 / pen_k f. Proof. apply (stall_sq _ _ _ HD). Qed.
  Lemma up_mono v w : 0 <= v <= w -> up v <= up w.
  Proof.
    intros H. rewrite !up_sq. pose proof (pen_k_pos _ _ _ HD). unfold Rdiv.
    apply Rmult_le_compat_r; [left; apply Rinv_0_lt_compat; assumption|]. apply pow_incr. unfold knots. lra.
  Qed.
  Lemma up_nonneg v : 0 <= up v.
  Proof. rewrite up_sq. apply Rdiv_le_0_compat; [apply pow2_ge_0|apply (pen_k_pos _ _ _ HD)]. Qed.
  Lemma down_form v : down v = - (knots v ^ 2 * (1 / 2 * a_rho (f_sl f) * - f_clmin f / (wing_loading f * f_wf f) / f_wf f)).
  Proof. pose proof (p_loading _ _ _ HD). pose proof (p_wf _ _ _ HD). unfold down, stall_line. field. split; lra. Qed.
  Lemma down_k : 0 < 1 / 2 * a_rho (f_sl f) * - f_clmin f / (wing_loading f * f_wf f) / f_wf f.
  Proof.
    pose proof (p_loading _ _ _ HD). pose proof (p_wf _ _ _ HD). pose proof (p_clmin _ _ _ HD). pose proof (p_sl _ _ _ HD).
    apply Rdiv_lt_0_compat; [|assumption]. apply Rdiv_lt_0_compat; [|apply Rmult_lt_0_compat; assumption].
    apply Rmult_lt_0_compat; lra.
  Qed.
  Lemma down_mono v w : 0 <= v <= w -> down w <= down v.
  Proof.
    intros H. rewrite !down_form. pose proof down_k. apply Ropp_le_contravar, Rmult_le_compat_r; [lra|].
    apply pow_incr. unfold knots. lra.
  Qed.
  Lemma down_nonpos v : down v <= 0. Proof. apply (down_neg _ _ _ HD). Qed.
  Lemma npos_big : 2.1 / f_wf f < npos.
  Proof.
    pose proof (p_wf _ _ _ HD). pose proof (p_limit _ _ _ HD c). unfold npos, Rdiv.
    apply Rmult_lt_compat_r; [apply Rinv_0_lt_compat; assumption|lra].
  Qed.
  Lemma one_wf : 0 < 1 / f_wf f. Proof. apply Rdiv_lt_0_compat; [lra|apply (p_wf _ _ _ HD)]. Qed.
  Lemma npos_pos : 0 < npos /\ 1 / f_wf f <= npos.
  Proof. pose proof npos_big. pose proof one_wf. unfold Rdiv in *. split; lra. Qed.
  Lemma nneg_c_small : nneg_c <= -0.84 * (1 / f_wf f).
  Proof.
    pose proof one_wf. assert (coded_negative c (pounds (f_weight f)) <= -0.84).
    { pose proof (limit_positive_norm _ (Rlt_le _ _ (p_pounds _ _ _ HD))). destruct c; unfold coded_negative; lra. }
    unfold nneg_c, Rdiv in *. rewrite Rmult_1_l in *. apply Rmult_le_compat_r; lra.
  Qed.
  Lemma nneg_d_nonpos : nneg_d <= 0.
  Proof.
    pose proof one_wf. unfold nneg_d, Rdiv in *. assert (limit_negative_dive c <= 0) by (destruct c; cbn; lra). nra.
  Qed.
  Lemma vc_pos : 0 < vc. Proof. apply (vc_used_pos _ _ _ HD). Qed.
  Lemma vb_pos : 0 < vb.
  Proof. unfold vb, vb_speed, in_knots. pose proof (penetration_root _ _ _ HD _ (rough_pos f c)). lra. Qed.
  Lemma qc_pos : 0 < qc. Proof. apply (coded_pos _ _ _ HD); [apply gust_c_pos|apply vc_pos]. Qed.
  Lemma vd_big : 1.25 * vc <= vd. Proof. apply (dive_ratio _ _ _ HD _ _ HV). Qed.
  Lemma qd_pos : 0 < qd.
  Proof. apply (coded_pos _ _ _ HD); [apply gust_d_pos|]. pose proof vd_big. pose proof vc_pos. lra. Qed.
  Lemma vs_nonneg : 0 <= vs. Proof. unfold vs, in_knots. apply Rmult_le_pos; [apply sqrt_pos|lra]. Qed.
  Lemma vis_nonneg : 0 <= vis. Proof. unfold vis, in_knots. apply Rmult_le_pos; [apply sqrt_pos|lra]. Qed.
  Lemma via_nonneg : 0 <= via. Proof. apply Rmult_le_pos; [apply vis_nonneg|apply sqrt_pos]. Qed.
  Lemma va_form : va = vs * sqrt (limit_positive c (pounds (f_weight f))).
  Proof. unfold va, va_speed, vs. rewrite Rmult_1_l. reflexivity. Qed.
  Lemma vs_below_va : vs <= va.
  Proof.
    rewrite va_form. pose proof vs_nonneg. pose proof (p_limit _ _ _ HD c).
    assert (1 <= sqrt (limit_positive c (pounds (f_weight f)))) by (rewrite <- sqrt_1; apply sqrt_le_1; lra). nra.
  Qed.
  Lemma va_nonneg : 0 <= va. Proof. pose proof vs_below_va. pose proof vs_nonneg. lra. Qed.
  Lemma up_va : up va <= npos.
  Proof.
    unfold up, va. rewrite (va_on_stall _ _ _ HD). fold npos. pose proof kappa_sq. pose proof npos_pos. nra.
  Qed.
  Lemma down_via : down via = kappa ^ 2 * nneg_c. Proof. apply (via_on_stall _ _ _ HD). Qed.
  Lemma down_vis : down vis = kappa ^ 2 * (-1 * (1 / f_wf f)).
  Proof.
    unfold down, vis. pose proof (p_weight _ _ _ HD). pose proof (p_wf _ _ _ HD). pose proof (p_clmin _ _ _ HD).
    rewrite <- (Rmult_1_r (in_knots _)), (stall_line_carries _ _ _ HD _ (-1 * f_wf f * f_weight f)).
    - field. lra.
    - apply (stall_carries _ _ _ HD); [|lra]. nra.
  Qed.
  Lemma up_vb_gust : vb <= vc -> up vb <= maxg f c.
  Proof.
    intros H. pose proof (proj2 (vb_meets _ _ _ HD c)) as M. fold up vb in M. unfold maxg. fold vb vc.
    eapply Rle_trans; [exact M|].
    destruct c; cbn [rough_gust]; try (apply Rplus_le_compat_l; rewrite (coded_linear f (gust_c f) vb), (coded_linear f (gust_c f) vc);
      pose proof (coded_unit_pos _ _ _ HD) as P; pose proof (gust_c_pos f) as G;
      apply Rmult_le_compat_l; [left; apply Rmult_lt_0_compat; assumption|exact H]). lra.
  Qed.

  (** ** the limits *)
  Lemma y1_parts : maxg f c <= Y1 /\ sc_load f c vc <= Y1 /\ 1 + qd <= Y1 /\ npos <= Y1.
  Proof.
    unfold Y1, ypos. fold vc. pose proof (cd_end _ _ _ HD _ _ HV) as E. fold npos qd in E.
    pose proof (Rmax_l (maxg f c) (sc_load f c vc)). pose proof (Rmax_r (maxg f c) (sc_load f c vc)).
    set (m := Rmax (maxg f c) (sc_load f c vc)) in *.
    pose proof (Rmax_l m (cd_load f c vd vd)). pose proof (Rmax_r m (cd_load f c vd vd)).
    pose proof (Rmax_l (1 + qd) npos). pose proof (Rmax_r (1 + qd) npos). rewrite E in *. lra.
  Qed.
  Lemma y0_parts : Y0 <= Rmin (1 - qd) nneg_d /\ Y0 <= ef_load f c vd vc /\ Y0 <= kappa ^ 2 * nneg_c.
  Proof.
    unfold Y0, yneg. fold vc via qd nneg_d. change (stall_line f (f_clmin f) via) with (down via). rewrite down_via.
    set (a := Rmin (1 - qd) nneg_d). set (b := ef_load f c vd vc). set (g := kappa ^ 2 * nneg_c).
    pose proof (Rmin_l (Rmin a b) g). pose proof (Rmin_r (Rmin a b) g). pose proof (Rmin_l a b). pose proof (Rmin_r a b). lra.
  Qed.
  Lemma nneg_near : 1.3 * (kappa ^ 2 * nneg_c) <= nneg_c /\ nneg_c < 0 /\ kappa ^ 2 * nneg_c < 0.
  Proof. pose proof kappa_sq. pose proof nneg_c_small. pose proof one_wf. assert (nneg_c < 0) by lra. repeat split; nra. Qed.
  Lemma y1_pos : 0 < Y1. Proof. pose proof y1_parts. pose proof npos_pos. lra. Qed.
  Lemma y0_neg : Y0 < 0. Proof. pose proof y0_parts. pose proof nneg_near. lra. Qed.

  (** ** the curves *)
  Lemma sc_range v : 0 <= v -> v <= Rmax vs vc -> 0 <= sc_load f c v <= Y1.
  Proof.
    intros H0 H. pose proof y1_parts as (P1 & P2 & P3 & P4). pose proof npos_pos as (NP & _). pose proof up_va as UA.
    pose proof vs_below_va as VV. pose proof (up_nonneg v) as UN.
    unfold sc_load. fold va vb vc. change (stall_line f (f_clmax f) v) with (up v).
    destruct (Rle_dec v va) as [A|A].
    { pose proof (up_mono v va). lra. }
    assert (L : v <= vc) by (unfold Rmax in H; destruct (Rle_dec vs vc); lra).
    destruct (Rle_dec v vb) as [B|B].
    - split; [exact UN|]. destruct (Rle_dec vb vc) as [C|C].
      + pose proof (up_vb_gust C). pose proof (up_mono v vb). lra.
      + apply Rle_trans with (up vc); [apply up_mono; lra|].
        replace (up vc) with (sc_load f c vc); [exact P2|].
        unfold sc_load. fold va vb vc. destruct (Rle_dec vc va); [reflexivity|]. destruct (Rle_dec vc vb); [reflexivity|lra].
    - split; [eapply Rle_trans; [|apply Rmax_r]; fold npos; lra|].
      apply Rmax_lub; [|fold npos; lra].
      assert (VBC : vb <= vc) by lra. pose proof (up_vb_gust VBC) as UB.
      change (stall_line f (f_clmax f) vb) with (up vb). fold qc.
      eapply Rle_trans; [apply lin_between; lra|]. apply Rmax_lub; [lra|].
      apply Rle_trans with (sc_load f c vc); [|exact P2].
      unfold sc_load. fold va vb vc. destruct (Rle_dec vc va); [lra|]. destruct (Rle_dec vc vb); [lra|].
      rewrite lin_right by lra. apply Rmax_l.
  Qed.
  Lemma cd_range v : vc <= v <= vd -> 0 <= cd_load f c vd v <= Y1.
  Proof.
    intros H. pose proof y1_parts as (P1 & P2 & P3 & P4). pose proof npos_pos as (NP & _).
    unfold cd_load. fold vc qd npos. split; [eapply Rle_trans; [|apply Rmax_r]; lra|]. apply Rmax_lub; [|lra].
    eapply Rle_trans; [apply lin_between; lra|]. apply Rmax_lub; lra.
  Qed.
  Lemma ef_range v : vc <= v <= vd -> Y0 <= ef_load f c vd v <= 0.
  Proof.
    intros H. pose proof y0_parts as (P1 & P2 & P3). pose proof nneg_d_nonpos as N.
    split.
    - unfold vc in P2 at 1; rewrite (ef_end _ _ _ HD _ _ HV) in P2. unfold ef_load. fold vc qc qd nneg_d in P2 |- *.
      change (stall_line f (f_clmin f) vc) with (down vc) in P2 |- *.
      pose proof (Rmin_l (1 - qd) nneg_d). pose proof (Rmin_r (1 - qd) nneg_d).
      pose proof (Rmin_l (Rmax (1 - qc) (down vc)) nneg_d).
      apply Rmin_glb; [|lra]. eapply Rle_trans; [|apply lin_between; lra]. apply Rmin_glb; lra.
    - eapply Rle_trans; [apply Rmin_r|exact N].
  Qed.
  Lemma fs_range v : Rmin vc vis <= v <= Rmax vc vis -> 1.3 * Y0 <= fs_load f c v <= 0.
  Proof.
    intros H. pose proof y0_parts as (P1 & P2 & P3). pose proof nneg_near as (N1 & N2 & N3). pose proof y0_neg as YN.
    pose proof vc_pos as VC. pose proof vis_nonneg as VI. pose proof down_via as DV. pose proof qc_pos as QC.
    assert (V0 : 0 <= v) by (unfold Rmin in H; destruct (Rle_dec vc vis); lra).
    unfold fs_load. fold via vc qc nneg_c. change (stall_line f (f_clmin f) v) with (down v).
    pose proof (down_nonpos v) as DN.
    destruct (Rlt_dec v via) as [A|A].
    { pose proof (down_mono v via). lra. }
    split.
    - destruct (Rle_dec v vc) as [B|B].
      + assert (L : 1 - qc <= lin v 0 vc 1 (1 - qc)).
        { eapply Rle_trans; [|apply lin_between; lra]. apply Rmin_glb; lra. }
        assert (M : down vc <= down v) by (apply down_mono; lra).
        unfold vc in P2 at 1; rewrite (ef_end _ _ _ HD _ _ HV) in P2. fold vc qc nneg_d in P2.
        change (stall_line f (f_clmin f) vc) with (down vc) in P2.
        pose proof (Rmin_l (Rmax (1 - qc) (down vc)) nneg_d) as P2'.
        destruct (Rle_dec nneg_c (1 - qc)) as [C|C].
        * eapply Rle_trans; [|apply Rmax_l]. apply Rmin_glb; lra.
        * destruct (Rle_dec (down vc) (1 - qc)) as [D|D].
          -- rewrite Rmax_left in P2, P2' by lra. eapply Rle_trans; [|apply Rmax_l]. apply Rmin_glb; lra.
          -- rewrite Rmax_right in P2, P2' by lra. eapply Rle_trans; [|apply Rmax_r]. lra.
      + eapply Rle_trans; [|apply Rmax_r].
        assert (B2 : v <= vis) by (unfold Rmax in H; destruct (Rle_dec vc vis); lra).
        pose proof (down_mono v vis ltac:(lra)) as M. rewrite down_vis in M.
        pose proof nneg_c_small as NS. pose proof one_wf as W. pose proof kappa_sq as K.
        assert (kappa ^ 2 * (1.3 * nneg_c) <= kappa ^ 2 * (-1 * (1 / f_wf f))) by (apply Rmult_le_compat_l; lra).
        lra.
    - apply Rmax_lub; [eapply Rle_trans; [apply Rmin_r|lra]|lra].
  Qed.
  Lemma go_range v : 0 <= v <= via -> Y0 <= down v <= 0.
  Proof.
    intros H. split; [|apply down_nonpos]. pose proof y0_parts as (_ & _ & P). pose proof down_via.
    pose proof (down_mono v via H). lra.
  Qed.

  (** ** everything drawn *)
  Definition rightmost : R := Rmax (Rmax vd (Rmax vs vis)) (Rmax va via).
  Definition placed (p : point) : Prop :=
    exists v n, p = (Fin v, Fin n) /\ 0 <= v <= rightmost /\ 1.3 * Y0 <= n <= 1.3 * Y1.
  Lemma rightmost_parts : vc <= rightmost /\ vd <= rightmost /\ vs <= rightmost /\ vis <= rightmost /\ va <= rightmost /\ via <= rightmost.
  Proof.
    unfold rightmost. pose proof vd_big. pose proof vc_pos.
    pose proof (Rmax_l vs vis). pose proof (Rmax_r vs vis). pose proof (Rmax_l va via). pose proof (Rmax_r va via).
    set (a := Rmax vs vis) in *. set (b := Rmax va via) in *.
    pose proof (Rmax_l vd a). pose proof (Rmax_r vd a). pose proof (Rmax_l (Rmax vd a) b). pose proof (Rmax_r (Rmax vd a) b).
    lra.
  Qed.
  Lemma placed_at v n : 0 <= v <= rightmost -> 1.3 * Y0 <= n <= 1.3 * Y1 -> placed (Fin v, Fin n).
  Proof. intros H1 H2. exists v, n. split; [reflexivity|]. split; assumption. Qed.
  Lemma between a b v lo hi : lo <= a <= hi -> lo <= b <= hi -> Rmin a b <= v <= Rmax a b -> lo <= v <= hi.
  Proof. unfold Rmin, Rmax. intros. destruct (Rle_dec a b); lra. Qed.
  Lemma poly_in (k : string) (l : list point) d p : In p (polyline ((k, l) :: d)) -> In p l \/ In p (polyline d).
  Proof. unfold polyline. cbn [flat_map snd]. apply in_app_or. Qed.

  Lemma envelope_placed p : In p (polyline (outline (env f c vd))) -> placed p.
  Proof.
    pose proof rightmost_parts as RP. pose proof y0_neg as YN. pose proof y1_pos as YP. pose proof npos_pos as (NP & N1).
    pose proof y1_parts as (_ & _ & _ & P4). pose proof vs_nonneg as VS. pose proof vis_nonneg as VI. pose proof vc_pos as VC.
    pose proof vd_big as VB. pose proof one_wf as OW.
    unfold env. cbn [outline]. intros H. fold vs vis vc in H.
    apply poly_in in H. destruct H as [H|H].
    { destruct H as [<-|[<-|[]]]; apply placed_at; lra. }
    apply poly_in in H. destruct H as [H|H].
    { destruct p as (x, y). apply curve_any in H. destruct H as (v & R1 & -> & ->).
      pose proof (between vs vc v 0 rightmost ltac:(lra) ltac:(lra) R1). pose proof (sc_range v ltac:(lra) ltac:(lra)). apply placed_at; lra. }
    apply poly_in in H. destruct H as [H|H].
    { destruct p as (x, y). apply curve_any in H. destruct H as (v & R1 & -> & ->).
      pose proof (between vc vd v vc vd ltac:(lra) ltac:(lra) R1). pose proof (cd_range v ltac:(lra)). apply placed_at; lra. }
    apply poly_in in H. destruct H as [H|H].
    { destruct H as [<-|[]]. pose proof y0_parts as (P & _). pose proof nneg_d_nonpos.
      pose proof (Rmin_r (1 - qd) nneg_d). fold qd nneg_d. apply placed_at; lra. }
    apply poly_in in H. destruct H as [H|H].
    { destruct p as (x, y). apply curve_any in H. destruct H as (v & R1 & -> & ->).
      pose proof (between vd vc v vc vd ltac:(lra) ltac:(lra) R1). pose proof (ef_range v ltac:(lra)). apply placed_at; lra. }
    apply poly_in in H. destruct H as [H|H].
    { destruct p as (x, y). apply curve_any in H. destruct H as (v & R1 & -> & ->).
      pose proof (between vc vis v 0 rightmost ltac:(lra) ltac:(lra) R1). pose proof (fs_range v R1). apply placed_at; lra. }
    apply poly_in in H. destruct H as [H|H]; [|destruct H].
    destruct H as [<-|[<-|[<-|[]]]]; [|apply placed_at; lra|apply placed_at; lra].
    pose proof y0_parts as (_ & _ & P). fold via. change (stall_line f (f_clmin f) via) with (down via). rewrite down_via.
    pose proof nneg_near. pose proof (Rmax_r (-1) (kappa ^ 2 * nneg_c)).
    assert (Rmax (-1) (kappa ^ 2 * nneg_c) <= 0) by (apply Rmax_lub; lra). apply placed_at; lra.
  Qed.
  Lemma manoeuvre_placed p : In p (polyline (manoeuvre_outline (env f c vd))) -> placed p.
  Proof.
    pose proof rightmost_parts as RP. pose proof y0_neg as YN. pose proof y1_pos as YP. pose proof npos_pos as (NP & N1).
    pose proof y1_parts as (_ & _ & _ & P4). pose proof va_nonneg as VA. pose proof via_nonneg as VI. pose proof vc_pos as VC.
    pose proof vd_big as VB. pose proof y0_parts as (P1 & _ & P3). pose proof nneg_near as NN.
    unfold env. cbn [manoeuvre_outline]. intros H. fold va via vc in H.
    apply poly_in in H. destruct H as [H|H].
    { destruct p as (x, y). apply curve_any in H. destruct H as (v & R1 & -> & ->).
      pose proof (between 0 va v 0 va ltac:(lra) ltac:(lra) R1). change (stall_line f (f_clmax f) v) with (up v).
      pose proof (up_mono v va ltac:(lra)). pose proof up_va. pose proof (up_nonneg v). apply placed_at; lra. }
    apply poly_in in H. destruct H as [H|H].
    { destruct H as [<-|[]]. fold npos. apply placed_at; lra. }
    apply poly_in in H. destruct H as [H|H].
    { destruct H as [<-|[]]. fold nneg_d. pose proof nneg_d_nonpos. pose proof (Rmin_r (1 - qd) nneg_d). apply placed_at; lra. }
    apply poly_in in H. destruct H as [H|H].
    { destruct H as [<-|[]]. fold nneg_c. apply placed_at; lra. }
    apply poly_in in H. destruct H as [H|H]; [|destruct H].
    destruct p as (x, y). apply curve_any in H. destruct H as (v & R1 & -> & ->).
    pose proof (between via 0 v 0 via ltac:(lra) ltac:(lra) R1). pose proof (go_range v ltac:(lra)) as G.
    change (stall_line f (f_clmin f) v) with (down v). apply placed_at; lra.
  Qed.

  (** ** the points of interest: position and sign *)
  Definition sign_of (k : string) (n : R) : Prop :=
    if existsb (String.eqb k) ["A"; "B"; "C"; "D"]%string then 0 < n else n <= 0.
  Lemma poi_placed k p : In (k, p) (poi (env f c vd)) ->
    placed p /\ exists v n, p = (Fin v, Fin n) /\ sign_of k n.
  Proof.
    pose proof rightmost_parts as RP. pose proof y0_neg as YN. pose proof y1_pos as YP. pose proof npos_pos as (NP & N1).
    pose proof y1_parts as (P1 & P2 & P3 & P4). pose proof va_nonneg as VA. pose proof via_nonneg as VI. pose proof vc_pos as VC.
    pose proof vd_big as VB. pose proof y0_parts as (Q1 & Q2 & Q3). pose proof nneg_near as NN. pose proof vb_pos as VBP.
    assert (UP : forall v, 0 < v -> 0 < up v).
    { intros v Hv. rewrite up_sq. apply Rdiv_lt_0_compat; [apply pow_lt; unfold knots; lra|apply (pen_k_pos _ _ _ HD)]. }
    assert (B : vb <= vc -> In (k, p) (all_points f c vd) \/ True) by (intros; right; exact I).
    intros H.
    assert (IN : In (k, p) (all_points f c vd) /\ (k = "B"%string -> vb <= vc)).
    { unfold env in H. cbn [poi] in H. fold vc vb in H. destruct (Rlt_dec vc vb) as [L|L].
      - apply filter_In in H. destruct H as (H & E). split; [exact H|]. intros ->. discriminate.
      - split; [exact H|]. intros _. lra. }
    destruct IN as (IN & HB). unfold all_points in IN. fold va vb vc via npos qd nneg_d in IN.
    destruct IN as [E|[E|[E|[E|[E|[E|[E|[]]]]]]]]; inversion E; subst k p; clear E.
    - split; [apply placed_at; lra|]. do 2 eexists. split; [reflexivity|]. cbn. exact NP.
    - pose proof (HB eq_refl) as L. pose proof (up_vb_gust L) as U. change (stall_line f (f_clmax f) vb) with (up vb).
      pose proof (UP vb VBP). split; [apply placed_at; lra|]. do 2 eexists. split; [reflexivity|]. cbn. apply UP, VBP.
    - pose proof (sc_range vc ltac:(lra) (Rmax_r _ _)) as R. split; [apply placed_at; lra|]. do 2 eexists. split; [reflexivity|].
      cbn. unfold sc_load. fold va vb vc. destruct (Rle_dec vc va); [apply UP, VC|]. destruct (Rle_dec vc vb); [apply UP, VC|].
      eapply Rlt_le_trans; [|apply Rmax_r]. exact NP.
    - pose proof (cd_range vd ltac:(lra)) as R. split; [apply placed_at; lra|]. do 2 eexists. split; [reflexivity|].
      cbn. eapply Rlt_le_trans; [|apply Rmax_r]. exact NP.
    - pose proof nneg_d_nonpos. pose proof (Rmin_r (1 - qd) nneg_d). split; [apply placed_at; lra|]. do 2 eexists. split; [reflexivity|].
      cbn. lra.
    - pose proof (ef_range vc ltac:(lra)) as R. split; [apply placed_at; lra|]. do 2 eexists. split; [reflexivity|]. cbn. lra.
    - pose proof (go_range via ltac:(lra)) as R. change (stall_line f (f_clmin f) via) with (down via).
      split; [apply placed_at; lra|]. do 2 eexists. split; [reflexivity|]. cbn. lra.
  Qed.
End Frame.
