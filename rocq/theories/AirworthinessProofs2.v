(** Stall speeds, gust load factors and design speeds of a described aircraft. *)
From Verif Require Import Base BaseFacts AnalysisFacts UnitsModel AtmosModel AtmosSpec ConceptModel
  ConceptProofs MethodsModel MethodsSpec MethodsProofs2 ConstraintSpec ConstraintProofs AirworthinessModel
  AirworthinessSpec AirworthinessProofs.
Open Scope R_scope.

Lemma half_power x : 0 < x -> Rpower x 0.5 = sqrt x.
Proof. intros H. replace 0.5 with (/ 2) by lra. apply Rpower_sqrt, H. Qed.

(** stall speed in m/s *)
Definition stall_mps (f : flight) (n cl : R) : R := sqrt (n * f_weight f / (0.5 * a_rho (f_sl f) * f_area f * cl)).
(** gust penetration speed in m/s: root of x^2 = p x + k *)
Definition pen_p (f : flight) (u : R) : R := f_slope f / f_clmax f * alleviation f * u.
Definition pen_k (f : flight) : R := 2 * (wing_loading f * f_wf f) / (a_rho (f_sl f) * f_clmax f) * f_wf f.
Definition penetration (f : flight) (u : R) : R := (pen_p f u + sqrt (pen_p f u ^ 2 + 4 * pen_k f)) / 2.

Definition va_speed (c : cat) (f : flight) : R :=
  in_knots (stall_mps f (f_wf f) (f_clmax f)) * sqrt (limit_positive c (pounds (f_weight f))).
Definition vb_speed (c : cat) (f : flight) : R := in_knots (penetration f (rough_gust c f)).
Definition vb2_speed (f : flight) : R :=
  in_knots (stall_mps f (f_wf f) (f_clmax f)) * sqrt (1 + coded_increment f (gust_c f) (f_vc f)).

Section Described.
  Variables (ext : externals) (s : cert) (f : flight).
  Hypothesis HD : describes ext s f.

  Lemma d_weight : weight_n (acobj s) = Some (Fin (f_weight f)). Proof. apply HD. Qed.
  Lemma d_area : wingarea_m2 (acobj s) = Some (Fin (f_area f)). Proof. apply HD. Qed.
  Lemma d_aspect : aspectratio (acobj s) = Some (Fin (f_aspect f)). Proof. apply HD. Qed.
  Lemma d_taper : roottaperratio (acobj s) = Some (Fin (f_taper f)). Proof. apply HD. Qed.
  Lemma d_clmax : clmaxclean (acobj s) = Some (Fin (f_clmax f)). Proof. apply HD. Qed.
  Lemma d_clmin : clminclean (acobj s) = Some (Fin (f_clmin f)). Proof. apply HD. Qed.
  Lemma d_vc : cruisespeed_keas s = Some (Fin (f_vc f)). Proof. apply HD. Qed.
  Lemma d_alt : altitude_m s = Fin (f_alt f). Proof. apply HD. Qed.
  Lemma d_wf : weightfraction s = Fin (f_wf f). Proof. apply HD. Qed.
  Lemma d_sl : air_at (acobj s) 0 (f_sl f). Proof. apply HD. Qed.
  Lemma d_air : air_at (acobj s) (f_alt f) (f_air f). Proof. apply HD. Qed.
  Lemma d_slope : liftslope_prad ext (acobj s) (Fin (cruise_mach f)) = Ok (Fin (f_slope f)). Proof. apply HD. Qed.
  Lemma p_weight : 0 < f_weight f. Proof. apply HD. Qed.
  Lemma p_area : 0 < f_area f. Proof. apply HD. Qed.
  Lemma p_aspect : 0 < f_aspect f. Proof. apply HD. Qed.
  Lemma p_taper : 0 <= f_taper f. Proof. apply HD. Qed.
  Lemma p_clmax : 0 < f_clmax f. Proof. apply HD. Qed.
  Lemma p_clmin : f_clmin f < 0. Proof. apply HD. Qed.
  Lemma p_vc : 0 < f_vc f. Proof. apply HD. Qed.
  Lemma p_wf : 0 < f_wf f. Proof. apply HD. Qed.
  Lemma p_slope : 0 < f_slope f. Proof. apply HD. Qed.
  Lemma p_sl : 0 < a_rho (f_sl f). Proof. apply d_sl. Qed.
  Lemma p_rho : 0 < a_rho (f_air f). Proof. apply d_air. Qed.
  Lemma p_loading : 0 < wing_loading f.
  Proof. apply Rdiv_lt_0_compat; [apply p_weight|apply p_area]. Qed.
  Lemma p_chord : 0 < std_chord f.
  Proof. apply sqrt_lt_R0, Rdiv_lt_0_compat; [apply p_area|apply p_aspect]. Qed.
  Lemma p_pounds : 0 < pounds (f_weight f).
  Proof. pose proof p_weight. unfold pounds. lra. Qed.
  Lemma p_limit c : 2.1 < limit_positive c (pounds (f_weight f)) <= 6.
  Proof. apply limit_positive_range. left. apply p_pounds. Qed.

  (** ** stall speeds *)
  Lemma vs_up n : 0 <= n -> vs_keas s (Fin n) = Ok (Fin (in_knots (stall_mps f n (f_clmax f)))).
  Proof.
    intros Hn. pose proof p_weight. pose proof p_area. pose proof p_clmax. pose proof p_sl.
    unfold vs_keas. rewrite d_weight, d_area, d_clmax. cbn [required rbind].
    rewrite nleb_fin, Rleb_true by exact Hn. cbn [rbind]. rewrite (dens_air _ _ _ d_sl). cbn [rbind].
    assert (P : 0 < 0.5 * a_rho (f_sl f) * f_area f * f_clmax f).
    { apply Rmult_lt_0_compat; [|assumption]. apply Rmult_lt_0_compat; [|assumption]. lra. }
    rewrite !nmul_fin, ndiv_fin by lra.
    rewrite msqrt_fin by (apply Rdiv_le_0_compat; [apply Rmult_le_pos; lra|exact P]). cbn [rbind].
    unfold mps2kts. rewrite nmul_fin. reflexivity.
  Qed.
  Lemma vs_down n : n < 0 -> vs_keas s (Fin n) = Ok (Fin (in_knots (stall_mps f n (f_clmin f)))).
  Proof.
    intros Hn. pose proof p_weight. pose proof p_area. pose proof p_clmin. pose proof p_sl.
    unfold vs_keas. rewrite d_weight, d_area, d_clmin. cbn [required rbind].
    rewrite nleb_fin, Rleb_false by exact Hn. cbn [rbind]. rewrite (dens_air _ _ _ d_sl). cbn [rbind].
    assert (Q : 0 < 0.5 * a_rho (f_sl f) * f_area f) by (apply Rmult_lt_0_compat; [|assumption]; lra).
    assert (P : 0.5 * a_rho (f_sl f) * f_area f * f_clmin f < 0) by nra.
    rewrite !nmul_fin, ndiv_fin by lra.
    rewrite msqrt_fin. { cbn [rbind]. unfold mps2kts. rewrite nmul_fin. reflexivity. }
    set (d := 0.5 * a_rho (f_sl f) * f_area f * f_clmin f) in *.
    replace (n * f_weight f / d) with (- n * f_weight f / - d) by (field; lra).
    apply Rdiv_le_0_compat; [apply Rmult_le_pos; lra|lra].
  Qed.
  Lemma stall_carries n cl : 0 <= n * cl -> cl <> 0 ->
    carries (a_rho (f_sl f)) (f_area f) cl (n * f_weight f) (stall_mps f n cl).
  Proof.
    intros H1 H2. pose proof p_weight. pose proof p_area. pose proof p_sl.
    unfold carries, stall_mps. split; [apply sqrt_pos|].
    assert (Q : 0 < 0.5 * a_rho (f_sl f) * f_area f) by (apply Rmult_lt_0_compat; [|assumption]; lra).
    assert (C : 0 < cl ^ 2) by (rewrite <- Rsqr_pow2; apply Rsqr_pos_lt, H2).
    rewrite pow2_sqrt. { replace 0.5 with (1 / 2) by lra. field. repeat split; lra. }
    replace (n * f_weight f / (0.5 * a_rho (f_sl f) * f_area f * cl))
      with ((n * cl) * f_weight f / (0.5 * a_rho (f_sl f) * f_area f * cl ^ 2))
      by (replace 0.5 with (1 / 2) by lra; field; repeat split; lra).
    apply Rdiv_le_0_compat; [apply Rmult_le_pos; lra|apply Rmult_lt_0_compat; assumption].
  Qed.

  (** ** gust load factors *)
  Lemma mass_ratio_pos : 0 < mass_ratio f.
  Proof.
    pose proof p_loading. pose proof p_wf. pose proof p_rho. pose proof p_chord. pose proof p_slope.
    unfold mass_ratio, gravity. apply Rdiv_lt_0_compat.
    - apply Rmult_lt_0_compat; [lra|]. apply Rmult_lt_0_compat; assumption.
    - apply Rmult_lt_0_compat; [|lra]. apply Rmult_lt_0_compat; [|assumption]. apply Rmult_lt_0_compat; assumption.
  Qed.
  Lemma alleviation_range : 0 < alleviation f < 0.88.
  Proof.
    pose proof mass_ratio_pos as M. unfold alleviation. split; [apply Rdiv_lt_0_compat; lra|].
    apply (Rmult_lt_reg_r (5.3 + mass_ratio f)); [lra|]. unfold Rdiv. rewrite Rmult_assoc, Rinv_l by lra. lra.
  Qed.
  Lemma coded_linear u v : coded_increment f u v = coded_increment f 1 1 * u * v.
  Proof. unfold coded_increment, gust_increment, knots, Rdiv. ring. Qed.
  Lemma coded_unit_pos : 0 < coded_increment f 1 1.
  Proof.
    pose proof p_loading. pose proof p_wf. pose proof p_sl. pose proof p_slope. pose proof alleviation_range as [K _].
    unfold coded_increment, gust_increment, knots. apply Rdiv_lt_0_compat; [|assumption].
    assert (0 < wing_loading f * f_wf f) by (apply Rmult_lt_0_compat; assumption).
    apply Rdiv_lt_0_compat; [|lra]. apply Rmult_lt_0_compat; [|assumption].
    apply Rmult_lt_0_compat; [|lra]. apply Rmult_lt_0_compat; [|lra]. apply Rmult_lt_0_compat; assumption.
  Qed.

  Definition load_pair (u v : R) : num * num :=
    (Fin (1 + coded_increment f u v), Fin (1 - coded_increment f u v)).

  Lemma gust_load_spec sp : exists L, paragraph341 ext s sp = Ok (L, Fin (alleviation f), Fin (f_slope f)) /\
    (forall c v, at_Uc sp = Some (Fin v) -> l_Uc (L c) = Some (load_pair (gust_c f) v)) /\
    (forall c v, at_Ud sp = Some (Fin v) -> l_Ud (L c) = Some (load_pair (gust_d f) v)) /\
    (forall v, at_Ub sp = Some (Fin v) -> l_Ub (L Comm) = Some (load_pair (gust_b f) v)) /\
    (forall c, at_Uc sp = None -> l_Uc (L c) = None) /\ (forall c, at_Ud sp = None -> l_Ud (L c) = None) /\
    (forall c, at_Ub sp = None \/ c <> Comm -> l_Ub (L c) = None).
  Proof.
    pose proof p_loading. pose proof p_wf. pose proof p_rho. pose proof p_sl. pose proof p_chord. pose proof p_slope.
    pose proof p_area. pose proof mass_ratio_pos as MP.
    assert (TL : 0 < wing_loading f * f_wf f) by (apply Rmult_lt_0_compat; assumption).
    destruct (gusts_spec s _ _ _ d_weight d_area (Rlt_le _ _ p_weight) d_alt) as (m & g & E3 & G).
    unfold paragraph341. rewrite d_alt, (dens_air _ _ _ d_air). cbn [rbind]. rewrite d_vc. cbn [required rbind].
    assert (EV : kts2mps (eas2tas (Fin (f_vc f)) (Fin (a_rho (f_air f))))
                 = Fin (knots (f_vc f / sqrt (a_rho (f_air f) / 1.225)))).
    { assert (P : 0 < a_rho (f_air f) / 1.225) by (apply Rdiv_lt_0_compat; lra).
      unfold eas2tas, kts2mps. rewrite ndiv_fin, npow_fin, half_power by lra.
      pose proof (sqrt_lt_R0 _ P). rewrite ndiv_fin by lra. rewrite nmul_fin. reflexivity. }
    rewrite EV, (mach_at_air _ _ _ d_air). cbn [rbind]. rewrite d_weight, d_area. cbn [required rbind].
    fold (cruise_mach f). rewrite d_slope. cbn [rbind]. rewrite (dens_air _ _ _ d_sl). cbn [rbind].
    rewrite E3. cbn [rbind fst snd].
    rewrite (chords_spec s _ _ _ d_area d_aspect d_taper p_area p_aspect) by (pose proof p_taper; lra).
    cbn [rbind fst snd]. rewrite d_wf. rewrite (ndiv_fin (f_weight f)) by lra. fold (wing_loading f).
    fold (std_chord f).
    assert (EM : (#2 * (Fin (wing_loading f) * Fin (f_wf f)) / (Fin (a_rho (f_air f)) * Fin (std_chord f) * Fin (f_slope f) * sc_g))%num
                 = Fin (mass_ratio f)).
    { unfold sc_g. rewrite !nmul_fin, ndiv_fin; [reflexivity|].
      assert (0 < a_rho (f_air f) * std_chord f * f_slope f * 9.80665); [|lra].
      apply Rmult_lt_0_compat; [|lra]. apply Rmult_lt_0_compat; [|assumption]. apply Rmult_lt_0_compat; assumption. }
    rewrite EM. rewrite (nmul_fin 0.88), nadd_fin, (ndiv_fin (0.88 * _)) by lra. fold (alleviation f).
    assert (LP : forall u v, (#1 + (Fin (alleviation f) * Fin (a_rho (f_sl f)) * Fin u * kts2mps (Fin v) * Fin (f_slope f)
        / (#2 * (Fin (wing_loading f) * Fin (f_wf f))) / Fin (f_wf f)))%num = Fin (1 + coded_increment f u v) /\
      (#1 - (Fin (alleviation f) * Fin (a_rho (f_sl f)) * Fin u * kts2mps (Fin v) * Fin (f_slope f)
        / (#2 * (Fin (wing_loading f) * Fin (f_wf f))) / Fin (f_wf f)))%num = Fin (1 - coded_increment f u v)).
    { intros u v. unfold kts2mps. rewrite !nmul_fin, !ndiv_fin by lra. rewrite nadd_fin, nsub_fin. split; reflexivity. }
    eexists. split; [reflexivity|]. cbn [l_Ub l_Uc l_Ud]. repeat split.
    - intros c v E. destruct (G c) as (_ & _ & _ & U & _). rewrite E, U. destruct (LP (gust_c f) v) as (A & B).
      unfold load_pair. fold (gust_c f). rewrite A, B. reflexivity.
    - intros c v E. destruct (G c) as (_ & _ & _ & _ & U & _). rewrite E, U. destruct (LP (gust_d f) v) as (A & B).
      unfold load_pair. fold (gust_d f). rewrite A, B. reflexivity.
    - intros v E. destruct (G Comm) as (_ & _ & _ & _ & _ & U). rewrite E, U. destruct (LP (gust_b f) v) as (A & B).
      unfold load_pair. fold (gust_b f). rewrite A, B. reflexivity.
    - intros c E. rewrite E. reflexivity.
    - intros c E. rewrite E. reflexivity.
    - intros c E. destruct (G c) as (_ & _ & _ & _ & _ & U). rewrite U. destruct E as [E|E].
      + rewrite E. destruct c; reflexivity.
      + destruct c; try reflexivity. congruence.
  Qed.

  (** ** gust penetration *)
  Lemma gust_pos lo hi h : 0 < hi <= lo -> 0 < ft (gust_profile lo hi h).
  Proof. intros H. destruct (profile_shape lo hi) as (_ & _ & _ & _ & B & _); [lra|]. specialize (B h). unfold ft. lra. Qed.
  Lemma gust_c_pos : 0 < gust_c f. Proof. apply gust_pos; lra. Qed.
  Lemma gust_d_pos : 0 < gust_d f. Proof. apply gust_pos; lra. Qed.
  Lemma gust_b_pos : 0 < gust_b f. Proof. apply gust_pos; lra. Qed.
  Lemma rough_pos c : 0 < rough_gust c f.
  Proof. destruct c; cbn [rough_gust]; first [apply gust_b_pos|apply gust_c_pos]. Qed.
  Lemma pen_k_pos : 0 < pen_k f.
  Proof.
    pose proof p_loading. pose proof p_wf. pose proof p_sl. pose proof p_clmax. unfold pen_k.
    apply Rmult_lt_0_compat; [|assumption]. apply Rdiv_lt_0_compat; [|apply Rmult_lt_0_compat; assumption].
    apply Rmult_lt_0_compat; [lra|]. apply Rmult_lt_0_compat; assumption.
  Qed.
  Lemma pen_p_pos u : 0 < u -> 0 < pen_p f u.
  Proof.
    intros Hu. pose proof p_slope. pose proof p_clmax. pose proof alleviation_range as [K _]. unfold pen_p.
    apply Rmult_lt_0_compat; [|assumption]. apply Rmult_lt_0_compat; [|assumption]. apply Rdiv_lt_0_compat; assumption.
  Qed.
  Lemma penetration_root u : 0 < u -> 0 < penetration f u /\ penetration f u ^ 2 = pen_p f u * penetration f u + pen_k f.
  Proof.
    intros Hu. pose proof (pen_p_pos u Hu) as P. pose proof pen_k_pos as K.
    assert (D : 0 < pen_p f u ^ 2 + 4 * pen_k f) by (pose proof (pow2_ge_0 (pen_p f u)); lra).
    pose proof (sqrt_lt_R0 _ D) as SQ. pose proof (pow2_sqrt _ (Rlt_le _ _ D)) as S2.
    unfold penetration. set (q := sqrt _) in *. set (p := pen_p f u) in *. split; [lra|]. nra.
  Qed.

  (** ** design speeds *)
  Lemma wl_pos : 0 < pounds_per_ft2 (wing_loading f).
  Proof. pose proof p_loading. unfold pounds_per_ft2. lra. Qed.
  Lemma loading_interp lo hi : npinterp2 (Fin (pounds_per_ft2 (wing_loading f))) #20 #100 (Fin lo) (Fin hi)
    = Fin (by_loading lo hi (pounds_per_ft2 (wing_loading f))).
  Proof. rewrite npinterp2_clamp by lra. unfold by_loading. replace (100 - 20) with 80 by lra. reflexivity. Qed.

  Definition design_speeds (c : cat) : speeds :=
    {| vcmin_keas := Fin (vc_minimum c f);
       vcsoftmax_keas := match maxlevelspeed_keas s with None => None | Some vh => Some (#0.9 * vh)%num end;
       vdmin_keas := Fin (vd_minimum c f); vamin_keas := Fin (va_speed c f); vasoftmax_keas := Fin (f_vc f);
       vbmin1_keas := Fin (vb_speed c f); vbmin2_keas := Fin (vb2_speed f);
       vbmin_keas := Fin (Rmin (vb_speed c f) (vb2_speed f));
       vbmax_keas := Fin (Rmax (Rmin (vb_speed c f) (vb2_speed f)) (f_vc f)) |}.

  Lemma coded_pos u v : 0 < u -> 0 < v -> 0 < coded_increment f u v.
  Proof.
    intros. rewrite coded_linear. apply Rmult_lt_0_compat; [|assumption]. apply Rmult_lt_0_compat; [|assumption].
    apply coded_unit_pos.
  Qed.

  Lemma speeds_one L lim g c :
    (forall c, npos_min (lim c) = Fin (limit_positive c (pounds (f_weight f)))) ->
    (forall c, Uc_mps (g c) = Fin (gust_c f) /\ Ub_mps (g c) = match c with Comm => Some (Fin (gust_b f)) | _ => None end) ->
    (forall c, l_Uc (L c) = Some (load_pair (gust_c f) (f_vc f))) ->
    speeds335 s (Fin (f_vc f)) (Fin (f_clmax f)) (Fin (wing_loading f)) (Fin (in_knots (stall_mps f (f_wf f) (f_clmax f))))
      lim g L (Fin (alleviation f)) (Fin (f_slope f)) c = Ok (design_speeds c).
  Proof.
    intros HL HG HU. pose proof p_clmax. pose proof p_sl. pose proof wl_pos. pose proof (p_limit c) as PL.
    unfold speeds335. rewrite HL, msqrt_fin by lra. cbn [rbind].
    assert (GU : match c with Comm => entry (Ub_mps (g c)) | _ => Ok (Uc_mps (g c)) end = Ok (Fin (rough_gust c f))).
    { destruct (HG c) as (A & B). destruct c; cbn [rough_gust]; rewrite ?A, ?B; reflexivity. }
    rewrite GU. cbn [rbind]. rewrite (dens_air _ _ _ d_sl). cbn [rbind]. rewrite HU. cbn [entry rbind load_pair fst].
    rewrite msqrt_fin by (pose proof (coded_pos (gust_c f) (f_vc f) gust_c_pos p_vc); lra). cbn [rbind].
    rewrite d_wf. unfold design_speeds. f_equal.
    assert (EW : pa2lbfft2 (Fin (wing_loading f)) = Fin (pounds_per_ft2 (wing_loading f)))
      by (unfold pa2lbfft2; rewrite nmul_fin; reflexivity).
    rewrite EW, !loading_interp, nsqrt_fin by lra.
    assert (EC : forall x, ((match c with Norm | Util | Comm => Fin (by_loading 33 28.6 (pounds_per_ft2 (wing_loading f)))
        | Aero => Fin (by_loading 36 28.6 (pounds_per_ft2 (wing_loading f))) end) * Fin x)%num
        = Fin (vc_coefficient c (pounds_per_ft2 (wing_loading f)) * x)) by (intros; destruct c; rewrite nmul_fin; reflexivity).
    rewrite EC. fold (vc_minimum c f).
    assert (ED : forall x, ((match c with Norm | Comm => Fin (by_loading 1.4 1.35 (pounds_per_ft2 (wing_loading f)))
        | Util => Fin (by_loading 1.5 1.35 (pounds_per_ft2 (wing_loading f)))
        | Aero => Fin (by_loading 1.55 1.35 (pounds_per_ft2 (wing_loading f))) end) * Fin x)%num
        = Fin (vd_coefficient c (pounds_per_ft2 (wing_loading f)) * x)) by (intros; destruct c; rewrite nmul_fin; reflexivity).
    rewrite ED, (nmul_fin 1.25), (nmul_fin (in_knots _)), (nmul_fin (in_knots _)). 
    assert (EB : mps2kts ((nopp (nopp (Fin (f_slope f) / Fin (f_clmax f)) * Fin (alleviation f) * Fin (rough_gust c f))
        + ((nopp (Fin (f_slope f) / Fin (f_clmax f)) * Fin (alleviation f) * Fin (rough_gust c f)) ^ 2
           - #4 * #1 * (#(-2) * (Fin (wing_loading f) * Fin (f_wf f)) / (Fin (a_rho (f_sl f)) * Fin (f_clmax f)) * Fin (f_wf f)))
          ** #0.5) / (#2 * #1))%num = Fin (vb_speed c f)).
    { assert (0 < a_rho (f_sl f) * f_clmax f) by (apply Rmult_lt_0_compat; assumption).
      rewrite !nmul_fin, !ndiv_fin by lra. rewrite nopp_fin, !nmul_fin, nopp_fin, npown_fin, nsub_fin.
      pose proof (pen_p_pos _ (rough_pos c)) as PP. pose proof pen_k_pos as PK.
      replace ((- (f_slope f / f_clmax f) * alleviation f * rough_gust c f) ^ 2 -
         4 * 1 * (-2 * (wing_loading f * f_wf f) / (a_rho (f_sl f) * f_clmax f) * f_wf f))
        with (pen_p f (rough_gust c f) ^ 2 + 4 * pen_k f) by (unfold pen_p, pen_k, Rdiv; ring).
      rewrite npow_fin, half_power by (pose proof (pow2_ge_0 (pen_p f (rough_gust c f))); lra).
      rewrite nadd_fin, ndiv_fin by lra. unfold mps2kts. rewrite nmul_fin. apply Fin_eq.
      unfold vb_speed, in_knots, penetration, pen_p. lra. }
    rewrite EB. reflexivity.
  Qed.

  Theorem speeds_spec : exists p, paragraph335 ext s = Ok p /\ forall c, p c = design_speeds c.
  Proof.
    destruct (limits_spec s _ _ d_weight d_area (Rlt_le _ _ p_weight)) as (lim & E7 & HL).
    destruct (gusts_spec s _ _ _ d_weight d_area (Rlt_le _ _ p_weight) d_alt) as (m & g & E3 & G).
    destruct (gust_load_spec {| at_Ub := None; at_Uc := Some (Fin (f_vc f)); at_Ud := None |}) as (L & E1 & HU & _).
    unfold paragraph335. rewrite d_vc, d_clmax, d_weight, d_area. cbn [required rbind].
    rewrite d_wf, vs_up by (left; apply p_wf). cbn [rbind]. rewrite E7. cbn [rbind]. rewrite E3. cbn [rbind].
    rewrite E1. cbn [rbind snd]. pose proof p_area. rewrite (ndiv_fin (f_weight f)) by lra. fold (wing_loading f).
    assert (ONE : forall c, speeds335 s (Fin (f_vc f)) (Fin (f_clmax f)) (Fin (wing_loading f))
        (Fin (in_knots (stall_mps f (f_wf f) (f_clmax f)))) lim g L (Fin (alleviation f)) (Fin (f_slope f)) c = Ok (design_speeds c)).
    { intros c. apply speeds_one.
      - intros c'. apply HL.
      - intros c'. destruct (G c') as (_ & _ & _ & A & _ & B). split; [exact A|exact B].
      - intros c'. apply HU. reflexivity. }
    rewrite !ONE. cbn [rbind]. eexists. split; [reflexivity|]. intros []; reflexivity.
  Qed.

  (** ** relations between the speeds *)
  Lemma by_loading_range lo hi wl : hi <= lo -> hi <= by_loading lo hi wl <= lo.
  Proof. intros H. unfold by_loading. pose proof (clamp01_range ((wl - 20) / 80)). nra. Qed.
  Lemma vc_coefficient_range c wl : 28.6 <= vc_coefficient c wl <= 36.
  Proof.
    destruct c; cbn [vc_coefficient];
      match goal with |- _ <= by_loading ?a ?b _ <= _ => pose proof (by_loading_range a b wl ltac:(lra)) end; lra.
  Qed.
  Lemma vd_coefficient_range c wl : 1.35 <= vd_coefficient c wl <= 1.55.
  Proof.
    destruct c; cbn [vd_coefficient];
      match goal with |- _ <= by_loading ?a ?b _ <= _ => pose proof (by_loading_range a b wl ltac:(lra)) end; lra.
  Qed.
  Lemma vc_minimum_pos c : 0 < vc_minimum c f.
  Proof.
    unfold vc_minimum. pose proof (sqrt_lt_R0 _ wl_pos). pose proof (vc_coefficient_range c (pounds_per_ft2 (wing_loading f))).
    apply Rmult_lt_0_compat; lra.
  Qed.
  (** the dive speed is at least 1.25 times the cruise speed used, also when that is the
      regulation's minimum *)
  Lemma vd_ratio c : 1.25 * Rmax (f_vc f) (vc_minimum c f) <= vd_minimum c f.
  Proof.
    unfold vd_minimum. pose proof (vc_minimum_pos c) as P.
    pose proof (vd_coefficient_range c (pounds_per_ft2 (wing_loading f))) as Q.
    set (k := vd_coefficient _ _) in *. set (v := vc_minimum c f) in *.
    pose proof (Rmax_l (1.25 * f_vc f) (k * v)). pose proof (Rmax_r (1.25 * f_vc f) (k * v)).
    unfold Rmax at 1. destruct (Rle_dec _ _); nra.
  Qed.
End Described.
