(** Property C91: the warnings of the constraint analysis
    (constraintanalysis.py:548-1140, 1753, 1772, 1951-1984). *)
From Verif Require Import Base AtmosModel AtmosSpec ConceptModel MethodsModel MethodsSpec MethodsExamples ConstraintSpec
  SensitivityModel SensitivityPlotModel CubicModel WarningsModel WarningsSpec
  WarningsProofs WarningsProofs2 WarningsProofs3 WarningsProofs4 WarningsProofs5 WarningsProofs6.
Open Scope R_scope.

(** the methods with their warnings have the outcomes of the methods of C27 to C37 *)
Theorem C91_outcomes : forall ext c,
  (forall mo, snd (oswaldspaneff4_w c mo) = Ok (oswaldspaneff4 c (match mo with Some m => m | None => Fin 0.3 end))) /\
  (forall sel mo, snd (induceddragfact_w c sel mo) = induceddragfact c sel mo) /\
  (forall mo, snd (liftslope_prad_w ext c mo) = liftslope_prad ext c (match mo with Some m => m | None => Fin 0.3 end)) /\
  (forall v mo, rmap (fun r => map (fun w => snd r w None) (fst r)) (snd (induceddragfact_lesm_w ext c v false mo))
                = induceddragfact_lesm ext c v mo) /\
  (forall v h, snd (propulsion_slcorr_w ext c v h) = propulsion_slcorr ext c v h) /\
  (forall v b, snd (twrequired_clm_w ext c v b) = twrequired_clm ext c v b) /\
  (forall v b, snd (twrequired_crs_w ext c v b) = twrequired_crs ext c v b) /\
  (forall v b, snd (twrequired_sec_w ext c v b) = twrequired_sec ext c v b) /\
  (forall v b, snd (twrequired_to_w ext c v b) = twrequired_to ext c v b) /\
  (forall v b, snd (twrequired_trn_w ext c v b) = twrequired_trn ext c v b) /\
  (forall v fo b, snd (twrequired_w ext c v fo b) = twrequired ext c v fo b) /\
  (forall n v m fo b, snd (powerrequired_w ext c n v m fo b) = powerrequired ext c v m fo b).
Proof. exact outcomes. Qed.
Print Assumptions C91_outcomes.

(** the span efficiency of Nita and Scholz warns about a missing Mach number, and about a
    result below a thousandth *)
Theorem C91_span_efficiency : forall c w, has_wing c w -> forall mo m, 0 < w_ar w -> mach_used mo m ->
  fst (oswaldspaneff4_w c mo) = (if_left_out WMach mo ++ if_too_small w m)%list.
Proof. exact eff4_warnings. Qed.
Print Assumptions C91_span_efficiency.
(** the latter never up to Mach 0.84 for usual wings, and always from Mach 0.85 on *)
Theorem C91_mach_range : forall w m,
  (usual w -> m <= 0.84 -> if_too_small w m = []) /\ (regular w -> 0.85 <= m -> if_too_small w m = [WBounds]).
Proof. exact (fun w m => conj (usual_silent w m) (fast_warns w m)). Qed.
Print Assumptions C91_mach_range.
(** but a wing swept far forward has its Mach number blamed at every Mach number *)
Theorem C91_mach_range_refuted : exists w, regular w /\ (forall m, if_too_small w m = [WBounds]) /\
  forall c, has_wing c w ->
  fst (oswaldspaneff4_w c (Some (Fin 0))) = [WBounds] /\ fst (oswaldspaneff4_w c None) = [WMach; WBounds].
Proof.
  exact (ex_intro _ forward_wing (conj (proj1 (forward_warns 0))
    (conj (fun m => proj2 (forward_warns m)) forward_blames_mach))).
Qed.
Print Assumptions C91_mach_range_refuted.

(** the drag factor warns about a missing Mach number only if the fourth method is selected *)
Theorem C91_drag_factor : forall c w, has_wing c w -> regular w -> forall z mo m sel,
  (0 <= z)%Z -> mach_used mo m -> methods_named (Z.to_N z) sel ->
  (In 4%N sel -> fst (induceddragfact_w c (SelInt z) mo) = (if_left_out WMach mo ++ if_too_small w m)%list) /\
  (sel <> [] -> ~ In 4%N sel -> fst (induceddragfact_w c (SelInt z) mo) = []) /\
  (sel = [] -> fst (induceddragfact_w c (SelInt z) mo) = if_too_small w 0.3).
Proof. exact factor_warnings. Qed.
Print Assumptions C91_drag_factor.
Theorem C91_drag_factor_default : forall c w, has_wing c w -> regular w -> forall mo,
  fst (induceddragfact_w c SelOther mo) = if_too_small w 0.3.
Proof. exact factor_default_warnings. Qed.
Print Assumptions C91_drag_factor_default.
Theorem C91_lift_slope : forall ext c mo, fst (liftslope_prad_w ext c mo) = if_left_out WMach mo.
Proof. exact slope_warnings. Qed.
Print Assumptions C91_lift_slope.
Theorem C91_leading_edge_suction : forall ext c w v cl mo, has_wing c w -> usual w ->
  (v = None -> weight_n c <> None /\ wingarea_m2 c <> None) ->
  fst (induceddragfact_lesm_w ext c v cl mo)
  = (if_left_out WMach mo ++ (if cl then [] else [WClReal])
     ++ (match cruisespeed_ktas c, cruisealt_m c with Some _, Some _ => [] | _, _ => [WClCruise] end))%list.
Proof. exact lesm_warnings. Qed.
Print Assumptions C91_leading_edge_suction.

(** each call of the sea level correction that succeeds gives the warnings of its propulsion
    system *)
Theorem C91_propulsion : forall ext c v h r, propulsion_slcorr ext c v h = Ok r ->
  warnings_for c (List.length (elements v)) (fst (propulsion_slcorr_w ext c v h)).
Proof. exact (fun ext c v h r H => slcorr_warnings ext c v h r (eq_trans (outcome_slcorr ext c v h) H)). Qed.
Print Assumptions C91_propulsion.
(** the thrust constraints give nothing else: once for each constraint, and for each take-off
    speed *)
Theorem C91_thrust : forall c w a0 b v fo,
  has_wing c w -> usual w -> half_ok w -> a_0i c = Some (Fin a0) -> 0 < a0 -> engine_ok c -> brief_complete c ->
  exists ws, warnings_for c 1 ws /\
  fst (twrequired_w interpolators c v fo b) = times ((if b then List.length (elements v) else 0) + 4) ws.
Proof. exact complete_tw. Qed.
Print Assumptions C91_thrust.
(** the power constraints also tell how many propeller efficiencies were defaults, and
    whether no turn is feasible *)
Theorem C91_power : forall c w a0 n b v m fo eta,
  has_wing c w -> usual w -> half_ok w -> a_0i c = Some (Fin a0) -> 0 < a0 -> engine_ok c -> brief_complete c ->
  etaprop_turn c = Some (Fin eta) -> eta <> 0 ->
  exists ws wn t turns, warnings_for c 1 ws /\ warnings_for c (List.length (elements v)) wn /\
    twrequired interpolators c v fo false = Ok t /\
    (no_feasible_turn t -> turns = [WTurns]) /\ (~ no_feasible_turn t -> turns = []) /\
    fst (powerrequired_w interpolators c n v m fo b)
    = ((if Nat.ltb 0 n then [WEtas n] else []) ++ times 4 ws ++ (if b then wn else []) ++ turns
       ++ (if b then times 4 ws else []))%list.
Proof. exact complete_power. Qed.
Print Assumptions C91_power.

(** the warnings about a missing thrust or power mapping are never given; a propulsion object
    that is no engine gives the correction 1 and no warning *)
Theorem C91_missing_map_refuted : forall ext c v h,
  ~ In WThrustMap (fst (propulsion_slcorr_w ext c v h)) /\ ~ In WPowerMap (fst (propulsion_slcorr_w ext c v h)) /\
  (forall r, propulsion c = PropOther -> propulsion_slcorr ext c v h = Ok r ->
   fst (propulsion_slcorr_w ext c v h) = [] /\
   r = (VArr (repeat (Fin 1) (List.length (elements v))), VArr (repeat (Fin 1) (List.length (elements v))))).
Proof. exact never_missing. Qed.
Print Assumptions C91_missing_map_refuted.
(** a bypass ratio that stands for a system is not reported as deprecated; the report comes
    exactly for the others between -3 and 0, which then get the correction 1 *)
Theorem C91_deprecated_refuted : forall ext c v h b, propulsion c = PropFalse -> pval (bpr c) = Fin b ->
  (In WDeprecated (fst (propulsion_slcorr_w ext c v h)) <-> -3 < b < 0 /\ b <> -1 /\ b <> -2) /\
  (forall r, -3 < b < 0 -> b <> -1 -> b <> -2 -> propulsion_slcorr ext c v h = Ok r ->
   r = (VArr (repeat (Fin 1) (List.length (elements v))), VArr (repeat (Fin 1) (List.length (elements v))))).
Proof. exact deprecated_iff. Qed.
Print Assumptions C91_deprecated_refuted.

(** options of the sensitivity plots that are not supported are reported and replaced *)
Theorem C91_axes : forall y l x d sh t f, let '(ws, o) := monothetic_options y l x d sh t f in
  ((po_y o = Yhp <-> y = Some "p_hp"%string) /\ (In WYvar ws <-> ~ supported_y y)) /\
  ((po_x o = Xarea <-> x = Some "s_m2"%string) /\ (In WXvar ws <-> ~ supported_x x)).
Proof. exact options_axes. Qed.
Print Assumptions C91_axes.
Theorem C91_options_once : forall y l x d sh t f, let '(ws, o) := monothetic_options y l x d sh t f in
  NoDup ws /\ (forall w, In w ws -> w = WYvar \/ w = WYlim \/ w = WXvar \/ exists n, w = WFigure n) /\
  (forall n n', In (WFigure n) ws -> In (WFigure n') ws -> n = n').
Proof. exact options_once. Qed.
Print Assumptions C91_options_once.
Theorem C91_labels : forall y l x d sh t f, let '(ws, o) := monothetic_options y l x d sh t f in
  y_labelling (po_y o) = (if match y with Some s => String.eqb s "p_hp" | None => false end
                          then "Power required [hp]" else "Thrust to weight ratio [-]")%string /\
  x_labelling (po_x o) = (if match x with Some s => String.eqb s "s_m2" | None => false end
                          then "Wing area [m$^2$]" else "Wing loading [Pa]")%string /\
  (d = None -> po_labels o = []) /\ (forall g, d = Some g -> po_labels o = g).
Proof. exact options_labels. Qed.
Print Assumptions C91_labels.
Theorem C91_limit : forall y l x d sh t f, let '(ws, o) := monothetic_options y l x d sh t f in
  (In WYlim ws -> ~ supported_lim l /\ po_ylim o = LimNone) /\
  (~ In WYlim ws -> po_ylim o = l) /\
  (l <> LimOther false -> ~ supported_lim l -> In WYlim ws).
Proof. exact options_lim. Qed.
Print Assumptions C91_limit.
Theorem C91_figure_size : forall y l x d sh t f, let '(ws, o) := monothetic_options y l x d sh t f in
  (forall n, In (WFigure n) ws <-> exists k, f = FigList k /\ List.length k = n /\ n <> 2%nat) /\
  (f = FigNone \/ (exists n, In (WFigure n) ws) -> po_figsize o = FigList [Fin 14.1; Fin 10]) /\
  (f <> FigNone -> (forall n, ~ In (WFigure n) ws) -> po_figsize o = f).
Proof. exact options_fig. Qed.
Print Assumptions C91_figure_size.
Theorem C91_text_size : forall y l x d sh t f, let '(ws, o) := monothetic_options y l x d sh t f in
  po_textsize o = (match t with Some s => s | None => if match sh with ShowAll => true | _ => false end then Fin 10 else Fin 14 end) /\
  (forall s, po_textsize o = Fin s -> 0 < s -> exists title label legend tick,
     fontsizes o = (Fin title, Fin label, Fin legend, Fin tick) /\ 0 < tick < legend /\ legend = s /\ legend < label < title).
Proof. exact options_text. Qed.
Print Assumptions C91_text_size.
(** the plot drawn is then that of the defaults, and that of C78 to C82 for supported ones *)
Theorem C91_unsupported_is_default : forall ext self v y l x d sh mb t f,
  (~ supported_y y -> snd (monothetic_with_options ext self v y l x d sh mb t f)
                      = snd (monothetic_with_options ext self v (Some "tw"%string) l x d sh mb t f)) /\
  (~ supported_x x -> snd (monothetic_with_options ext self v y l x d sh mb t f)
                      = snd (monothetic_with_options ext self v y l (Some "ws_pa"%string) d sh mb t f)) /\
  snd (monothetic_with_options ext self v y (LimOther true) x d sh mb t f)
  = snd (monothetic_with_options ext self v y LimNone x d sh mb t f) /\
  snd (monothetic_with_options ext self v y l x None sh mb t f)
  = snd (monothetic_with_options ext self v y l x (Some []) sh mb t f).
Proof. exact options_default. Qed.
Print Assumptions C91_unsupported_is_default.
Theorem C91_supported_as_given : forall ext self v y lim x d sh mb t f,
  snd (monothetic_with_options ext self v (Some (match y with Ytw => "tw" | Yhp => "p_hp" end)%string)
         (match lim with Some z => LimNum z | None => LimNone end)
         (Some (match x with Xws => "ws_pa" | Xarea => "s_m2" end)%string) (Some d) sh mb t f)
  = propulsionsensitivity_monothetic ext self v y lim x d sh mb.
Proof. exact options_as_given. Qed.
Print Assumptions C91_supported_as_given.
(** a limit such as [] or '' and a tuple of any length as figure size are kept silently *)
Theorem C91_options_refuted : forall y x d sh t k,
  ~ supported_lim (LimOther false) /\
  po_ylim (snd (monothetic_options y (LimOther false) x d sh t FigNone)) = LimOther false /\
  ~ In WYlim (fst (monothetic_options y (LimOther false) x d sh t FigNone)) /\
  po_figsize (snd (monothetic_options y LimNone x d sh t (FigTuple k))) = FigTuple k /\
  forall n, ~ In (WFigure n) (fst (monothetic_options y LimNone x d sh t (FigTuple k))).
Proof. exact options_silent. Qed.
Print Assumptions C91_options_refuted.

Example C91_nonvacuous :
  (has_wing (example_jet 20 18) (example_wing 20 18) /\ usual (example_wing 20 18) /\ half_ok (example_wing 20 18) /\
   a_0i (example_jet 20 18) = Some (Fin 6.28) /\ engine_ok (example_jet 20 18) /\ brief_complete (example_jet 20 18) /\
   etaprop_turn (example_jet 20 18) = Some (Fin 0.85) /\
   weight_n (example_jet 20 18) <> None /\ wingarea_m2 (example_jet 20 18) <> None) /\
  methods_named 4 [4%N] /\
  has_wing (example_jet (-80) (-80)) forward_wing /\
  warnings_for (engine_example 4 PropFalse) 3 [WPropulsion] /\
  warnings_for (engine_example (-1.5) PropFalse) 3 [WPropulsion; WDeprecated] /\
  warnings_for (engine_example 4 (PropStr "jet")) 3 [] /\
  warnings_for (engine_example 4 (PropStr "rocket")) 3 [WIdentifier; WIdentifier; WIdentifier] /\
  warnings_for (engine_example 4 PropOther) 3 [].
Proof. exact warnings_examples. Qed.
