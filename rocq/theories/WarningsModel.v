(** The warnings of ADRpy/constraintanalysis.py and the arguments they replace.  The methods
    are those of MethodsModel with the calls of warnings.warn written down: a computation
    gives the warnings issued before it ends, in order, and its outcome.  Whether Python
    shows a warning (the filters of the module warnings) and the text after the first few
    words are not modelled. *)
From Verif Require Import Base UnitsModel AtmosModel ConceptModel MethodsModel SensitivityModel SensitivityPlotModel.
Open Scope num_scope.

(** the calls of warnings.warn *)
Inductive warning :=
| WMach           (** 548, 628, 705, 919: Mach number unspecified *)
| WBounds         (** 582: Mach number out of bounds for oswaldspaneff4 *)
| WClReal         (** 924: lift coefficient attained unspecified *)
| WClCruise       (** 938: cruise Cl could not be determined *)
| WPropulsion     (** 1040: a valid propulsion system type was not specified *)
| WDeprecated     (** 1053: specifying the propulsion system with bpr is deprecated *)
| WIdentifier     (** 1102: propulsion system identifier was not recognised *)
| WThrustMap      (** 1135: could not find sea-level thrust mapping *)
| WPowerMap       (** 1139: could not find sea-level power mapping *)
| WEtas (n : nat) (** 1753: n prop etas set to defaults *)
| WTurns          (** 1772: all turns are infeasible *)
| WYvar           (** 1951: unsupported y-axis variable *)
| WYlim           (** 1959: unsupported plot y-limit *)
| WXvar           (** 1965: unsupported x-axis variable *)
| WFigure (n : nat). (** 1984: unsupported figure size, found n *)

(** the warnings issued and the outcome *)
Definition logged (A : Type) : Type := (list warning * res A)%type.
Definition quiet {A} (r : res A) : logged A := ([], r).
Definition warn (w : warning) : logged unit := ([w], Ok tt).
Definition lbind {A B} (m : logged A) (f : A -> logged B) : logged B :=
  match snd m with
  | Ok x => ((fst m ++ fst (f x))%list, snd (f x))
  | Err e => (fst m, Err e)
  end.
Notation "'log' x <- e ; f" := (lbind e (fun x => f))
  (at level 200, x name, e at level 100, f at level 200, right associativity).
Fixpoint lmapM {A B} (f : A -> logged B) (l : list A) : logged (list B) :=
  match l with
  | [] => quiet (Ok [])
  | x :: r => log y <- f x; log ys <- lmapM f r; quiet (Ok (y :: ys))
  end.

(** [if x is None: warnings.warn(...); x = default] *)
Definition default_to (w : warning) (default : num) (x : option num) : logged num :=
  match x with
  | Some m => quiet (Ok m)
  | None => log _ <- warn w; quiet (Ok default)
  end.

(* constraintanalysis.py:525-585 *)
Definition oswaldspaneff4_w (c : concept) (mach_inf : option num) : logged num :=
  log mach_inf <- default_to WMach #0.3 mach_inf;
  let dtaperratio := #(-0.357) + #0.45 * nexp (#(-0.0375) * pval (sweep_25_deg c)) in
  let tapercorr := pval (roottaperratio c) - dtaperratio in
  let k_liftind := #0.0524 * (tapercorr ^ 4) - #0.15 * (tapercorr ^ 3)
                   + #0.1659 * (tapercorr ^ 2) - #0.0706 * tapercorr + #0.0119 in
  let e_theo := #1 / (#1 + k_liftind * ar c) in
  let ke_fuse := #1 - #2 * (#0.114 ^ 2) in
  let ke_d0 := #0.85 in
  let ke_mach := if #0.3 <? mach_inf
                 then #(-0.001521) * (((mach_inf / #0.3) - #1) ** #10.82) + #1
                 else #1 in
  let oswaldeff := e_theo * ke_fuse * ke_d0 * ke_mach in
  if oswaldeff <? #1e-3 then log _ <- warn WBounds; quiet (Ok #1e-3) else quiet (Ok oswaldeff).

(* constraintanalysis.py:611-630 *)
Definition oswaldeff_list_w (c : concept) (whichoswald : selector) (mach_inf : option num)
    : logged (list num) :=
  match whichoswald with
  | SelInt z =>
      log sel <- quiet (digits_of z);
      let has n := existsb (N.eqb n) sel in
      log e2 <- (if has 2%N then log e <- quiet (oswaldspaneff2 c); quiet (Ok [e]) else quiet (Ok []));
      log e4 <- (if has 4%N then
                   log mach_inf <- default_to WMach #0.3 mach_inf;
                   log e <- oswaldspaneff4_w c (Some mach_inf);
                   quiet (Ok [e])
                 else quiet (Ok []));
      quiet (Ok ((if has 1%N then [oswaldspaneff1 c] else [])
                 ++ e2 ++ (if has 3%N then [oswaldspaneff3 c] else []) ++ e4)%list)
  | SelOther => quiet (Ok [])
  end.
(* constraintanalysis.py:587-640 *)
Definition induceddragfact_w (c : concept) (whichoswald : selector) (mach_inf : option num)
    : logged num :=
  log l <- oswaldeff_list_w c whichoswald mach_inf;
  log oswaldeff <-
    match l with
    | [] => log e2 <- quiet (oswaldspaneff2 c);
            log e4 <- oswaldspaneff4_w c (Some #0.3);
            quiet (Ok (#0.5 * (e2 + e4)))
    | _ => quiet (Ok (average_of l))
    end;
  quiet (Ok (#1 / (#PI * ar c * oswaldeff))).

(* constraintanalysis.py:675-905: the rest of the method does not warn *)
Definition liftslope_prad_w (ext : externals) (c : concept) (mach_inf : option num) : logged num :=
  log mach_inf <- default_to WMach #0.3 mach_inf;
  quiet (liftslope_prad ext c mach_inf).

(* constraintanalysis.py:917-1018; [cl_given]: cl_real is not None.  Gives the wing loadings
   and the factor as a function of one of them and of its cl_real, as [lesm] does. *)
Definition induceddragfact_lesm_w (ext : externals) (c : concept) (wingloading_pa : option val)
    (cl_given : bool) (mach_inf : option num) : logged (list num * (num -> option num -> num)) :=
  log mach_inf <- default_to WMach #0.3 mach_inf;
  log _ <- (if cl_given then quiet (Ok tt) else warn WClReal);
  log ws <-
    match wingloading_pa with
    | Some v => quiet (Ok (recastasnpfloatarray v))
    | None =>
        log w <- quiet (required (weight_n c));
        log s <- quiet (required (wingarea_m2 c));
        quiet (Ok [w / s])
    end;
  log cl_cruise <-
    match cruisespeed_ktas c, cruisealt_m c with
    | Some v, Some h =>
        log qcruise <- quiet (q_at c (kts2mps v) h);
        quiet (Ok (fun w => w * pval (cruise_weight_fraction c) / qcruise))
    | _, _ => log _ <- warn WClCruise; quiet (Ok (fun _ => #0.6))
    end;
  let machstar_le := #1 / ncos (sweep_le_rad c) in
  log k_oswald <- induceddragfact_w c (SelInt 24) (Some (nmin mach_inf #0.6));
  log a <- liftslope_prad_w ext c (Some mach_inf);
  let k_0 := #1 / a in
  log k_100 <- quiet (k_full_suction ext c mach_inf machstar_le k_0);
  let weight := npinterp2 mach_inf #0 machstar_le #1 #0 ** #0.2 in
  quiet (Ok (ws, fun w cl_real =>
        let clc := cl_cruise w in
        let cl_diff := match cl_real with Some cl => cl - clc | None => #0 end in
        let y_03 := y_suction cl_diff #0.3 #22.5 #1.95 #0 in
        let y_08 := y_suction cl_diff #0.8 #5.77 #1 #(-1.29) in
        let wcl := npinterp2 clc #0.3 #0.8 #1 #0 in
        let suctionfactor := wcl * y_03 + (#1 - wcl) * y_08 in
        let k_suction := suctionfactor * k_100 + (#1 - suctionfactor) * k_0 in
        k_oswald * weight + k_suction * (#1 - weight))).

(* constraintanalysis.py:1038-1061 *)
Definition sl_propulsion_w (c : concept) : logged propulsion_t :=
  match propulsion c with
  | PropFalse =>
      log _ <- warn WPropulsion;
      let b := pval (bpr c) in
      if #0 <=? b then quiet (Ok (PropStr "jet"))
      else if neqb b #(-1) then quiet (Ok (PropStr "piston"))
      else if neqb b #(-2) then quiet (Ok (PropStr "turboprop"))
      else if neqb b #(-3) then quiet (Ok (PropStr "electric"))
      else if ((#(-3) <=? b) && (b <? #0))%bool then log _ <- warn WDeprecated; quiet (Ok PropFalse)
      else quiet (Err ValueError)
  | p => quiet (Ok p)
  end.
(* constraintanalysis.py:1075-1104: one iteration of the loop over Mach numbers *)
Definition generic_tcorr_w (ext : externals) (c : concept) (s : string)
    (temp_c pressure_pa density_kgpm3 m : num) : logged num :=
  if String.eqb s "turboprop" then
    quiet (Ok (tpspline ext (density_kgpm3 / #1.2249998682209657) m))
  else if String.eqb s "piston" then quiet (Ok (pistonpowerfactor density_kgpm3))
  else if String.eqb s "electric" then quiet (Ok #1)
  else if String.eqb s "jet" then
    let b := pval (bpr c) in
    let tr := pval (throttle_r c) in
    if neqb b #0 then quiet (Ok (turbojetthrustfactor temp_c pressure_pa m tr false))
    else if ((#0 <? b) && (b <? #5))%bool then
      quiet (Ok (turbofanthrustfactor temp_c pressure_pa m tr lowbpr))
    else if #5 <=? b then quiet (Ok (turbofanthrustfactor temp_c pressure_pa m tr highbpr))
    else quiet (Err ValueError)
  else log _ <- warn WIdentifier; quiet (Ok #1).
(** ['tcorr' in locals()]: the variable, if it was assigned *)
Definition unassigned_to (w : warning) (x : option val) : logged val :=
  match x with
  | Some v => quiet (Ok v)
  | None => log _ <- warn w; quiet (Ok (VNum #1))
  end.
(* constraintanalysis.py:1035-1142; tcorr and pcorr are assigned in lines 1063-1064 and
   may be assigned again afterwards *)
Definition propulsion_slcorr_w (ext : externals) (c : concept) (airspeed_mpstas : val)
    (altitude_m : num) : logged (val * val) :=
  log p <- sl_propulsion_w c;
  log machv <- quiet (mach (designatm c) airspeed_mpstas (VNum altitude_m));
  let machs := recastasnpfloatarray machv in
  let ones := Some (VArr (map (fun _ => #1) machs)) in
  log corr <-
    match p with
    | PropStr s =>
        log tv <- quiet (airtemp_c (designatm c) (VNum altitude_m)); log temp_c <- quiet (as1 tv);
        log pv <- quiet (airpress_pa (designatm c) (VNum altitude_m)); log pressure_pa <- quiet (as1 pv);
        log density <- quiet (dens_at c altitude_m);
        log tcorr <- lmapM (generic_tcorr_w ext c s temp_c pressure_pa density) machs;
        quiet (Ok (Some (VArr tcorr), ones))
    | PropTurboprop sl_powercorr =>
        quiet (Ok (ones, Some (VArr (map (fun m => sl_powercorr m altitude_m) machs))))
    | PropPiston rpms _ sl_powercorr =>
        log maxrpm <- quiet (pymax rpms);
        quiet (Ok (ones, Some (VArr (map (fun r => sl_powercorr (Fin r) altitude_m)
                                         (filter (Reqb maxrpm) rpms)))))
    | PropElectric => quiet (Ok (Some (VNum #1), Some (VNum #1)))
    | PropJet sl_thrustcorr =>
        quiet (Ok (Some (VArr (map (fun m => sl_thrustcorr m altitude_m) machs)), ones))
    | PropOther => quiet (Ok (ones, ones))
    | PropFalse => quiet (Ok (ones, ones))
    end;
  log tcorr <- unassigned_to WThrustMap (fst corr);
  log pcorr <- unassigned_to WPowerMap (snd corr);
  quiet (Ok (tcorr, pcorr)).

(* constraintanalysis.py:1144-1260 *)
Definition twrequired_clm_w (ext : externals) (c : concept) (wingloading_pa : val)
    (map2sl : bool) : logged val :=
  log spd <- quiet (required (climbspeed_kias c));
  let climbspeed_mpsias := kts2mps spd in
  log rate <- quiet (required (climbrate_fpm c));
  let climbrate_mps := fpm2mps rate in
  let alt := pval (climbalt_m c) in
  let wf := pval (climb_weight_fraction c) in
  let ws := recastasnpfloatarray wingloading_pa in
  log v <- quiet (tas_at c climbspeed_mpsias alt);
  log roc <- quiet (tas_at c climbrate_mps alt);
  log corr <- propulsion_slcorr_w ext c (VNum v) alt;
  log q <- quiet (q_at c v alt);
  log m <- quiet (mach_at c v alt);
  log f <- induceddragfact_lesm_w ext c (Some (VArr ws)) true (Some m);
  let k := snd f in
  let cos_sq_theta := #1 - (roc / v) ^ 2 in
  let tw w :=
    let wsclimb := w * wf in
    let cl := wsclimb / q in
    #1 * roc / v + (#1 / wsclimb) * q * pval (cdminclean c)
    + (k w (Some cl) / q) * wsclimb * cos_sq_theta in
  log tws <- quiet (corrected map2sl (VArr (map tw ws)) (fst corr));
  log r <- quiet (vlit (fun t => t * wf) tws);
  quiet (Ok (reverttoscalar r)).

(* constraintanalysis.py:1262-1316 *)
Definition twrequired_crs_w (ext : externals) (c : concept) (wingloading_pa : val)
    (map2sl : bool) : logged val :=
  log spd <- quiet (required (cruisespeed_ktas c));
  let v := kts2mps spd in
  log alt <- quiet (required (cruisealt_m c));
  log corr <- propulsion_slcorr_w ext c (VNum v) alt;
  let wf := pval (cruise_weight_fraction c) in
  let ws := recastasnpfloatarray wingloading_pa in
  log q <- quiet (q_at c v alt);
  log m <- quiet (mach_at c v alt);
  log f <- induceddragfact_lesm_w ext c (Some (VArr ws)) true (Some m);
  let k := snd f in
  let tw w :=
    let wscruise := w * wf in
    let cl := wscruise / q in
    (#1 / wscruise) * q * pval (cdminclean c) + (k w (Some cl) / q) * wscruise in
  log tws <- quiet (corrected map2sl (VArr (map tw ws)) (fst corr));
  log r <- quiet (vlit (fun t => t * wf * (#1 / pval (cruisethrustfact c))) tws);
  quiet (Ok (reverttoscalar r)).

(* constraintanalysis.py:1318-1380 *)
Definition twrequired_sec_w (ext : externals) (c : concept) (wingloading_pa : val)
    (map2sl : bool) : logged val :=
  log alt <- quiet (required (servceil_m c));
  log spd <- quiet (required (secclimbspd_kias c));
  log v <- quiet (tas_at c (kts2mps spd) alt);
  log corr <- propulsion_slcorr_w ext c (VNum v) alt;
  let wf := pval (sec_weight_fraction c) in
  let ws := recastasnpfloatarray wingloading_pa in
  log q <- quiet (q_at c v alt);
  log m <- quiet (mach_at c v alt);
  log f <- induceddragfact_lesm_w ext c (Some (VArr ws)) true (Some m);
  let k := snd f in
  log roc <- quiet (tas_at c (fpm2mps #100) alt);
  let tw w :=
    let wsservceil := w * wf in
    let cl := wsservceil / q in
    roc / v + (#1 / wsservceil) * q * pval (cdminclean c)
    + (k w (Some cl) / q) * wsservceil in
  log tws <- quiet (corrected map2sl (VArr (map tw ws)) (fst corr));
  log r <- quiet (vlit (fun t => t * wf) tws);
  quiet (Ok (reverttoscalar r)).

(* constraintanalysis.py:1429-1512 *)
Definition twrequired_to_w (ext : externals) (c : concept) (wingloading_pa : val)
    (map2sl : bool) : logged (val * val * val) :=
  log _ <- quiet (required (groundrun_m c));
  let ws := recastasnpfloatarray wingloading_pa in
  let alt := pval (rwyelevation_m c) in
  log d <- quiet (dens_at c alt);
  let pts := map (takeoff1 c d) ws in
  log tws <- lmapM (fun p : num * num =>
      let tw := map2static c * fst p in
      if map2sl then
        log corr <- propulsion_slcorr_w ext c (VNum (snd p)) alt;
        log t <- quiet (as1 (fst corr));
        quiet (Ok (tw / t))
      else quiet (Ok tw)) pts;
  let vlofs := map snd pts in
  quiet (Ok (reverttoscalar (VArr tws), reverttoscalar (VArr vlofs),
             reverttoscalar (VArr (map (fun v => v / nsqrt #2) vlofs)))).

(* constraintanalysis.py:1524-1541 *)
Definition thrusttoweight_sustainedturn_w (ext : externals) (c : concept) (ws : list num)
    : logged (list num * list num) :=
  let cdmin := pval (cdminclean c) in
  let nturn := pval (stloadfactor c) in
  let alt := pval (turnalt_m c) in
  let v := kts2mps (pval (turnspeed_ktas c)) in
  log m <- quiet (mach_at c v alt);
  let wsclimb w := w * pval (climb_weight_fraction c) in
  log q <- quiet (q_at c v alt);
  let cl w := wsclimb w * nturn / q in
  log f <- induceddragfact_lesm_w ext c (Some (VArr ws)) true (Some m);
  let k := snd f in
  quiet (Ok (map (fun w => q * (cdmin / w + k w (Some (cl w)) * ((nturn / q) ^ 2) * wsclimb w)) ws,
             map cl ws)).

(* constraintanalysis.py:1543-1665 *)
Definition twrequired_trn_w (ext : externals) (c : concept) (wingloading_pa : val)
    (map2sl : bool) : logged (val * val * val) :=
  log _ <- quiet (required (turnspeed_ktas c));
  log _ <- quiet (required (stloadfactor c));
  let ws := recastasnpfloatarray wingloading_pa in
  let wf := pval (turn_weight_fraction c) in
  log r <- thrusttoweight_sustainedturn_w ext c (map (fun w => w * wf) ws);
  let v := kts2mps (pval (turnspeed_ktas c)) in
  log corr <- propulsion_slcorr_w ext c (VNum v) (pval (turnalt_m c));
  log tws <- quiet (corrected map2sl (VArr (fst r)) (fst corr));
  log tw <- quiet (vlit (fun t => t * wf) tws);
  let cls := snd r in
  let feas := map (fun p => feasible c (fst p) (snd p)) (combine (recastasnpfloatarray tw) cls) in
  quiet (Ok (reverttoscalar tw, reverttoscalar (VArr cls), reverttoscalar (VArr feas))).

(* constraintanalysis.py:1667-1730 *)
Definition twrequired_w (ext : externals) (c : concept) (wingloading_pa : val)
    (feasibleonly map2sl : bool) : logged requirement :=
  let ws := VArr (recastasnpfloatarray wingloading_pa) in
  log t <- twrequired_to_w ext c ws map2sl;
  let '(tw_to, vlof, vav) := t in
  log u <- twrequired_trn_w ext c ws map2sl;
  let '(tw_trn, cl, feas) := u in
  log tw_clm <- twrequired_clm_w ext c ws map2sl;
  log tw_crs <- twrequired_crs_w ext c ws map2sl;
  log tw_sec <- twrequired_sec_w ext c ws map2sl;
  log comb <- quiet (npmax5 tw_to (if feasibleonly then feas else tw_trn) tw_clm tw_crs tw_sec);
  quiet (Ok {| rq_takeoff := tw_to; rq_liftoffspeed := vlof; rq_avspeed := vav;
               rq_turn := tw_trn; rq_turnfeasible := feas; rq_turncl := cl;
               rq_climb := tw_clm; rq_cruise := tw_crs; rq_servceil := tw_sec;
               rq_combined := comb |}).

(** np.all(np.isnan(v)); infinities count as nan, see Base *)
Definition all_nan (v : val) : bool :=
  forallb (fun x => match x with Fin _ => false | NonFin => true end) (recastasnpfloatarray v).
(** the mapping of powerrequired: [_, pcorr = self._propulsion_slcorr(...)] if map2sl *)
Definition pcorr_w (ext : externals) (c : concept) (map2sl : bool) (speed : val) (alt : num) : logged val :=
  if map2sl then log r <- propulsion_slcorr_w ext c speed alt; quiet (Ok (snd r)) else quiet (Ok (VNum #1)).
(* constraintanalysis.py:1732-1833; [etadefaultflag] is the attribute counted by __init__.
   Line 1771 looks at the power to weight ratios, before the conversion to horsepower. *)
Definition powerrequired_w (ext : externals) (c : concept) (etadefaultflag : nat)
    (wingloading_pa : val) (tow_kg : num) (feasibleonly map2sl : bool) : logged requirement :=
  log _ <- (if Nat.ltb 0 etadefaultflag then warn (WEtas etadefaultflag) else quiet (Ok tt));
  log tw <- twrequired_w ext c wingloading_pa feasibleonly false;
  log p_to0 <- quiet (power_hp tow_kg (pval (etaprop_to c)) (rq_takeoff tw) (rq_liftoffspeed tw));
  log pcorr <- pcorr_w ext c map2sl (rq_liftoffspeed tw) (pval (rwyelevation_m c));
  log p_to <- quiet (corrected map2sl p_to0 pcorr);
  let trnspeed := VNum (kts2mps (pval (turnspeed_ktas c))) in
  log pw_feas <- quiet (vop2 (fun t v => tw2pw t v (pval (etaprop_turn c))) (rq_turnfeasible tw) trnspeed);
  log _ <- (if all_nan pw_feas then warn WTurns else quiet (Ok tt));
  log p_feas0 <- quiet (power_hp tow_kg (pval (etaprop_turn c)) (rq_turnfeasible tw) trnspeed);
  log p_trn0 <- quiet (power_hp tow_kg (pval (etaprop_turn c)) (rq_turn tw) trnspeed);
  log pcorr <- pcorr_w ext c map2sl trnspeed (pval (turnalt_m c));
  log p_feas <- quiet (corrected map2sl p_feas0 pcorr);
  log p_trn <- quiet (corrected map2sl p_trn0 pcorr);
  log clmspeed <- quiet (tas_at c (pval (climbspeed_kias c)) (pval (climbalt_m c)));
  let clmspeed := VNum (kts2mps clmspeed) in
  log p_clm0 <- quiet (power_hp tow_kg (pval (etaprop_climb c)) (rq_climb tw) clmspeed);
  log pcorr <- pcorr_w ext c map2sl clmspeed (pval (climbalt_m c));
  log p_clm <- quiet (corrected map2sl p_clm0 pcorr);
  let crsspeed := VNum (kts2mps (pval (cruisespeed_ktas c))) in
  log p_crs0 <- quiet (power_hp tow_kg (pval (etaprop_cruise c)) (rq_cruise tw) crsspeed);
  log pcorr <- pcorr_w ext c map2sl crsspeed (pval (cruisealt_m c));
  log p_crs <- quiet (corrected map2sl p_crs0 pcorr);
  log secspeed <- quiet (tas_at c (pval (secclimbspd_kias c)) (pval (servceil_m c)));
  let secspeed := VNum (kts2mps secspeed) in
  log p_sec0 <- quiet (power_hp tow_kg (pval (etaprop_sec c)) (rq_servceil tw) secspeed);
  log pcorr <- pcorr_w ext c map2sl secspeed (pval (servceil_m c));
  log p_sec <- quiet (corrected map2sl p_sec0 pcorr);
  log comb <- quiet (npmax5 p_to (if feasibleonly then p_feas else p_trn) p_clm p_crs p_sec);
  quiet (Ok {| rq_takeoff := p_to; rq_liftoffspeed := rq_liftoffspeed tw; rq_avspeed := rq_avspeed tw;
               rq_turn := p_trn; rq_turnfeasible := p_feas; rq_turncl := rq_turncl tw;
               rq_climb := p_clm; rq_cruise := p_crs; rq_servceil := p_sec; rq_combined := comb |}).

(* ------------------------------------------------------------------------ *)
(** * The options of propulsionsensitivity_monothetic *)

(** the y_lim argument: None, an int or a float, or anything else with its truth value *)
Inductive limarg := LimNone | LimNum (x : num) | LimOther (truth : bool).
(** the figsize_in argument: None, a list, a tuple, or anything else *)
Inductive figarg := FigNone | FigList (l : list num) | FigTuple (l : list num) | FigOther.

(** the options after line 1987: an axis of a name (None: no string) that is not supported
    is the default one *)
Record plot_options := {
  po_y : yvar; po_ylim : limarg; po_x : xvar; po_labels : dict string;
  po_textsize : num; po_figsize : figarg }.

(* constraintanalysis.py:1949-1953 *)
Definition y_var_used (y_var : option string) : list warning * yvar :=
  match y_var with
  | Some s => if String.eqb s "tw" then ([], Ytw)
              else if String.eqb s "p_hp" then ([], Yhp) else ([WYvar], Ytw)
  | None => ([WYvar], Ytw)
  end.
(* constraintanalysis.py:1955-1961; a number is false when it is zero *)
Definition y_lim_used (y_lim : limarg) : list warning * limarg :=
  match y_lim with
  | LimOther true => ([WYlim], LimNone)
  | l => ([], l)
  end.
(* constraintanalysis.py:1963-1967 *)
Definition x_var_used (x_var : option string) : list warning * xvar :=
  match x_var with
  | Some s => if String.eqb s "ws_pa" then ([], Xws)
              else if String.eqb s "s_m2" then ([], Xarea) else ([WXvar], Xws)
  | None => ([WXvar], Xws)
  end.
(* constraintanalysis.py:1973-1977 *)
Definition textsize_used (textsize : option num) (show : showarg) : num :=
  match textsize with
  | Some t => t
  | None => match show with ShowAll => #10 | _ => #14 end
  end.
(* constraintanalysis.py:1979-1987 *)
Definition default_figsize_in : list num := [#14.1; #10].
Definition figsize_in_used (figsize_in : figarg) : list warning * figarg :=
  match figsize_in with
  | FigNone => ([], FigList default_figsize_in)
  | FigList l => if Nat.eqb (List.length l) 2 then ([], FigList l)
                 else ([WFigure (List.length l)], FigList default_figsize_in)
  | f => ([], f)
  end.
(* constraintanalysis.py:1949-1987; customlabels None: {} (1969-1971) *)
Definition monothetic_options (y_var : option string) (y_lim : limarg) (x_var : option string)
    (customlabels : option (dict string)) (show : showarg) (textsize : option num) (figsize_in : figarg)
    : list warning * plot_options :=
  let y := y_var_used y_var in
  let l := y_lim_used y_lim in
  let x := x_var_used x_var in
  let f := figsize_in_used figsize_in in
  ((fst y ++ fst l ++ fst x ++ fst f)%list,
   {| po_y := snd y; po_ylim := snd l; po_x := snd x;
      po_labels := match customlabels with Some d => d | None => [] end;
      po_textsize := textsize_used textsize show; po_figsize := snd f |}).

(* constraintanalysis.py:2038-2043 y_labelling, 2045-2050 x_labelling *)
Definition y_labelling (y : yvar) : string :=
  match y with Yhp => "Power required [hp]" | Ytw => "Thrust to weight ratio [-]" end.
Definition x_labelling (x : xvar) : string :=
  match x with Xarea => "Wing area [m$^2$]" | Xws => "Wing loading [Pa]" end.
(* constraintanalysis.py:2126-2129: sizes of the title, the axis labels, the legend and the
   ticks *)
Definition fontsizes (o : plot_options) : num * num * num * num :=
  let t := po_textsize o in (#1.20 * t, #1.05 * t, #1.00 * t, #0.90 * t).
(* constraintanalysis.py:2106-2113: y_lim where matplotlib is given a number; anything else
   than a number or None is handed to matplotlib as it is, which is not modelled *)
Definition lim_number (l : limarg) : res (option num) :=
  match l with LimNone => Ok None | LimNum x => Ok (Some x) | LimOther _ => Err TypeError end.

(* constraintanalysis.py:1835-2301: the options, then the diagrams.  The warnings are those
   of the options; those of the analysis behind the diagrams are in [twrequired_w] and
   [powerrequired_w]. *)
Definition monothetic_with_options (ext : externals) (self : constructed) (wingloading_pa : val)
    (y_var : option string) (y_lim : limarg) (x_var : option string)
    (customlabels : option (dict string)) (show : showarg) (maskbool : bool)
    (textsize : option num) (figsize_in : figarg) : logged (list diagram) :=
  let '(w, o) := monothetic_options y_var y_lim x_var customlabels show textsize figsize_in in
  (w, do lim <- lim_number (po_ylim o);
      propulsionsensitivity_monothetic ext self wingloading_pa (po_y o) lim (po_x o)
        (po_labels o) show maskbool).
