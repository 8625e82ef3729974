(** ADRpy/constraintanalysis.py, the methods of AircraftConcept (lines 512-1833 and
    2303-2443) and the functions _wig, tw2pw (2446-2521).  Definitions only; every
    definition cites the lines it models.  Warnings are in WarningsModel.  Python's
    ZeroDivisionError and complex powers of plain floats appear as [NonFin] (see Base). *)
From Verif Require Import Base UnitsModel AtmosModel ConceptModel.
Open Scope num_scope.

(** What the repository takes from elsewhere: scipy's cubic interp1d through a table
    of points, and the TPE331 spline of atmospheres.py:963-990 turbopropthrustfactor
    (density ratio, Mach number). *)
Record externals := {
  cubic : list (num * num) -> num -> res num;
  tpspline : num -> num -> num }.

(** an array or number used where one truth value or one float is needed *)
Definition as1 (v : val) : res num :=
  match v with
  | VNum x => Ok x
  | VArr [x] => Ok x
  | VList [x] => Ok x
  | _ => Err ValueError
  end.
(** [if self.x is False: raise ValueError] *)
Definition required (p : param) : res num :=
  match p with Some x => Ok x | None => Err ValueError end.
(** queries of the design atmosphere for one speed and one altitude *)
Definition dens_at (c : concept) (alt : num) : res num :=
  do d <- airdens_kgpm3 (designatm c) (VNum alt); as1 d.
Definition tas_at (c : concept) (eas alt : num) : res num :=
  do v <- eas2tas_at (designatm c) (VNum eas) (VNum alt); as1 v.
Definition q_at (c : concept) (tas alt : num) : res num :=
  do q <- dynamicpressure_pa (designatm c) tas (VNum alt); as1 q.
Definition mach_at (c : concept) (tas alt : num) : res num :=
  do m <- mach (designatm c) (VNum tas) (VNum alt); as1 m.
(** np.interp(x, [x0, x1], [y0, y1]) for x0 < x1: constant outside *)
Definition npinterp2 (x x0 x1 y0 y1 : num) : num :=
  match x with
  | NonFin => NonFin
  | _ => if x <=? x0 then y0 else if x1 <=? x then y1
         else y0 + (y1 - y0) / (x1 - x0) * (x - x0)
  end.
(** math.acos *)
Definition macos (x : num) : res num :=
  match x with
  | Fin a => if (Rltb a (-1) || Rltb 1 a)%bool then Err ValueError else Ok (Fin (acos a))
  | NonFin => Ok NonFin
  end.
Definition nmax : num -> num -> num := lift2 (fun a b => Fin (Rmax a b)).
Definition nsum (l : list num) : num := fold_left nadd l #0.
(** sum(l) / len(l) *)
Definition average_of (l : list num) : num := nsum l / Fin (INR (List.length l)).

(* ------------------------------------------------------------------------ *)
(** * Wing geometry and span efficiency *)

(* constraintanalysis.py:480-487: angles in radians, and aspectratio *)
Definition ar (c : concept) : num := pval (aspectratio c).
Definition sweep_le_rad (c : concept) : num := ndeg2rad (pval (sweep_le_deg c)).
Definition sweep_25_rad (c : concept) : num := ndeg2rad (pval (sweep_25_deg c)).
Definition sweep_mt_rad (c : concept) : num := ndeg2rad (pval (sweep_mt_deg c)).

(* constraintanalysis.py:512-514 *)
Definition oswaldspaneff1 (c : concept) : num :=
  #1.78 * (#1 - #0.045 * (ar c ** #0.68)) - #0.64.
(* constraintanalysis.py:516-519 *)
Definition oswaldspaneff2 (c : concept) : res num :=
  do sqrtterm <- msqrt (#4 + (ar c ^ 2) * (#1 + (ntan (sweep_mt_rad c) ^ 2)));
  Ok (#2 / (#2 - ar c + sqrtterm)).
(* constraintanalysis.py:521-523 *)
Definition oswaldspaneff3 (c : concept) : num :=
  #4.61 * (#1 - #0.045 * (ar c ** #0.68)) * (ncos (sweep_le_rad c) ** #0.15) - #3.1.
(* constraintanalysis.py:525-585; mach_inf given (None becomes 0.3 at line 547) *)
Definition oswaldspaneff4 (c : concept) (mach_inf : num) : num :=
  let dtaperratio := #(-0.357) + #0.45 * nexp (#(-0.0375) * pval (sweep_25_deg c)) in
  let tapercorr := pval (roottaperratio c) - dtaperratio in
  let k_liftind := #0.0524 * (tapercorr ^ 4) - #0.15 * (tapercorr ^ 3)
                   + #0.1659 * (tapercorr ^ 2) - #0.0706 * tapercorr + #0.0119 in
  let e_theo := #1 / (#1 + k_liftind * ar c) in
  let ke_fuse := #1 - #2 * (#0.114 ^ 2) in
  let ke_d0 := #0.85 in
  let ke_mach := if #0.3 <? mach_inf
                 then #(-0.001521) * (((mach_inf / #0.3) - #1) ** #10.82) + #1
                 else #1 in
  let oswaldeff := e_theo * ke_fuse * ke_d0 * ke_mach in
  if oswaldeff <? #1e-3 then #1e-3 else oswaldeff.

(** str(n) of an int as the list of its digits: [int('-')] raises ValueError *)
Fixpoint digits_fuel (fuel : nat) (n : N) : list N :=
  match fuel with
  | O => []
  | S f => if N.ltb n 10 then [n] else digits_fuel f (N.div n 10) ++ [N.modulo n 10]
  end.
Definition digits_of (z : Z) : res (list N) :=
  if Z.ltb z 0 then Err ValueError
  else Ok (digits_fuel (S (N.size_nat (Z.to_N z))) (Z.to_N z)).
(** the whichoswald argument: an int ([type(x) == int]; neither bool nor a numpy
    integer) or anything else *)
Inductive selector := SelInt (z : Z) | SelOther.

(* constraintanalysis.py:611-630: oswaldeff_list *)
Definition oswaldeff_list (c : concept) (whichoswald : selector) (mach_inf : option num)
    : res (list num) :=
  match whichoswald with
  | SelInt z =>
      do sel <- digits_of z;
      let has n := existsb (N.eqb n) sel in
      do e2 <- (if has 2%N then do e <- oswaldspaneff2 c; Ok [e] else Ok []);
      Ok ((if has 1%N then [oswaldspaneff1 c] else [])
          ++ e2
          ++ (if has 3%N then [oswaldspaneff3 c] else [])
          ++ (if has 4%N then
                [oswaldspaneff4 c (match mach_inf with Some m => m | None => #0.3 end)]
              else []))%list
  | SelOther => Ok []
  end.

(* constraintanalysis.py:587-640 *)
Definition induceddragfact (c : concept) (whichoswald : selector) (mach_inf : option num) : res num :=
  do l <- oswaldeff_list c whichoswald mach_inf;
  do oswaldeff <-
    match l with
    | [] => do e2 <- oswaldspaneff2 c; Ok (#0.5 * (e2 + oswaldspaneff4 c #0.3))
    | _ => Ok (average_of l)
    end;
  Ok (#1 / (#PI * ar c * oswaldeff)).

(* constraintanalysis.py:642-673 *)
Definition findchordsweep_rad (c : concept) (xc : option num) : res num :=
  match xc with
  | None => Err ValueError
  | Some x =>
      if negb ((#0 <=? x) && (x <=? #1))%bool then Err ValueError
      else
        let sweep_roc := (sweep_le_rad c - sweep_25_rad c) / #(-0.25) in
        Ok (sweep_le_rad c + sweep_roc * x)
  end.

(* ------------------------------------------------------------------------ *)
(** * Lift curve slope *)

(* constraintanalysis.py:722-779 a_subsonic *)
Definition a_subsonic (c : concept) (machsub : num) : res num :=
  let aspectr := ar c in
  let a0 := pval (a_0i c) in
  let piar := #PI * aspectr in
  do oswald <- oswaldspaneff2 c;
  do beta_00 <- msqrt (#1 - machsub ^ 2);
  do beta_le <- msqrt (#1 - (machsub * ncos (sweep_le_rad c)) ^ 2);
  let sqrt_term := #1 + ((piar / a0 / ncos (sweep_25_rad c)) ^ 2) * (beta_00 ^ 2) in
  do r0 <- msqrt sqrt_term;
  let a_m0 := piar / (#1 + r0) in
  let a_m3 := a0 / (beta_00 + a0 / piar / oswald) in
  do r4 <- msqrt (beta_00 ^ 2 + (a0 / piar) ^ 2);
  let a_m4 := a0 / (r4 + a0 / piar) in
  let a_0_le := a0 * ncos (sweep_le_rad c) in
  do r5 <- msqrt (beta_le ^ 2 + (a_0_le / piar) ^ 2);
  let a_m5 := a_0_le / (r5 + a_0_le / piar) in
  do sweep_50_rad <- findchordsweep_rad c (Some #0.5);
  let kappa := a0 / (#2 * #PI) in
  do r6 <- msqrt (((aspectr * beta_00 / kappa) ^ 2)
                  * (#1 + (ntan sweep_50_rad / beta_00) ^ 2) + #4);
  let a_m6 := (#2 * piar) / (#2 + r6) in
  let a_0c := a0 / beta_00 in
  let a_0_50 := a_0c * ncos sweep_50_rad in
  let sweep_eff := sweep_50_rad / ((#1 + (a_0_50 / piar) ^ 2) ** #0.25) in
  let a_0eff := a_0c * ncos sweep_eff in
  let powerterm := #1 / (#4 * (#1 + nabs sweep_eff / (#0.5 * #PI))) in
  let n_s := #1 - #1 / (#2 * ((#1 + (a_0eff / piar) ^ 2) ** powerterm)) in
  let a_m7 := (#2 * a_0eff * n_s)
              / (#1 - (#PI * n_s) * (#1 / ntan (#PI * n_s))
                 + (#4 * a_0eff * n_s ^ 2) / piar) in
  do r8 <- msqrt (#4 + aspectr ^ 2 + (a_0c / #PI) ^ 2);
  let a_m8 := (a_0c * aspectr) / (r8 + a_0c / #PI) in
  Ok (average_of [a_m0; a_m3; a_m4; a_m5; a_m6; a_m7; a_m8]).

(* constraintanalysis.py:781-812 a_supersonic *)
Definition a_supersonic (c : concept) (machsuper : num) : res num :=
  let aspectr := ar c in
  let le := sweep_le_rad c in
  do beta_00 <- msqrt (machsuper ^ 2 - #1);
  do delta <-
    (if negb (neqb le #0) then
       do sweep_shock_rad <- (if machsuper <? #1 then Ok #0 else macos (#1 / machsuper));
       let m := ntan sweep_shock_rad / ntan le in
       Ok [ if ((#0 <=? m) && (m <=? #1))%bool then
              let lambda_polynomial := m * (#0.38 + #2.26 * m - #0.86 * (m ^ 2)) in
              (#2 * (#PI ^ 2) * (#1 / ntan le)) / (#PI + lambda_polynomial)
            else #4 / beta_00 ]
     else Ok []);
  let a_m3 := #4 / beta_00 in
  let a_m4 := #4 / beta_00 * (#1 - #1 / #2 / aspectr / beta_00) in
  Ok (average_of (delta ++ [a_m3; a_m4])%list).

(* constraintanalysis.py:826-855 slopepeak_mach: 200 points of a quadratic fit *)
Definition fit_ar (i : nat) : num := #(1.5 * INR i / 199) / (#0.05 ** #(1 / 3)).
Definition fit_mach (i : nat) : num :=
  let x := #(1.5 * INR i / 199) in
  let y := #3.2784414 * (x ^ 2) + #(-9.73119668) * x + #6.0546588 in
  (y * (#0.05 ** #(2 / 3)) + #1) ** #0.5.
Definition nmin (x y : num) : num := if y <? x then y else x.
Definition slopepeak_mach (aspectratio : num) : num :=
  match find (fun i => aspectratio <=? fit_ar i) (seq 0 200) with
  | Some i => fit_mach i
  | None => fold_left nmin (map fit_mach (seq 1 199)) (fit_mach 0)
  end.

(* constraintanalysis.py:857-882: the table given to interp1d *)
Definition transonic_table (c : concept) : res (list (num * num)) :=
  let mach_apk := slopepeak_mach (ar c) in
  let cla_son := (#PI / #2) * ar c in
  do s0 <- a_subsonic c #0.6;
  do s1 <- a_subsonic c (#0.6 + #3e-2);
  do p0 <- a_supersonic c (#1.4 - #3e-2);
  do p1 <- a_supersonic c #1.4;
  Ok [ (#0.6, s0); (#0.6 + #3e-2, s1);
       (mach_apk - #2 * #3e-2, #0.95 * cla_son); (mach_apk + #2 * #3e-2, #0.95 * cla_son);
       (#1.4 - #3e-2, p0); (#1.4, p1) ].

(* constraintanalysis.py:814-905 *)
Definition liftslope_prad (ext : externals) (c : concept) (mach_inf : num) : res num :=
  do _ <- oswaldspaneff2 c;                                 (* line 709 *)
  if mach_inf <? #0.6 then a_subsonic c mach_inf
  else if #1.4 <? mach_inf then a_supersonic c mach_inf
  else
    do tab <- transonic_table c;
    do a_transonic <- cubic ext tab mach_inf;
    let weight_sub := if mach_inf <? #1 then npinterp2 mach_inf #0.6 #0.8 #1 #0 else #0 in
    let weight_sup := if mach_inf <? #1 then #0 else npinterp2 mach_inf #1.3 #1.4 #0 #1 in
    let part1 := if ((#0.6 <? mach_inf) && (mach_inf <? #1.4))%bool
                 then (#1 - weight_sub - weight_sup) * a_transonic else #0 in
    if mach_inf <? #0.8 then
      do s <- a_subsonic c mach_inf; Ok (part1 + weight_sub * s)
    else if #1.3 <? mach_inf then
      do s <- a_supersonic c mach_inf; Ok (part1 + weight_sup * s)
    else Ok part1.

(* ------------------------------------------------------------------------ *)
(** * Induced drag from the leading edge suction method *)

(* constraintanalysis.py:963-977: np.linalg.solve of
     [x1^2 x1 1; x2^2 x2 1; 2*x1 1 0] * (A, B, C) = (y1, y2, 0)
   written as the solution for x1 = 1 (the only solution when x2 <> 1). *)
Definition solve_quadratic (x2 y1 y2 : num) : num * num * num :=
  let a := (y2 - y1) / ((x2 - #1) ^ 2) in
  (a, #(-2) * a, y1 + a).

(* constraintanalysis.py:956-986: the full suction factor k_100 *)
Definition k_full_suction (ext : externals) (c : concept) (mach_inf machstar_le k_0 : num)
    : res num :=
  if mach_inf <? #1 then Ok (#1 / (#PI * ar c))
  else if mach_inf <? machstar_le then
    do a2 <- liftslope_prad ext c machstar_le;
    let y1 := #1 / (#PI * ar c) in
    let y2 := #1 / a2 in
    let '(ca, cb, cc) := solve_quadratic machstar_le y1 y2 in
    Ok (ca * (mach_inf ^ 2) + cb * (mach_inf ^ 1) + cc * (mach_inf ^ 0))
  else Ok k_0.

(* constraintanalysis.py:992-999 y_suction *)
Definition y_suction (cl_delta cl_crs a c r : num) : num :=
  let k := (#(-0.5) * (cl_crs ^ 2)) - (#0.25 * cl_crs) - #0.22 in
  let b := #1 + r * k in
  a * (cl_delta - b) * nexp (- c * (cl_delta - #0.1)) * - ntan (#0.1 * (cl_delta - k)).

(* constraintanalysis.py:935-1018 for a Mach number of size one and wing loadings
   given as an array: the result is a function of one wing loading and of the lift
   coefficient that goes with it (None: the caller gave no cl_real). *)
Definition lesm (ext : externals) (c : concept) (mach_inf : num)
    : res (num -> option num -> num) :=
  do cl_cruise <-
    match cruisespeed_ktas c, cruisealt_m c with
    | Some v, Some h =>
        do qcruise <- q_at c (kts2mps v) h;
        Ok (fun w => w * pval (cruise_weight_fraction c) / qcruise)
    | _, _ => Ok (fun _ => #0.6)
    end;
  let machstar_le := #1 / ncos (sweep_le_rad c) in
  do k_oswald <- induceddragfact c (SelInt 24) (Some (nmin mach_inf #0.6));
  do a <- liftslope_prad ext c mach_inf;
  let k_0 := #1 / a in
  do k_100 <- k_full_suction ext c mach_inf machstar_le k_0;
  let weight := npinterp2 mach_inf #0 machstar_le #1 #0 ** #0.2 in
  Ok (fun w cl_real =>
        let clc := cl_cruise w in
        let cl_diff := match cl_real with Some cl => cl - clc | None => #0 end in
        let y_03 := y_suction cl_diff #0.3 #22.5 #1.95 #0 in
        let y_08 := y_suction cl_diff #0.8 #5.77 #1 #(-1.29) in
        let wcl := npinterp2 clc #0.3 #0.8 #1 #0 in
        let suctionfactor := wcl * y_03 + (#1 - wcl) * y_08 in
        let k_suction := suctionfactor * k_100 + (#1 - suctionfactor) * k_0 in
        k_oswald * weight + k_suction * (#1 - weight)).

(* constraintanalysis.py:921-935: the public method, without cl_real.  Simplification:
   without a cruise point Python returns one number (cl_cruise is then not an
   array), here it is repeated for every wing loading. *)
Definition induceddragfact_lesm (ext : externals) (c : concept) (wingloading_pa : option val)
    (mach_inf : option num) : res (list num) :=
  do ws <-
    match wingloading_pa with
    | Some v => Ok (recastasnpfloatarray v)
    | None =>
        do w <- required (weight_n c);
        do s <- required (wingarea_m2 c);
        Ok [w / s]
    end;
  do k <- lesm ext c (match mach_inf with Some m => m | None => #0.3 end);
  Ok (map (fun w => k w None) ws).

(* ------------------------------------------------------------------------ *)
(** * Sea level corrections *)

(* constraintanalysis.py:1038-1061 *)
Definition sl_propulsion (c : concept) : res propulsion_t :=
  match propulsion c with
  | PropFalse =>
      let b := pval (bpr c) in
      if #0 <=? b then Ok (PropStr "jet")
      else if neqb b #(-1) then Ok (PropStr "piston")
      else if neqb b #(-2) then Ok (PropStr "turboprop")
      else if neqb b #(-3) then Ok (PropStr "electric")
      else if ((#(-3) <=? b) && (b <? #0))%bool then Ok PropFalse
      else Err ValueError
  | p => Ok p
  end.

(* constraintanalysis.py:1075-1108: one iteration of the loop over Mach numbers *)
Definition generic_tcorr (ext : externals) (c : concept) (s : string)
    (temp_c pressure_pa density_kgpm3 m : num) : res num :=
  if String.eqb s "turboprop" then
    Ok (tpspline ext (density_kgpm3 / #1.2249998682209657) m)
  else if String.eqb s "piston" then Ok (pistonpowerfactor density_kgpm3)
  else if String.eqb s "electric" then Ok #1
  else if String.eqb s "jet" then
    let b := pval (bpr c) in
    let tr := pval (throttle_r c) in
    if neqb b #0 then Ok (turbojetthrustfactor temp_c pressure_pa m tr false)
    else if ((#0 <? b) && (b <? #5))%bool then
      Ok (turbofanthrustfactor temp_c pressure_pa m tr lowbpr)
    else if #5 <=? b then Ok (turbofanthrustfactor temp_c pressure_pa m tr highbpr)
    else Err ValueError
  else Ok #1.

(* constraintanalysis.py:1035-1142: (tcorr, pcorr).  A deck's corrections are taken
   element by element. *)
Definition propulsion_slcorr (ext : externals) (c : concept) (airspeed_mpstas : val)
    (altitude_m : num) : res (val * val) :=
  do p <- sl_propulsion c;
  do machv <- mach (designatm c) airspeed_mpstas (VNum altitude_m);
  let machs := recastasnpfloatarray machv in
  let ones := VArr (map (fun _ => #1) machs) in
  match p with
  | PropStr s =>
      do tv <- airtemp_c (designatm c) (VNum altitude_m); do temp_c <- as1 tv;
      do pv <- airpress_pa (designatm c) (VNum altitude_m); do pressure_pa <- as1 pv;
      do density <- dens_at c altitude_m;
      do tcorr <- mapM (generic_tcorr ext c s temp_c pressure_pa density) machs;
      Ok (VArr tcorr, ones)
  | PropTurboprop sl_powercorr => Ok (ones, VArr (map (fun m => sl_powercorr m altitude_m) machs))
  | PropPiston rpms _ sl_powercorr =>
      do maxrpm <- pymax rpms;
      Ok (ones, VArr (map (fun r => sl_powercorr (Fin r) altitude_m) (filter (Reqb maxrpm) rpms)))
  | PropElectric => Ok (VNum #1, VNum #1)
  | PropJet sl_thrustcorr => Ok (VArr (map (fun m => sl_thrustcorr m altitude_m) machs), ones)
  | PropOther => Ok (ones, ones)
  | PropFalse => Ok (ones, ones)
  end.

(** [x / tcorr] if map2sl *)
Definition corrected (map2sl : bool) (x corr : val) : res val :=
  if map2sl then vop2 ndiv x corr else Ok x.

(* ------------------------------------------------------------------------ *)
(** * The constraints *)

(* constraintanalysis.py:1020-1033 *)
Definition bestclimbspeedprop (c : concept) (wingloading_pa : val) (altitude_m : num) : res val :=
  let ws := recastasnpfloatarray wingloading_pa in
  do k <- induceddragfact c SelOther None;
  let dragfactor := nsqrt (k / (#3 * pval (cdminclean c))) in
  do d <- dens_at c altitude_m;
  let densfactor := #2 / d in
  Ok (reverttoscalar (VArr (map (fun w => nsqrt (densfactor * w * dragfactor)) ws))).

(* constraintanalysis.py:1144-1260 *)
Definition twrequired_clm (ext : externals) (c : concept) (wingloading_pa : val)
    (map2sl : bool) : res val :=
  do spd <- required (climbspeed_kias c);
  let climbspeed_mpsias := kts2mps spd in
  do rate <- required (climbrate_fpm c);
  let climbrate_mps := fpm2mps rate in
  let alt := pval (climbalt_m c) in
  let wf := pval (climb_weight_fraction c) in
  let ws := recastasnpfloatarray wingloading_pa in
  do v <- tas_at c climbspeed_mpsias alt;
  do roc <- tas_at c climbrate_mps alt;
  do corr <- propulsion_slcorr ext c (VNum v) alt;
  do q <- q_at c v alt;
  do m <- mach_at c v alt;
  do k <- lesm ext c m;
  let cos_sq_theta := #1 - (roc / v) ^ 2 in
  let tw w :=
    let wsclimb := w * wf in
    let cl := wsclimb / q in
    #1 * roc / v + (#1 / wsclimb) * q * pval (cdminclean c)
    + (k w (Some cl) / q) * wsclimb * cos_sq_theta in
  do tws <- corrected map2sl (VArr (map tw ws)) (fst corr);
  do r <- vlit (fun t => t * wf) tws;
  Ok (reverttoscalar r).

(* constraintanalysis.py:1262-1316 *)
Definition twrequired_crs (ext : externals) (c : concept) (wingloading_pa : val)
    (map2sl : bool) : res val :=
  do spd <- required (cruisespeed_ktas c);
  let v := kts2mps spd in
  do alt <- required (cruisealt_m c);
  do corr <- propulsion_slcorr ext c (VNum v) alt;
  let wf := pval (cruise_weight_fraction c) in
  let ws := recastasnpfloatarray wingloading_pa in
  do q <- q_at c v alt;
  do m <- mach_at c v alt;
  do k <- lesm ext c m;
  let tw w :=
    let wscruise := w * wf in
    let cl := wscruise / q in
    (#1 / wscruise) * q * pval (cdminclean c) + (k w (Some cl) / q) * wscruise in
  do tws <- corrected map2sl (VArr (map tw ws)) (fst corr);
  do r <- vlit (fun t => t * wf * (#1 / pval (cruisethrustfact c))) tws;
  Ok (reverttoscalar r).

(* constraintanalysis.py:1318-1380 *)
Definition twrequired_sec (ext : externals) (c : concept) (wingloading_pa : val)
    (map2sl : bool) : res val :=
  do alt <- required (servceil_m c);
  do spd <- required (secclimbspd_kias c);
  do v <- tas_at c (kts2mps spd) alt;
  do corr <- propulsion_slcorr ext c (VNum v) alt;
  let wf := pval (sec_weight_fraction c) in
  let ws := recastasnpfloatarray wingloading_pa in
  do q <- q_at c v alt;
  do m <- mach_at c v alt;
  do k <- lesm ext c m;
  do roc <- tas_at c (fpm2mps #100) alt;
  let tw w :=
    let wsservceil := w * wf in
    let cl := wsservceil / q in
    roc / v + (#1 / wsservceil) * q * pval (cdminclean c)
    + (k w (Some cl) / q) * wsservceil in
  do tws <- corrected map2sl (VArr (map tw ws)) (fst corr);
  do r <- vlit (fun t => t * wf) tws;
  Ok (reverttoscalar r).

(* constraintanalysis.py:1382-1427: (thrust to weight ratio, lift-off speed) for one
   wing loading, given the density at the runway *)
Definition takeoff1 (c : concept) (density wingloading_pa : num) : num * num :=
  let vs1to := nsqrt ((#2 * wingloading_pa) / (density * pval (clmaxto c))) in
  let vlof := #1.1 * vs1to in
  ((vlof ^ 2) / (#2 * sc_g * pval (groundrun_m c))
   + #0.5 * pval (cdto c) / pval (clto c) + #0.5 * pval (mu_r c), vlof).

(* constraintanalysis.py:2381-2388 *)
Definition map2static (c : concept) : num :=
  let b := pval (bpr c) in
  if #1 <? b then (#4 / #3) * (#4 + b) / (#5 + b) else #1.

(* constraintanalysis.py:1429-1512: (T/W, lift-off speed, average speed) *)
Definition twrequired_to (ext : externals) (c : concept) (wingloading_pa : val)
    (map2sl : bool) : res (val * val * val) :=
  do _ <- required (groundrun_m c);
  let ws := recastasnpfloatarray wingloading_pa in
  let alt := pval (rwyelevation_m c) in
  do d <- dens_at c alt;
  let pts := map (takeoff1 c d) ws in
  do tws <- mapM (fun p : num * num =>
      let tw := map2static c * fst p in
      if map2sl then
        do corr <- propulsion_slcorr ext c (VNum (snd p)) alt;
        do t <- as1 (fst corr);
        Ok (tw / t)
      else Ok tw) pts;
  let vlofs := map snd pts in
  Ok (reverttoscalar (VArr tws), reverttoscalar (VArr vlofs),
      reverttoscalar (VArr (map (fun v => v / nsqrt #2) vlofs))).

(* constraintanalysis.py:1514-1522 *)
Definition bank2turnradius (c : concept) (bankangle_deg : num) : num :=
  let v := kts2mps (pval (turnspeed_ktas c)) in
  (v ^ 2) / (sc_g * ntan (ndeg2rad bankangle_deg)).

(* constraintanalysis.py:1524-1541: (T/W, CL) for each wing loading of an array *)
Definition thrusttoweight_sustainedturn (ext : externals) (c : concept) (ws : list num)
    : res (list num * list num) :=
  let cdmin := pval (cdminclean c) in
  let nturn := pval (stloadfactor c) in
  let alt := pval (turnalt_m c) in
  let v := kts2mps (pval (turnspeed_ktas c)) in
  do m <- mach_at c v alt;
  let wsclimb w := w * pval (climb_weight_fraction c) in
  do q <- q_at c v alt;
  let cl w := wsclimb w * nturn / q in
  do k <- lesm ext c m;
  Ok (map (fun w => q * (cdmin / w + k w (Some (cl w)) * ((nturn / q) ^ 2) * wsclimb w)) ws,
      map cl ws).

(** feasibletw: nan where the lift coefficient is too large (a False CLmaxclean
    compares like 0) *)
Definition feasible (c : concept) (tw cl : num) : num :=
  if pval (clmaxclean c) <? cl then NonFin else tw.

(* constraintanalysis.py:1543-1665: (T/W, CL, feasible T/W) *)
Definition twrequired_trn (ext : externals) (c : concept) (wingloading_pa : val)
    (map2sl : bool) : res (val * val * val) :=
  do _ <- required (turnspeed_ktas c);
  do _ <- required (stloadfactor c);
  let ws := recastasnpfloatarray wingloading_pa in
  let wf := pval (turn_weight_fraction c) in
  do r <- thrusttoweight_sustainedturn ext c (map (fun w => w * wf) ws);
  let v := kts2mps (pval (turnspeed_ktas c)) in
  do corr <- propulsion_slcorr ext c (VNum v) (pval (turnalt_m c));
  do tws <- corrected map2sl (VArr (fst r)) (fst corr);
  do tw <- vlit (fun t => t * wf) tws;
  let cls := snd r in
  let feas := map (fun p => feasible c (fst p) (snd p)) (combine (recastasnpfloatarray tw) cls) in
  Ok (reverttoscalar tw, reverttoscalar (VArr cls), reverttoscalar (VArr feas)).

(* ------------------------------------------------------------------------ *)
(** * Combined requirements *)

(** np.max(list, 0) of numbers, or of arrays of one length *)
Fixpoint arrmax (a b : list num) : res (list num) :=
  match a, b with
  | [], [] => Ok []
  | x :: a', y :: b' => do r <- arrmax a' b'; Ok (nmax x y :: r)
  | _, _ => Err ValueError          (* inhomogeneous shape *)
  end.
Definition vmax (a b : val) : res val :=
  match a, b with
  | VNum x, VNum y => Ok (VNum (nmax x y))
  | VArr l, VArr m => rmap VArr (arrmax l m)
  | _, _ => Err ValueError
  end.
Definition npmax5 (a b c d e : val) : res val :=
  do x <- vmax a b; do y <- vmax x c; do z <- vmax y d; vmax z e.

(** the dictionary returned by twrequired and by powerrequired *)
Record requirement := {
  rq_takeoff : val; rq_liftoffspeed : val; rq_avspeed : val;
  rq_turn : val; rq_turnfeasible : val; rq_turncl : val;
  rq_climb : val; rq_cruise : val; rq_servceil : val; rq_combined : val }.

(* constraintanalysis.py:1667-1730 *)
Definition twrequired (ext : externals) (c : concept) (wingloading_pa : val)
    (feasibleonly map2sl : bool) : res requirement :=
  let ws := VArr (recastasnpfloatarray wingloading_pa) in
  do t <- twrequired_to ext c ws map2sl;
  let '(tw_to, vlof, vav) := t in
  do u <- twrequired_trn ext c ws map2sl;
  let '(tw_trn, cl, feas) := u in
  do tw_clm <- twrequired_clm ext c ws map2sl;
  do tw_crs <- twrequired_crs ext c ws map2sl;
  do tw_sec <- twrequired_sec ext c ws map2sl;
  do comb <- npmax5 tw_to (if feasibleonly then feas else tw_trn) tw_clm tw_crs tw_sec;
  Ok {| rq_takeoff := tw_to; rq_liftoffspeed := vlof; rq_avspeed := vav;
        rq_turn := tw_trn; rq_turnfeasible := feas; rq_turncl := cl;
        rq_climb := tw_clm; rq_cruise := tw_crs; rq_servceil := tw_sec;
        rq_combined := comb |}.

(* constraintanalysis.py:2450-2521 (2521): element by element *)
Definition tw2pw (thrusttoweight speed etap : num) : num := thrusttoweight * speed / etap.

(** tw2pw, wn2hpkg and the multiplication by the take-off mass of powerrequired, for
    numbers or arrays of T/W and of speed *)
Definition power_hp (tow_kg etap : num) (tw speed : val) : res val :=
  vop2 (fun t v => wn2hpkg (tw2pw t v etap) * tow_kg) tw speed.

(* constraintanalysis.py:1732-1833 *)
Definition powerrequired (ext : externals) (c : concept) (wingloading_pa : val) (tow_kg : num)
    (feasibleonly map2sl : bool) : res requirement :=
  do tw <- twrequired ext c wingloading_pa feasibleonly false;
  let pc speed alt := if map2sl then rmap snd (propulsion_slcorr ext c speed alt) else Ok (VNum #1) in
  do p_to0 <- power_hp tow_kg (pval (etaprop_to c)) (rq_takeoff tw) (rq_liftoffspeed tw);
  do pcorr <- pc (rq_liftoffspeed tw) (pval (rwyelevation_m c));
  do p_to <- corrected map2sl p_to0 pcorr;
  let trnspeed := VNum (kts2mps (pval (turnspeed_ktas c))) in
  do p_feas0 <- power_hp tow_kg (pval (etaprop_turn c)) (rq_turnfeasible tw) trnspeed;
  do p_trn0 <- power_hp tow_kg (pval (etaprop_turn c)) (rq_turn tw) trnspeed;
  do pcorr <- pc trnspeed (pval (turnalt_m c));
  do p_feas <- corrected map2sl p_feas0 pcorr;
  do p_trn <- corrected map2sl p_trn0 pcorr;
  do clmspeed <- tas_at c (pval (climbspeed_kias c)) (pval (climbalt_m c));
  let clmspeed := VNum (kts2mps clmspeed) in
  do p_clm0 <- power_hp tow_kg (pval (etaprop_climb c)) (rq_climb tw) clmspeed;
  do pcorr <- pc clmspeed (pval (climbalt_m c));
  do p_clm <- corrected map2sl p_clm0 pcorr;
  let crsspeed := VNum (kts2mps (pval (cruisespeed_ktas c))) in
  do p_crs0 <- power_hp tow_kg (pval (etaprop_cruise c)) (rq_cruise tw) crsspeed;
  do pcorr <- pc crsspeed (pval (cruisealt_m c));
  do p_crs <- corrected map2sl p_crs0 pcorr;
  do secspeed <- tas_at c (pval (secclimbspd_kias c)) (pval (servceil_m c));
  let secspeed := VNum (kts2mps secspeed) in
  do p_sec0 <- power_hp tow_kg (pval (etaprop_sec c)) (rq_servceil tw) secspeed;
  do pcorr <- pc secspeed (pval (servceil_m c));
  do p_sec <- corrected map2sl p_sec0 pcorr;
  do comb <- npmax5 p_to (if feasibleonly then p_feas else p_trn) p_clm p_crs p_sec;
  Ok {| rq_takeoff := p_to; rq_liftoffspeed := rq_liftoffspeed tw; rq_avspeed := rq_avspeed tw;
        rq_turn := p_trn; rq_turnfeasible := p_feas; rq_turncl := rq_turncl tw;
        rq_climb := p_clm; rq_cruise := p_crs; rq_servceil := p_sec; rq_combined := comb |}.

(* ------------------------------------------------------------------------ *)
(** * Stall, ground effect *)

(** the clmax argument of vstall_kias: a number or the string 'take-off' *)
Inductive clarg := ClNum (x : num) | ClTakeoff.

(* constraintanalysis.py:2303-2353; math.sqrt of an array that does not have exactly
   one element raises TypeError *)
Definition vstall_kias (c : concept) (wingloading_pa : val) (clmax : clarg) : res num :=
  let ws := recastasnpfloatarray wingloading_pa in
  do r <- airdens_kgpm3 (isa 0) (VNum #0);
  do rho0 <- as1 r;
  let cl := match clmax with ClNum x => x | ClTakeoff => pval (clmaxto c) end in
  do vs <- vmsqrt (VArr (map (fun w => #2 * w / (rho0 * cl)) ws));
  Ok (mps2kts vs).

(* constraintanalysis.py:2355-2373 *)
Definition wsmaxcleanstall_pa (c : concept) : res num :=
  do cl <- required (clmaxclean c);
  do v <- required (vstallclean_kcas c);
  do q <- q_at c (kts2mps v) #0;
  Ok (q * cl).
(* constraintanalysis.py:2375-2379 *)
Definition smincleanstall_m2 (c : concept) (weight_kg : num) : res num :=
  do w <- wsmaxcleanstall_pa c;
  Ok (kg2n weight_kg / w).

(* constraintanalysis.py:2446-2447 *)
Definition wig (h_over_b : num) : num :=
  ((#16 * h_over_b) ^ 2) / (#1 + (#16 * h_over_b) ^ 2).
(* constraintanalysis.py:2390-2443 *)
Definition wigfactor (c : concept) : num := wig (pval (wingheightratio c)).
