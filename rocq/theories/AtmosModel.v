(** ADRpy/atmospheres.py and the numerical helpers of ADRpy/mtools4acdc.py that
    it uses.  Definitions only; every definition cites the lines it models. *)
From Verif Require Import Base UnitsModel.
Open Scope num_scope.

(* ------------------------------------------------------------------------ *)
(** * numpy / Python glue *)

(* mtools4acdc.py:60-70 recastasnpfloatarray *)
Definition recastasnpfloatarray (v : val) : list num :=
  match v with VNum x => [x] | VList l => l | VArr l => l end.

(* atmospheres.py:875-879 _reverttoscalar *)
Definition reverttoscalar (v : val) : val :=
  match v with
  | VList [x] => VNum x
  | VArr [x] => VNum x
  | _ => v
  end.

(** [v op literal] for a Python float literal: a Python list raises TypeError. *)
Definition vlit (f : num -> num) (v : val) : res val :=
  match v with
  | VNum x => Ok (VNum (f x))
  | VArr l => Ok (VArr (map f l))
  | VList _ => Err TypeError
  end.
(** [a op b] when at least one side is a number or an array (numpy broadcasting). *)
Definition vop2 (f : num -> num -> num) (a b : val) : res val :=
  match a, b with
  | VNum x, VNum y => Ok (VNum (f x y))
  | VNum x, VArr l => Ok (VArr (map (f x) l))
  | VArr l, VNum y => Ok (VArr (map (fun x => f x y) l))
  | VArr l, VArr m => rmap VArr (broadcast f l m)
  | VArr l, VList m => rmap VArr (broadcast f l m)
  | VList l, VArr m => rmap VArr (broadcast f l m)
  | _, _ => Err TypeError
  end.
(** math.sqrt of a value: numpy arrays with more than one element and Python
    lists raise TypeError. *)
Definition vmsqrt (v : val) : res num :=
  match v with
  | VNum x => msqrt x
  | VArr [x] => msqrt x
  | _ => Err TypeError
  end.

(** [np.nditer([l, None])] loop writing [f x] for every x: a zero-sized operand
    raises ValueError. *)
Definition nditer_map (f : num -> res num) (l : list num) : res (list num) :=
  match l with [] => Err ValueError | _ => mapM f l end.

(* ------------------------------------------------------------------------ *)
(** * Constants and gas laws *)

(* atmospheres.py:52 *)
Definition R_JPKGPK : num := #287.05287.
(* atmospheres.py:55 *)
Definition R_EARTH_M : num := #6356766.
(* atmospheres.py:57 *)
Definition GAMMA_DRY_AIR : num := #1.401.

(* atmospheres.py:59-61 *)
Definition idealgasdens_kgm3 (p_pa temp_k : num) : num := p_pa / R_JPKGPK / temp_k.
(* atmospheres.py:63-65 *)
Definition idealgaspress_pa (rho temp_k : num) : num := R_JPKGPK * rho * temp_k.
(* atmospheres.py:67-69 *)
Definition geom2geop45m (altitude_m : num) : num :=
  R_EARTH_M * altitude_m / (R_EARTH_M + altitude_m).
(* atmospheres.py:71-73 *)
Definition geop2geom45m (altitude_m : num) : num :=
  R_EARTH_M * altitude_m / (R_EARTH_M - altitude_m).

(* atmospheres.py:371-430, class constants of Atmosphere *)
Definition Level1 := #11000.  Definition Level2 := #20000.
Definition Level3 := #32000.  Definition Level4 := #47000.
Definition Level5 := #50000.
Definition dLevel1 := #0.36391700650017816.   Definition dLevel2 := #0.088034556579455497.
Definition dLevel3 := #0.013224937668421609.  Definition dLevel4 := #0.0014275295197313882.
Definition pLevel1 := #22632.000999016603.    Definition pLevel2 := #5474.8699475808515.
Definition pLevel3 := #868.01381950678511.    Definition pLevel4 := #110.90599734942646.
Definition A1 := #288.15.        Definition B1 := #(-6.5e-3).
Definition C1 := #8.9619638.     Definition D1 := #(-0.20216125e-3).
Definition E1 := #5.2558797.     Definition I1 := #1.048840.
Definition J1 := #(-23.659414e-6). Definition L1 := #4.2558797.
Definition A2 := #216.65.        Definition B2 := #0.
Definition F2 := #128244.5.      Definition G2 := #(-0.15768852e-3).
Definition M2 := #2.0621400.     Definition N2 := #(-0.15768852e-3).
Definition A3 := #196.65.        Definition B3 := #1e-3.
Definition C3 := #0.70551848.    Definition D3 := #3.5876861e-6.
Definition E3 := #(-34.163218).  Definition I3 := #0.9726309.
Definition J3 := #4.94600e-6.    Definition L3 := #(-35.163218).
Definition A4 := #139.05.        Definition B4 := #2.8e-3.
Definition C4 := #0.34926867.    Definition D4 := #7.0330980e-6.
Definition E4 := #(-12.201149).  Definition I4 := #0.84392929.
Definition J4 := #16.993902e-6.  Definition L4 := #(-13.201149).
Definition A5 := #270.65.        Definition B5 := #0.
Definition F5 := #41828.42.      Definition G5 := #(-0.12622656e-3).
Definition M5 := #0.53839563.    Definition N5 := #(-0.12622656e-3).

(* ------------------------------------------------------------------------ *)
(** * ISA, one altitude at a time (the bodies of the nditer loops) *)

(* atmospheres.py:478-495, loop body of _isatemp_k *)
Definition isatemp1 (offset_deg alt : num) : num :=
  (if alt <? Level1 then A1 + B1 * alt
   else if alt <? Level2 then A2 + B2 * alt
   else if alt <? Level3 then A3 + B3 * alt
   else if alt <? Level4 then A4 + B4 * alt
   else A5 + B5 * alt) + offset_deg.

(* atmospheres.py:502-517, loop body of _isapress_pa *)
Definition isapress1 (alt : num) : num :=
  if alt <? Level1 then (C1 + D1 * alt) ** E1
  else if alt <? Level2 then F2 * nexp (G2 * alt)
  else if alt <? Level3 then (C3 + D3 * alt) ** E3
  else if alt <? Level4 then (C4 + D4 * alt) ** E4
  else F5 * nexp (G5 * alt).

(* atmospheres.py:524-539, loop body of _isapressalt_m *)
Definition isapressalt1 (press_pa : num) : res num :=
  if pLevel1 <? press_pa then Ok ((press_pa ** (#1 / E1) - C1) / D1)
  else if pLevel2 <? press_pa then
    (do l <- mlog1p (press_pa / F2 - #1); Ok ((#1 / G2) * l))
  else if pLevel3 <? press_pa then Ok ((press_pa ** (#1 / E3) - C3) / D3)
  else if pLevel4 <? press_pa then Ok ((press_pa ** (#1 / E4) - C4) / D4)
  else (do l <- mlog1p (press_pa / F5 - #1); Ok ((#1 / G5) * l)).

(* atmospheres.py:546-564, loop body of _isadens_kgpm3; [_isatemp_k(alt)] is
   called on a zero-dimensional array there, i.e. on one altitude. *)
Definition isadens1 (offset_deg alt : num) : num :=
  (if alt <? Level1 then (I1 + J1 * alt) ** L1
   else if alt <? Level2 then M2 * nexp (N2 * alt)
   else if alt <? Level3 then (I3 + J3 * alt) ** L3
   else if alt <? Level4 then (I4 + J4 * alt) ** L4
   else M5 * nexp (N5 * alt))
  / (#1 + offset_deg / (isatemp1 offset_deg alt - offset_deg)).

(* atmospheres.py:572-587, loop body of _isadensalt_m.  [dens] is the whole
   argument array, which the code uses (instead of the loop variable) in the
   layer-2 formula and in the layer-4 comparison: math.log1p and the truth value
   of a comparison reject arrays with more than one element. *)
Definition isadensalt1 (dens : list num) (d : num) : res num :=
  if dLevel1 <? d then Ok ((d ** (#1 / L1) - I1) / J1)
  else if dLevel2 <? d then
    match dens with
    | [x] => do l <- mlog1p (x / M2 - #1); Ok ((#1 / N2) * l)
    | _ => Err TypeError      (* only length-1 arrays can be converted *)
    end
  else if dLevel3 <? d then Ok ((d ** (#1 / L3) - I3) / J3)
  else
    match dens with
    | [x] => if dLevel4 <? x then Ok ((d ** (#1 / L4) - I4) / J4)
             else (do l <- mlog1p (d / M5 - #1); Ok ((#1 / N5) * l))
    | _ => Err ValueError     (* truth value of an array is ambiguous *)
    end.

(* atmospheres.py:475-496, 499-518, 521-540, 543-566, 569-589: the loops *)
Definition isatemp_k (offset_deg : num) (l : list num) : res (list num) :=
  nditer_map (fun a => Ok (isatemp1 offset_deg a)) l.
Definition isapress_pa (l : list num) : res (list num) :=
  nditer_map (fun a => Ok (isapress1 a)) l.
Definition isapressalt_m (l : list num) : res (list num) := nditer_map isapressalt1 l.
Definition isadens_kgpm3 (offset_deg : num) (l : list num) : res (list num) :=
  nditer_map (fun a => Ok (isadens1 offset_deg a)) l.
Definition isadensalt_m (l : list num) : res (list num) := nditer_map (isadensalt1 l) l.

(* ------------------------------------------------------------------------ *)
(** * Observed profiles *)

(** insertion sort of (altitude, value) pairs by altitude (scipy's interp1d
    sorts its table, keeping equal abscissae in order). *)
Fixpoint insert_pt (p : R * R) (l : list (R * R)) : list (R * R) :=
  match l with
  | [] => [p]
  | q :: r => if Rleb (fst p) (fst q) then p :: l else q :: insert_pt p r
  end.
Fixpoint sort_pts (l : list (R * R)) : list (R * R) :=
  match l with [] => [] | p :: r => insert_pt p (sort_pts r) end.

(** Linear interpolation in a sorted table between the first two neighbours that
    bracket x; scipy.interpolate.interp1d(kind='linear', bounds_error=True), which
    is external to the repository: ValueError outside the table. *)
Fixpoint interp_sorted (x : R) (l : list (R * R)) : res num :=
  match l with
  | [] => Err ValueError
  | [(x0, y0)] => if Reqb x x0 then Ok (Fin y0) else Err ValueError
  | (x0, y0) :: (((x1, y1) :: _) as r) =>
      if Rltb x x0 then Err ValueError
      else if Rleb x x1 then
        Ok ((#(y1 - y0) / #(x1 - x0)) * #(x - x0) + #y0)
      else interp_sorted x r
  end.
Definition interp1d (tab : list (R * R)) (x : num) : res num :=
  match x with Fin a => interp_sorted a (sort_pts tab) | NonFin => Err ValueError end.

(** An Obsprofile after construction (atmospheres.py:279-303): altitudes and the
    completed columns. *)
Record profile := { alt_m : list R; temp_k : list R; rho_kgpm3 : list R;
                    p_pa : list R; vs_mps : list R }.

(** np.size(np.array(x)): None becomes a zero-dimensional array of size 1. *)
Definition npsize (x : option (list R)) : nat :=
  match x with None => 1%nat | Some l => List.length l end.

(** math.sqrt(1.4 * R_JPKGPK * T) for finite T *)
Definition vs_of_temp (t : R) : res R :=
  match msqrt (#1.4 * R_JPKGPK * #t) with
  | Ok (Fin v) => Ok v
  | Ok NonFin => Err ValueError
  | Err e => Err e
  end.

(* atmospheres.py:279-303 Obsprofile.__init__.  The lists are the columns the
   caller passes (None = omitted).  Completed columns: pressure from density and
   temperature if the density column fits, else density from pressure; then the
   speed of sound column; then interp1d of each column, which raises ValueError
   if a column is missing or of the wrong length.
   Division in idealgasdens (p/R/T) is only defined for T <> 0; zero
   temperatures give an infinite density there: modelled as ValueError. *)
Definition obsprofile (alt temp rho p : option (list R)) : res profile :=
  let size_ok := andb (Nat.eqb (npsize alt) (npsize temp)) in
  do rp <-
    (if size_ok (Nat.eqb (npsize temp) (npsize rho)) then
       match rho, temp with
       | Some r, Some t =>
           Ok (rho, Some (map (fun q => (287.05287 * fst q * snd q)%R) (combine r t)))
       | _, _ => Err TypeError
       end
     else if size_ok (Nat.eqb (npsize temp) (npsize p)) then
       match p, temp with
       | Some pp, Some t =>
           if existsb (fun x => Reqb x 0) t then Err ValueError
           else Ok (Some (map (fun q => (fst q / 287.05287 / snd q)%R) (combine pp t)), p)
       | _, _ => Err TypeError
       end
     else Ok (rho, p));
  match temp with
  | None => Err TypeError
  | Some t =>
      do vs <- mapM vs_of_temp t;
      match alt, fst rp, snd rp with
      | Some a, Some r, Some q =>
          if (Nat.eqb (List.length a) (List.length t) &&
              Nat.eqb (List.length a) (List.length q) &&
              Nat.eqb (List.length a) (List.length r) &&
              negb (Nat.eqb (List.length a) 0))%bool
          then Ok {| alt_m := a; temp_k := t; rho_kgpm3 := r; p_pa := q; vs_mps := vs |}
          else Err ValueError
      | _, _, _ => Err ValueError
      end
  end.

(* atmospheres.py:300-303: the four interpolators *)
Definition ftemp_k (p : profile) := interp1d (combine (alt_m p) (temp_k p)).
Definition fp_pa (p : profile) := interp1d (combine (alt_m p) (p_pa p)).
Definition frho_kgpm3 (p : profile) := interp1d (combine (alt_m p) (rho_kgpm3 p)).
Definition fvs_mps (p : profile) := interp1d (combine (alt_m p) (vs_mps p)).

(** Python's min / max of a list (np.amin / np.amax): ValueError when empty *)
Definition pymin (l : list R) : res R :=
  match l with [] => Err ValueError | x :: r => Ok (fold_left Rmin r x) end.
Definition pymax (l : list R) : res R :=
  match l with [] => Err ValueError | x :: r => Ok (fold_left Rmax r x) end.
(* atmospheres.py:305-311 *)
Definition loalt (p : profile) : res R := pymin (alt_m p).
Definition hialt (p : profile) : res R := pymax (alt_m p).

(* ------------------------------------------------------------------------ *)
(** * Atmosphere objects *)

(* atmospheres.py:435-445: [prof = None] is an ISA (is_isa = True) *)
Record atmosphere := { offset_deg : num; prof : option profile }.
(* atmospheres.py:435-445: Atmosphere(offset_deg=o) *)
Definition isa (o : R) : atmosphere := {| offset_deg := Fin o; prof := None |}.

(* atmospheres.py:449-472 _alttest.  [reqalt_m] is a Python *list* when the limit
   is enforced: comparing that list with an int (ISA branch) and indexing it with
   a boolean array (profile branch) both raise TypeError. *)
Definition alttest (atm : atmosphere) (v : val) : res (list num) :=
  let reqalt := recastasnpfloatarray v in
  match prof atm with
  | None =>
      if existsb (fun x => Level5 <? x) reqalt then Err TypeError else Ok reqalt
  | Some p =>
      do minalt <- pymin (alt_m p);
      do maxalt <- pymax (alt_m p);
      if existsb (fun x => x <? Fin minalt) reqalt then Err TypeError
      else if existsb (fun x => Fin maxalt <? x) reqalt then Err TypeError
      else Ok reqalt
  end.

(* atmospheres.py:592-625 *)
Definition airtemp_k (atm : atmosphere) (alts : val) : res val :=
  do l <- alttest atm alts;
  do r <- match prof atm with
          | None => isatemp_k (offset_deg atm) l
          | Some p => mapM (ftemp_k p) l
          end;
  Ok (reverttoscalar (VArr r)).

(* atmospheres.py:628-635 *)
Definition airpress_pa (atm : atmosphere) (alts : val) : res val :=
  do l <- alttest atm alts;
  do r <- match prof atm with
          | None => isapress_pa l
          | Some p => mapM (fp_pa p) l
          end;
  Ok (reverttoscalar (VArr r)).

(* atmospheres.py:646-653 *)
Definition airdens_kgpm3 (atm : atmosphere) (alts : val) : res val :=
  do l <- alttest atm alts;
  do r <- match prof atm with
          | None => isadens_kgpm3 (offset_deg atm) l
          | Some p => mapM (frho_kgpm3 p) l
          end;
  Ok (reverttoscalar (VArr r)).

(* atmospheres.py:882-885 _vsound_mps: number -> number, otherwise a Python list *)
Definition vsound1 (t : num) : res num := msqrt (#1.4 * R_JPKGPK * t).
Definition vsound_of (v : val) : res val :=
  match v with
  | VNum t => rmap VNum (vsound1 t)
  | VList l => do r <- mapM vsound1 l; Ok (reverttoscalar (VList r))
  | VArr l => do r <- mapM vsound1 l; Ok (reverttoscalar (VList r))
  end.

(* atmospheres.py:638-643 *)
Definition vsound_mps (atm : atmosphere) (alts : val) : res val :=
  do l <- alttest atm alts;
  do t <- airtemp_k atm (VList l);
  do v <- vsound_of t;
  Ok (reverttoscalar v).

(* atmospheres.py:656-672 mach.  [airspeed_mps.any() < 0] compares a boolean with
   0 and is never true, so the warning branch is dead: no effect. *)
Definition mach (atm : atmosphere) (airspeed_mps altitude_m : val) : res val :=
  let v := recastasnpfloatarray airspeed_mps in
  do l <- alttest atm altitude_m;
  do vs <- vsound_mps atm (VList l);
  vop2 ndiv (VArr v) vs.

(* atmospheres.py:675-677; mps2kts multiplies by a float literal *)
Definition vsound_kts (atm : atmosphere) (alts : val) : res val :=
  do v <- vsound_mps atm alts; vlit mps2kts v.
(* atmospheres.py:680-682 *)
Definition airpress_mbar (atm : atmosphere) (alts : val) : res val :=
  do v <- airpress_pa atm alts; vlit pa2mbar v.
(* atmospheres.py:685-687 *)
Definition airtemp_c (atm : atmosphere) (alts : val) : res val :=
  do v <- airtemp_k atm alts; vlit k2c v.

(* atmospheres.py:690-728, true airspeed given as one number *)
Definition dynamicpressure_pa (atm : atmosphere) (airspeed_mps : num) (alts : val) : res val :=
  do d <- airdens_kgpm3 atm alts;
  vlit (fun r => #0.5 * r * (airspeed_mps ^ 2)) d.

(** density ratio used by eas2tas / tas2eas (atmospheres.py:756, 761) *)
Definition densratio (atm : atmosphere) (altitude_m : val) : res val :=
  do d <- airdens_kgpm3 atm altitude_m;
  do d0 <- airdens_kgpm3 atm (VNum #0);
  vop2 ndiv d d0.

(* atmospheres.py:731-757 *)
Definition eas2tas_at (atm : atmosphere) (eas altitude_m : val) : res val :=
  do r <- densratio atm altitude_m;
  do s <- vmsqrt r;
  vlit (fun e => e / s) eas.
(* atmospheres.py:759-762 *)
Definition tas2eas_at (atm : atmosphere) (tas altitude_m : val) : res val :=
  do r <- densratio atm altitude_m;
  do s <- vmsqrt r;
  vlit (fun t => t * s) tas.

(* atmospheres.py:764-772 *)
Definition mpseas2mpscas (atm : atmosphere) (mpseas altitude_m : val) : res (val * val) :=
  do mpstas <- eas2tas_at atm mpseas altitude_m;
  do machno <- mach atm mpstas altitude_m;
  do p <- airpress_pa atm altitude_m;
  do p0 <- airpress_pa atm (VNum #0);
  do delta <- vop2 ndiv p p0;
  do m2_term <- vop2 (fun d m => (#1 / #8) * (#1 - d) * (m ^ 2)) delta machno;
  do m4_term <- vop2 (fun d m => (#3 / #640) * (#1 - #10 * d + #9 * (d ^ 2)) * (m ^ 4))
                  delta machno;
  do s1 <- vlit (fun x => #1 + x) m2_term;
  do s2 <- vop2 nadd s1 m4_term;
  do r <- vop2 nmul mpseas s2;
  Ok (r, machno).

(* atmospheres.py:774-838 *)
Definition keas2kcas (atm : atmosphere) (keas altitude_m : val) : res (val * val) :=
  do mpseas <- vlit kts2mps keas;
  do r <- mpseas2mpscas atm mpseas altitude_m;
  do kcas <- vlit mps2kts (fst r);
  Ok (kcas, snd r).

(* ------------------------------------------------------------------------ *)
(** * Headings and thrust lapse models *)

(* atmospheres.py:888-892 *)
Definition reciprocalhdg (heading_deg : num) : num :=
  if #360 <? heading_deg + #180 then heading_deg - #180 else heading_deg + #180.

(* atmospheres.py:895-900 *)
Definition tempratio (temp_c machno : num) : num :=
  let temp_k := c2k temp_c in
  let sealevelstdtmp_k := c2k #15 in
  (temp_k / sealevelstdtmp_k) * (#1 + (machno ^ 2) * (GAMMA_DRY_AIR - #1) / #2).

(* atmospheres.py:903-905 *)
Definition tatbysat (machno recfac : num) : num :=
  #1 + #0.5 * (GAMMA_DRY_AIR - #1) * recfac * (machno ^ 2).

(* atmospheres.py:908-914 *)
Definition pressratio (pressure_pa machno : num) : num :=
  let exponent := GAMMA_DRY_AIR / (GAMMA_DRY_AIR - #1) in
  (pressure_pa / #101325) *
  (#1 + (machno ^ 2) * (GAMMA_DRY_AIR - #1) / #2) ** exponent.

(** the [ptype] argument of turbofanthrustfactor *)
Inductive fantype := highbpr | lowbpr | othertype.

(* atmospheres.py:917-941 *)
Definition turbofanthrustfactor (temp_c pressure_pa machno throttleratio : num)
    (ptype : fantype) : num :=
  let theta0 := tempratio temp_c machno in
  let delta0 := pressratio pressure_pa machno in
  match ptype with
  | highbpr =>
      if theta0 <=? throttleratio then delta0 * (#1 - #0.49 * nsqrt machno)
      else delta0 * (#1 - #0.49 * nsqrt machno
                     - #3 * (theta0 - throttleratio) / (#1.5 + machno))
  | lowbpr =>
      if theta0 <=? throttleratio then delta0
      else delta0 * (#1 - #3.5 * (theta0 - throttleratio) / theta0)
  | othertype =>
      if theta0 <=? throttleratio then #0.6 * delta0
      else #0.6 * delta0 * (#1 - #3.8 * (theta0 - throttleratio) / theta0)
  end.

(* atmospheres.py:944-960 *)
Definition turbopropthrustfactor_matt (temp_c pressure_pa machno throttleratio : num) : num :=
  let theta0 := tempratio temp_c machno in
  let delta0 := pressratio pressure_pa machno in
  if machno <=? #0.1 then delta0
  else if theta0 <=? throttleratio then
    delta0 * (#1 - #0.96 * (machno - #0.1) ** #0.25)
  else
    delta0 * (#1 - #0.96 * (machno - #0.1) ** #0.25
              - #3 * (theta0 - throttleratio) / (#8.13 * (machno - #0.1))).

(* atmospheres.py:999-1019 *)
Definition turbojetthrustfactor (temp_c pressure_pa machno throttleratio : num)
    (afterburner : bool) : num :=
  let theta0 := tempratio temp_c machno in
  let delta0 := pressratio pressure_pa machno in
  if afterburner then
    if theta0 <=? throttleratio then
      delta0 * (#1 - #0.3 * (theta0 - #1) - #0.1 * nsqrt machno)
    else
      delta0 * (#1 - #0.3 * (theta0 - #1) - #0.1 * nsqrt machno
                - #1.5 * (theta0 - throttleratio) / throttleratio)
  else
    if theta0 <=? throttleratio then
      delta0 * #0.8 * (#1 - #0.16 * nsqrt machno)
    else
      delta0 * #0.8 * (#1 - #0.16 * nsqrt machno
                       - #24 * (theta0 - throttleratio) / ((#9 + machno) * theta0)).

(* atmospheres.py:1022-1027 *)
Definition pistonpowerfactor (density_kgpm3 : num) : num :=
  let sigma := density_kgpm3 / #1.225 in
  #1.132 * sigma - #0.132.

(* ------------------------------------------------------------------------ *)
(** * Tools *)

(* mtools4acdc.py:73-84 polyblend, Python floats: time / time_f is computed first,
   so a zero duration raises ZeroDivisionError whatever the time. *)
Definition polyblend (time time_f signal_i signal_f : R) : res R :=
  if Reqb time_f 0 then Err ZeroDivisionError
  else
    let normtime := (time / time_f)%R in
    let scale := (signal_f - signal_i)%R in
    if Rltb time 0 then Ok signal_i
    else if Rleb time_f time then Ok signal_f
    else Ok (signal_i + scale * normtime ^ 2 * (3 - 2 * normtime))%R.

(* mtools4acdc.py:272-278 _coordtrans: loops over x and indexes z; a z shorter
   than x raises IndexError, extra entries of z are ignored. *)
Fixpoint coordtrans (x z : list R) (theta_rad : R) : res (list R * list R) :=
  match x with
  | [] => Ok ([], [])
  | xi :: xr =>
      match z with
      | [] => Err IndexError
      | zi :: zr =>
          do r <- coordtrans xr zr theta_rad;
          Ok ((xi * cos theta_rad + zi * sin theta_rad)%R :: fst r,
              (- xi * sin theta_rad + zi * cos theta_rad)%R :: snd r)
      end
  end.
