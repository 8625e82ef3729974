(** ADRpy/airworthiness.py: CertificationSpecifications.  Definitions only; every
    definition cites the lines it models.  Of
    flightenvelope the coordinates are computed; its warnings and what it draws are in
    EnvelopePlotModel.v.  The lift slope,
    the gust load factors and everything computed from them are arrays with one element
    in Python (the Mach number is one); here they are numbers.  Python's
    ZeroDivisionError appears as [NonFin] (see Base). *)
From Verif Require Import Base UnitsModel AtmosModel ConceptModel MethodsModel.
Open Scope num_scope.

(** ** Dictionary csbrief *)
(** a value of csbrief: text, truth value or number *)
Inductive csv : Type := CStr (s : string) | CBool (b : bool) | CNum (x : num).
(** a number or False; text would raise TypeError where it is first used in arithmetic,
    here it does so in the constructor *)
Definition csparam (v : csv) : res param :=
  match v with
  | CStr _ => Err TypeError
  | CBool false => Ok None
  | CBool true => Ok (Some #1)
  | CNum x => Ok (Some x)
  end.
Definition csnum (v : csv) : res num :=
  match v with
  | CStr _ => Err TypeError
  | CBool b => Ok (if b then #1 else #0)
  | CNum x => Ok x
  end.

(* airworthiness.py:96-107 *)
Definition default_csbrief : dict csv :=
  [ ("certcat", CStr "norm"); ("altitude_m", CNum #0);
    ("cruisespeed_keas", CBool false); ("divespeed_keas", CBool false);
    ("maxlevelspeed_keas", CBool false); ("weightfraction", CNum #1) ]%string.

(* airworthiness.py:112-115: missing keys are added to the caller's dictionary *)
Definition csfill (cs : dict csv) : dict csv :=
  fold_left (fun d kv => match dget (fst kv) d with Some _ => d | None => dset (fst kv) (snd kv) d end) default_csbrief cs.

(** a CertificationSpecifications object *)
Record cert := {
  acobj : concept; cruisespeed_keas : param; category : csv;
  divespeed_keas : param; maxlevelspeed_keas : param;
  altitude_m : num; weightfraction : num }.

(* airworthiness.py:118-133 *)
Definition cert_of (ac : concept) (cs : dict csv) : res cert :=
  do vc <- dindex cs "cruisespeed_keas"; do vc <- csparam vc;
  do alt <- dindex cs "altitude_m"; do alt <- csnum alt;
  do vc <- match vc with
           | Some v => Ok (Some v)
           | None => match cruisespeed_ktas ac with
                     | None => Ok None
                     | Some v => do rho <- dens_at ac alt; Ok (Some (tas2eas v rho))
                     end
           end;
  do cat <- dindex cs "certcat";
  do vd <- dindex cs "divespeed_keas"; do vd <- csparam vd;
  do vh <- dindex cs "maxlevelspeed_keas"; do vh <- csparam vh;
  do wf <- dindex cs "weightfraction"; do wf <- csnum wf;
  Ok {| acobj := ac; cruisespeed_keas := vc; category := cat; divespeed_keas := vd;
        maxlevelspeed_keas := vh; altitude_m := alt; weightfraction := wf |}.

(* airworthiness.py:85-135: the object, and the dictionary csbrief afterwards.  The
   argument propulsion is not passed on to AircraftConcept (line 92); the default
   atmosphere is chosen by the caller of this function. *)
Definition certification (brief design performance : dict pv) (atm : atmosphere)
    (prop : proparg) (csbrief : option (dict csv)) : res (cert * dict csv) :=
  let cs := match csbrief with None => [] | Some d => d end in
  do o <- construct brief design performance atm PropFalse;
  let cs := csfill cs in
  do s <- cert_of (obj o) cs;
  Ok (s, cs).

(* ------------------------------------------------------------------------ *)
(** * Stall speed and mean chords *)

(* airworthiness.py:137-168 *)
Definition vs_keas (s : cert) (loadfactor : num) : res num :=
  do weight <- required (weight_n (acobj s));
  do area <- required (wingarea_m2 (acobj s));
  do cl <- (if #0 <=? loadfactor then required (clmaxclean (acobj s))
            else required (clminclean (acobj s)));
  do rho0 <- dens_at (acobj s) #0;
  do v <- msqrt ((loadfactor * weight) / (#0.5 * rho0 * area * cl));
  Ok (mps2kts v).

(* airworthiness.py:170-185: (SMC, MAC) *)
Definition meanchord_m (s : cert) : res (num * num) :=
  let taperratio := pval (roottaperratio (acobj s)) in
  let wingarea := pval (wingarea_m2 (acobj s)) in
  let aspect := pval (aspectratio (acobj s)) in
  do smc <- msqrt (wingarea / aspect);
  do r <- msqrt (wingarea / aspect);
  let c_root := #2 / (#1 + taperratio) * r in
  let mac := (#2 / #3) * c_root * (#1 + taperratio + taperratio ^ 2) / (#1 + taperratio) in
  Ok (smc, mac).

(* ------------------------------------------------------------------------ *)
(** * Categories *)

(** cs23categories_list *)
Inductive cat : Type := Norm | Util | Comm | Aero.
Definition categories : list cat := [Norm; Util; Comm; Aero].
Definition cat_of_name (n : string) : option cat :=
  if String.eqb n "norm" then Some Norm else if String.eqb n "util" then Some Util
  else if String.eqb n "comm" then Some Comm else if String.eqb n "aero" then Some Aero else None.
(* airworthiness.py:565-570 *)
Definition check_category (v : csv) : res cat :=
  match v with
  | CStr n => match cat_of_name n with Some k => Ok k | None => Err ValueError end
  | _ => Err ValueError
  end.

(** Python's min(a, b), max(a, b) of two numbers *)
Definition pymin (a b : num) : num := if b <? a then b else a.
Definition pymax (a b : num) : num := if a <? b then b else a.
(** numpy.fmax, numpy.fmin of finite numbers (numpy would skip a nan) *)
Definition nfmax : num -> num -> num := lift2 (fun a b => Fin (Rmax a b)).
Definition nfmin : num -> num -> num := lift2 (fun a b => Fin (Rmin a b)).

(* ------------------------------------------------------------------------ *)
(** * CS-23 paragraphs.  The dictionaries with one dictionary per category are
    functions of the category. *)

Record limitload := { npos_min : num; nneg_max : num }.
(* airworthiness.py:373-422 *)
Definition paragraph337 (s : cert) : res (cat -> limitload) :=
  do mtow <- required (weight_n (acobj s));
  do _ <- required (wingarea_m2 (acobj s));
  let mtow_lbf := n2lbf mtow in
  let nposminimum := #2.1 + #24000 / (mtow_lbf + #10000) in
  let npos c := match c with
                | Norm => pymin #3.8 nposminimum
                | Util => #4.4
                | Comm => pymin #3.8 nposminimum
                | Aero => #6 end in
  let nneg c := match c with
                | Norm => #(-0.4) * npos Norm
                | Util => #(-0.4) * npos Norm
                | Comm => #(-0.4) * npos Norm
                | Aero => #(-0.5) * npos Norm end in
  Ok (fun c => {| npos_min := npos c; nneg_max := nneg c |}).

Record manoeuvre := { npos_D : num; nneg_C : num; nneg_D : num }.
(** 'Ub_mps' is present in the commuter category only *)
Record gusts := { Ub_mps : option num; Uc_mps : num; Ud_mps : num }.
(* airworthiness.py:187-252 *)
Definition paragraph333 (s : cert) : res ((cat -> manoeuvre) * (cat -> gusts)) :=
  do limits <- paragraph337 s;
  let mano c := {| npos_D := npos_min (limits c); nneg_C := nneg_max (limits c);
                   nneg_D := match c with Norm => #0 | Util => #(-1) | Comm => #0 | Aero => #(-1) end |} in
  let interp lo hi := npinterp2 (altitude_m s) (feet2m #20000) (feet2m #50000) (feet2m lo) (feet2m hi) in
  let gustb := interp #66 #38 in
  let gustc := interp #50 #25 in
  let gustd := interp #25 #12.5 in
  Ok (mano, fun c => {| Ub_mps := match c with Comm => Some gustb | _ => None end;
                        Uc_mps := gustc; Ud_mps := gustd |}).

(** speedatgust_keas: the entries 'Ub', 'Uc', 'Ud', each may be missing *)
Record gustspeeds := { at_Ub : option num; at_Uc : option num; at_Ud : option num }.
(** positive and negative load factor for each of the gusts *)
Record gustload := { l_Ub : option (num * num); l_Uc : option (num * num); l_Ud : option (num * num) }.
(* airworthiness.py:424-501: load factors, alleviation factor k_g, lift slope *)
Definition paragraph341 (ext : externals) (s : cert) (speeds : gustspeeds)
    : res ((cat -> gustload) * num * num) :=
  do rho <- dens_at (acobj s) (altitude_m s);
  do vc <- required (cruisespeed_keas s);
  let v := kts2mps (eas2tas vc rho) in
  do mach <- mach_at (acobj s) v (altitude_m s);
  do weight <- required (weight_n (acobj s));
  do area <- required (wingarea_m2 (acobj s));
  let wingloading := weight / area in
  do liftslope <- liftslope_prad ext (acobj s) mach;
  do rho0 <- dens_at (acobj s) #0;
  let wfract := weightfraction s in
  let trueloading := wingloading * wfract in
  do p333 <- paragraph333 s;
  do chords <- meanchord_m s;
  let mu_g := (#2 * trueloading) / (rho * fst chords * liftslope * sc_g) in
  let k_g := #0.88 * mu_g / (#5.3 + mu_g) in
  let load (gust speed : option num) :=
    match gust, speed with
    | Some u, Some airspeed =>
        let q := k_g * rho0 * u * kts2mps airspeed * liftslope / (#2 * trueloading) / wfract in
        Some (#1 + q, #1 - q)
    | _, _ => None
    end in
  Ok (fun c => let g := snd p333 c in
               {| l_Ub := load (Ub_mps g) (at_Ub speeds);
                  l_Uc := load (Some (Uc_mps g)) (at_Uc speeds);
                  l_Ud := load (Some (Ud_mps g)) (at_Ud speeds) |},
      k_g, liftslope).

(** dictionary access: KeyError *)
Definition entry {A} (o : option A) : res A := match o with Some x => Ok x | None => Err KeyError end.

Record speeds := {
  vcmin_keas : num; vcsoftmax_keas : param; vdmin_keas : num; vamin_keas : num; vasoftmax_keas : num;
  vbmin1_keas : num; vbmin2_keas : num; vbmin_keas : num; vbmax_keas : num }.
(* airworthiness.py:254-371, for one category: the loop over the categories computes
   all four, see paragraph335 *)
Definition speeds335 (s : cert) (vc clmax wingloading vs : num)
    (limits : cat -> limitload) (gusts : cat -> gusts) (loads : cat -> gustload)
    (k_g liftslope : num) (c : cat) : res speeds :=
  let wl := pa2lbfft2 wingloading in
  (* (a): lines 295-301 *)
  let vcfactor := match c with
                  | Norm | Util | Comm => npinterp2 wl #20 #100 #33 #28.6
                  | Aero => npinterp2 wl #20 #100 #36 #28.6 end in
  let vcmin := vcfactor * nsqrt wl in
  (* lines 304-309 *)
  let vcsoftmax := match maxlevelspeed_keas s with None => None | Some vh => Some (#0.9 * vh) end in
  (* (b): lines 316-323 *)
  let vdfactor := match c with
                  | Norm | Comm => npinterp2 wl #20 #100 #1.4 #1.35
                  | Util => npinterp2 wl #20 #100 #1.5 #1.35
                  | Aero => npinterp2 wl #20 #100 #1.55 #1.35 end in
  let vdmin := nfmax (#1.25 * vc) (vdfactor * vcmin) in
  (* (c): lines 330-336 *)
  do r <- msqrt (npos_min (limits c));
  let vamin := vs * r in
  (* (d): lines 341-369; [a] is 1 *)
  let wfract := weightfraction s in
  do gust <- match c with Comm => entry (Ub_mps (gusts c)) | _ => Ok (Uc_mps (gusts c)) end;
  let trueloading := wingloading * wfract in
  do rho0 <- dens_at (acobj s) #0;
  let b := nopp (liftslope / clmax) * k_g * gust in
  let cc := #(-2) * trueloading / (rho0 * clmax) * wfract in
  let vbmin1 := mps2kts ((nopp b + ((b ^ 2 - #4 * #1 * cc) ** #0.5)) / (#2 * #1)) in
  do nposc <- entry (l_Uc (loads c));
  do r <- msqrt (fst nposc);
  let vbmin2 := vs * r in
  let vbmin := nfmin vbmin1 vbmin2 in
  Ok {| vcmin_keas := vcmin; vcsoftmax_keas := vcsoftmax; vdmin_keas := vdmin; vamin_keas := vamin;
        vasoftmax_keas := vc; vbmin1_keas := vbmin1; vbmin2_keas := vbmin2; vbmin_keas := vbmin;
        vbmax_keas := nfmax vbmin vc |}.

(* airworthiness.py:254-371 *)
Definition paragraph335 (ext : externals) (s : cert) : res (cat -> speeds) :=
  do vc <- required (cruisespeed_keas s);
  do clmax <- required (clmaxclean (acobj s));
  do weight <- required (weight_n (acobj s));
  do area <- required (wingarea_m2 (acobj s));
  let wingloading := weight / area in
  do vs <- vs_keas s (weightfraction s);
  do limits <- paragraph337 s;
  do p333 <- paragraph333 s;
  do p341 <- paragraph341 ext s {| at_Ub := None; at_Uc := Some vc; at_Ud := None |};
  let '(loads, k_g, liftslope) := p341 in
  let one := speeds335 s vc clmax wingloading vs limits (snd p333) loads k_g liftslope in
  do n <- one Norm; do u <- one Util; do c <- one Comm; do a <- one Aero;
  Ok (fun k => match k with Norm => n | Util => u | Comm => c | Aero => a end).

(* ------------------------------------------------------------------------ *)
(** * Flight envelope *)

(** np.linspace(a, b, 100) *)
Definition linspace100 (a b : num) : list num :=
  map (fun i => a + Fin (INR i) * ((b - a) / #99)) (seq 0 100).
(** np.interp(x, [x0, x1], [y0, y1]) whatever the order of x0 and x1 (numpy's search in
    a table with two entries) *)
Definition npinterp (x x0 x1 y0 y1 : num) : num :=
  if x1 <? x then y1 else if x <? x0 then y0
  else if neqb x x1 then y1 else if neqb x x0 then y0
  else (y1 - y0) / (x1 - x0) * (x - x0) + y0.
(** sequence[-1] *)
Definition lastn (l : list num) : res num :=
  match rev l with x :: _ => Ok x | [] => Err IndexError end.
Definition firstn' (l : list num) : res num :=
  match l with x :: _ => Ok x | [] => Err IndexError end.

Definition point := (num * num)%type.
Record envelope := {
  (** coords_poi, returned *)
  poi : dict point;
  (** coords_envelope and coords_manoeuvre, drawn: the curves as lists of points *)
  outline : dict (list point);
  manoeuvre_outline : dict (list point) }.

(* airworthiness.py:565-757 *)
Definition flightenvelope (ext : externals) (s : cert) : res envelope :=
  do c <- check_category (category s);
  do rho0 <- dens_at (acobj s) #0;                                  (* 586 *)
  do vc <- required (cruisespeed_keas s);
  do clmax <- required (clmaxclean (acobj s));
  do clmin <- required (clminclean (acobj s));
  do weight <- required (weight_n (acobj s));
  do area <- required (wingarea_m2 (acobj s));
  let wingloading := weight / area in
  let wfract := weightfraction s in
  let trueloading := wingloading * wfract in
  do p335 <- paragraph335 ext s;
  let lim := p335 c in
  do p333 <- paragraph333 s;
  let mano := fst p333 c in
  (* 622-661: design speeds *)
  let vc := pymax vc (vcmin_keas lim) in
  let vd := match divespeed_keas s with
            | None => vdmin_keas lim
            | Some v => pymax v (vdmin_keas lim) end in
  let va := vamin_keas lim in
  let vb := vbmin1_keas lim in
  do vs <- vs_keas s (#1 * wfract);
  do vis <- vs_keas s (#(-1) * wfract);
  do r <- msqrt (nabs (nneg_C mano));
  let viamin := vis * r in
  (* 664-665 *)
  do p341 <- paragraph341 ext s {| at_Ub := Some vb; at_Uc := Some vc; at_Ud := Some vd |};
  let '(loads, _, _) := p341 in
  do gc <- entry (l_Uc (loads c));
  do gd <- entry (l_Ud (loads c));
  (* 671-673, 694 and 700: the stall curve *)
  let stall speed := rho0 * (kts2mps speed ^ 2) * clmax / trueloading / #2 / wfract in
  let oa_x := linspace100 #0 va in
  let oa := map (fun v => (v, stall v)) oa_x in
  (* 675-680 *)
  let m_d := (vd, npos_D mano * (wingloading / trueloading)) in
  let m_e := (vd, nneg_D mano * (wingloading / trueloading)) in
  let m_f := (vc, nneg_C mano * (wingloading / trueloading)) in
  (* 682-684 *)
  let go_x := linspace100 viamin #0 in
  let go_y := map (fun v => #0.5 * rho0 * (kts2mps v ^ 2) * clmin / trueloading / wfract) go_x in
  (* 691-704 *)
  let sc_x := linspace100 vs vc in
  let b_ygustpen := stall vb in
  let c_ygust := fst gc in
  let d_ymano := npos_D mano / wfract in
  let sc_y := map (fun speed =>
      if ((speed <=? va) || (speed <=? vb))%bool then stall speed
      else pymax (npinterp speed vb vc b_ygustpen c_ygust) d_ymano) sc_x in
  do sc_end <- lastn sc_y;
  (* 706-711 *)
  let cd_x := linspace100 vc vd in
  let d_ygust := fst gd in
  let cd_y := map (fun speed => pymax (npinterp speed vc vd sc_end d_ygust) d_ymano) cd_x in
  do cd_end <- lastn cd_y;
  (* 714-717 *)
  let e_ygust := snd gd in
  let e_ymano := nneg_D mano / wfract in
  let e_y := pymin e_ygust e_ymano in
  (* 719-726 *)
  let ef_x := linspace100 vd vc in
  let f_ygust := snd gc in
  let f_ymano := nneg_C mano / wfract in
  let inverted speed := rho0 * (kts2mps speed ^ 2) * clmin / trueloading / #2 / wfract in
  let f_ystall := inverted vc in
  let ef_y := map (fun speed =>
      pymin (npinterp speed vc vd (pymax f_ygust f_ystall) e_ygust) e_ymano) ef_x in
  do ef_end <- lastn ef_y;
  (* 728-737 *)
  let fs_x := linspace100 vc vis in
  let fs_y := map (fun speed =>
      if speed <? viamin then inverted speed
      else pymax (pymin (npinterp speed #0 vc #1 f_ygust) f_ymano) (inverted speed)) fs_x in
  (* 738-754 *)
  do go_start <- firstn' go_y;
  let points := [ ("A", (va, d_ymano)); ("B", (vb, b_ygustpen)); ("C", (vc, sc_end));
                  ("D", (vd, cd_end)); ("E", (vd, e_y)); ("F", (vc, ef_end));
                  ("G", (viamin, go_start)) ]%string in
  let points := if vc <? vb then filter (fun kv => negb (String.eqb (fst kv) "B")) points else points in
  Ok {| poi := points;
        outline := [ ("OS", [(vs, #0); (vs, #1 / wfract)]); ("SC", combine sc_x sc_y);
                     ("CD", combine cd_x cd_y); ("E", [(vd, e_y)]); ("EF", combine ef_x ef_y);
                     ("FS", combine fs_x fs_y);
                     ("iSO", [(vis, pymax #(-1) go_start); (vis, #0); (vs, #0)]) ]%string;
        manoeuvre_outline := [ ("OA", oa); ("D", [m_d]); ("E", [m_e]); ("F", [m_f]);
                               ("GO", combine go_x go_y) ]%string |}.
