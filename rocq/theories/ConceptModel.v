(** ADRpy/constraintanalysis.py, AircraftConcept.__init__ (lines 258-508).
    Definitions only. *)
From Verif Require Import Base UnitsModel AtmosModel.
Open Scope string_scope.

(* ------------------------------------------------------------------------ *)
(** * Python values found in the design dictionaries *)

(** a bool or a number (int and float are not distinguished) *)
Inductive scalar : Type := SBool (b : bool) | SNum (x : num).
(** a dictionary value: scalar, list of numbers, or dictionary of scalars.
    Strings, None, nested lists and other objects are not modelled. *)
Inductive pv : Type :=
| PScal (s : scalar)
| PList (l : list num)
| PDict (d : list (string * scalar)).

(** Python dictionaries, in insertion order (keys are unique in Python; the first
    binding counts here). *)
Definition dict (V : Type) := list (string * V).
Fixpoint dget {V} (k : string) (d : dict V) : option V :=
  match d with
  | [] => None
  | (k', v) :: r => if String.eqb k k' then Some v else dget k r
  end.
(** d[k] = v: in place if present, otherwise at the end *)
Fixpoint dset {V} (k : string) (v : V) (d : dict V) : dict V :=
  match d with
  | [] => [(k, v)]
  | (k', v') :: r => if String.eqb k k' then (k', v) :: r else (k', v') :: dset k v r
  end.
(** d[k]: KeyError when absent *)
Definition dindex {V} (d : dict V) (k : string) : res V :=
  match dget k d with Some v => Ok v | None => Err KeyError end.

Definition isFalse (v : pv) : bool :=
  match v with PScal (SBool false) => true | _ => false end.
(** a bool takes part in arithmetic as 0 or 1 *)
Definition snum (s : scalar) : num :=
  match s with SBool true => #1 | SBool false => #0 | SNum x => x end.
Definition pnum (x : R) : pv := PScal (SNum (Fin x)).
Definition pfalse : pv := PScal (SBool false).

(** [c * v] for an int literal c: a list is repeated, a dict raises TypeError *)
Definition pmul (c : nat) (v : pv) : res pv :=
  match v with
  | PScal s => Ok (PScal (SNum (Fin (INR c) * snum s)%num))
  | PList l => Ok (PList (List.concat (repeat l c)))
  | PDict _ => Err TypeError
  end.
(** [v / 7] *)
Definition pdiv7 (v : pv) : res pv :=
  match v with
  | PScal s => Ok (PScal (SNum (snum s / #7)%num))
  | _ => Err TypeError
  end.
(** [a + b] *)
Definition padd (a b : pv) : res pv :=
  match a, b with
  | PScal s, PScal t => Ok (PScal (SNum (snum s + snum t)%num))
  | PList l, PList m => Ok (PList (l ++ m)%list)
  | _, _ => Err TypeError
  end.
(** sum(l) / len(l): ZeroDivisionError for the empty list *)
Definition mean (l : list num) : res num :=
  match l with
  | [] => Err ZeroDivisionError
  | _ => Ok (fold_left nadd l #0 / Fin (INR (List.length l)))%num
  end.

(* ------------------------------------------------------------------------ *)
(** * Default dictionaries *)

(* constraintanalysis.py:281-311 *)
Definition default_brief : dict pv :=
  [ ("climbalt_m", pnum 0); ("climbspeed_kias", pfalse); ("climbrate_fpm", pfalse);
    ("cruisealt_m", pfalse); ("cruisespeed_ktas", pfalse); ("cruisethrustfact", pnum 1);
    ("servceil_m", pfalse); ("secclimbspd_kias", pfalse); ("vstallclean_kcas", pfalse);
    ("groundrun_m", pfalse); ("rwyelevation_m", pnum 0); ("to_headwind_kts", pnum 0);
    ("to_slope_perc", pnum 0); ("stloadfactor", pfalse); ("turnalt_m", pnum 0);
    ("turnspeed_ktas", pfalse) ].
(* constraintanalysis.py:315-339 *)
Definition default_design : dict pv :=
  [ ("aspectratio", pnum 8); ("sweep_le_deg", pfalse); ("sweep_mt_deg", pfalse);
    ("sweep_25_deg", pfalse); ("roottaperratio", pfalse); ("wingarea_m2", pfalse);
    ("wingheightratio", pnum 100); ("bpr", pnum (-1)); ("spooluptime_s", pnum 5);
    ("totalstaticthrust_n", pfalse); ("tr", pnum 1.07); ("weight_n", pfalse);
    ("weightfractions", PDict [ ("climb", SNum #1); ("cruise", SNum #1);
                                ("servceil", SNum #1); ("turn", SNum #1) ]);
    ("runwayalpha_deg", pnum 0); ("runwayalpha_max_deg", pfalse) ].
(* constraintanalysis.py:343-362 *)
Definition default_performance : dict pv :=
  [ ("CD0TO", pfalse); ("CDTO", pnum 0.09); ("CDminclean", pnum 0.03); ("mu_R", pnum 0.03);
    ("CL0TO", pfalse); ("CLTO", pnum 0.95); ("CLmaxTO", pnum 1.5); ("CLmaxclean", pfalse);
    ("CLminclean", pfalse); ("CLslope", pnum (2 * PI));
    ("etaprop", PDict [ ("climb", SBool false); ("cruise", SBool false);
                        ("servceil", SBool false); ("take-off", SBool false);
                        ("turn", SBool false) ]) ].
(* constraintanalysis.py:409-411 *)
Definition default_etaprop : dict scalar :=
  [ ("climb", SNum #0.75); ("cruise", SNum #0.85); ("servceil", SNum #0.65);
    ("take-off", SNum #0.45); ("turn", SNum #0.85) ].

(* ------------------------------------------------------------------------ *)
(** * The constructor *)

(* constraintanalysis.py:383-386: missing entries of a sub-dictionary *)
Definition fillsub (defaults : dict scalar) (d : dict scalar) : dict scalar :=
  fold_left (fun acc kv => match dget (fst kv) acc with
                           | None => dset (fst kv) (snd kv) acc
                           | Some _ => acc
                           end) defaults d.
(* constraintanalysis.py:374-386: one default entry *)
Definition fill1 (kv : string * pv) (d : dict pv) : res (dict pv) :=
  let (k, dv) := kv in
  match dget k d with
  | None => Ok (dset k dv d)
  | Some (PDict sub) =>
      match dv with
      | PDict dsub => Ok (dset k (PDict (fillsub dsub sub)) d)
      | _ => Err AttributeError      (* the default has no .items() *)
      end
  | Some _ => Ok d
  end.
(* constraintanalysis.py:371-386, one chapter *)
Fixpoint populate (defaults d : dict pv) : res (dict pv) :=
  match defaults with
  | [] => Ok d
  | kv :: r => do d' <- fill1 kv d; populate r d'
  end.

(* constraintanalysis.py:391-397: sweep angles *)
Definition sweeps (d : dict pv) : res (dict pv) :=
  do le <- dindex d "sweep_le_deg";
  let d := if isFalse le then dset "sweep_le_deg" (pnum 0) d else d in
  do le <- dindex d "sweep_le_deg";
  do mt <- dindex d "sweep_mt_deg";
  let d := if isFalse mt then dset "sweep_mt_deg" le d else d in
  do mt <- dindex d "sweep_mt_deg";
  do s25 <- dindex d "sweep_25_deg";
  if isFalse s25 then
    do a <- pmul 2 le;
    do b0 <- pmul 5 mt; do b <- pdiv7 b0;
    do s <- padd a b;
    Ok (dset "sweep_25_deg" s d)
  else Ok d.

(* constraintanalysis.py:401-408: taper ratio; the flag is taperdefaultflag *)
Definition taper (d : dict pv) : res (dict pv * bool) :=
  do t <- dindex d "roottaperratio";
  if isFalse t then
    do s25 <- dindex d "sweep_25_deg";
    do avg <- match s25 with
              | PList l => mean l
              | PScal s => Ok (snum s)
              | PDict _ => Err TypeError
              end;
    Ok (dset "roottaperratio" (PScal (SNum (#0.45 * nexp (#(-0.0375) * avg))%num)) d, true)
  else Ok (d, false).

(* constraintanalysis.py:415-418: the loop over performance['etaprop'] *)
Fixpoint etaloop (entries : dict scalar) (d : dict scalar) (count : nat) : res (dict scalar * nat) :=
  match entries with
  | [] => Ok (d, count)
  | (k, SBool false) :: r =>
      do v <- dindex default_etaprop k; etaloop r (dset k v d) (S count)
  | _ :: r => etaloop r d count
  end.
(* constraintanalysis.py:412-419 *)
Definition etas (p : dict pv) : res (dict pv * nat) :=
  do e <- dindex p "etaprop";
  match e with
  | PDict d => do r <- etaloop d d 0; Ok (dset "etaprop" (PDict (fst r)) p, snd r)
  | _ => Err AttributeError          (* no .items() *)
  end.

(* constraintanalysis.py:426-428: lists are replaced by their mean, for the keys of
   the default dictionary *)
Fixpoint average (defaults d : dict pv) : res (dict pv) :=
  match defaults with
  | [] => Ok d
  | (k, _) :: r =>
      do v <- dindex d k;
      do d' <- match v with
               | PList l => do m <- mean l; Ok (dset k (PScal (SNum m)) d)
               | _ => Ok d
               end;
      average r d'
  end.

(** A stored attribute: None is False ("not specified"). *)
Definition param := option num.
Definition toparam (v : pv) : res param :=
  match v with
  | PScal (SBool false) => Ok None
  | PScal s => Ok (Some (snum s))
  | _ => Err TypeError   (* not reachable for scalar keys after averaging *)
  end.
(** Use of an attribute in arithmetic: False counts as 0. *)
Definition pval (p : param) : num := match p with Some x => x | None => #0 end.

(** The propulsion argument after lines 266-277: False, a string, or a tuple whose
    first entry is an engine deck.  The sea level corrections of a deck are
    interpolations in tables (propulsion.py) and are kept as functions; [rpms] are
    the engine speeds np.arange(min, max) of a piston deck's power table. *)
Inductive propulsion_t : Type :=
| PropFalse
| PropStr (s : string)
| PropTurboprop (sl_powercorr : num -> num -> num)
| PropPiston (rpms : list R) (shaftpower sl_powercorr : num -> num -> num)
| PropElectric
| PropJet (sl_thrustcorr : num -> num -> num)
| PropOther.

Record concept := {
  climbalt_m : param; climbspeed_kias : param; climbrate_fpm : param;
  cruisealt_m : param; cruisespeed_ktas : param; cruisethrustfact : param;
  servceil_m : param; secclimbspd_kias : param; vstallclean_kcas : param;
  groundrun_m : param; rwyelevation_m : param; to_headwind_kts : param;
  to_slope_perc : param; turnalt_m : param; turnspeed_ktas : param; stloadfactor : param;
  aspectratio : param; sweep_le_deg : param; sweep_25_deg : param; sweep_mt_deg : param;
  roottaperratio : param; wingarea_m2 : param; wingheightratio : param;
  bpr : param; spooluptime_s : param; totalstaticthrust_n : param; throttle_r : param;
  weight_n : param;
  climb_weight_fraction : param; cruise_weight_fraction : param;
  sec_weight_fraction : param; turn_weight_fraction : param;
  runwayalpha_deg : param; runwayalpha_max_deg : param;
  CD0TO : param; cdto : param; cdminclean : param; mu_r : param;
  CL0TO : param; clto : param; clmaxclean : param; clminclean : param; clmaxto : param;
  a_0i : param;
  etaprop_climb : param; etaprop_cruise : param; etaprop_sec : param;
  etaprop_to : param; etaprop_turn : param;
  designatm : atmosphere; propulsion : propulsion_t }.

(** self.x = d[k] *)
Definition attr_of (d : dict pv) (k : string) : res param :=
  do v <- dindex d k; toparam v.
(** self.x = d[k][sub] *)
Definition subattr_of (d : dict pv) (k sub : string) : res param :=
  do v <- dindex d k;
  match v with
  | PDict e => do s <- dindex e sub; toparam (PScal s)
  | _ => Err TypeError               (* not subscriptable *)
  end.

(* constraintanalysis.py:434-508: the attributes *)
Definition attributes (b d p : dict pv) (atm : atmosphere) (prop : propulsion_t) : res concept :=
  do calt <- attr_of b "climbalt_m"; do cspd <- attr_of b "climbspeed_kias";
  do crate <- attr_of b "climbrate_fpm";
  do ralt <- attr_of b "cruisealt_m"; do rspd <- attr_of b "cruisespeed_ktas";
  do rthr <- attr_of b "cruisethrustfact";
  do sc <- attr_of b "servceil_m"; do ss <- attr_of b "secclimbspd_kias";
  do vs <- attr_of b "vstallclean_kcas";
  do gr <- attr_of b "groundrun_m"; do re <- attr_of b "rwyelevation_m";
  do hw <- attr_of b "to_headwind_kts"; do sl <- attr_of b "to_slope_perc";
  do ta <- attr_of b "turnalt_m"; do ts <- attr_of b "turnspeed_ktas";
  do st <- attr_of b "stloadfactor";
  do ar <- attr_of d "aspectratio"; do sle <- attr_of d "sweep_le_deg";
  do s25 <- attr_of d "sweep_25_deg"; do smt <- attr_of d "sweep_mt_deg";
  do tap <- attr_of d "roottaperratio"; do wa <- attr_of d "wingarea_m2";
  do wh <- attr_of d "wingheightratio";
  do bp <- attr_of d "bpr"; do sp <- attr_of d "spooluptime_s";
  do tst <- attr_of d "totalstaticthrust_n"; do tr <- attr_of d "tr";
  do w <- attr_of d "weight_n";
  do wfc <- subattr_of d "weightfractions" "climb";
  do wfr <- subattr_of d "weightfractions" "cruise";
  do wfs <- subattr_of d "weightfractions" "servceil";
  do wft <- subattr_of d "weightfractions" "turn";
  do ra <- attr_of d "runwayalpha_deg"; do rm <- attr_of d "runwayalpha_max_deg";
  do cd0 <- attr_of p "CD0TO"; do cd <- attr_of p "CDTO"; do cdm <- attr_of p "CDminclean";
  do mu <- attr_of p "mu_R";
  do cl0 <- attr_of p "CL0TO"; do cl <- attr_of p "CLTO"; do clm <- attr_of p "CLmaxclean";
  do cln <- attr_of p "CLminclean"; do clt <- attr_of p "CLmaxTO"; do a0 <- attr_of p "CLslope";
  do e1 <- subattr_of p "etaprop" "climb"; do e2 <- subattr_of p "etaprop" "cruise";
  do e3 <- subattr_of p "etaprop" "servceil"; do e4 <- subattr_of p "etaprop" "take-off";
  do e5 <- subattr_of p "etaprop" "turn";
  Ok {| climbalt_m := calt; climbspeed_kias := cspd; climbrate_fpm := crate;
        cruisealt_m := ralt; cruisespeed_ktas := rspd; cruisethrustfact := rthr;
        servceil_m := sc; secclimbspd_kias := ss; vstallclean_kcas := vs;
        groundrun_m := gr; rwyelevation_m := re; to_headwind_kts := hw; to_slope_perc := sl;
        turnalt_m := ta; turnspeed_ktas := ts; stloadfactor := st;
        aspectratio := ar; sweep_le_deg := sle; sweep_25_deg := s25; sweep_mt_deg := smt;
        roottaperratio := tap; wingarea_m2 := wa; wingheightratio := wh;
        bpr := bp; spooluptime_s := sp; totalstaticthrust_n := tst; throttle_r := tr;
        weight_n := w;
        climb_weight_fraction := wfc; cruise_weight_fraction := wfr;
        sec_weight_fraction := wfs; turn_weight_fraction := wft;
        runwayalpha_deg := ra; runwayalpha_max_deg := rm;
        CD0TO := cd0; cdto := cd; cdminclean := cdm; mu_r := mu;
        CL0TO := cl0; clto := cl; clmaxclean := clm; clminclean := cln; clmaxto := clt;
        a_0i := a0;
        etaprop_climb := e1; etaprop_cruise := e2; etaprop_sec := e3;
        etaprop_to := e4; etaprop_turn := e5;
        designatm := atm; propulsion := prop |}.

(** What constructing a concept leaves behind: the object with its designspace,
    designstate and flags, and the caller's three dictionaries. *)
Record constructed := {
  obj : concept;
  designspace : dict pv * dict pv * dict pv;
  designstate : dict pv * dict pv * dict pv;
  taperdefaultflag : bool; etadefaultflag : nat;
  callers : dict pv * dict pv * dict pv }.

(** [x = {} if not arg else arg]: an empty argument is replaced by a new dictionary,
    so the caller's stays empty; any other argument is modified in place. *)
Definition after {V} (arg final : dict V) : dict V :=
  match arg with [] => [] | _ => final end.

(* constraintanalysis.py:258-508.  Simplifications: the three arguments are distinct
   dictionaries not shared with each other, and the default atmosphere is chosen by
   the caller of this function. *)
Definition construct (brief design performance : dict pv) (atm : atmosphere)
    (prop : propulsion_t) : res constructed :=
  do b <- populate default_brief brief;
  do d0 <- populate default_design design;
  do p0 <- populate default_performance performance;
  do d1 <- sweeps d0;
  do dt <- taper d1;
  do pe <- etas p0;
  let space := (b, fst dt, fst pe) in
  do b' <- average default_brief b;
  do d' <- average default_design (fst dt);
  do p' <- average default_performance (fst pe);
  do o <- attributes b' d' p' atm prop;
  Ok {| obj := o; designspace := space; designstate := (b', d', p');
        taperdefaultflag := snd dt; etadefaultflag := snd pe;
        callers := (after brief b', after design d', after performance p') |}.

(* ------------------------------------------------------------------------ *)
(** * The propulsion argument *)

(** what a caller may pass: nothing, text, a tuple of objects, another iterable (for
    example a list), or a single object that cannot be iterated over *)
Inductive proparg : Type :=
| ArgNone
| ArgStr (s : string)
| ArgTuple (l : list propulsion_t)
| ArgIterable
| ArgObject (engine : propulsion_t).

(* constraintanalysis.py:267-277; of a pair only the engine (first entry) is kept,
   the second is not used by the constraint methods *)
Definition parse_propulsion (a : proparg) : propulsion_t :=
  match a with
  | ArgNone => PropFalse
  | ArgStr s => PropStr s
  | ArgTuple [e; _] => e
  | ArgTuple _ => PropFalse
  | ArgIterable => PropFalse
  | ArgObject e => e
  end.
