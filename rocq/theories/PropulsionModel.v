(** ADRpy/propulsion.py: engine data lookup, engine decks, propeller model.
    Definitions only; every definition cites the lines it models.

    What [printdata] prints is in CatalogueModel; warnings are in EngineWarnModel (here a method that
    warns and returns None is modelled by its None), the demo plots in DemoModel.  External behaviour enters as
    function arguments: the content of a table ([read_csv], pandas), the text of
    a file ([read_text], after newline translation and removal of the byte order
    mark), the conversion [parse] of float(), and scipy's [griddata] ([grid],
    evaluated point by point). *)
From Coq Require Import Ascii.
From Verif Require Import Base AtmosModel ConceptModel.
Open Scope num_scope.

(* ------------------------------------------------------------------------ *)
(** * Python glue *)

(** [sub in s] for strings *)
Fixpoint contains (sub s : string) : bool :=
  (prefix sub s || match s with EmptyString => false | String _ r => contains sub r end)%bool.

(** str.lower() and str.capitalize()'s first letter, ASCII only *)
Definition lower_ascii (c : ascii) : ascii :=
  let n := nat_of_ascii c in
  if (Nat.leb 65 n && Nat.leb n 90)%bool then ascii_of_nat (n + 32) else c.
Fixpoint lower (s : string) : string :=
  match s with EmptyString => EmptyString | String c r => String (lower_ascii c) (lower r) end.

(** str.split(sep) for a one-character separator *)
Fixpoint split_on (sep : ascii) (s : string) : list string :=
  match s with
  | EmptyString => [EmptyString]
  | String c r =>
      if Ascii.eqb c sep then EmptyString :: split_on sep r
      else match split_on sep r with
           | [] => [String c EmptyString]
           | w :: ws => String c w :: ws
           end
  end.

(** a loop that updates a state and may raise *)
Fixpoint foldM {S A} (f : S -> A -> res S) (s : S) (l : list A) : res S :=
  match l with [] => Ok s | x :: r => do s' <- f s x; foldM f s' r end.
(** enumerate *)
Definition enumerate {A} (l : list A) : list (nat * A) := combine (seq 0 (List.length l)) l.
(** [l[i] = v] *)
Fixpoint set_nth {A} (i : nat) (v : A) (l : list A) : list A :=
  match l, i with
  | [], _ => []
  | _ :: r, O => v :: r
  | x :: r, S j => x :: set_nth j v r
  end.
(** [l[i]]: IndexError beyond the end *)
Definition index {A} (l : list A) (i : nat) : res A :=
  match nth_error l i with Some x => Ok x | None => Err IndexError end.
(** Python's max over the elements of an array: replaces the candidate when a
    later element compares greater *)
Definition pymaxn (l : list num) : res num :=
  match l with
  | [] => Err ValueError
  | x :: r => Ok (fold_left (fun m y => if m <? y then y else m) r x)
  end.
(** Python's min(a, b) *)
Definition pymin2 (a b : num) : num := if b <? a then b else a.
(** numpy.average *)
Definition average (l : list num) : num :=
  fold_right nadd #0 l / Fin (INR (List.length l)).
(** numpy.log: nan or -inf for an argument <= 0 *)
Definition nlog : num -> num := lift1 (fun a => if Rltb 0 a then Fin (ln a) else NonFin).
(** numpy.interp(x, [0, 1], [0, 1]) *)
Definition interp01 (x : num) : num := if x <? #0 then #0 else if #1 <? x then #1 else x.
(** nearest integer, ties to even *)
Definition nearest (x : R) : Z :=
  let f := (up x - 1)%Z in
  if Rltb (x - IZR f) (1/2) then f
  else if Rltb (1/2) (x - IZR f) then (f + 1)%Z
  else if Z.even f then f else (f + 1)%Z.
(** [round(a, dp) == round(b, dp)]: equal multiples of 10^-dp; nan equals nothing.
    [dp >= 0] (the code's default is 6). *)
Definition round_eqb (dp : nat) (a b : num) : bool :=
  match a, b with
  | Fin x, Fin y => Z.eqb (nearest (x * 10 ^ dp)%R) (nearest (y * 10 ^ dp)%R)
  | _, _ => false
  end.
(** numpy conversion of a list to an array when it takes part in broadcasting *)
Definition toarr (v : val) : val := match v with VList l => VArr l | _ => v end.

(* ------------------------------------------------------------------------ *)
(** * Data files *)

(** a pandas data frame: columns by name *)
Definition frame := dict (list num).
(** numpy.polynomial.Polynomial: coefficients, lowest order first *)
Definition poly := list num.
(** evaluation of a Polynomial with the default domain and window (Horner) *)
Fixpoint polyval (c : poly) (x : num) : num :=
  match c with [] => #0 | a :: r => a + x * polyval r x end.

(** the entries of [data_available]: two lists of flags and two flags *)
Inductive flag : Type := FList (l : list bool) | FBool (b : bool).
(** [value is False] *)
Definition is_False (f : flag) : bool := match f with FBool false => true | _ => false end.

Record loaded := {
  out_data : list (option frame); eta_data : list (option frame);
  sl_poly : option (poly * list num); to_poly : option (poly * list num);
  out_avail : list bool; eta_avail : list bool; sl_avail : bool; to_avail : bool }.

Section External.
Variable read_csv : string -> res frame.
Variable read_text : string -> res string.
Variable parse : string -> option num.

(** [float(s)] *)
Definition to_float (s : string) : res num :=
  match parse s with Some x => Ok x | None => Err ValueError end.

(* propulsion.py:1799-1838 _poly_process *)
Definition poly_process (file : string) : res (poly * list num) :=
  do text <- read_text file;
  let lines := split_on "010"%char text in
  do l0 <- index lines 0;
  do coeffs <- mapM to_float (split_on ","%char l0);
  do l1 <- index lines 1;
  do limits <- mapM to_float
       (filter (fun s => negb (Nat.eqb (String.length s) 0)) (split_on ","%char l1));
  Ok (coeffs, limits).

(* propulsion.py:1766-1783: body of the loop over [outputs] *)
Definition setup_output (data : string) (st : loaded) (io : nat * string) : res loaded :=
  let '(i, output) := io in
  do st <- (if contains (output ++ "_data.csv") (lower data)
            then do f <- read_csv data;
                 Ok {| out_data := set_nth i (Some f) (out_data st); eta_data := eta_data st;
                       sl_poly := sl_poly st; to_poly := to_poly st;
                       out_avail := set_nth i true (out_avail st); eta_avail := eta_avail st;
                       sl_avail := sl_avail st; to_avail := to_avail st |}
            else Ok st);
  do st <- (if contains ("sea_level_" ++ output ++ "_polynomial.csv") (lower data)
            then do p <- poly_process data;
                 Ok {| out_data := out_data st; eta_data := eta_data st;
                       sl_poly := Some p; to_poly := to_poly st;
                       out_avail := out_avail st; eta_avail := eta_avail st;
                       sl_avail := true; to_avail := to_avail st |}
            else Ok st);
  if contains ("sea_level_take_off_" ++ output ++ "_polynomial.csv") (lower data)
  then do p <- poly_process data;
       Ok {| out_data := out_data st; eta_data := eta_data st;
             sl_poly := sl_poly st; to_poly := Some p;
             out_avail := out_avail st; eta_avail := eta_avail st;
             sl_avail := sl_avail st; to_avail := true |}
  else Ok st.

(* propulsion.py:1786-1790: body of the loop over [efficiencies] *)
Definition setup_eta (data : string) (st : loaded) (ie : nat * string) : res loaded :=
  let '(i, eff) := ie in
  if contains (eff ++ "_data.csv") (lower data)
  then do f <- read_csv data;
       Ok {| out_data := out_data st; eta_data := set_nth i (Some f) (eta_data st);
             sl_poly := sl_poly st; to_poly := to_poly st;
             out_avail := out_avail st; eta_avail := set_nth i true (eta_avail st);
             sl_avail := sl_avail st; to_avail := to_avail st |}
  else Ok st.

(* propulsion.py:1722-1796 _setup; [listing] is os.listdir(csvpath), in the order
   the file system returns it *)
Definition setup (engine_name : string) (listing outputs efficiencies : list string) : res loaded :=
  let specific_data := filter (contains engine_name) listing in
  let st := {| out_data := repeat None (List.length outputs);
               eta_data := repeat None (List.length efficiencies);
               sl_poly := None; to_poly := None;
               out_avail := repeat false (List.length outputs);
               eta_avail := repeat false (List.length efficiencies);
               sl_avail := false; to_avail := false |} in
  do st <- foldM (fun st data =>
             do st <- foldM (setup_output data) st (enumerate outputs);
             foldM (setup_eta data) st (enumerate efficiencies)) st specific_data;
  let data_available := [FList (out_avail st); FList (eta_avail st);
                         FBool (sl_avail st); FBool (to_avail st)] in
  if forallb is_False data_available then Err NameError else Ok st.

(** numpy array [[a, b, c]] built from three columns of a data frame *)
Record table := { tx : list num; ty : list num; tz : list num }.
(** [df["name"].to_numpy()] for three columns: KeyError for an absent column.
    Columns of one data frame have equal lengths. *)
Definition columns (f : frame) (a b c : string) : res table :=
  do x <- dindex f a; do y <- dindex f b; do z <- dindex f c;
  Ok {| tx := x; ty := y; tz := z |}.
(** [if data_available[..][i] is True: ...]: table attribute, absent otherwise *)
Definition attribute (avail : list bool) (data : list (option frame)) (i : nat) (a b c : string)
  : res (option table) :=
  do on <- index avail i;
  if on then
    do f <- index data i;
    match f with Some f => rmap Some (columns f a b c) | None => Err TypeError end
  else Ok None.

(* propulsion.py:140-181 TurbopropDeck.__init__ *)
Record turboprop := { tp_thr : option table; tp_pwr : option table; tp_bsfc : option table }.
Definition turboprop_deck (engine_name : string) (listing : list string) : res turboprop :=
  do d <- setup engine_name listing ["thrust"; "power"]%string ["bsfc"]%string;
  do t <- attribute (out_avail d) (out_data d) 0 "Mach Number" "Altitude (m)" "Thrust (N)";
  do p <- attribute (out_avail d) (out_data d) 1 "Mach Number" "Altitude (m)" "Power (W)";
  do b <- attribute (eta_avail d) (eta_data d) 0 "Mach Number" "Altitude (m)" "BSFC (g/(kWh))";
  Ok {| tp_thr := t; tp_pwr := p; tp_bsfc := b |}.

(* propulsion.py:559-600 PistonDeck.__init__ *)
Record piston := { pi_pwr : option table; pi_bsfc : option table; pi_bsfc_pwr : option table }.
Definition piston_deck (engine_name : string) (listing : list string) : res piston :=
  do d <- setup engine_name listing ["power"]%string ["bsfc"; "bsfc_best_power"]%string;
  do p <- attribute (out_avail d) (out_data d) 0 "Speed (RPM)" "Altitude (m)" "Power (W)";
  do b <- attribute (eta_avail d) (eta_data d) 0 "Speed (RPM)" "Power (W)" "BSFC (g/(kWh))";
  do q <- attribute (eta_avail d) (eta_data d) 1 "Speed (RPM)" "Power (W)" "BSFC (g/(kWh))";
  Ok {| pi_pwr := p; pi_bsfc := b; pi_bsfc_pwr := q |}.

(* propulsion.py:963-987 ElectricDeck.__init__: speed, torque, efficiency, shaft
   power and electrical power of every data point *)
Record electric_data := { el_tab : table; el_shaft : list num; el_elec : list num }.
Definition electric_deck (engine_name : string) (listing : list string) : res (option electric_data) :=
  do d <- setup engine_name listing ["efficiency"]%string [""]%string;
  do t <- attribute (out_avail d) (out_data d) 0 "Speed (RPM)" "Torque (Nm)" "Efficiency";
  match t with
  | None => Ok None
  | Some t =>
      let sft := map (fun p => fst p * snd p * Fin (2 * PI) / #60) (combine (ty t) (tx t)) in
      let elc := map (fun p => fst p / snd p) (combine sft (tz t)) in
      Ok (Some {| el_tab := t; el_shaft := sft; el_elec := elc |})
  end.

(* propulsion.py:1180-1216 JetDeck.__init__ *)
Record jet := { jt_thr : option table; jt_tsfc : option table;
                jt_sl : option (poly * list num); jt_to : option (poly * list num) }.
Definition jet_deck (engine_name : string) (listing : list string) : res jet :=
  do d <- setup engine_name listing ["thrust"]%string ["tsfc"]%string;
  do t <- attribute (out_avail d) (out_data d) 0 "Mach Number" "Altitude (m)" "Thrust (N)";
  do s <- attribute (eta_avail d) (eta_data d) 0 "Mach Number" "Thrust (N)" "TSFC (g/(kNs))";
  Ok {| jt_thr := t; jt_tsfc := s; jt_sl := sl_poly d; jt_to := to_poly d |}.
End External.

(* propulsion.py:64-124 local_data.  [listdir] gives the listing and [metadata] the
   parsed csv rows of a category's directory; a row that does not have exactly
   three fields fails to unpack. *)
Record engine_entry := { available_data : list string; engine_notes : string; reference : string }.
Definition enginetypes : list string := ["turboprop"; "jet"; "electric"; "piston"]%string.
Definition local_entry (listing : list string) (d : dict engine_entry) (row : list string)
  : res (dict engine_entry) :=
  match row with
  | [name; notes; ref] =>
      Ok (dset name {| available_data := filter (contains name) listing;
                       engine_notes := notes; reference := ref |} d)
  | _ => Err ValueError
  end.
Definition local_data (listdir : string -> list string) (metadata : string -> list (list string))
  (deck_type : string) : res (dict engine_entry) :=
  let deck_type := lower deck_type in
  if existsb (String.eqb deck_type) enginetypes
  then foldM (local_entry (listdir deck_type)) [] (metadata deck_type)
  else Err LookupError.

(* ------------------------------------------------------------------------ *)
(** * Polynomial decks *)

(* propulsion.py:1866-1902 _poly, [x] one number; None: warned and returned nothing *)
Definition poly_query (x : num) (p : poly) (limits : list num) : res (option num) :=
  do hi <- index limits 1;
  if hi <? x then Ok None
  else do lo <- index limits 0;
       if x <? lo then Ok None else Ok (Some (polyval p x)).

(** [limits[-1]], evaluated for the warning text *)
Definition last_index {A} (l : list A) : res A :=
  match rev l with [] => Err IndexError | x :: _ => Ok x end.

(* propulsion.py:1338-1375 JetDeck.sl_thrust, 1377-1415 JetDeck.sl_take_off_thrust *)
Definition poly_deck (d : option (poly * list num)) (mach : num) : res (option num) :=
  match d with
  | None => Ok None
  | Some (p, limits) =>
      do _ <- last_index limits; do _ <- index limits 0; poly_query mach p limits
  end.
Definition jet_sl_thrust (d : jet) (mach : num) : res (option num) := poly_deck (jt_sl d) mach.
Definition jet_sl_take_off_thrust (d : jet) (mach : num) : res (option num) := poly_deck (jt_to d) mach.

(* ------------------------------------------------------------------------ *)
(** * Propellers *)

(** PropellerDeck attributes; None: the attribute is False.  [False] counts as 0
    in arithmetic. *)
Record propeller := {
  diameter_m : option num; bladecount : option num; bladeactivityfact : option num;
  solidity : option num; idesign_cl : option num; solve_dp : nat; solve_maxiter : Z }.
Definition attr0 (v : option num) : num := match v with Some x => x | None => #0 end.

(* propulsion.py:1553-1576 PropellerDeck.__init__, for a dictionary of numbers *)
Definition propeller_of (d : dict num) (dp : option nat) (maxiter : option Z) : propeller :=
  {| diameter_m := dget "diameter_m" d; bladecount := dget "bladecount" d;
     bladeactivityfact := dget "bladeactivityfact" d; solidity := dget "solidity" d;
     idesign_cl := dget "idesign_cl" d;
     solve_dp := match dp with Some n => n | None => 6%nat end;
     solve_maxiter := match maxiter with Some n => n | None => 30%Z end |}.
Definition blank_propeller : propeller := propeller_of [] None None.

(** speed of sound at one altitude: a number in, a number out *)
Definition vsound_at (a : num) : res num :=
  do v <- vsound_mps (isa 0) (VNum a);
  match v with VNum x => Ok x | _ => Err TypeError end.
Definition airdens_at (a : num) : res num :=
  do v <- airdens_kgpm3 (isa 0) (VNum a);
  match v with VNum x => Ok x | _ => Err TypeError end.

(** [int(round(x, 0))]: nan and inf have no integer value *)
Definition int_round (x : num) : res Z :=
  match x with Fin r => Ok (nearest r) | NonFin => Err ValueError end.

(* propulsion.py:1577-1629 PropellerDeck.ansatzprop *)
Definition ansatz_cpower (rho rps d power : num) : num := power / (rho * rps ^ 3 * d ^ 5).
Definition ansatzprop (p : propeller) (mach altitude_m : list num) (prop_rpm : num)
  (shaftpower_w : list num) : res propeller :=
  let mach := average mach in
  let altitude_m := average altitude_m in
  do machstar_mps <- vsound_at altitude_m;
  do rho_kgm3 <- airdens_at altitude_m;
  let airspeed := mach * machstar_mps in
  let prop_rps := prop_rpm / #60 in
  let power := average shaftpower_w in
  let thrustreq_n := power / airspeed in
  let q := power / (airspeed * rho_kgm3 * prop_rps ^ 2) in
  let besteta_maxdiam := (#3.2 ^ 3 * q) ** #0.25 in
  let besteta_mindiam := (#2.4 ^ 3 * q) ** #0.25 in
  let tiplimit_mps := ((#0.8 * machstar_mps) ^ 2 - (mach * machstar_mps) ^ 2) ** #0.5 in
  let machlim_100_diam_m := tiplimit_mps / (prop_rps * Fin PI / #2) in
  let d := pymin2 (#0.2 * besteta_maxdiam + #0.8 * besteta_mindiam) machlim_100_diam_m in
  let cpower := ansatz_cpower rho_kgm3 prop_rps d power in
  let propactivityfact := #1000 * (cpower / #0.3) ** #0.8 in
  do n <- int_round (if propactivityfact <? #400 then propactivityfact / #133
                     else propactivityfact / #120);
  let blades := Z.max n 2 in
  let bladeaf := propactivityfact / Fin (IZR blades) in
  let sol := #128 * Fin (IZR blades) * bladeaf / (#100000 * Fin PI) in
  let discarea := Fin PI * (d / #2) ^ 2 in
  let frontarea := discarea * sol in
  let cl := thrustreq_n / (#0.5 * rho_kgm3 * airspeed ^ 2 * frontarea) in
  Ok {| diameter_m := Some d; bladecount := Some (Fin (IZR blades));
        bladeactivityfact := Some bladeaf; solidity := Some sol; idesign_cl := Some cl;
        solve_dp := solve_dp p; solve_maxiter := solve_maxiter p |}.

(* propulsion.py:1692-1695 glauert_func *)
Definition glauert (x : num) : num :=
  let a := (#2 + #5 * ntan x ^ 2) / (#8 * ncos x) in
  let b := (#3 / #16 * ntan x ^ 4) * nlog ((#1 - ncos x) / (#1 + ncos x)) in
  a - b.

(* propulsion.py:1706-1709: one pass, from eta1 to the new eta1, eta2, eta3.
   Where eta2 is 0 numpy divides by zero and takes the arctan of inf; the Glauert
   factor of that angle is finite in floating point and is multiplied by eta2 ** 2 = 0,
   so 0 stands for it.  Simplification: eta1 = 0, where numpy computes a rounding
   artefact, is non-finite here. *)
Definition eta_pass (cpower advratio sol cdbar eta1 : num) : num * num * num :=
  let eta2 := #1 - interp01 ((#4 * eta1 * cpower) / (Fin PI ^ 3 * advratio)) in
  let phi1 := natan (advratio / (Fin PI * eta1 * eta2)) in
  let factor := if neqb eta2 #0 then #0 else glauert phi1 in
  let eta3 := #1 - (Fin PI ^ 4 * eta2 ^ 2 * sol * cdbar * factor) / (#8 * cpower) in
  let eta1' := #1 - ((#2 * cpower * eta2 * eta3 * eta1 ^ 3) / (Fin PI * advratio ^ 3)) in
  (eta1', eta2, eta3).

(* propulsion.py:1687-1715: the solver loop, [n] iterations left *)
Fixpoint eta_loop (n dp : nat) (cpower advratio sol cdbar eta1 eta : num) : num :=
  match n with
  | O => eta
  | S k =>
      let '(e1, e2, e3) := eta_pass cpower advratio sol cdbar eta1 in
      let new := e1 * e2 * e3 in
      if round_eqb dp eta new then new
      else eta_loop k dp cpower advratio sol cdbar e1 new
  end.

(* propulsion.py:1671-1717: one entry of the result *)
Definition efficiency_at (p : propeller) (sol mach altitude_m rho_kgm3 shaftpower_w prop_rpm : num)
  : res num :=
  let d := attr0 (diameter_m p) in
  let cpower := shaftpower_w / (rho_kgm3 * (prop_rpm / #60) ^ 3 * d ^ 5) in
  do machstar_mps <- vsound_at altitude_m;
  let advratio := mach * machstar_mps / ((prop_rpm / #60) * d) in
  let c := attr0 (idesign_cl p) * cpower / advratio in
  let cdbar := #(-0.136) * c ^ 2 + #0.116 * c + #0.00627 in
  Ok (eta_loop (Z.to_nat (solve_maxiter p)) (solve_dp p) cpower advratio sol cdbar #0.98 #0.87).

(* propulsion.py:1662-1667: solidity of the constant chord blade when not given; the
   attribute keeps the computed value *)
Definition with_solidity (p : propeller) : propeller :=
  match solidity p with
  | Some _ => p
  | None =>
      {| diameter_m := diameter_m p; bladecount := bladecount p;
         bladeactivityfact := bladeactivityfact p;
         solidity := Some (#128 * attr0 (bladecount p) * attr0 (bladeactivityfact p)
                           / (#100000 * Fin PI));
         idesign_cl := idesign_cl p; solve_dp := solve_dp p; solve_maxiter := solve_maxiter p |}
  end.

(* propulsion.py:1631-1719 PropellerDeck.efficiency on arrays; returns the object
   with its solidity attribute set and the array of efficiencies *)
Definition efficiency (p : propeller) (mach altitude_m shaftpower_w : list num) (prop_rpm : num)
  : res (propeller * list num) :=
  do rho <- airdens_kgpm3 (isa 0) (VArr altitude_m);
  let rho := recastasnpfloatarray rho in
  let p := with_solidity p in
  let sol := attr0 (solidity p) in
  do etas <- mapM (fun iw =>
       do r <- index rho (fst iw);
       do a <- index altitude_m (fst iw);
       do m <- index mach (fst iw);
       efficiency_at p sol m a r (snd iw) prop_rpm) (enumerate shaftpower_w);
  Ok (p, etas).

(* ------------------------------------------------------------------------ *)
(** * Engine decks *)

(** the propeller_obj argument *)
Inductive proparg := PropellerNone | PropellerObj (p : propeller) | PropellerOther.

Section Decks.
Variable grid : list num -> list num -> list num -> num -> num -> num.

(* propulsion.py:1841-1863 _griddata_interpolate; the two coordinates broadcast *)
Definition grid_table (t : table) (x y : val) : res val :=
  vop2 (grid (tx t) (ty t) (tz t)) (toarr x) (toarr y).

(** a table query: None (with a warning) when the table is not available *)
Definition query (t : option table) (x y : val) : res (option val) :=
  match t with None => Ok None | Some t => rmap Some (grid_table t x y) end.

(** [data[:, ~np.any(np.isnan(data), axis=0)]]: drop the points with a nan *)
Definition finb (x : num) : bool := match x with Fin _ => true | NonFin => false end.
Definition drop_nan (t : table) : table :=
  let rows := filter (fun p => finb (fst (fst p)) && finb (snd (fst p)) && finb (snd p))%bool
                     (combine (combine (tx t) (ty t)) (tz t)) in
  {| tx := map (fun p => fst (fst p)) rows; ty := map (fun p => snd (fst p)) rows;
     tz := map snd rows |}.

(** numpy.asarray(x, dtype=float) of a query result; None becomes a nan without
    dimensions, over which [enumerate] cannot run *)
Definition entries (v : option val) : res (list num) :=
  match v with Some v => Ok (recastasnpfloatarray v) | None => Err TypeError end.
Definition averaged (v : option val) : list num :=
  match v with Some v => recastasnpfloatarray v | None => [NonFin] end.
(** arithmetic with a query result: TypeError for None *)
Definition some_val (v : option val) : res val :=
  match v with Some v => Ok v | None => Err TypeError end.

(* the common part of the thrust and tsfc methods, e.g. propulsion.py:311-332: the
   propeller (given, or sized by the ansatz method), its efficiency, and the airspeed *)
Definition prop_efficiency (mach altitude_m : list num) (prop_rpm : num) (prop : proparg)
  (power : option val) : res (list num * val) :=
  do p <- match prop with
          | PropellerNone => ansatzprop blank_propeller mach altitude_m prop_rpm (averaged power)
          | PropellerObj p => Ok p
          | PropellerOther => Err TypeError
          end;
  do w <- entries power;
  do e <- efficiency p mach altitude_m w prop_rpm;
  do vs <- vsound_mps (isa 0) (VArr altitude_m);
  do airspeed <- vop2 nmul (VArr mach) vs;
  Ok (snd e, airspeed).

(** [etaprop * power / airspeed] *)
Definition cold_thrust (etas : list num) (power : option val) (airspeed : val) : res val :=
  do w <- some_val power;
  do ep <- vop2 nmul (VArr etas) w;
  vop2 ndiv ep airspeed.
(** [bsfc / 3600 * airspeed / etaprop] *)
Definition tsfc_of (bsfc : option val) (airspeed : val) (etas : list num) : res val :=
  do b <- some_val bsfc;
  do b <- vlit (fun x => x / #3600) (toarr b);
  do n <- vop2 nmul b airspeed;
  vop2 ndiv n (VArr etas).
(** [value / max(table values)] for the sea-level normalised decks: without a table
    the attribute is missing *)
Definition normalised (v : option val) (t : option table) : res val :=
  match t with
  | None => Err AttributeError
  | Some t => do m <- pymaxn (tz t); do w <- some_val v; vlit (fun x => x / m) (toarr w)
  end.

(** ** TurbopropDeck *)
(* propulsion.py:183-224 hotthrust, 226-254 shaftpower, 256-287 bsfc *)
Definition tp_hotthrust (d : turboprop) (mach altitude_m : val) := query (tp_thr d) mach altitude_m.
Definition tp_shaftpower (d : turboprop) (mach altitude_m : val) := query (tp_pwr d) mach altitude_m.
Definition tp_bsfc_at (d : turboprop) (mach altitude_m : val) :=
  query (option_map drop_nan (tp_bsfc d)) mach altitude_m.
(* propulsion.py:289-335 coldthrust *)
Definition tp_coldthrust (d : turboprop) (mach altitude_m : val) (prop_rpm : num) (prop : proparg)
  : res val :=
  let mach := recastasnpfloatarray mach in
  let altitude_m := recastasnpfloatarray altitude_m in
  do power <- tp_shaftpower d (VArr mach) (VArr altitude_m);
  do ev <- prop_efficiency mach altitude_m prop_rpm prop power;
  cold_thrust (fst ev) power (snd ev).
(* propulsion.py:337-369 thrust *)
Definition tp_thrust (d : turboprop) (mach altitude_m : val) (prop_rpm : num) (prop : proparg)
  : res val :=
  let mach := VArr (recastasnpfloatarray mach) in
  let altitude_m := VArr (recastasnpfloatarray altitude_m) in
  do hot <- tp_hotthrust d mach altitude_m;
  do cold <- tp_coldthrust d mach altitude_m prop_rpm prop;
  do h <- some_val hot;
  vop2 nadd h cold.
(* propulsion.py:371-400 sl_powercorr *)
Definition tp_sl_powercorr (d : turboprop) (mach altitude_m : val) : res val :=
  do w <- tp_shaftpower d (VArr (recastasnpfloatarray mach)) (VArr (recastasnpfloatarray altitude_m));
  normalised w (tp_pwr d).
(* propulsion.py:402-456 tsfc *)
Definition tp_tsfc (d : turboprop) (mach altitude_m : val) (prop_rpm : num) (prop : proparg)
  : res val :=
  let mach := recastasnpfloatarray mach in
  let altitude_m := recastasnpfloatarray altitude_m in
  do power <- tp_shaftpower d (VArr mach) (VArr altitude_m);
  do ev <- prop_efficiency mach altitude_m prop_rpm prop power;
  do b <- tp_bsfc_at d (VArr mach) (VArr altitude_m);
  tsfc_of b (snd ev) (fst ev).

(** ** PistonDeck *)
(* propulsion.py:602-645 shaftpower, 647-714 bsfc *)
Definition pi_shaftpower (d : piston) (shaft_rpm altitude_m : val) := query (pi_pwr d) shaft_rpm altitude_m.
Definition pi_bsfc_at (d : piston) (shaft_rpm shaftpower_w : val) (best : string) : res (option val) :=
  if String.eqb best "economy" then query (pi_bsfc d) shaft_rpm shaftpower_w
  else if String.eqb best "power" then query (pi_bsfc_pwr d) shaft_rpm shaftpower_w
  else Ok None.
(* propulsion.py:716-763 thrust *)
Definition pi_thrust (d : piston) (mach altitude_m : val) (prop_rpm : num) (prop : proparg) : res val :=
  let mach := recastasnpfloatarray mach in
  let altitude_m := recastasnpfloatarray altitude_m in
  do power <- pi_shaftpower d (VNum prop_rpm) (VArr altitude_m);
  do ev <- prop_efficiency mach altitude_m prop_rpm prop power;
  cold_thrust (fst ev) power (snd ev).
(* propulsion.py:765-794 sl_powercorr *)
Definition pi_sl_powercorr (d : piston) (shaft_rpm altitude_m : val) : res val :=
  do w <- pi_shaftpower d (VArr (recastasnpfloatarray shaft_rpm)) (VArr (recastasnpfloatarray altitude_m));
  normalised w (pi_pwr d).
(* propulsion.py:796-857 tsfc: the power is looked up at (mach, altitude) although the
   table's first coordinate is the shaft speed *)
Definition pi_tsfc (d : piston) (mach altitude_m : val) (prop_rpm : num) (prop : proparg)
  (best : string) : res val :=
  let mach := recastasnpfloatarray mach in
  let altitude_m := recastasnpfloatarray altitude_m in
  do power <- pi_shaftpower d (VArr mach) (VArr altitude_m);
  do ev <- prop_efficiency mach altitude_m prop_rpm prop power;
  do w <- some_val power;
  do b <- pi_bsfc_at d (VNum prop_rpm) w best;
  tsfc_of b (snd ev) (fst ev).

(** ** ElectricDeck *)
(* propulsion.py:989-1030 efficiency *)
Definition el_efficiency (d : option electric_data) (shaft_rpm torque_nm : val) : res (option val) :=
  query (option_map el_tab d) shaft_rpm torque_nm.
(* propulsion.py:1032-1055 bsec *)
Definition el_bsec (d : option electric_data) (shaft_rpm torque_nm : val) : res val :=
  do e <- el_efficiency d shaft_rpm torque_nm;
  do e <- some_val e; vlit (fun x => #1 / x) (toarr e).
(* propulsion.py:1057-1082 shaftpower *)
Definition el_shaftpower (shaft_rpm torque_nm : val) : res val :=
  let speed_rads := map (fun r => r / #60 * Fin PI) (recastasnpfloatarray shaft_rpm) in
  vop2 nmul (VArr speed_rads) (VArr (recastasnpfloatarray torque_nm)).
(* propulsion.py:1084-1134 thrust *)
Definition el_thrust (shaftpower_w mach altitude_m : val) (prop_rpm : num) (prop : proparg) : res val :=
  let power := Some (VArr (recastasnpfloatarray shaftpower_w)) in
  do ev <- prop_efficiency (recastasnpfloatarray mach) (recastasnpfloatarray altitude_m) prop_rpm prop power;
  cold_thrust (fst ev) power (snd ev).

(** ** JetDeck *)
(* propulsion.py:1218-1259 thrust, 1291-1336 tsfc *)
Definition jt_thrust (d : jet) (mach altitude_m : val) := query (jt_thr d) mach altitude_m.
Definition jt_tsfc_at (d : jet) (mach thrust_n : val) :=
  query (option_map drop_nan (jt_tsfc d)) mach thrust_n.
(* propulsion.py:1261-1289 sl_thrustcorr *)
Definition jt_sl_thrustcorr (d : jet) (mach altitude_m : val) : res val :=
  do t <- jt_thrust d mach altitude_m;
  normalised t (jt_thr d).
End Decks.
