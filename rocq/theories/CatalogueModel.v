(** What propulsion.local_data prints, and the constructor of PropellerDeck.
    PropulsionModel has the value returned by local_data (without printing) and the
    attributes of a propeller built from a dictionary. *)
From Coq Require Import Ascii.
From Verif Require Import Base AtmosModel ConceptModel PropulsionModel.

(** the argument printdata: the two booleans, or another object *)
Inductive printflag := PrintTrue | PrintFalse | PrintOther.
(** [printdata is True] (propulsion.py:110): an object that merely counts as true is not *)
Definition is_True (p : printflag) : bool := match p with PrintTrue => true | _ => false end.

(** a line feed *)
Definition lf : string := String "010"%char EmptyString.
(** str.capitalize(), ASCII only *)
Definition upper_ascii (c : ascii) : ascii :=
  let n := nat_of_ascii c in
  if (Nat.leb 97 n && Nat.leb n 122)%bool then ascii_of_nat (n - 32) else c.
Definition capitalize (s : string) : string :=
  match s with EmptyString => EmptyString | String c r => String (upper_ascii c) (lower r) end.
(** str.replace(".csv", "") *)
Fixpoint without_csv (s : string) : string :=
  match s with
  | String "."%char (String "c"%char (String "s"%char (String "v"%char r))) => without_csv r
  | String c r => String c (without_csv r)
  | EmptyString => EmptyString
  end.

(* propulsion.py:81-98 file_name_replace, in the order of the dictionary *)
Definition file_name_replace (deck_type : string) : dict string :=
  (if String.eqb deck_type "turboprop"
   then [("Thrust_data", "Core/hot thrust (N) versus Mach Number and altitude (m)");
         ("Power_data", "Shaft power (W) versus Mach Number and altitude (m)");
         ("BSFC_data", "BSFC (g/(kWh)) versus Mach Number and altitude (m)")]
   else if String.eqb deck_type "jet"
   then [("Thrust_SL_TO_data", "Take-off thrust (N) versus Mach number at SL");
         ("Thrust_data", "Thrust (N) versus Mach number and altitude (m)");
         ("TSFC_data", "TSFC (g/(kNs)) versus Mach number and engine thrust (N)")]
   else if String.eqb deck_type "electric"
   then [("Efficiency_data", "Efficiency versus Engine speed (RPM) and torque (Nm)")]
   else if String.eqb deck_type "piston"
   then [("Power_data", "Shaft power (W) versus Engine Speed (RPM) and altitude (m)");
         ("BSFC_data", "BSFC (g/(kWh)) Engine Speed (RPM) and shaft power (W)")]
   else [])%string.

(* propulsion.py:103-108: parsed_enginecsvs_list and available_data_parsed *)
Definition available_data_parsed (deck_type : string) (available_enginecsvs_list : list string) : list string :=
  map without_csv
    (flat_map (fun kv =>
       flat_map (fun enginecsv => if contains (fst kv) enginecsv then [snd kv] else [])
         available_enginecsvs_list) (file_name_replace deck_type)).

(* propulsion.py:111-115: the text of the four calls of print *)
Definition engine_page (deck_type engine_name engine_notes engine_reference : string)
    (available_enginecsvs_list : list string) : string :=
  ((engine_name ++ " (" ++ capitalize deck_type ++ " Deck)" ++ lf) ++
   ("Ground-Truth Data Available:" ++ lf ++ " >" ++ " " ++
      String.concat (lf ++ " > ") (available_data_parsed deck_type available_enginecsvs_list) ++ lf) ++
   ("Engine Notes:" ++ lf ++ " " ++
      (if negb (Nat.eqb (String.length engine_notes) 0) then engine_notes else "-") ++ lf) ++
   ("Reference:" ++ lf ++ " " ++
      (if negb (Nat.eqb (String.length engine_reference) 0) then engine_reference else "-") ++
      " " ++ (lf ++ lf) ++ lf))%string.

(* propulsion.py:77-122: the loop over the metadata; what it prints and how it ends *)
Fixpoint metadata_loop (print : bool) (deck_type : string) (availablecsvs_list : list string)
    (engine_data : dict engine_entry) (rows : list (list string)) : string * res (dict engine_entry) :=
  match rows with
  | [] => (EmptyString, Ok engine_data)
  | [engine_name; engine_notes; engine_reference] :: rest =>
      let available := filter (contains engine_name) availablecsvs_list in
      let page := if print then engine_page deck_type engine_name engine_notes engine_reference available
                  else EmptyString in
      let '(text, out) := metadata_loop print deck_type availablecsvs_list
        (dset engine_name {| available_data := available; engine_notes := engine_notes;
                             reference := engine_reference |} engine_data) rest in
      ((page ++ text)%string, out)
  | _ :: _ => (EmptyString, Err ValueError)
  end.

(* propulsion.py:25-124 local_data with its output *)
Definition local_data_printed (listdir : string -> list string) (metadata : string -> list (list string))
    (deck_type : string) (printdata : printflag) : string * res (dict engine_entry) :=
  let deck_type := lower deck_type in
  if negb (existsb (String.eqb deck_type) enginetypes) then (EmptyString, Err LookupError)
  else metadata_loop (is_True printdata) deck_type (listdir deck_type) [] (metadata deck_type).

(** the argument propeller of PropellerDeck: absent or None, a dictionary (of numbers, with
    the entries solve_dp and solve_maxiter apart because they are integers), or an object of
    another type *)
Inductive propeller_argument :=
| NoPropeller
| PropellerDict (d : dict num) (dp : option nat) (maxiter : option Z)
| OtherObject.

(* propulsion.py:1553-1576 PropellerDeck.__init__ *)
Definition propeller_init (a : propeller_argument) : res propeller :=
  match a with
  | NoPropeller => Ok (propeller_of [] None None)
  | PropellerDict d dp maxiter => Ok (propeller_of d dp maxiter)
  | OtherObject => Err TypeError
  end.
