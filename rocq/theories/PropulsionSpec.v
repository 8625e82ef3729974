(** Independent specifications for the propulsion module. *)
From Coq Require Import Permutation Ascii.
From Verif Require Import Base AtmosModel ConceptModel PropulsionModel.
Open Scope R_scope.

(** ** File names *)
(** [a] occurs in [s] *)
Definition occurs (a s : string) : Prop := exists l r, s = (l ++ a ++ r)%string.
(** the data files of an engine are called engine_kind *)
Definition belongs (engine file : string) : Prop := exists kind, file = (engine ++ "_" ++ kind)%string.
(** no file name mentions the engine *)
Definition unknown (engine : string) (listing : list string) : Prop :=
  forall f, In f listing -> ~ occurs engine f.
(** in lower case: the letters A to Z become a to z, everything else stays *)
Definition lower_letter (c : ascii) : ascii :=
  match String.index 0 (String c "") "ABCDEFGHIJKLMNOPQRSTUVWXYZ" with
  | Some i => match String.get i "abcdefghijklmnopqrstuvwxyz" with Some l => l | None => c end
  | None => c
  end.
Fixpoint lowercase (s : string) : string :=
  match s with EmptyString => EmptyString | String c r => String (lower_letter c) (lowercase r) end.
(** a file that serves as [kind] for the engine: both names occur in it, the kind in
    any mix of upper and lower case *)
Definition serves (engine kind file : string) : Prop := occurs engine file /\ occurs kind (lowercase file).

(** ** What a slot of a deck holds after a directory has been read *)
(** nothing if no file serves, otherwise the content of the last one listed that does;
    [on] is the corresponding entry of data_available *)
Definition slot {A} (hit : string -> Prop) (read : string -> res A) (listing : list string)
  (d : option A) (on : bool) : Prop :=
  (d = None /\ on = false /\ (forall f, In f listing -> ~ hit f)) \/
  (exists pre f post a, listing = (pre ++ f :: post)%list /\ hit f /\ (forall g, In g post -> ~ hit g) /\
     read f = Ok a /\ d = Some a /\ on = true).
Definition newest {A} (hit : string -> Prop) (read : string -> res A) (listing : list string) (d : option A) : Prop :=
  exists on, slot hit read listing d on.
(** a table read from a file: three of its columns *)
Definition read_table (read_csv : string -> res frame) (a b c : string) (f : string) : res table :=
  do x <- read_csv f; columns x a b c.
(** at most one file serves *)
Definition at_most_one (hit : string -> Prop) (listing : list string) : Prop :=
  forall f g, In f listing -> In g listing -> hit f -> hit g -> f = g.

(** ** The directories shipped with the code (ADRpy/data/engine_data) and the engines
    their metadata files name *)
Definition jet_files : list string := [
  "ATF3-6A_Sea_level_thrust_polynomial.csv"; "ATF3-6A_TSFC_data.csv"; "ATF3-6A_Thrust_data.csv";
  "F404-400_Sea_level_thrust_polynomial.csv"; "F404-400_Thrust_data.csv";
  "FJ-44_Sea_level_thrust_polynomial.csv"; "FJ-44_TSFC_data.csv"; "FJ-44_Thrust_data.csv";
  "J52_Sea_level_thrust_polynomial.csv"; "J52_TSFC_data.csv"; "J52_Thrust_data.csv";
  "J60_Sea_level_thrust_polynomial.csv"; "J60_TSFC_data.csv"; "J60_Thrust_data.csv";
  "JT8D-9_Sea_level_take_off_thrust_polynomial.csv"; "JT8D-9_Sea_level_thrust_polynomial.csv";
  "JT8D-9_TSFC_data.csv"; "JT8D-9_Thrust_SL_TO_data.csv"; "JT8D-9_Thrust_data.csv";
  "JT9D-3_Sea_level_take_off_thrust_polynomial.csv"; "JT9D-3_Sea_level_thrust_polynomial.csv";
  "JT9D-3_TSFC_data.csv"; "JT9D-3_Thrust_SL_TO_data.csv"; "JT9D-3_Thrust_data.csv";
  "TF30_Sea_level_thrust_polynomial.csv"; "TF30_TSFC_data.csv"; "TF30_Thrust_data.csv";
  "TFE731-2_Sea_level_thrust_polynomial.csv"; "TFE731-2_Thrust_data.csv";
  "TFE731-5_Sea_level_take_off_thrust_polynomial.csv"; "TFE731-5_TSFC_data.csv";
  "TFE731-5_Thrust_SL_TO_data.csv"; "TFE731-5_Thrust_data.csv"; "_jet_metadata.csv"]%string.
Definition jet_engines : list string :=
  ["ATF3-6A"; "F404-400"; "FJ-44"; "JT8D-9"; "JT9D-3"; "TF30"; "TFE731-2"; "TFE731-5"; "J52"; "J60"]%string.
Definition turboprop_files : list string := [
  "T56-A_BSFC_data.csv"; "T56-A_Power_data.csv"; "T56-A_Thrust_data.csv";
  "Tyne_RTy11_Airflow_data.csv"; "Tyne_RTy11_BSFC_data.csv"; "Tyne_RTy11_Power_data.csv";
  "Tyne_RTy11_Thrust_data.csv"; "_turboprop_metadata.csv"]%string.
Definition turboprop_engines : list string := ["T56-A"; "Tyne_RTy11"]%string.
Definition piston_files : list string := [
  "IO-540_BSFC_best_power_data.csv"; "IO-540_BSFC_data.csv"; "IO-540_Power_data.csv";
  "Wasp_Major_B13_BSFC_data.csv"; "Wasp_Major_B13_Power_data.csv"; "_piston_metadata.csv"]%string.
Definition piston_engines : list string := ["IO-540"; "Wasp_Major_B13"]%string.
Definition electric_files : list string := [
  "JMX57_Efficiency_data.csv"; "YASA_750R_Efficiency_data.csv"; "_electric_metadata.csv"]%string.
Definition electric_engines : list string := ["JMX57"; "YASA_750R"]%string.

(** ** Polynomials *)
(** sum of c_i x^i *)
Definition poly_sum (c : list R) (x : R) : R :=
  fold_right Rplus 0 (map (fun p => snd p * x ^ fst p) (combine (seq 0 (List.length c)) c)).

(** the fields of a line of comma separated values *)
Fixpoint joined (sep : string) (l : list string) : string :=
  match l with [] => "" | [x] => x | x :: r => x ++ sep ++ joined sep r end.
Definition plain (s : string) : Prop := ~ occurs "," s /\ ~ occurs (String "010"%char "") s.

(** ** Interpolated tables *)
(** (x, y) is a convex combination of the points of the table *)
Definition in_hull (xs ys : list num) (x y : R) : Prop :=
  exists w : list (R * (R * R)),
    Forall (fun p => 0 <= fst p /\ In (Fin (fst (snd p)), Fin (snd (snd p))) (combine xs ys)) w /\
    fold_right (fun p s => fst p + s) 0 w = 1 /\
    fold_right (fun p s => fst p * fst (snd p) + s) 0 w = x /\
    fold_right (fun p s => fst p * snd (snd p) + s) 0 w = y.
(** scipy's documented behaviour of griddata: nan outside the convex hull of the
    points and for nan coordinates; the interpolant takes the given values at the
    given points *)
Definition no_extrapolation (grid : list num -> list num -> list num -> num -> num -> num) : Prop :=
  (forall xs ys zs x y, ~ in_hull xs ys x y -> grid xs ys zs (Fin x) (Fin y) = NonFin) /\
  (forall xs ys zs y, grid xs ys zs NonFin y = NonFin) /\
  (forall xs ys zs x, grid xs ys zs x NonFin = NonFin).
Definition interpolates (grid : list num -> list num -> list num -> num -> num -> num) (t : table) : Prop :=
  forall i x y z, nth_error (tx t) i = Some (Fin x) -> nth_error (ty t) i = Some (Fin y) ->
    nth_error (tz t) i = Some (Fin z) -> grid (tx t) (ty t) (tz t) (Fin x) (Fin y) = Fin z.

(** ** Standard air: density and speed of sound *)
Definition standard_air (h rho a : R) : Prop :=
  airdens_kgpm3 (isa 0) (VNum (Fin h)) = Ok (VNum (Fin rho)) /\
  vsound_mps (isa 0) (VNum (Fin h)) = Ok (VNum (Fin a)) /\ 0 < rho /\ 0 < a.

(** ** Propeller efficiency (O. Gur) *)
Definition clip01 (x : R) : R := Rmax 0 (Rmin 1 x).
Definition glauert_factor (phi : R) : R :=
  (2 + 5 * tan phi ^ 2) / (8 * cos phi) -
  3 / 16 * tan phi ^ 4 * ln ((1 - cos phi) / (1 + cos phi)).
Definition drag_polar (x : R) : R := -0.136 * x ^ 2 + 0.116 * x + 0.00627.
(** swirl, profile and axial efficiencies for the axial efficiency [e1] of the last pass *)
Definition swirl (J cp e1 : R) : R := 1 - clip01 (4 * e1 * cp / (PI ^ 3 * J)).
Definition inflow (J cp e1 : R) : R := atan (J / (PI * e1 * swirl J cp e1)).
Definition profile_eff (J cp sol cd e1 : R) : R :=
  1 - PI ^ 4 * swirl J cp e1 ^ 2 * sol * cd * glauert_factor (inflow J cp e1) / (8 * cp).
Definition axial (J cp sol cd e1 : R) : R :=
  1 - 2 * cp * swirl J cp e1 * profile_eff J cp sol cd e1 * e1 ^ 3 / (PI * J ^ 3).
(** axial efficiency and total efficiency after [k] passes *)
Fixpoint passes (J cp sol cd : R) (k : nat) : R * R :=
  match k with
  | O => (0.98, 0.87)
  | S j => let e1 := fst (passes J cp sol cd j) in
           (axial J cp sol cd e1, axial J cp sol cd e1 * swirl J cp e1 * profile_eff J cp sol cd e1)
  end.
(** the passes are computable: no division by zero.  (Where the swirl efficiency is 0
    the inflow angle is not defined, but then the profile efficiency is 1 whatever
    its Glauert factor.) *)
Definition regular (J cp sol cd : R) (n : nat) : Prop :=
  J <> 0 /\ cp <> 0 /\
  forall j, (j < n)%nat -> fst (passes J cp sol cd j) <> 0.
(** [z] is the integer nearest to [x], the even one of two *)
Definition rounds_to (x : R) (z : Z) : Prop :=
  Rabs (x - IZR z) < 1 / 2 \/ Rabs (x - IZR z) = 1 / 2 /\ Z.even z = true.
(** both round to the same multiple of 10^-dp *)
Definition agree (dp : nat) (x y : R) : Prop :=
  exists z, rounds_to (x * 10 ^ dp) z /\ rounds_to (y * 10 ^ dp) z.

(** the number of passes: the first one whose efficiency agrees with the one before to
    [dp] decimals, or [bound] if there is none *)
Definition stops (dp : nat) (e : nat -> R) (bound m : nat) : Prop :=
  (m <= bound)%nat /\ (forall j, (S j < m)%nat -> ~ agree dp (e j) (e (S j))) /\
  (m = bound \/ exists j, m = S j /\ agree dp (e j) (e m)).
(** coefficients of a propeller of diameter [D] at [n] revolutions per second *)
Definition power_coefficient (P rho n D : R) : R := P / (rho * n ^ 3 * D ^ 5).
Definition advance_ratio (V n D : R) : R := V / (n * D).
(** light loading: bounds for the axial and swirl efficiencies of all passes, and a
    profile drag that cannot use up the power *)
Definition least_axial (J cp : R) : R := Rmin 0.98 (1 - 2 * cp / (PI * J ^ 3)).
Definition least_swirl (J cp : R) : R := 1 - 4 * cp / (PI ^ 3 * J).
Definition glauert_bound (y : R) : R :=
  (2 + 5 * y ^ 2) * sqrt (1 + y ^ 2) / 8 + 3 / 8 * (y ^ 2 * (sqrt (1 + y ^ 2) + 1)).
Definition lightly_loaded (J cp sol cd : R) : Prop :=
  0 < J /\ 0 < cp /\ 0 <= sol /\ 0 <= cd /\ 0 < least_axial J cp /\ 0 < least_swirl J cp /\
  PI ^ 4 * sol * cd * glauert_bound (J / (PI * least_axial J cp * least_swirl J cp)) <= 8 * cp.
(** the largest of a list of values *)
Definition largest (zs : list R) (M : R) : Prop := In M zs /\ forall x, In x zs -> x <= M.

(** ** Decks *)
(** the propeller a thrust or tsfc method works with: the given one, or one sized for
    the mean flight condition and power *)
Definition uses (prop : proparg) (ms hs : list num) (rpm : num) (Ws : list num) (p : propeller) : Prop :=
  prop = PropellerObj p \/ prop = PropellerNone /\ ansatzprop blank_propeller ms hs rpm Ws = Ok p.
(** thrust times airspeed is propeller efficiency times shaft power, point by point *)
Definition thrust_balance (ms hs : list R) (Ws etas ts : list num) : Prop :=
  List.length ts = List.length ms /\
  forall i m h rho a W eta, nth_error ms i = Some m -> nth_error hs i = Some h ->
    standard_air h rho a -> m <> 0 -> nth_error Ws i = Some (Fin W) -> nth_error etas i = Some (Fin eta) ->
    exists t, nth_error ts i = Some (Fin t) /\ t * (m * a) = eta * W.
(** a legal flight condition for each entry *)
Definition conditions (mach altitude : val) (ms hs : list R) : Prop :=
  recastasnpfloatarray mach = map Fin ms /\ recastasnpfloatarray altitude = map Fin hs /\
  ms <> [] /\ List.length ms = List.length hs /\ Forall (fun h => h <= 50000) hs.
(** the arithmetic mean *)
Definition sum (l : list R) : R := fold_right Rplus 0 l.
Definition mean (l : list R) : R := sum l / INR (List.length l).
