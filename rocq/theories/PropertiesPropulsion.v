(** Properties of the propulsion module: engine decks, tables and propellers
    (ADRpy/propulsion.py). *)
From Coq Require Import Permutation Ascii.
From Verif Require Import Base AtmosModel AtmosSpec AtmosProofs ConceptModel ConceptSpec PropulsionModel PropulsionSpec PropulsionProofs PropulsionProofs2 PropulsionProofs3 PropulsionProofs4 PropulsionProofs5 PropulsionProofs6 PropulsionProofs7 PropulsionProofs8 PropulsionProofs9.
Open Scope R_scope.

(** C50: a deck for an engine without data is built, empty, and no error is raised. *)
Theorem C50_unknown_engine_refuted : forall read_csv read_text parse e listing, unknown e listing ->
  jet_deck read_csv read_text parse e listing = Ok {| jt_thr := None; jt_tsfc := None; jt_sl := None; jt_to := None |} /\
  turboprop_deck read_csv read_text parse e listing = Ok {| tp_thr := None; tp_pwr := None; tp_bsfc := None |} /\
  piston_deck read_csv read_text parse e listing = Ok {| pi_pwr := None; pi_bsfc := None; pi_bsfc_pwr := None |} /\
  electric_deck read_csv read_text parse e listing = Ok None.
Proof. exact unknown_decks. Qed.
Print Assumptions C50_unknown_engine_refuted.
Example C50_nonvacuous : unknown "Merlin" jet_files /\ unknown "Merlin" piston_files.
Proof. exact merlin_unknown. Qed.
(** the error written for that case is never raised, for any engine and directory *)
Theorem C50_name_error_unreachable : forall read_csv read_text parse e listing outs effs,
  (forall f, read_csv f <> Err NameError) -> (forall f, read_text f <> Err NameError) ->
  setup read_csv read_text parse e listing outs effs <> Err NameError.
Proof. exact setup_no_name_error. Qed.
Print Assumptions C50_name_error_unreachable.
(** what an empty deck answers: nothing for plain queries; the normalised ones and the
    thrust with a given propeller fail with an unrelated error *)
Theorem C50_empty_deck : forall grid m h,
  jt_thrust grid {| jt_thr := None; jt_tsfc := None; jt_sl := None; jt_to := None |} m h = Ok None /\
  jt_tsfc_at grid {| jt_thr := None; jt_tsfc := None; jt_sl := None; jt_to := None |} m h = Ok None /\
  jt_sl_thrustcorr grid {| jt_thr := None; jt_tsfc := None; jt_sl := None; jt_to := None |} m h = Err AttributeError /\
  (forall x, jet_sl_thrust {| jt_thr := None; jt_tsfc := None; jt_sl := None; jt_to := None |} x = Ok None) /\
  tp_shaftpower grid {| tp_thr := None; tp_pwr := None; tp_bsfc := None |} m h = Ok None /\
  tp_sl_powercorr grid {| tp_thr := None; tp_pwr := None; tp_bsfc := None |} m h = Err AttributeError /\
  pi_shaftpower grid {| pi_pwr := None; pi_bsfc := None; pi_bsfc_pwr := None |} m h = Ok None /\
  (forall rpm p, tp_thrust grid {| tp_thr := None; tp_pwr := None; tp_bsfc := None |} m h rpm (PropellerObj p) = Err TypeError) /\
  (forall rpm p, pi_thrust grid {| pi_pwr := None; pi_bsfc := None; pi_bsfc_pwr := None |} m h rpm (PropellerObj p) = Err TypeError).
Proof. exact empty_queries. Qed.
Print Assumptions C50_empty_deck.

(** C51: which file each table comes from: the last one listed in which the engine's
    name and the kind of data both occur. *)
Theorem C51_jet_contents : forall read_csv read_text parse e listing d, jet_deck read_csv read_text parse e listing = Ok d ->
  newest (serves e "thrust_data.csv") (read_table read_csv "Mach Number" "Altitude (m)" "Thrust (N)") listing (jt_thr d) /\
  newest (serves e "tsfc_data.csv") (read_table read_csv "Mach Number" "Thrust (N)" "TSFC (g/(kNs))") listing (jt_tsfc d) /\
  newest (serves e "sea_level_thrust_polynomial.csv") (poly_process read_text parse) listing (jt_sl d) /\
  newest (serves e "sea_level_take_off_thrust_polynomial.csv") (poly_process read_text parse) listing (jt_to d).
Proof. exact jet_contents. Qed.
Print Assumptions C51_jet_contents.
Theorem C51_turboprop_contents : forall read_csv read_text parse e listing d, turboprop_deck read_csv read_text parse e listing = Ok d ->
  newest (serves e "thrust_data.csv") (read_table read_csv "Mach Number" "Altitude (m)" "Thrust (N)") listing (tp_thr d) /\
  newest (serves e "power_data.csv") (read_table read_csv "Mach Number" "Altitude (m)" "Power (W)") listing (tp_pwr d) /\
  newest (serves e "bsfc_data.csv") (read_table read_csv "Mach Number" "Altitude (m)" "BSFC (g/(kWh))") listing (tp_bsfc d).
Proof. exact turboprop_contents. Qed.
Print Assumptions C51_turboprop_contents.
Theorem C51_piston_contents : forall read_csv read_text parse e listing d, piston_deck read_csv read_text parse e listing = Ok d ->
  newest (serves e "power_data.csv") (read_table read_csv "Speed (RPM)" "Altitude (m)" "Power (W)") listing (pi_pwr d) /\
  newest (serves e "bsfc_data.csv") (read_table read_csv "Speed (RPM)" "Power (W)" "BSFC (g/(kWh))") listing (pi_bsfc d) /\
  newest (serves e "bsfc_best_power_data.csv") (read_table read_csv "Speed (RPM)" "Power (W)" "BSFC (g/(kWh))") listing (pi_bsfc_pwr d).
Proof. exact piston_contents. Qed.
Print Assumptions C51_piston_contents.
Theorem C51_electric_contents : forall read_csv read_text parse e listing d, electric_deck read_csv read_text parse e listing = Ok d ->
  newest (serves e "efficiency_data.csv") (read_table read_csv "Speed (RPM)" "Torque (Nm)" "Efficiency") listing (option_map el_tab d).
Proof. exact electric_contents. Qed.
Print Assumptions C51_electric_contents.
Example C51_nonvacuous : exists read_csv read_text parse,
  (exists d t q, jet_deck read_csv read_text parse "J52" jet_files = Ok d /\ jt_thr d = Some t /\ jt_sl d = Some q /\ tz t = [Fin 9000]) /\
  (exists d t, turboprop_deck read_csv read_text parse "T56-A" turboprop_files = Ok d /\ tp_pwr d = Some t /\ tz t = [Fin 150000]) /\
  (exists d t, piston_deck read_csv read_text parse "Wasp_Major_B13" piston_files = Ok d /\ pi_bsfc d = Some t /\ tz t = [Fin 300]) /\
  (exists d, electric_deck read_csv read_text parse "YASA_750R" electric_files = Ok (Some d) /\ tz (el_tab d) = [Fin 0.9]).
Proof. exact decks_case. Qed.
(** so a deck may load the data of an engine whose name contains the one given ... *)
Theorem C51_other_engine_refuted : exists read_csv read_text parse d t,
  jet_deck read_csv read_text parse "TF30" ["TF30_Thrust_data.csv"; "STF30_Thrust_data.csv"]%string = Ok d /\ jt_thr d = Some t /\
  read_table read_csv "Mach Number" "Altitude (m)" "Thrust (N)" "STF30_Thrust_data.csv" = Ok t /\
  read_table read_csv "Mach Number" "Altitude (m)" "Thrust (N)" "TF30_Thrust_data.csv" <> Ok t.
Proof. exact other_engine. Qed.
Print Assumptions C51_other_engine_refuted.
(** ... and in the shipped directory part of a name is enough *)
Theorem C51_part_of_a_name_refuted : exists read_csv read_text parse d t,
  jet_deck read_csv read_text parse "J5" jet_files = Ok d /\ jt_thr d = Some t /\ ~ (exists f, In f jet_files /\ belongs "J5" f).
Proof. exact prefix_of_engine. Qed.
Print Assumptions C51_part_of_a_name_refuted.
(** for the shipped directories and the engines their metadata name, every file that
    mentions an engine belongs to it *)
Theorem C51_shipped_partial :
  (forall e f, In e jet_engines -> In f jet_files -> occurs e f -> belongs e f) /\
  (forall e f, In e turboprop_engines -> In f turboprop_files -> occurs e f -> belongs e f) /\
  (forall e f, In e piston_engines -> In f piston_files -> occurs e f -> belongs e f) /\
  (forall e f, In e electric_engines -> In f electric_files -> occurs e f -> belongs e f).
Proof. exact shipped_ownership. Qed.
Print Assumptions C51_shipped_partial.

(** C52: no extrapolation.  Polynomials: the value of the polynomial within the range of
    the file, nothing outside it. *)
Theorem C52_polynomials : forall d c lo hi rest x,
  (jt_sl d = Some (map Fin c, Fin lo :: Fin hi :: rest) ->
     (lo <= x <= hi -> jet_sl_thrust d (Fin x) = Ok (Some (Fin (poly_sum c x)))) /\ (x < lo \/ hi < x -> jet_sl_thrust d (Fin x) = Ok None)) /\
  (jt_to d = Some (map Fin c, Fin lo :: Fin hi :: rest) ->
     (lo <= x <= hi -> jet_sl_take_off_thrust d (Fin x) = Ok (Some (Fin (poly_sum c x)))) /\ (x < lo \/ hi < x -> jet_sl_take_off_thrust d (Fin x) = Ok None)).
Proof. exact jet_poly_range. Qed.
Print Assumptions C52_polynomials.
Example C52_polynomials_nonvacuous : exists d, jt_sl d = Some (map Fin [100; -2; 1], [Fin 0; Fin 0.9]) /\ jet_sl_thrust d (Fin 0.5) = Ok (Some (Fin (poly_sum [100; -2; 1] 0.5))).
Proof. exact polynomial_case. Qed.
(** tables: with an interpolation that does not extrapolate (scipy's is documented not
    to), a thrust is a number only within the convex hull of the data *)
Theorem C52_jet_table : forall grid, no_extrapolation grid -> forall d t ms hs, jt_thr d = Some t -> List.length ms = List.length hs ->
  exists ts, jt_thrust grid d (VArr (map Fin ms)) (VArr (map Fin hs)) = Ok (Some (VArr ts)) /\ List.length ts = List.length ms /\
    forall i m h, nth_error ms i = Some m -> nth_error hs i = Some h -> ~ in_hull (tx t) (ty t) m h -> nth_error ts i = Some NonFin.
Proof. exact jet_outside. Qed.
Print Assumptions C52_jet_table.
Theorem C52_turboprop_table : forall grid, no_extrapolation grid -> forall d t mach alt ms hs rpm prop r, tp_pwr d = Some t -> conditions mach alt ms hs ->
  tp_thrust grid d mach alt rpm prop = Ok r -> exists us, r = VArr us /\
    forall i m h, nth_error ms i = Some m -> nth_error hs i = Some h -> ~ in_hull (tx t) (ty t) m h -> nth_error us i = Some NonFin.
Proof. exact turboprop_outside. Qed.
Print Assumptions C52_turboprop_table.
(** without a propeller of one's own, a single point outside the data makes the whole
    call fail *)
Theorem C52_turboprop_error : forall grid, no_extrapolation grid -> forall d t mach alt ms hs rpm i m h, tp_pwr d = Some t -> conditions mach alt ms hs ->
  nth_error ms i = Some m -> nth_error hs i = Some h -> ~ in_hull (tx t) (ty t) m h ->
  tp_coldthrust grid d mach alt rpm PropellerNone = Err ValueError.
Proof. exact turboprop_outside_ansatz. Qed.
Print Assumptions C52_turboprop_error.
(** a turboprop with one data point that meets the hypotheses of the theorems on decks *)
Example C52_nonvacuous : exists d m P rpm p r s e, no_extrapolation exact_grid /\ conditions (VNum (Fin m)) (VNum (Fin 0)) [m] [0] /\ 0 < m /\
  tp_pwr d = Some (one_point m 0 P) /\ tp_thr d = Some (one_point m 0 500) /\
  tp_thrust exact_grid d (VNum (Fin m)) (VNum (Fin 0)) rpm (PropellerObj p) = Ok r /\
  tp_coldthrust exact_grid d (VNum (Fin m)) (VNum (Fin 0)) rpm (PropellerObj p) = Ok s /\
  (exists s, tp_tsfc exact_grid d (VNum (Fin m)) (VNum (Fin 0)) rpm (PropellerObj p) = Ok s) /\
  tp_shaftpower exact_grid d (VArr [Fin m]) (VArr [Fin 0]) = Ok (Some (VArr [Fin P])) /\
  tp_bsfc_at exact_grid d (VArr [Fin m]) (VArr [Fin 0]) = Ok (Some (VArr [Fin 300])) /\
  efficiency p [Fin m] [Fin 0] [Fin P] rpm = Ok (p, [Fin e]) /\ 0 < e <= 1.
Proof. exact turboprop_case. Qed.
Example C52_outside_nonvacuous : forall m P, ~ in_hull (tx (one_point m 0 P)) (ty (one_point m 0 P)) (m - 1) 0.
Proof. exact outside_case. Qed.

(** C53: the shaft power of an electric motor is half of torque times angular speed. *)
Theorem C53_half_power_refuted : forall rpm torque, exists P, el_shaftpower (VNum (Fin rpm)) (VNum (Fin torque)) = Ok (VArr [Fin P]) /\
  P = torque * (2 * PI * (rpm / 60)) / 2.
Proof. exact el_half. Qed.
Print Assumptions C53_half_power_refuted.
Theorem C53_arrays : forall rpms torques, List.length rpms = List.length torques ->
  el_shaftpower (VArr (map Fin rpms)) (VArr (map Fin torques)) =
  Ok (VArr (map (fun p => Fin (PI * fst p / 60 * snd p)) (combine rpms torques))).
Proof. exact el_shaftpower_arrays. Qed.
Print Assumptions C53_arrays.
(** the table the deck builds when it is loaded has the full power, shaft and electrical *)
Theorem C53_table : forall read_csv read_text parse e listing d, electric_deck read_csv read_text parse e listing = Ok (Some d) ->
  forall i rpm torque eta, nth_error (tx (el_tab d)) i = Some (Fin rpm) -> nth_error (ty (el_tab d)) i = Some (Fin torque) ->
    nth_error (tz (el_tab d)) i = Some (Fin eta) -> eta <> 0 ->
    nth_error (el_shaft d) i = Some (Fin (torque * (2 * PI * (rpm / 60)))) /\
    nth_error (el_elec d) i = Some (Fin (torque * (2 * PI * (rpm / 60)) / eta)).
Proof. exact el_table. Qed.
Print Assumptions C53_table.
Example C53_nonvacuous : exists read_csv read_text parse d, electric_deck read_csv read_text parse "JMX57" electric_files = Ok (Some d) /\
  nth_error (tx (el_tab d)) 1 = Some (Fin 3000) /\ nth_error (ty (el_tab d)) 1 = Some (Fin 150) /\ nth_error (tz (el_tab d)) 1 = Some (Fin 0.95).
Proof. exact electric_case. Qed.
(** bsec is the reciprocal of the efficiency *)
Theorem C53_bsec : forall grid d rpm torque eta, grid (tx (el_tab d)) (ty (el_tab d)) (tz (el_tab d)) (Fin rpm) (Fin torque) = Fin eta -> eta <> 0 ->
  exists b, el_bsec grid (Some d) (VNum (Fin rpm)) (VNum (Fin torque)) = Ok (VNum (Fin b)) /\
    el_efficiency grid (Some d) (VNum (Fin rpm)) (VNum (Fin torque)) = Ok (Some (VNum (Fin eta))) /\ b * eta = 1.
Proof. exact el_bsec_efficiency. Qed.
Print Assumptions C53_bsec.

(** C54: the iteration for the propeller efficiency.  It always ends and answers for
    every number of flight conditions ... *)
Theorem C54_total : forall p ms hs Ps rpm,
  List.length ms = List.length hs -> List.length Ps = List.length hs -> hs <> [] -> Forall (fun h => h <= 50000) hs ->
  exists etas, efficiency p ms (map Fin hs) Ps rpm = Ok (with_solidity p, etas) /\ List.length etas = List.length hs /\
    forall i m h P, nth_error ms i = Some m -> nth_error hs i = Some h -> nth_error Ps i = Some P ->
      exists e, nth_error etas i = Some e /\ efficiency p [m] [Fin h] [P] rpm = Ok (with_solidity p, [e]).
Proof. exact efficiency_elementwise. Qed.
Print Assumptions C54_total.
(** ... after at most solve_maxiter passes: the first pass that agrees with the one
    before to solve_dp decimals, or the last one *)
Theorem C54_passes : forall p D cl sol rpm h rho a m P,
  diameter_m p = Some (Fin D) -> idesign_cl p = Some (Fin cl) -> solidity p = Some (Fin sol) -> standard_air h rho a -> D <> 0 -> rpm <> 0 ->
  let cp := power_coefficient P rho (rpm / 60) D in let J := advance_ratio (m * a) (rpm / 60) D in
  let cd := drag_polar (cl * cp / J) in
  regular J cp sol cd (Z.to_nat (solve_maxiter p)) ->
  exists k, stops (solve_dp p) (fun j => snd (passes J cp sol cd j)) (Z.to_nat (solve_maxiter p)) k /\
    efficiency p [Fin m] [Fin h] [Fin P] (Fin rpm) = Ok (p, [Fin (snd (passes J cp sol cd k))]).
Proof. exact efficiency_value. Qed.
Print Assumptions C54_passes.
Theorem C54_agreement : forall dp x y, agree dp x y -> Rabs (x - y) <= / 10 ^ dp.
Proof. exact agree_close. Qed.
Print Assumptions C54_agreement.
(** between 0 and 1 for a lightly loaded propeller *)
Theorem C54_bounded_partial : forall p D cl sol rpm h rho a m P,
  diameter_m p = Some (Fin D) -> idesign_cl p = Some (Fin cl) -> solidity p = Some (Fin sol) -> standard_air h rho a -> D <> 0 -> rpm <> 0 ->
  let cp := power_coefficient P rho (rpm / 60) D in let J := advance_ratio (m * a) (rpm / 60) D in let cd := drag_polar (cl * cp / J) in
  lightly_loaded J cp sol cd ->
  exists e, efficiency p [Fin m] [Fin h] [Fin P] (Fin rpm) = Ok (p, [Fin e]) /\ 0 <= e <= 1 /\
    ((0 < solve_maxiter p)%Z ->
     least_axial J cp * least_swirl J cp *
     (1 - PI ^ 4 * sol * cd * glauert_bound (J / (PI * least_axial J cp * least_swirl J cp)) / (8 * cp)) <= e).
Proof. exact efficiency_bounded. Qed.
Print Assumptions C54_bounded_partial.
Example C54_nonvacuous : exists p h m P rpm rho a, standard_air h rho a /\ 0 < m /\ 0 < P /\ diameter_m p = Some (Fin 2) /\ idesign_cl p = Some (Fin 0.5) /\ solidity p = Some (Fin 0.1) /\
  lightly_loaded (advance_ratio (m * a) (rpm / 60) 2) (power_coefficient P rho (rpm / 60) 2) 0.1
    (drag_polar (0.5 * power_coefficient P rho (rpm / 60) 2 / advance_ratio (m * a) (rpm / 60) 2)).
Proof. exact ordinary_propeller. Qed.
(** not in general: an efficiency above 1.6 with the default solver settings ... *)
Theorem C54_above_one_refuted : exists p h m P rpm e, solve_dp p = 6%nat /\ solve_maxiter p = 30%Z /\ 0 < m < 0.8 /\ 0 < P /\
  (exists sol, solidity p = Some (Fin sol) /\ 0 < sol) /\
  efficiency p [Fin m] [Fin h] [Fin P] (Fin rpm) = Ok (p, [Fin e]) /\ 1.6 < e.
Proof. exact efficiency_above_one. Qed.
Print Assumptions C54_above_one_refuted.
(** ... and a slow flight where the passes go round in circles: the answer depends on
    where they are cut off, 0 with the default settings, below -30 or above 1000 with
    one or two passes more *)
Theorem C54_cycle_refuted : exists p h m P rpm, (forall k, solve_dp (p k) = 6%nat /\ solve_maxiter (p k) = k /\ diameter_m (p k) = Some (Fin 2) /\ solidity (p k) = Some (Fin 0)) /\ 0 < m /\ 0 < P /\
  (exists e, efficiency (p 31%Z) [Fin m] [Fin h] [Fin P] (Fin rpm) = Ok (p 31%Z, [Fin e]) /\ e < -30) /\
  (exists e, efficiency (p 32%Z) [Fin m] [Fin h] [Fin P] (Fin rpm) = Ok (p 32%Z, [Fin e]) /\ 1000 < e) /\
  efficiency (p 30%Z) [Fin m] [Fin h] [Fin P] (Fin rpm) = Ok (p 30%Z, [Fin 0]).
Proof. exact efficiency_cycle. Qed.
Print Assumptions C54_cycle_refuted.

(** C70: the catalogue of engines.  One entry per name in the metadata file of the
    type: the notes and reference of its last row, and the files that mention it; an
    unknown type is an error. *)
Theorem C70_catalogue : forall listdir metadata enginetype, In (lowercase enginetype) ["turboprop"; "jet"; "electric"; "piston"]%string ->
  (forall r, In r (metadata (lowercase enginetype)) -> List.length r = 3%nat) ->
  exists d, local_data listdir metadata enginetype = Ok d /\ forall name x, binds d name x <->
    exists pre post, metadata (lowercase enginetype) = (pre ++ [name; engine_notes x; reference x] :: post)%list /\
      (forall n a b, In [n; a; b] post -> n <> name) /\
      exists keep, (forall f, keep f = true <-> occurs name f) /\ available_data x = filter keep (listdir (lowercase enginetype)).
Proof. exact local_data_known. Qed.
Print Assumptions C70_catalogue.
Theorem C70_unknown_type : forall listdir metadata enginetype, ~ In (lowercase enginetype) ["turboprop"; "jet"; "electric"; "piston"]%string ->
  local_data listdir metadata enginetype = Err LookupError.
Proof. exact local_data_unknown. Qed.
Print Assumptions C70_unknown_type.
Example C70_nonvacuous : In (lowercase "Jet") ["turboprop"; "jet"; "electric"; "piston"]%string /\ ~ In (lowercase "ramjet") ["turboprop"; "jet"; "electric"; "piston"]%string.
Proof. exact types_case. Qed.

(** C71: the order in which the directory is listed does not matter if no two files
    serve the same purpose ... *)
Theorem C71_jet_order_partial : forall read_csv read_text parse e l l' d, Permutation l l' ->
  (forall k, In k ["thrust_data.csv"; "tsfc_data.csv"; "sea_level_thrust_polynomial.csv"; "sea_level_take_off_thrust_polynomial.csv"]%string -> at_most_one (serves e k) l) ->
  jet_deck read_csv read_text parse e l = Ok d -> jet_deck read_csv read_text parse e l' = Ok d.
Proof. exact jet_order. Qed.
Print Assumptions C71_jet_order_partial.
Theorem C71_turboprop_order_partial : forall read_csv read_text parse e l l' d, Permutation l l' ->
  (forall k, In k ["thrust_data.csv"; "power_data.csv"; "bsfc_data.csv"]%string -> at_most_one (serves e k) l) ->
  (forall f, In f l -> ~ occurs "polynomial" (lowercase f)) ->
  turboprop_deck read_csv read_text parse e l = Ok d -> turboprop_deck read_csv read_text parse e l' = Ok d.
Proof. exact turboprop_order. Qed.
Print Assumptions C71_turboprop_order_partial.
Theorem C71_piston_order_partial : forall read_csv read_text parse e l l' d, Permutation l l' ->
  (forall k, In k ["power_data.csv"; "bsfc_data.csv"; "bsfc_best_power_data.csv"]%string -> at_most_one (serves e k) l) ->
  (forall f, In f l -> ~ occurs "polynomial" (lowercase f)) ->
  piston_deck read_csv read_text parse e l = Ok d -> piston_deck read_csv read_text parse e l' = Ok d.
Proof. exact piston_order. Qed.
Print Assumptions C71_piston_order_partial.
Theorem C71_electric_order_partial : forall read_csv read_text parse e l l' d, Permutation l l' ->
  (forall k, In k ["efficiency_data.csv"; "_data.csv"]%string -> at_most_one (serves e k) l) ->
  (forall f, In f l -> ~ occurs "polynomial" (lowercase f)) ->
  electric_deck read_csv read_text parse e l = Ok d -> electric_deck read_csv read_text parse e l' = Ok d.
Proof. exact electric_order. Qed.
Print Assumptions C71_electric_order_partial.
Example C71_nonvacuous : (forall k, In k ["thrust_data.csv"; "tsfc_data.csv"; "sea_level_thrust_polynomial.csv"; "sea_level_take_off_thrust_polynomial.csv"]%string ->
    at_most_one (serves "J52" k) jet_files) /\
  (forall k, In k ["thrust_data.csv"; "power_data.csv"; "bsfc_data.csv"]%string -> at_most_one (serves "T56-A" k) turboprop_files) /\
  (forall f, In f turboprop_files -> ~ occurs "polynomial" (lowercase f)) /\
  (forall k, In k ["power_data.csv"; "bsfc_data.csv"; "bsfc_best_power_data.csv"]%string -> at_most_one (serves "Wasp_Major_B13" k) piston_files) /\
  (forall f, In f piston_files -> ~ occurs "polynomial" (lowercase f)) /\
  (forall k, In k ["efficiency_data.csv"; "_data.csv"]%string -> at_most_one (serves "JMX57" k) electric_files) /\
  (forall f, In f electric_files -> ~ occurs "polynomial" (lowercase f)).
Proof. exact order_case. Qed.
(** ... which is so for all shipped engines but one ... *)
Theorem C71_shipped_partial : forall read_csv read_text parse,
  (forall e l d, In e jet_engines -> Permutation jet_files l -> jet_deck read_csv read_text parse e jet_files = Ok d ->
     jet_deck read_csv read_text parse e l = Ok d) /\
  (forall e l d, In e turboprop_engines -> Permutation turboprop_files l -> turboprop_deck read_csv read_text parse e turboprop_files = Ok d ->
     turboprop_deck read_csv read_text parse e l = Ok d) /\
  (forall e l d, In e electric_engines -> Permutation electric_files l -> electric_deck read_csv read_text parse e electric_files = Ok d ->
     electric_deck read_csv read_text parse e l = Ok d) /\
  (forall l d, Permutation piston_files l -> piston_deck read_csv read_text parse "Wasp_Major_B13" piston_files = Ok d ->
     piston_deck read_csv read_text parse "Wasp_Major_B13" l = Ok d).
Proof. exact shipped_decks. Qed.
Print Assumptions C71_shipped_partial.
(** ... but not for the IO-540, whose file of BSFC at best power also serves as a power
    table: whether the deck loads depends on the order *)
Theorem C71_io540_refuted : exists read_text parse d, piston_deck io540_frames read_text parse "IO-540" piston_files = Ok d /\ pi_pwr d <> None /\
  Permutation piston_files piston_files' /\ piston_deck io540_frames read_text parse "IO-540" piston_files' = Err KeyError.
Proof. exact io540_order. Qed.
Print Assumptions C71_io540_refuted.

(** C72: a polynomial file is read back as written: coefficients on the first line,
    limits on the second, empty fields at the end of the second ignored. *)
Theorem C72_polynomial_file : forall (read_text : string -> res string) (parse : string -> option num) file cs ls vs ws blanks tail,
  read_text file = Ok (joined "," cs ++ String "010" (joined "," (ls ++ blanks) ++ tail))%string ->
  (tail = ""%string \/ exists t, tail = String "010" t) ->
  cs <> [] -> (ls ++ blanks)%list <> [] ->
  (forall s, In s cs \/ In s ls -> plain s) -> (forall s, In s ls -> s <> ""%string) -> (forall s, In s blanks -> s = ""%string) ->
  Forall2 (fun s v => parse s = Some v) cs vs -> Forall2 (fun s v => parse s = Some v) ls ws ->
  poly_process read_text parse file = Ok (vs, ws).
Proof. exact poly_file. Qed.
Print Assumptions C72_polynomial_file.
Example C72_nonvacuous : exists (parse : string -> option num) vs ws,
  Forall2 (fun s v => parse s = Some v) ["12.5"; "-3"]%string vs /\ Forall2 (fun s v => parse s = Some v) ["0"; "0.9"]%string ws /\
  (forall s, In s ["12.5"; "-3"]%string \/ In s ["0"; "0.9"]%string -> plain s).
Proof. exact file_case. Qed.

(** C73: shapes.  Equal lengths are evaluated point by point (C54_total); the documented
    "unity" lengths are not: one flight condition for several powers is an error, and
    of several conditions for one power only the first is used. *)
Theorem C73_unity_refuted : forall p m h rpm P Q Ps, h <= 50000 -> efficiency p [m] [Fin h] (P :: Q :: Ps) rpm = Err IndexError.
Proof. exact efficiency_unity. Qed.
Print Assumptions C73_unity_refuted.
Theorem C73_one_power_refuted : forall p m ms h hs rpm P, Forall (fun h => h <= 50000) (h :: hs) ->
  efficiency p (m :: ms) (map Fin (h :: hs)) [P] rpm = efficiency p [m] [Fin h] [P] rpm.
Proof. exact efficiency_one_power. Qed.
Print Assumptions C73_one_power_refuted.
(** the call stores a solidity in the propeller; later calls are unaffected by it *)
Theorem C73_repeatable : forall p ms hs Ps rpm q etas, efficiency p ms hs Ps rpm = Ok (q, etas) ->
  forall ms' hs' Ps' rpm', efficiency q ms' hs' Ps' rpm' = efficiency p ms' hs' Ps' rpm'.
Proof. exact efficiency_repeat. Qed.
Print Assumptions C73_repeatable.
Example C73_nonvacuous : exists p rpm q etas,
  efficiency p [Fin 0.2; Fin 0.3] [Fin 0; Fin 1000] [Fin 100000; Fin 120000] rpm = Ok (q, etas) /\ List.length etas = 2%nat.
Proof. exact shapes_case. Qed.

(** C74: thrust times airspeed is propeller efficiency times shaft power
    (hypotheses met: C52_nonvacuous). *)
Theorem C74_turboprop : forall grid d mach alt ms hs rpm prop r, conditions mach alt ms hs -> tp_coldthrust grid d mach alt rpm prop = Ok r ->
  exists Ws p q etas ts, tp_shaftpower grid d (VArr (map Fin ms)) (VArr (map Fin hs)) = Ok (Some (VArr Ws)) /\
    uses prop (map Fin ms) (map Fin hs) rpm Ws p /\ efficiency p (map Fin ms) (map Fin hs) Ws rpm = Ok (q, etas) /\
    r = VArr ts /\ thrust_balance ms hs Ws etas ts /\ forall i, nth_error Ws i = Some NonFin -> nth_error ts i = Some NonFin.
Proof. exact turboprop_cold. Qed.
Print Assumptions C74_turboprop.
Theorem C74_turboprop_total : forall grid d mach alt ms hs rpm prop r, conditions mach alt ms hs -> tp_thrust grid d mach alt rpm prop = Ok r ->
  exists hots ts us, tp_hotthrust grid d (VArr (map Fin ms)) (VArr (map Fin hs)) = Ok (Some (VArr hots)) /\
    tp_coldthrust grid d mach alt rpm prop = Ok (VArr ts) /\ r = VArr us /\ List.length us = List.length ms /\
    forall i x y, nth_error hots i = Some x -> nth_error ts i = Some y -> nth_error us i = Some (x + y)%num.
Proof. exact turboprop_thrust. Qed.
Print Assumptions C74_turboprop_total.
Theorem C74_piston : forall grid d mach alt ms hs rpm prop r, conditions mach alt ms hs -> pi_thrust grid d mach alt rpm prop = Ok r ->
  exists Ws p q etas ts, pi_shaftpower grid d (VNum rpm) (VArr (map Fin hs)) = Ok (Some (VArr Ws)) /\
    uses prop (map Fin ms) (map Fin hs) rpm Ws p /\ efficiency p (map Fin ms) (map Fin hs) Ws rpm = Ok (q, etas) /\
    r = VArr ts /\ thrust_balance ms hs Ws etas ts /\ forall i, nth_error Ws i = Some NonFin -> nth_error ts i = Some NonFin.
Proof. exact piston_thrust. Qed.
Print Assumptions C74_piston.
Theorem C74_electric : forall power mach alt ms hs rpm prop r, conditions mach alt ms hs -> List.length (recastasnpfloatarray power) = List.length ms ->
  el_thrust power mach alt rpm prop = Ok r ->
  exists p q etas ts,
    uses prop (map Fin ms) (map Fin hs) rpm (recastasnpfloatarray power) p /\ efficiency p (map Fin ms) (map Fin hs) (recastasnpfloatarray power) rpm = Ok (q, etas) /\
    r = VArr ts /\ thrust_balance ms hs (recastasnpfloatarray power) etas ts /\ forall i, nth_error (recastasnpfloatarray power) i = Some NonFin -> nth_error ts i = Some NonFin.
Proof. exact electric_thrust. Qed.
Print Assumptions C74_electric.
Example C74_nonvacuous : exists d m rpm p r e P, conditions (VNum (Fin m)) (VNum (Fin 0)) [m] [0] /\
  pi_thrust exact_grid d (VNum (Fin m)) (VNum (Fin 0)) rpm (PropellerObj p) = Ok r /\
  el_thrust (VNum (Fin P)) (VNum (Fin m)) (VNum (Fin 0)) rpm (PropellerObj p) = Ok r /\
  efficiency p [Fin m] [Fin 0] [Fin P] rpm = Ok (p, [Fin e]) /\ 0 < e <= 1.
Proof. exact piston_case. Qed.

(** C75: fuel flow.  Thrust specific consumption times propeller thrust is power
    specific consumption times shaft power ... *)
Theorem C75_turboprop_partial : forall grid d mach alt ms hs rpm prop T S, conditions mach alt ms hs ->
  tp_coldthrust grid d mach alt rpm prop = Ok T -> tp_tsfc grid d mach alt rpm prop = Ok S ->
  exists Ws bs p q etas ts ss, tp_shaftpower grid d (VArr (map Fin ms)) (VArr (map Fin hs)) = Ok (Some (VArr Ws)) /\
    tp_bsfc_at grid d (VArr (map Fin ms)) (VArr (map Fin hs)) = Ok (Some (VArr bs)) /\
    uses prop (map Fin ms) (map Fin hs) rpm Ws p /\ efficiency p (map Fin ms) (map Fin hs) Ws rpm = Ok (q, etas) /\
    T = VArr ts /\ S = VArr ss /\
    forall i m h W b eta, nth_error ms i = Some m -> nth_error hs i = Some h -> m <> 0 ->
      nth_error Ws i = Some (Fin W) -> nth_error bs i = Some (Fin b) -> nth_error etas i = Some (Fin eta) -> eta <> 0 ->
      exists t s, nth_error ts i = Some (Fin t) /\ nth_error ss i = Some (Fin s) /\ s * t = b * W / 3600.
Proof. exact turboprop_tsfc. Qed.
Print Assumptions C75_turboprop_partial.
(** ... so with the total thrust it is too much, by the jet thrust's share ... *)
Theorem C75_turboprop_total_refuted : forall grid d mach alt ms hs rpm prop U S, conditions mach alt ms hs ->
  tp_thrust grid d mach alt rpm prop = Ok U -> tp_tsfc grid d mach alt rpm prop = Ok S ->
  exists Ws bs hots us ss p q etas, tp_shaftpower grid d (VArr (map Fin ms)) (VArr (map Fin hs)) = Ok (Some (VArr Ws)) /\
    tp_bsfc_at grid d (VArr (map Fin ms)) (VArr (map Fin hs)) = Ok (Some (VArr bs)) /\
    tp_hotthrust grid d (VArr (map Fin ms)) (VArr (map Fin hs)) = Ok (Some (VArr hots)) /\
    uses prop (map Fin ms) (map Fin hs) rpm Ws p /\ efficiency p (map Fin ms) (map Fin hs) Ws rpm = Ok (q, etas) /\
    U = VArr us /\ S = VArr ss /\
    forall i m h W b eta x, nth_error ms i = Some m -> nth_error hs i = Some h -> m <> 0 ->
      nth_error Ws i = Some (Fin W) -> nth_error bs i = Some (Fin b) -> nth_error etas i = Some (Fin eta) -> eta <> 0 ->
      nth_error hots i = Some (Fin x) ->
      exists u s, nth_error us i = Some (Fin u) /\ nth_error ss i = Some (Fin s) /\ s * u = b * W / 3600 + s * x.
Proof. exact turboprop_tsfc_total. Qed.
Print Assumptions C75_turboprop_total_refuted.
Example C75_turboprop_nonvacuous : exists d m P rpm p r s e, no_extrapolation exact_grid /\ conditions (VNum (Fin m)) (VNum (Fin 0)) [m] [0] /\ 0 < m /\
  tp_pwr d = Some (one_point m 0 P) /\ tp_thr d = Some (one_point m 0 500) /\
  tp_thrust exact_grid d (VNum (Fin m)) (VNum (Fin 0)) rpm (PropellerObj p) = Ok r /\
  tp_coldthrust exact_grid d (VNum (Fin m)) (VNum (Fin 0)) rpm (PropellerObj p) = Ok s /\
  (exists s, tp_tsfc exact_grid d (VNum (Fin m)) (VNum (Fin 0)) rpm (PropellerObj p) = Ok s) /\
  tp_shaftpower exact_grid d (VArr [Fin m]) (VArr [Fin 0]) = Ok (Some (VArr [Fin P])) /\
  tp_bsfc_at exact_grid d (VArr [Fin m]) (VArr [Fin 0]) = Ok (Some (VArr [Fin 300])) /\
  efficiency p [Fin m] [Fin 0] [Fin P] rpm = Ok (p, [Fin e]) /\ 0 < e <= 1.
Proof. exact turboprop_case. Qed.
(** ... and for a piston engine the power is looked up at a shaft speed equal to the
    Mach number: with a table of realistic speeds no value is ever a number *)
Theorem C75_piston_refuted : forall grid, no_extrapolation grid -> forall d t mach alt ms hs rpm prop best r, pi_pwr d = Some t -> conditions mach alt ms hs ->
  (forall x, In (Fin x) (tx t) -> 10 < x) -> Forall (fun m => m <= 10) ms ->
  pi_tsfc grid d mach alt rpm prop best = Ok r -> exists ss, r = VArr ss /\ List.length ss = List.length ms /\ Forall (fun s => s = NonFin) ss.
Proof. exact piston_tsfc_nan. Qed.
Print Assumptions C75_piston_refuted.
Example C75_piston_nonvacuous : exists d m rpm p r, no_extrapolation exact_grid /\ pi_pwr d = Some (one_point 2400 0 150000) /\
  conditions (VNum (Fin m)) (VNum (Fin 0)) [m] [0] /\ 0 < m <= 10 /\
  pi_tsfc exact_grid d (VNum (Fin m)) (VNum (Fin 0)) rpm (PropellerObj p) "economy" = Ok r.
Proof. exact piston_tsfc_case. Qed.

(** C76: the normalised decks divide by the largest value of the table ... *)
Theorem C76_jet : forall grid d t zs, jt_thr d = Some t -> tz t = map Fin zs -> zs <> [] -> exists M, largest zs M /\
  forall m h v, jt_thrust grid d (VNum (Fin m)) (VNum (Fin h)) = Ok (Some (VNum (Fin v))) -> M <> 0 ->
    exists c, jt_sl_thrustcorr grid d (VNum (Fin m)) (VNum (Fin h)) = Ok (VNum (Fin c)) /\ c * M = v.
Proof. exact jet_normalised. Qed.
Print Assumptions C76_jet.
Theorem C76_turboprop : forall grid d t zs, tp_pwr d = Some t -> tz t = map Fin zs -> zs <> [] -> exists M, largest zs M /\
  forall m h v, tp_shaftpower grid d (VNum (Fin m)) (VNum (Fin h)) = Ok (Some (VNum (Fin v))) -> M <> 0 ->
    exists c, tp_sl_powercorr grid d (VNum (Fin m)) (VNum (Fin h)) = Ok (VArr [Fin c]) /\ c * M = v.
Proof. exact turboprop_normalised. Qed.
Print Assumptions C76_turboprop.
Theorem C76_piston : forall grid d t zs, pi_pwr d = Some t -> tz t = map Fin zs -> zs <> [] -> exists M, largest zs M /\
  forall rpm h v, pi_shaftpower grid d (VNum (Fin rpm)) (VNum (Fin h)) = Ok (Some (VNum (Fin v))) -> M <> 0 ->
    exists c, pi_sl_powercorr grid d (VNum (Fin rpm)) (VNum (Fin h)) = Ok (VArr [Fin c]) /\ c * M = v.
Proof. exact piston_normalised. Qed.
Print Assumptions C76_piston.
(** ... so at the data points they are at most 1, and 1 where the table is largest ... *)
Theorem C76_at_data_points : forall grid d t zs, jt_thr d = Some t -> tz t = map Fin zs -> interpolates grid t -> (forall z, In z zs -> 0 < z) ->
  forall i m h z, nth_error (tx t) i = Some (Fin m) -> nth_error (ty t) i = Some (Fin h) -> nth_error zs i = Some z ->
    exists c, jt_sl_thrustcorr grid d (VNum (Fin m)) (VNum (Fin h)) = Ok (VNum (Fin c)) /\ 0 < c <= 1 /\ (c = 1 <-> largest zs z).
Proof. exact jet_points. Qed.
Print Assumptions C76_at_data_points.
(** ... which need not be at sea level and rest, as the name and documentation say *)
Theorem C76_sea_level_refuted : no_extrapolation exact_grid /\ jt_thrust exact_grid climbing_deck (VNum (Fin 0)) (VNum (Fin 0)) = Ok (Some (VNum (Fin 10000))) /\
  exists c, jt_sl_thrustcorr exact_grid climbing_deck (VNum (Fin 0)) (VNum (Fin 0)) = Ok (VNum (Fin c)) /\ c = 0.5.
Proof. exact not_sea_level. Qed.
Print Assumptions C76_sea_level_refuted.
Example C76_nonvacuous : forall t, jt_thr climbing_deck = Some t -> interpolates exact_grid t /\ tz t = map Fin [10000; 20000].
Proof. exact climbing_case. Qed.

(** C77: the propeller sized for a flight condition. *)
Theorem C77_ansatz : forall p ms hs Ws rpm rho a, ms <> [] -> hs <> [] -> Ws <> [] -> standard_air (mean hs) rho a ->
  0 < mean ms < 0.8 -> 0 < rpm -> 0 < mean Ws ->
  exists q D z af sol cl, ansatzprop p (map Fin ms) (map Fin hs) (Fin rpm) (map Fin Ws) = Ok q /\
    diameter_m q = Some (Fin D) /\ bladecount q = Some (Fin (IZR z)) /\ bladeactivityfact q = Some (Fin af) /\
    solidity q = Some (Fin sol) /\ idesign_cl q = Some (Fin cl) /\ solve_dp q = solve_dp p /\ solve_maxiter q = solve_maxiter p /\
    let P := mean Ws in let n := rpm / 60 in let V := mean ms * a in
    let J := advance_ratio V n D in let cp := power_coefficient P rho n D in let total := 1000 * Rpower (cp / 0.3) 0.8 in
    0 < D /\ J / cp <= 3.2 ^ 3 /\ V ^ 2 + (PI * n * D / 2) ^ 2 <= (0.8 * a) ^ 2 /\
    (V ^ 2 + (PI * n * D / 2) ^ 2 < (0.8 * a) ^ 2 -> 2.4 ^ 3 <= J / cp) /\
    (exists r, (total < 400 /\ rounds_to (total / 133) r \/ 400 <= total /\ rounds_to (total / 120) r) /\ z = Z.max r 2) /\
    IZR z * af = total /\ sol = 128 * total / (100000 * PI) /\ 0 < sol /\
    cl * (0.5 * rho * V ^ 2 * (PI * (D / 2) ^ 2 * sol)) = P / V.
Proof. exact ansatz_design. Qed.
Print Assumptions C77_ansatz.
Example C77_nonvacuous : exists rho a, standard_air (mean [0; 3000]) rho a /\ 0 < mean [0.3; 0.4; 0.5] < 0.8 /\ 0 < mean [200000; 300000].
Proof. exact ansatz_case. Qed.
(** the limit of Mach 0.8 holds for half the radius: the tip may be faster *)
Theorem C77_tip_speed_refuted : exists rho a P rpm q D, standard_air 0 rho a /\ 0 < P /\
  ansatzprop blank_propeller [Fin 0.5] [Fin 0] (Fin rpm) [Fin P] = Ok q /\ diameter_m q = Some (Fin D) /\
  (0.8 * a) ^ 2 < (0.5 * a) ^ 2 + (PI * (rpm / 60) * D) ^ 2.
Proof. exact ansatz_tip. Qed.
Print Assumptions C77_tip_speed_refuted.
