(** Independent specifications for the performance constraints of AircraftConcept. *)
From Verif Require Import Base UnitsModel AtmosModel AtmosSpec ConceptModel MethodsModel MethodsSpec.
Open Scope R_scope.

(** ** The design atmosphere: what its queries answer at altitude [h] *)
Record airstate := { a_rho : R; a_temp : R; a_press : R }.
Definition air_at (c : concept) (h : R) (s : airstate) : Prop :=
  airdens_kgpm3 (designatm c) (VNum (Fin h)) = Ok (VNum (Fin (a_rho s))) /\
  airtemp_k (designatm c) (VNum (Fin h)) = Ok (VNum (Fin (a_temp s))) /\
  airpress_pa (designatm c) (VNum (Fin h)) = Ok (VNum (Fin (a_press s))) /\
  0 < a_rho s /\ 0 < a_temp s.
Definition sound_speed (s : airstate) : R := sqrt (1.4 * 287.05287 * a_temp s).
Definition mach_no (V : R) (s : airstate) : R := V / sound_speed s.
Definition dyn_press (V : R) (s : airstate) : R := 1 / 2 * a_rho s * V ^ 2.
(** true airspeed with the dynamic pressure that [e] has at sea level *)
Definition true_speed (e : R) (s s0 : airstate) : R := e * sqrt (a_rho s0 / a_rho s).
(** knots and feet per minute in m/s, horsepower: the repository's constants *)
Definition knots (v : R) : R := v * 0.5144444.
Definition feet_per_min (v : R) : R := v * 0.3048 / 60.
Definition hp_per_kw : R := 1.34102.

(** ** Thrust lapse *)
(** the thrust available at speed [V] and altitude [h], as a fraction of the sea level
    value, that the concept's engine model reports; 1 when no mapping to sea level is
    asked for (the model is consulted all the same) *)
Definition lapse (ext : externals) (c : concept) (map2sl : bool) (V h tau : R) : Prop :=
  exists tc pc, propulsion_slcorr ext c (VNum (Fin V)) (Fin h) = Ok (tc, pc) /\
    if map2sl then tau <> 0 /\ (tc = VNum (Fin tau) \/ tc = VArr [Fin tau]) else tau = 1.

(** the generic engine models and their lapse at Mach number [m] *)
Definition turbojet_lapse (tc p m tr : R) : R :=
  delta0 p m * 0.8 * (1 - 0.16 * sqrt m - 24 * excess (theta0 tc m - tr) / ((9 + m) * theta0 tc m)).
Definition low_bypass_lapse (tc p m tr : R) : R :=
  delta0 p m * (1 - 3.5 * excess (theta0 tc m - tr) / theta0 tc m).
Definition high_bypass_lapse (tc p m tr : R) : R :=
  delta0 p m * (1 - 0.49 * sqrt m - 3 * excess (theta0 tc m - tr) / (1.5 + m)).
Definition piston_lapse (rho : R) : R := 1.132 * (rho / 1.225) - 0.132.
Inductive generic_engine := Turbojet | LowBypass | HighBypass | Piston | Turboprop | Electric | NoModel.
(** the engine a concept without an engine deck stands for: the propulsion string if
    there is one, otherwise the bypass ratio (-1, -2, -3 code for the propeller types) *)
Inductive generic_of (b : R) : propulsion_t -> generic_engine -> Prop :=
| g_turbojet p : p = PropFalse \/ p = PropStr "jet"%string -> b = 0 -> generic_of b p Turbojet
| g_low p : p = PropFalse \/ p = PropStr "jet"%string -> 0 < b < 5 -> generic_of b p LowBypass
| g_high p : p = PropFalse \/ p = PropStr "jet"%string -> 5 <= b -> generic_of b p HighBypass
| g_piston p : p = PropFalse /\ b = -1 \/ p = PropStr "piston"%string -> generic_of b p Piston
| g_turboprop p : p = PropFalse /\ b = -2 \/ p = PropStr "turboprop"%string -> generic_of b p Turboprop
| g_electric p : p = PropFalse /\ b = -3 \/ p = PropStr "electric"%string -> generic_of b p Electric
| g_none : -3 < b < 0 -> b <> -1 -> b <> -2 -> generic_of b PropFalse NoModel.
Definition engine_lapse (ext : externals) (g : generic_engine) (s : airstate) (m tr : R) : num :=
  match g with
  | Turbojet => Fin (turbojet_lapse (a_temp s - 273.15) (a_press s) m tr)
  | LowBypass => Fin (low_bypass_lapse (a_temp s - 273.15) (a_press s) m tr)
  | HighBypass => Fin (high_bypass_lapse (a_temp s - 273.15) (a_press s) m tr)
  | Piston => Fin (piston_lapse (a_rho s))
  | Turboprop => tpspline ext (Fin (a_rho s / 1.2249998682209657)) (Fin m)
  | Electric | NoModel => Fin 1
  end.

(** ** Induced drag *)
(** [k] is the induced drag factor the leading edge suction method of [c] gives at Mach
    number [m] for wing loading [x] and lift coefficient [cl] *)
Definition induced (ext : externals) (c : concept) (m x cl k : R) : Prop :=
  exists f, lesm ext c (Fin m) = Ok f /\ f (Fin x) (Some (Fin cl)) = Fin k.

(** lift coefficient the wing is taken to be designed for: that of the cruise, or 0.6 *)
Definition cruise_cl (c : concept) (x clc : R) : Prop :=
  ((cruisespeed_ktas c = None \/ cruisealt_m c = None) /\ clc = 0.6) \/
  exists v h s b, cruisespeed_ktas c = Some (Fin v) /\ cruisealt_m c = Some (Fin h) /\ air_at c h s /\
    v <> 0 /\ cruise_weight_fraction c = Some (Fin b) /\ clc = x * b / dyn_press (knots v) s.
(** fraction of the full leading edge suction at lift coefficient [clc + d], wing
    designed for [clc]: two fitted curves, for 0.3 and 0.8, blended linearly *)
Definition suction_curve (clc A C r d : R) : R :=
  let k := - (1 / 2) * clc ^ 2 - 1 / 4 * clc - 0.22 in
  A * (d - (1 + r * k)) * exp (- C * (d - 0.1)) * - tan (0.1 * (d - k)).
Definition design_weight (clc : R) : R := clamp01 ((0.8 - clc) / 0.5).
Definition suction (clc d : R) : R :=
  design_weight clc * suction_curve 0.3 22.5 1.95 0 d
  + (1 - design_weight clc) * suction_curve 0.8 5.77 1 (-1.29) d.
(** tangents of the two suction curves exist *)
Definition suction_ok (d : R) : Prop :=
  cos (0.1 * (d + 0.34)) <> 0 /\ cos (0.1 * (d + 0.74)) <> 0.
(** induced drag factor: span efficiency estimate [ko], zero suction factor [k0], full
    suction factor [k100], blended with weight (1 - m / Ms)^0.2 below the Mach number Ms
    of the sonic leading edge *)
Definition lesm_factor (ms m ko k0 k100 S : R) : R :=
  let wt := if Rlt_dec m ms then Rpower (1 - m / ms) 0.2 else 0 in
  ko * wt + (S * k100 + (1 - S) * k0) * (1 - wt).
(** full suction factor between Mach 1 and Ms: the parabola through (1, y1) with zero
    slope there, and through (Ms, y2) *)
Definition parabola (x2 y1 y2 : R) (f : R -> R) : Prop :=
  (exists a b c, forall x, f x = a * x ^ 2 + b * x + c) /\
  f 1 = y1 /\ f x2 = y2 /\ derivable_pt_lim f 1 0.

(** ** Force balance *)
(** wing loading [x], flight path angle [g], lift = load factor [n] times the weight;
    parabolic drag polar.  [t] is thrust / weight along the flight path. *)
Definition drag_balance (q cd0 k x n g t : R) : Prop :=
  t * x = q * (cd0 + k * (n * x / q) ^ 2) + x * sin g.

(** what the brief and the design say about each flight condition *)
Definition climb_data (c : concept) (spd rate h b cd0 : R) : Prop :=
  climbspeed_kias c = Some (Fin spd) /\ climbrate_fpm c = Some (Fin rate) /\ climbalt_m c = Some (Fin h) /\
  climb_weight_fraction c = Some (Fin b) /\ cdminclean c = Some (Fin cd0).
Definition cruise_data (c : concept) (spd h b ct cd0 : R) : Prop :=
  cruisespeed_ktas c = Some (Fin spd) /\ cruisealt_m c = Some (Fin h) /\
  cruise_weight_fraction c = Some (Fin b) /\ cruisethrustfact c = Some (Fin ct) /\
  cdminclean c = Some (Fin cd0).
Definition ceiling_data (c : concept) (spd h b cd0 : R) : Prop :=
  secclimbspd_kias c = Some (Fin spd) /\ servceil_m c = Some (Fin h) /\
  sec_weight_fraction c = Some (Fin b) /\ cdminclean c = Some (Fin cd0).
Definition turn_data (c : concept) (spd h n b bc cd0 : R) : Prop :=
  turnspeed_ktas c = Some (Fin spd) /\ turnalt_m c = Some (Fin h) /\ stloadfactor c = Some (Fin n) /\
  turn_weight_fraction c = Some (Fin b) /\ climb_weight_fraction c = Some (Fin bc) /\
  cdminclean c = Some (Fin cd0).
Definition takeoff_data (c : concept) (d h clmax cd cl mu b : R) : Prop :=
  groundrun_m c = Some (Fin d) /\ rwyelevation_m c = Some (Fin h) /\ clmaxto c = Some (Fin clmax) /\
  cdto c = Some (Fin cd) /\ clto c = Some (Fin cl) /\ mu_r c = Some (Fin mu) /\ bpr c = Some (Fin b).
(** an array result: one number for each wing loading, a scalar for a single one *)
Definition results (ws : list R) (T : R -> R) : val := reverttoscalar (VArr (map (fun w => Fin (T w)) ws)).

(** ** Take-off *)
Definition gravity : R := 9.80665.
(** lift-off at 1.1 times the stall speed of the take-off configuration *)
Definition liftoff_speed (x rho clmax v : R) : Prop :=
  0 <= v /\ exists vs, v = 1.1 * vs /\ 1 / 2 * rho * vs ^ 2 * clmax = x.
(** energy balance of the ground run of length [d], forces taken at the speed
    [v / sqrt 2], at which the lift is half of the weight *)
Definition ground_run (tw v d cd cl mu : R) : Prop :=
  v ^ 2 / 2 = gravity * d * (tw - cd / cl * (1 / 2) - mu * (1 - 1 / 2)).
(** static thrust over the take-off average, for bypass ratios above one *)
Definition static_factor (b : R) : R := if Rlt_dec 1 b then 4 / 3 * (4 + b) / (5 + b) else 1.

(** ** Envelopes *)
(** [m] is the largest of the numbers [l], undefined if one of them is *)
Definition envelope (l : list num) (m : num) : Prop :=
  (In NonFin l /\ m = NonFin) \/
  (~ In NonFin l /\ In m l /\ forall x y, In (Fin x) l -> m = Fin y -> x <= y).

(** the concept with another climb, cruise or ceiling weight fraction *)
Definition with_climb_fraction (c : concept) (p : param) : concept :=
  {| climbalt_m := climbalt_m c; climbspeed_kias := climbspeed_kias c; climbrate_fpm := climbrate_fpm c;
     cruisealt_m := cruisealt_m c; cruisespeed_ktas := cruisespeed_ktas c; cruisethrustfact := cruisethrustfact c;
     servceil_m := servceil_m c; secclimbspd_kias := secclimbspd_kias c; vstallclean_kcas := vstallclean_kcas c;
     groundrun_m := groundrun_m c; rwyelevation_m := rwyelevation_m c; to_headwind_kts := to_headwind_kts c;
     to_slope_perc := to_slope_perc c; turnalt_m := turnalt_m c; turnspeed_ktas := turnspeed_ktas c; stloadfactor := stloadfactor c;
     aspectratio := aspectratio c; sweep_le_deg := sweep_le_deg c; sweep_25_deg := sweep_25_deg c; sweep_mt_deg := sweep_mt_deg c;
     roottaperratio := roottaperratio c; wingarea_m2 := wingarea_m2 c; wingheightratio := wingheightratio c;
     bpr := bpr c; spooluptime_s := spooluptime_s c; totalstaticthrust_n := totalstaticthrust_n c; throttle_r := throttle_r c;
     weight_n := weight_n c;
     climb_weight_fraction := p; cruise_weight_fraction := cruise_weight_fraction c;
     sec_weight_fraction := sec_weight_fraction c; turn_weight_fraction := turn_weight_fraction c;
     runwayalpha_deg := runwayalpha_deg c; runwayalpha_max_deg := runwayalpha_max_deg c;
     CD0TO := CD0TO c; cdto := cdto c; cdminclean := cdminclean c; mu_r := mu_r c;
     CL0TO := CL0TO c; clto := clto c; clmaxclean := clmaxclean c; clminclean := clminclean c; clmaxto := clmaxto c;
     a_0i := a_0i c;
     etaprop_climb := etaprop_climb c; etaprop_cruise := etaprop_cruise c; etaprop_sec := etaprop_sec c;
     etaprop_to := etaprop_to c; etaprop_turn := etaprop_turn c;
     designatm := designatm c; propulsion := propulsion c |}.

(** element [i] of a number or array, a single number standing for every element *)
Definition nth_bc (v : val) (i : nat) : option num :=
  match elements v with [x] => Some x | l => nth_error l i end.
(** shaft power (hp) for thrust to weight ratio [t] at speed [V], propeller efficiency
    [eta], take-off mass [m], divided by the power lapse [k] *)
Definition shaft_power (m eta t V k : R) : R :=
  t * (m * gravity) * V / eta / 1000 * hp_per_kw / k.
(** [P] is, at every index, the shaft power for the ratio [tw] and the [speed], undefined
    if one of the inputs is *)
Definition fits (v : val) (n : nat) : Prop :=
  List.length (elements v) = 1%nat \/ List.length (elements v) = n.
Definition powers (m eta : R) (tw speed corr P : val) : Prop :=
  let n := List.length (elements tw) in
  (fits speed n -> fits corr n -> List.length (elements P) = n) /\
  forall i p, nth_error (elements P) i = Some p ->
  exists t V k, nth_bc tw i = Some t /\ nth_bc speed i = Some V /\ nth_bc corr i = Some k /\
    (t = NonFin \/ V = NonFin \/ k = NonFin -> p = NonFin) /\
    forall t' V' k', t = Fin t' -> V = Fin V' -> k = Fin k' -> k' <> 0 ->
    p = Fin (shaft_power m eta t' V' k').
(** the power lapse that goes with a speed and an altitude *)
Definition power_corr (ext : externals) (c : concept) (map2sl : bool) (speed : val) (alt : num) (corr : val) : Prop :=
  if map2sl then exists tc, propulsion_slcorr ext c speed alt = Ok (tc, corr) else corr = VNum (Fin 1).

(** ** When the constraints can be evaluated *)
(** a wing whose geometry and section lift slope are in range, and an interpolator that
    answers inside the transonic table *)
Definition wing_ok (ext : externals) (c : concept) : Prop :=
  exists w a0, has_wing c w /\ regular w /\ half_ok w /\ a_0i c = Some (Fin a0) /\ 0 < a0 /\
  forall tab m, transonic_table c = Ok tab -> 0.6 <= m <= 1.4 -> exists y, cubic ext tab (Fin m) = Ok (Fin y).
(** a generic engine, a jet or turboprop deck, or an object that is no engine at all *)
Definition engine_ok (c : concept) : Prop :=
  (exists b tr g, bpr c = Some (Fin b) /\ throttle_r c = Some (Fin tr) /\ generic_of b (propulsion c) g) \/
  (exists f, propulsion c = PropJet f) \/ (exists f, propulsion c = PropTurboprop f) \/ propulsion c = PropOther.
(** the nine items of the brief that have no default are given, and the design
    atmosphere answers at the altitudes of all the flight conditions *)
Definition brief_complete (c : concept) : Prop :=
  (exists v r, climbspeed_kias c = Some (Fin v) /\ climbrate_fpm c = Some (Fin r) /\ 0 < v) /\
  (exists v, cruisespeed_ktas c = Some (Fin v) /\ 0 < v) /\
  (exists v, secclimbspd_kias c = Some (Fin v) /\ 0 < v) /\
  (exists v n, turnspeed_ktas c = Some (Fin v) /\ stloadfactor c = Some (Fin n) /\ 0 < v) /\
  (exists d, groundrun_m c = Some (Fin d)) /\
  (exists s0, air_at c 0 s0) /\
  Forall (fun alt => exists h s, alt = Some (Fin h) /\ air_at c h s)
    [climbalt_m c; cruisealt_m c; servceil_m c; turnalt_m c; rwyelevation_m c].


(** the turn requirement that enters the combined one *)
Definition chosen_turn (fo : bool) (r : requirement) : val := if fo then rq_turnfeasible r else rq_turn r.

(** two requirements with the same numbers *)
Definition same_requirement (r r' : requirement) : Prop :=
  rq_liftoffspeed r = rq_liftoffspeed r' /\ rq_avspeed r = rq_avspeed r' /\ rq_turncl r = rq_turncl r' /\
  elements (rq_takeoff r) = elements (rq_takeoff r') /\ elements (rq_turn r) = elements (rq_turn r') /\
  elements (rq_turnfeasible r) = elements (rq_turnfeasible r') /\ elements (rq_climb r) = elements (rq_climb r') /\
  elements (rq_cruise r) = elements (rq_cruise r') /\ elements (rq_servceil r) = elements (rq_servceil r') /\
  elements (rq_combined r) = elements (rq_combined r').
