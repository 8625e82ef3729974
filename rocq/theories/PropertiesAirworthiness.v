(** Properties C44-C49 and C64-C69: certification specifications and flight envelope
    (airworthiness.py). *)
From Verif Require Import Base UnitsModel AtmosModel ConceptModel ConceptSpec ConceptProofs6 MethodsModel MethodsSpec MethodsExamples ConstraintSpec
  AirworthinessModel AirworthinessSpec AirworthinessProofs AirworthinessProofs4 AirworthinessProofs5 AirworthinessProofs6.
Open Scope R_scope.

(** C44: gust velocities as functions of the altitude. *)
Theorem C44_gust_velocities : forall s W A, weight_n (acobj s) = Some (Fin W) -> wingarea_m2 (acobj s) = Some A -> 0 <= W ->
  exists Ub Uc Ud, gust_shape 66 38 Ub /\ gust_shape 50 25 Uc /\ gust_shape 25 12.5 Ud /\
  forall h, exists m g, paragraph333 (with_altitude s h) = Ok (m, g) /\
    forall k, Uc_mps (g k) = Fin (ft (Uc (h / 0.3048))) /\ Ud_mps (g k) = Fin (ft (Ud (h / 0.3048))) /\
      Ub_mps (g k) = match k with Comm => Some (Fin (ft (Ub (h / 0.3048)))) | _ => None end.
Proof. exact gust_velocities. Qed.
Print Assumptions C44_gust_velocities.
Example C44_nonvacuous : exists s f, describes example_ext s f /\ weight_n (acobj s) = Some (Fin 100000) /\
  wingarea_m2 (acobj s) = Some (Fin 30) /\ f_weight f = 100000.
Proof. exact weighed_example. Qed.

(** C45: design airspeeds. *)
Theorem C45_design_speeds : forall ext s f, describes ext s f ->
  exists p, paragraph335 ext s = Ok p /\ forall k, exists ua ub ub2,
    vcmin_keas (p k) = Fin (vc_minimum k f) /\ vdmin_keas (p k) = Fin (vd_minimum k f) /\
    1.25 * Rmax (f_vc f) (vc_minimum k f) <= vd_minimum k f /\
    vamin_keas (p k) = Fin (in_knots ua) /\ vasoftmax_keas (p k) = Fin (f_vc f) /\
    carries (a_rho (f_sl f)) (f_area f) (f_clmax f) (limit_positive k (pounds (f_weight f)) * (f_wf f * f_weight f)) ua /\
    vbmin1_keas (p k) = Fin (in_knots ub) /\ 0 < ub /\
    1 / 2 * a_rho (f_sl f) * ub ^ 2 * f_area f * f_clmax f =
      f_wf f * f_weight f * (f_wf f + alleviation f * a_rho (f_sl f) * rough_gust k f * ub * f_slope f / (2 * (wing_loading f * f_wf f))) /\
    vbmin2_keas (p k) = Fin (in_knots ub2) /\
    carries (a_rho (f_sl f)) (f_area f) (f_clmax f) ((1 + coded_increment f (gust_c f) (f_vc f)) * (f_wf f * f_weight f)) ub2 /\
    vbmin_keas (p k) = Fin (in_knots (Rmin ub ub2)) /\ vbmax_keas (p k) = Fin (Rmax (in_knots (Rmin ub ub2)) (f_vc f)) /\
    (maxlevelspeed_keas s = None -> vcsoftmax_keas (p k) = None) /\
    (forall vh, maxlevelspeed_keas s = Some (Fin vh) -> vcsoftmax_keas (p k) = Some (Fin (0.9 * vh))).
Proof. exact design_speeds_meaning. Qed.
Print Assumptions C45_design_speeds.
Example C45_nonvacuous : forall k, exists s f vd, describes example_ext s f /\ category s = CStr (names k) /\ dive s k f vd /\ f_wf f = 0.9.
Proof. exact example_any. Qed.
(** the manoeuvring speed is not always below the cruise speed *)
Theorem C45_manoeuvring_below_cruise_refuted : forall ext s f, describes ext s f ->
  a_rho (f_sl f) * f_clmax f <= 1.67 * f_wf f -> f_vc f <= vc_minimum Aero f ->
  exists p va vc, paragraph335 ext s = Ok p /\ vamin_keas (p Aero) = Fin va /\ vcmin_keas (p Aero) = Fin vc /\
    f_vc f <= vc < va.
Proof. exact va_refuted. Qed.
Print Assumptions C45_manoeuvring_below_cruise_refuted.
Example C45_refuted_nonvacuous : exists s f, describes example_ext s f /\ category s = CStr (names Aero) /\
  a_rho (f_sl f) * f_clmax f <= 1.67 * f_wf f /\ f_vc f <= vc_minimum Aero f.
Proof. exact va_witness. Qed.
(** it is for normal and commuter aircraft with a large enough lift coefficient *)
Theorem C45_manoeuvring_below_cruise_partial : forall ext s f, describes ext s f ->
  forall k, k = Norm \/ k = Comm -> 1.69 * f_wf f <= a_rho (f_sl f) * f_clmax f ->
  exists p va vc, paragraph335 ext s = Ok p /\ vamin_keas (p k) = Fin va /\ vcmin_keas (p k) = Fin vc /\
    va <= Rmax (f_vc f) vc.
Proof. exact va_partial. Qed.
Print Assumptions C45_manoeuvring_below_cruise_partial.
Example C45_partial_nonvacuous : exists s f, describes example_ext s f /\ category s = CStr (names Norm) /\
  1.69 * f_wf f <= a_rho (f_sl f) * f_clmax f.
Proof. exact va_partial_witness. Qed.

(** C46: limit manoeuvring load factors.  The negative factors of utility and aerobatic
    aircraft are taken from the normal category's positive factor. *)
Theorem C46_limit_load_factors_partial : forall s W A,
  weight_n (acobj s) = Some (Fin W) -> wingarea_m2 (acobj s) = Some A -> 0 <= W ->
  exists l, paragraph337 s = Ok l /\
    (forall c, npos_min (l c) = Fin (limit_positive c (pounds W))) /\
    nneg_max (l Norm) = Fin (limit_negative Norm (pounds W)) /\
    nneg_max (l Comm) = Fin (limit_negative Comm (pounds W)).
Proof. exact limits_partial. Qed.
Print Assumptions C46_limit_load_factors_partial.
Theorem C46_negative_factors_refuted : forall s W A,
  weight_n (acobj s) = Some (Fin W) -> wingarea_m2 (acobj s) = Some A -> 0 <= W ->
  exists l nu na, paragraph337 s = Ok l /\
    nneg_max (l Util) = Fin nu /\ limit_negative Util (pounds W) + 0.2 < nu < 0 /\
    nneg_max (l Aero) = Fin na /\ limit_negative Aero (pounds W) + 1 < na < 0.
Proof. exact limits_negative_wrong. Qed.
Print Assumptions C46_negative_factors_refuted.
(** the positive factor is bounded and never grows with the weight *)
Theorem C46_factor_monotone : forall s1 s2 W1 W2 A1 A2,
  weight_n (acobj s1) = Some (Fin W1) -> wingarea_m2 (acobj s1) = Some A1 ->
  weight_n (acobj s2) = Some (Fin W2) -> wingarea_m2 (acobj s2) = Some A2 -> 0 <= W1 <= W2 ->
  exists l1 l2, paragraph337 s1 = Ok l1 /\ paragraph337 s2 = Ok l2 /\ forall c, exists n1 n2,
    npos_min (l1 c) = Fin n1 /\ npos_min (l2 c) = Fin n2 /\ 2.1 < n2 <= n1 /\ n1 <= 6.
Proof. exact factor_monotone. Qed.
Print Assumptions C46_factor_monotone.
Example C46_nonvacuous : exists s, weight_n (acobj s) = Some (Fin 20000) /\ wingarea_m2 (acobj s) = Some (Fin 30) /\
  exists t, weight_n (acobj t) = Some (Fin 100000) /\ wingarea_m2 (acobj t) = Some (Fin 30).
Proof. exact light_example. Qed.

(** C47: gust load factors. *)
Theorem C47_gust_load_factors : forall ext s f, describes ext s f ->
  exists K, K = alleviation f * a_rho (f_sl f) * 0.5144444 * f_slope f / (2 * (wing_loading f * f_wf f)) / f_wf f /\
    0 < K /\ forall sp, exists L kg, paragraph341 ext s sp = Ok (L, Fin kg, Fin (f_slope f)) /\
    kg = 0.88 * mass_ratio f / (5.3 + mass_ratio f) /\ 0 < kg < 0.88 /\
    (forall k v, at_Uc sp = Some (Fin v) -> l_Uc (L k) = Some (Fin (1 + K * gust_c f * v), Fin (1 - K * gust_c f * v))) /\
    (forall k v, at_Ud sp = Some (Fin v) -> l_Ud (L k) = Some (Fin (1 + K * gust_d f * v), Fin (1 - K * gust_d f * v))) /\
    (forall v, at_Ub sp = Some (Fin v) -> l_Ub (L Comm) = Some (Fin (1 + K * gust_b f * v), Fin (1 - K * gust_b f * v))) /\
    (forall k, at_Uc sp = None -> l_Uc (L k) = None) /\ (forall k, at_Ud sp = None -> l_Ud (L k) = None) /\
    (forall k, at_Ub sp = None \/ k <> Comm -> l_Ub (L k) = None).
Proof. exact gust_loads. Qed.
Print Assumptions C47_gust_load_factors.
Example C47_nonvacuous : exists s f sp, describes example_ext s f /\ at_Uc sp = Some (Fin 250) /\ at_Ub sp = Some (Fin 180) /\
  at_Ud sp = None /\ f_wf f = 0.9.
Proof. exact gust_example. Qed.

(** C68: against the regulation, the weight fraction enters the gust loads twice. *)
Theorem C68_weight_fraction_refuted : forall ext s f, describes ext s f ->
  forall sp k v, at_Uc sp = Some (Fin v) -> 0 < v -> exists L kg a q,
    paragraph341 ext s sp = Ok (L, kg, a) /\ l_Uc (L k) = Some (Fin (1 + q), Fin (1 - q)) /\
    q = gust_increment f (wing_loading f * f_wf f) (gust_c f) v / f_wf f /\
    (q = gust_increment f (wing_loading f * f_wf f) (gust_c f) v <-> f_wf f = 1).
Proof. exact gust_twice. Qed.
Print Assumptions C68_weight_fraction_refuted.
Example C68_nonvacuous : exists s f sp, describes example_ext s f /\ at_Uc sp = Some (Fin 250) /\ at_Ub sp = Some (Fin 180) /\
  at_Ud sp = None /\ f_wf f = 0.9.
Proof. exact gust_example. Qed.

(** C48: the points of interest. *)
Theorem C48_points : forall ext s f, describes ext s f -> forall c vd, category s = CStr (names c) -> dive s c f vd ->
  exists e va vb vc via na nc nd ne nf ng,
    flightenvelope ext s = Ok e /\
    vc = Rmax (f_vc f) (vc_minimum c f) /\ 1.25 * vc <= vd /\
    dget "A" (poi e) = Some (Fin va, Fin na) /\ na = limit_positive c (pounds (f_weight f)) / f_wf f /\
      nearly (stall_line f (f_clmax f) va) na /\
    dget "B" (poi e) = (if Rle_dec vb vc then Some (Fin vb, Fin (stall_line f (f_clmax f) vb)) else None) /\
      0 < vb /\ nearly (stall_line f (f_clmax f) vb) (1 + coded_increment f (rough_gust c f) vb) /\
    dget "C" (poi e) = Some (Fin vc, Fin nc) /\
      nc = (if Rle_dec vc (Rmax va vb) then stall_line f (f_clmax f) vc
            else Rmax (1 + coded_increment f (gust_c f) vc) na) /\
    dget "D" (poi e) = Some (Fin vd, Fin nd) /\ nd = Rmax (1 + coded_increment f (gust_d f) vd) na /\
    dget "E" (poi e) = Some (Fin vd, Fin ne) /\
      ne = Rmin (1 - coded_increment f (gust_d f) vd) (limit_negative_dive c / f_wf f) /\
    dget "F" (poi e) = Some (Fin vc, Fin nf) /\
      nf = Rmin (Rmax (1 - coded_increment f (gust_c f) vc) (stall_line f (f_clmin f) vc))
                (limit_negative_dive c / f_wf f) /\
    dget "G" (poi e) = Some (Fin via, Fin ng) /\ ng = stall_line f (f_clmin f) via /\
      (c = Norm \/ c = Comm -> nearly ng (limit_negative c (pounds (f_weight f)) / f_wf f)).
Proof. exact points. Qed.
Print Assumptions C48_points.
Theorem C48_unknown_category : forall ext s, (forall c, category s <> CStr (names c)) -> flightenvelope ext s = Err ValueError.
Proof. exact bad_category. Qed.
Print Assumptions C48_unknown_category.
Example C48_nonvacuous : exists s f vd, describes example_ext s f /\ category s = CStr "comm" /\ dive s Comm f vd /\
  exists t, (forall c, category t <> CStr (names c)) /\ category t = CStr "Normal".
Proof. exact category_example. Qed.

(** C49: mean chords of the trapezoidal wing. *)
Theorem C49_mean_chords : forall s A B T root b,
  wingarea_m2 (acobj s) = Some (Fin A) -> aspectratio (acobj s) = Some (Fin B) ->
  roottaperratio (acobj s) = Some (Fin T) -> 0 < A -> 0 < B -> -1 < T -> trapezoid A B T root b ->
  exists smc mac, meanchord_m s = Ok (Fin smc, Fin mac) /\
    integral01 (chord root T) smc /\ integral01 (fun y => chord root T y ^ 2) (mac * smc) /\
    smc * b = A /\ 0 < smc <= mac.
Proof. exact chords_geometry. Qed.
Print Assumptions C49_mean_chords.
Example C49_nonvacuous : exists s root b, wingarea_m2 (acobj s) = Some (Fin 30) /\ aspectratio (acobj s) = Some (Fin 8) /\
  roottaperratio (acobj s) = Some (Fin 0.4) /\ trapezoid 30 8 0.4 root b.
Proof. exact chords_example. Qed.
Theorem C49_scaling : forall s1 s2 A B T k,
  wingarea_m2 (acobj s1) = Some (Fin A) -> aspectratio (acobj s1) = Some (Fin B) ->
  roottaperratio (acobj s1) = Some (Fin T) -> wingarea_m2 (acobj s2) = Some (Fin (k ^ 2 * A)) ->
  aspectratio (acobj s2) = Some (Fin B) -> roottaperratio (acobj s2) = Some (Fin T) ->
  0 < A -> 0 < B -> -1 < T -> 0 < k ->
  exists smc mac, meanchord_m s1 = Ok (Fin smc, Fin mac) /\ meanchord_m s2 = Ok (Fin (k * smc), Fin (k * mac)).
Proof. exact chords_scale. Qed.
Print Assumptions C49_scaling.

(** C64: stall speeds. *)
Theorem C64_stall_speed : forall ext s f, describes ext s f ->
  forall n, exists u, vs_keas s (Fin n) = Ok (Fin (in_knots u)) /\
    carries (a_rho (f_sl f)) (f_area f) (if Rle_dec 0 n then f_clmax f else f_clmin f) (n * f_weight f) u.
Proof. exact stall_speed. Qed.
Print Assumptions C64_stall_speed.
Theorem C64_missing_weight_or_area : forall s n, weight_n (acobj s) = None \/ wingarea_m2 (acobj s) = None -> vs_keas s n = Err ValueError.
Proof. exact stall_missing. Qed.
Print Assumptions C64_missing_weight_or_area.
Theorem C64_missing_lift_coefficient : forall s w a n, weight_n (acobj s) = Some w -> wingarea_m2 (acobj s) = Some a ->
  (0 <= n /\ clmaxclean (acobj s) = None) \/ (n < 0 /\ clminclean (acobj s) = None) -> vs_keas s (Fin n) = Err ValueError.
Proof. exact stall_missing_cl. Qed.
Print Assumptions C64_missing_lift_coefficient.
Example C64_nonvacuous : exists s, weight_n (acobj s) = Some (Fin 100000) /\ wingarea_m2 (acobj s) = Some (Fin 30) /\
  clminclean (acobj s) = None /\ exists t, weight_n (acobj t) = None.
Proof. exact incomplete_example. Qed.

(** C65: the outline covers the manoeuvring limits up to the stall lines.  Missing: the
    negative limit at point F, see below. *)
Theorem C65_outline_partial : forall ext s f, describes ext s f -> forall c vd, category s = CStr (names c) -> dive s c f vd ->
  exists e sc cd ef fs va na, flightenvelope ext s = Ok e /\
    dget "SC" (outline e) = Some sc /\ dget "CD" (outline e) = Some cd /\ dget "EF" (outline e) = Some ef /\
    dget "FS" (outline e) = Some fs /\ dget "A" (poi e) = Some (Fin va, Fin na) /\
    ((exists vs, vs_keas s (weightfraction s) = Ok (Fin vs) /\ vs <= Rmax (f_vc f) (vc_minimum c f)) ->
     forall x y, In (x, y) sc -> exists v n, x = Fin v /\ y = Fin n /\
       (va <= v -> (1 - 2e-7) * (limit_positive c (pounds (f_weight f)) / f_wf f) <= n)) /\
    (forall x y, In (x, y) cd -> exists v n, x = Fin v /\ y = Fin n /\ limit_positive c (pounds (f_weight f)) / f_wf f <= n) /\
    (forall x y, In (x, y) ef -> exists v n, x = Fin v /\ y = Fin n /\ n <= limit_negative_dive c / f_wf f) /\
    (c = Norm \/ c = Comm -> forall x y, In (x, y) fs -> exists v n, x = Fin v /\ y = Fin n /\
       n <= Rmax (limit_negative c (pounds (f_weight f)) / f_wf f) (stall_line f (f_clmin f) v)).
Proof. exact outline_covers. Qed.
Print Assumptions C65_outline_partial.
(** the negative limit at VC is not covered at point F, where the inverted outline begins *)
Theorem C65_negative_limit_refuted : forall ext s f, describes ext s f -> forall c vd, category s = CStr (names c) -> dive s c f vd ->
  c = Norm \/ c = Comm ->
  limit_negative c (pounds (f_weight f)) / f_wf f < 1 - coded_increment f (gust_c f) (Rmax (f_vc f) (vc_minimum c f)) ->
  stall_line f (f_clmin f) (Rmax (f_vc f) (vc_minimum c f)) <= limit_negative c (pounds (f_weight f)) / f_wf f ->
  exists e nf l n, flightenvelope ext s = Ok e /\
    dget "F" (poi e) = Some (Fin (Rmax (f_vc f) (vc_minimum c f)), Fin nf) /\
    limit_negative c (pounds (f_weight f)) / f_wf f < nf /\
    dget "FS" (outline e) = Some l /\ starts l (Fin (Rmax (f_vc f) (vc_minimum c f)), Fin n) /\
    n = limit_negative c (pounds (f_weight f)) / f_wf f.
Proof. exact f_uncovered. Qed.
Print Assumptions C65_negative_limit_refuted.
Example C65_nonvacuous : exists s f vd, describes example_ext s f /\ category s = CStr (names Norm) /\ dive s Norm f vd /\
  limit_negative Norm (pounds (f_weight f)) / f_wf f < 1 - coded_increment f (gust_c f) (Rmax (f_vc f) (vc_minimum Norm f)) /\
  stall_line f (f_clmin f) (Rmax (f_vc f) (vc_minimum Norm f)) <= limit_negative Norm (pounds (f_weight f)) / f_wf f /\ f_wf f = 1.
Proof. exact uncovered_witness. Qed.

(** C66: the pieces of the outline are joined, except at F. *)
Theorem C66_outline_joins_partial : forall ext s f, describes ext s f -> forall c vd, category s = CStr (names c) -> dive s c f vd ->
  exists e sc cd pe ef C D E F,
    flightenvelope ext s = Ok e /\
    dget "SC" (outline e) = Some sc /\ dget "CD" (outline e) = Some cd /\ dget "E" (outline e) = Some pe /\
    dget "EF" (outline e) = Some ef /\
    dget "C" (poi e) = Some C /\ dget "D" (poi e) = Some D /\ dget "E" (poi e) = Some E /\ dget "F" (poi e) = Some F /\
    ends sc C /\ ends cd D /\ pe = [E] /\ starts ef E /\ ends ef F /\
    (limit_positive c (pounds (f_weight f)) / f_wf f <= stall_line f (f_clmax f) (Rmax (f_vc f) (vc_minimum c f)) -> starts cd C).
Proof. exact outline_joins. Qed.
Print Assumptions C66_outline_joins_partial.
Example C66_nonvacuous : exists s f vd, describes example_ext s f /\ category s = CStr (names Norm) /\ dive s Norm f vd /\
  limit_negative Norm (pounds (f_weight f)) / f_wf f < 1 - coded_increment f (gust_c f) (Rmax (f_vc f) (vc_minimum Norm f)) /\
  stall_line f (f_clmin f) (Rmax (f_vc f) (vc_minimum Norm f)) <= limit_negative Norm (pounds (f_weight f)) / f_wf f /\ f_wf f = 1.
Proof. exact uncovered_witness. Qed.
(** the gap at F, under the hypotheses of C65_negative_limit_refuted *)
Theorem C66_gap_refuted : forall ext s f, describes ext s f -> forall c vd, category s = CStr (names c) -> dive s c f vd ->
  c = Norm \/ c = Comm ->
    limit_negative c (pounds (f_weight f)) / f_wf f < 1 - coded_increment f (gust_c f) (Rmax (f_vc f) (vc_minimum c f)) ->
    stall_line f (f_clmin f) (Rmax (f_vc f) (vc_minimum c f)) <= limit_negative c (pounds (f_weight f)) / f_wf f ->
    exists e ef fs v n1 n2, flightenvelope ext s = Ok e /\ dget "EF" (outline e) = Some ef /\ dget "FS" (outline e) = Some fs /\
      ends ef (Fin v, Fin n1) /\ starts fs (Fin v, Fin n2) /\ n2 < n1.
Proof. exact outline_gap. Qed.
Print Assumptions C66_gap_refuted.

(** C67: construction of the object. *)
Theorem C67_values : forall b d p atm prop cs s cs', certification b d p atm prop cs = Ok (s, cs') ->
  (forall k, dget k cs' = match dget k (match cs with None => [] | Some x => x end) with
                          | Some v => Some v | None => dget k csdefaults end) /\
  dget "certcat" cs' = Some (category s) /\
  (exists v, dget "altitude_m" cs' = Some v /\ cs_number v (altitude_m s)) /\
  (exists v, dget "weightfraction" cs' = Some v /\ cs_number v (weightfraction s)) /\
  (exists v, dget "divespeed_keas" cs' = Some v /\ cs_quantity v (divespeed_keas s)) /\
  (exists v, dget "maxlevelspeed_keas" cs' = Some v /\ cs_quantity v (maxlevelspeed_keas s)) /\
  exists v q, dget "cruisespeed_keas" cs' = Some v /\ cs_quantity v q /\
    (q <> None -> cruisespeed_keas s = q) /\
    (q = None -> cruisespeed_ktas (acobj s) = None -> cruisespeed_keas s = None) /\
    (forall v h a, q = None -> cruisespeed_ktas (acobj s) = Some (Fin v) ->
     altitude_m s = Fin h -> air_at (acobj s) h a -> cruisespeed_keas s = Some (Fin (v * sqrt (a_rho a / 1.225)))).
Proof. exact certification_values. Qed.
Print Assumptions C67_values.
(** the engine given to the constructor is dropped *)
Theorem C67_engine_dropped_refuted : forall b d p atm prop cs s cs', certification b d p atm prop cs = Ok (s, cs') ->
  propulsion (acobj s) = PropFalse.
Proof. exact certification_engine. Qed.
Print Assumptions C67_engine_dropped_refuted.
Theorem C67_succeeds : forall b d p atm prop v, wellformed b d p ->
  exists s cs', certification b d p atm prop (Some [("cruisespeed_keas"%string, CNum v)]) = Ok (s, cs').
Proof. exact certification_total. Qed.
Print Assumptions C67_succeeds.
Example C67_nonvacuous :
  wellformed [("cruisespeed_ktas", PList [Fin 300; Fin 320; Fin 355]); ("climbalt_m", pnum 1000)]
             [("weight_n", pnum 50000); ("aspectratio", PList [Fin 8; Fin 10]);
              ("weightfractions", PDict [("turn", SNum #0.9)]); ("sweep_le_deg", pnum 12)]
             [("etaprop", PDict [("cruise", SNum #0.8); ("climb", SBool false)]); ("CLmaxclean", pnum 1.5)].
Proof. exact example_wellformed. Qed.

(** C69: the outline stays between the stall lines. *)
Theorem C69_stall_lines : forall ext s f, describes ext s f -> forall c vd, category s = CStr (names c) -> dive s c f vd ->
  exists e sc fs, flightenvelope ext s = Ok e /\
    dget "SC" (outline e) = Some sc /\ dget "FS" (outline e) = Some fs /\
    ((exists vs, vs_keas s (weightfraction s) = Ok (Fin vs) /\ vs <= Rmax (f_vc f) (vc_minimum c f)) ->
     forall x y, In (x, y) sc -> exists v n, x = Fin v /\ y = Fin n /\ n <= (1 + 2e-7) * stall_line f (f_clmax f) v) /\
    (forall x y, In (x, y) fs -> exists v n, x = Fin v /\ y = Fin n /\ stall_line f (f_clmin f) v <= n).
Proof. exact outline_stall. Qed.
Print Assumptions C69_stall_lines.
Example C69_nonvacuous : exists s f vd vs, describes example_ext s f /\ category s = CStr "norm" /\ dive s Norm f vd /\
  vs_keas s (weightfraction s) = Ok (Fin vs) /\ vs <= Rmax (f_vc f) (vc_minimum Norm f).
Proof. exact outline_example. Qed.
