(** Property C90: the cubic interpolation of the transonic lift slope
    (constraintanalysis.py:864-865). *)
From Coq Require Import Sorting.Permutation.
From Verif Require Import Base AtmosModel ConceptModel MethodsModel MethodsSpec MethodsExamples ConstraintSpec
  CubicModel CubicSpec CubicProofs CubicProofs2 CubicProofs3 CubicProofs4.
Open Scope R_scope.

(** through four or more points with different abscissae there is a not-a-knot cubic spline,
    and any two agree between the first and the last point *)
Theorem C90_spline_exists : forall s, (4 <= List.length s)%nat -> left_to_right s -> exists f, cubic_through s f.
Proof. exact splines_exist. Qed.
Print Assumptions C90_spline_exists.
Theorem C90_spline_unique : forall s f g v, (4 <= List.length s)%nat -> left_to_right s ->
  cubic_through s f -> cubic_through s g -> hd 0 (map fst s) <= v <= last (map fst s) 0 -> f v = g v.
Proof. exact splines_agree. Qed.
Print Assumptions C90_spline_unique.

(** the interpolator gives its value, in whatever order the points come *)
Theorem C90_any_spline : forall pts s f v, (4 <= List.length pts)%nat -> Permutation pts s -> left_to_right s ->
  cubic_through s f -> (exists p, In p pts /\ fst p <= v) -> (exists p, In p pts /\ v <= fst p) ->
  interp1d_cubic (finite_points pts) (Fin v) = Ok (Fin (f v)).
Proof. exact interp1d_value. Qed.
Print Assumptions C90_any_spline.
(** points of a cubic give that cubic *)
Theorem C90_reproduces_cubics : forall p xs v, (4 <= List.length xs)%nat -> NoDup xs ->
  (exists x, In x xs /\ x <= v) -> (exists x, In x xs /\ v <= x) ->
  interp1d_cubic (finite_points (map (fun x => (x, cval p x)) xs)) (Fin v) = Ok (Fin (cval p v)).
Proof. exact interp1d_cubics. Qed.
Print Assumptions C90_reproduces_cubics.
(** it raises a ValueError exactly for fewer than four points, for two points above one
    another and for arguments outside the points *)
Theorem C90_raises : forall pts v e, interp1d_cubic (finite_points pts) (Fin v) = Err e <->
  e = ValueError /\ ((List.length pts < 4)%nat \/ ~ NoDup (map fst pts) \/
    (forall p, In p pts -> v < fst p) \/ (forall p, In p pts -> fst p < v)).
Proof. exact interp1d_raises. Qed.
Print Assumptions C90_raises.
Theorem C90_nan : forall tab x, (4 <= List.length tab)%nat ->
  Exists (fun p => fst p = NonFin \/ snd p = NonFin) tab -> interp1d_cubic tab x = Ok NonFin.
Proof. exact interp1d_nan. Qed.
Print Assumptions C90_nan.

(** the six points of the transonic curve have different Mach numbers whatever the wing, and
    come from left to right unless the aspect ratio is below 0.21 *)
Theorem C90_table_distinct : forall w a0 p, peak_mach (w_ar w) p -> NoDup (map fst (transonic_points w a0 p)).
Proof. exact table_distinct. Qed.
Print Assumptions C90_table_distinct.
Theorem C90_table_in_order : forall w a0 p, peak_mach (w_ar w) p -> 0.21 <= w_ar w ->
  left_to_right (transonic_points w a0 p).
Proof. exact table_in_order. Qed.
Print Assumptions C90_table_in_order.

(** the lift slope with this interpolator: its blend, defined at every Mach number, and
    continuous (C30 without a hypothesis on the interpolator) *)
Theorem C90_lift_slope : forall c w a0,
  has_wing c w -> regular w -> half_ok w -> a_0i c = Some (Fin a0) -> 0 < a0 ->
  exists p s f, peak_mach (w_ar w) p /\ Permutation (transonic_points w a0 p) s /\
    left_to_right s /\ cubic_through s f /\
    forall m, 0 <= m -> liftslope_prad interpolators c (Fin m) =
      Ok (Fin (weight_sub m * mean_of (subsonic_slopes w a0 m) + weight_trans m * f m
        + weight_sup m * mean_of (supersonic_slopes w m))).
Proof. exact liftslope_spline. Qed.
Print Assumptions C90_lift_slope.
Theorem C90_lift_slope_continuous : forall c w a0,
  has_wing c w -> regular w -> half_ok w -> a_0i c = Some (Fin a0) -> 0 < a0 ->
  exists F, (forall m, 0 <= m -> liftslope_prad interpolators c (Fin m) = Ok (Fin (F m))) /\
    forall m, 0 < m -> m <> sonic_le w \/ m < 1.3 \/ w_le w <= 0 -> continuity_pt F m.
Proof. exact liftslope_all_mach. Qed.
Print Assumptions C90_lift_slope_continuous.
(** 0.06 either side of the Mach number of the peak it is 95 percent of pi AR / 2 *)
Theorem C90_beside_the_peak : forall c w a0,
  has_wing c w -> regular w -> half_ok w -> a_0i c = Some (Fin a0) -> 0 < a0 ->
  exists p, peak_mach (w_ar w) p /\
    liftslope_prad interpolators c (Fin (p - 0.06)) = Ok (Fin (0.95 * (PI / 2 * w_ar w))) /\
    (p <= 1.24 -> liftslope_prad interpolators c (Fin (p + 0.06)) = Ok (Fin (0.95 * (PI / 2 * w_ar w)))).
Proof. exact liftslope_below_peak. Qed.
Print Assumptions C90_beside_the_peak.
(** all constraints can be evaluated for a complete brief, nothing being assumed about the
    interpolators *)
Theorem C90_constraints_evaluate : forall c w a0 map2sl,
  has_wing c w -> regular w -> half_ok w -> a_0i c = Some (Fin a0) -> 0 < a0 ->
  engine_ok c -> brief_complete c -> forall v m fo,
  (exists r, twrequired interpolators c v fo map2sl = Ok r) /\
  (exists r, powerrequired interpolators c v m fo map2sl = Ok r).
Proof. exact constraints_evaluate. Qed.
Print Assumptions C90_constraints_evaluate.
Example C90_nonvacuous :
  (4 <= List.length five_points)%nat /\ left_to_right five_points /\ Permutation [(3, 1); (0, 0); (4, 0); (1, 1); (2, 0)] five_points /\
  (has_wing (example_jet 20 18) (example_wing 20 18) /\ regular (example_wing 20 18) /\
   half_ok (example_wing 20 18) /\ a_0i (example_jet 20 18) = Some (Fin 6.28)) /\
  engine_ok (example_jet 20 18) /\ brief_complete (example_jet 20 18).
Proof. exact cubic_examples. Qed.
