(** Property C89: the thrust factor of a turboprop (atmospheres.py:963-990). *)
From Verif Require Import Base AtmosModel ConceptModel MethodsModel MethodsExamples ConstraintSpec ConstraintProofs10
  TurbopropModel TurbopropSpec TurbopropProofs5.
Open Scope R_scope.

(** at the points of the table the factor is the entry of the table *)
Theorem C89_table : forall i j, (i < 9)%nat -> (j < 7)%nat ->
  turbopropthrustfactor (Fin (nth i dens 0)) (Fin (nth j machs 0)) = Fin (nth i (nth j thrust_at_mach []) 0).
Proof. exact tp_table. Qed.
Print Assumptions C89_table.

(** between them it is the value at [m] of the quadratic spline [w] through the values at [d]
    of the quadratic splines [u 0] ... [u 6] through the table's columns, whichever these are *)
Theorem C89_spline : forall u w d m,
  (forall j, (j < 7)%nat -> spline_through dens_breaks dens (nth j thrust_at_mach []) (u j)) ->
  spline_through mach_breaks machs (map (fun j => u j d) (seq 0 7)) w ->
  0.24616951531253428 <= d <= 1 -> 0 <= m <= 0.6 ->
  turbopropthrustfactor (Fin d) (Fin m) = Fin (w m).
Proof. exact tp_spline. Qed.
Print Assumptions C89_spline.
Theorem C89_splines_exist : exists u : nat -> R -> R,
  (forall j, (j < 7)%nat -> spline_through dens_breaks dens (nth j thrust_at_mach []) (u j)) /\
  forall d, exists w, spline_through mach_breaks machs (map (fun j => u j d) (seq 0 7)) w.
Proof. exact tp_splines_exist. Qed.
Print Assumptions C89_splines_exist.

(** outside the table the nearest point of its edge counts *)
Theorem C89_outside : forall d m, turbopropthrustfactor (Fin d) (Fin m)
  = turbopropthrustfactor (Fin (Rmax 0.24616951531253428 (Rmin 1 d))) (Fin (Rmax 0 (Rmin 0.6 m))).
Proof. exact tp_clamped. Qed.
Print Assumptions C89_outside.

(** the factor is positive and finite everywhere; at most 1 up to a thousandth *)
Theorem C89_positive : forall d m,
  exists k, turbopropthrustfactor (Fin d) (Fin m) = Fin k /\ 0.0015 <= k <= 1.001.
Proof. exact tp_bounds. Qed.
Print Assumptions C89_positive.
Theorem C89_at_most_static_refuted :
  exists d m k k0, 0.24616951531253428 <= d <= 1 /\ 0 < m <= 0.6 /\
    turbopropthrustfactor (Fin d) (Fin 0) = Fin k0 /\ k0 = 1 /\
    turbopropthrustfactor (Fin d) (Fin m) = Fin k /\ k > 1.
Proof. exact tp_above_static. Qed.
Print Assumptions C89_at_most_static_refuted.

(** full claim: the factor falls with the Mach number between 0 and 0.6.  It does from Mach
    0.15 on, at every density ratio, but not before *)
Theorem C89_falls_with_mach_partial : forall d m1 m2, 0.15 <= m1 -> m1 < m2 -> m2 <= 0.6 ->
  exists k1 k2, turbopropthrustfactor (Fin d) (Fin m1) = Fin k1 /\
    turbopropthrustfactor (Fin d) (Fin m2) = Fin k2 /\ k2 < k1.
Proof. exact tp_mach_falls. Qed.
Print Assumptions C89_falls_with_mach_partial.
Theorem C89_falls_with_mach_refuted :
  exists d m1 m2 k1 k2, 0.24616951531253428 <= d <= 1 /\ 0 <= m1 /\ m1 < m2 /\ m2 <= 0.6 /\
    turbopropthrustfactor (Fin d) (Fin m1) = Fin k1 /\
    turbopropthrustfactor (Fin d) (Fin m2) = Fin k2 /\ k1 < k2.
Proof. exact tp_mach_rise. Qed.
Print Assumptions C89_falls_with_mach_refuted.

(** full claim: the factor rises with the density ratio over the table.  It does at every Mach
    number up to a density ratio of 0.581, and for static thrust up to sea level *)
Theorem C89_rises_with_density_partial : forall m d1 d2, 0.24616951531253428 <= d1 -> d1 < d2 ->
  d2 <= (0.5328112272029571 + 0.6292375381232487) / 2 ->
  exists k1 k2, turbopropthrustfactor (Fin d1) (Fin m) = Fin k1 /\
    turbopropthrustfactor (Fin d2) (Fin m) = Fin k2 /\ k1 < k2.
Proof. exact tp_density_rises. Qed.
Print Assumptions C89_rises_with_density_partial.
Theorem C89_static_rises_with_density : forall m d1 d2, m <= 0 ->
  0.24616951531253428 <= d1 -> d1 < d2 -> d2 <= 1 ->
  exists k1 k2, turbopropthrustfactor (Fin d1) (Fin m) = Fin k1 /\
    turbopropthrustfactor (Fin d2) (Fin m) = Fin k2 /\ k1 < k2.
Proof. exact tp_static_rises. Qed.
Print Assumptions C89_static_rises_with_density.
Theorem C89_rises_with_density_refuted :
  exists d1 d2 m k1 k2, 0.24616951531253428 <= d1 /\ d1 < d2 /\ d2 <= 1 /\ 0 <= m <= 0.6 /\
    turbopropthrustfactor (Fin d1) (Fin m) = Fin k1 /\
    turbopropthrustfactor (Fin d2) (Fin m) = Fin k2 /\ k2 < k1.
Proof. exact tp_density_drop. Qed.
Print Assumptions C89_rises_with_density_refuted.

(** with this factor as its engine model, a turboprop concept without an engine deck has a
    finite and positive thrust lapse at every altitude and airspeed *)
Theorem C89_lapse : forall ext c h s b tr V, tpspline ext = turbopropthrustfactor ->
  air_at c h s -> bpr c = Some (Fin b) -> throttle_r c = Some (Fin tr) ->
  generic_of b (propulsion c) Turboprop -> 0 <= V ->
  exists tau, lapse ext c true V h tau /\ 0.0015 <= tau <= 1.001 /\
    turbopropthrustfactor (Fin (a_rho s / 1.2249998682209657)) (Fin (mach_no V s)) = Fin tau.
Proof. exact tp_lapse. Qed.
Print Assumptions C89_lapse.
Example C89_nonvacuous : let c := example_aircraft 20 18 (-2) PropFalse (isa 0) in
  generic_of (-2) (propulsion c) Turboprop /\ bpr c = Some (Fin (-2)) /\ throttle_r c = Some (Fin 1.07) /\
  air_at c 6000 (std_air 6000).
Proof. exact tp_example. Qed.
