(** Theorems of C107: pressures and densities of the standard atmosphere in the
    double-precision arithmetic of Python. *)
From Coq Require Import Reals ZArith List.
From Coq.Floats Require Import SpecFloat.
From Verif Require Import Base AtmosSpec AtmosModel FloatSpec FloatModel FloatPressModel FloatPressSpec FloatAtmosModel FloatPressProofs4 FloatPressProofs5 FloatPressProofs6.
Open Scope R_scope.

(** C107: with a power and an exponential function that are off by at most k rounding
    errors, the pressure that Python computes is within k + 100 rounding errors of the one
    that the formulae of the code give, and within 1.0001e-5 of the standard one *)
Theorem C107_pressure (k : R) power expo (alt : spec_float) (h o : R) : 0 <= k <= 100 -> good_power k power -> good_exp k expo ->
  double alt -> stands_for alt h -> in_range h -> -10000 <= h <= 50000 ->
  exists p r, airpress_pa (isa o) (VNum (Fin h)) = Ok (VNum (Fin p)) /\ 0 < p /\
    double (fl_isapress power expo alt) /\ stands_for (fl_isapress power expo alt) r /\ off_by (k + 100) r p /\
    (-5000 <= h -> agrees 1.0001e-5 r (std_press h)).
Proof. exact (pressure k power expo alt h o). Qed.
Print Assumptions C107_pressure.
Example C107_pressure_nonvacuous : (exists power expo, good_power 2 power /\ good_exp 2 expo) /\
  double (of_int 25000) /\ stands_for (of_int 25000) 25000 /\ in_range 25000 /\ -10000 <= 25000 <= 50000.
Proof. exact press_case. Qed.

(** C107: so is the density, on standard and on hot and cold days *)
Theorem C107_density (k : R) power expo (off alt : spec_float) (o h : R) : 0 <= k <= 100 -> good_power k power -> good_exp k expo ->
  double off -> stands_for off o -> in_range o -> Rabs o <= 100 -> double alt -> stands_for alt h -> in_range h -> -10000 <= h <= 50000 ->
  exists d r, airdens_kgpm3 (isa o) (VNum (Fin h)) = Ok (VNum (Fin d)) /\ 0 < d /\
    double (fl_isadens power expo off alt) /\ stands_for (fl_isadens power expo off alt) r /\ off_by (k + 125) r d /\
    (o = 0 -> -5000 <= h -> agrees 1.0001e-5 r (std_dens h)).
Proof. exact (density k power expo off alt o h). Qed.
Print Assumptions C107_density.
Example C107_density_nonvacuous : (exists power expo, good_power 2 power /\ good_exp 2 expo) /\
  (double (of_int 20) /\ stands_for (of_int 20) 20 /\ in_range 20 /\ Rabs 20 <= 100) /\
  double (of_int 25000) /\ stands_for (of_int 25000) 25000 /\ in_range 25000 /\ -10000 <= 25000 <= 50000.
Proof. exact dens_case. Qed.

(** C107: ten centimetres higher, the computed pressure and density are smaller *)
Theorem C107_order (k : R) power expo (x y : spec_float) (a b : R) : 0 <= k <= 100 -> good_power k power -> good_exp k expo ->
  double x -> double y -> stands_for x a -> stands_for y b -> in_range a -> in_range b -> -5000 <= a -> a + 0.1 <= b -> b <= 50000 ->
  (exists r s, stands_for (fl_isapress power expo x) r /\ stands_for (fl_isapress power expo y) s /\ s < r) /\
  (exists r s, stands_for (fl_isadens power expo (of_int 0) x) r /\ stands_for (fl_isadens power expo (of_int 0) y) s /\ s < r).
Proof. exact (order k power expo x y a b). Qed.
Print Assumptions C107_order.
Example C107_order_nonvacuous : (exists power expo, good_power 2 power /\ good_exp 2 expo) /\
  (double (of_int 10999) /\ stands_for (of_int 10999) 10999 /\ in_range 10999) /\
  (double (of_int 11000) /\ stands_for (of_int 11000) 11000 /\ in_range 11000) /\ 10999 + 0.1 <= 11000.
Proof. exact order_case. Qed.

(** C107: closer together they may rise: they do at 47 km, whatever the functions *)
Theorem C107_order_refuted (k : R) power expo : 0 <= k <= 100 -> good_power k power -> good_exp k expo ->
  exists x y a b r s r' s', double x /\ double y /\ stands_for x a /\ stands_for y b /\ 46999.999 <= a < b /\ b = 47000 /\
  stands_for (fl_isapress power expo x) r /\ stands_for (fl_isapress power expo y) s /\ r < s /\
  stands_for (fl_isadens power expo (of_int 0) x) r' /\ stands_for (fl_isadens power expo (of_int 0) y) s' /\ r' < s'.
Proof. exact (rises_at_47 k power expo). Qed.
Print Assumptions C107_order_refuted.
Example C107_order_refuted_nonvacuous : exists power expo, good_power 2 power /\ good_exp 2 expo.
Proof. exact good_functions. Qed.

(** C107: the computed pressure and temperature give the computed density, within 4e-7, by
    the ideal gas law in the same arithmetic, on standard, hot and cold days *)
Theorem C107_gas_law (k : R) power expo (off alt : spec_float) (o h : R) : 0 <= k <= 100 -> good_power k power -> good_exp k expo ->
  double off -> stands_for off o -> in_range o -> Rabs o <= 100 -> double alt -> stands_for alt h -> in_range h -> -5000 <= h <= 50000 ->
  exists d r, stands_for (fl_isadens power expo off alt) d /\ 0 < d /\
    stands_for (fl_idealgasdens (fl_isapress power expo alt) (fl_isatemp off alt)) r /\ Rabs (r - d) <= 4e-7 * d.
Proof. exact (computed_gas_law k power expo off alt o h). Qed.
Print Assumptions C107_gas_law.
Example C107_gas_law_nonvacuous : (exists power expo, good_power 2 power /\ good_exp 2 expo) /\
  (double (of_int 20) /\ stands_for (of_int 20) 20 /\ in_range 20 /\ Rabs 20 <= 100) /\
  double (of_int 25000) /\ stands_for (of_int 25000) 25000 /\ in_range 25000 /\ -10000 <= 25000 <= 50000.
Proof. exact dens_case. Qed.
