(** What the properties about pressures and densities in double precision ask of the
    elementary functions of the platform. *)
From Coq Require Import Reals ZArith.
From Coq.Floats Require Import SpecFloat.
From Verif Require Import FloatSpec.
Open Scope R_scope.

(** r is the positive number v, up to k rounding errors *)
Definition off_by (k r v : R) : Prop := Rabs (r - v) <= k * powerRZ 2 (-53) * v.
(** a power function that is off by at most k rounding errors, for the bases and exponents
    of the standard atmosphere *)
Definition good_power (k : R) (power : spec_float -> spec_float -> spec_float) : Prop :=
  forall x y a b, double x -> double y -> stands_for x a -> stands_for y b -> 1/2 <= a <= 11 -> -40 <= b <= 40 ->
  exists r, double (power x y) /\ stands_for (power x y) r /\ off_by k r (Rpower a b).
(** an exponential function that is off by at most k rounding errors *)
Definition good_exp (k : R) (expo : spec_float -> spec_float) : Prop :=
  forall x a, double x -> stands_for x a -> -10 <= a <= 10 ->
  exists r, double (expo x) /\ stands_for (expo x) r /\ off_by k r (exp a).
