(** Independent specification for unit conversions: what a conversion between
    two units is, in terms of the international definitions of the units. *)
From Verif Require Import Base.
Open Scope R_scope.

(** [f] and [g] convert between two units: both are defined on every finite
    value and undo each other. *)
Definition mutually_inverse (f g : num -> num) : Prop :=
  forall x : R,
    (exists y, f (Fin x) = Fin y /\ g (Fin y) = Fin x) /\
    (exists y, g (Fin x) = Fin y /\ f (Fin y) = Fin x).

(** [f] multiplies by [k] up to a relative error [tol]; in particular it maps 0
    to 0 and keeps the sign when [tol < 1]. *)
Definition scales_by (f : num -> num) (k tol : R) : Prop :=
  forall x : R, exists y, f (Fin x) = Fin y /\ Rabs (y - k * x) <= tol * Rabs (k * x).

(** [f] is the affine map a x + b on every finite value. *)
Definition affine (f : num -> num) (a b : R) : Prop :=
  forall x : R, f (Fin x) = Fin (a * x + b).

(** Definitions of the units in terms of SI base units (international yard and
    pound agreement 1959, standard gravity, international knot, conventional
    millimetre of mercury). *)
Definition foot_m    : R := 0.3048.
Definition inch_m    : R := foot_m / 12.
Definition pound_kg  : R := 0.45359237.
Definition gravity   : R := 9.80665.
Definition lbf_N     : R := pound_kg * gravity.
Definition knot_mps  : R := 1852 / 3600.
Definition inHg_Pa   : R := 13595.1 * gravity * inch_m.
Definition hp_W      : R := 550 * foot_m * lbf_N.
Definition slug_kg   : R := lbf_N / foot_m.
Definition mbar_Pa   : R := 100.
Definition lbfft2_Pa : R := lbf_N / (foot_m * foot_m).
Definition slugft3_kgm3 : R := slug_kg / (foot_m * foot_m * foot_m).
