(** Vocabulary of the properties about double-precision arithmetic: the value of a double,
    and rounding to nearest, ties to even, on the real line. *)
From Coq Require Import Reals ZArith List.
From Coq.Floats Require Import SpecFloat.
From Verif Require Import Base.
Open Scope R_scope.

(** the doubles of IEEE 754: 53 binary digits, exponents below 1024 *)
Definition double (x : spec_float) : Prop := valid_binary 53 1024 x = true.

(** the number that a finite double stands for *)
Inductive stands_for : spec_float -> R -> Prop :=
| zero_value s : stands_for (S754_zero s) 0
| positive_value m e : stands_for (S754_finite false m e) (IZR (Zpos m) * powerRZ 2 e)
| negative_value m e : stands_for (S754_finite true m e) (- (IZR (Zpos m) * powerRZ 2 e)).

(** n is the integer nearest to x; of two, the even one *)
Definition nearest (x : R) (n : Z) : Prop :=
  Rabs (x - IZR n) < 1/2 \/ Rabs (x - IZR n) = 1/2 /\ Z.even n = true.

(** r is v rounded to 53 binary digits, or to a multiple of 2 to the -1074 *)
Definition rounded (v r : R) : Prop :=
  v = 0 /\ r = 0 \/
  exists k n, powerRZ 2 (k - 1) <= Rabs v < powerRZ 2 k /\
    let u := powerRZ 2 (Z.max (k - 53) (-1074)) in nearest (v / u) n /\ r = IZR n * u.

(** zero, or of a magnitude at which no conversion overflows or underflows *)
Definition in_range (r : R) : Prop := r = 0 \/ powerRZ 2 (-800) <= Rabs r <= powerRZ 2 800.
(** F computes f on doubles, up to k rounding errors relative to the result plus c *)
Definition accurate (F : spec_float -> spec_float) (f : R -> R) (k c : R) : Prop :=
  forall x r, double x -> stands_for x r -> in_range r ->
  exists r', double (F x) /\ stands_for (F x) r' /\ Rabs (r' - f r) <= k * powerRZ 2 (-53) * (Rabs (f r) + c).
(** G undoes F on doubles, up to k rounding errors relative to the number plus c *)
Definition recovers (F G : spec_float -> spec_float) (k c : R) : Prop :=
  forall x r, double x -> stands_for x r -> in_range r ->
  exists r', double (G (F x)) /\ stands_for (G (F x)) r' /\ Rabs (r' - r) <= k * powerRZ 2 (-53) * (Rabs r + c).
(** G undoes F on doubles, exactly *)
Definition undoes (F G : spec_float -> spec_float) : Prop :=
  forall x r, double x -> stands_for x r -> in_range r -> stands_for (G (F x)) r.
(** a larger number is never converted to a smaller one *)
Definition rising (F : spec_float -> spec_float) : Prop :=
  forall x y a b, double x -> double y -> stands_for x a -> stands_for y b -> in_range a -> in_range b -> a <= b ->
  exists a' b', stands_for (F x) a' /\ stands_for (F y) b' /\ a' <= b'.
(** a square root that is off by at most two rounding errors (one unit in the last place) *)
Definition near_root (root : spec_float -> spec_float) : Prop :=
  forall x v, double x -> stands_for x v -> powerRZ 2 (-900) <= v <= powerRZ 2 900 ->
  exists w, double (root x) /\ stands_for (root x) w /\ Rabs (w - sqrt v) <= 2 * powerRZ 2 (-53) * sqrt v.
