(** Independent specifications for the atmosphere properties. *)
From Verif Require Import Base.
Open Scope R_scope.

(** ** "float or array" arguments *)
Definition elements (v : val) : list num :=
  match v with VNum x => [x] | VList l => l | VArr l => l end.

(** A query that treats every altitude on its own: a call succeeds on a non-empty
    batch exactly if it succeeds on every element, it then returns as many values
    as it was given, each equal to the value the element gets alone, and it
    returns a bare number exactly when there was a single element. *)
Definition pointwise (f : val -> res val) : Prop :=
  forall v, elements v <> [] ->
   ((exists r, f v = Ok r) <->
    Forall (fun x => exists y, f (VNum x) = Ok (VNum y)) (elements v)) /\
   (forall r, f v = Ok r ->
      Forall2 (fun x y => f (VNum x) = Ok (VNum y)) (elements v) (elements r) /\
      (List.length (elements v) = 1%nat <-> exists y, r = VNum y)).

(** ** The International Standard Atmosphere (ICAO Doc 7488) *)
Definition g0 : R := 9.80665.
Definition Rair : R := 287.05287.

(** how far [h] has climbed into the layer [lo, hi] *)
Definition climb (lo hi h : R) : R := Rmax 0 (Rmin h hi - lo).

(** temperature: 288.15 K at sea level, lapse rates -6.5, 0, +1, +2.8, 0 K/km in
    the layers bounded by 11, 20, 32 and 47 km *)
Definition std_temp (h : R) : R :=
  288.15 - 0.0065 * Rmin h 11000 + 0.001 * climb 20000 32000 h
         + 0.0028 * climb 32000 47000 h.

(** hydrostatic pressure ratio across [dh] metres above a base at temperature [T]
    with lapse rate [L] *)
Definition press_ratio (L T dh : R) : R :=
  if Req_EM_T L 0 then exp (- g0 * dh / (Rair * T))
  else Rpower ((T + L * dh) / T) (- g0 / (Rair * L)).

Definition std_press (h : R) : R :=
  101325 * press_ratio (-0.0065) 288.15 (Rmin h 11000)
         * press_ratio 0 216.65 (climb 11000 20000 h)
         * press_ratio 0.001 216.65 (climb 20000 32000 h)
         * press_ratio 0.0028 228.65 (climb 32000 47000 h)
         * press_ratio 0 270.65 (climb 47000 50000 h).

Definition std_dens (h : R) : R := std_press h / (Rair * std_temp h).

(** [x] agrees with [y > 0] to relative accuracy [tol] *)
Definition agrees (tol x y : R) : Prop := Rabs (x - y) <= tol * y.

(** distance of [h] from each layer boundary is at least [d] *)
Definition clear_of_joints (d h : R) : Prop :=
  d <= Rabs (h - 11000) /\ d <= Rabs (h - 20000) /\
  d <= Rabs (h - 32000) /\ d <= Rabs (h - 47000).

(** altitudes on the same side of every layer boundary *)
Definition same_isa_layer (a b : R) : Prop :=
  (a < 11000 <-> b < 11000) /\ (a < 20000 <-> b < 20000) /\
  (a < 32000 <-> b < 32000) /\ (a < 47000 <-> b < 47000).

(** ** Interpolation *)
(** the value of the chord through two neighbours *)
Definition on_chord (p q : R * R) (x v : R) : Prop :=
  fst p <= x <= fst q /\ v * (fst q - fst p) = snd p * (fst q - x) + snd q * (x - fst p) /\
  Rmin (snd p) (snd q) <= v <= Rmax (snd p) (snd q).

(** ** Thrust lapse: total temperature and total pressure relative to standard
    sea level, for a ratio of specific heats of 1.401 *)
Definition theta0 (tc m : R) : R := (tc + 273.15) / 288.15 * (1 + 0.2005 * m ^ 2).
Definition delta0 (p m : R) : R := p / 101325 * Rpower (1 + 0.2005 * m ^ 2) (1.401 / 0.401).

(** the part of the lapse that only applies above the break *)
Definition excess (x : R) : R := Rmax 0 x.

(** [y] is [f] of [x], undefined if [x] is *)
Definition converted (f : R -> R) (x y : num) : Prop :=
  (forall r, x = Fin r -> y = Fin (f r)) /\ (x = NonFin -> y = NonFin).
