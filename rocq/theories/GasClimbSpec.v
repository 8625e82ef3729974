(** Specifications: the gas law, total temperature, and the power needed in level flight. *)
From Verif Require Import Base.
Open Scope R_scope.

(** the ideal gas law for air, p in Pa, rho in kg/m3, T in K *)
Definition gas_law (p rho T : R) : Prop := p = 287.05287 * rho * T.
(** total over static temperature of a gas with ratio of specific heats 1.401 *)
Definition stagnation (m : R) : R := 1 + (1.401 - 1) / 2 * m ^ 2.

(** power needed in level flight per wing area: drag times airspeed, the drag being that of a
    parabolic polar at the lift coefficient that carries the wing loading [w] *)
Definition lift_coefficient (rho w V : R) : R := w / (/ 2 * rho * V ^ 2).
Definition level_power (cd0 k rho w V : R) : R :=
  / 2 * rho * V ^ 2 * (cd0 + k * lift_coefficient rho w V ^ 2) * V.
(** [V] is the only airspeed of least power *)
Definition least_power (cd0 k rho w V : R) : Prop :=
  0 < V /\ forall V', 0 < V' -> V' <> V -> level_power cd0 k rho w V < level_power cd0 k rho w V'.
(** one number for one wing loading, an array for several *)
Definition answer (l : list R) : val := match l with [x] => VNum (Fin x) | _ => VArr (map Fin l) end.
