(** Specification of the warnings of the constraint analysis. *)
From Coq Require Import Reals List String.
From Verif Require Import Base ConceptModel MethodsModel MethodsSpec WarningsModel.
Import ListNotations.
Open Scope R_scope.

(** ** Arguments left out *)
(** the Mach number [m] a method uses when it is given [mo]: 0.3 if there is none *)
Definition mach_used (mo : option num) (m : R) : Prop :=
  mo = Some (Fin m) \/ mo = None /\ m = 0.3.
(** one warning if the argument was left out *)
Definition if_left_out {A} (w : warning) (x : option A) : list warning :=
  match x with Some _ => [] | None => [w] end.

(** ** The estimate of Nita and Scholz *)
(** before it is limited from below, see [nita] *)
Definition nita_raw (w : wing) (m : R) : R :=
  (1 - 2 * 0.114 ^ 2) * 0.85 * compress m
  / (1 + hoerner (w_taper w + 0.357 - 0.45 * exp (-0.0375 * w_25 w)) * w_ar w).
(** one warning if it is below a thousandth *)
Definition if_too_small (w : wing) (m : R) : list warning :=
  if Rlt_dec (nita_raw w m) 0.001 then [WBounds] else [].
(** a wing of a usual shape: not swept forward, tapered at most to a point *)
Definition usual (w : wing) : Prop :=
  regular w /\ w_ar w <= 100 /\ 0 <= w_25 w /\ 0 <= w_taper w <= 1.

(** ** Propulsion systems *)
(** the generic systems that have an altitude correction *)
Definition generic (s : string) : Prop :=
  s = "turboprop"%string \/ s = "piston"%string \/ s = "electric"%string \/ s = "jet"%string.
(** a bypass ratio that stands for a generic system *)
Definition stands_for_a_system (b : R) : Prop := 0 <= b \/ b = -1 \/ b = -2 \/ b = -3.

(** [warnings_for c n ws]: [ws] are the warnings about the propulsion system of [c] when the
    corrections at [n] speeds are asked for *)
Inductive warnings_for (c : concept) (n : nat) : list warning -> Prop :=
| For_bypass_ratio : forall b, propulsion c = PropFalse -> pval (bpr c) = Fin b ->
    stands_for_a_system b -> warnings_for c n [WPropulsion]
| For_deprecated : forall b, propulsion c = PropFalse -> pval (bpr c) = Fin b ->
    -3 < b < 0 -> ~ stands_for_a_system b -> warnings_for c n [WPropulsion; WDeprecated]
| For_generic : forall s, propulsion c = PropStr s -> generic s -> warnings_for c n []
| For_unknown : forall s, propulsion c = PropStr s -> ~ generic s ->
    warnings_for c n (repeat WIdentifier n)
| For_deck : propulsion c <> PropFalse -> (forall s, propulsion c <> PropStr s) -> warnings_for c n [].

(** [k] times the same warnings *)
Definition times (k : nat) (ws : list warning) : list warning := List.concat (repeat ws k).

(** every turn is infeasible: no number among the thrust to weight ratios of feasible turns *)
Definition no_feasible_turn (t : requirement) : Prop :=
  Forall (fun x => x = NonFin) (match rq_turnfeasible t with VNum x => [x] | VList l | VArr l => l end).

(** ** Options of the sensitivity plots *)
Definition supported_y (y : option string) : Prop := y = Some "tw"%string \/ y = Some "p_hp"%string.
Definition supported_x (x : option string) : Prop := x = Some "ws_pa"%string \/ x = Some "s_m2"%string.
(** no limit, or a number *)
Definition supported_lim (l : limarg) : Prop := l = LimNone \/ exists x, l = LimNum x.
(** no size, or two numbers *)
Definition supported_fig (f : figarg) : Prop :=
  f = FigNone \/ exists l, List.length l = 2%nat /\ (f = FigList l \/ f = FigTuple l).
