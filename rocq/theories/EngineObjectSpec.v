(** What the propulsion argument is meant to say (docstring, constraintanalysis.py:247-256),
    and what a deck contributes to the constraint analysis. *)
From Verif Require Import Base AtmosModel ConceptModel PropulsionModel EngineObjectModel.

(** the engine, with an optional propeller, or the text that an argument names *)
Inductive meant : argument -> stored -> Prop :=
| meant_text s : meant (ArgText s) (SText s)
| meant_pair e p : meant (ArgTuple [e; p]) (SPair e p)
| meant_engine e : meant (ArgTuple [e]) (SPair e OfOther)
| meant_object e : meant (ArgObject false e) (SPair e OfOther).

(** the arguments over which Python can iterate *)
Inductive iterates : argument -> Prop :=
| iterates_text s : iterates (ArgText s)
| iterates_tuple l : iterates (ArgTuple l)
| iterates_object e : iterates (ArgObject true e).

(** the largest element of a list of reals *)
Definition largest (x : R) (l : list R) : Prop := In x l /\ forall y, In y l -> (y <= x)%R.
Definition smallest (x : R) (l : list R) : Prop := In x l /\ forall y, In y l -> (x <= y)%R.

(** the function that MethodsModel takes for a deck: table value over largest table value *)
Definition ratio_of (grid : list num -> list num -> list num -> num -> num -> num) (t : table) (f : num -> num -> num) : Prop :=
  exists top, pymaxn (tz t) = Ok top /\
    forall x h, f x h = ndiv (grid (tx t) (ty t) (tz t) x h) top.
