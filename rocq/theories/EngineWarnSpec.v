(** Specification of the warnings of the engine decks. *)
From Verif Require Import Base PropulsionModel EngineWarnModel.

(** [answers ok w m]: if the data are there ([ok]), [m] gives a result or raises without a
    warning; otherwise it gives None after the one warning [w] *)
Definition answers {A} (ok : Prop) (w : engine_warning) (m : noted (option A)) : Prop :=
  (ok -> fst m = [] /\ snd m <> Ok None) /\ (~ ok -> fst m = [w] /\ snd m = Ok None).

(** the warning of a method that was given the propeller [p] *)
Definition propeller_warning (p : proparg) : list engine_warning :=
  match p with PropellerNone => [UsesAnsatz] | _ => [] end.
(** a warning about missing data *)
Definition about_data (w : engine_warning) : Prop := exists q t, w = NoData q t.
