(** Specification vocabulary for the multi-panel diagrams. *)
From Coq Require Import Sorted.
From Verif Require Import Base ConceptModel ConceptSpec PanelModel.
Open Scope R_scope.
Open Scope string_scope.

(** [ks] are the rows, in order, whose time is between [a] and [b] *)
Definition rows_between (a b : R) (times : list num) (ks : list nat) : Prop :=
  StronglySorted lt ks /\ forall k, In k ks <-> exists t, nth_error times k = Some (Fin t) /\ a <= t <= b.
(** [new] consists of rows [ks] of the column [col] *)
Definition restricted (ks : list nat) (col new : list num) : Prop :=
  Forall2 (fun k x => nth_error col k = Some x) ks new.
(** the columns of a data frame are equally long *)
Definition rectangular (f : frame) (n : nat) : Prop := forall k c, In (k, c) f -> List.length c = n.

(** a straight line between two points *)
Definition segment (x1 y1 x2 y2 : num) (colour : string) (c : curve) : Prop :=
  c_x c = [x1; x2] /\ c_y c = [y1; y2] /\ c_label c = None /\ c_colour c = Some colour.
(** [lines] mark the positions [at_], each by its own colour *)
Definition marks (line : num -> string -> curve -> Prop) (at_ : list num) (colours : list string) (lines : list curve) : Prop :=
  List.length lines = List.length at_ /\
  forall j m, nth_error at_ j = Some m -> exists col c, nth_error colours j = Some col /\ nth_error lines j = Some c /\ line m col c.
