(** Specification vocabulary for the diagrams of the sensitivity analysis. *)
From Verif Require Import Base UnitsModel AtmosModel AtmosSpec ConceptModel ConceptSpec MethodsModel SensitivityModel SensitivitySpec
  SensitivityPlotModel.
Open Scope R_scope.
Open Scope string_scope.

(** [xs] are the positions of the wing loadings [ws] on the horizontal axis: the wing
    loadings themselves, or the wing areas that go with them *)
Definition axis (self : constructed) (wl : val) (x : xvar) (ws xs : list R) : Prop :=
  elements wl = map Fin ws /\
  match x with
  | Xws => xs = ws
  | Xarea => exists W, weight_n (obj self) = Some (Fin W) /\ 0 < W /\ (forall w, In w ws -> 0 < w) /\ xs = map (fun w => W / w) ws
  end.

Definition ascending (l : list R) : Prop :=
  forall i j a b, (i < j)%nat -> nth_error l i = Some a -> nth_error l j = Some b -> a < b.
Definition descending (l : list R) : Prop :=
  forall i j a b, (i < j)%nat -> nth_error l i = Some a -> nth_error l j = Some b -> b < a.

(** the requirement is a number at wing loading number [i] *)
Definition defined_at (r : val) (i : nat) : Prop := exists v, nth_error (elements r) i = Some (Fin v).

(** where the clean stall is on the axis, if the brief and the design allow to tell *)
Inductive stall_position (self : constructed) (x : xvar) : option R -> Prop :=
| no_stall : vstallclean_kcas (obj self) = None \/ clmaxclean (obj self) = None -> stall_position self x None
| a_stall v cl w W L : vstallclean_kcas (obj self) = Some (Fin v) -> clmaxclean (obj self) = Some (Fin cl) -> 0 < v -> 0 < cl ->
    wsmaxcleanstall_pa (obj self) = Ok (Fin w) -> 0 < w -> weight_n (obj self) = Some (Fin W) -> 0 < W ->
    L = match x with Xws => w | Xarea => W / w end -> stall_position self x (Some L).
(** beyond the stall: too heavy a wing loading, or too small a wing *)
Definition beyond (x : xvar) (L p : R) : Prop := match x with Xws => L <= p | Xarea => p <= L end.

(** position [p] of the combined diagram is covered by the region of infeasible lift
    coefficients *)
Definition shaded (d : combined_diagram) (p : R) : Prop :=
  exists a b, cd_shade d = (Fin a, Fin b) /\ a <= p <= b.

(** the constraint is below the combined front at loading number [i]; where the front is
    undefined, zero takes its place *)
Definition below_front (c front : val) (i : nat) : Prop :=
  exists a, nth_error (elements c) i = Some (Fin a) /\
    ((exists b, nth_error (elements front) i = Some (Fin b) /\ a < b) \/ (nth_error (elements front) i = Some NonFin /\ a < 0)).
(** [i..j] is a longest stretch of loadings with property [P] *)
Definition stretch (P : nat -> Prop) (i j : nat) : Prop :=
  (i <= j)%nat /\ (forall k, (i <= k <= j)%nat -> P k) /\ ~ P (S j) /\ (forall k, S k = i -> ~ P k).
(** the mask drawn for it: from the position of the first to that of the last, or to the
    end of the axis if that is the last loading at which the front is defined *)
Definition mask_of (xs : list R) (front : val) (ij : nat * nat) (m : num * num) : Prop :=
  exists a b, nth_error xs (fst ij) = Some a /\ nth_error xs (snd ij) = Some b /\ fst m = Fin a /\
  ((defined_at front (snd ij) /\ (forall k, defined_at front k -> (k <= snd ij)%nat) /\ snd m = Fin (last xs 0)) \/
   (~ (defined_at front (snd ij) /\ forall k, defined_at front k -> (k <= snd ij)%nat) /\ snd m = Fin b)).

Definition diagram_name (d : diagram) : string :=
  match d with DSensitivity s _ _ _ => s | DCombined _ => "combined" end.

(** the label of a parameter: the custom one, if there is one *)
Definition label_of (customlabels : list (string * string)) (k l : string) : Prop :=
  binds customlabels k l \/ (unbound customlabels k /\ l = k).
