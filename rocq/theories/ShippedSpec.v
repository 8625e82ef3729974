(** Numbers as text, and facts about the engine data shipped with the code, as tables. *)
From Coq Require Import QArith Ascii Permutation.
From Verif Require Import Base PropulsionModel PropulsionSpec ShippedModel.
Open Scope R_scope.

(** ** Decimal numbers *)
(** [s] consists of [n] digits and their value is [v] *)
Inductive digits : string -> nat -> R -> Prop :=
| digits_none : digits "" 0 0
| digits_one : forall s n v k c, digits s n v -> String.get k "0123456789" = Some c ->
    digits (s ++ String c "") (S n) (10 * v + INR k).
(** digits with or without a decimal point: at least one digit *)
Definition unsigned (s : string) (r : R) : Prop :=
  (exists n, digits s (S n) r) \/
  exists a b n m v w, s = (a ++ "." ++ b)%string /\ digits a n v /\ digits b m w /\ (0 < n + m)%nat /\ r = v + w / 10 ^ m.
Definition number (s : string) (r : R) : Prop :=
  unsigned s r \/ exists t, s = ("-" ++ t)%string /\ unsigned t (- r).

(** ** The decks of the shipped engines, read in whatever order the files are listed *)
Definition shipped_jet (e : string) (d : jet) : Prop :=
  exists l, Permutation jet_files l /\ jet_deck shipped_csv shipped_text parse_float e l = Ok d.
Definition shipped_turboprop (e : string) (d : turboprop) : Prop :=
  exists l, Permutation turboprop_files l /\ turboprop_deck shipped_csv shipped_text parse_float e l = Ok d.
Definition shipped_piston (e : string) (d : piston) : Prop :=
  exists l, Permutation piston_files l /\ piston_deck shipped_csv shipped_text parse_float e l = Ok d.
Definition shipped_electric (e : string) (d : electric_data) : Prop :=
  exists l, Permutation electric_files l /\ electric_deck shipped_csv shipped_text parse_float e l = Ok (Some d).

(** row [i] of a table *)
Definition row (t : table) (i : nat) (x y z : R) : Prop :=
  nth_error (tx t) i = Some (Fin x) /\ nth_error (ty t) i = Some (Fin y) /\ nth_error (tz t) i = Some (Fin z).
(** a table of numbers: three columns of the same length, every row in [P] *)
Definition rows_in (t : table) (P : R -> R -> R -> Prop) : Prop :=
  tz t <> [] /\ List.length (tx t) = List.length (tz t) /\ List.length (ty t) = List.length (tz t) /\
  forall i, (i < List.length (tz t))%nat -> exists x y z, row t i x y z /\ P x y z.

(** ** Sea level polynomials *)
(** engines with a sea level polynomial: Mach range of the file, and bounds of the thrust (N)
    in this range *)
Definition thrust_ranges : list (string * (Q * Q) * (Q * Q)) := [
  ("ATF3-6A", (0, 0.598730034), (10000, 20000));
  ("F404-400", (0, 1.220319573), (60000, 75000));
  ("FJ-44", (0, 0.510536663), (4950, 8550));
  ("J52", (0, 0.955730393553312), (30900, 36700));
  ("J60", (0, 0.8464497682454413), (9550, 11500));
  ("JT8D-9", (0, 0.98527989), (33500, 52000));
  ("JT9D-3", (0, 0.797362129), (68900, 147000));
  ("TF30", (0, 1.188096176), (32000, 53100));
  ("TFE731-2", (0, 0.598858428), (7850, 13050))]%Q%string.
(** the same for take-off thrust *)
Definition take_off_ranges : list (string * (Q * Q) * (Q * Q)) := [
  ("JT8D-9", (0.000272148, 0.467408107), (52000, 68000));
  ("JT9D-3", (-0.000961375, 0.84988463), (134000, 192000));
  ("TFE731-5", (-0.001442636, 0.599376265), (11300, 19300))]%Q%string.
(** jets with a table of specific fuel consumption, and a Mach number below those of the table *)
Definition tsfc_starts : list (string * Q) := [
  ("ATF3-6A", 0.034); ("FJ-44", 0.04); ("J52", 0.17); ("J60", 0.056); ("JT8D-9", 0.12); ("JT9D-3", 0.38);
  ("TF30", 0.04); ("TFE731-5", 0.24)]%Q%string.
(** what a field of a table holds: nothing, or a number *)
Definition cell (s : string) (x : num) : Prop := s = ""%string /\ x = NonFin \/ exists r, number s r /\ x = Fin r.
