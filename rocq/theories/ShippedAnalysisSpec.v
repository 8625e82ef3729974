(** What the shipped engines allow of a constraint analysis. *)
From Coq Require Import String QArith Qreals.
From Verif Require Import Base AtmosModel AtmosSpec ConceptModel MethodsModel PropulsionModel ShippedModel ShippedSpec.
Open Scope R_scope.

(** the lowest and the highest altitude, in metres, in the thrust or power table of an engine *)
Definition jet_altitudes : list (string * (R * R)) :=
  [("ATF3-6A", (0, 12192)); ("F404-400", (0, 18288)); ("FJ-44", (0, 13716)); ("J52", (0, 19812)); ("J60", (0, 13716));
   ("JT8D-9", (0, 13716)); ("JT9D-3", (0, 13716)); ("TF30", (0, 13716)); ("TFE731-2", (0, 15240)); ("TFE731-5", (6096, 12192))]%string.
Definition turboprop_altitudes : list (string * (R * R)) := [("T56-A", (0, 15240)); ("Tyne_RTy11", (0, 10668))]%string.
Definition piston_altitudes : list (string * (R * R)) :=
  [("IO-540", (-10.90794985, 6867.517699)); ("Wasp_Major_B13", (1.021268885, 10303.80347))]%string.

(** the altitudes of a table extend from [lo] to [hi] *)
Definition spans (t : table) (lo hi : R) : Prop :=
  rows_in t (fun _ h _ => lo <= h <= hi) /\ (exists i x z, row t i x lo z) /\ (exists i x z, row t i x hi z).

(** an altitude of the design brief that is given, and lies outside the range *)
Definition beyond (lo hi : R) (alt : option num) : Prop := exists h, alt = Some (Fin h) /\ (h < lo \/ hi < h).
(** the five altitudes at which the constraints are evaluated *)
Definition brief_altitudes (c : concept) : list (option num) :=
  [rwyelevation_m c; turnalt_m c; climbalt_m c; cruisealt_m c; servceil_m c].
(** no number in it *)
Definition blank (v : val) : Prop := forall x, In x (elements v) -> x = NonFin.
(** the requirements at altitudes outside the range have no number in them, and if there is
    such an altitude the combined requirement has none either *)
Definition blank_beyond (lo hi : R) (c : concept) (r : requirement) : Prop :=
  (beyond lo hi (rwyelevation_m c) -> blank (rq_takeoff r)) /\
  (beyond lo hi (turnalt_m c) -> blank (rq_turn r) /\ blank (rq_turnfeasible r)) /\
  (beyond lo hi (climbalt_m c) -> blank (rq_climb r)) /\
  (beyond lo hi (cruisealt_m c) -> blank (rq_cruise r)) /\
  (beyond lo hi (servceil_m c) -> blank (rq_servceil r)) /\
  ((exists a, In a (brief_altitudes c) /\ beyond lo hi a) -> blank (rq_combined r)).
