(** Specifications: analyses in an atmosphere that answers at some altitudes only. *)
From Verif Require Import Base AtmosModel AtmosSpec ConceptModel MethodsModel MethodsSpec ConstraintSpec.
Open Scope R_scope.

(** the atmosphere has positive densities and temperatures at the altitudes in [S], and raises TypeError
    at all others *)
Definition answers_on (a : atmosphere) (S : R -> Prop) : Prop := forall x,
  (S x -> exists rho T p, airdens_kgpm3 a (VNum (Fin x)) = Ok (VNum (Fin rho)) /\ airtemp_k a (VNum (Fin x)) = Ok (VNum (Fin T)) /\
     airpress_pa a (VNum (Fin x)) = Ok (VNum (Fin p)) /\ 0 < rho /\ 0 < T) /\
  (~ S x -> airdens_kgpm3 a (VNum (Fin x)) = Err TypeError /\ airtemp_k a (VNum (Fin x)) = Err TypeError /\ airpress_pa a (VNum (Fin x)) = Err TypeError).
(** a design brief without gaps: the altitudes of climb, cruise, service ceiling, turn and runway in m *)
Record flight_altitudes := { climb_at : R; cruise_at : R; ceiling_at : R; turn_at : R; runway_at : R }.
Definition briefed (c : concept) (h : flight_altitudes) : Prop :=
  (exists v r, climbspeed_kias c = Some (Fin v) /\ climbrate_fpm c = Some (Fin r) /\ 0 < v) /\
  (exists v, cruisespeed_ktas c = Some (Fin v) /\ 0 < v) /\
  (exists v, secclimbspd_kias c = Some (Fin v) /\ 0 < v) /\
  (exists v n, turnspeed_ktas c = Some (Fin v) /\ stloadfactor c = Some (Fin n) /\ 0 < v) /\
  (exists d, groundrun_m c = Some (Fin d)) /\
  climbalt_m c = Some (Fin (climb_at h)) /\ cruisealt_m c = Some (Fin (cruise_at h)) /\ servceil_m c = Some (Fin (ceiling_at h)) /\
  turnalt_m c = Some (Fin (turn_at h)) /\ rwyelevation_m c = Some (Fin (runway_at h)).
(** [r] succeeds if all the altitudes are in [S] and raises TypeError if one is not *)
Definition needs {A} (S : R -> Prop) (l : list R) (r : res A) : Prop :=
  ((forall x, In x l -> S x) -> exists y, r = Ok y) /\ (forall x, In x l -> ~ S x -> r = Err TypeError).
