(** C102: constraint analyses with the shipped engines. *)
From Coq Require Import String.
From Verif Require Import Base AtmosModel AtmosSpec ConceptModel MethodsModel MethodsSpec MethodsExamples ConstraintSpec PropulsionModel PropulsionSpec PropulsionProofs9
  EngineObjectSpec ShippedModel ShippedSpec ShippedAnalysisSpec ShippedAnalysisProofs ShippedAnalysisFacts ShippedAnalysisExamples.
Open Scope R_scope.

(** the altitudes covered by the tables: none of the 14 engines reaches all altitudes at which
    aircraft fly, one starts at 6096 m *)
Theorem C102_altitudes :
  (forall e lo hi d, In (e, (lo, hi)) jet_altitudes -> shipped_jet e d -> exists t, jt_thr d = Some t /\ spans t lo hi) /\
  (forall e lo hi d, In (e, (lo, hi)) turboprop_altitudes -> shipped_turboprop e d -> exists t, tp_pwr d = Some t /\ spans t lo hi) /\
  (forall e lo hi d, In (e, (lo, hi)) piston_altitudes -> shipped_piston e d -> exists t, pi_pwr d = Some t /\ spans t lo hi).
Proof. exact spans_all. Qed.
Print Assumptions C102_altitudes.

(** with a shipped engine, whatever the rest of the concept: the sea level thrust to weight
    ratios and powers required at altitudes outside the table of the engine are nan, and one
    such altitude makes the combined requirement nan at every wing loading *)
Theorem C102_jet : forall grid e lo hi d t f ext c ws fo r, no_extrapolation grid -> In (e, (lo, hi)) jet_altitudes -> shipped_jet e d ->
  jt_thr d = Some t -> ratio_of grid t f -> propulsion c = PropJet f ->
  twrequired ext c ws fo true = Ok r -> blank_beyond lo hi c r.
Proof. exact jet_analysis. Qed.
Print Assumptions C102_jet.
Theorem C102_turboprop : forall grid e lo hi d t f ext c ws tow_kg fo r, no_extrapolation grid -> In (e, (lo, hi)) turboprop_altitudes -> shipped_turboprop e d ->
  tp_pwr d = Some t -> ratio_of grid t f -> propulsion c = PropTurboprop f ->
  powerrequired ext c ws tow_kg fo true = Ok r -> blank_beyond lo hi c r.
Proof. exact turboprop_analysis. Qed.
Print Assumptions C102_turboprop.
Theorem C102_piston : forall grid e lo hi d t f tsfc rpms ext c ws tow_kg fo r, no_extrapolation grid -> In (e, (lo, hi)) piston_altitudes -> shipped_piston e d ->
  pi_pwr d = Some t -> ratio_of grid t f -> propulsion c = PropPiston rpms tsfc f ->
  powerrequired ext c ws tow_kg fo true = Ok r -> blank_beyond lo hi c r.
Proof. exact piston_analysis. Qed.
Print Assumptions C102_piston.

(** so no aircraft with the TFE731-5 can take off from a runway below 6096 m, nor one with the
    Wasp Major from a runway at sea level, the default: the analysis returns without an
    error, and has no number in it *)
Theorem C102_take_off_refuted : forall grid, no_extrapolation grid ->
  (forall d t f ext c ws fo r h, shipped_jet "TFE731-5" d -> jt_thr d = Some t -> ratio_of grid t f -> propulsion c = PropJet f ->
     rwyelevation_m c = Some (Fin h) -> h < 6096 -> twrequired ext c ws fo true = Ok r -> blank (rq_combined r)) /\
  (forall d t f tsfc rpms ext c ws tow_kg fo r h, shipped_piston "Wasp_Major_B13" d -> pi_pwr d = Some t -> ratio_of grid t f -> propulsion c = PropPiston rpms tsfc f ->
     rwyelevation_m c = Some (Fin h) -> h <= 1 -> powerrequired ext c ws tow_kg fo true = Ok r -> blank (rq_combined r)).
Proof.
  exact (fun g N => conj (fun d t f ext c ws fo r h => tfe_take_off g d t f ext c ws fo r h N)
                         (fun d t f ts rpms ext c ws m fo r h => wasp_take_off g d t f ts rpms ext c ws m fo r h N)).
Qed.
Print Assumptions C102_take_off_refuted.

(** analyses that return: a jet and a piston aircraft on a runway at sea level, a turboprop with
    a service ceiling of 10800 m *)
Example C102_nonvacuous : no_extrapolation exact_grid /\
  (forall ws fo, exists d t f r, shipped_jet "TFE731-5" d /\ jt_thr d = Some t /\ ratio_of exact_grid t f /\
     twrequired example_ext (example_aircraft 20 18 4 (PropJet f) (isa 0)) ws fo true = Ok r) /\
  (forall ws fo, exists d t f r, shipped_turboprop "Tyne_RTy11" d /\ tp_pwr d = Some t /\ ratio_of exact_grid t f /\
     powerrequired example_ext (with_ceiling (example_aircraft 20 18 4 (PropTurboprop f) (isa 0)) (Some (Fin 10800))) ws (Fin 20000) fo true = Ok r) /\
  (forall w fo, exists d t f r, shipped_piston "Wasp_Major_B13" d /\ pi_pwr d = Some t /\ ratio_of exact_grid t f /\
     powerrequired example_ext (example_aircraft 20 18 (-1) (PropPiston [2700] f f) (isa 0)) (VNum w) (Fin 20000) fo true = Ok r).
Proof. exact (conj exact_no_extrapolation (conj jet_case (conj turboprop_case piston_case))). Qed.
