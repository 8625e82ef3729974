(** The sensitivity analysis: property theorems (C43, C63). *)
From Verif Require Import Base UnitsModel AtmosModel AtmosSpec ConceptModel ConceptSpec MethodsModel MethodsSpec MethodsExamples
  SensitivityModel SensitivitySpec ConstraintSpec ConceptProofs6 SensitivityProofs SensitivityProofs2 SensitivityProofs3 SensitivityProofs4.
Open Scope R_scope.
Open Scope string_scope.

(** C43: the shares [out] of the parameters recorded for a constraint are positive, add
    up to one and are proportional to the parameters' effects, at every wing loading where
    all of the effects are defined. *)
Theorem C43_shares : forall ext self ws y s med cn prime n out i,
  sensitivity ext self ws y = Ok (s, med) -> numeric_space self ->
  binds (primes s) cn prime -> prime <> [] -> shares n prime = Ok out -> (i < n)%nat ->
  (forall k r, In (k, r) prime -> exists x, at_loading i r (Fin x)) ->
  map fst out = map fst prime /\ exists total qs, 0 < total /\
  Forall2 (fun kq q => nth_error (snd kq) i = Some (Fin q)) out qs /\
  Forall2 (fun kr q => exists x, at_loading i (snd kr) (Fin x) /\ x = q * total) prime qs /\
  Forall (fun q => 0 < q <= 1) qs /\ fold_right Rplus 0 qs = 1.
Proof. exact analysis_shares. Qed.
Print Assumptions C43_shares.
Example C43_shares_nonvacuous : exists s med prime out,
  sensitivity example_ext (self0 PropFalse) (VList [Fin 1000; Fin 2000]) Ytw = Ok (s, med) /\ numeric_space (self0 PropFalse) /\
  binds (primes s) "take-off" prime /\ prime <> [] /\ shares 2 prime = Ok out /\
  forall k r, In (k, r) prime -> exists x, at_loading 0 r (Fin x).
Proof. exact shares_example. Qed.

(** the recorded effect is the distance between the requirements at the two ends of the
    parameter's range *)
Theorem C43_effects : forall ext self ws y s med cn k r,
  sensitivity ext self ws y = Ok (s, med) -> numeric_space self -> reported s cn k r ->
  (exists sel a b, In (cn, sel) analysed /\ varies ext self ws y k sel a b /\ distances a b r) /\
  forall i x, at_loading i r (Fin x) -> 0 < x.
Proof. exact reported_ranges. Qed.
Print Assumptions C43_effects.

(** a parameter is reported for a constraint exactly if it makes a difference at every
    wing loading *)
Theorem C43_reported_iff : forall ext self ws y s med cn sel k,
  sensitivity ext self ws y = Ok (s, med) -> numeric_space self -> In (cn, sel) analysed ->
  ((exists r, reported s cn k r) <-> exists a b, varies ext self ws y k sel a b /\ differ_everywhere a b).
Proof. exact reported_iff. Qed.
Print Assumptions C43_reported_iff.
Example C43_reported_nonvacuous : exists s med r,
  sensitivity example_ext (self0 PropFalse) (VList [Fin 1000; Fin 2000]) Ytw = Ok (s, med) /\
  reported s "take-off" "groundrun_m" r.
Proof. exact effect_found. Qed.

(** a parameter with an effect at one wing loading and none at another is not reported *)
Theorem C43_effect_reported_refuted : exists self s med,
  construct (brief_dict (PList [Fin 1000; Fin 1400])) design_dict performance_dict (isa 0) PropFalse = Ok self /\
  sensitivity example_ext self (VList [Fin 0; Fin 2000]) Ytw = Ok (s, med) /\
  (exists a b i xa xb, varies example_ext self (VList [Fin 0; Fin 2000]) Ytw "groundrun_m" rq_takeoff a b /\
     at_loading i (elements a) (Fin xa) /\ at_loading i (elements b) (Fin xb) /\ xa <> xb) /\
  ~ exists r, reported s "take-off" "groundrun_m" r.
Proof. exact effect_refutation. Qed.
Print Assumptions C43_effect_reported_refuted.

(** at most 24 parameters can be reported, the number of colours *)
Theorem C43_at_most_24_parameters : forall ext self ws y s med ks,
  sensitivity ext self ws y = Ok (s, med) -> NoDup ks ->
  (forall k, In k ks -> exists cn r, reported s cn k r) -> (List.length ks <= 24)%nat.
Proof. exact at_most_24. Qed.
Print Assumptions C43_at_most_24_parameters.

(** the analysis succeeds for up to 24 ranges, unless there is a single wing loading *)
Theorem C43_total : forall ext self ws w ac, weight_n (obj self) = Some w -> List.length (elements ws) <> 1%nat ->
  (forall i k l, In (k, PList l) (part_of (designspace self) i) -> l <> [] /\
    forall x, In x l -> exists ac, rebuilt self (set_parameter (designstate self) i k x) = Ok ac /\
      wing_ok ext ac /\ engine_ok ac /\ brief_complete ac) ->
  rebuilt self (designstate self) = Ok ac -> wing_ok ext ac -> engine_ok ac -> brief_complete ac ->
  (List.length (ranges self) <= 24)%nat ->
  exists s med, sensitivity ext self ws Ytw = Ok (s, med).
Proof. exact sensitivity_total. Qed.
Print Assumptions C43_total.
Theorem C43_single_wing_loading_refuted : forall b d p atm prop self ext w y i k l,
  construct b d p atm prop = Ok self -> elements w = [y] ->
  In (k, PList l) (part_of (designspace self) i) -> forall r, sensitivity ext self w Ytw <> Ok r.
Proof. exact single_loading. Qed.
Print Assumptions C43_single_wing_loading_refuted.
Example C43_single_nonvacuous :
  construct (brief_dict (PList [Fin 1000; Fin 1400])) design_dict performance_dict (isa 0) PropFalse = Ok (self0 PropFalse) /\
  In ("groundrun_m", PList [Fin 1000; Fin 1400]) (part_of (designspace (self0 PropFalse)) Brief).
Proof. exact single_example. Qed.

(** C63: the nominal requirement is that of the concept itself, provided that it was given
    an engine; without one, an object that is no engine is passed on. *)
Theorem C63_nominal_partial : forall b d p atm prop self ext ws y s med, pyeta p ->
  construct b d p atm prop = Ok self -> sensitivity ext self ws y = Ok (s, med) ->
  exists w, weight_n (obj self) = Some w /\
  requirement_of ext (match prop with PropFalse => with_engine (obj self) PropOther | _ => obj self end) ws (w / sc_g)%num y med.
Proof. exact nominal_requirement. Qed.
Print Assumptions C63_nominal_partial.
Example C63_nonvacuous : pyeta performance_dict /\
  construct (brief_dict (PList [Fin 1000; Fin 1400])) design_dict performance_dict (isa 0) (PropJet (fun _ _ => Fin 0.7))
    = Ok (self0 (PropJet (fun _ _ => Fin 0.7))) /\
  exists s med, sensitivity example_ext (self0 (PropJet (fun _ _ => Fin 0.7))) (VList [Fin 1000; Fin 2000]) Ytw = Ok (s, med).
Proof. exact nominal_example. Qed.
Theorem C63_default_engine_refuted : exists self s med r,
  construct (brief_dict (pnum 1200)) design_dict performance_dict (isa 0) PropFalse = Ok self /\
  sensitivity example_ext self loads Ytw = Ok (s, med) /\ twrequired example_ext (obj self) loads true true = Ok r /\
  elements (rq_takeoff med) <> elements (rq_takeoff r).
Proof. exact engine_refutation. Qed.
Print Assumptions C63_default_engine_refuted.
