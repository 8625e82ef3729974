(** Constructing aircraft concepts: property theorems. *)
From Verif Require Import Base AtmosModel ConceptModel ConceptSpec ConceptProofs ConceptProofs2 ConceptProofs3 ConceptProofs4
  ConceptProofs5 ConceptProofs6.
Open Scope R_scope.
Open Scope string_scope.

(** C23: every user value is kept, everything else has its documented default. *)
Theorem C23_plain_entries : forall b d p atm prop c, construct b d p atm prop = Ok c ->
  (forall k g r, In (k, g, r) brief_entries -> holds b k r (g (obj c))) /\
  (forall k g r, In (k, g, r) design_entries -> holds d k r (g (obj c))) /\
  (forall k g r, In (k, g, r) performance_entries -> holds p k r (g (obj c))).
Proof. exact construct_values. Qed.
Print Assumptions C23_plain_entries.
Theorem C23_sub_entries : forall b d p atm prop c, construct b d p atm prop = Ok c ->
  (forall k g r, In (k, g, r) fraction_entries -> subholds d "weightfractions" k r (g (obj c)) /\
     (forall e, binds d "weightfractions" (PDict e) -> binds e k (SBool false) -> g (obj c) = None)) /\
  (forall k g r, In (k, g, r) eta_entries -> subholds p "etaprop" k r (g (obj c)) /\
     (forall e, binds p "etaprop" (PDict e) -> pydict e -> binds e k (SBool false) -> g (obj c) = default_param r)).
Proof. exact construct_subvalues. Qed.
Print Assumptions C23_sub_entries.
(** Sweep angles and taper ratio (the quarter-chord default is the subject of C26). *)
Theorem C23_wing_shape : forall b d p atm prop c, construct b d p atm prop = Ok c ->
  (forall k g, In (k, g) shape_entries -> forall v, binds d k v -> finite_value v -> v <> PScal (SBool false) ->
     stored v (g (obj c))) /\
  (unspecified d "sweep_le_deg" -> sweep_le_deg (obj c) = Some (Fin 0)) /\
  (unspecified d "sweep_mt_deg" -> sweep_mt_deg (obj c) = sweep_le_deg (obj c)) /\
  (unspecified d "roottaperratio" -> forall s, sweep_25_deg (obj c) = Some (Fin s) ->
     roottaperratio (obj c) = Some (Fin (0.45 * exp (- (0.0375 * s))))) /\
  (unspecified d "sweep_25_deg" -> forall le mt, sweep_le_deg (obj c) = Some (Fin le) -> sweep_mt_deg (obj c) = Some (Fin mt) ->
     sweep_25_deg (obj c) = Some (Fin (2 * le + 5 * mt / 7))).
Proof. exact construct_shape. Qed.
Print Assumptions C23_wing_shape.
Theorem C23_construction_succeeds : forall b d p atm prop, wellformed b d p ->
  exists c, construct b d p atm prop = Ok c.
Proof. exact construct_total. Qed.
Print Assumptions C23_construction_succeeds.
Theorem C23_dictionary_for_number_raises : forall b d p atm prop k e,
  (In k (names brief_entries) /\ binds b k (PDict e)) \/
  (In k (names design_entries ++ map fst shape_entries) /\ binds d k (PDict e)) \/
  (In k (names performance_entries) /\ binds p k (PDict e)) ->
  construct b d p atm prop = Err AttributeError.
Proof. exact construct_dict_error. Qed.
Print Assumptions C23_dictionary_for_number_raises.
Example C23_nonvacuous :
  wellformed [("cruisespeed_ktas", PList [Fin 300; Fin 320; Fin 355]); ("climbalt_m", pnum 1000)]
             [("weight_n", pnum 50000); ("aspectratio", PList [Fin 8; Fin 10]);
              ("weightfractions", PDict [("turn", SNum #0.9)]); ("sweep_le_deg", pnum 12)]
             [("etaprop", PDict [("cruise", SNum #0.8); ("climb", SBool false)]); ("CLmaxclean", pnum 1.5)].
Proof. exact example_wellformed. Qed.

(** C24: the dictionaries can be reused, alone or with others, in any history. *)
Theorem C24_reuse : forall b d p atm prop c b2 d2 p2,
  (forall e, binds p "etaprop" (PDict e) -> pydict e) ->
  construct b d p atm prop = Ok c -> callers c = (b2, d2, p2) ->
  (forall dx px atm prop, concept_of (construct b2 dx px atm prop) = concept_of (construct b dx px atm prop)) /\
  (forall bx px atm prop, concept_of (construct bx d2 px atm prop) = concept_of (construct bx d px atm prop)) /\
  (forall bx dx atm prop, concept_of (construct bx dx p2 atm prop) = concept_of (construct bx dx p atm prop)) /\
  (forall e, binds p2 "etaprop" (PDict e) -> pydict e).
Proof. exact construct_reuse. Qed.
Print Assumptions C24_reuse.
Theorem C24_any_history : forall B D P l, (forall k e, binds (P k) "etaprop" (PDict e) -> pydict e) ->
  history (B, D, P) l ->
  forall m, In m l -> concept_of (construct (B (ib m)) (D (jd m)) (P (kp m)) (m_atm m) (m_prop m)) = Ok (m_obj m).
Proof. exact history_faithful. Qed.
Print Assumptions C24_any_history.
(** The design space and the default flags of the second concept do differ. *)
Theorem C24_design_space_refuted : forall l atm prop, l <> [] ->
  exists c c' b2 bs' q, construct [("climbalt_m", PList l)] [] [] atm prop = Ok c /\ callers c = (b2, [], []) /\
    construct b2 [] [] atm prop = Ok c' /\
    binds (fst (fst (designspace c))) "climbalt_m" (PList l) /\ fst (fst (designspace c')) = bs' /\
    binds bs' "climbalt_m" (PScal (SNum q)).
Proof. exact space_lost. Qed.
Print Assumptions C24_design_space_refuted.
Theorem C24_default_flags_refuted : forall atm prop, exists c c' d2 p2,
  construct [] [("aspectratio", pnum 9)] [("CDTO", pnum 0.1)] atm prop = Ok c /\ callers c = ([], d2, p2) /\
  construct [] d2 p2 atm prop = Ok c' /\
  (taperdefaultflag c, etadefaultflag c) = (true, 5%nat) /\ (taperdefaultflag c', etadefaultflag c') = (false, 0%nat).
Proof. exact flags_lost. Qed.
Print Assumptions C24_default_flags_refuted.

Example C24_nonvacuous : forall atm1 atm2 prop, exists m1 m2,
  history (fun _ => [("climbalt_m", pnum 1000)], fun i => [("aspectratio", pnum (INR i))],
           fun _ => [("etaprop", PDict [("cruise", SNum #0.8)])]) [m1; m2] /\
  ib m1 = ib m2 /\ jd m1 <> jd m2 /\ m_atm m1 = atm1 /\ m_atm m2 = atm2 /\ m_prop m1 = prop.
Proof. exact history_example. Qed.

(** C25: ranges. *)
Theorem C25_mean_is_used : forall b d p atm prop c rs lo hi, rs <> [] -> (forall r, In r rs -> lo <= r <= hi) ->
  construct b d p atm prop = Ok c ->
  forall k g, (exists r, In (k, g, r) brief_entries /\ binds b k (PList (map Fin rs))) \/
              (exists r, In (k, g, r) design_entries /\ binds d k (PList (map Fin rs))) \/
              (In (k, g) shape_entries /\ binds d k (PList (map Fin rs))) \/
              (exists r, In (k, g, r) performance_entries /\ binds p k (PList (map Fin rs))) ->
  g (obj c) = Some (Fin (fold_right Rplus 0 rs / INR (List.length rs))) /\
  lo <= fold_right Rplus 0 rs / INR (List.length rs) <= hi.
Proof. exact range_mean. Qed.
Print Assumptions C25_mean_is_used.
Theorem C25_range_retained : forall b d p atm prop c bs ds ps, construct b d p atm prop = Ok c ->
  designspace c = (bs, ds, ps) ->
  (forall k l, In k (names brief_entries) -> binds b k (PList l) -> binds bs k (PList l)) /\
  (forall k l, In k (names design_entries ++ map fst shape_entries) -> binds d k (PList l) -> binds ds k (PList l)) /\
  (forall k l, In k (names performance_entries) -> binds p k (PList l) -> binds ps k (PList l)).
Proof. exact construct_space. Qed.
Print Assumptions C25_range_retained.
(** A range of leading edge or maximum thickness sweeps alone is rejected. *)
Theorem C25_sweep_range_refuted : forall k l atm prop, In k ["sweep_le_deg"; "sweep_mt_deg"] ->
  construct [] [(k, PList l)] [] atm prop = Err TypeError.
Proof. exact sweep_range_error. Qed.
Print Assumptions C25_sweep_range_refuted.

Example C25_nonvacuous : forall atm prop, exists c,
  construct [("cruisespeed_ktas", PList [Fin 300; Fin 320; Fin 355])] [] [] atm prop = Ok c /\
  cruisespeed_ktas (obj c) = Some (Fin 325).
Proof. exact range_example. Qed.

(** C26: the quarter-chord default exceeds the documented one by 12/7 of the leading edge sweep. *)
Theorem C26_sweep25_refuted : forall b d p atm prop c le mt, construct b d p atm prop = Ok c ->
  unspecified d "sweep_25_deg" ->
  sweep_le_deg (obj c) = Some (Fin le) -> sweep_mt_deg (obj c) = Some (Fin mt) ->
  exists s, sweep_25_deg (obj c) = Some (Fin s) /\ s - (2 * le + 5 * mt) / 7 = 12 / 7 * le.
Proof. exact sweep25_code. Qed.
Print Assumptions C26_sweep25_refuted.
Example C26_nonvacuous : forall atm prop, exists c,
  construct [] [("sweep_le_deg", pnum 30); ("sweep_mt_deg", pnum 25)] [] atm prop = Ok c /\
  sweep_25_deg (obj c) = Some (Fin (545 / 7)) /\ sweep_le_deg (obj c) = Some (Fin 30) /\ sweep_mt_deg (obj c) = Some (Fin 25).
Proof. exact sweep25_witness. Qed.
