(** The altitudes of the shipped tables, and complete analyses with shipped engines. *)
From Coq Require Import String QArith Qreals Permutation.
From Verif Require Import Base BaseFacts AtmosModel AtmosSpec ConceptModel MethodsModel MethodsSpec MethodsExamples UnitsModel ConstraintSpec
  ConstraintProofs ConstraintProofs7 ConstraintProofs8 ConstraintProofs10 IsaProofs
  PropulsionModel PropulsionSpec PropulsionProofs8 PropulsionProofs9 EngineObjectSpec ShippedModel ShippedSpec ShippedDecks ShippedThrust ShippedFacts ShippedAnalysisSpec ShippedAnalysisProofs.
Open Scope R_scope.

(** ** The tables *)
Definition within (lo hi : Q) : Q -> Q -> Q -> bool := fun _ b _ => if Qle_bool lo b then Qle_bool b hi else false.
Lemma within_spec lo hi x y z : within lo hi x y z = true -> Q2R lo <= Q2R y <= Q2R hi.
Proof. unfold within. destruct (Qle_bool lo y) eqn:E; [|discriminate]. intros F. apply Qleb_R in E, F. auto. Qed.
Definition at_altitude (k : Q) : Q -> Q -> Q -> bool := fun _ b _ => Qeq_bool b k.

Definition jet_bounds : list (string * (Q * Q)) :=
  [("ATF3-6A", (0, 12192)); ("F404-400", (0, 18288)); ("FJ-44", (0, 13716)); ("J52", (0, 19812)); ("J60", (0, 13716));
   ("JT8D-9", (0, 13716)); ("JT9D-3", (0, 13716)); ("TF30", (0, 13716)); ("TFE731-2", (0, 15240)); ("TFE731-5", (6096, 12192))]%string%Q.
Definition turboprop_bounds : list (string * (Q * Q)) := [("T56-A", (0, 15240)); ("Tyne_RTy11", (0, 10668))]%string%Q.
Definition piston_bounds : list (string * (Q * Q)) :=
  [("IO-540", (-10.90794985, 6867.517699)); ("Wasp_Major_B13", (1.021268885, 10303.80347))]%string%Q.
Definition real_bounds (x : string * (Q * Q)) : string * (R * R) := (fst x, (Q2R (fst (snd x)), Q2R (snd (snd x)))).
Lemma jet_bounds_real : jet_altitudes = map real_bounds jet_bounds.
Proof. unfold jet_altitudes, jet_bounds. cbn [map]. unfold real_bounds. cbn [fst snd]. repeat (apply f_equal2; [apply f_equal, f_equal2; unfold Q2R; cbn; lra|]). reflexivity. Qed.
Lemma turboprop_bounds_real : turboprop_altitudes = map real_bounds turboprop_bounds.
Proof. unfold turboprop_altitudes, turboprop_bounds. cbn [map]. unfold real_bounds. cbn [fst snd]. repeat (apply f_equal2; [apply f_equal, f_equal2; unfold Q2R; cbn; lra|]). reflexivity. Qed.
Lemma piston_bounds_real : piston_altitudes = map real_bounds piston_bounds.
Proof. unfold piston_altitudes, piston_bounds. cbn [map]. unfold real_bounds. cbn [fst snd]. repeat (apply f_equal2; [apply f_equal, f_equal2; unfold Q2R; cbn; lra|]). reflexivity. Qed.

Definition spans_ok (f a b c : string) (lo hi : Q) : bool :=
  table_ok (within lo hi) f a b c && table_has (at_altitude lo) f a b c && table_has (at_altitude hi) f a b c.
Lemma spans_spec f a b c lo hi t : spans_ok f a b c lo hi = true -> read_table shipped_csv a b c f = Ok t -> spans t (Q2R lo) (Q2R hi).
Proof.
  unfold spans_ok. intros H F. apply andb_prop in H. destruct H as (H & H3). apply andb_prop in H. destruct H as (H1 & H2). split; [|split].
  - apply (table_ok_spec _ _ _ _ _ _ _ H1 F). intros x y z. apply within_spec.
  - destruct (table_has_spec _ _ _ _ _ _ H2 F) as (i & x & y & z & R & E). apply Qeq_bool_eq, Qeq_eqR in E. rewrite E in R. eauto.
  - destruct (table_has_spec _ _ _ _ _ _ H3 F) as (i & x & y & z & R & E). apply Qeq_bool_eq, Qeq_eqR in E. rewrite E in R. eauto.
Qed.
Definition all_span (file : string -> string) (a b c : string) (l : list (string * (Q * Q))) : bool :=
  forallb (fun x => spans_ok (file (fst x)) a b c (fst (snd x)) (snd (snd x))) l.
Lemma jets_span : all_span thrust_table "Mach Number" "Altitude (m)" "Thrust (N)" jet_bounds = true. Proof. vm_compute. reflexivity. Qed.
Lemma turboprops_span : all_span power_table "Mach Number" "Altitude (m)" "Power (W)" turboprop_bounds = true. Proof. vm_compute. reflexivity. Qed.
Lemma pistons_span : all_span power_table "Speed (RPM)" "Altitude (m)" "Power (W)" piston_bounds = true. Proof. vm_compute. reflexivity. Qed.
Lemma bounds_spans (l : list (string * (Q * Q))) file a b c e lo hi t : all_span file a b c l = true -> In (e, (lo, hi)) (map real_bounds l) ->
  read_table shipped_csv a b c (file e) = Ok t -> spans t lo hi.
Proof.
  intros A I F. apply in_map_iff in I. destruct I as ((e0 & (p & q)) & E & I). unfold real_bounds in E. cbn [fst snd] in E. injection E as <- <- <-.
  unfold all_span in A. rewrite forallb_forall in A. apply A in I. cbn [fst snd] in I. exact (spans_spec _ _ _ _ _ _ _ I F).
Qed.
Lemma named {A} (l : list (string * A)) names e x : forallb (fun p => existsb (String.eqb (fst p)) names) l = true -> In (e, x) l -> In e names.
Proof.
  intros H I. rewrite forallb_forall in H. apply H in I. apply existsb_exists in I. destruct I as (y & I & E). apply String.eqb_eq in E. cbn [fst] in E. subst. exact I.
Qed.
Lemma jet_spans e lo hi d : In (e, (lo, hi)) jet_altitudes -> shipped_jet e d -> exists t, jt_thr d = Some t /\ spans t lo hi.
Proof.
  intros I S. destruct (jet_thrust_table e d) as (t & F & D); [refine (named jet_altitudes jet_engines e _ eq_refl I)|exact S|]. exists t. split; [exact D|].
  rewrite jet_bounds_real in I. exact (bounds_spans _ _ _ _ _ e lo hi t jets_span I F).
Qed.
Lemma turboprop_spans e lo hi d : In (e, (lo, hi)) turboprop_altitudes -> shipped_turboprop e d -> exists t, tp_pwr d = Some t /\ spans t lo hi.
Proof.
  intros I S. destruct (turboprop_power_table e d) as (t & F & D); [refine (named turboprop_altitudes turboprop_engines e _ eq_refl I)|exact S|]. exists t. split; [exact D|].
  rewrite turboprop_bounds_real in I. exact (bounds_spans _ _ _ _ _ e lo hi t turboprops_span I F).
Qed.
Lemma piston_spans e lo hi d : In (e, (lo, hi)) piston_altitudes -> shipped_piston e d -> exists t, pi_pwr d = Some t /\ spans t lo hi.
Proof.
  intros I S. destruct (piston_power_table e d) as (t & F & D); [refine (named piston_altitudes piston_engines e _ eq_refl I)|exact S|]. exists t. split; [exact D|].
  rewrite piston_bounds_real in I. exact (bounds_spans _ _ _ _ _ e lo hi t pistons_span I F).
Qed.
Lemma spans_all : 
  (forall e lo hi d, In (e, (lo, hi)) jet_altitudes -> shipped_jet e d -> exists t, jt_thr d = Some t /\ spans t lo hi) /\
  (forall e lo hi d, In (e, (lo, hi)) turboprop_altitudes -> shipped_turboprop e d -> exists t, tp_pwr d = Some t /\ spans t lo hi) /\
  (forall e lo hi d, In (e, (lo, hi)) piston_altitudes -> shipped_piston e d -> exists t, pi_pwr d = Some t /\ spans t lo hi).
Proof. exact (conj jet_spans (conj turboprop_spans piston_spans)). Qed.

(** ** The analyses *)
Lemma jet_analysis grid e lo hi d t f ext c ws fo r : no_extrapolation grid -> In (e, (lo, hi)) jet_altitudes -> shipped_jet e d ->
  jt_thr d = Some t -> ratio_of grid t f -> propulsion c = PropJet f -> twrequired ext c ws fo true = Ok r -> blank_beyond lo hi c r.
Proof.
  intros N I S D F P. destruct (jet_spans e lo hi d I S) as (t' & D' & K & _). rewrite D in D'. injection D' as <-.
  apply tw_blank. intros h H. eapply jet_outside; eassumption.
Qed.
Lemma turboprop_analysis grid e lo hi d t f ext c ws m fo r : no_extrapolation grid -> In (e, (lo, hi)) turboprop_altitudes -> shipped_turboprop e d ->
  tp_pwr d = Some t -> ratio_of grid t f -> propulsion c = PropTurboprop f -> powerrequired ext c ws m fo true = Ok r -> blank_beyond lo hi c r.
Proof.
  intros N I S D F P. destruct (turboprop_spans e lo hi d I S) as (t' & D' & K & _). rewrite D in D'. injection D' as <-.
  apply pw_blank. intros h H. eapply turboprop_outside; eassumption.
Qed.
Lemma piston_analysis grid e lo hi d t f g rpms ext c ws m fo r : no_extrapolation grid -> In (e, (lo, hi)) piston_altitudes -> shipped_piston e d ->
  pi_pwr d = Some t -> ratio_of grid t f -> propulsion c = PropPiston rpms g f -> powerrequired ext c ws m fo true = Ok r -> blank_beyond lo hi c r.
Proof.
  intros N I S D F P. destruct (piston_spans e lo hi d I S) as (t' & D' & K & _). rewrite D in D'. injection D' as <-.
  apply pw_blank. intros h H. eapply piston_outside; eassumption.
Qed.
Lemma tfe_take_off grid d t f ext c ws fo r h : no_extrapolation grid -> shipped_jet "TFE731-5" d -> jt_thr d = Some t -> ratio_of grid t f ->
  propulsion c = PropJet f -> rwyelevation_m c = Some (Fin h) -> h < 6096 -> twrequired ext c ws fo true = Ok r -> blank (rq_combined r).
Proof.
  intros N S D F P A H T. assert (I : In ("TFE731-5"%string, (6096, 12192)) jet_altitudes) by (do 9 right; left; reflexivity).
  destruct (jet_analysis _ _ _ _ _ _ _ _ _ _ _ _ N I S D F P T) as (_ & _ & _ & _ & _ & K). apply K. eexists. split; [left; reflexivity|]. exists h. auto.
Qed.
Lemma wasp_take_off grid d t f g rpms ext c ws m fo r h : no_extrapolation grid -> shipped_piston "Wasp_Major_B13" d -> pi_pwr d = Some t -> ratio_of grid t f ->
  propulsion c = PropPiston rpms g f -> rwyelevation_m c = Some (Fin h) -> h <= 1 -> powerrequired ext c ws m fo true = Ok r -> blank (rq_combined r).
Proof.
  intros N S D F P A H T. assert (I : In ("Wasp_Major_B13"%string, (1.021268885, 10303.80347)) piston_altitudes) by (right; left; reflexivity).
  destruct (piston_analysis _ _ _ _ _ _ _ _ _ _ _ _ _ _ _ N I S D F P T) as (_ & _ & _ & _ & _ & K). apply K. eexists. split; [left; reflexivity|]. exists h. split; [exact A|lra].
Qed.
