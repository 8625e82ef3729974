(** Proofs about AircraftConcept.__init__: sub-dictionaries, wing shape, totality
    and repeated construction. *)
From Verif Require Import Base BaseFacts AtmosModel ConceptModel ConceptSpec ConceptProofs ConceptProofs2.
Open Scope R_scope.
Open Scope string_scope.

(** ** Sweep angles *)
Definition sweep25_rule (le mt s : pv) : Prop :=
  exists a b0 b, pmul 2 le = Ok a /\ pmul 5 mt = Ok b0 /\ pdiv7 b0 = Ok b /\ padd a b = Ok s.
Lemma sweeps_get d d' : sweeps d = Ok d' -> exists le0 mt0 s0 le mt s,
  dget "sweep_le_deg" d = Some le0 /\ dget "sweep_mt_deg" d = Some mt0 /\ dget "sweep_25_deg" d = Some s0 /\
  le = (if isFalse le0 then pnum 0 else le0) /\ mt = (if isFalse mt0 then le else mt0) /\
  (if isFalse s0 then sweep25_rule le mt s else s = s0) /\
  dget "sweep_le_deg" d' = Some le /\ dget "sweep_mt_deg" d' = Some mt /\ dget "sweep_25_deg" d' = Some s.
Proof.
  unfold sweeps. intros H.
  apply rbind_ok in H as (le0 & E1 & H). apply rbind_ok in H as (le & E2 & H).
  apply rbind_ok in H as (mt0 & E3 & H). apply rbind_ok in H as (mt & E4 & H).
  apply rbind_ok in H as (s0 & E5 & H). apply dindex_ok in E1, E2, E3, E4, E5.
  set (dle := if isFalse le0 then dset "sweep_le_deg" (pnum 0) d else d) in *.
  assert (A1 : le = if isFalse le0 then pnum 0 else le0).
  { unfold dle in E2. destruct (isFalse le0); [rewrite dget_set_same in E2|]; congruence. }
  assert (A2 : dget "sweep_mt_deg" d = Some mt0).
  { rewrite <- E3. unfold dle. destruct (isFalse le0); [rewrite dget_set_other by discriminate|]; reflexivity. }
  set (dmt := if isFalse mt0 then dset "sweep_mt_deg" le dle else dle) in *.
  assert (A3 : mt = if isFalse mt0 then le else mt0).
  { unfold dmt in E4. destruct (isFalse mt0); [rewrite dget_set_same in E4|]; congruence. }
  assert (A4 : dget "sweep_le_deg" dmt = Some le).
  { rewrite <- E2. unfold dmt. destruct (isFalse mt0); [rewrite dget_set_other by discriminate|]; reflexivity. }
  assert (A5 : dget "sweep_25_deg" d = Some s0).
  { rewrite <- E5. unfold dmt, dle. destruct (isFalse mt0), (isFalse le0); rewrite ?dget_set_other by discriminate; reflexivity. }
  destruct (isFalse s0) eqn:F.
  - apply rbind_ok in H as (a & B1 & H). apply rbind_ok in H as (b0 & B2 & H).
    apply rbind_ok in H as (b & B3 & H). apply rbind_ok in H as (s & B4 & H). injection H as <-.
    exists le0, mt0, s0, le, mt, s. rewrite F, dget_set_same, !dget_set_other by discriminate.
    unfold sweep25_rule. repeat (split; [eauto; fail|]). split; [eauto 10|auto].
  - injection H as <-. exists le0, mt0, s0, le, mt, s0. rewrite F. auto 12.
Qed.
Lemma taper_get d r : taper d = Ok r -> exists t0 t, dget "roottaperratio" d = Some t0 /\
  dget "roottaperratio" (fst r) = Some t /\
  if isFalse t0
  then snd r = true /\ exists s a, dget "sweep_25_deg" d = Some s /\
    (match s with PList l => mean l | PScal x => Ok (snum x) | PDict _ => Err TypeError end) = Ok a /\
    t = PScal (SNum (#0.45 * nexp (#(-0.0375) * a))%num)
  else snd r = false /\ t = t0 /\ fst r = d.
Proof.
  unfold taper. intros H. apply rbind_ok in H as (t0 & E & H). apply dindex_ok in E.
  destruct (isFalse t0) eqn:F.
  - apply rbind_ok in H as (s & E1 & H). apply rbind_ok in H as (a & E2 & H). injection H as <-.
    apply dindex_ok in E1. exists t0. eexists. cbn [fst snd]. rewrite dget_set_same, F. eauto 10.
  - injection H as <-. exists t0, t0. rewrite F. auto.
Qed.

Lemma specified_cases d k : In k (map fst shape_entries) -> forall d0, populate default_design d = Ok d0 -> forall v0,
  dget k d0 = Some v0 ->
  (unspecified d k -> v0 = pfalse) /\
  (forall v, binds d k v -> finite_value v -> v0 = v).
Proof.
  intros I d0 P v0 G. pose proof (populate_get _ nodup_design d d0 P k) as X.
  assert (D : dget k default_design = Some pfalse).
  { simpl in I. destruct I as [<-|[<-|[<-|[<-|[]]]]]; reflexivity. }
  rewrite D in X. destruct X as (v & F & V). rewrite G in V. injection V as <-. split.
  - intros [U|B].
    + apply dget_unbound in U. rewrite U in F. injection F as <-. reflexivity.
    + apply dget_binds in B. rewrite B in F. injection F as <-. reflexivity.
  - intros u B Fu. apply dget_binds in B. rewrite B in F. destruct u; simpl in F, Fu; congruence.
Qed.
Lemma not_false v : v <> PScal (SBool false) -> isFalse v = false.
Proof. destruct v as [[[]|]| |]; simpl; congruence. Qed.

Lemma attr_average d d' k v q : average default_design d = Ok d' -> In k (map fst default_design) ->
  attr_of d' k = Ok q -> dget k d = Some v -> exists w, averaged v w /\ toparam w = Ok q.
Proof.
  intros A I At G. pose proof (average_get _ nodup_design d d' A k) as Y.
  destruct (in_dec string_dec k (map fst default_design)); [|contradiction].
  destruct Y as (v' & w & V' & W & Av). rewrite G in V'. injection V' as <-.
  apply attr_get in At as (w' & W' & T). rewrite W in W'. injection W' as <-. eauto.
Qed.
Lemma averaged_det v w q w' q' : averaged v w -> toparam w = Ok q -> averaged v w' -> toparam w' = Ok q' -> q = q'.
Proof.
  intros A T A' T'. destruct v as [s|l|e]; simpl in A, A'.
  - subst. congruence.
  - destruct A as (m & E & ->), A' as (m' & E' & ->). rewrite E in E'. injection E' as <-. congruence.
  - subst. discriminate.
Qed.

Lemma construct_shape b d p atm prop c : construct b d p atm prop = Ok c ->
  (forall k g, In (k, g) shape_entries -> forall v, binds d k v -> finite_value v -> v <> PScal (SBool false) ->
     stored v (g (obj c))) /\
  (unspecified d "sweep_le_deg" -> sweep_le_deg (obj c) = Some (Fin 0)) /\
  (unspecified d "sweep_mt_deg" -> sweep_mt_deg (obj c) = sweep_le_deg (obj c)) /\
  (unspecified d "roottaperratio" -> forall s, sweep_25_deg (obj c) = Some (Fin s) ->
     roottaperratio (obj c) = Some (Fin (0.45 * exp (- (0.0375 * s))))) /\
  (unspecified d "sweep_25_deg" -> forall le mt, sweep_le_deg (obj c) = Some (Fin le) -> sweep_mt_deg (obj c) = Some (Fin mt) ->
     sweep_25_deg (obj c) = Some (Fin (2 * le + 5 * mt / 7))).
Proof.
  intros H. apply construct_inv in H as (b1&d0&p0&d1&d2&tf&p1&n&b'&d'&p'&o&H1&H2&H3&H4&H5&H6&H7&H8&H9&H10&->).
  cbn [obj]. destruct (attributes_ok _ _ _ _ _ _ H10) as (_ & _ & As & _).
  destruct (sweeps_get _ _ H4) as (le0 & mt0 & s0 & le & mt & s & G1 & G2 & G3 & R1 & R2 & R3 & G4 & G5 & G6).
  destruct (taper_get _ _ H5) as (t0 & t & K1 & K2 & R4). cbn [fst snd] in K2, R4.
  assert (K1' : dget "roottaperratio" d0 = Some t0).
  { rewrite <- K1. symmetry. apply (sweeps_other _ _ _ H4). simpl. intuition discriminate. }
  assert (G4' : dget "sweep_le_deg" d2 = Some le).
  { rewrite <- G4. apply (taper_other _ _ "sweep_le_deg" H5). discriminate. }
  assert (G5' : dget "sweep_mt_deg" d2 = Some mt).
  { rewrite <- G5. apply (taper_other _ _ "sweep_mt_deg" H5). discriminate. }
  assert (G6' : dget "sweep_25_deg" d2 = Some s).
  { rewrite <- G6. apply (taper_other _ _ "sweep_25_deg" H5). discriminate. }
  destruct (attr_average _ _ "sweep_le_deg" le _ H8 ltac:(simpl; tauto) (As "sweep_le_deg" sweep_le_deg ltac:(simpl; tauto)) G4') as (wle & Ale & Tle).
  destruct (attr_average _ _ "sweep_mt_deg" mt _ H8 ltac:(simpl; tauto) (As "sweep_mt_deg" sweep_mt_deg ltac:(simpl; tauto)) G5') as (wmt & Amt & Tmt).
  destruct (attr_average _ _ "sweep_25_deg" s _ H8 ltac:(simpl; tauto) (As "sweep_25_deg" sweep_25_deg ltac:(simpl; tauto)) G6') as (ws & Aws & Tws).
  destruct (attr_average _ _ "roottaperratio" t _ H8 ltac:(simpl; tauto) (As "roottaperratio" roottaperratio ltac:(simpl; tauto)) K2) as (wt & Awt & Twt).
  assert (S1 := specified_cases d "sweep_le_deg" ltac:(simpl; tauto) d0 H2 le0 G1).
  assert (S2 := specified_cases d "sweep_mt_deg" ltac:(simpl; tauto) d0 H2 mt0 G2).
  assert (S3 := specified_cases d "sweep_25_deg" ltac:(simpl; tauto) d0 H2 s0 G3).
  assert (S4 := specified_cases d "roottaperratio" ltac:(simpl; tauto) d0 H2 t0 K1').
  split; [|split; [|split; [|split]]].
  - intros k g I v B F N. pose proof (not_false v N) as NF.
    simpl in I. destruct I as [I|[I|[I|[I|[]]]]]; injection I as <- <-.
    + apply S1 in B; [|exact F]. subst le0. rewrite NF in R1. subst le. eapply stored_of; eassumption.
    + apply S2 in B; [|exact F]. subst mt0. rewrite NF in R2. subst mt. eapply stored_of; eassumption.
    + apply S3 in B; [|exact F]. subst s0. rewrite NF in R3. subst s. eapply stored_of; eassumption.
    + apply S4 in B; [|exact F]. subst t0. rewrite NF in R4. destruct R4 as (_ & -> & _). eapply stored_of; eassumption.
  - intros U. apply S1 in U. subst le0. simpl in R1. subst le. simpl in Ale. subst wle. injection Tle; auto.
  - intros U. apply S2 in U. subst mt0. simpl in R2. subst mt. exact (averaged_det _ _ _ _ _ Amt Tmt Ale Tle).
  - intros U q Eq. apply S4 in U. subst t0. simpl in R4. destruct R4 as (_ & s' & a & Es & Ea & ->).
    rewrite G6 in Es. injection Es as <-. simpl in Awt. subst wt. simpl in Twt. injection Twt as <-.
    assert (a = Fin q) as ->.
    { destruct s as [x|l|e]; simpl in Aws, Ea.
      - injection Ea as <-. subst ws. rewrite Eq in Tws. destruct x as [[]|x]; simpl in Tws |- *; congruence.
      - destruct Aws as (m & Em & ->). rewrite Ea in Em. injection Em as <-. simpl in Tws. congruence.
      - discriminate. }
    cbn [nexp nmul lift1 lift2]. do 3 f_equal. apply f_equal. lra.
  - intros U qle qmt Ele Emt. apply S3 in U. subst s0. simpl in R3. destruct R3 as (a & b0 & bb & M1 & M2 & M3 & M4).
    rewrite Ele in Tle. rewrite Emt in Tmt.
    destruct mt as [xm|lm|em]; simpl in M2; [|injection M2 as <-; discriminate|discriminate].
    injection M2 as <-. simpl in M3. injection M3 as <-.
    destruct le as [xl|ll|el]; simpl in M1; [|injection M1 as <-; discriminate|discriminate].
    injection M1 as <-. simpl in M4. injection M4 as <-. simpl in Aws, Ale, Amt. subst ws wle wmt.
    assert (X1 : snum xl = Fin qle) by (destruct xl as [[]|]; simpl in *; congruence).
    assert (X2 : snum xm = Fin qmt) by (destruct xm as [[]|]; simpl in *; congruence).
    rewrite X1, X2 in Tws.
    simpl in Tws. unfold Reqb in Tws. destruct (Req_EM_T 7 0) as [X|X]; [lra|]. simpl in Tws. injection Tws as <-.
    do 2 f_equal. unfold Rdiv. ring.
Qed.
