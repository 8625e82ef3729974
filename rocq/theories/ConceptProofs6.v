(** Proofs about AircraftConcept.__init__: repeated construction, design space, errors. *)
From Verif Require Import Base BaseFacts AtmosModel ConceptModel ConceptSpec ConceptProofs ConceptProofs2 ConceptProofs3 ConceptProofs4 ConceptProofs5.
Open Scope R_scope.
Open Scope string_scope.

(** ** Settled dictionaries *)
Definition subs_nodup (defs : dict pv) : Prop := forall k ds, dget k defs = Some (PDict ds) -> NoDup (map fst ds).
Lemma subs_brief : subs_nodup default_brief.
Proof.
  intros k ds D. assert (I : In k (map fst default_brief)) by (apply in_keys; congruence).
  cbn in I. repeat (destruct I as [<-|I]; [discriminate|]). contradiction.
Qed.
Lemma subs_design : subs_nodup default_design.
Proof.
  intros k ds D. assert (I : In k (map fst default_design)) by (apply in_keys; congruence).
  cbn in I. repeat (destruct I as [<-|I]; [first [discriminate | injection D as <-; nodup]|]). contradiction.
Qed.
Lemma subs_performance : subs_nodup default_performance.
Proof.
  intros k ds D. assert (I : In k (map fst default_performance)) by (apply in_keys; congruence).
  cbn in I. repeat (destruct I as [<-|I]; [first [discriminate | injection D as <-; nodup]|]). contradiction.
Qed.

Definition complete (defs d : dict pv) : Prop :=
  forall k dv, dget k defs = Some dv -> exists v, dget k d = Some v /\ filled dv (Some v) = Some v.
Lemma filled_again dv u v : (forall ds, dv = PDict ds -> NoDup (map fst ds)) -> filled dv u = Some v -> filled dv (Some v) = Some v.
Proof.
  intros N F. destruct u as [[s|l|e]|]; simpl in F.
  - injection F as <-. reflexivity.
  - injection F as <-. reflexivity.
  - destruct dv as [s|l|ds]; try discriminate. injection F as <-. cbn [filled].
    f_equal. f_equal. apply fillsub_id. intros k I. rewrite fillsub_get by (apply N; reflexivity).
    apply in_keys in I. destruct (dget k e); congruence.
  - injection F as <-. destruct dv as [s|l|ds]; cbn [filled]; try reflexivity.
    f_equal. f_equal. apply fillsub_id. intros k I. apply in_keys. exact I.
Qed.
Lemma populate_complete defs d d1 : NoDup (map fst defs) -> subs_nodup defs -> populate defs d = Ok d1 -> complete defs d1.
Proof.
  intros N S P k dv D. pose proof (populate_get defs N d d1 P k) as X. rewrite D in X. destruct X as (v & F & V).
  exists v. split; [exact V|]. eapply filled_again; [|exact F]. intros ds ->. exact (S k ds D).
Qed.
Lemma complete_set defs d k v : complete defs d ->
  (forall dv, dget k defs = Some dv -> filled dv (Some v) = Some v) -> complete defs (dset k v d).
Proof.
  intros C H k' dv D. rewrite dget_set. destruct (String.eqb_spec k' k) as [->|N]; [|exact (C k' dv D)].
  exists v. split; [reflexivity|]. exact (H dv D).
Qed.
Lemma filled_scal dv s : filled dv (Some (PScal s)) = Some (PScal s). Proof. reflexivity. Qed.
Lemma filled_list dv l : filled dv (Some (PList l)) = Some (PList l). Proof. reflexivity. Qed.

Lemma average_settled defs d d' : NoDup (map fst defs) -> complete defs d -> average defs d = Ok d' ->
  complete defs d' /\ average defs d' = Ok d' /\ populate defs d' = Ok d'.
Proof.
  intros N C A.
  assert (C' : complete defs d').
  { intros k dv D. destruct (C k dv D) as (v & V & F). pose proof (average_get defs N d d' A k) as Y.
    assert (I : In k (map fst defs)) by (apply in_keys; congruence).
    destruct (in_dec string_dec k (map fst defs)); [|contradiction].
    destruct Y as (v' & w & V' & W & Av). rewrite V in V'. injection V' as <-. exists w. split; [exact W|].
    destruct v as [s|l|e]; simpl in Av; [subst w; reflexivity|destruct Av as (m & _ & ->); reflexivity|subst w; exact F]. }
  split; [exact C'|]. split.
  - apply average_id. intros k I. pose proof (average_get defs N d d' A k) as Y.
    destruct (in_dec string_dec k (map fst defs)); [|contradiction].
    destruct Y as (v' & w & V' & W & Av). exists w. split; [exact W|]. intros l ->.
    destruct v' as [s|l'|e]; simpl in Av; try discriminate. destruct Av as (m & _ & E). discriminate.
  - apply populate_id; assumption.
Qed.
Lemma average_isFalse defs d d' k v : NoDup (map fst defs) -> In k (map fst defs) -> average defs d = Ok d' ->
  dget k d = Some v -> isFalse v = false -> exists w, dget k d' = Some w /\ isFalse w = false.
Proof.
  intros N I A G F. pose proof (average_get defs N d d' A k) as Y.
  destruct (in_dec string_dec k (map fst defs)); [|contradiction].
  destruct Y as (v' & w & V' & W & Av). rewrite G in V'. injection V' as <-. exists w. split; [exact W|].
  destruct v as [s|l|e]; simpl in Av; [subst w; exact F|destruct Av as (m & _ & ->); reflexivity|subst w; exact F].
Qed.

Lemma brief_settled b b1 b' : populate default_brief b = Ok b1 -> average default_brief b1 = Ok b' ->
  populate default_brief b' = Ok b' /\ average default_brief b' = Ok b'.
Proof.
  intros P A. destruct (average_settled _ _ _ nodup_brief (populate_complete _ _ _ nodup_brief subs_brief P) A) as (_ & X & Y). auto.
Qed.
Lemma design_settled d d0 d1 d2 tf d' : populate default_design d = Ok d0 -> sweeps d0 = Ok d1 -> taper d1 = Ok (d2, tf) ->
  average default_design d2 = Ok d' ->
  populate default_design d' = Ok d' /\ sweeps d' = Ok d' /\ taper d' = Ok (d', false) /\ average default_design d' = Ok d'.
Proof.
  intros P S T A. pose proof (populate_complete _ _ _ nodup_design subs_design P) as C0.
  destruct (sweeps_get _ _ S) as (le0 & mt0 & s0 & le & mt & s & G1 & G2 & G3 & R1 & R2 & R3 & G4 & G5 & G6).
  assert (N1 : isFalse le = false).
  { subst le. destruct (isFalse le0) eqn:E; [reflexivity|exact E]. }
  assert (N2 : isFalse mt = false).
  { subst mt. destruct (isFalse mt0) eqn:E; [exact N1|exact E]. }
  assert (R3' : (isFalse s0 = true -> exists x, s = PScal x) /\ isFalse s = false).
  { destruct (isFalse s0) eqn:E; [|subst s; split; [discriminate|exact E]].
    destruct R3 as (x & y0 & y & M1 & M2 & M3 & M4).
    destruct y0 as [t|l|e]; try discriminate. injection M3 as <-.
    destruct x as [u|l|e]; try discriminate. injection M4 as <-. split; [eauto|reflexivity]. }
  destruct R3' as [Rs N3].
  assert (Fs : forall k v0 v, dget k d0 = Some v0 -> dget k default_design = Some pfalse -> forall dv, dget k default_design = Some dv -> 
     v = v0 -> filled dv (Some v) = Some v).
  { intros k v0 v G D dv D' ->. destruct (C0 k dv D') as (u & U1 & U2). congruence. }
  assert (Fle : filled pfalse (Some le) = Some le).
  { subst le. destruct (isFalse le0); [reflexivity|]. exact (Fs "sweep_le_deg" le0 le0 G1 eq_refl _ eq_refl eq_refl). }
  assert (Fmt : filled pfalse (Some mt) = Some mt).
  { subst mt. destruct (isFalse mt0); [exact Fle|]. exact (Fs "sweep_mt_deg" mt0 mt0 G2 eq_refl _ eq_refl eq_refl). }
  assert (Fs25 : filled pfalse (Some s) = Some s).
  { destruct (isFalse s0) eqn:E; [destruct (Rs eq_refl) as [x ->]; reflexivity|]. subst s.
    exact (Fs "sweep_25_deg" s0 s0 G3 eq_refl _ eq_refl eq_refl). }
  assert (C1 : complete default_design d1).
  { intros k dv D. destruct (in_dec string_dec k ["sweep_le_deg"; "sweep_mt_deg"; "sweep_25_deg"]) as [I|I].
    - destruct I as [<-|[<-|[<-|[]]]]; injection D as <-; eauto.
    - rewrite (sweeps_other _ _ k S I). exact (C0 k dv D). }
  destruct (taper_get _ _ T) as (t0 & t & K1 & K2 & R4). cbn [fst snd] in K2, R4.
  assert (N4 : isFalse t = false).
  { destruct (isFalse t0) eqn:E; [destruct R4 as (_ & ? & ? & _ & _ & ->); reflexivity|destruct R4 as (_ & -> & _); exact E]. }
  assert (C2 : complete default_design d2).
  { destruct (isFalse t0) eqn:E; [|destruct R4 as (_ & _ & ->); exact C1].
    intros k dv D. destruct (string_dec k "roottaperratio") as [->|N].
    - exists t. split; [exact K2|]. destruct R4 as (_ & ? & ? & _ & _ & ->). reflexivity.
    - change d2 with (fst (d2, tf)). rewrite (taper_other _ _ k T N). exact (C1 k dv D). }
  assert (O : forall k, k <> "roottaperratio" -> dget k d2 = dget k d1) by (intros k; exact (taper_other _ _ k T)).
  destruct (average_settled _ _ _ nodup_design C2 A) as (_ & X & Y).
  assert (G4' : dget "sweep_le_deg" d2 = Some le) by (rewrite O by discriminate; exact G4).
  assert (G5' : dget "sweep_mt_deg" d2 = Some mt) by (rewrite O by discriminate; exact G5).
  assert (G6' : dget "sweep_25_deg" d2 = Some s) by (rewrite O by discriminate; exact G6).
  destruct (average_isFalse _ _ _ "sweep_le_deg" _ nodup_design ltac:(cbn; inkey) A G4' N1) as (w1 & W1 & F1).
  destruct (average_isFalse _ _ _ "sweep_mt_deg" _ nodup_design ltac:(cbn; inkey) A G5' N2) as (w2 & W2 & F2).
  destruct (average_isFalse _ _ _ "sweep_25_deg" _ nodup_design ltac:(cbn; inkey) A G6' N3) as (w3 & W3 & F3).
  destruct (average_isFalse _ _ _ "roottaperratio" _ nodup_design ltac:(cbn; inkey) A K2 N4) as (w4 & W4 & F4).
  split; [exact Y|]. split; [|split; [|exact X]].
  - unfold sweeps, dindex. rewrite W1. cbn [rbind]. rewrite F1, W1. cbn [rbind]. rewrite W2. cbn [rbind].
    rewrite F2, W2. cbn [rbind]. rewrite W3. cbn [rbind]. rewrite F3. reflexivity.
  - unfold taper, dindex. rewrite W4. cbn [rbind]. rewrite F4. reflexivity.
Qed.

Lemma dget_in {V} k (v : V) d : pydict d -> In (k, v) d -> dget k d = Some v.
Proof.
  unfold pydict. induction d as [|[k' w] d IH]; simpl; intros N I; [contradiction|].
  inversion N as [|? ? A B]; subst. destruct I as [I|I].
  - injection I as -> ->. rewrite String.eqb_refl. reflexivity.
  - destruct (String.eqb_spec k k') as [->|M]; [|exact (IH B I)].
    exfalso. apply A. change k' with (fst (k', v)). apply in_map. exact I.
Qed.
Lemma etaloop_nofalse es : forall d n, (forall k, ~ In (k, SBool false) es) -> etaloop es d n = Ok (d, n).
Proof.
  induction es as [|[k v] es IH]; intros d n H; [reflexivity|]. cbn [etaloop].
  assert (H' : forall k, ~ In (k, SBool false) es) by (intros k' I; exact (H k' (or_intror I))).
  destruct v as [[]|x]; try (apply IH; exact H'). exfalso. exact (H k (or_introl eq_refl)).
Qed.
Lemma etaloop_pydict es : forall d n r, pydict d -> etaloop es d n = Ok r -> pydict (fst r).
Proof.
  induction es as [|[k v] es IH]; intros d n r N H; cbn [etaloop] in H; [injection H as <-; exact N|].
  destruct v as [[]|x]; [exact (IH _ _ _ N H)| |exact (IH _ _ _ N H)].
  apply rbind_ok in H as (w & _ & H). refine (IH _ _ _ _ H). apply pydict_dset. exact N.
Qed.
Lemma etaloop_keys es : forall d n r, etaloop es d n = Ok r -> forall k, dget k d <> None -> dget k (fst r) <> None.
Proof.
  induction es as [|[k0 v0] es IH]; intros d n r H k Hk; cbn [etaloop] in H; [injection H as <-; exact Hk|].
  destruct v0 as [[]|x]; [exact (IH _ _ _ H k Hk)| |exact (IH _ _ _ H k Hk)].
  apply rbind_ok in H as (v & _ & H). refine (IH _ _ _ H k _).
  rewrite dget_set. destruct (String.eqb k k0); [discriminate|exact Hk].
Qed.
Definition pyeta (p : dict pv) : Prop := forall e, binds p "etaprop" (PDict e) -> pydict e.
Lemma performance_settled p p0 p1 n p' : pyeta p -> populate default_performance p = Ok p0 -> etas p0 = Ok (p1, n) ->
  average default_performance p1 = Ok p' ->
  populate default_performance p' = Ok p' /\ etas p' = Ok (p', O) /\ average default_performance p' = Ok p' /\ pyeta p'.
Proof.
  intros Py P E A. pose proof (populate_complete _ _ _ nodup_performance subs_performance P) as C0.
  destruct (etas_get _ _ E) as (e & e' & G & L & E1). cbn [fst snd] in L, E1.
  destruct (C0 "etaprop" _ eq_refl) as (v & V & F). rewrite G in V. injection V as <-.
  set (ds := [("climb", SBool false); ("cruise", SBool false); ("servceil", SBool false); ("take-off", SBool false); ("turn", SBool false)]) in *.
  assert (ND : NoDup (map fst ds)) by (unfold ds; nodup).
  assert (Pe : pydict e).
  { pose proof (populate_get _ nodup_performance p p0 P "etaprop") as X. cbn [dget default_performance String.eqb Ascii.eqb Bool.eqb] in X.
    destruct X as (v & Fv & Vv). rewrite G in Vv. injection Vv as <-.
    destruct (dget "etaprop" p) as [u|] eqn:Eu.
    - destruct u as [s|l|e0]; try discriminate. assert (e = fillsub ds e0) as -> by (unfold filled in Fv; unfold ds; congruence).
      apply pydict_fillsub. apply Py. apply dget_binds. exact Eu.
    - unfold filled in Fv. injection Fv as <-. exact ND. }
  assert (Pe' : pydict e') by exact (etaloop_pydict _ _ _ _ Pe L).
  assert (NF : forall k, ~ In (k, SBool false) e').
  { intros k I. apply (dget_in _ _ _ Pe') in I. destruct (etaloop_get e Pe _ _ _ _ L) as [_ Q]. specialize (Q k).
    destruct (dget k e) as [[[]|x]|] eqn:Ek; try congruence.
    destruct Q as (w & Q1 & Q2). rewrite I in Q2. injection Q2 as <-.
    assert (J : In k (map fst default_etaprop)) by (apply in_keys; congruence).
    cbn in J. repeat (destruct J as [<-|J]; [discriminate|]). contradiction. }
  assert (C1 : complete default_performance p1).
  { subst p1. apply complete_set; [exact C0|]. intros dv D. cbn [dget default_performance String.eqb Ascii.eqb Bool.eqb] in D.
    injection D as <-. fold ds. cbn [filled]. do 2 f_equal. apply fillsub_id.
    intros k I. apply (etaloop_keys _ _ _ _ L). cbn [filled] in F. fold ds in F.
    assert (X : fillsub ds e = e) by congruence. rewrite <- X, fillsub_get by exact ND.
    apply in_keys in I. destruct (dget k e); congruence. }
  destruct (average_settled _ _ _ nodup_performance C1 A) as (_ & X & Y).
  assert (G' : dget "etaprop" p' = Some (PDict e')).
  { pose proof (average_get _ nodup_performance p1 p' A "etaprop") as Z.
    destruct (in_dec string_dec "etaprop" (map fst default_performance)) as [J|J]; [|exfalso; apply J; cbn; inkey].
    destruct Z as (v & w & V & W & Av). rewrite E1, dget_set_same in V. injection V as <-. simpl in Av. subst w. exact W. }
  split; [exact Y|]. split; [|split; [exact X|]].
  - unfold etas, dindex. rewrite G'. cbn [rbind]. rewrite (etaloop_nofalse e' e' 0 NF). cbn [rbind fst snd].
    rewrite (dset_same _ _ _ G'). reflexivity.
  - intros f B. apply dget_binds in B. rewrite G' in B. injection B as <-. exact Pe'.
Qed.

(** ** Replacing a dictionary by its settled version does not change the concept *)
Ltac step := match goal with |- context [rbind ?x _] =>
  lazymatch x with Ok _ => fail | Err _ => fail | _ => destruct x as [?|?]; [cbn [rbind fst snd concept_of]|reflexivity] end end.
Lemma reuse_brief b b1 b' dx px atm prop : populate default_brief b = Ok b1 -> average default_brief b1 = Ok b' ->
  concept_of (construct b' dx px atm prop) = concept_of (construct b dx px atm prop).
Proof.
  intros P A. destruct (brief_settled _ _ _ P A) as [P' A']. unfold construct. rewrite P, P'. cbn [rbind].
  do 5 step. cbv zeta. rewrite A, A'. cbn [rbind]. do 3 step. reflexivity.
Qed.
Lemma reuse_design d d0 d1 d2 tf d' bx px atm prop : populate default_design d = Ok d0 -> sweeps d0 = Ok d1 ->
  taper d1 = Ok (d2, tf) -> average default_design d2 = Ok d' ->
  concept_of (construct bx d' px atm prop) = concept_of (construct bx d px atm prop).
Proof.
  intros P S T A. destruct (design_settled _ _ _ _ _ _ P S T A) as (P' & S' & T' & A'). unfold construct.
  rewrite P, P'. step. step. rewrite S, S'. cbn [rbind]. rewrite T, T'. cbn [rbind]. step. cbv zeta. step.
  cbn [fst]. rewrite A, A'. cbn [rbind]. do 2 step. reflexivity.
Qed.
Lemma reuse_performance p p0 p1 n p' bx dx atm prop : pyeta p -> populate default_performance p = Ok p0 ->
  etas p0 = Ok (p1, n) -> average default_performance p1 = Ok p' ->
  concept_of (construct bx dx p' atm prop) = concept_of (construct bx dx p atm prop).
Proof.
  intros Py P E A. destruct (performance_settled _ _ _ _ _ Py P E A) as (P' & E' & A' & _). unfold construct.
  do 2 step. rewrite P, P'. cbn [rbind]. do 2 step. rewrite E, E'. cbn [rbind fst snd]. cbv zeta. do 2 step.
  rewrite A, A'. cbn [rbind]. step. reflexivity.
Qed.

Lemma after_cases {V} (a f : dict V) (Q : dict V -> Prop) : Q a -> Q f -> Q (after a f).
Proof. destruct a; simpl; auto. Qed.
Lemma construct_reuse b d p atm prop c b2 d2 p2 : pyeta p -> construct b d p atm prop = Ok c -> callers c = (b2, d2, p2) ->
  (forall dx px atm prop, concept_of (construct b2 dx px atm prop) = concept_of (construct b dx px atm prop)) /\
  (forall bx px atm prop, concept_of (construct bx d2 px atm prop) = concept_of (construct bx d px atm prop)) /\
  (forall bx dx atm prop, concept_of (construct bx dx p2 atm prop) = concept_of (construct bx dx p atm prop)) /\
  pyeta p2.
Proof.
  intros Py H C. apply construct_inv in H as (b1&d0&p0&d1&d2'&tf&p1&n&b'&d'&p'&o&H1&H2&H3&H4&H5&H6&H7&H8&H9&H10&->).
  cbn [callers] in C. injection C as <- <- <-. split; [|split; [|split]].
  - intros. refine (after_cases b b' (fun x => concept_of (construct x _ _ _ _) = _) eq_refl _).
    eapply reuse_brief; eassumption.
  - intros. refine (after_cases d d' (fun x => concept_of (construct _ x _ _ _) = _) eq_refl _).
    eapply reuse_design; eassumption.
  - intros. refine (after_cases p p' (fun x => concept_of (construct _ _ x _ _) = _) eq_refl _).
    eapply reuse_performance; eassumption.
  - refine (after_cases p p' pyeta Py _). eapply performance_settled; eassumption.
Qed.

Lemma history_same S : forall B0 D0 P0 l, (forall k, pyeta (P0 k)) -> history S l ->
  (forall i dx px atm prop, concept_of (construct (fst (fst S) i) dx px atm prop) = concept_of (construct (B0 i) dx px atm prop)) ->
  (forall i bx px atm prop, concept_of (construct bx (snd (fst S) i) px atm prop) = concept_of (construct bx (D0 i) px atm prop)) ->
  (forall i bx dx atm prop, concept_of (construct bx dx (snd S i) atm prop) = concept_of (construct bx dx (P0 i) atm prop)) ->
  (forall k, pyeta (snd S k)) ->
  forall m, In m l -> concept_of (construct (B0 (ib m)) (D0 (jd m)) (P0 (kp m)) (m_atm m) (m_prop m)) = Ok (m_obj m).
Proof.
  intros B0 D0 P0 l Py0 H. induction H as [S|B D P i j k atm prop c b' d' p' rest H C _ IH]; intros EB ED EP Py m I; [destruct I|].
  cbn [fst snd] in *. destruct (construct_reuse _ _ _ _ _ _ _ _ _ (Py k) H C) as (R1 & R2 & R3 & R4).
  destruct I as [<-|I].
  - cbn [ib jd kp m_atm m_prop m_obj]. rewrite <- EB, <- ED, <- EP, H. reflexivity.
  - apply IH; [| | | |exact I].
    + intros i0 dx px a q. unfold put. destruct (Nat.eqb_spec i i0) as [<-|N]; [|apply EB]. rewrite R1. apply EB.
    + intros i0 bx px a q. unfold put. destruct (Nat.eqb_spec j i0) as [<-|N]; [|apply ED]. rewrite R2. apply ED.
    + intros i0 bx dx a q. unfold put. destruct (Nat.eqb_spec k i0) as [<-|N]; [|apply EP]. rewrite R3. apply EP.
    + intros k0. unfold put. destruct (Nat.eqb_spec k k0) as [<-|N]; [exact R4|apply Py].
Qed.
Lemma history_faithful B D P l : (forall k e, binds (P k) "etaprop" (PDict e) -> pydict e) -> history (B, D, P) l ->
  forall m, In m l -> concept_of (construct (B (ib m)) (D (jd m)) (P (kp m)) (m_atm m) (m_prop m)) = Ok (m_obj m).
Proof. intros Py H. apply (history_same _ B D P l Py H); try reflexivity. exact Py. Qed.

(** ** Design space *)
Lemma populate_bound defs d d0 k v : NoDup (map fst defs) -> populate defs d = Ok d0 -> In k (map fst defs) ->
  dget k d = Some v -> (forall e, v <> PDict e) -> dget k d0 = Some v.
Proof.
  intros N P I G D. pose proof (populate_get defs N d d0 P k) as X. apply in_keys in I.
  destruct (dget k defs) as [dv|]; [|congruence]. destruct X as (u & F & V). rewrite G in F.
  destruct v as [s|l|e]; [| |exfalso; exact (D e eq_refl)]; injection F as <-; exact V.
Qed.
Lemma construct_space b d p atm prop c bs ds ps : construct b d p atm prop = Ok c -> designspace c = (bs, ds, ps) ->
  (forall k l, In k (names brief_entries) -> binds b k (PList l) -> binds bs k (PList l)) /\
  (forall k l, In k (names design_entries ++ map fst shape_entries) -> binds d k (PList l) -> binds ds k (PList l)) /\
  (forall k l, In k (names performance_entries) -> binds p k (PList l) -> binds ps k (PList l)).
Proof.
  intros H S. apply construct_inv in H as (b1&d0&p0&d1&d2&tf&p1&n&b'&d'&p'&o&H1&H2&H3&H4&H5&H6&H7&H8&H9&H10&->).
  cbn [designspace] in S. injection S as <- <- <-. split; [|split]; intros k l I B; apply dget_binds in B; apply dget_binds.
  - apply (populate_bound _ _ _ k _ nodup_brief H1 (brief_keys k I) B). discriminate.
  - destruct (design_keys k I) as [J N].
    assert (G0 : dget k d0 = Some (PList l)) by (apply (populate_bound _ _ _ k _ nodup_design H2 J B); discriminate).
    assert (G1 : dget k d1 = Some (PList l)).
    { destruct (in_dec string_dec k ["sweep_le_deg"; "sweep_mt_deg"; "sweep_25_deg"]) as [K|K].
      - destruct (sweeps_get _ _ H4) as (le0 & mt0 & s0 & le & mt & s & A1 & A2 & A3 & R1 & R2 & R3 & A4 & A5 & A6).
        destruct K as [<-|[<-|[<-|[]]]].
        + rewrite G0 in A1. injection A1 as <-. simpl in R1. subst le. exact A4.
        + rewrite G0 in A2. injection A2 as <-. simpl in R2. subst mt. exact A5.
        + rewrite G0 in A3. injection A3 as <-. simpl in R3. subst s. exact A6.
      - rewrite (sweeps_other _ _ k H4 K). exact G0. }
    destruct (string_dec k "roottaperratio") as [->|M].
    + destruct (taper_get _ _ H5) as (t0 & t & K1 & K2 & R4). rewrite G1 in K1. injection K1 as <-. simpl in R4.
      destruct R4 as (_ & -> & _). exact K2.
    + rewrite <- G1. exact (taper_other _ _ k H5 M).
  - destruct (performance_keys k I) as [J N].
    assert (G0 : dget k p0 = Some (PList l)) by (apply (populate_bound _ _ _ k _ nodup_performance H3 J B); discriminate).
    rewrite <- G0. exact (etas_other _ _ k H6 N).
Qed.

(** ** Errors *)
Lemma populate_error defs d e : populate defs d = Err e -> e = AttributeError.
Proof.
  revert d. induction defs as [|[k v] defs IH]; intros d H; [discriminate|]. cbn [populate] in H.
  destruct (fill1 (k, v) d) as [d1|e1] eqn:E; cbn [rbind] in H; [exact (IH d1 H)|]. injection H as <-.
  unfold fill1 in E. destruct (dget k d) as [[s|l|s]|]; try discriminate. destruct v; congruence.
Qed.
Lemma construct_dict_error b d p atm prop k e :
  (In k (names brief_entries) /\ binds b k (PDict e)) \/
  (In k (names design_entries ++ map fst shape_entries) /\ binds d k (PDict e)) \/
  (In k (names performance_entries) /\ binds p k (PDict e)) ->
  construct b d p atm prop = Err AttributeError.
Proof.
  intros H. unfold construct.
  destruct H as [(I & B)|[(I & B)|(I & B)]]; apply dget_binds in B.
  - pose proof (brief_keys k I) as J. apply in_keys in J. destruct (dget k default_brief) as [dv|] eqn:D; [|congruence].
    rewrite (populate_attribute_error _ nodup_brief b k dv e D); [reflexivity| |exact B].
    intros ds ->. assert (K : In k (map fst default_brief)) by (apply in_keys; congruence).
    cbn in K. repeat (destruct K as [<-|K]; [discriminate|]). contradiction.
  - destruct (populate default_brief b) as [x|x] eqn:E; [cbn [rbind]|apply populate_error in E; subst x; reflexivity].
    destruct (design_keys k I) as [J N]. apply in_keys in J. destruct (dget k default_design) as [dv|] eqn:D; [|congruence].
    rewrite (populate_attribute_error _ nodup_design d k dv e D); [reflexivity| |exact B].
    intros ds ->. assert (K : In k (map fst default_design)) by (apply in_keys; congruence).
    cbn in K. repeat (destruct K as [<-|K]; [first [discriminate | congruence]|]). contradiction.
  - destruct (populate default_brief b) as [x|x] eqn:E; [cbn [rbind]|apply populate_error in E; subst x; reflexivity].
    destruct (populate default_design d) as [y|y] eqn:E2; [cbn [rbind]|apply populate_error in E2; subst y; reflexivity].
    destruct (performance_keys k I) as [J N]. apply in_keys in J. destruct (dget k default_performance) as [dv|] eqn:D; [|congruence].
    rewrite (populate_attribute_error _ nodup_performance p k dv e D); [reflexivity| |exact B].
    intros ds ->. assert (K : In k (map fst default_performance)) by (apply in_keys; congruence).
    cbn in K. repeat (destruct K as [<-|K]; [first [discriminate | congruence]|]). contradiction.
Qed.
Lemma sweep_range_error k l atm prop : In k ["sweep_le_deg"; "sweep_mt_deg"] ->
  construct [] [(k, PList l)] [] atm prop = Err TypeError.
Proof. intros [<-|[<-|[]]]; reflexivity. Qed.
Lemma space_lost l atm prop : l <> [] ->
  exists c c' b2 bs' q, construct [("climbalt_m", PList l)] [] [] atm prop = Ok c /\ callers c = (b2, [], []) /\
    construct b2 [] [] atm prop = Ok c' /\
    binds (fst (fst (designspace c))) "climbalt_m" (PList l) /\ fst (fst (designspace c')) = bs' /\
    binds bs' "climbalt_m" (PScal (SNum q)).
Proof.
  intros N. destruct l as [|x l]; [congruence|].
  eexists _, _, _, _, _. split; [reflexivity|]. split; [reflexivity|]. split; [reflexivity|].
  split; [apply dget_binds; reflexivity|]. split; [reflexivity|apply dget_binds; reflexivity].
Qed.

Lemma flags_lost atm prop : exists c c' d2 p2,
  construct [] [("aspectratio", pnum 9)] [("CDTO", pnum 0.1)] atm prop = Ok c /\ callers c = ([], d2, p2) /\
  construct [] d2 p2 atm prop = Ok c' /\
  (taperdefaultflag c, etadefaultflag c) = (true, 5%nat) /\ (taperdefaultflag c', etadefaultflag c') = (false, 0%nat).
Proof.
  eexists _, _, _, _. split; [reflexivity|]. split; [reflexivity|]. split; [reflexivity|]. split; reflexivity.
Qed.
Lemma stored_mean rs q : stored (PList (map Fin rs)) q -> q = Some (Fin (arith_mean rs)).
Proof.
  intros H. inversion H as [| | |rs0 N E]; subst.
  assert (rs0 = rs) as ->; [|reflexivity].
  clear H N. revert rs E. induction rs0 as [|x l IH]; intros [|y rs] E; simpl in E; try discriminate; [reflexivity|].
  injection E as E0 E1. subst y. f_equal. exact (IH rs E1).
Qed.
Lemma range_mean b d p atm prop c rs lo hi : rs <> [] -> (forall r, In r rs -> lo <= r <= hi) ->
  construct b d p atm prop = Ok c ->
  forall k g, (exists r, In (k, g, r) brief_entries /\ binds b k (PList (map Fin rs))) \/
              (exists r, In (k, g, r) design_entries /\ binds d k (PList (map Fin rs))) \/
              (In (k, g) shape_entries /\ binds d k (PList (map Fin rs))) \/
              (exists r, In (k, g, r) performance_entries /\ binds p k (PList (map Fin rs))) ->
  g (obj c) = Some (Fin (fold_right Rplus 0 rs / INR (List.length rs))) /\
  lo <= fold_right Rplus 0 rs / INR (List.length rs) <= hi.
Proof.
  intros N B H k g X. split; [|exact (mean_bounds rs lo hi N B)].
  assert (F : finite_value (PList (map Fin rs))) by (simpl; eauto).
  destruct (construct_values _ _ _ _ _ _ H) as (V1 & V2 & V3). destruct (construct_shape _ _ _ _ _ _ H) as (V4 & _).
  apply (stored_mean rs).
  destruct X as [(r & I & Bd)|[(r & I & Bd)|[(I & Bd)|(r & I & Bd)]]].
  - exact (proj2 (V1 k g r I) _ Bd F).
  - exact (proj2 (V2 k g r I) _ Bd F).
  - exact (V4 k g I _ Bd F ltac:(discriminate)).
  - exact (proj2 (V3 k g r I) _ Bd F).
Qed.
Lemma sweep25_code b d p atm prop c le mt : construct b d p atm prop = Ok c ->
  unspecified d "sweep_25_deg" ->
  sweep_le_deg (obj c) = Some (Fin le) -> sweep_mt_deg (obj c) = Some (Fin mt) ->
  exists s, sweep_25_deg (obj c) = Some (Fin s) /\ s - (2 * le + 5 * mt) / 7 = 12 / 7 * le.
Proof.
  intros H U A B. destruct (construct_shape _ _ _ _ _ _ H) as (_ & _ & _ & _ & V). eexists. split; [exact (V U le mt A B)|]. lra.
Qed.
Lemma sweep25_witness atm prop : exists c,
  construct [] [("sweep_le_deg", pnum 30); ("sweep_mt_deg", pnum 25)] [] atm prop = Ok c /\
  sweep_25_deg (obj c) = Some (Fin (545 / 7)) /\ sweep_le_deg (obj c) = Some (Fin 30) /\ sweep_mt_deg (obj c) = Some (Fin 25).
Proof.
  destruct (construct_total [] [("sweep_le_deg", pnum 30); ("sweep_mt_deg", pnum 25)] [] atm prop) as [c H].
  - unfold wellformed.
    assert (E : forall k (v : pv), ~ binds [] k v) by (intros k v (l & r & A & _); destruct l; discriminate).
    split; [intros k v _ B; destruct (E _ _ B)|]. split.
    { intros k v _ B. apply dget_binds in B. simpl in B.
      destruct (String.eqb k "sweep_le_deg"); [injection B as <-; simpl; eauto|].
      destruct (String.eqb k "sweep_mt_deg"); [injection B as <-; simpl; eauto|discriminate]. }
    split; [intros k v _ B; destruct (E _ _ B)|].
    split; [intros v B; apply dget_binds in B; discriminate|].
    split; [intros v B; destruct (E _ _ B)|].
    intros _ k l I B. apply dget_binds in B. destruct I as [<-|[<-|[]]]; discriminate.
  - exists c. split; [exact H|]. destruct (construct_shape _ _ _ _ _ _ H) as (S & _ & _ & _ & V).
    assert (A1 : sweep_le_deg (obj c) = Some (Fin 30)).
    { assert (X : stored (pnum 30) (sweep_le_deg (obj c))).
      { apply (S "sweep_le_deg" sweep_le_deg); [simpl; tauto|apply dget_binds; reflexivity|simpl; eauto|discriminate]. }
      inversion X. reflexivity. }
    assert (A2 : sweep_mt_deg (obj c) = Some (Fin 25)).
    { assert (X : stored (pnum 25) (sweep_mt_deg (obj c))).
      { apply (S "sweep_mt_deg" sweep_mt_deg); [simpl; tauto|apply dget_binds; reflexivity|simpl; eauto|discriminate]. }
      inversion X. reflexivity. }
    split; [|auto]. rewrite (V ltac:(left; apply dget_unbound; reflexivity) 30 25 A1 A2). do 2 f_equal. lra.
Qed.
Lemma example_wellformed :
  wellformed [("cruisespeed_ktas", PList [Fin 300; Fin 320; Fin 355]); ("climbalt_m", pnum 1000)]
             [("weight_n", pnum 50000); ("aspectratio", PList [Fin 8; Fin 10]);
              ("weightfractions", PDict [("turn", SNum #0.9)]); ("sweep_le_deg", pnum 12)]
             [("etaprop", PDict [("cruise", SNum #0.8); ("climb", SBool false)]); ("CLmaxclean", pnum 1.5)].
Proof.
  unfold wellformed. split; [|split; [|split; [|split; [|split]]]].
  - intros k v _ B. apply dget_binds in B. cbn [dget] in B.
    repeat match type of B with (if ?c then _ else _) = _ => destruct c; [injection B as <-; try (exists [300; 320; 355]; split; [discriminate|reflexivity]); simpl; eauto|] end.
    discriminate.
  - intros k v I B. apply dget_binds in B. cbn [dget] in B.
    destruct (String.eqb_spec k "weight_n"); [injection B as <-; simpl; eauto|].
    destruct (String.eqb_spec k "aspectratio"); [injection B as <-; exists [8; 10]; split; [discriminate|reflexivity]|].
    destruct (String.eqb_spec k "weightfractions") as [->|].
    { exfalso. cbn in I. repeat (destruct I as [I|I]; [discriminate|]). contradiction. }
    destruct (String.eqb_spec k "sweep_le_deg"); [injection B as <-; simpl; eauto|]. discriminate.
  - intros k v I B. apply dget_binds in B. cbn [dget] in B.
    destruct (String.eqb_spec k "etaprop") as [->|].
    { exfalso. cbn in I. repeat (destruct I as [I|I]; [discriminate|]). contradiction. }
    destruct (String.eqb_spec k "CLmaxclean"); [injection B as <-; simpl; eauto|]. discriminate.
  - intros v B. apply dget_binds in B. injection B as <-. eauto.
  - intros v B. apply dget_binds in B. injection B as <-. eexists. split; [reflexivity|].
    intros k [I|[I|[]]]; [discriminate|]. injection I as <-. cbn. inkey.
  - intros _ k l [<-|[<-|[]]] B; apply dget_binds in B; discriminate.
Qed.
Lemma history_example : forall atm1 atm2 prop, exists m1 m2,
  history (fun _ => [("climbalt_m", pnum 1000)], fun i => [("aspectratio", pnum (INR i))],
           fun _ => [("etaprop", PDict [("cruise", SNum #0.8)])]) [m1; m2] /\
  ib m1 = ib m2 /\ jd m1 <> jd m2 /\ m_atm m1 = atm1 /\ m_atm m2 = atm2 /\ m_prop m1 = prop.
Proof.
  intros. eexists _, _. split.
  - eapply (h_step _ _ _ 0%nat 3%nat 1%nat atm1 prop); [reflexivity|reflexivity|].
    eapply (h_step _ _ _ 0%nat 4%nat 1%nat atm2 prop); [reflexivity|reflexivity|]. apply h_nil.
  - cbn [ib jd m_atm m_prop]. split; [reflexivity|]. split; [discriminate|]. auto.
Qed.
Lemma range_example : forall atm prop, exists c,
  construct [("cruisespeed_ktas", PList [Fin 300; Fin 320; Fin 355])] [] [] atm prop = Ok c /\
  cruisespeed_ktas (obj c) = Some (Fin 325).
Proof.
  intros atm prop.
  assert (exists c, construct [("cruisespeed_ktas", PList [Fin 300; Fin 320; Fin 355])] [] [] atm prop = Ok c) as [c H]
    by (eexists; reflexivity).
  exists c. split; [exact H|].
  destruct (range_mean _ _ _ _ _ c [300; 320; 355] 300 355 ltac:(discriminate)
    ltac:(intros r [<-|[<-|[<-|[]]]]; lra) H "cruisespeed_ktas" cruisespeed_ktas) as [E _].
  - left. exists None. split; [cbn; inkey|apply dget_binds; reflexivity].
  - rewrite E. do 2 f_equal. cbn [fold_right List.length INR]. field.
Qed.
