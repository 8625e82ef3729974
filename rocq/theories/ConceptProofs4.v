(** Proofs about AircraftConcept.__init__: sub-dictionaries, totality and repeated
    construction. *)
From Verif Require Import Base BaseFacts AtmosModel ConceptModel ConceptSpec ConceptProofs ConceptProofs2 ConceptProofs3.
Open Scope R_scope.
Open Scope string_scope.

(** ** Sub-dictionaries *)
Lemma keys_dset_old {V} k (v : V) d : dget k d <> None -> map fst (dset k v d) = map fst d.
Proof.
  induction d as [|[k' w] d IH]; simpl; [congruence|]. destruct (String.eqb_spec k k') as [->|N]; [reflexivity|].
  intros H. simpl. rewrite IH by exact H. reflexivity.
Qed.
Lemma pydict_dset {V} k (v : V) d : pydict d -> pydict (dset k v d).
Proof.
  unfold pydict. induction d as [|[k' w] d IH]; simpl; intros N.
  - constructor; [intros []|constructor].
  - inversion N as [|? ? A B]; subst. destruct (String.eqb_spec k k') as [->|M]; [exact N|].
    simpl. constructor; [|exact (IH B)]. intros I. apply in_keys in I.
    rewrite dget_set_other in I by congruence. apply in_keys in I. exact (A I).
Qed.
Lemma pydict_fillsub defs : forall d, pydict d -> pydict (fillsub defs d).
Proof.
  unfold fillsub. induction defs as [|[k v] defs IH]; intros d N; [exact N|]. simpl. apply IH.
  destruct (dget k d); [exact N|]. apply pydict_dset. exact N.
Qed.
Fixpoint falses (d : dict scalar) : nat :=
  match d with [] => O | (_, SBool false) :: r => S (falses r) | _ :: r => falses r end.
Lemma etaloop_get es : NoDup (map fst es) -> forall d n d' n', etaloop es d n = Ok (d', n') ->
  n' = (n + falses es)%nat /\
  (forall k, match dget k es with
             | Some (SBool false) => exists v, dget k default_etaprop = Some v /\ dget k d' = Some v
             | _ => dget k d' = dget k d
             end).
Proof.
  induction es as [|[k0 v0] es IH]; intros N d n d' n' H.
  - simpl in H. injection H as <- <-. split; [simpl; lia|]. reflexivity.
  - inversion N as [|? ? A B]; subst. cbn [etaloop] in H.
    assert (A' : dget k0 es = None) by (apply dget_unbound; exact A).
    destruct v0 as [[]|x].
    + destruct (IH B _ _ _ _ H) as [E1 E2]. split; [exact E1|]. intros k. simpl.
      destruct (String.eqb_spec k k0) as [->|M]; [|apply E2]. specialize (E2 k0). rewrite A' in E2. exact E2.
    + apply rbind_ok in H as (v & E & H). apply dindex_ok in E.
      destruct (IH B _ _ _ _ H) as [E1 E2]. split; [simpl; lia|]. intros k. simpl.
      specialize (E2 k). destruct (String.eqb_spec k k0) as [->|M].
      * rewrite A', dget_set_same in E2. eauto.
      * rewrite dget_set_other in E2 by exact M. exact E2.
    + destruct (IH B _ _ _ _ H) as [E1 E2]. split; [exact E1|]. intros k. simpl.
      destruct (String.eqb_spec k k0) as [->|M]; [|apply E2]. specialize (E2 k0). rewrite A' in E2. exact E2.
Qed.
Lemma etaloop_total es : forall d n, (forall k, In (k, SBool false) es -> In k (names eta_entries)) ->
  exists r, etaloop es d n = Ok r.
Proof.
  induction es as [|[k v] es IH]; intros d n H; [eexists; reflexivity|]. cbn [etaloop].
  assert (H' : forall k, In (k, SBool false) es -> In k (names eta_entries)) by (intros; apply H; right; assumption).
  destruct v as [[]|x]; [apply IH; exact H'| |apply IH; exact H'].
  assert (exists v, dindex default_etaprop k = Ok v) as [v ->].
  { specialize (H k (or_introl eq_refl)). simpl in H.
    destruct H as [<-|[<-|[<-|[<-|[<-|[]]]]]]; eexists; reflexivity. }
  apply IH. exact H'.
Qed.
Lemma etaloop_keyerror es : forall d n k, NoDup (map fst es) -> In (k, SBool false) es -> ~ In k (names eta_entries) ->
  etaloop es d n = Err KeyError.
Proof.
  induction es as [|[k0 v0] es IH]; intros d n k N I X; [destruct I|].
  inversion N as [|? ? A B]; subst. cbn [etaloop].
  assert (U : forall k, ~ In k (names eta_entries) -> dindex default_etaprop k = Err KeyError).
  { intros u Hu. unfold dindex. replace (dget u default_etaprop) with (@None scalar); [reflexivity|].
    symmetry. apply dget_unbound. exact Hu. }
  destruct I as [I|I].
  - injection I as -> ->. rewrite (U k X). reflexivity.
  - destruct v0 as [[]|x].
    + eapply IH; eassumption.
    + destruct (in_dec string_dec k0 (names eta_entries)) as [J|J].
      * unfold dindex. destruct (dget k0 default_etaprop); [|reflexivity]. cbn [rbind]. eapply IH; eassumption.
      * rewrite (U k0 J). reflexivity.
    + eapply IH; eassumption.
Qed.
Lemma etas_get p r : etas p = Ok r -> exists e e', dget "etaprop" p = Some (PDict e) /\
  etaloop e e 0 = Ok (e', snd r) /\ fst r = dset "etaprop" (PDict e') p.
Proof.
  unfold etas. intros H. apply rbind_ok in H as (e & E & H). apply dindex_ok in E.
  destruct e as [s|l|d]; try discriminate.
  apply rbind_ok in H as ([x1 x2] & E1 & H). injection H as <-. simpl. eauto.
Qed.

Lemma toparam_scal s q : toparam (PScal s) = Ok q -> stored (PScal s) q.
Proof. destruct s as [[]|x]; simpl; intros H; injection H as <-; constructor. Qed.
Lemma subattr_get d key k q : subattr_of d key k = Ok q ->
  exists e s, dget key d = Some (PDict e) /\ dget k e = Some s /\ toparam (PScal s) = Ok q.
Proof.
  unfold subattr_of. intros H. apply rbind_ok in H as (v & A & B). apply dindex_ok in A.
  destruct v as [s|l|e]; try discriminate. apply rbind_ok in B as (s & E & B). apply dindex_ok in E. eauto 6.
Qed.
Lemma average_dict defs d d' k e : NoDup (map fst defs) -> average defs d = Ok d' -> dget k d' = Some (PDict e) ->
  dget k d = Some (PDict e).
Proof.
  intros N A G. pose proof (average_get defs N d d' A k) as Y.
  destruct (in_dec string_dec k (map fst defs)); [|congruence].
  destruct Y as (v & w & V & W & Av). rewrite G in W. injection W as <-.
  destruct v; simpl in Av; try congruence. destruct Av as (m & _ & E). discriminate.
Qed.

Lemma construct_subvalues b d p atm prop c : construct b d p atm prop = Ok c ->
  (forall k g r, In (k, g, r) fraction_entries -> subholds d "weightfractions" k r (g (obj c)) /\
     (forall e, binds d "weightfractions" (PDict e) -> binds e k (SBool false) -> g (obj c) = None)) /\
  (forall k g r, In (k, g, r) eta_entries -> subholds p "etaprop" k r (g (obj c)) /\
     (forall e, binds p "etaprop" (PDict e) -> pydict e -> binds e k (SBool false) -> g (obj c) = default_param r)).
Proof.
  intros H. apply construct_inv in H as (b1&d0&p0&d1&d2&tf&p1&n&b'&d'&p'&o&H1&H2&H3&H4&H5&H6&H7&H8&H9&H10&->).
  cbn [obj]. destruct (attributes_ok _ _ _ _ _ _ H10) as (_ & _ & _ & _ & Af & Ae & _).
  split; intros k g r I.
  - specialize (Af k g r I). apply subattr_get in Af as (e & s & G & Gs & T).
    apply (average_dict _ _ _ _ _ nodup_design H8) in G.
    change d2 with (fst (d2, tf)) in G. rewrite (taper_other _ _ "weightfractions" H5 ltac:(discriminate)) in G.
    rewrite (sweeps_other _ _ "weightfractions" H4 ltac:(simpl; intuition discriminate)) in G.
    pose proof (populate_get _ nodup_design d d0 H2 "weightfractions") as X. rewrite G in X.
    cbn [dget default_design String.eqb Ascii.eqb Bool.eqb] in X.
    destruct X as (v & F & V). injection V as <-.
    assert (Df : forall e0, dget k [("climb", SNum #1); ("cruise", SNum #1); ("servceil", SNum #1); ("turn", SNum #1)] = Some e0 ->
               r = Some 1 /\ e0 = SNum #1).
    { simpl in I. destruct I as [I|[I|[I|[I|[]]]]]; injection I as <- <- <-; simpl; intros e0 E; injection E as <-; auto. }
    assert (Fe : forall e0, dget "weightfractions" d = Some (PDict e0) ->
               e = fillsub [("climb", SNum #1); ("cruise", SNum #1); ("servceil", SNum #1); ("turn", SNum #1)] e0).
    { intros e0 E. rewrite E in F. injection F as <-. reflexivity. }
    assert (ND : NoDup (map fst [("climb", SNum #1); ("cruise", SNum #1); ("servceil", SNum #1); ("turn", SNum #1)])) by nodup.
    split; [split|].
    + intros U. apply dget_unbound in U. rewrite U in F. injection F as <-. destruct (Df _ Gs) as [-> ->].
      injection T as <-. reflexivity.
    + intros e0 B _. apply dget_binds in B. rewrite (Fe e0 B) in Gs. rewrite (fillsub_get _ ND) in Gs. split.
      * intros U. apply dget_unbound in U. rewrite U in Gs. destruct (Df _ Gs) as [-> ->]. injection T as <-. reflexivity.
      * intros s0 B0 _. apply dget_binds in B0. rewrite B0 in Gs. injection Gs as <-. apply toparam_scal. exact T.
    + intros e0 B B0. apply dget_binds in B, B0. rewrite (Fe e0 B) in Gs. rewrite (fillsub_get _ ND), B0 in Gs.
      injection Gs as <-. injection T as <-. reflexivity.
  - specialize (Ae k g r I). apply subattr_get in Ae as (e & s & G & Gs & T).
    apply (average_dict _ _ _ _ _ nodup_performance H9) in G.
    destruct (etas_get _ _ H6) as (f & f' & G1 & L & E). cbn [fst snd] in L, E. subst p1.
    rewrite dget_set_same in G. injection G as <-.
    pose proof (populate_get _ nodup_performance p p0 H3 "etaprop") as X. rewrite G1 in X.
    cbn [dget default_performance String.eqb Ascii.eqb Bool.eqb] in X.
    destruct X as (v & F & V). injection V as <-.
    set (ds := [("climb", SBool false); ("cruise", SBool false); ("servceil", SBool false); ("take-off", SBool false); ("turn", SBool false)]) in *.
    assert (ND : NoDup (map fst ds)) by (unfold ds; nodup).
    assert (Df : dget k ds = Some (SBool false)).
    { simpl in I. destruct I as [I|[I|[I|[I|[I|[]]]]]]; injection I as <- <- <-; reflexivity. }
    assert (De : forall s0, dget k default_etaprop = Some s0 -> toparam (PScal s0) = Ok (default_param r)).
    { simpl in I. destruct I as [I|[I|[I|[I|[I|[]]]]]]; injection I as <- <- <-; intros s0 E; injection E as <-; reflexivity. }
    assert (Lk : pydict f -> match dget k f with
             | Some (SBool false) => g o = default_param r
             | Some s0 => s = s0 | None => False end).
    { intros Nf. destruct (etaloop_get f Nf _ _ _ _ L) as [_ Q]. specialize (Q k). rewrite Gs in Q.
      destruct (dget k f) as [[[]|x]|] eqn:Ek; try congruence.
      destruct Q as (v & Q1 & Q2). injection Q2 as <-. apply De in Q1. congruence. }
    assert (Fe : forall e0, dget "etaprop" p = Some (PDict e0) -> f = fillsub ds e0).
    { intros e0 E. rewrite E in F. injection F as <-. reflexivity. }
    split; [split|].
    + intros U. apply dget_unbound in U. rewrite U in F. injection F as <-.
      specialize (Lk ND). rewrite Df in Lk. exact Lk.
    + intros e0 B Py. apply dget_binds in B. pose proof (Fe e0 B) as ->.
      specialize (Lk (pydict_fillsub ds e0 Py)). rewrite (fillsub_get _ ND) in Lk. split.
      * intros U. apply dget_unbound in U. rewrite U, Df in Lk. exact Lk.
      * intros s0 B0 N0. apply dget_binds in B0. rewrite B0 in Lk. apply toparam_scal.
        destruct s0 as [[]|x]; try congruence; subst s; exact T.
    + intros e0 B Py B0. apply dget_binds in B, B0. pose proof (Fe e0 B) as ->.
      specialize (Lk (pydict_fillsub ds e0 Py)). rewrite (fillsub_get _ ND), B0 in Lk. exact Lk.
Qed.
