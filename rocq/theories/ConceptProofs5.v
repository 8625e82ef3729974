(** Proofs about AircraftConcept.__init__: totality and repeated construction. *)
From Verif Require Import Base BaseFacts AtmosModel ConceptModel ConceptSpec ConceptProofs ConceptProofs2 ConceptProofs3 ConceptProofs4.
Open Scope R_scope.
Open Scope string_scope.

(** ** Keys *)
Ltac inkey := first [left; reflexivity | right; inkey].
Lemma brief_keys k : In k (names brief_entries) -> In k (map fst default_brief).
Proof. intros I. cbn in I. repeat (destruct I as [<-|I]; [cbn; inkey|]). contradiction. Qed.
Lemma brief_keys' k : In k (map fst default_brief) -> In k (names brief_entries).
Proof. intros I. cbn in I. repeat (destruct I as [<-|I]; [cbn; inkey|]). contradiction. Qed.
Lemma design_keys k : In k (names design_entries ++ map fst shape_entries) ->
  In k (map fst default_design) /\ k <> "weightfractions".
Proof. intros I. cbn in I. repeat (destruct I as [<-|I]; [split; [cbn; inkey|discriminate]|]). contradiction. Qed.
Lemma design_keys' k : In k (map fst default_design) -> k <> "weightfractions" ->
  In k (names design_entries ++ map fst shape_entries).
Proof. intros I N. cbn in I. repeat (destruct I as [<-|I]; [first [congruence | cbn; inkey]|]). contradiction. Qed.
Lemma performance_keys k : In k (names performance_entries) -> In k (map fst default_performance) /\ k <> "etaprop".
Proof. intros I. cbn in I. repeat (destruct I as [<-|I]; [split; [cbn; inkey|discriminate]|]). contradiction. Qed.
Lemma performance_keys' k : In k (map fst default_performance) -> k <> "etaprop" -> In k (names performance_entries).
Proof. intros I N. cbn in I. repeat (destruct I as [<-|I]; [first [congruence | cbn; inkey]|]). contradiction. Qed.

(** ** Totality *)
Definition usable (v : pv) : Prop := match v with PScal _ => True | PList l => l <> [] | PDict _ => False end.
Lemma finite_usable v : finite_value v -> usable v.
Proof.
  destruct v as [[]|l|]; simpl; try tauto. intros (rs & N & ->). destruct rs; [congruence|discriminate].
Qed.
Lemma populate_usable defs d d0 k dv : NoDup (map fst defs) -> populate defs d = Ok d0 -> dget k defs = Some dv ->
  usable dv -> (forall v, binds d k v -> usable v) ->
  exists v, dget k d0 = Some v /\ usable v /\ (v = dv \/ binds d k v).
Proof.
  intros N P D U H. pose proof (populate_get defs N d d0 P k) as X. rewrite D in X. destruct X as (v & F & V).
  exists v. split; [exact V|]. destruct (dget k d) as [u|] eqn:E.
  - apply dget_binds in E. pose proof (H u E) as Hu. destruct u; simpl in F, Hu; try contradiction;
      injection F as <-; auto.
  - simpl in F. injection F as <-. auto.
Qed.
Lemma usable_mean v : usable v ->
  exists a, (match v with PList l => mean l | PScal x => Ok (snum x) | PDict _ => Err TypeError end) = Ok a.
Proof.
  destruct v as [s|l|e]; simpl; intros U; [eauto| |contradiction].
  destruct l; [congruence|]. eexists. reflexivity.
Qed.
Lemma attr_usable defs d d' k : NoDup (map fst defs) -> average defs d = Ok d' -> In k (map fst defs) ->
  (exists v, dget k d = Some v /\ usable v) -> exists q, attr_of d' k = Ok q.
Proof.
  intros N A I (v & G & U). pose proof (average_get defs N d d' A k) as Y.
  destruct (in_dec string_dec k (map fst defs)); [|contradiction].
  destruct Y as (v' & w & V' & W & Av). rewrite G in V'. injection V' as <-.
  unfold attr_of, dindex. rewrite W. cbn [rbind].
  destruct v as [s|l|e]; simpl in Av; [subst w|destruct Av as (m & _ & ->)|destruct U].
  - destruct s as [[]|x]; eexists; reflexivity.
  - eexists. reflexivity.
Qed.
Lemma in_dset {V} k (v : V) d x : In x (dset k v d) -> x = (k, v) \/ In x d.
Proof.
  induction d as [|[k' w] d IH]; simpl.
  - intros [H|[]]. left. auto.
  - destruct (String.eqb_spec k k') as [->|N]; simpl; intros [H|H]; auto. destruct (IH H); auto.
Qed.
Lemma in_fillsub defs : forall d x, In x (fillsub defs d) -> In x d \/ In x defs.
Proof.
  unfold fillsub. induction defs as [|[k v] defs IH]; intros d x H; [auto|]. simpl in H.
  apply IH in H as [H|H]; [|simpl; auto].
  destruct (dget k d); [auto|]. apply in_dset in H as [->|H]; simpl; auto.
Qed.
Lemma sweeps_total d le0 mt0 s0 : dget "sweep_le_deg" d = Some le0 -> dget "sweep_mt_deg" d = Some mt0 ->
  dget "sweep_25_deg" d = Some s0 ->
  (isFalse s0 = true -> exists a b, le0 = PScal a /\ mt0 = PScal b) -> exists d', sweeps d = Ok d'.
Proof.
  intros A B C H. unfold sweeps, dindex. rewrite A. cbn [rbind].
  set (dle := if isFalse le0 then dset "sweep_le_deg" (pnum 0) d else d).
  assert (E1 : dget "sweep_le_deg" dle = Some (if isFalse le0 then pnum 0 else le0)).
  { unfold dle. destruct (isFalse le0); [apply dget_set_same|exact A]. }
  assert (E2 : dget "sweep_mt_deg" dle = Some mt0).
  { unfold dle. destruct (isFalse le0); [rewrite dget_set_other by discriminate|]; exact B. }
  assert (E3 : dget "sweep_25_deg" dle = Some s0).
  { unfold dle. destruct (isFalse le0); [rewrite dget_set_other by discriminate|]; exact C. }
  rewrite E1. cbn [rbind]. rewrite E2. cbn [rbind].
  set (le := if isFalse le0 then pnum 0 else le0) in *.
  set (dmt := if isFalse mt0 then dset "sweep_mt_deg" le dle else dle).
  assert (E4 : dget "sweep_mt_deg" dmt = Some (if isFalse mt0 then le else mt0)).
  { unfold dmt. destruct (isFalse mt0); [apply dget_set_same|exact E2]. }
  assert (E5 : dget "sweep_25_deg" dmt = Some s0).
  { unfold dmt. destruct (isFalse mt0); [rewrite dget_set_other by discriminate|]; exact E3. }
  rewrite E4. cbn [rbind]. rewrite E5. cbn [rbind].
  destruct (isFalse s0); [|eexists; reflexivity].
  destruct (H eq_refl) as (a & b & -> & ->).
  assert (exists x, le = PScal x) as [x ->] by (unfold le; destruct (isFalse (PScal a)); eexists; reflexivity).
  assert (exists y, (if isFalse (PScal b) then PScal x else PScal b) = PScal y) as [y ->]
    by (destruct (isFalse (PScal b)); eexists; reflexivity).
  eexists. reflexivity.
Qed.

Lemma construct_total b d p atm prop : wellformed b d p -> exists c, construct b d p atm prop = Ok c.
Proof.
  intros (Wb & Wd & Wp & Wf & We & Ws).
  assert (Ub : forall k dv, dget k default_brief = Some dv -> usable dv /\ forall v, binds b k v -> usable v).
  { intros k dv D. assert (I : In k (map fst default_brief)) by (apply in_keys; congruence). split.
    - simpl in I. repeat (destruct I as [<-|I]; [injection D as <-; exact Logic.I|]). contradiction.
    - intros v B. apply finite_usable, (Wb k v); [|exact B]. apply brief_keys'. exact I. }
  assert (Ud : forall k dv, dget k default_design = Some dv -> k <> "weightfractions" -> usable dv /\ forall v, binds d k v -> usable v).
  { intros k dv D N. assert (I : In k (map fst default_design)) by (apply in_keys; congruence). split.
    - simpl in I. repeat (destruct I as [<-|I]; [first [congruence | injection D as <-; exact Logic.I]|]). contradiction.
    - intros v B. apply finite_usable, (Wd k v); [|exact B]. apply design_keys'; assumption. }
  assert (Up : forall k dv, dget k default_performance = Some dv -> k <> "etaprop" -> usable dv /\ forall v, binds p k v -> usable v).
  { intros k dv D N. assert (I : In k (map fst default_performance)) by (apply in_keys; congruence). split.
    - simpl in I. repeat (destruct I as [<-|I]; [first [congruence | injection D as <-; exact Logic.I]|]). contradiction.
    - intros v B. apply finite_usable, (Wp k v); [|exact B]. apply performance_keys'; assumption. }
  destruct (populate_total default_brief nodup_brief b) as [b1 H1].
  { intros k dv s D G. apply dget_binds in G. destruct (Ub k dv D) as [_ Q]. destruct (Q _ G). }
  destruct (populate_total default_design nodup_design d) as [d0 H2].
  { intros k dv s D G. destruct (string_dec k "weightfractions") as [->|N].
    - simpl in D. injection D as <-. eexists. reflexivity.
    - apply dget_binds in G. destruct (Ud k dv D N) as [_ Q]. destruct (Q _ G). }
  destruct (populate_total default_performance nodup_performance p) as [p0 H3].
  { intros k dv s D G. destruct (string_dec k "etaprop") as [->|N].
    - simpl in D. injection D as <-. eexists. reflexivity.
    - apply dget_binds in G. destruct (Up k dv D N) as [_ Q]. destruct (Q _ G). }
  assert (Gd : forall k dv, dget k default_design = Some dv -> k <> "weightfractions" ->
     exists v, dget k d0 = Some v /\ usable v /\ (v = dv \/ binds d k v)).
  { intros k dv D N. destruct (Ud k dv D N). eapply populate_usable; eauto using nodup_design. }
  destruct (Gd "sweep_le_deg" _ eq_refl ltac:(discriminate)) as (le0 & A1 & A2 & A3).
  destruct (Gd "sweep_mt_deg" _ eq_refl ltac:(discriminate)) as (mt0 & B1 & B2 & B3).
  destruct (Gd "sweep_25_deg" _ eq_refl ltac:(discriminate)) as (s0 & C1 & C2 & C3).
  destruct (sweeps_total d0 le0 mt0 s0 A1 B1 C1) as [d1 H4].
  { intros F. assert (Q : forall k l, In k ["sweep_le_deg"; "sweep_mt_deg"] -> ~ binds d k (PList l)).
    { apply Ws. intros v Bv. destruct C3 as [->|C3].
      - assert (X : dget "sweep_25_deg" d0 = Some v).
        { pose proof (populate_get _ nodup_design d d0 H2 "sweep_25_deg") as X. simpl in X. destruct X as (u & Fu & Gu).
          apply dget_binds in Bv. rewrite Bv in Fu.
          assert (finite_value v) by (apply (Wd "sweep_25_deg"); [simpl; tauto|apply dget_binds; exact Bv]).
          destruct v; simpl in Fu, H; congruence. }
        rewrite C1 in X. injection X as <-. reflexivity.
      - apply dget_binds in Bv, C3. rewrite Bv in C3. injection C3 as ->.
        destruct s0 as [[[]|]| |]; simpl in F; congruence. }
    assert (exists a, le0 = PScal a) as [a ->].
    { destruct le0 as [a|l|e]; [eauto| |destruct A2]. destruct A3 as [A3|A3]; [discriminate|].
      exfalso. exact (Q "sweep_le_deg" l ltac:(simpl; tauto) A3). }
    assert (exists a, mt0 = PScal a) as [a' ->].
    { destruct mt0 as [a'|l|e]; [eauto| |destruct B2]. destruct B3 as [B3|B3]; [discriminate|].
      exfalso. exact (Q "sweep_mt_deg" l ltac:(simpl; tauto) B3). }
    eauto. }
  destruct (sweeps_get _ _ H4) as (le0' & mt0' & s0' & le & mt & s & G1 & G2 & G3 & R1 & R2 & R3 & G4 & G5 & G6).
  rewrite A1 in G1. rewrite B1 in G2. rewrite C1 in G3. injection G1 as <-. injection G2 as <-. injection G3 as <-.
  assert (Ule : usable le) by (subst le; destruct (isFalse le0); [exact Logic.I|exact A2]).
  assert (Umt : usable mt) by (subst mt; destruct (isFalse mt0); [exact Ule|exact B2]).
  assert (Us : usable s).
  { destruct (isFalse s0); [|subst s; exact C2]. destruct R3 as (x & y0 & y & M1 & M2 & M3 & M4).
    destruct y0 as [t|l|e]; try discriminate. injection M3 as <-.
    destruct x as [u|l|e]; try discriminate. injection M4 as <-. exact Logic.I. }
  assert (Gd1 : forall k dv, dget k default_design = Some dv -> k <> "weightfractions" ->
     exists v, dget k d1 = Some v /\ usable v).
  { intros k dv D N.
    destruct (in_dec string_dec k ["sweep_le_deg"; "sweep_mt_deg"; "sweep_25_deg"]) as [I|I].
    - destruct I as [<-|[<-|[<-|[]]]]; eauto.
    - rewrite (sweeps_other _ _ k H4 I). destruct (Gd k dv D N) as (v & X & Y & _). eauto. }
  assert (exists dt, taper d1 = Ok dt) as [[d2 tf] H5].
  { unfold taper, dindex. destruct (Gd1 "roottaperratio" _ eq_refl ltac:(discriminate)) as (t & T1 & _).
    rewrite T1. cbn [rbind]. destruct (isFalse t); [|eexists; reflexivity].
    rewrite G6. cbn [rbind]. destruct (usable_mean s Us) as [a E]. rewrite E. cbn [rbind]. eexists. reflexivity. }
  assert (Gd2 : forall k dv, dget k default_design = Some dv -> k <> "weightfractions" ->
     exists v, dget k d2 = Some v /\ usable v).
  { intros k dv D N. destruct (string_dec k "roottaperratio") as [->|M].
    - destruct (taper_get _ _ H5) as (t0 & t & K1 & K2 & R4). cbn [fst snd] in K2, R4. exists t. split; [exact K2|].
      destruct (isFalse t0); [destruct R4 as (_ & ? & ? & _ & _ & ->); exact Logic.I|].
      destruct R4 as (_ & -> & _). destruct (Gd1 "roottaperratio" _ eq_refl ltac:(discriminate)) as (t' & T1 & T2). congruence.
    - destruct (Gd1 k dv D N) as (v & X & Y). exists v. split; [|exact Y].
      rewrite <- X. exact (taper_other _ _ k H5 M). }
  assert (Wf0 : exists e, dget "weightfractions" d2 = Some (PDict e) /\
     forall k, In k (names fraction_entries) -> exists q, dget k e = Some q).
  { change d2 with (fst (d2, tf)). rewrite (taper_other _ _ "weightfractions" H5 ltac:(discriminate)).
    rewrite (sweeps_other _ _ "weightfractions" H4 ltac:(simpl; intuition discriminate)).
    pose proof (populate_get _ nodup_design d d0 H2 "weightfractions") as X.
    cbn [dget default_design String.eqb Ascii.eqb Bool.eqb] in X. destruct X as (v & F & V).
    assert (K : forall k, In k (names fraction_entries) -> exists q, dget k
      [("climb", SNum #1); ("cruise", SNum #1); ("servceil", SNum #1); ("turn", SNum #1)] = Some q).
    { simpl. intros k [<-|[<-|[<-|[<-|[]]]]]; eexists; reflexivity. }
    destruct (dget "weightfractions" d) as [u|] eqn:E.
    - apply dget_binds in E. destruct (Wf u E) as [e ->].
      assert (v = PDict (fillsub [("climb", SNum #1); ("cruise", SNum #1); ("servceil", SNum #1); ("turn", SNum #1)] e)) as ->
        by (unfold filled in F; congruence). eexists. split; [exact V|].
      intros k I.
      rewrite (fillsub_get [("climb", SNum #1); ("cruise", SNum #1); ("servceil", SNum #1); ("turn", SNum #1)]) by nodup.
      destruct (dget k e); eauto.
    - simpl in F. injection F as <-. eexists. split; [exact V|exact K]. }
  set (ds := [("climb", SBool false); ("cruise", SBool false); ("servceil", SBool false); ("take-off", SBool false); ("turn", SBool false)]).
  assert (We0 : exists e, dget "etaprop" p0 = Some (PDict e) /\
     (forall k, In (k, SBool false) e -> In k (names eta_entries)) /\
     forall k, In k (names eta_entries) -> dget k e <> None).
  { pose proof (populate_get _ nodup_performance p p0 H3 "etaprop") as X.
    cbn [dget default_performance String.eqb Ascii.eqb Bool.eqb] in X. destruct X as (v & F & V).
    assert (K : forall k, In k (names eta_entries) -> dget k ds <> None).
    { simpl. intros k [<-|[<-|[<-|[<-|[<-|[]]]]]]; discriminate. }
    assert (K' : forall k, In (k, SBool false) ds -> In k (names eta_entries)).
    { intros k I. cbn in I. repeat (destruct I as [I|I]; [injection I as <-; cbn; inkey|]). contradiction. }
    destruct (dget "etaprop" p) as [u|] eqn:E.
    - apply dget_binds in E. destruct (We u E) as (e & -> & Q).
      assert (v = PDict (fillsub ds e)) as -> by (unfold filled in F; unfold ds; congruence).
      eexists. split; [exact V|]. split.
      + intros k I. apply in_fillsub in I as [I|I]; auto.
      + intros k I. rewrite (fillsub_get ds) by (unfold ds; nodup). destruct (dget k e); [discriminate|]. apply K. exact I.
    - unfold filled in F. injection F as <-. exists ds. auto. }
  destruct We0 as (e & Ge & Q1 & Q2). destruct (etaloop_total e e 0 Q1) as [[e' n] L].
  assert (H6 : etas p0 = Ok (dset "etaprop" (PDict e') p0, n)).
  { unfold etas, dindex. rewrite Ge. cbn [rbind]. rewrite L. reflexivity. }
  assert (Ke : forall k, In k (names eta_entries) -> exists q, dget k e' = Some q).
  { assert (Gen : forall es d1 m r, etaloop es d1 m = Ok r -> forall k, dget k d1 <> None -> dget k (fst r) <> None).
    { induction es as [|[k0 v0] es IH]; intros dd m r Hl k Hk; cbn [etaloop] in Hl; [injection Hl as <-; exact Hk|].
      destruct v0 as [[]|x]; [exact (IH _ _ _ Hl k Hk)| |exact (IH _ _ _ Hl k Hk)].
      apply rbind_ok in Hl as (v & _ & Hl). refine (IH _ _ _ Hl k _).
      rewrite dget_set. destruct (String.eqb k k0); [discriminate|exact Hk]. }
    intros k I. specialize (Gen _ _ _ _ L k (Q2 k I)). cbn [fst] in Gen. destruct (dget k e'); [eauto|congruence]. }
  set (p1 := dset "etaprop" (PDict e') p0) in *.
  assert (Gb1 : forall k dv, dget k default_brief = Some dv -> exists v, dget k b1 = Some v /\ usable v).
  { intros k dv D. destruct (Ub k dv D) as [U1 U2].
    destruct (populate_usable _ _ _ k dv nodup_brief H1 D U1 U2) as (v & X & Y & _). eauto. }
  assert (Gp1 : forall k dv, dget k default_performance = Some dv -> k <> "etaprop" -> exists v, dget k p1 = Some v /\ usable v).
  { intros k dv D N. destruct (Up k dv D N) as [U1 U2].
    destruct (populate_usable _ _ _ k dv nodup_performance H3 D U1 U2) as (v & X & Y & _). exists v.
    unfold p1. rewrite dget_set_other by exact N. auto. }
  destruct (average_total default_brief nodup_brief b1) as [b' H7].
  { intros k I. apply in_keys in I. destruct (dget k default_brief) as [dv|] eqn:D; [|congruence].
    destruct (Gb1 k dv D) as (v & X & Y). exists v. split; [exact X|]. intros l ->. exact Y. }
  destruct (average_total default_design nodup_design d2) as [d' H8].
  { intros k I. apply in_keys in I. destruct (dget k default_design) as [dv|] eqn:D; [|congruence].
    destruct (string_dec k "weightfractions") as [->|N].
    - destruct Wf0 as (f & X & _). exists (PDict f). split; [exact X|]. discriminate.
    - destruct (Gd2 k dv D N) as (v & X & Y). exists v. split; [exact X|]. intros l ->. exact Y. }
  destruct (average_total default_performance nodup_performance p1) as [p' H9].
  { intros k I. apply in_keys in I. destruct (dget k default_performance) as [dv|] eqn:D; [|congruence].
    destruct (string_dec k "etaprop") as [->|N].
    - exists (PDict e'). split; [apply dget_set_same|discriminate].
    - destruct (Gp1 k dv D N) as (v & X & Y). exists v. split; [exact X|]. intros l ->. exact Y. }
  destruct (attributes_total b' d' p' atm prop) as [o H10].
  - intros k I. apply (attr_usable default_brief b1 b' k nodup_brief H7).
    + apply brief_keys. exact I.
    + assert (J : In k (map fst default_brief)) by (apply brief_keys; exact I). apply in_keys in J.
      destruct (dget k default_brief) as [dv|] eqn:D; [|congruence]. exact (Gb1 k dv D).
  - intros k I. destruct (design_keys k I) as [J N]. apply (attr_usable default_design d2 d' k nodup_design H8 J).
    apply in_keys in J. destruct (dget k default_design) as [dv|] eqn:D; [|congruence]. exact (Gd2 k dv D N).
  - intros k I. destruct (performance_keys k I) as [J N]. apply (attr_usable default_performance p1 p' k nodup_performance H9 J).
    apply in_keys in J. destruct (dget k default_performance) as [dv|] eqn:D; [|congruence]. exact (Gp1 k dv D N).
  - intros k I. destruct Wf0 as (f & X & Y). pose proof (average_get _ nodup_design d2 d' H8 "weightfractions") as Z.
    destruct (in_dec string_dec "weightfractions" (map fst default_design)) as [J|J]; [|exfalso; apply J; cbn; inkey].
    destruct Z as (v & w & V & W & Av). rewrite X in V. injection V as <-. simpl in Av. subst w.
    destruct (Y k I) as [s1 E]. unfold subattr_of, dindex. rewrite W. cbn [rbind]. rewrite E. cbn [rbind].
    destruct s1 as [[]|x]; eexists; reflexivity.
  - intros k I. pose proof (average_get _ nodup_performance p1 p' H9 "etaprop") as Z.
    destruct (in_dec string_dec "etaprop" (map fst default_performance)) as [J|J]; [|exfalso; apply J; cbn; inkey].
    destruct Z as (v & w & V & W & Av). unfold p1 in V. rewrite dget_set_same in V. injection V as <-. simpl in Av. subst w.
    destruct (Ke k I) as [s1 E]. unfold subattr_of, dindex. rewrite W. cbn [rbind]. rewrite E. cbn [rbind].
    destruct s1 as [[]|x]; eexists; reflexivity.
  - unfold construct. rewrite H1. cbn [rbind]. rewrite H2. cbn [rbind]. rewrite H3. cbn [rbind].
    rewrite H4. cbn [rbind]. rewrite H5. cbn [rbind]. rewrite H6. cbv zeta. cbn [rbind fst snd].
    rewrite H7. cbn [rbind]. rewrite H8. cbn [rbind]. rewrite H9. cbn [rbind].
    rewrite H10. eexists. reflexivity.
Qed.
