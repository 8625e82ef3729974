(** Proofs about AircraftConcept.__init__, continued: the whole constructor. *)
From Verif Require Import Base BaseFacts AtmosModel ConceptModel ConceptSpec ConceptProofs.
Open Scope R_scope.
Open Scope string_scope.

Ltac nodup := repeat constructor; simpl; intuition discriminate.
Lemma nodup_brief : NoDup (map fst default_brief). Proof. nodup. Qed.
Lemma nodup_design : NoDup (map fst default_design). Proof. nodup. Qed.
Lemma nodup_performance : NoDup (map fst default_performance). Proof. nodup. Qed.

(** ** Attributes *)
Lemma attributes_ok b d p atm prop o : attributes b d p atm prop = Ok o ->
  (forall k g dv, In (k, g, dv) brief_entries -> attr_of b k = Ok (g o)) /\
  (forall k g dv, In (k, g, dv) design_entries -> attr_of d k = Ok (g o)) /\
  (forall k g, In (k, g) shape_entries -> attr_of d k = Ok (g o)) /\
  (forall k g dv, In (k, g, dv) performance_entries -> attr_of p k = Ok (g o)) /\
  (forall k g dv, In (k, g, dv) fraction_entries -> subattr_of d "weightfractions" k = Ok (g o)) /\
  (forall k g dv, In (k, g, dv) eta_entries -> subattr_of p "etaprop" k = Ok (g o)) /\
  designatm o = atm /\ propulsion o = prop.
Proof.
  intros H. unfold attributes in H.
  repeat match type of H with rbind _ _ = Ok _ =>
    let x := fresh "x" in let E := fresh "E" in apply rbind_ok in H; destruct H as (x & E & H) end.
  injection H as <-.
  Ltac each I := cbn [In brief_entries design_entries shape_entries performance_entries fraction_entries eta_entries] in I;
    repeat (destruct I as [I|I]; [injection I; intros; subst; cbv beta iota; match goal with E : ?x = _ |- ?x = _ => rewrite E; reflexivity end|]); contradiction.
  split; [intros k g dv I; each I|]. split; [intros k g dv I; each I|].
  split; [intros k g I; each I|]. split; [intros k g dv I; each I|].
  split; [intros k g dv I; each I|]. split; [intros k g dv I; each I|].
  split; reflexivity.
Qed.

Lemma rbind_total {A B} (x : res A) (f : A -> res B) a : x = Ok a ->
  (exists b, f a = Ok b) -> exists b, rbind x f = Ok b.
Proof. intros ->. auto. Qed.
Lemma attributes_total b d p atm prop :
  (forall k, In k (names brief_entries) -> exists q, attr_of b k = Ok q) ->
  (forall k, In k (names design_entries ++ map fst shape_entries) -> exists q, attr_of d k = Ok q) ->
  (forall k, In k (names performance_entries) -> exists q, attr_of p k = Ok q) ->
  (forall k, In k (names fraction_entries) -> exists q, subattr_of d "weightfractions" k = Ok q) ->
  (forall k, In k (names eta_entries) -> exists q, subattr_of p "etaprop" k = Ok q) ->
  exists o, attributes b d p atm prop = Ok o.
Proof.
  intros Hb Hd Hp Hf He. unfold attributes.
  Ltac go H k := let q := fresh "q" in let E := fresh "E" in
    destruct (H k ltac:(simpl; tauto)) as [q E]; apply (rbind_total _ _ q E); clear E.
  repeat match goal with
  | |- exists o, rbind (attr_of b ?k) _ = _ => go Hb k
  | |- exists o, rbind (attr_of d ?k) _ = _ => go Hd k
  | |- exists o, rbind (attr_of p ?k) _ = _ => go Hp k
  | |- exists o, rbind (subattr_of d _ ?k) _ = _ => go Hf k
  | |- exists o, rbind (subattr_of p _ ?k) _ = _ => go He k
  end.
  eexists. reflexivity.
Qed.

(** ** One plain entry *)
Definition default_value (r : option R) : pv := match r with Some x => pnum x | None => pfalse end.

Lemma stored_of u w q : finite_value u -> averaged u w -> toparam w = Ok q -> stored u q.
Proof.
  destruct u as [[b0|x]|l|s]; simpl; intros F A T.
  - subst w. destruct b0; injection T as <-; constructor.
  - subst w. injection T as <-. constructor.
  - destruct F as (rs & N & ->). destruct A as (m & E & ->). rewrite (mean_fin rs N) in E. injection E as <-.
    injection T as <-. constructor. exact N.
  - contradiction.
Qed.
Lemma plain_entry r u v w q : filled (default_value r) u = Some v -> averaged v w -> toparam w = Ok q ->
  match u with
  | None => q = default_param r
  | Some x => finite_value x -> stored x q
  end.
Proof.
  destruct u as [x|].
  - intros F A T Fin. assert (v = x) as ->.
    { destruct x; simpl in F, Fin; try congruence. contradiction. }
    eapply stored_of; eassumption.
  - intros F A T. injection F as <-. destruct r as [x|]; simpl in A; subst w; injection T as <-; reflexivity.
Qed.

Lemma default_brief_get k g r : In (k, g, r) brief_entries ->
  dget k default_brief = Some (default_value r) /\ In k (map fst default_brief).
Proof.
  intros I. cbn [In brief_entries] in I.
  repeat (destruct I as [I|I]; [injection I as <- <- <-; split; [reflexivity|simpl; tauto]|]). contradiction.
Qed.
Lemma default_design_get k g r : In (k, g, r) design_entries ->
  dget k default_design = Some (default_value r) /\ In k (map fst default_design) /\
  ~ In k (map fst shape_entries).
Proof.
  intros I. cbn [In design_entries] in I.
  repeat (destruct I as [I|I]; [injection I as <- <- <-; split; [reflexivity|split; [simpl; tauto|simpl; intuition discriminate]]|]). contradiction.
Qed.
Lemma default_performance_get k g r : In (k, g, r) performance_entries ->
  dget k default_performance = Some (default_value r) /\ In k (map fst default_performance) /\ k <> "etaprop".
Proof.
  intros I. cbn [In performance_entries] in I.
  repeat (destruct I as [I|I]; [injection I as <- <- <-; split; [reflexivity|split; [simpl; tauto|discriminate]]|]). contradiction.
Qed.

(** ** Sweeps, taper and efficiencies touch only their own entries *)
Lemma sweeps_other d d' k : sweeps d = Ok d' -> ~ In k ["sweep_le_deg"; "sweep_mt_deg"; "sweep_25_deg"] ->
  dget k d' = dget k d.
Proof.
  unfold sweeps. intros H N. simpl in N.
  assert (N1 : k <> "sweep_le_deg") by intuition congruence.
  assert (N2 : k <> "sweep_mt_deg") by intuition congruence.
  assert (N3 : k <> "sweep_25_deg") by intuition congruence.
  repeat match type of H with rbind _ _ = Ok _ =>
    let x := fresh "x" in let E := fresh "E" in apply rbind_ok in H as (x & E & H) end.
  match type of H with (if ?c then _ else _) = _ => destruct c end.
  - repeat match type of H with rbind _ _ = Ok _ =>
      let x := fresh "x" in let E := fresh "E" in apply rbind_ok in H as (x & E & H) end.
    injection H as <-. rewrite dget_set_other by exact N3.
    repeat match goal with |- context [isFalse ?v] => destruct (isFalse v) end;
      rewrite ?dget_set_other by assumption; reflexivity.
  - injection H as <-.
    repeat match goal with |- context [isFalse ?v] => destruct (isFalse v) end;
      rewrite ?dget_set_other by assumption; reflexivity.
Qed.
Lemma taper_other d r k : taper d = Ok r -> k <> "roottaperratio" -> dget k (fst r) = dget k d.
Proof.
  unfold taper. intros H N. apply rbind_ok in H as (t & E & H).
  destruct (isFalse t).
  - apply rbind_ok in H as (s & E1 & H). apply rbind_ok in H as (a & E2 & H). injection H as <-.
    apply dget_set_other. exact N.
  - injection H as <-. reflexivity.
Qed.
Lemma etas_other p r k : etas p = Ok r -> k <> "etaprop" -> dget k (fst r) = dget k p.
Proof.
  unfold etas. intros H N. apply rbind_ok in H as (e & E & H). destruct e as [s|l|d]; try discriminate.
  apply rbind_ok in H as (x & E1 & H). injection H as <-. apply dget_set_other. exact N.
Qed.

(** ** The whole constructor *)
Lemma construct_inv b d p atm prop c : construct b d p atm prop = Ok c -> exists b1 d0 p0 d1 d2 tf p1 n b' d' p' o,
  populate default_brief b = Ok b1 /\ populate default_design d = Ok d0 /\
  populate default_performance p = Ok p0 /\ sweeps d0 = Ok d1 /\ taper d1 = Ok (d2, tf) /\
  etas p0 = Ok (p1, n) /\ average default_brief b1 = Ok b' /\ average default_design d2 = Ok d' /\
  average default_performance p1 = Ok p' /\ attributes b' d' p' atm prop = Ok o /\
  c = {| obj := o; designspace := (b1, d2, p1); designstate := (b', d', p');
        taperdefaultflag := tf; etadefaultflag := n;
        callers := (after b b', after d d', after p p') |}.
Proof.
  unfold construct. intros H.
  apply rbind_ok in H as (b1 & H1 & H). apply rbind_ok in H as (d0 & H2 & H).
  apply rbind_ok in H as (p0 & H3 & H). apply rbind_ok in H as (d1 & H4 & H).
  apply rbind_ok in H as ([d2 tf] & H5 & H). apply rbind_ok in H as ([p1 n] & H6 & H).
  cbv zeta in H. cbn [fst snd] in H.
  apply rbind_ok in H as (b' & H7 & H). apply rbind_ok in H as (d' & H8 & H).
  apply rbind_ok in H as (p' & H9 & H). apply rbind_ok in H as (o & H10 & H). injection H as <-.
  exists b1, d0, p0, d1, d2, tf, p1, n, b', d', p', o. auto 15.
Qed.

Lemma attr_get d k q : attr_of d k = Ok q -> exists v, dget k d = Some v /\ toparam v = Ok q.
Proof. unfold attr_of. intros H. apply rbind_ok in H as (v & A & B). apply dindex_ok in A. eauto. Qed.

Lemma construct_values b d p atm prop c : construct b d p atm prop = Ok c ->
  (forall k g r, In (k, g, r) brief_entries -> holds b k r (g (obj c))) /\
  (forall k g r, In (k, g, r) design_entries -> holds d k r (g (obj c))) /\
  (forall k g r, In (k, g, r) performance_entries -> holds p k r (g (obj c))).
Proof.
  intros H. apply construct_inv in H as (b1&d0&p0&d1&d2&tf&p1&n&b'&d'&p'&o&H1&H2&H3&H4&H5&H6&H7&H8&H9&H10&->).
  cbn [obj]. destruct (attributes_ok _ _ _ _ _ _ H10) as (Ab & Ad & _ & Ap & _).
  assert (G : forall defs u d1 d2 k r q, NoDup (map fst defs) -> populate defs u = Ok d1 ->
     dget k defs = Some (default_value r) -> In k (map fst defs) ->
     (forall dd, average defs d2 = Ok dd -> dget k d2 = dget k d1 -> attr_of dd k = Ok q -> holds u k r q)).
  { intros defs u e1 e2 k r q N P D I dd Av O At.
    pose proof (populate_get defs N u e1 P k) as X. rewrite D in X. destruct X as (v & F & V).
    pose proof (average_get defs N e2 dd Av k) as Y.
    destruct (in_dec string_dec k (map fst defs)); [|contradiction].
    destruct Y as (v' & w & V' & W & A). rewrite O, V in V'. injection V' as <-.
    apply attr_get in At as (w' & W' & T). rewrite W in W'. injection W' as <-.
    pose proof (plain_entry r (dget k u) v w q F A T) as Z. split.
    - intros Un. apply dget_unbound in Un. rewrite Un in Z. exact Z.
    - intros x Bx Fx. apply dget_binds in Bx. rewrite Bx in Z. exact (Z Fx). }
  split; [|split]; intros k g r I.
  - destruct (default_brief_get k g r I) as [D J].
    exact (G default_brief b b1 b1 k r (g o) nodup_brief H1 D J b' H7 eq_refl (Ab k g r I)).
  - destruct (default_design_get k g r I) as (D & J & NS).
    refine (G default_design d d0 d2 k r (g o) nodup_design H2 D J d' H8 _ (Ad k g r I)).
    pose proof (taper_other _ _ k H5 ltac:(intros ->; apply NS; simpl; tauto)) as T. cbn [fst] in T. rewrite T.
    apply (sweeps_other _ _ k H4). intros [<-|[<-|[<-|[]]]]; apply NS; simpl; tauto.
  - destruct (default_performance_get k g r I) as (D & J & NS).
    refine (G default_performance p p0 p1 k r (g o) nodup_performance H3 D J p' H9 _ (Ap k g r I)).
    pose proof (etas_other _ _ k H6 NS) as T. exact T.
Qed.
