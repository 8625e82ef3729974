(** The sensitivity analysis: which parameters are recorded, and their ranges. *)
From Verif Require Import Base BaseFacts UnitsModel AtmosModel AtmosSpec ConceptModel MethodsModel SensitivityModel ConceptSpec
  SensitivitySpec ConceptProofs ConceptProofs4 ConceptProofs5 ConstraintProofs SensitivityProofs.
Open Scope R_scope.

Lemma foldM_app {A B} (f : A -> B -> res A) l1 l2 a : foldM f (l1 ++ l2) a = rbind (foldM f l1 a) (foldM f l2).
Proof.
  revert a. induction l1 as [|x l1 IH]; intros a; [reflexivity|]. cbn [foldM app].
  destruct (f a x) as [b|e]; cbn [rbind]; [apply IH|reflexivity].
Qed.
Lemma foldM_map {A B C} (f : A -> B -> res A) (g : C -> B) l a : foldM f (map g l) a = foldM (fun a c => f a (g c)) l a.
Proof. revert a. induction l as [|x l IH]; intros a; [reflexivity|]. cbn [foldM map]. destruct (f a (g x)); cbn [rbind]; auto. Qed.

(** the model's helpers against the specification *)
Lemma amended_spec st i k x : amended st i k x = set_parameter st i k x.
Proof. destruct st as [[b d] p], i; reflexivity. Qed.
Lemma requirement_spec ext c ws m y req : y_function ext c ws m y = Ok req <-> requirement_of ext c ws m y req.
Proof. destruct y; reflexivity. Qed.

Section Sens.
  Variables (ext : externals) (self : constructed) (ws : val) (y : yvar).

  Definition items : list (chapter * (string * pv)) :=
    map (pair Brief) (part_of (designspace self) Brief) ++ map (pair Design) (part_of (designspace self) Design) ++
    map (pair Performance) (part_of (designspace self) Performance).
  Lemma in_items i kv : In (i, kv) items <-> In kv (part_of (designspace self) i).
  Proof.
    unfold items. rewrite !in_app_iff, !in_map_iff. split.
    - intros [(x & E & I)|[(x & E & I)|(x & E & I)]]; injection E as <- <-; exact I.
    - intros I. destruct i; eauto.
  Qed.

  Lemma sensitivity_inv s med : sensitivity ext self ws y = Ok (s, med) -> exists w ac,
    weight_n (obj self) = Some w /\
    foldM (fun st ikv => vary1 ext self (VArr (elements ws)) (w / sc_g)%num y (fst ikv) st (snd ikv)) items sens0 = Ok s /\
    rebuilt self (designstate self) = Ok ac /\ y_function ext ac (VArr (elements ws)) (w / sc_g)%num y = Ok med.
  Proof.
    unfold sensitivity, items. change (recastasnpfloatarray ws) with (elements ws). intros H. apply rbind_ok in H as (w & W & H).
    assert (weight_n (obj self) = Some w) as E by (destruct (weight_n (obj self)); cbn in W; congruence).
    destruct (designspace self) as [[b d] p]. cbv zeta in H. cbn [part_of fst snd].
    apply rbind_ok in H as (s1 & F1 & H). apply rbind_ok in H as (s2 & F2 & H). apply rbind_ok in H as (s3 & F3 & H).
    apply rbind_ok in H as (ac & A & H). apply rbind_ok in H as (m & M & H). injection H as <- <-.
    exists w, ac. split; [exact E|]. split; [|auto].
    assert (X : forall i l a, foldM (fun st ikv => vary1 ext self (VArr (elements ws)) (w / sc_g)%num y (fst ikv) st (snd ikv)) (map (pair i) l) a
      = foldM (vary1 ext self (VArr (elements ws)) (w / sc_g)%num y i) l a) by (intros; rewrite foldM_map; reflexivity).
    rewrite foldM_app, X, F1. cbn [rbind]. rewrite foldM_app, X, F2. cbn [rbind]. rewrite X. exact F3.
  Qed.

  (** the recording of [r] for parameter [k] under constraint [cn] *)
  Definition event (cn k : string) (r : list num) : Prop :=
    exists i l hi lo rh rl sel, In (cn, sel) analysed /\ In (k, PList l) (part_of (designspace self) i) /\
      pymaxn l = Ok hi /\ pyminn l = Ok lo /\
      with_parameter ext self ws y i k hi rh /\ with_parameter ext self ws y i k lo rl /\
      reqrange (sel rh) (sel rl) = Ok r /\ recorded r = true.

  Lemma record1_ok k mx mn st cn sel st' : record1 k mx mn st (cn, sel) = Ok st' -> exists r,
    reqrange (sel mx) (sel mn) = Ok r /\
    if recorded r then exists p, dget cn (primes st) = Some p /\ primes st' = dset cn (dset k r p) (primes st) /\
        (In k (colours st) /\ colours st' = colours st \/
         ~ In k (colours st) /\ (List.length (colours st) < 24)%nat /\ colours st' = (colours st ++ [k])%list)
    else st' = st.
  Proof.
    unfold record1. cbn [fst snd]. intros H. apply rbind_ok in H as (r & R & H). exists r. split; [exact R|].
    destruct (recorded r); [|congruence]. apply rbind_ok in H as (p & P & H). apply dindex_ok in P. exists p. split; [exact P|].
    cbv zeta in H. destruct (existsb (String.eqb k) (colours st)) eqn:X.
    - injection H as <-. cbn. split; [reflexivity|]. left. split; [|reflexivity].
      apply existsb_exists in X as (k' & I & E). apply String.eqb_eq in E. subst k'. exact I.
    - destruct (Nat.ltb_spec (List.length (colours st)) ncolours) as [L|L]; [|discriminate]. injection H as <-. cbn.
      split; [reflexivity|]. right. split; [|auto]. intros I. assert (existsb (String.eqb k) (colours st) = true); [|congruence].
      apply existsb_exists. exists k. split; [exact I|apply String.eqb_refl].
  Qed.

  Definition inv (st : sens) : Prop :=
    (forall cn, In cn (map fst analysed) <-> dget cn (primes st) <> None) /\
    (forall cn p, dget cn (primes st) = Some p -> forall k r, In (k, r) p -> event cn k r) /\
    NoDup (colours st) /\ (List.length (colours st) <= 24)%nat /\
    (forall cn p, dget cn (primes st) = Some p -> forall k r, In (k, r) p -> In k (colours st)).
  Definition has_key (cn k : string) (st : sens) : Prop :=
    exists p, dget cn (primes st) = Some p /\ dget k p <> None.

  Lemma inv0 : inv sens0.
  Proof.
    assert (G : forall cn p, dget cn (primes sens0) = Some p -> p = []).
    { intros cn p. cbn. repeat (destruct (String.eqb cn _); [congruence|]). discriminate. }
    split; [|split; [|split; [|split]]].
    - intros cn. change (map fst analysed) with (map fst (primes sens0)). apply in_keys.
    - intros cn p D k r I. rewrite (G cn p D) in I. destruct I.
    - constructor.
    - cbn. lia.
    - intros cn p D k r I. rewrite (G cn p D) in I. destruct I.
  Qed.

  Lemma record1_inv i k l hi lo rh rl cn sel st st' : In (cn, sel) analysed -> In (k, PList l) (part_of (designspace self) i) ->
    pymaxn l = Ok hi -> pyminn l = Ok lo -> with_parameter ext self ws y i k hi rh -> with_parameter ext self ws y i k lo rl ->
    record1 k rh rl st (cn, sel) = Ok st' -> inv st ->
    inv st' /\ (forall cn0 k0, has_key cn0 k0 st -> has_key cn0 k0 st') /\
    (forall r, reqrange (sel rh) (sel rl) = Ok r -> recorded r = true -> has_key cn k st').
  Proof.
    intros IC IK MX MN WH WL H (I1 & I2 & I3 & I4 & I5).
    destruct (record1_ok _ _ _ _ _ _ _ H) as (r & R & X). destruct (recorded r) eqn:RE.
    2:{ subst st'. split; [repeat split; auto; apply I1|]. split; [auto|]. intros r' R' RE'. rewrite R in R'. injection R' as <-. congruence. }
    destruct X as (p & P & PR & C).
    assert (EV : event cn k r) by (exists i, l, hi, lo, rh, rl, sel; auto 10).
    split; [split; [|split; [|split; [|split]]]|split].
    - intros cn0. rewrite PR, dget_set. destruct (String.eqb_spec cn0 cn) as [->|N]; [|apply I1].
      split; [discriminate|]. intros _. apply I1. congruence.
    - intros cn0 p0. rewrite PR, dget_set. destruct (String.eqb_spec cn0 cn) as [->|N]; [|apply I2].
      intros E k0 r0 I. injection E as <-. apply in_dset in I as [E|I]; [injection E as -> ->; exact EV|]. eapply I2; eassumption.
    - destruct C as [(_ & ->)|(N & _ & ->)]; [exact I3|]. rewrite <- (rev_involutive (colours st ++ [k])). apply NoDup_rev.
      rewrite rev_app_distr. cbn. constructor; [|apply NoDup_rev, I3]. rewrite <- in_rev. exact N.
    - destruct C as [(_ & ->)|(N & L & ->)]; [exact I4|]. rewrite app_length. cbn. lia.
    - assert (MC : forall z, In z (colours st) -> In z (colours st')).
      { intros z Z. destruct C as [(_ & ->)|(_ & _ & ->)]; [exact Z|apply in_or_app; left; exact Z]. }
      assert (KC : In k (colours st')).
      { destruct C as [(Z & ->)|(_ & _ & ->)]; [exact Z|apply in_or_app; right; left; reflexivity]. }
      intros cn0 p0. rewrite PR, dget_set. destruct (String.eqb_spec cn0 cn) as [->|N]; [|intros; eapply MC, I5; eassumption].
      intros E k0 r0 I. injection E as <-. apply in_dset in I as [E|I]; [injection E as -> ->; exact KC|]. eapply MC, I5; eassumption.
    - intros cn0 k0 (p0 & D0 & K0). unfold has_key. rewrite PR, dget_set. destruct (String.eqb_spec cn0 cn) as [->|N]; [|eauto].
      rewrite P in D0. injection D0 as <-. eexists. split; [reflexivity|]. rewrite dget_set. destruct (String.eqb k0 k); congruence.
    - intros r' R' _. rewrite R in R'. injection R' as <-. unfold has_key. rewrite PR, dget_set, String.eqb_refl.
      eexists. split; [reflexivity|]. rewrite dget_set_same. discriminate.
  Qed.

  Lemma vary1_inv w i kv st st' : weight_n (obj self) = Some w -> In kv (part_of (designspace self) i) ->
    vary1 ext self (VArr (elements ws)) (w / sc_g)%num y i st kv = Ok st' -> inv st ->
    inv st' /\ (forall cn0 k0, has_key cn0 k0 st -> has_key cn0 k0 st') /\
    (forall l hi lo rh rl cn sel r, snd kv = PList l -> pymaxn l = Ok hi -> pyminn l = Ok lo ->
       with_parameter ext self ws y i (fst kv) hi rh -> with_parameter ext self ws y i (fst kv) lo rl ->
       In (cn, sel) analysed -> reqrange (sel rh) (sel rl) = Ok r -> recorded r = true -> has_key cn (fst kv) st').
  Proof.
    intros W IK H HI. destruct kv as [k v]. unfold vary1 in H. cbn [fst snd] in *.
    destruct v as [sc|l|sub].
    { injection H as <-. split; [exact HI|]. split; [auto|]. intros; discriminate. }
    2:{ injection H as <-. split; [exact HI|]. split; [auto|]. intros; discriminate. }
    apply rbind_ok in H as (hi & MX & H). apply rbind_ok in H as (lo & MN & H).
    apply rbind_ok in H as (ah & AH & H). apply rbind_ok in H as (al & AL & H).
    apply rbind_ok in H as (rh & RH & H). apply rbind_ok in H as (rl & RL & H).
    assert (WH : with_parameter ext self ws y i k hi rh) by (exists w, ah; rewrite <- amended_spec, <- requirement_spec; auto).
    assert (WL : with_parameter ext self ws y i k lo rl) by (exists w, al; rewrite <- amended_spec, <- requirement_spec; auto).
    assert (G : forall cs st, (forall x, In x cs -> In x analysed) -> foldM (record1 k rh rl) cs st = Ok st' -> inv st ->
      inv st' /\ (forall cn0 k0, has_key cn0 k0 st -> has_key cn0 k0 st') /\
      (forall cn sel r, In (cn, sel) cs -> reqrange (sel rh) (sel rl) = Ok r -> recorded r = true -> has_key cn k st')).
    { clear H HI st. induction cs as [|[cn sel] cs IH]; intros st SUB H HI; cbn [foldM] in H.
      - injection H as <-. split; [exact HI|]. split; [auto|]. intros ? ? ? [].
      - apply rbind_ok in H as (st1 & H1 & H2).
        destruct (record1_inv i k l hi lo rh rl cn sel st st1 (SUB _ (or_introl eq_refl)) IK MX MN WH WL H1 HI) as (J1 & J2 & J3).
        destruct (IH st1 (fun x X => SUB x (or_intror X)) H2 J1) as (K1 & K2 & K3). split; [exact K1|]. split; [auto|].
        intros cn0 sel0 r [E|I] R RE; [injection E as <- <-; apply K2, (J3 r R RE)|exact (K3 cn0 sel0 r I R RE)]. }
    destruct (G _ st (fun x X => X) H HI) as (K1 & K2 & K3). split; [exact K1|]. split; [exact K2|].
    intros l' hi' lo' rh' rl' cn sel r E MX' MN' (w1 & a1 & W1 & A1 & Y1) (w2 & a2 & W2 & A2 & Y2) IC R RE. injection E as <-.
    rewrite <- amended_spec in A1, A2. apply requirement_spec in Y1, Y2.
    assert (hi' = hi) by congruence. assert (lo' = lo) by congruence. subst hi' lo'.
    assert (w1 = w) by congruence. assert (w2 = w) by congruence. subst w1 w2.
    assert (a1 = ah) by congruence. assert (a2 = al) by congruence. subst a1 a2.
    assert (rh' = rh) by congruence. assert (rl' = rl) by congruence. subst rh' rl'. exact (K3 cn sel r IC R RE).
  Qed.

  Lemma items_inv w its st s : weight_n (obj self) = Some w -> (forall x, In x its -> In x items) ->
    foldM (fun st ikv => vary1 ext self (VArr (elements ws)) (w / sc_g)%num y (fst ikv) st (snd ikv)) its st = Ok s -> inv st ->
    inv s /\ (forall cn0 k0, has_key cn0 k0 st -> has_key cn0 k0 s) /\
    (forall i k l hi lo rh rl cn sel r, In (i, (k, PList l)) its -> pymaxn l = Ok hi -> pyminn l = Ok lo ->
       with_parameter ext self ws y i k hi rh -> with_parameter ext self ws y i k lo rl ->
       In (cn, sel) analysed -> reqrange (sel rh) (sel rl) = Ok r -> recorded r = true -> has_key cn k s) /\
    (forall i k l, In (i, (k, PList l)) its -> exists hi lo rh rl, pymaxn l = Ok hi /\ pyminn l = Ok lo /\
       with_parameter ext self ws y i k hi rh /\ with_parameter ext self ws y i k lo rl /\
       forall cn sel, In (cn, sel) analysed -> exists r, reqrange (sel rh) (sel rl) = Ok r).
  Proof.
    intros W. revert st. induction its as [|[i kv] its IH]; intros st SUB H HI; cbn [foldM] in H.
    - injection H as <-. split; [exact HI|]. split; [auto|]. split; intros; contradiction.
    - apply rbind_ok in H as (st1 & H1 & H2). cbn [fst snd] in H1.
      assert (IK : In kv (part_of (designspace self) i)) by (apply in_items, SUB; left; reflexivity).
      destruct (vary1_inv w i kv st st1 W IK H1 HI) as (J1 & J2 & J3).
      destruct (IH st1 (fun x X => SUB x (or_intror X)) H2 J1) as (K1 & K2 & K3 & K4).
      split; [exact K1|]. split; [auto|]. split.
      + intros i0 k l hi lo rh rl cn sel r [E|I] A B C D F G R.
        * injection E as -> ->. cbn [fst snd] in J3. apply K2. eapply J3; try eassumption. reflexivity.
        * eapply K3; eassumption.
      + intros i0 k l [E|I]; [|exact (K4 i0 k l I)]. injection E as -> ->. clear - W H1. unfold vary1 in H1. cbn [fst snd] in H1.
        apply rbind_ok in H1 as (hi & MX & H). apply rbind_ok in H as (lo & MN & H).
        apply rbind_ok in H as (ah & AH & H). apply rbind_ok in H as (al & AL & H).
        apply rbind_ok in H as (rh & RH & H). apply rbind_ok in H as (rl & RL & H).
        exists hi, lo, rh, rl. split; [exact MX|]. split; [exact MN|]. rewrite amended_spec in AH, AL. apply requirement_spec in RH, RL. split; [exists w, ah; auto|]. split; [exists w, al; auto|].
        change analysed with sensitivityplots_list. revert st H. induction sensitivityplots_list as [|c cs IHc]; intros st H cn sel I; [contradiction|].
        cbn [foldM] in H. apply rbind_ok in H as (st2 & A & B). destruct I as [->|I]; [|exact (IHc _ B cn sel I)].
        destruct (record1_ok _ _ _ _ _ _ _ A) as (r & R & _). eauto.
  Qed.

  Lemma sensitivity_facts s med : sensitivity ext self ws y = Ok (s, med) ->
    inv s /\
    (forall i k l hi lo rh rl cn sel r, In (k, PList l) (part_of (designspace self) i) -> pymaxn l = Ok hi -> pyminn l = Ok lo ->
       with_parameter ext self ws y i k hi rh -> with_parameter ext self ws y i k lo rl ->
       In (cn, sel) analysed -> reqrange (sel rh) (sel rl) = Ok r -> recorded r = true -> has_key cn k s) /\
    (forall i k l, In (k, PList l) (part_of (designspace self) i) -> exists hi lo rh rl, pymaxn l = Ok hi /\ pyminn l = Ok lo /\
       with_parameter ext self ws y i k hi rh /\ with_parameter ext self ws y i k lo rl /\
       forall cn sel, In (cn, sel) analysed -> exists r, reqrange (sel rh) (sel rl) = Ok r).
  Proof.
    intros H. destruct (sensitivity_inv s med H) as (w & ac & W & F & _).
    destruct (items_inv w items sens0 s W (fun x X => X) F inv0) as (A & _ & B & C). split; [exact A|]. split.
    - intros i k l hi lo rh rl cn sel r I. apply in_items in I. eapply B; eassumption.
    - intros i k l I. apply in_items in I. eapply C; eassumption.
  Qed.

  (** a range that is recorded is nowhere zero, i.e. the two results differ everywhere *)
  Lemma recorded_differ a b r : reqrange a b = Ok r -> (recorded r = true <-> differ_everywhere a b).
  Proof.
    intros R. rewrite recorded_iff. unfold differ_everywhere. split.
    - intros (N & Z).
      destruct r as [|z r]; [congruence|]. destruct (reqrange_any _ _ _ O z R eq_refl) as (x & x' & X & X' & _).
      split; [intros E; rewrite E in X; destruct X; discriminate|]. split; [intros E; rewrite E in X'; destruct X'; discriminate|].
      intros i xa xb A1 A2 (v & -> & ->). pose proof (reqrange_at _ _ _ _ _ _ R A1 A2) as E.
      apply (Z (absn (nsub (Fin v) (Fin v)))); [destruct E as [->|E]; [left; reflexivity|apply nth_error_In in E; exact E]|]. rewrite nsub_fin. cbn. f_equal.
      replace (v - v) with 0 by lra. apply Rabs_R0.
    - intros (NA & NB & D). split.
      + intros ->. unfold reqrange in R. apply rbind_ok in R as (d & DD & R). destruct d as [d|d|d]; try discriminate.
        destruct d; [|discriminate].
        assert (B : forall la lb, la <> [] -> lb <> [] -> broadcast nsub la lb <> Ok []).
        { intros la lb LA LB. unfold broadcast. destruct la as [|u [|u2 la]], lb as [|v [|v2 lb]]; cbn; try congruence.
          destruct (Nat.eqb _ _); congruence. }
        destruct a as [x|la|la], b as [z|lb|lb]; cbn [vop2 elements] in DD, NA, NB; try discriminate;
          try (destruct la; [congruence|discriminate]); try (destruct lb; [congruence|discriminate]).
        all: destruct (broadcast nsub la lb) as [d'|] eqn:EB; [|discriminate]; cbn in DD; injection DD as ->; exact (B la lb NA NB EB).
      + intros x I ->. apply In_nth_error in I as (i & I). destruct (reqrange_any _ _ _ _ _ R I) as (xa & xb & A1 & A2 & E).
        apply (D i xa xb A1 A2). destruct xa as [p|], xb as [q|]; try discriminate. rewrite nsub_fin in E. cbn in E. injection E as E.
        exists p. split; [reflexivity|]. f_equal. symmetry in E. apply Rabs_eq_0 in E || (destruct (Req_dec (p - q) 0) as [|NE]; [|apply Rabs_no_R0 in NE; congruence]). lra.
  Qed.

  (** ** The claims *)
  Lemma reported_iff s med cn sel k : sensitivity ext self ws y = Ok (s, med) -> numeric_space self -> In (cn, sel) analysed ->
    ((exists r, reported s cn k r) <-> exists a b, varies ext self ws y k sel a b /\ differ_everywhere a b).
  Proof.
    intros H NS IC. destruct (sensitivity_facts s med H) as ((I1 & I2 & _) & F1 & F2).
    assert (UN : forall sel', In (cn, sel') analysed -> sel' = sel).
    { intros sel' J. cbn in IC, J.
      repeat match goal with A : _ \/ _ |- _ => destruct A end; try contradiction; congruence. }
    split.
    - intros (r & prime & B & I). apply dget_binds in B.
      destruct (I2 cn prime B k r I) as (i & l & hi & lo & rh & rl & sel' & C1 & C2 & C3 & C4 & C5 & C6 & C7 & C8).
      pose proof (UN sel' C1). subst sel'. exists (sel rh), (sel rl). split; [|apply (recorded_differ _ _ _ C7), C8].
      destruct (NS i k l C2) as (rs & ->). exists i, (map Fin rs), hi, lo, rh, rl.
      split; [exact C2|]. split; [apply pymaxn_largest, C3|]. split; [apply pyminn_smallest, C4|]. auto.
    - intros (a & b & (i & l & hi & lo & rh & rl & C1 & C2 & C3 & C4 & C5 & -> & ->) & D).
      destruct (F2 i k l C1) as (hi' & lo' & rh' & rl' & M1 & M2 & W1 & W2 & RR).
      destruct (NS i k l C1) as (rs & ->).
      assert (hi' = hi) as -> by (eapply largest_unique; [apply pymaxn_largest, M1|exact C2]).
      assert (lo' = lo) as -> by (eapply smallest_unique; [apply pyminn_smallest, M2|exact C3]).
      assert (rh' = rh) as ->.
      { destruct W1 as (w1 & a1 & W1 & A1 & Y1), C4 as (w2 & a2 & W2' & A2 & Y2). apply requirement_spec in Y1, Y2. congruence. }
      assert (rl' = rl) as ->.
      { destruct W2 as (w1 & a1 & W2 & A1 & Y1), C5 as (w2 & a2 & W2' & A2 & Y2). apply requirement_spec in Y1, Y2. congruence. }
      destruct (RR cn sel IC) as (r & R). pose proof (proj2 (recorded_differ _ _ _ R) D) as RE.
      destruct (F1 i k _ hi lo rh rl cn sel r C1 M1 M2 C4 C5 IC R RE) as (p & P & K).
      destruct (dget k p) as [r'|] eqn:E; [|congruence]. exists r', p. split; [apply dget_binds, P|].
      apply dget_binds in E as (l1 & l2 & -> & _). apply in_or_app. right. left. reflexivity.
  Qed.

  Lemma reported_ranges s med cn k r : sensitivity ext self ws y = Ok (s, med) -> numeric_space self -> reported s cn k r ->
    (exists sel a b, In (cn, sel) analysed /\ varies ext self ws y k sel a b /\ distances a b r) /\
    forall i x, at_loading i r (Fin x) -> 0 < x.
  Proof.
    intros H NS (prime & B & I). destruct (sensitivity_facts s med H) as ((I1 & I2 & _) & F1 & F2). apply dget_binds in B.
    destruct (I2 cn prime B k r I) as (i & l & hi & lo & rh & rl & sel & C1 & C2 & C3 & C4 & C5 & C6 & C7 & C8). split.
    - exists sel, (sel rh), (sel rl). split; [exact C1|]. split; [|apply reqrange_distances, C7].
      destruct (NS i k l C2) as (rs & ->). exists i, (map Fin rs), hi, lo, rh, rl.
      split; [exact C2|]. split; [apply pymaxn_largest, C3|]. split; [apply pyminn_smallest, C4|]. auto.
    - intros j x A. apply recorded_iff in C8 as (N & Z).
      assert (J : exists j', nth_error r j' = Some (Fin x)) by (destruct A as [->|A]; [exists O; reflexivity|eauto]).
      destruct J as (j' & J). pose proof (Z _ (nth_error_In _ _ J)) as NZ.
      destruct (reqrange_any _ _ _ _ _ C7 J) as (xa & xb & _ & _ & E). destruct xa as [p|], xb as [q|]; try discriminate.
      rewrite nsub_fin in E. cbn in E. injection E as ->. pose proof (Rabs_pos (p - q)).
      destruct (Req_dec (Rabs (p - q)) 0); [congruence|lra].
  Qed.

  Lemma at_most_24 s med ks : sensitivity ext self ws y = Ok (s, med) -> NoDup ks ->
    (forall k, In k ks -> exists cn r, reported s cn k r) -> (List.length ks <= 24)%nat.
  Proof.
    intros H ND R. destruct (sensitivity_facts s med H) as ((_ & _ & I3 & I4 & I5) & _).
    eapply Nat.le_trans; [|exact I4]. apply NoDup_incl_length; [exact ND|]. intros k I.
    destruct (R k I) as (cn & r & prime & B & J). apply dget_binds in B. eapply I5; eassumption.
  Qed.

  (** shares of an analysis *)
  Lemma analysis_shares s med cn prime n out i : sensitivity ext self ws y = Ok (s, med) ->
    numeric_space self -> binds (primes s) cn prime -> prime <> [] -> shares n prime = Ok out -> (i < n)%nat ->
    (forall k r, In (k, r) prime -> exists x, at_loading i r (Fin x)) ->
    map fst out = map fst prime /\ exists total qs, 0 < total /\
    Forall2 (fun kq q => nth_error (snd kq) i = Some (Fin q)) out qs /\
    Forall2 (fun kr q => exists x, at_loading i (snd kr) (Fin x) /\ x = q * total) prime qs /\
    Forall (fun q => 0 < q <= 1) qs /\ fold_right Rplus 0 qs = 1.
  Proof.
    intros H NS B N S I D. apply (shares_sum n prime out i S N I). intros k r J. destruct (D k r J) as (x & X). exists x.
    split; [exact X|]. refine (proj2 (reported_ranges s med cn k r H NS _) i x X). exists prime. auto.
  Qed.
End Sens.
