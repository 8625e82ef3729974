(** Engine data lookup: what a deck holds, dependence on names and on the listing order. *)
From Coq Require Import Permutation Ascii.
From Verif Require Import Base BaseFacts AtmosModel ConceptModel ConceptProofs PropulsionModel PropulsionSpec PropulsionProofs.
Open Scope R_scope.

Section Setup.
Variable read_csv : string -> res frame.
Variable read_text : string -> res string.
Variable parse : string -> option num.
Notation proc := (poly_process read_text parse).
Notation setup := (setup read_csv read_text parse).

(** ** What the slots hold *)
Definition holds (e : string) (outs effs listing : list string) (st : loaded) : Prop :=
  List.length (out_data st) = List.length outs /\ List.length (out_avail st) = List.length outs /\
  List.length (eta_data st) = List.length effs /\ List.length (eta_avail st) = List.length effs /\
  (forall j o, nth_error outs j = Some o -> exists d on, nth_error (out_data st) j = Some d /\ nth_error (out_avail st) j = Some on /\
     slot (serves e (dfile o)) read_csv listing d on) /\
  (forall j o, nth_error effs j = Some o -> exists d on, nth_error (eta_data st) j = Some d /\ nth_error (eta_avail st) j = Some on /\
     slot (serves e (dfile o)) read_csv listing d on) /\
  slot (fun f => exists o, In o outs /\ serves e (slfile o) f) proc listing (sl_poly st) (sl_avail st) /\
  slot (fun f => exists o, In o outs /\ serves e (tofile o) f) proc listing (to_poly st) (to_avail st).
Lemma slots_holds (ks : list string) e listing d b :
  slots read_csv (fun j f => exists o, nth_error ks j = Some o /\ occurs (dfile o) (lower f)) (List.length ks) (filter (contains e) listing) d b ->
  forall j o, nth_error ks j = Some o -> exists x on, nth_error d j = Some x /\ nth_error b j = Some on /\
     slot (serves e (dfile o)) read_csv listing x on.
Proof.
  intros (_ & _ & S) j o E. assert (L : (j < List.length ks)%nat) by (apply nth_error_Some; congruence).
  destruct (S j L) as (x & on & E1 & E2 & T). exists x, on. split; [exact E1|]. split; [exact E2|].
  apply slot_filter in T. refine (slot_ext _ _ _ _ _ _ _ T). intros f. unfold serves. rewrite <- lower_is. split.
  - intros (O & o' & E' & C). rewrite E in E'. injection E' as <-. auto.
  - intros (O & C). split; [exact O|]. exists o. auto.
Qed.
Lemma setup_holds e outs effs listing st : setup e listing outs effs = Ok st -> holds e outs effs listing st.
Proof.
  rewrite setup_eq. intros H. apply read_files_spec in H. destruct H as (A & B & C & D).
  split; [apply A|]. split; [apply A|]. split; [apply B|]. split; [apply B|].
  split; [exact (slots_holds _ _ _ _ _ A)|]. split; [exact (slots_holds _ _ _ _ _ B)|]. split.
  - apply slot_filter in C. refine (slot_ext _ _ _ _ _ _ _ C). intros f. unfold serves. rewrite <- lower_is. split; [intros (O & o & I & K)|intros (o & I & O & K)]; firstorder.
  - apply slot_filter in D. refine (slot_ext _ _ _ _ _ _ _ D). intros f. unfold serves. rewrite <- lower_is. split; [intros (O & o & I & K)|intros (o & I & O & K)]; firstorder.
Qed.

(** ** The files that serve can be read *)
Definition readable (e : string) (outs effs listing : list string) : Prop :=
  (forall f o, In f listing -> In o outs \/ In o effs -> serves e (dfile o) f -> exists a, read_csv f = Ok a) /\
  (forall f o, In f listing -> In o outs -> serves e (slfile o) f \/ serves e (tofile o) f -> exists p, proc f = Ok p).
Lemma foldM_total {S A} (f : S -> A -> res S) : forall l s, (forall s x, In x l -> exists s', f s x = Ok s') -> exists s', foldM f s l = Ok s'.
Proof.
  induction l as [|x l IH]; intros s H; [exists s; reflexivity|]. cbn. destruct (H s x (or_introl eq_refl)) as (s' & ->). cbn.
  apply IH. intros s2 y I. apply H. right. exact I.
Qed.
Lemma enumerate_in {A} (l : list A) i x : In (i, x) (enumerate l) -> In x l.
Proof. unfold enumerate. intros I. exact (in_combine_r _ _ _ _ I). Qed.
Lemma setup_total e outs effs listing : readable e outs effs listing -> exists st, setup e listing outs effs = Ok st.
Proof.
  intros (R & P). rewrite setup_eq. apply foldM_total. intros s f I. apply filter_In in I. destruct I as (I & O).
  apply contains_spec in O. unfold read_file.
  destruct (foldM_total (setup_output read_csv read_text parse f) (enumerate outs) s) as (s1 & ->).
  { intros st (i & o) J. apply enumerate_in in J. unfold setup_output. fold (dfile o) (slfile o) (tofile o).
    destruct (contains (dfile o) (lower f)) eqn:C1.
    - apply contains_spec in C1. destruct (R f o I (or_introl J) (serves_intro _ _ _ O C1)) as (a & ->). cbn [rbind].
      destruct (contains (slfile o) (lower f)) eqn:C2; [apply contains_spec in C2; destruct (P f o I J (or_introl (serves_intro _ _ _ O C2))) as (p & ->)|];
        cbn [rbind]; (destruct (contains (tofile o) (lower f)) eqn:C3; [apply contains_spec in C3; destruct (P f o I J (or_intror (serves_intro _ _ _ O C3))) as (q & Eq); rewrite ?Eq|]);
        cbn [rbind]; eexists; reflexivity.
    - cbn [rbind].
      destruct (contains (slfile o) (lower f)) eqn:C2; [apply contains_spec in C2; destruct (P f o I J (or_introl (serves_intro _ _ _ O C2))) as (p & ->)|];
        cbn [rbind]; (destruct (contains (tofile o) (lower f)) eqn:C3; [apply contains_spec in C3; destruct (P f o I J (or_intror (serves_intro _ _ _ O C3))) as (q & Eq); rewrite ?Eq|]);
        cbn [rbind]; eexists; reflexivity. }
  cbn [rbind]. apply foldM_total. intros st (i & o) J. apply enumerate_in in J. unfold setup_eta. fold (dfile o).
  destruct (contains (dfile o) (lower f)) eqn:C; [|eexists; reflexivity]. apply contains_spec in C.
  destruct (R f o I (or_intror J) (serves_intro _ _ _ O C)) as (a & ->). eexists; reflexivity.
Qed.

(** ** Uniqueness *)
Lemma slot_unique {A} (hit : string -> Prop) (read : string -> res A) l l' d d' on on' :
  Permutation l l' -> at_most_one hit l -> slot hit read l d on -> slot hit read l' d' on' -> d' = d /\ on' = on.
Proof.
  intros P U [(-> & -> & N)|(pre & f & post & a & -> & H & N & R & -> & ->)]
    [(-> & -> & N')|(pre' & f' & post' & a' & -> & H' & N' & R' & -> & ->)].
  - auto.
  - exfalso. apply (N f'); [|exact H']. apply (Permutation_in _ (Permutation_sym P)). apply in_elt.
  - exfalso. apply (N' f); [|exact H]. apply (Permutation_in _ P). apply in_elt.
  - assert (f' = f) as ->; [|rewrite R in R'; injection R' as ->; auto].
    apply U; [|apply in_elt|exact H'|exact H]. apply (Permutation_in _ (Permutation_sym P)). apply in_elt.
Qed.
Lemma nth_ext_error {A} : forall l l' : list A, List.length l = List.length l' -> (forall j, nth_error l j = nth_error l' j) -> l = l'.
Proof.
  induction l as [|x l IH]; intros [|y l'] L H; try discriminate; [reflexivity|].
  pose proof (H 0%nat) as E. cbn in E. injection E as ->. f_equal. apply IH; [now injection L|]. intros j. exact (H (S j)).
Qed.
Lemma slots_unique ks e l l' (d d' : list (option frame)) (b b' : list bool) :
  Permutation l l' -> (forall o, In o ks -> at_most_one (serves e (dfile o)) l) ->
  List.length d = List.length ks -> List.length d' = List.length ks -> List.length b = List.length ks -> List.length b' = List.length ks ->
  (forall j o, nth_error ks j = Some o -> exists x on, nth_error d j = Some x /\ nth_error b j = Some on /\ slot (serves e (dfile o)) read_csv l x on) ->
  (forall j o, nth_error ks j = Some o -> exists x on, nth_error d' j = Some x /\ nth_error b' j = Some on /\ slot (serves e (dfile o)) read_csv l' x on) ->
  d' = d /\ b' = b.
Proof.
  intros P U L1 L2 L3 L4 S S'.
  assert (K : forall j, nth_error d' j = nth_error d j /\ nth_error b' j = nth_error b j).
  { intros j. destruct (nth_error ks j) as [o|] eqn:E.
    - destruct (S j o E) as (x & on & E1 & E2 & T). destruct (S' j o E) as (x' & on' & E1' & E2' & T').
      destruct (slot_unique _ _ _ _ _ _ _ _ P (U o (nth_error_In _ _ E)) T T') as (-> & ->). rewrite E1, E2, E1', E2'. auto.
    - apply nth_error_None in E. rewrite !(proj2 (nth_error_None _ _)) by lia. auto. }
  split; apply nth_ext_error; try congruence; apply K.
Qed.
Lemma setup_order e outs effs l l' st : Permutation l l' -> readable e outs effs l ->
  (forall o, In o outs \/ In o effs -> at_most_one (serves e (dfile o)) l) ->
  at_most_one (fun f => exists o, In o outs /\ serves e (slfile o) f) l ->
  at_most_one (fun f => exists o, In o outs /\ serves e (tofile o) f) l ->
  setup e l outs effs = Ok st -> setup e l' outs effs = Ok st.
Proof.
  intros P (R1 & R2) U1 U2 U3 H.
  destruct (setup_total e outs effs l') as (st' & H').
  { split; intros f o I; [apply R1|apply R2]; exact (Permutation_in _ (Permutation_sym P) I). }
  rewrite H'. f_equal. apply setup_holds in H. apply setup_holds in H'.
  destruct H as (A1 & A2 & A3 & A4 & A5 & A6 & A7 & A8). destruct H' as (B1 & B2 & B3 & B4 & B5 & B6 & B7 & B8).
  destruct (slots_unique outs e l l' _ _ _ _ P (fun o I => U1 o (or_introl I)) A1 B1 A2 B2 A5 B5) as (X1 & X2).
  destruct (slots_unique effs e l l' _ _ _ _ P (fun o I => U1 o (or_intror I)) A3 B3 A4 B4 A6 B6) as (X3 & X4).
  destruct (slot_unique _ _ _ _ _ _ _ _ P U2 A7 B7) as (X5 & X6). destruct (slot_unique _ _ _ _ _ _ _ _ P U3 A8 B8) as (X7 & X8).
  destruct st, st'; cbn in *; subst; reflexivity.
Qed.

(** ** Unknown engines *)
Lemma unknown_filter e listing : unknown e listing -> filter (contains e) listing = [].
Proof.
  induction listing as [|f l IH]; intros H; [reflexivity|]. cbn.
  destruct (contains e f) eqn:C; [apply contains_spec in C; destruct (H f (or_introl eq_refl) C)|].
  apply IH. intros g I. apply H. right. exact I.
Qed.
Lemma unknown_decks e listing : unknown e listing ->
  jet_deck read_csv read_text parse e listing = Ok {| jt_thr := None; jt_tsfc := None; jt_sl := None; jt_to := None |} /\
  turboprop_deck read_csv read_text parse e listing = Ok {| tp_thr := None; tp_pwr := None; tp_bsfc := None |} /\
  piston_deck read_csv read_text parse e listing = Ok {| pi_pwr := None; pi_bsfc := None; pi_bsfc_pwr := None |} /\
  electric_deck read_csv read_text parse e listing = Ok None.
Proof.
  intros U. apply unknown_filter in U. unfold jet_deck, turboprop_deck, piston_deck, electric_deck. rewrite !setup_eq, U. repeat split.
Qed.
(** no input at all makes the lookup raise its NameError *)
Lemma foldM_err {S A} (f : S -> A -> res S) ex : forall l s, foldM f s l = Err ex -> exists s x, In x l /\ f s x = Err ex.
Proof.
  induction l as [|x l IH]; intros s; cbn; [discriminate|]. destruct (f s x) as [s'|e'] eqn:E; cbn.
  - intros H. destruct (IH _ H) as (s2 & y & I & Hy). exists s2, y. auto.
  - intros H. injection H as ->. exists s, x. auto.
Qed.
Lemma mapM_err {A B} (f : A -> res B) ex : forall l, mapM f l = Err ex -> exists x, In x l /\ f x = Err ex.
Proof.
  induction l as [|x l IH]; cbn; [discriminate|]. destruct (f x) as [y|e'] eqn:E; cbn.
  - destruct (mapM f l) as [ys|e2]; cbn; [discriminate|]. intros H. injection H as ->. destruct (IH eq_refl) as (z & I & Hz). exists z. auto.
  - intros H. injection H as ->. exists x. auto.
Qed.
Lemma setup_no_name_error e listing outs effs :
  (forall f, read_csv f <> Err NameError) -> (forall f, read_text f <> Err NameError) -> setup e listing outs effs <> Err NameError.
Proof.
  intros H1 H2 H. rewrite setup_eq in H. apply foldM_err in H. destruct H as (s & f & _ & H).
  assert (PP : proc f <> Err NameError).
  { unfold poly_process. destruct (read_text f) as [t|x] eqn:E; cbn [rbind]; [|intros K; injection K as ->; exact (H2 f E)].
    assert (M : forall l, mapM (to_float parse) l <> Err NameError).
    { intros l K. apply mapM_err in K. destruct K as (x & _ & K). unfold to_float in K. destruct (parse x); discriminate. }
    assert (X : forall (l : list string) i, index l i <> Err NameError).
    { intros l i. unfold index. destruct (nth_error l i); discriminate. }
    cbv zeta. set (lines := split_on _ t).
    destruct (index lines 0) as [l0|x] eqn:E0; cbn [rbind]; [|intros K; injection K as ->; exact (X _ _ E0)].
    destruct (mapM (to_float parse) (split_on _ l0)) as [c|x] eqn:E1; cbn [rbind]; [|intros K; injection K as ->; exact (M _ E1)].
    destruct (index lines 1) as [l1|x] eqn:E3; cbn [rbind]; [|intros K; inversion K; subst x; exact (X _ _ E3)].
    destruct (mapM (to_float parse) (filter _ _)) as [c2|x] eqn:E2; cbn [rbind]; [intros K; inversion K|intros K; inversion K; subst x; exact (M _ E2)]. }
  unfold read_file in H. destruct (foldM (setup_output read_csv read_text parse f) s (enumerate outs)) as [s1|x] eqn:E; cbn in H.
  - apply foldM_err in H. destruct H as (s2 & (i & o) & _ & H). unfold setup_eta in H. destruct (contains _ _); [|discriminate].
    destruct (read_csv f) as [a|y] eqn:R; cbn in H; [discriminate|]. injection H as ->. exact (H1 f R).
  - injection H as ->. apply foldM_err in E. destruct E as (s2 & (i & o) & _ & H). unfold setup_output in H.
    destruct (contains (o ++ "_data.csv") (lower f)).
    + destruct (read_csv f) as [a|y] eqn:R; cbn in H; [|injection H as ->; exact (H1 f R)].
      destruct (proc f) as [p|y]; cbn in H; [|assert (N : y <> NameError) by congruence];
      repeat (match goal with H : context [if ?b then _ else _] |- _ => destruct b end; cbn in H); congruence.
    + cbn in H. destruct (proc f) as [p|y]; cbn in H; [|assert (N : y <> NameError) by congruence];
      repeat (match goal with H : context [if ?b then _ else _] |- _ => destruct b end; cbn in H); congruence.
Qed.
End Setup.
