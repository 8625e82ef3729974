(** Lemmas for the engine data lookup. *)
From Coq Require Import Permutation Ascii.
From Verif Require Import Base BaseFacts AtmosModel ConceptModel ConceptProofs PropulsionModel PropulsionSpec.
Open Scope R_scope.

(** ** Strings *)
Lemma append_assoc (a b c : string) : ((a ++ b) ++ c = a ++ b ++ c)%string.
Proof. induction a as [|x a IH]; cbn; [reflexivity|now rewrite IH]. Qed.
Lemma append_nil (a : string) : (a ++ "" = a)%string.
Proof. induction a as [|x a IH]; cbn; [reflexivity|now rewrite IH]. Qed.
Lemma prefix_spec : forall a s, prefix a s = true <-> exists r, s = (a ++ r)%string.
Proof.
  induction a as [|x a IH]; intros s.
  - split; [intros _; exists s; reflexivity|]. destruct s; reflexivity.
  - destruct s as [|y s]; [split; [discriminate|intros [r E]; discriminate]|].
    change (prefix (String x a) (String y s)) with (if ascii_dec x y then prefix a s else false).
    cbn [append]. destruct (ascii_dec x y) as [->|N].
    + rewrite IH. split; intros [r E]; exists r; [now rewrite E|now injection E].
    + split; [discriminate|intros [r E]; injection E as E1 E2; subst; contradiction].
Qed.
Lemma contains_spec a : forall s, contains a s = true <-> occurs a s.
Proof.
  induction s as [|c s IH]; cbn [contains]; rewrite orb_true_iff, prefix_spec.
  - split; [intros [[r E]|E]; [exists ""%string, r; exact E|discriminate]|].
    intros (l & r & E). left. destruct l; [exists r; exact E|discriminate].
  - split.
    + intros [[r E]|E]; [exists ""%string, r; exact E|]. apply IH in E. destruct E as (l & r & ->).
      exists (String c l), r. reflexivity.
    + intros (l & r & E). destruct l as [|c' l]; [left; exists r; exact E|right].
      apply IH. exists l, r. now injection E.
Qed.
Lemma contains_false a s : contains a s = false <-> ~ occurs a s.
Proof. rewrite <- contains_spec. destruct (contains a s); split; intros H; try congruence; try discriminate. Qed.

Lemma lower_is s : lower s = lowercase s.
Proof.
  induction s as [|c s IH]; cbn [lower lowercase]; [reflexivity|]. rewrite IH. f_equal.
  destruct c as [[] [] [] [] [] [] [] []]; reflexivity.
Qed.
Lemma serves_intro e k f : occurs e f -> occurs k (lower f) -> serves e k f.
Proof. rewrite lower_is. intros A B. split; assumption. Qed.

(** ** Loops *)
Lemma foldM_app {S A} (f : S -> A -> res S) l1 : forall s l2,
  foldM f s (l1 ++ l2) = (do s' <- foldM f s l1; foldM f s' l2).
Proof.
  induction l1 as [|x l1 IH]; intros s l2; [reflexivity|]. cbn [app foldM].
  destruct (f s x) as [s'|e]; cbn [rbind]; [apply IH|reflexivity].
Qed.
Lemma nth_set_nth {A} (v : A) : forall i l j, nth_error (set_nth i v l) j =
  if Nat.eqb i j then (match nth_error l j with Some _ => Some v | None => None end) else nth_error l j.
Proof.
  induction i as [|i IH]; intros [|x l] [|j]; cbn; try reflexivity.
  - destruct (Nat.eqb i j); reflexivity.
  - apply IH.
Qed.
Lemma set_nth_length {A} (v : A) : forall i l, List.length (set_nth i v l) = List.length l.
Proof. induction i as [|i IH]; intros [|x l]; cbn; try reflexivity. now rewrite IH. Qed.
Lemma rbind_inv {A B} (x : res A) (f : A -> res B) b : rbind x f = Ok b -> exists a, x = Ok a /\ f a = Ok b.
Proof. destruct x as [a|e]; cbn; [intros H; exists a; split; [reflexivity|exact H]|discriminate]. Qed.

Section Setup.
Variable read_csv : string -> res frame.
Variable read_text : string -> res string.
Variable parse : string -> option num.
Notation proc := (poly_process read_text parse).

Definition dfile (o : string) : string := (o ++ "_data.csv")%string.
Definition slfile (o : string) : string := ("sea_level_" ++ o ++ "_polynomial.csv")%string.
Definition tofile (o : string) : string := ("sea_level_take_off_" ++ o ++ "_polynomial.csv")%string.

(** effect of one file on one slot *)
Definition upd {A} (hit : Prop) (r : res A) (old new : option A) (on on' : bool) : Prop :=
  (hit /\ (exists a, r = Ok a /\ new = Some a) /\ on' = true) \/ (~ hit /\ new = old /\ on' = on).
(** on the slot of index [j] *)
Definition upds {A} (hit : nat -> Prop) (r : res A) (d d' : list (option A)) (f f' : list bool) : Prop :=
  List.length d' = List.length d /\ List.length f' = List.length f /\
  forall j old on, nth_error d j = Some old -> nth_error f j = Some on ->
    exists new on', nth_error d' j = Some new /\ nth_error f' j = Some on' /\ upd (hit j) r old new on on'.

Lemma upd_none {A} (hit : Prop) (r : res A) d on : ~ hit -> upd hit r d d on on.
Proof. intros H. right. auto. Qed.
Lemma upds_none {A} (hit : nat -> Prop) (r : res A) d f : (forall j, ~ hit j) -> upds hit r d d f f.
Proof. intros H. split; [reflexivity|]. split; [reflexivity|]. intros j old on E F. exists old, on. auto using upd_none. Qed.
Lemma upd_trans {A} (h1 h2 : Prop) (r : res A) a b c x y z :
  upd h1 r a b x y -> upd h2 r b c y z -> upd (h1 \/ h2) r a c x z.
Proof.
  intros U1 [(H2 & (v & E & ->) & ->)|(H2 & -> & ->)]; [left; split; [auto|]; split; [exists v; auto|reflexivity]|].
  destruct U1 as [(H1 & (v & E & ->) & ->)|(H1 & -> & ->)]; [left; split; [auto|]; split; [exists v; auto|reflexivity]|].
  right. split; [tauto|]. auto.
Qed.
Lemma upd_ext {A} (h1 h2 : Prop) (r : res A) a b x y : (h1 <-> h2) -> upd h1 r a b x y -> upd h2 r a b x y.
Proof. intros E [(H & U)|(H & U)]; [left|right]; split; auto; tauto. Qed.
Lemma upds_trans {A} h1 h2 (r : res A) a b c x y z :
  upds h1 r a b x y -> upds h2 r b c y z -> upds (fun j => h1 j \/ h2 j) r a c x z.
Proof.
  intros (L1 & M1 & U1) (L2 & M2 & U2). split; [congruence|]. split; [congruence|]. intros j old on E F.
  destruct (U1 j old on E F) as (n1 & o1 & E1 & F1 & V1). destruct (U2 j n1 o1 E1 F1) as (n2 & o2 & E2 & F2 & V2).
  exists n2, o2. split; [exact E2|]. split; [exact F2|]. exact (upd_trans _ _ _ _ _ _ _ _ _ V1 V2).
Qed.
Lemma upds_ext {A} (h1 h2 : nat -> Prop) (r : res A) a b x y : (forall j, h1 j <-> h2 j) -> upds h1 r a b x y -> upds h2 r a b x y.
Proof.
  intros E (L & M & U). split; [exact L|]. split; [exact M|]. intros j old on H1 H2.
  destruct (U j old on H1 H2) as (n & o & A1 & A2 & A3). exists n, o. split; [exact A1|]. split; [exact A2|].
  exact (upd_ext _ _ _ _ _ _ _ (E j) A3).
Qed.
Lemma upds_set {A} (hit : nat -> Prop) (r : res A) i a d f : r = Ok a -> (forall j, hit j <-> j = i) ->
  upds hit r d (set_nth i (Some a) d) f (set_nth i true f).
Proof.
  intros E H. split; [apply set_nth_length|]. split; [apply set_nth_length|]. intros j old on D F.
  rewrite !nth_set_nth, D, F. destruct (Nat.eqb_spec i j) as [->|N].
  - exists (Some a), true. split; [reflexivity|]. split; [reflexivity|]. left. split; [apply H; reflexivity|].
    split; [exists a; auto|reflexivity].
  - exists old, on. split; [reflexivity|]. split; [reflexivity|]. right. split; [rewrite H; congruence|auto].
Qed.

(** one output *)
Lemma setup_output_spec data st i o st' :
  setup_output read_csv read_text parse data st (i, o) = Ok st' ->
  upds (fun j => j = i /\ occurs (dfile o) (lower data)) (read_csv data) (out_data st) (out_data st') (out_avail st) (out_avail st') /\
  eta_data st' = eta_data st /\ eta_avail st' = eta_avail st /\
  upd (occurs (slfile o) (lower data)) (proc data) (sl_poly st) (sl_poly st') (sl_avail st) (sl_avail st') /\
  upd (occurs (tofile o) (lower data)) (proc data) (to_poly st) (to_poly st') (to_avail st) (to_avail st').
Proof.
  unfold setup_output. intros H. apply rbind_inv in H. destruct H as (s1 & H1 & H).
  apply rbind_inv in H. destruct H as (s2 & H2 & H3).
  assert (A1 : upds (fun j => j = i /\ occurs (dfile o) (lower data)) (read_csv data) (out_data st) (out_data s1) (out_avail st) (out_avail s1) /\
    eta_data s1 = eta_data st /\ eta_avail s1 = eta_avail st /\ sl_poly s1 = sl_poly st /\ sl_avail s1 = sl_avail st /\
    to_poly s1 = to_poly st /\ to_avail s1 = to_avail st).
  { fold (dfile o) in H1. destruct (contains (dfile o) (lower data)) eqn:C.
    - apply contains_spec in C. apply rbind_inv in H1. destruct H1 as (f & Ef & H1). injection H1 as <-. cbn.
      split; [|auto 10]. apply upds_set; [exact Ef|]. intros j. tauto.
    - apply contains_false in C. injection H1 as <-. split; [|auto 10]. apply upds_none. tauto. }
  assert (A2 : out_data s2 = out_data s1 /\ out_avail s2 = out_avail s1 /\ eta_data s2 = eta_data s1 /\ eta_avail s2 = eta_avail s1 /\
    upd (occurs (slfile o) (lower data)) (proc data) (sl_poly s1) (sl_poly s2) (sl_avail s1) (sl_avail s2) /\
    to_poly s2 = to_poly s1 /\ to_avail s2 = to_avail s1).
  { fold (slfile o) in H2. destruct (contains (slfile o) (lower data)) eqn:C.
    - apply contains_spec in C. apply rbind_inv in H2. destruct H2 as (f & Ef & H2). injection H2 as <-. cbn.
      split; [reflexivity|]. split; [reflexivity|]. split; [reflexivity|]. split; [reflexivity|]. split; [|auto].
      left. split; [exact C|]. split; [exists f; auto|reflexivity].
    - apply contains_false in C. injection H2 as <-. auto 10 using upd_none. }
  destruct A1 as (B1 & B2 & B3 & B4 & B5 & B6 & B7). destruct A2 as (D1 & D2 & D3 & D4 & D5 & D6 & D7).
  fold (tofile o) in H3. destruct (contains (tofile o) (lower data)) eqn:C.
  - apply contains_spec in C. apply rbind_inv in H3. destruct H3 as (f & Ef & H3). injection H3 as <-. cbn.
    rewrite D1, D2, D3, D4, B2, B3, <- B4, <- B5.
    split; [exact B1|]. split; [reflexivity|]. split; [reflexivity|]. split; [exact D5|].
    left. split; [exact C|]. split; [exists f; auto|reflexivity].
  - apply contains_false in C. injection H3 as <-.
    rewrite D1, D2, D3, D4, D6, D7, B2, B3, B6, B7, <- B4, <- B5. auto 10 using upd_none.
Qed.

Lemma setup_outputs_spec data : forall outs k st st',
  foldM (setup_output read_csv read_text parse data) st (combine (seq k (List.length outs)) outs) = Ok st' ->
  upds (fun j => exists o, nth_error outs (j - k) = Some o /\ (k <= j)%nat /\ occurs (dfile o) (lower data)) (read_csv data)
    (out_data st) (out_data st') (out_avail st) (out_avail st') /\
  eta_data st' = eta_data st /\ eta_avail st' = eta_avail st /\
  upd (exists o, In o outs /\ occurs (slfile o) (lower data)) (proc data) (sl_poly st) (sl_poly st') (sl_avail st) (sl_avail st') /\
  upd (exists o, In o outs /\ occurs (tofile o) (lower data)) (proc data) (to_poly st) (to_poly st') (to_avail st) (to_avail st').
Proof.
  induction outs as [|o outs IH]; intros k st st'; cbn [List.length seq combine foldM].
  - intros H. injection H as <-.
    assert (N : ~ (exists o, In o (@nil string) /\ occurs (slfile o) (lower data))) by (intros (x & [] & _)).
    assert (N2 : ~ (exists o, In o (@nil string) /\ occurs (tofile o) (lower data))) by (intros (x & [] & _)).
    split; [|auto 10 using upd_none]. apply upds_none. intros j (x & E & _). destruct (j - k)%nat; discriminate.
  - intros H. apply rbind_inv in H. destruct H as (s & H1 & H2).
    apply setup_output_spec in H1. destruct H1 as (A1 & A2 & A3 & A4 & A5).
    apply IH in H2. destruct H2 as (B1 & B2 & B3 & B4 & B5).
    split; [|split; [congruence|split; [congruence|split]]].
    + refine (upds_ext _ _ _ _ _ _ _ _ (upds_trans _ _ _ _ _ _ _ _ _ A1 B1)). intros j. split.
      * intros [[-> C]|(x & E & L & C)].
        -- exists o. rewrite Nat.sub_diag. auto.
        -- exists x. split; [|split; [lia|exact C]]. replace (j - k)%nat with (S (j - S k)) by lia. exact E.
      * intros (x & E & L & C). destruct (Nat.eq_dec j k) as [->|N].
        -- left. rewrite Nat.sub_diag in E. injection E as <-. auto.
        -- right. exists x. replace (j - k)%nat with (S (j - S k)) in E by lia. split; [exact E|]. split; [lia|exact C].
    + refine (upd_ext _ _ _ _ _ _ _ _ (upd_trans _ _ _ _ _ _ _ _ _ A4 B4)). split.
      * intros [C|(x & I & C)]; [exists o|exists x]; cbn; auto.
      * intros (x & [->|I] & C); [left; exact C|right; exists x; auto].
    + refine (upd_ext _ _ _ _ _ _ _ _ (upd_trans _ _ _ _ _ _ _ _ _ A5 B5)). split.
      * intros [C|(x & I & C)]; [exists o|exists x]; cbn; auto.
      * intros (x & [->|I] & C); [left; exact C|right; exists x; auto].
Qed.

Lemma setup_etas_spec data : forall effs k st st',
  foldM (setup_eta read_csv data) st (combine (seq k (List.length effs)) effs) = Ok st' ->
  upds (fun j => exists o, nth_error effs (j - k) = Some o /\ (k <= j)%nat /\ occurs (dfile o) (lower data)) (read_csv data)
    (eta_data st) (eta_data st') (eta_avail st) (eta_avail st') /\
  out_data st' = out_data st /\ out_avail st' = out_avail st /\ sl_poly st' = sl_poly st /\ sl_avail st' = sl_avail st /\
  to_poly st' = to_poly st /\ to_avail st' = to_avail st.
Proof.
  induction effs as [|o effs IH]; intros k st st'; cbn [List.length seq combine foldM].
  - intros H. injection H as <-. split; [|auto 10]. apply upds_none. intros j (x & E & _). destruct (j - k)%nat; discriminate.
  - intros H. apply rbind_inv in H. destruct H as (s & H1 & H2).
    assert (A : upds (fun j => j = k /\ occurs (dfile o) (lower data)) (read_csv data) (eta_data st) (eta_data s) (eta_avail st) (eta_avail s) /\
      out_data s = out_data st /\ out_avail s = out_avail st /\ sl_poly s = sl_poly st /\ sl_avail s = sl_avail st /\
      to_poly s = to_poly st /\ to_avail s = to_avail st).
    { unfold setup_eta in H1. fold (dfile o) in H1. destruct (contains (dfile o) (lower data)) eqn:C.
      - apply contains_spec in C. apply rbind_inv in H1. destruct H1 as (f & Ef & H1). injection H1 as <-. cbn.
        split; [|auto 10]. apply upds_set; [exact Ef|]. intros j. tauto.
      - apply contains_false in C. injection H1 as <-. split; [|auto 10]. apply upds_none. tauto. }
    destruct A as (A1 & A2 & A3 & A4 & A5 & A6 & A7). apply IH in H2. destruct H2 as (B1 & B2 & B3 & B4 & B5 & B6 & B7).
    split; [|repeat split; congruence].
    refine (upds_ext _ _ _ _ _ _ _ _ (upds_trans _ _ _ _ _ _ _ _ _ A1 B1)). intros j. split.
    + intros [[-> C]|(x & E & L & C)].
      * exists o. rewrite Nat.sub_diag. auto.
      * exists x. split; [|split; [lia|exact C]]. replace (j - k)%nat with (S (j - S k)) by lia. exact E.
    + intros (x & E & L & C). destruct (Nat.eq_dec j k) as [->|N].
      * left. rewrite Nat.sub_diag in E. injection E as <-. auto.
      * right. exists x. replace (j - k)%nat with (S (j - S k)) in E by lia. split; [exact E|]. split; [lia|exact C].
Qed.

(** ** All files *)
Lemma slot_snoc {A} (hit : string -> Prop) (read : string -> res A) l f old new on on' :
  slot hit read l old on -> upd (hit f) (read f) old new on on' -> slot hit read (l ++ [f]) new on'.
Proof.
  intros S [(H & (a & E & ->) & ->)|(H & -> & ->)].
  - right. exists l, f, [], a. split; [reflexivity|]. split; [exact H|]. split; [intros g []|auto].
  - destruct S as [(-> & -> & N)|(pre & g & post & a & -> & Hg & N & E & -> & ->)].
    + left. split; [reflexivity|]. split; [reflexivity|]. intros g I. apply in_app_iff in I. destruct I as [I|[<-|[]]]; auto.
    + right. exists pre, g, (post ++ [f])%list, a. rewrite <- app_assoc. split; [reflexivity|]. split; [exact Hg|]. split; [|auto].
      intros x I. apply in_app_iff in I. destruct I as [I|[<-|[]]]; auto.
Qed.
Lemma slot_filter {A} (hit : string -> Prop) (read : string -> res A) e : forall l d on,
  slot hit read (filter (contains e) l) d on -> slot (fun f => occurs e f /\ hit f) read l d on.
Proof.
  intros l d on [(-> & -> & N)|(pre & f & post & a & E & H & N & R & -> & ->)].
  - left. split; [reflexivity|]. split; [reflexivity|]. intros f I [O H]. apply (N f); [|exact H].
    apply filter_In. split; [exact I|]. apply contains_spec. exact O.
  - right. assert (G : forall l, filter (contains e) l = (pre ++ f :: post)%list -> exists p q, l = (p ++ f :: q)%list /\ occurs e f /\
      filter (contains e) q = post).
    { clear -e. intros l. revert pre. induction l as [|x l IH]; intros pre E; [destruct pre; discriminate|].
      cbn in E. destruct (contains e x) eqn:C.
      - destruct pre as [|y pre]; cbn in E; injection E as -> E.
        + exists [], l. split; [reflexivity|]. split; [apply contains_spec; exact C|exact E].
        + destruct (IH _ E) as (p & q & -> & O & Q). exists (y :: p), q. auto.
      - destruct (IH _ E) as (p & q & -> & O & Q). exists (x :: p), q. auto. }
    destruct (G l E) as (p & q & -> & O & Q). exists p, f, q, a. split; [reflexivity|]. split; [auto|]. split; [|auto].
    intros g I [Og Hg]. apply (N g); [|exact Hg]. rewrite <- Q. apply filter_In. split; [exact I|]. apply contains_spec. exact Og.
Qed.
Lemma slot_ext {A} (h1 h2 : string -> Prop) (read : string -> res A) l d on : (forall f, h1 f <-> h2 f) ->
  slot h1 read l d on -> slot h2 read l d on.
Proof.
  intros E [(-> & -> & N)|(pre & f & post & a & -> & H & N & R & -> & ->)].
  - left. split; [reflexivity|]. split; [reflexivity|]. intros f I. rewrite <- E. auto.
  - right. exists pre, f, post, a. split; [reflexivity|]. split; [apply E; exact H|]. split; [|auto]. intros g I. rewrite <- E. auto.
Qed.

Definition init (outs effs : list string) : loaded :=
  {| out_data := repeat None (List.length outs); eta_data := repeat None (List.length effs);
     sl_poly := None; to_poly := None;
     out_avail := repeat false (List.length outs); eta_avail := repeat false (List.length effs);
     sl_avail := false; to_avail := false |}.
Definition read_file (outs effs : list string) (st : loaded) (data : string) : res loaded :=
  do st <- foldM (setup_output read_csv read_text parse data) st (enumerate outs);
  foldM (setup_eta read_csv data) st (enumerate effs).

(** state after the files [l] *)
Definition slots (hits : nat -> string -> Prop) (n : nat) (l : list string) (d : list (option frame)) (f : list bool) : Prop :=
  List.length d = n /\ List.length f = n /\
  forall j, (j < n)%nat -> exists x on, nth_error d j = Some x /\ nth_error f j = Some on /\ slot (hits j) read_csv l x on.
Definition okstate (outs effs l : list string) (st : loaded) : Prop :=
  slots (fun j f => exists o, nth_error outs j = Some o /\ occurs (dfile o) (lower f)) (List.length outs) l (out_data st) (out_avail st) /\
  slots (fun j f => exists o, nth_error effs j = Some o /\ occurs (dfile o) (lower f)) (List.length effs) l (eta_data st) (eta_avail st) /\
  slot (fun f => exists o, In o outs /\ occurs (slfile o) (lower f)) proc l (sl_poly st) (sl_avail st) /\
  slot (fun f => exists o, In o outs /\ occurs (tofile o) (lower f)) proc l (to_poly st) (to_avail st).

Lemma slots_init hits n : slots hits n [] (repeat None n) (repeat false n).
Proof.
  split; [apply repeat_length|]. split; [apply repeat_length|]. intros j L. exists None, false.
  split; [now apply nth_error_repeat|]. split; [now apply nth_error_repeat|]. left. auto.
Qed.
Lemma slots_snoc hits n l f d d' b b' : slots hits n l d b -> upds (fun j => hits j f) (read_csv f) d d' b b' ->
  slots hits n (l ++ [f]) d' b'.
Proof.
  intros (L1 & L2 & S) (M1 & M2 & U). split; [congruence|]. split; [congruence|]. intros j L.
  destruct (S j L) as (x & on & E1 & E2 & T). destruct (U j x on E1 E2) as (y & on' & F1 & F2 & V).
  exists y, on'. split; [exact F1|]. split; [exact F2|]. exact (slot_snoc _ _ _ _ _ _ _ _ T V).
Qed.

Lemma read_files_spec outs effs : forall l st, foldM (read_file outs effs) (init outs effs) l = Ok st -> okstate outs effs l st.
Proof.
  induction l as [|f l IH] using rev_ind; intros st.
  - cbn. intros H. injection H as <-. split; [apply slots_init|]. split; [apply slots_init|]. split; left; auto.
  - rewrite foldM_app. intros H. apply rbind_inv in H. destruct H as (s & H1 & H2). apply IH in H1.
    cbn [foldM] in H2. apply rbind_inv in H2. destruct H2 as (s2 & H2 & H3). injection H3 as <-.
    unfold read_file in H2. apply rbind_inv in H2. destruct H2 as (s1 & A & B).
    apply setup_outputs_spec in A. apply setup_etas_spec in B.
    destruct A as (A1 & A2 & A3 & A4 & A5). destruct B as (B1 & B2 & B3 & B4 & B5 & B6 & B7).
    destruct H1 as (C1 & C2 & C3 & C4). rewrite A2, A3 in B1.
    unfold okstate. rewrite B2, B3, B4, B5, B6, B7. split; [|split; [|split]].
    + refine (slots_snoc _ _ _ _ _ _ _ _ C1 (upds_ext _ _ _ _ _ _ _ _ A1)). intros j. rewrite Nat.sub_0_r.
      split; intros (o & H); exists o; [tauto|]. split; [tauto|]. split; [lia|tauto].
    + refine (slots_snoc _ _ _ _ _ _ _ _ C2 (upds_ext _ _ _ _ _ _ _ _ B1)). intros j. rewrite Nat.sub_0_r.
      split; intros (o & H); exists o; [tauto|]. split; [tauto|]. split; [lia|tauto].
    + exact (slot_snoc _ _ _ _ _ _ _ _ C3 A4).
    + exact (slot_snoc _ _ _ _ _ _ _ _ C4 A5).
Qed.

Lemma setup_eq e listing outs effs : setup read_csv read_text parse e listing outs effs =
  foldM (read_file outs effs) (init outs effs) (filter (contains e) listing).
Proof.
  unfold setup. fold (init outs effs).
  change (fun (st : loaded) (data : string) => do st0 <- foldM (setup_output read_csv read_text parse data) st (enumerate outs);
    foldM (setup_eta read_csv data) st0 (enumerate effs)) with (read_file outs effs).
  destruct (foldM (read_file outs effs) (init outs effs) (filter (contains e) listing)); reflexivity.
Qed.
End Setup.
