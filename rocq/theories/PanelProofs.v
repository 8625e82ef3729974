(** Proofs about the multi-panel diagrams. *)
From Coq Require Import Sorted.
From Verif Require Import Base BaseFacts ConceptModel ConceptSpec PanelModel PanelSpec ConceptProofs.
Open Scope R_scope.
Open Scope string_scope.

Lemma index_ok {A} (l : list A) i x : index l i = Ok x <-> nth_error l i = Some x.
Proof. unfold index. destruct (nth_error l i); split; congruence. Qed.
Lemma index_total {A} (l : list A) i : (i < List.length l)%nat -> exists x, index l i = Ok x.
Proof. intros H. unfold index. destruct (nth_error l i) eqn:E; [eauto|]. apply nth_error_None in E. lia. Qed.
Lemma plot_ok x y l c k : plot x y l c = Ok k <-> List.length x = List.length y /\ k = {| c_x := x; c_y := y; c_label := l; c_colour := c |}.
Proof. unfold plot. destruct (Nat.eqb_spec (List.length x) (List.length y)); split; intros H; [injection H as <-; auto|f_equal; symmetry; tauto|discriminate|tauto]. Qed.

Lemma enumerateM_ok {A B} (f : nat -> A -> res B) l : forall i ys, enumerateM f i l = Ok ys ->
  List.length ys = List.length l /\
  forall j x, nth_error l j = Some x -> exists y, nth_error ys j = Some y /\ f (i + j)%nat x = Ok y.
Proof.
  induction l as [|x l IH]; intros i ys H; cbn [enumerateM] in H.
  - injection H as <-. split; [reflexivity|]. intros [|j] ? E; discriminate.
  - apply rbind_ok in H as (y & Y & H). apply rbind_ok in H as (ys' & YS & H). injection H as <-.
    destruct (IH _ _ YS) as (L & N). split; [cbn; lia|]. intros [|j] z E.
    + injection E as <-. exists y. rewrite Nat.add_0_r. auto.
    + cbn in E. destruct (N j z E) as (w & W & F). exists w. split; [exact W|]. rewrite <- F. f_equal. lia.
Qed.
Lemma enumerateM_total {A B} (f : nat -> A -> res B) l : forall i,
  (forall j x, nth_error l j = Some x -> exists y, f (i + j)%nat x = Ok y) -> exists ys, enumerateM f i l = Ok ys.
Proof.
  induction l as [|x l IH]; intros i H; cbn [enumerateM]; [eauto|].
  destruct (H O x eq_refl) as (y & Y). rewrite Nat.add_0_r in Y. rewrite Y. cbn [rbind].
  destruct (IH (S i)) as (ys & YS); [|rewrite YS; cbn; eauto]. intros j z E. destruct (H (S j) z E) as (w & W). exists w. rewrite <- W. f_equal. lia.
Qed.

(** ** The rows *)
Lemma Forall2_impl {A B} (P Q : A -> B -> Prop) l m : (forall a b, P a b -> Q a b) -> Forall2 P l m -> Forall2 Q l m.
Proof. intros I F. induction F; constructor; auto. Qed.
Lemma mask_rows (m : list bool) : forall i, exists ks, StronglySorted lt ks /\ (forall k, In k ks -> (i <= k)%nat) /\
  (forall k, In (i + k)%nat ks <-> nth_error m k = Some true) /\
  forall (col : list num), List.length col = List.length m ->
    Forall2 (fun k x => exists d, k = (i + d)%nat /\ nth_error col d = Some x) ks (map snd (filter fst (combine m col))).
Proof.
  induction m as [|b m IH]; intros i.
  - exists []. split; [constructor|]. split; [intros ? []|]. split; [intros k; cbn; destruct k; split; [tauto|discriminate|tauto|discriminate]|].
    intros [|] L; [constructor|discriminate].
  - destruct (IH (S i)) as (ks & SS & LO & IN & F). destruct b.
    + exists (i :: ks). split; [constructor; [exact SS|]; apply Forall_forall; intros k K; specialize (LO k K); lia|].
      split; [intros k [<-|K]; [lia|specialize (LO k K); lia]|]. split.
      * intros [|k]; cbn [nth_error]; [split; [reflexivity|left; lia]|]. rewrite <- IN. replace (S i + k)%nat with (i + S k)%nat by lia.
        split; [intros [E|K]; [lia|exact K]|right; assumption].
      * intros [|x col] L; [discriminate|]. cbn [combine filter fst map snd]. constructor; [exists O; split; [lia|reflexivity]|].
        assert (L' : List.length col = List.length m) by (cbn in L; lia). pose proof (F col L') as F2.
        eapply Forall2_impl; [|exact F2]. intros k z (d & -> & E). exists (S d). split; [lia|exact E].
    + exists ks. split; [exact SS|]. split; [intros k K; specialize (LO k K); lia|]. split.
      * intros [|k]; cbn [nth_error]; [split; [intros K; specialize (LO _ K); lia|discriminate]|]. rewrite <- IN.
        replace (S i + k)%nat with (i + S k)%nat by lia. reflexivity.
      * intros [|x col] L; [discriminate|]. cbn [combine filter fst map snd].
        assert (L' : List.length col = List.length m) by (cbn in L; lia). pose proof (F col L') as F2.
        eapply Forall2_impl; [|exact F2]. intros k z (d & -> & E). exists (S d). split; [lia|exact E].
Qed.

Lemma fdr_inv ylim raw tcol tlabel ti tf panels markers figpars ps f :
  fdrplot ylim raw (tcol, tlabel, ti, tf) panels markers figpars = Ok (ps, f) ->
  exists times tm data, dget tcol raw = Some times /\
  f = masked raw (map (fun t => (ti <=? t) && (t <=? tf))%num times) /\ dget tcol f = Some tm /\
  mapM (fun p => do _ <- index p 0; do dataline <- mapM (dindex f) (tl p); Ok (SList dataline)) panels = Ok data /\
  panelplot_with_shared_x ylim tm data tlabel (map LList panels) (fst markers) (snd markers) (fst figpars) (snd figpars) = Ok ps.
Proof.
  unfold fdrplot. intros H. apply rbind_ok in H as (times & T & H). cbv zeta in H. apply rbind_ok in H as (tm & TM & H).
  apply rbind_ok in H as (data & D & H). apply rbind_ok in H as (qs & Q & H). injection H as <- <-.
  unfold dindex in T, TM. exists times, tm, data.
  destruct (dget tcol raw); [|discriminate]. destruct (dget tcol (masked _ _)); [|discriminate]. injection T as ->. injection TM as ->. auto.
Qed.

Lemma rows_kept ylim raw n tcol tlabel a b panels markers figpars ps f : rectangular raw n ->
  fdrplot ylim raw (tcol, tlabel, Fin a, Fin b) panels markers figpars = Ok (ps, f) ->
  exists times ks, binds raw tcol times /\ rows_between a b times ks /\
  Forall2 (fun kc kc' => fst kc' = fst kc /\ restricted ks (snd kc) (snd kc')) raw f.
Proof.
  intros RE H. destruct (fdr_inv _ _ _ _ _ _ _ _ _ _ _ H) as (times & tm & data & T & -> & _).
  set (m := map (fun t => (Fin a <=? t) && (t <=? Fin b))%num times).
  assert (TI : In (tcol, times) raw). { apply dget_binds in T as (l & r & -> & _). apply in_or_app. right. left. reflexivity. }
  destruct (mask_rows m 0) as (ks & SS & _ & IN & F). exists times, ks. split; [apply dget_binds, T|]. split.
  - split; [exact SS|]. intros k. rewrite (IN k). unfold m. rewrite nth_error_map.
    destruct (nth_error times k) as [[t|]|]; cbn; [|split; [discriminate|intros (? & ? & _); discriminate]|split; [discriminate|intros (? & ? & _); discriminate]].
    unfold Rleb. destruct (Rle_dec a t), (Rle_dec t b); cbn; (split; [intros E; try discriminate; exists t; auto|intros (t' & [= <-] & ?); try reflexivity; lra]).
  - unfold masked. assert (LM : List.length m = n) by (unfold m; rewrite map_length; exact (RE _ _ TI)).
    clear -RE F LM. revert RE. generalize raw. induction raw0 as [|[k c] r IH]; intros RE; cbn [map]; constructor.
    + cbn [fst snd]. split; [reflexivity|]. unfold restricted.
      eapply Forall2_impl; [|apply F; rewrite LM; apply (RE k c); left; reflexivity]. intros q z (d & -> & E). exact E.
    + apply IH. intros k' c' I. apply (RE k' c'). right. exact I.
Qed.

(** ** The panels *)
Lemma shared_x_inv ylim haxis vaxes hlabel vlabels vlines cols figpar fonts ps :
  panelplot_with_shared_x ylim haxis vaxes hlabel vlabels vlines cols figpar fonts = Ok ps ->
  List.length vaxes <> 1%nat /\ List.length vaxes <> 0%nat /\ List.length ps = List.length vaxes /\
  forall i vax, nth_error vaxes i = Some vax -> exists p lab curves lines, nth_error ps i = Some p /\ nth_error vlabels i = Some lab /\
    p_curves p = (curves ++ lines)%list /\
    marks (fun m => segment m (fst (ylim curves)) m (snd (ylim curves))) vlines cols lines /\
    p_xlim p = None /\ p_xlabel p = (if Nat.eqb (i + 1) (List.length vaxes) then Some hlabel else None) /\
    match vax with
    | SOne v => curves = [{| c_x := haxis; c_y := v; c_label := None; c_colour := None |}] /\ List.length v = List.length haxis /\
                p_ylabel p = Some lab /\ p_legend p = false
    | SList l => p_legend p = true /\ (exists title, sublabel lab 0 = Ok title /\ p_ylabel p = Some (LText title)) /\
                 List.length curves = List.length l /\
                 forall j v, nth_error l j = Some v -> exists name, sublabel lab (j + 1) = Ok name /\ List.length v = List.length haxis /\
                   nth_error curves j = Some {| c_x := haxis; c_y := v; c_label := Some name; c_colour := None |}
    end.
Proof.
  unfold panelplot_with_shared_x. cbv zeta. intros H. apply rbind_ok in H as (u0 & N0 & H).
  do 3 (apply rbind_ok in H as (? & _ & H)). apply rbind_ok in H as (u1 & N1 & H).
  apply rbind_ok in H as (qs & Q & H). apply rbind_ok in H as (u2 & _ & H). injection H as <-.
  split; [intros E; rewrite E in N1; discriminate|]. split; [intros E; rewrite E in N0; discriminate|].
  destruct (enumerateM_ok _ _ _ _ Q) as (L & N). split; [exact L|]. intros i vax V. destruct (N i vax V) as (p & P & F). clear N Q.
  cbn [Nat.add] in F. apply rbind_ok in F as (((cs & lab') & leg) & A & F). destruct (ylim cs) as [lo hi] eqn:YL.
  apply rbind_ok in F as (ls & LS & F). injection F as <-.
  assert (MK : marks (fun m => segment m (fst (ylim cs)) m (snd (ylim cs))) vlines cols ls).
  { rewrite YL. destruct (enumerateM_ok _ _ _ _ LS) as (LL & LN). split; [exact LL|]. intros j m M.
    destruct (LN j m M) as (c & C & FC). apply rbind_ok in FC as (col & CO & FC). cbn [Nat.add] in CO. apply index_ok in CO.
    apply plot_ok in FC as (_ & ->). exists col. eexists. split; [exact CO|]. split; [exact C|]. repeat split. }
  assert (XL : (if Nat.eqb i (List.length vaxes - 1) then Some hlabel else None) = (if Nat.eqb (i + 1) (List.length vaxes) then Some hlabel else None)).
  { assert (i < List.length vaxes)%nat by (apply nth_error_Some; congruence).
    destruct (Nat.eqb_spec i (List.length vaxes - 1)), (Nat.eqb_spec (i + 1) (List.length vaxes)); try reflexivity; lia. }
  destruct vax as [l|v].
  - apply rbind_ok in A as (cs' & CS & A). apply rbind_ok in A as (lb & LB & A). apply rbind_ok in A as (tt_ & TT & A). injection A as <- <- <-.
    apply index_ok in LB. eexists. exists lb, cs', ls. split; [exact P|]. split; [exact LB|]. cbn [p_curves p_xlim p_xlabel p_ylabel p_legend].
    split; [reflexivity|]. split; [exact MK|]. split; [reflexivity|]. split; [exact XL|]. split; [reflexivity|]. split; [eauto|].
    destruct (enumerateM_ok _ _ _ _ CS) as (CL & CN). split; [exact CL|]. intros j w W. destruct (CN j w W) as (c & C & FC).
    apply rbind_ok in FC as (lb' & LB' & FC). apply index_ok in LB'. assert (lb' = lb) as -> by congruence.
    apply rbind_ok in FC as (nm & NM & FC). apply plot_ok in FC as (LW & ->). exists nm. auto.
  - apply rbind_ok in A as (lb & LB & A). apply rbind_ok in A as (c & C & A). injection A as <- <- <-. apply index_ok in LB.
    apply plot_ok in C as (LC & ->). eexists. exists lb. do 2 eexists. split; [exact P|]. split; [exact LB|]. cbn [p_curves p_xlim p_xlabel p_ylabel p_legend].
    split; [reflexivity|]. split; [exact MK|]. split; [reflexivity|]. split; [exact XL|]. auto.
Qed.

Lemma shared_x_total ylim haxis vaxes hlabel vlabels vlines cols figpar fonts :
  (2 <= List.length vaxes)%nat -> (List.length vlines <= List.length cols)%nat ->
  (3 <= List.length figpar)%nat -> (3 <= List.length fonts)%nat ->
  (forall i vax, nth_error vaxes i = Some vax -> exists lab, nth_error vlabels i = Some lab /\
     match vax with
     | SOne v => List.length v = List.length haxis
     | SList l => (forall v, In v l -> List.length v = List.length haxis) /\ forall j, (j <= List.length l)%nat -> exists name, sublabel lab j = Ok name
     end) ->
  exists ps, panelplot_with_shared_x ylim haxis vaxes hlabel vlabels vlines cols figpar fonts = Ok ps.
Proof.
  intros N C FP FS H. unfold panelplot_with_shared_x. cbv zeta.
  destruct (List.length vaxes) as [|[|n]] eqn:EN; try lia. cbn [subplots subscriptable rbind].
  destruct (index_total fonts 0) as (? & ->); [lia|]. destruct (index_total fonts 1) as (? & ->); [lia|]. destruct (index_total fonts 2) as (? & ->); [lia|]. cbn [rbind].
  match goal with |- exists ps, rbind (enumerateM ?f 0 vaxes) _ = _ => destruct (enumerateM_total f vaxes 0) as (ps & ->) end.
  - intros i vax V. destruct (H i vax V) as (lab & LB & X). cbn [Nat.add].
    assert (LS : forall cs, exists ls, enumerateM (fun j vli => do col <- index cols j; plot [vli; vli] [fst (ylim cs); snd (ylim cs)] None (Some col)) 0 vlines = Ok ls).
    { intros cs. apply enumerateM_total. intros j m M. cbn [Nat.add]. destruct (index_total cols j) as (col & ->).
      - assert (j < List.length vlines)%nat by (apply nth_error_Some; congruence). lia.
      - cbn. eauto. }
    destruct vax as [l|v].
    + destruct X as (XL & XN).
      match goal with |- context [enumerateM ?g 0 l] => destruct (enumerateM_total g l 0) as (cs & ->) end.
      { intros j w W. cbn [Nat.add]. rewrite (proj2 (index_ok _ _ _) LB). cbn [rbind]. destruct (XN (j + 1)%nat) as (nm & ->).
        - assert (j < List.length l)%nat by (apply nth_error_Some; congruence). lia.
        - cbn [rbind]. eexists. apply plot_ok. split; [|reflexivity]. symmetry. apply XL. exact (nth_error_In _ _ W). }
      cbn [rbind]. rewrite (proj2 (index_ok _ _ _) LB). cbn [rbind]. destruct (XN O) as (nm & ->); [lia|]. cbn [rbind].
      destruct (LS cs) as (ls & E). destruct (ylim cs) as [lo hi]. cbn [fst snd] in E. rewrite E. cbn. eauto.
    + rewrite (proj2 (index_ok _ _ _) LB). cbn [rbind]. unfold plot at 1. rewrite X, Nat.eqb_refl. cbn [rbind].
      set (cs := [_]). destruct (LS cs) as (ls & E). destruct (ylim cs) as [lo hi]. cbn [fst snd] in E. rewrite E. cbn. eauto.
  - cbn [rbind]. unfold figsize. destruct (index_total figpar 0) as (? & ->); [lia|]. destruct (index_total figpar 1) as (? & ->); [lia|].
    destruct (index_total figpar 2) as (? & ->); [lia|]. cbn. eauto.
Qed.

Lemma fdr_panels ylim raw tcol tlabel ti tf panels markers figpars ps f :
  fdrplot ylim raw (tcol, tlabel, ti, tf) panels markers figpars = Ok (ps, f) ->
  Forall2 (fun names p => exists title channels curves lines, names = title :: channels /\
    p_ylabel p = Some (LText title) /\ p_legend p = true /\ p_curves p = (curves ++ lines)%list /\
    Forall2 (fun ch c => c_label c = Some ch /\ binds f tcol (c_x c) /\ binds f ch (c_y c)) channels curves /\
    marks (fun m => segment m (fst (ylim curves)) m (snd (ylim curves))) (fst markers) (snd markers) lines) panels ps /\
  forall i p, nth_error ps i = Some p -> p_xlabel p = if Nat.eqb (i + 1) (List.length ps) then Some tlabel else None.
Proof.
  intros H. destruct (fdr_inv _ _ _ _ _ _ _ _ _ _ _ H) as (times & tm & data & _ & _ & TM & D & P). clear H.
  destruct (shared_x_inv _ _ _ _ _ _ _ _ _ _ P) as (_ & _ & L & N). pose proof (mapM_length _ _ _ D) as LD.
  split.
  - assert (K : forall i names, nth_error panels i = Some names -> exists p, nth_error ps i = Some p /\
      exists title channels curves lines, names = title :: channels /\
      p_ylabel p = Some (LText title) /\ p_legend p = true /\ p_curves p = (curves ++ lines)%list /\
      Forall2 (fun ch c => c_label c = Some ch /\ binds f tcol (c_x c) /\ binds f ch (c_y c)) channels curves /\
      marks (fun m => segment m (fst (ylim curves)) m (snd (ylim curves))) (fst markers) (snd markers) lines).
    { intros i names E. destruct (mapM_nth _ _ _ _ _ D E) as (vax & V & F). apply rbind_ok in F as (t0 & T0 & F).
      apply rbind_ok in F as (dl & DL & F). injection F as <-. destruct (N i _ V) as (p & lab & curves & lines & EP & EL & EC & MK & _ & _ & LG & (title & TI & YL) & CL & CN).
      rewrite nth_error_map, E in EL. injection EL as <-. destruct names as [|nm channels]; [discriminate|].
      cbn [sublabel] in TI. apply index_ok in TI. cbn in TI. injection TI as ->. cbn [tl] in DL.
      exists p. split; [exact EP|]. exists title, channels, curves, lines. split; [reflexivity|]. split; [exact YL|]. split; [exact LG|]. split; [exact EC|].
      split; [|exact MK]. pose proof (mapM_length _ _ _ DL) as LDL.
      assert (Q : forall j ch, nth_error channels j = Some ch -> exists c, nth_error curves j = Some c /\ c_label c = Some ch /\ binds f tcol (c_x c) /\ binds f ch (c_y c)).
      { intros j ch J. destruct (mapM_nth _ _ _ _ _ DL J) as (v & W & DV). destruct (CN j v W) as (name & NM & _ & C).
        eexists. split; [exact C|]. cbn [c_label c_x c_y]. cbn [sublabel] in NM. apply index_ok in NM.
        replace (j + 1)%nat with (S j) in NM by lia. cbn in NM. rewrite J in NM. injection NM as ->. split; [reflexivity|]. split; [apply dget_binds, TM|].
        unfold dindex in DV. destruct (dget name f) as [z|] eqn:EZ; [|discriminate]. injection DV as ->. apply dget_binds, EZ. }
      clear -Q CL LDL. assert (LL : List.length curves = List.length channels) by lia. clear CL LDL. revert curves LL Q.
      induction channels as [|ch channels IH]; intros [|c curves] LL Q; try discriminate; [constructor|]. constructor.
      - destruct (Q O ch eq_refl) as (c' & [= <-] & X). exact X.
      - apply IH; [cbn in LL; lia|]. intros j x J. exact (Q (S j) x J). }
    assert (LL : List.length ps = List.length panels) by lia. clear -K LL. revert ps LL K.
    induction panels as [|nm panels IH]; intros [|p ps] LL K; try discriminate; [constructor|]. constructor.
    + destruct (K O nm eq_refl) as (c' & [= <-] & X). exact X.
    + apply IH; [cbn in LL; lia|]. intros j x J. exact (K (S j) x J).
  - intros i p E. assert (I : (i < List.length data)%nat) by (rewrite <- L; apply nth_error_Some; congruence).
    destruct (nth_error data i) as [vax|] eqn:V; [|apply nth_error_None in V; lia].
    destruct (N i vax V) as (p' & lab & curves & lines & EP & _ & _ & _ & _ & XL & _). assert (p' = p) as -> by congruence. rewrite L. exact XL.
Qed.

Lemma masked_get k f m : dget k (masked f m) = match dget k f with Some c => Some (map snd (filter fst (combine m c))) | None => None end.
Proof. induction f as [|[k' c] f IH]; [reflexivity|]. cbn. destruct (String.eqb k k'); [reflexivity|exact IH]. Qed.
Lemma filter_length_same (m : list bool) : forall (c d : list num), List.length c = List.length m -> List.length d = List.length m ->
  List.length (map snd (filter fst (combine m c))) = List.length (map snd (filter fst (combine m d))).
Proof.
  induction m as [|b m IH]; intros [|x c] [|y d] L1 L2; try discriminate; [reflexivity|]. cbn in L1, L2.
  specialize (IH c d ltac:(lia) ltac:(lia)). cbn [combine filter fst]. destruct b; cbn [map List.length]; lia.
Qed.

Lemma fdr_total ylim raw n tcol tlabel ti tf panels markers figpars : rectangular raw n ->
  In tcol (map fst raw) -> (2 <= List.length panels)%nat ->
  (forall names, In names panels -> names <> [] /\ forall ch, In ch (tl names) -> In ch (map fst raw)) ->
  (List.length (fst markers) <= List.length (snd markers))%nat ->
  (3 <= List.length (fst figpars))%nat -> (3 <= List.length (snd figpars))%nat ->
  exists ps f, fdrplot ylim raw (tcol, tlabel, ti, tf) panels markers figpars = Ok (ps, f).
Proof.
  intros RE IT NP HP HM H1 H2. unfold fdrplot.
  assert (GET : forall k, In k (map fst raw) -> exists c, dget k raw = Some c /\ List.length c = n).
  { intros k I. destruct (dget k raw) as [c|] eqn:E; [exists c; split; [reflexivity|]|exfalso; apply (proj1 (dget_unbound k raw) E), I].
    apply dget_binds in E as (l & r & -> & _). apply (RE k c). apply in_or_app. right. left. reflexivity. }
  destruct (GET tcol IT) as (times & T & LT). unfold dindex at 1. rewrite T. cbn [rbind]. cbv zeta.
  set (m := map _ times). assert (LM : List.length m = n) by (unfold m; rewrite map_length; exact LT).
  unfold dindex at 1. rewrite masked_get, T. cbn [rbind]. set (tm := map snd _).
  assert (COL : forall k, In k (map fst raw) -> exists c, dindex (masked raw m) k = Ok c /\ List.length c = List.length tm).
  { intros k I. destruct (GET k I) as (c & C & LC). unfold dindex. rewrite masked_get, C. eexists. split; [reflexivity|].
    apply filter_length_same; congruence. }
  assert (D : exists data, mapM (fun p => do _ <- index p 0; do dataline <- mapM (dindex (masked raw m)) (tl p); Ok (SList dataline)) panels = Ok data /\
    forall i vax, nth_error data i = Some vax -> exists names l, nth_error panels i = Some names /\ vax = SList l /\ List.length names = S (List.length l) /\
      forall v, In v l -> List.length v = List.length tm).
  { clear NP. induction panels as [|names panels IH]; cbn [mapM]; [exists []; split; [reflexivity|intros [|] ? E; discriminate]|].
    destruct (HP names (or_introl eq_refl)) as (NE & CH). destruct names as [|t0 chs]; [congruence|]. cbn [index nth_error rbind tl] in *.
    assert (DL : exists l, mapM (dindex (masked raw m)) chs = Ok l /\ List.length l = List.length chs /\ forall v, In v l -> List.length v = List.length tm).
    { clear -CH COL. induction chs as [|ch chs IH]; cbn [mapM]; [exists []; split; [reflexivity|split; [reflexivity|intros ? []]]|].
      destruct (COL ch (CH ch (or_introl eq_refl))) as (c & -> & LC). cbn [rbind]. destruct IH as (l & -> & LL & Q); [intros x X; apply CH; right; exact X|].
      cbn [rbind]. eexists. split; [reflexivity|]. split; [cbn; lia|]. intros v [<-|V]; auto. }
    destruct DL as (l & -> & LL & Q). cbn [rbind]. destruct IH as (data & -> & K); [intros nm X; apply HP; right; exact X|]. cbn [rbind].
    eexists. split; [reflexivity|]. intros [|i] vax E; [|exact (K i vax E)]. injection E as <-. exists (t0 :: chs), l. cbn. repeat split; [congruence|exact Q]. }
  destruct D as (data & DE & K). rewrite DE. cbn [rbind].
  destruct (shared_x_total ylim tm data tlabel (map LList panels) (fst markers) (snd markers) (fst figpars) (snd figpars)) as (ps & ->); try assumption.
  - pose proof (mapM_length _ _ _ DE). lia.
  - intros i vax V. destruct (K i vax V) as (names & l & NM & -> & LN & LV). exists (LList names). rewrite nth_error_map, NM. split; [reflexivity|].
    split; [exact LV|]. intros j J. cbn [sublabel]. apply index_total. lia.
  - cbn [rbind]. eauto.
Qed.

(** ** What is accepted *)
Lemma index_lt {A} (l : list A) i x : index l i = Ok x -> (i < List.length l)%nat.
Proof. intros H. apply index_ok in H. apply nth_error_Some. congruence. Qed.
Lemma figsize_ok l : figsize l = Ok tt <-> (3 <= List.length l)%nat.
Proof.
  unfold figsize. split.
  - intros H. do 2 (apply rbind_ok in H as (? & _ & H)). apply rbind_ok in H as (x2 & X2 & _). apply index_lt in X2. lia.
  - intros L. destruct (index_total l 0) as (? & ->); [lia|]. destruct (index_total l 1) as (? & ->); [lia|]. destruct (index_total l 2) as (? & ->); [lia|]. reflexivity.
Qed.
Lemma shared_x_sizes ylim haxis vaxes hlabel vlabels vlines cols figpar fonts ps :
  panelplot_with_shared_x ylim haxis vaxes hlabel vlabels vlines cols figpar fonts = Ok ps ->
  (3 <= List.length figpar)%nat /\ (3 <= List.length fonts)%nat.
Proof.
  unfold panelplot_with_shared_x. cbv zeta. intros H. apply rbind_ok in H as (u0 & N0 & H).
  do 2 (apply rbind_ok in H as (? & _ & H)). apply rbind_ok in H as (f2 & F2 & H). apply rbind_ok in H as (u1 & N1 & H).
  apply rbind_ok in H as (qs & Q & H). apply rbind_ok in H as ([] & FS & H). split; [apply figsize_ok, FS|apply index_lt in F2; lia].
Qed.
Lemma marks_colours line at_ cols lines : marks line at_ cols lines -> (List.length at_ <= List.length cols)%nat.
Proof.
  intros (_ & M). destruct (le_lt_dec (List.length at_) (List.length cols)) as [L|L]; [exact L|].
  destruct (nth_error at_ (List.length cols)) as [m|] eqn:E; [|apply nth_error_None in E; lia].
  destruct (M _ _ E) as (col & c & C & _). assert (List.length cols < List.length cols)%nat by (apply nth_error_Some; congruence). lia.
Qed.
Lemma first_element {A} (l : list A) : List.length l <> 0%nat -> exists x, nth_error l 0 = Some x.
Proof. destruct l as [|x l]; [cbn; lia|]. exists x. reflexivity. Qed.

Lemma fdr_accepted ylim raw n tcol tlabel ti tf panels markers figpars : rectangular raw n ->
  (exists ps f, fdrplot ylim raw (tcol, tlabel, ti, tf) panels markers figpars = Ok (ps, f)) <->
  In tcol (map fst raw) /\ (2 <= List.length panels)%nat /\
  (forall names, In names panels -> names <> [] /\ forall ch, In ch (tl names) -> In ch (map fst raw)) /\
  (List.length (fst markers) <= List.length (snd markers))%nat /\
  (3 <= List.length (fst figpars))%nat /\ (3 <= List.length (snd figpars))%nat.
Proof.
  intros RE. split; [|intros (A & B & C & D & E & F); eapply fdr_total; eassumption].
  intros (ps & f & H). destruct (fdr_inv _ _ _ _ _ _ _ _ _ _ _ H) as (times & tm & data & T & F & TM & D & P).
  destruct (shared_x_inv _ _ _ _ _ _ _ _ _ _ P) as (N1 & N0 & L & N). destruct (shared_x_sizes _ _ _ _ _ _ _ _ _ _ P) as (S1 & S2).
  pose proof (mapM_length _ _ _ D) as LD.
  assert (KEYS : forall k c, dget k raw = Some c -> In k (map fst raw)).
  { intros k c E. apply dget_binds in E as (l & r & -> & _). rewrite map_app. apply in_or_app. right. left. reflexivity. }
  split; [exact (KEYS _ _ T)|]. split; [lia|]. split; [|split; [|auto]].
  - intros names I. apply In_nth_error in I as (i & I). destruct (mapM_nth _ _ _ _ _ D I) as (vax & _ & Q).
    apply rbind_ok in Q as (t0 & T0 & Q). apply rbind_ok in Q as (dl & DL & _). split; [intros ->; discriminate|].
    intros ch C. apply In_nth_error in C as (j & C). destruct (mapM_nth _ _ _ _ _ DL C) as (v & _ & DV).
    unfold dindex in DV. rewrite F, masked_get in DV. destruct (dget ch raw) eqn:E; [exact (KEYS _ _ E)|discriminate].
  - destruct (first_element _ N0) as (vax & V). destruct (N _ _ V) as (p & lab & cs & ls & _ & _ & _ & MK & _). exact (marks_colours _ _ _ _ MK).
Qed.

(** ** Panels side by side *)
Lemma shared_y_inv vaxis haxes hlimits vlabel hlabels hlines cols figpar ps :
  panelplot_with_shared_y vaxis haxes hlimits vlabel hlabels hlines cols figpar = Ok ps ->
  List.length haxes <> 1%nat /\ List.length haxes <> 0%nat /\ (3 <= List.length figpar)%nat /\ List.length ps = List.length haxes /\
  forall i hax, nth_error haxes i = Some hax -> exists p lo hi lab lines, nth_error ps i = Some p /\
    nth_error hlimits i = Some [lo; hi] /\ nth_error hlabels i = Some lab /\ List.length hax = List.length vaxis /\
    p_curves p = {| c_x := hax; c_y := vaxis; c_label := None; c_colour := None |} :: lines /\
    p_xlim p = Some [lo; hi] /\ p_xlabel p = Some lab /\
    p_ylabel p = (if Nat.eqb i 0 then Some (LText vlabel) else None) /\
    marks (fun h => segment lo h hi h) hlines cols lines.
Proof.
  unfold panelplot_with_shared_y. cbv zeta. intros H. apply rbind_ok in H as (u0 & N0 & H). apply rbind_ok in H as (u1 & N1 & H).
  apply rbind_ok in H as (qs & Q & H). apply rbind_ok in H as ([] & FS & H). injection H as <-.
  split; [intros E; rewrite E in N1; discriminate|]. split; [intros E; rewrite E in N0; discriminate|]. split; [apply figsize_ok, FS|].
  destruct (enumerateM_ok _ _ _ _ Q) as (L & N). split; [exact L|]. intros i hax V. destruct (N i hax V) as (p & P & F). clear N Q.
  cbn [Nat.add] in F. apply rbind_ok in F as (c & C & F). apply plot_ok in C as (LC & ->). apply rbind_ok in F as (lim & LI & F). apply index_ok in LI.
  apply rbind_ok in F as (u & LL & F). destruct lim as [|lo [|hi [|]]]; try discriminate LL.
  apply rbind_ok in F as (lab & LB & F). apply index_ok in LB. apply rbind_ok in F as (ls & LS & F). injection F as <-.
  eexists. exists lo, hi, lab, ls. split; [exact P|]. split; [exact LI|]. split; [exact LB|]. split; [exact LC|]. cbn [p_curves p_xlim p_xlabel p_ylabel].
  split; [reflexivity|]. split; [reflexivity|]. split; [reflexivity|]. split; [destruct i; reflexivity|].
  destruct (enumerateM_ok _ _ _ _ LS) as (LL2 & LN). split; [exact LL2|]. intros j m M.
  destruct (LN j m M) as (c & C & FC). apply rbind_ok in FC as (col & CO & FC). cbn [Nat.add] in CO. apply index_ok in CO.
  apply plot_ok in FC as (_ & ->). exists col. eexists. split; [exact CO|]. split; [exact C|]. repeat split.
Qed.

Lemma shared_y_accepted vaxis haxes hlimits vlabel hlabels hlines cols figpar :
  (exists ps, panelplot_with_shared_y vaxis haxes hlimits vlabel hlabels hlines cols figpar = Ok ps) <->
  (2 <= List.length haxes)%nat /\ (3 <= List.length figpar)%nat /\ (List.length hlines <= List.length cols)%nat /\
  (List.length haxes <= List.length hlabels)%nat /\
  forall i hax, nth_error haxes i = Some hax -> List.length hax = List.length vaxis /\ exists lo hi, nth_error hlimits i = Some [lo; hi].
Proof.
  split.
  - intros (ps & H). destruct (shared_y_inv _ _ _ _ _ _ _ _ _ H) as (N1 & N0 & FP & L & N). split; [lia|]. split; [exact FP|]. split; [|split].
    + destruct (first_element _ N0) as (hax & V). destruct (N _ _ V) as (p & lo & hi & lab & ls & Q). exact (marks_colours _ _ _ _ (proj2 (proj2 (proj2 (proj2 (proj2 (proj2 (proj2 (proj2 Q))))))))).
    + destruct (le_lt_dec (List.length haxes) (List.length hlabels)) as [Q|Q]; [exact Q|].
      destruct (nth_error haxes (List.length hlabels)) as [hax|] eqn:E; [|apply nth_error_None in E; lia].
      destruct (N _ _ E) as (p & lo & hi & lab & ls & _ & _ & LB & _). assert (List.length hlabels < List.length hlabels)%nat by (apply nth_error_Some; congruence). lia.
    + intros i hax E. destruct (N _ _ E) as (p & lo & hi & lab & ls & _ & LI & _ & LC & _). eauto.
  - intros (A & B & C & D & E). unfold panelplot_with_shared_y. cbv zeta.
    destruct (List.length haxes) as [|[|n]] eqn:EN; try lia. cbn [subplots subscriptable rbind].
    match goal with |- exists ps, rbind (enumerateM ?f 0 haxes) _ = _ => destruct (enumerateM_total f haxes 0) as (ps & ->) end;
      [|cbn [rbind]; rewrite (proj2 (figsize_ok figpar) B); cbn; eauto].
    intros i hax V. destruct (E i hax V) as (LC & lo & hi & LI). cbn [Nat.add]. rewrite (proj2 (plot_ok hax vaxis None None _) (conj LC eq_refl)). cbn [rbind].
    rewrite (proj2 (index_ok _ _ _) LI). cbn [rbind List.length Nat.eqb]. destruct (index_total hlabels i) as (lab & ->).
    { assert (i < List.length haxes)%nat by (apply nth_error_Some; congruence). lia. }
    cbn [rbind]. match goal with |- context [enumerateM ?g 0 hlines] => destruct (enumerateM_total g hlines 0) as (ls & ->) end; [|cbn; eauto].
    intros j m M. cbn [Nat.add]. destruct (index_total cols j) as (col & ->).
    { assert (j < List.length hlines)%nat by (apply nth_error_Some; congruence). lia. }
    cbn. eauto.
Qed.

(** ** Panels above each other *)
Lemma plain_list ylim haxis vaxes hlabel vlabels vlines cols figpar fonts ps i ys :
  nth_error vaxes i = Some (SList (map (fun y => [y]) ys)) -> ys <> [] -> List.length haxis <> 1%nat ->
  panelplot_with_shared_x ylim haxis vaxes hlabel vlabels vlines cols figpar fonts <> Ok ps.
Proof.
  intros V NE L H. destruct (shared_x_inv _ _ _ _ _ _ _ _ _ _ H) as (_ & _ & _ & N).
  destruct (N _ _ V) as (p & lab & cs & ls & _ & _ & _ & _ & _ & _ & _ & _ & _ & Q). destruct ys as [|y ys]; [congruence|].
  destruct (Q O [y] eq_refl) as (nm & _ & E & _). cbn in E. congruence.
Qed.

Lemma several_series ylim haxis vaxes hlabel vlabels vlines cols figpar fonts ps i l names :
  panelplot_with_shared_x ylim haxis vaxes hlabel vlabels vlines cols figpar fonts = Ok ps ->
  nth_error vaxes i = Some (SList l) -> nth_error vlabels i = Some (LList names) ->
  exists p title rest curves lines, nth_error ps i = Some p /\ names = title :: rest /\ p_ylabel p = Some (LText title) /\ p_legend p = true /\
  p_xlabel p = (if Nat.eqb (i + 1) (List.length vaxes) then Some hlabel else None) /\
  p_curves p = (curves ++ lines)%list /\ List.length curves = List.length l /\
  (forall j v, nth_error l j = Some v -> exists name, nth_error rest j = Some name /\
     nth_error curves j = Some {| c_x := haxis; c_y := v; c_label := Some name; c_colour := None |}) /\
  marks (fun m => segment m (fst (ylim curves)) m (snd (ylim curves))) vlines cols lines.
Proof.
  intros H V LB. destruct (shared_x_inv _ _ _ _ _ _ _ _ _ _ H) as (_ & _ & _ & N).
  destruct (N _ _ V) as (p & lab & cs & ls & P & LB' & EC & MK & _ & XL & LG & (title & T & YL) & CL & Q). rewrite LB in LB'. injection LB' as <-.
  cbn [sublabel] in T. apply index_ok in T. destruct names as [|t0 rest]; [discriminate|]. injection T as ->.
  exists p, title, rest, cs, ls. do 7 (split; [first [reflexivity|assumption]|]). split; [|exact MK].
  intros j v J. destruct (Q j v J) as (nm & NM & _ & C). exists nm. split; [|exact C]. cbn [sublabel] in NM. apply index_ok in NM.
  replace (j + 1)%nat with (S j) in NM by lia. exact NM.
Qed.
Lemma one_series ylim haxis vaxes hlabel vlabels vlines cols figpar fonts ps i v :
  panelplot_with_shared_x ylim haxis vaxes hlabel vlabels vlines cols figpar fonts = Ok ps ->
  nth_error vaxes i = Some (SOne v) ->
  exists p lab lines, nth_error ps i = Some p /\ nth_error vlabels i = Some lab /\ p_ylabel p = Some lab /\ p_legend p = false /\
  p_xlabel p = (if Nat.eqb (i + 1) (List.length vaxes) then Some hlabel else None) /\
  p_curves p = {| c_x := haxis; c_y := v; c_label := None; c_colour := None |} :: lines /\
  let own := [{| c_x := haxis; c_y := v; c_label := None; c_colour := None |}] in
  marks (fun m => segment m (fst (ylim own)) m (snd (ylim own))) vlines cols lines.
Proof.
  intros H V. destruct (shared_x_inv _ _ _ _ _ _ _ _ _ _ H) as (_ & _ & _ & N).
  destruct (N _ _ V) as (p & lab & cs & ls & P & LB & EC & MK & _ & XL & -> & _ & YL & LG).
  exists p, lab, ls. do 6 (split; [first [reflexivity|assumption]|]). exact MK.
Qed.
Lemma text_label ylim haxis vaxes hlabel vlabels vlines cols figpar fonts ps i l s :
  panelplot_with_shared_x ylim haxis vaxes hlabel vlabels vlines cols figpar fonts = Ok ps ->
  nth_error vaxes i = Some (SList l) -> nth_error vlabels i = Some (LText s) ->
  exists p c rest, nth_error ps i = Some p /\ s = String c rest /\ p_ylabel p = Some (LText (String c "")).
Proof.
  intros H V LB. destruct (shared_x_inv _ _ _ _ _ _ _ _ _ _ H) as (_ & _ & _ & N).
  destruct (N _ _ V) as (p & lab & cs & ls & P & LB' & EC & MK & _ & XL & LG & (title & T & YL) & _). rewrite LB in LB'. injection LB' as <-.
  cbn [sublabel] in T. destruct s as [|c rest]; [discriminate|]. cbn in T. injection T as <-. exists p, c, rest. auto.
Qed.
Lemma shared_x_accepted ylim haxis vaxes hlabel vlabels vlines cols figpar fonts :
  (forall i l s, nth_error vaxes i = Some (SList l) -> nth_error vlabels i <> Some (LText s)) ->
  (exists ps, panelplot_with_shared_x ylim haxis vaxes hlabel vlabels vlines cols figpar fonts = Ok ps) <->
  (2 <= List.length vaxes)%nat /\ (List.length vlines <= List.length cols)%nat /\
  (3 <= List.length figpar)%nat /\ (3 <= List.length fonts)%nat /\
  forall i vax, nth_error vaxes i = Some vax -> exists lab, nth_error vlabels i = Some lab /\
     match vax, lab with
     | SOne v, _ => List.length v = List.length haxis
     | SList l, LList names => (List.length l < List.length names)%nat /\ forall v, In v l -> List.length v = List.length haxis
     | SList _, LText _ => False
     end.
Proof.
  intros NT. split.
  - intros (ps & H). destruct (shared_x_inv _ _ _ _ _ _ _ _ _ _ H) as (N1 & N0 & L & N). destruct (shared_x_sizes _ _ _ _ _ _ _ _ _ _ H) as (S1 & S2).
    split; [lia|]. split; [|split; [exact S1|split; [exact S2|]]].
    + destruct (first_element _ N0) as (vax & V). destruct (N _ _ V) as (p & lab & cs & ls & _ & _ & _ & MK & _). exact (marks_colours _ _ _ _ MK).
    + intros i vax V. destruct (N _ _ V) as (p & lab & cs & ls & _ & LB & _ & _ & _ & _ & Q). exists lab. split; [exact LB|].
      destruct vax as [l|v]; [|exact (proj1 (proj2 Q))]. destruct Q as (_ & (title & T & _) & _ & Q).
      destruct lab as [s|names]; [exact (NT _ _ _ V LB)|]. cbn [sublabel] in T, Q. split.
      * destruct (le_lt_dec (List.length names) (List.length l)) as [X|X]; [|exact X]. apply index_lt in T.
        destruct (nth_error l (List.length names - 1)) as [v|] eqn:E; [|apply nth_error_None in E; lia].
        destruct (Q _ _ E) as (nm & NM & _). apply index_lt in NM. lia.
      * intros v I. apply In_nth_error in I as (j & I). destruct (Q _ _ I) as (nm & _ & E & _). exact E.
  - intros (A & B & C & D & E). apply shared_x_total; try assumption. intros i vax V. destruct (E i vax V) as (lab & LB & X). exists lab. split; [exact LB|].
    destruct vax as [l|v]; [|exact X]. destruct lab as [s|names]; [destruct X|]. destruct X as (X & Y). split; [exact Y|].
    intros j J. cbn [sublabel]. apply index_total. lia.
Qed.

(** ** Concrete cases *)
Definition example_ylim (cs : list curve) : num * num := (Fin 0, Fin 10).
Definition example_frame : frame :=
  [("Time", [Fin 0; Fin 1; Fin 2; Fin 3]); ("IAS", [Fin 60; NonFin; Fin 70; Fin 75]); ("TAS", [Fin 61; Fin 66; Fin 71; Fin 76]); ("Pitch", [Fin 1; Fin 5; Fin 6; Fin 7])].
Definition example_panels : list (list string) := [["Speed (knots)"; "IAS"; "TAS"]; ["Angle (deg)"; "Pitch"]].
Lemma example_rectangular : rectangular example_frame 4.
Proof. intros k c [[= <- <-]|[[= <- <-]|[[= <- <-]|[[= <- <-]|[]]]]]; reflexivity. Qed.
Lemma fdr_case : rectangular example_frame 4 /\ exists ps f, fdrplot example_ylim example_frame ("Time", "Time (s)", Fin 1, Fin 2.5) example_panels ([Fin 1.5; Fin 2], ["grey"; "red"]) ([Fin 6; Fin 10; Fin 300], [Fin 8; Fin 8; Fin 8]) = Ok (ps, f).
Proof.
  split; [exact example_rectangular|]. apply (fdr_accepted _ _ 4); [exact example_rectangular|]. split; [cbn; tauto|]. split; [cbn; lia|]. split.
  - intros names [<-|[<-|[]]]; (split; [discriminate|]); intros ch; cbn; intuition (subst; tauto).
  - cbn. repeat split; lia.
Qed.
Lemma shared_y_case : exists ps, panelplot_with_shared_y [Fin 0; Fin 1000; Fin 2000] [[Fin 15; Fin 8; Fin 2]; [Fin 1013; Fin 900; Fin 800]] [[Fin (-10); Fin 30]; [Fin 700; Fin 1100]]
  "Altitude (m)" ["T (C)"; "p (hPa)"] [Fin 500] ["blue"] [Fin 10; Fin 6; Fin 100] = Ok ps.
Proof. cbn. eexists. reflexivity. Qed.
Lemma shared_x_case : exists ps, panelplot_with_shared_x example_ylim [Fin 0; Fin 1; Fin 2] [SList [[Fin 1; Fin 2; Fin 3]; [Fin 4; Fin 5; Fin 6]]; SOne [Fin 7; Fin 8; Fin 9]]
  "t" [LList ["y"; "one"; "two"]; LText "z"] [Fin 1] ["grey"] [Fin 6; Fin 10; Fin 100] [Fin 8; Fin 8; Fin 8] = Ok ps.
Proof. cbn. eexists. reflexivity. Qed.
Lemma text_label_case : exists ps, panelplot_with_shared_x example_ylim [Fin 0; Fin 1; Fin 2] [SList [[Fin 1; Fin 2; Fin 3]]; SOne [Fin 7; Fin 8; Fin 9]]
  "t" [LText "speed"; LText "z"] [] [] [Fin 6; Fin 10; Fin 100] [Fin 8; Fin 8; Fin 8] = Ok ps.
Proof. cbn. eexists. reflexivity. Qed.
Lemma lists_labelled_case : forall i l s,
  nth_error [SList [[Fin 1; Fin 2; Fin 3]; [Fin 4; Fin 5; Fin 6]]; SOne [Fin 7; Fin 8; Fin 9]] i = Some (SList l) ->
  nth_error [LList ["y"; "one"; "two"]; LText "z"] i <> Some (LText s).
Proof. intros [|[|[|i]]] l s H; cbn in *; congruence. Qed.
Lemma shared_y_contents vaxis haxes hlimits vlabel hlabels hlines cols figpar ps :
  panelplot_with_shared_y vaxis haxes hlimits vlabel hlabels hlines cols figpar = Ok ps ->
  List.length ps = List.length haxes /\
  forall i hax, nth_error haxes i = Some hax -> exists p lo hi lab lines, nth_error ps i = Some p /\
    nth_error hlimits i = Some [lo; hi] /\ nth_error hlabels i = Some lab /\
    p_curves p = {| c_x := hax; c_y := vaxis; c_label := None; c_colour := None |} :: lines /\
    p_xlim p = Some [lo; hi] /\ p_xlabel p = Some lab /\
    p_ylabel p = (if Nat.eqb i 0 then Some (LText vlabel) else None) /\
    marks (fun h => segment lo h hi h) hlines cols lines.
Proof.
  intros H. destruct (shared_y_inv _ _ _ _ _ _ _ _ _ H) as (_ & _ & _ & L & N). split; [exact L|]. intros i hax E.
  destruct (N i hax E) as (p & lo & hi & lab & ls & A & B & C & _ & D). exists p, lo, hi, lab, ls. tauto.
Qed.
