(** The sensitivity diagrams: focus masks, the choice of diagrams. *)
From Coq Require Import Sorted.
From Verif Require Import Base BaseFacts UnitsModel AtmosModel AtmosSpec ConceptModel ConceptSpec MethodsModel MethodsSpec ConstraintSpec
  SensitivityModel SensitivitySpec SensitivityPlotModel SensitivityPlotSpec ConceptProofs ConceptProofs6 MethodsProofs
  ConstraintProofs4 SensitivityProofs SensitivityProofs2 SensitivityProofs3 SensitivityPlotProofs SensitivityPlotProofs2 SensitivityPlotProofs3.
Open Scope R_scope.
Open Scope string_scope.

(** ** Consecutive runs of an ascending list of indices *)
Definition run_of (ij : nat * nat) (g : list nat) : Prop := g = seq (fst ij) (S (snd ij - fst ij)).
Lemma consecutive_runs r : forall i, StronglySorted lt (i :: r) -> exists ij ijs,
  Forall2 run_of (ij :: ijs) (consecutive (i :: r)) /\ fst ij = i /\
  StronglySorted (fun p q => snd p < fst q)%nat (ij :: ijs) /\
  (forall q, In q (ij :: ijs) -> stretch (fun k => In k (i :: r)) (fst q) (snd q)) /\
  forall k, In k (i :: r) <-> exists q, In q (ij :: ijs) /\ (fst q <= k <= snd q)%nat.
Proof.
  induction r as [|j r IH]; intros i S.
  - exists (i, i), []. split; [constructor; [|constructor]; unfold run_of; cbn [fst snd]; rewrite Nat.sub_diag; reflexivity|].
    split; [reflexivity|]. split; [repeat constructor|]. split.
    + intros q [<-|[]]. cbn [fst snd]. split; [lia|]. split; [intros k K; left; lia|].
      split; [cbn; lia|]. intros k K [E|[]]. lia.
    + intros k. cbn. split; [intros [<-|[]]; exists (i, i); cbn; auto|intros (q & [<-|[]] & Q); cbn in Q; lia].
  - inversion S as [|? ? S' F]; subst. assert (IJ : (i < j)%nat) by (inversion F; assumption).
    assert (FJ : forall k, In k (j :: r) -> (j <= k)%nat).
    { intros k [<-|I]; [lia|]. inversion S' as [|? ? _ F']; subst. rewrite Forall_forall in F'. specialize (F' k I). lia. }
    destruct (IH j S') as (ij & ijs & RUN & EJ & SSQ & STR & COV).
    assert (ORD : forall q, In q ijs -> (snd ij < fst q)%nat) by (inversion SSQ as [|? ? _ FQ]; subst; rewrite Forall_forall in FQ; exact FQ).
    assert (LOW : forall q, In q (ij :: ijs) -> (j <= fst q)%nat).
    { intros q I. destruct (STR q I) as (L & A & _). apply FJ, (A (fst q)). lia. }
    assert (REST : forall q, In q (ij :: ijs) -> (1 + i < fst q)%nat -> stretch (fun k => In k (i :: j :: r)) (fst q) (snd q)).
    { intros q I L0. destruct (STR q I) as (L & A & B & D). split; [exact L|]. split; [intros k K; right; apply A, K|].
      split; [intros [Q|Q]; [lia|contradiction]|]. intros k K [Q|Q]; [lia|]. exact (D k K Q). }
    change (consecutive (i :: j :: r)) with
      (if Nat.eqb j (1 + i) then match consecutive (j :: r) with g :: gs => (i :: g) :: gs | [] => [[i]] end else [i] :: consecutive (j :: r)).
    destruct (Nat.eqb_spec j (1 + i)) as [E|E].
    + destruct (consecutive (j :: r)) as [|g gs]; inversion RUN as [|? ? ? ? R1 R2]; subst.
      destruct (STR ij (or_introl eq_refl)) as (L & A & B & _).
      exists (i, snd ij), ijs. split; [constructor; [|exact R2]|split; [reflexivity|split; [inversion SSQ as [|? ? SQ FQ]; subst; constructor; assumption|split]]].
      * unfold run_of. cbn [fst snd].
        replace (snd ij - i)%nat with (1 + (snd ij - fst ij))%nat by lia. unfold run_of in R1. rewrite R1. cbn [seq plus]. replace (snd ij - (1 + i))%nat with (snd ij - fst ij)%nat by lia. rewrite E. reflexivity.
      * intros q [<-|I]; cbn [fst snd].
        -- split; [lia|]. split.
           ++ intros k K. destruct (Nat.eq_dec i k) as [Q|Q]; [left; exact Q|]. right. apply A. lia.
           ++ split; [intros [Q|Q]; [lia|contradiction]|]. intros k K [Q|Q]; [lia|]. apply FJ in Q. lia.
        -- apply REST; [right; exact I|]. pose proof (ORD q I). lia.
      * intros k. change (In k (i :: fst ij :: r)) with (i = k \/ In k (fst ij :: r)). rewrite COV. split.
        -- intros [<-|(q & [<-|I] & Q)]; [exists (i, snd ij); cbn [fst snd In]; split; [auto|lia]|exists (i, snd ij); cbn [fst snd In]; split; [auto|lia]|exists q; cbn [In]; auto].
        -- intros (q & [<-|I] & Q); cbn [fst snd] in Q; [|right; exists q; cbn [In]; auto].
           destruct (Nat.eq_dec i k) as [Z|Z]; [left; exact Z|right; exists ij; cbn [In]; split; [auto|lia]].
    + exists (i, i), (ij :: ijs). split; [constructor; [unfold run_of; cbn [fst snd]; rewrite Nat.sub_diag; reflexivity|exact RUN]|].
      split; [reflexivity|]. split; [constructor; [exact SSQ|apply Forall_forall; intros q I; cbn [snd]; pose proof (LOW q I); lia]|]. split.
      * intros q [<-|I]; [|apply REST; [exact I|pose proof (LOW q I); lia]]. cbn [fst snd]. split; [lia|].
        split; [intros k K; left; lia|]. split; [intros [Q|Q]; [lia|]; apply FJ in Q; lia|].
        intros k K [Q|Q]; [lia|]. apply FJ in Q. lia.
      * intros k. change (In k (i :: j :: r)) with (i = k \/ In k (j :: r)). rewrite COV. split.
        -- intros [<-|(q & I & Q)]; [exists (i, i); cbn [fst snd In]; split; [auto|lia]|exists q; split; [right; exact I|exact Q]].
        -- intros (q & [<-|I] & Q); [left; cbn in Q; lia|right; exists q; auto].
Qed.

Lemma pymaxi_seq n : forall a, pymaxi (seq a (S n)) = Ok (a + n)%nat.
Proof.
  intros a. cbn [seq pymaxi]. f_equal. revert a.
  assert (K : forall n a m, (a <= m)%nat -> (m <= a)%nat -> fold_left Nat.max (seq (S a) n) m = (a + n)%nat).
  { clear n. induction n as [|n IH]; intros a m L1 L2; cbn [seq fold_left]; [lia|]. rewrite (IH (S a)); lia. }
  intros a. apply K; lia.
Qed.
Lemma pymini_seq n a : pymini (seq a (S n)) = Ok a.
Proof.
  cbn [seq pymini]. f_equal. assert (K : forall n b, (a <= b)%nat -> fold_left Nat.min (seq b n) a = a).
  { clear n. induction n as [|n IH]; intros b L; cbn [seq fold_left]; [reflexivity|]. rewrite Nat.min_l by lia. apply IH. lia. }
  apply K. lia.
Qed.
Lemma pymaxi_sorted l m : StronglySorted lt l -> pymaxi l = Ok m -> In m l /\ forall i, In i l -> (i <= m)%nat.
Proof.
  destruct l as [|x l]; [discriminate|]. intros _. cbn [pymaxi]. intros [= <-].
  revert x. induction l as [|y l IH]; intros x; cbn [fold_left].
  - split; [left; reflexivity|intros i [<-|[]]; lia].
  - destruct (IH (Nat.max x y)) as (A & B). split.
    + destruct A as [A|A]; [|right; right; exact A]. rewrite <- A. destruct (Nat.max_spec x y) as [(_ & ->)|(_ & ->)]; cbn; auto.
    + intros i [<-|[<-|I]]; [|pose proof (B _ (or_introl eq_refl)); lia|apply B; right; exact I].
      pose proof (B _ (or_introl eq_refl)). lia.
Qed.

Lemma sens_diagram_inv ext self wl y yl x labels mask cn sel ds : In (cn, sel) analysed ->
  propulsionsensitivity_monothetic ext self wl y yl x labels (ShowOne cn) mask = Ok ds ->
  exists fg d, figure ext self wl y x yl = Ok fg /\ sensitivityplot fg labels mask (cn, sel) = Ok d /\ ds = [d].
Proof.
  unfold propulsionsensitivity_monothetic. intros I H. apply rbind_ok in H as (fg & F & H). exists fg.
  assert (FND : find (fun q => String.eqb cn (fst q)) sensitivityplots_list = Some (cn, sel)).
  { cbn in I. destruct I as [[= <- <-]|[[= <- <-]|[[= <- <-]|[[= <- <-]|[[= <- <-]|[]]]]]]; reflexivity. }
  rewrite FND in H. destruct (sensitivityplot fg labels mask (cn, sel)) as [d|] eqn:E; [|discriminate]. cbn in H. injection H as <-.
  exists d. auto.
Qed.

Lemma last_nth (l : list R) d : l <> [] -> nth_error l (List.length l - 1) = Some (last l d).
Proof.
  induction l as [|u l IH]; [congruence|]. intros _. destruct l as [|u' l]; [reflexivity|].
  change (last (u :: u' :: l) d) with (last (u' :: l) d). rewrite <- IH by discriminate. cbn [List.length].
  replace (S (S (List.length l)) - 1)%nat with (S (S (List.length l) - 1)) by lia. reflexivity.
Qed.
Lemma last_map_Fin l : l <> [] -> last (map Fin l) NonFin = Fin (last l 0).
Proof.
  induction l as [|u l IH]; [congruence|]. intros _. destruct l as [|u' l]; [reflexivity|].
  change (last (map Fin (u :: u' :: l)) NonFin) with (last (map Fin (u' :: l)) NonFin). change (last (u :: u' :: l) 0) with (last (u' :: l) 0).
  apply IH. discriminate.
Qed.

Lemma below_index c f i : List.length (elements c) = List.length (elements f) ->
  forall bl, broadcast (fun a b => if a <? nan_to_num b then #1 else #0)%num (elements c) (elements f) = Ok bl ->
  (In i (where_true (map truthy bl)) <-> below_front c f i).
Proof.
  intros L bl B. unfold broadcast in B. rewrite L, Nat.eqb_refl in B. injection B as <-. rewrite map_map, where_map.
  unfold below_front. generalize dependent (elements f). generalize (elements c). clear. intros c f L.
  assert (CMB : forall z, nth_error (combine c f) i = Some z <-> nth_error c i = Some (fst z) /\ nth_error f i = Some (snd z)).
  { revert f L i. induction c as [|a c IH]; intros [|b f] L i [z1 z2]; try discriminate L; cbn [combine fst snd].
    - destruct i; cbn; split; intuition discriminate.
    - destruct i as [|i]; cbn [nth_error]; [split; [intros [= -> ->]; auto|intros ([= ->] & [= ->]); reflexivity]|].
      rewrite IH by (cbn in L; lia). reflexivity. }
  assert (T1 : truthy (#1)%num = true) by (cbn; rewrite Reqb_false by lra; reflexivity).
  assert (T0 : truthy (#0)%num = false) by (cbn; rewrite Reqb_true by reflexivity; reflexivity).
  split.
  - intros ([a b] & E & T). apply CMB in E as (E1 & E2). cbn [fst snd] in *. destruct (a <? nan_to_num b)%num eqn:Q; [|rewrite T0 in T; discriminate].
    destruct a as [a|]; [|discriminate]. exists a. split; [exact E1|]. destruct b as [b|]; cbn [nan_to_num] in Q; rewrite nltb_fin in Q; apply Rltb_iff in Q.
    + left. exists b. auto.
    + right. auto.
  - intros (a & E1 & [(b & E2 & Q)|(E2 & Q)]).
    + exists (Fin a, Fin b). split; [apply CMB; auto|]. cbn [fst snd nan_to_num]. rewrite nltb_fin, Rltb_true by exact Q. exact T1.
    + exists (Fin a, NonFin). split; [apply CMB; auto|]. cbn [fst snd nan_to_num]. rewrite nltb_fin, Rltb_true by exact Q. exact T1.
Qed.

Lemma masks_drawn ext self wl y yl x labels cn sel xlim parts masks s med ws xs : In (cn, sel) analysed ->
  propulsionsensitivity_monothetic ext self wl y yl x labels (ShowOne cn) true = Ok [DSensitivity cn xlim parts masks] ->
  sensitivity ext self wl y = Ok (s, med) -> axis self wl x ws xs -> NoDup xs ->
  List.length (elements (sel med)) = List.length (elements (rq_combined med)) ->
  exists ijs, Forall2 (mask_of xs (rq_combined med)) ijs masks /\ StronglySorted (fun p q => snd p < fst q)%nat ijs /\
  (forall ij, In ij ijs -> stretch (below_front (sel med) (rq_combined med)) (fst ij) (snd ij)) /\
  (forall i, below_front (sel med) (rq_combined med) i <-> exists ij, In ij ijs /\ (fst ij <= i <= snd ij)%nat).
Proof.
  intros I H S A ND LEN. destruct (sens_diagram_inv _ _ _ _ _ _ _ _ _ _ _ I H) as (fg & d & F & P & Ed). injection Ed as <-.
  destruct (figure_inv _ _ _ _ _ _ _ F) as (s' & med' & comb & fx & S' & CC & _ & M & X & _ & _ & FE & _).
  rewrite S in S'. injection S' as <- <-. rewrite (axis_x _ _ _ _ _ A) in X.
  unfold sensitivityplot in P. cbn [fst snd] in P. apply rbind_ok in P as (prime & _ & P). apply rbind_ok in P as (pts & _ & P).
  apply rbind_ok in P as (lo & _ & P). apply rbind_ok in P as (hi & _ & P). apply rbind_ok in P as (mk & MK & P).
  assert (mk = masks) as -> by congruence. clear P. unfold focusmasks in MK. rewrite M in MK.
  change (recastasnpfloatarray (sel med)) with (elements (sel med)) in MK. change (recastasnpfloatarray (rq_combined med)) with (elements (rq_combined med)) in MK.
  apply rbind_ok in MK as (bl & BL & MK). cbv zeta in MK.
  assert (BI : forall i, In i (where_true (map truthy bl)) <-> below_front (sel med) (rq_combined med) i) by (intros; apply (below_index _ _ _ LEN _ BL)).
  pose proof (where_sorted (map truthy bl)) as SS. destruct (where_true (map truthy bl)) as [|i0 r] eqn:EW; [cbn in MK; discriminate|].
  destruct (consecutive_runs r i0 SS) as (ij & ijs & RUN & _ & SSQ & STR & COV).
  exists (ij :: ijs). assert (XNE : xs <> []).
  { intros ->. destruct (figure_bounds _ _ _ _ _ _ _ _ _ F A ND) as (a & b & _ & _ & (q & Q & _) & _). destruct q; discriminate. }
  split; [|split; [exact SSQ|split]].
  - pose proof (where_sorted (map isfinite comb)) as SF. rewrite <- FE in SF.
    assert (DF : forall i, In i (fg_feas fg) <-> defined_at (rq_combined med) i) by (intros; rewrite FE, CC; apply where_finite).
    assert (LE : forall q, In q (ij :: ijs) -> (fst q <= snd q)%nat) by (intros q Q; exact (proj1 (STR q Q))). clear STR COV SSQ.
    clear H. revert masks MK LE. induction RUN as [|q g qs gs R RUN IH]; intros masks MK LE; cbn [mapM] in MK.
    + injection MK as <-. constructor.
    + apply rbind_ok in MK as (m & MR & MK). apply rbind_ok in MK as (ms & MS & MK). injection MK as <-. constructor; [|].
      * unfold maskregion in MR. rewrite X, R, pymaxi_seq in MR. cbn [rbind] in MR.
        replace (fst q + (snd q - fst q))%nat with (snd q) in MR by (pose proof (LE q (or_introl eq_refl)); lia).
        apply rbind_ok in MR as (z2 & Z2 & MR). rewrite R, pymini_seq in MR. cbn [rbind] in MR. apply rbind_ok in MR as (z1 & Z1 & MR). apply rbind_ok in MR as (f & FF & MR).
        apply rbind_ok in MR as (zf & ZF & MR). injection MR as <-.
        apply nth_num_ok in Z1, Z2, ZF. rewrite nth_error_map in Z1, Z2, ZF.
        destruct (nth_error xs (fst q)) as [a|] eqn:E1; [|discriminate]. destruct (nth_error xs (snd q)) as [b|] eqn:E2; [|discriminate].
        destruct (nth_error xs f) as [c|] eqn:E3; [|discriminate]. cbn in Z1, Z2, ZF. injection Z1 as <-. injection Z2 as <-. injection ZF as <-.
        exists a, b. split; [exact E1|]. split; [exact E2|]. split; [reflexivity|]. cbn [snd neqb].
        destruct (pymaxi_sorted _ _ SF FF) as (FI & FM).
        destruct (Reqb_reflect b c) as [Q|Q].
        -- left. assert (snd q = f) as -> by (subst c; eapply nth_inj; eassumption). split; [apply DF, FI|].
           split; [intros k K; apply FM, DF, K|]. apply last_map_Fin, XNE.
        -- right. split; [|reflexivity]. intros (D & MX). apply Q. apply DF in D. pose proof (FM _ D). apply DF in FI. pose proof (MX _ FI).
           assert (snd q = f) as EQ by lia. rewrite EQ, E3 in E2. congruence.
      * apply (IH ms MS). intros q' Q'. apply LE. right. exact Q'.
  - intros q Q. destruct (STR q Q) as (L & B & C & D). split; [exact L|]. split; [intros k K; apply BI, B, K|].
    split; [intros K; apply C, BI, K|]. intros k K Z. apply (D k K), BI, Z.
  - intros i. rewrite <- BI. apply COV.
Qed.

(** ** A constraint that is nowhere below the front *)
Lemma sens_mask_inv fg labels cn sel d : sensitivityplot fg labels true (cn, sel) = Ok d ->
  exists masks, focusmasks fg (sel (fg_med fg)) = Ok masks.
Proof.
  intros P. unfold sensitivityplot in P. cbn [fst snd] in P. apply rbind_ok in P as (prime & _ & P). apply rbind_ok in P as (pts & _ & P).
  apply rbind_ok in P as (lo & _ & P). apply rbind_ok in P as (hi & _ & P). apply rbind_ok in P as (mk & MK & P). exists mk. exact MK.
Qed.
Lemma no_masks fg sel : (forall i, ~ below_front (sel (fg_med fg)) (rq_combined (fg_med fg)) i) ->
  List.length (elements (sel (fg_med fg))) = List.length (elements (rq_combined (fg_med fg))) ->
  focusmasks fg (sel (fg_med fg)) = Err ValueError.
Proof.
  intros NB LEN. unfold focusmasks. change recastasnpfloatarray with elements.
  match goal with |- rbind ?e _ = _ => destruct e as [bl|] eqn:BL end.
  - cbn [rbind]. destruct (where_true (map truthy bl)) as [|i r] eqn:E; [reflexivity|]. exfalso. apply (NB i).
    apply (below_index _ _ _ LEN _ BL). rewrite E. left. reflexivity.
  - unfold broadcast in BL. rewrite LEN, Nat.eqb_refl in BL. discriminate.
Qed.
Lemma dominating ext self wl y yl x labels cn sel s med : In (cn, sel) analysed -> sensitivity ext self wl y = Ok (s, med) ->
  List.length (elements (sel med)) = List.length (elements (rq_combined med)) ->
  (forall i, ~ below_front (sel med) (rq_combined med) i) ->
  (forall ds, propulsionsensitivity_monothetic ext self wl y yl x labels (ShowOne cn) false = Ok ds ->
   propulsionsensitivity_monothetic ext self wl y yl x labels (ShowOne cn) true = Err ValueError) /\
  (forall ds, propulsionsensitivity_monothetic ext self wl y yl x labels (ShowOne cn) true <> Ok ds) /\
  (forall ds, propulsionsensitivity_monothetic ext self wl y yl x labels ShowAll true <> Ok ds).
Proof.
  intros I S LEN NB.
  assert (K : forall fg d, figure ext self wl y x yl = Ok fg -> sensitivityplot fg labels true (cn, sel) <> Ok d).
  { intros fg d F P. destruct (figure_inv _ _ _ _ _ _ _ F) as (s' & med' & comb & fx & S' & _ & _ & M & _).
    rewrite S in S'. injection S' as <- <-. apply sens_mask_inv in P as (mk & P). rewrite no_masks in P; [discriminate|rewrite M; exact NB|rewrite M; exact LEN]. }
  split; [|split].
  - intros ds H. destruct (sens_diagram_inv _ _ _ _ _ _ _ _ _ _ _ I H) as (fg & d & F & P & _).
    unfold propulsionsensitivity_monothetic. rewrite F. cbn [rbind].
    assert (FND : find (fun q => String.eqb cn (fst q)) sensitivityplots_list = Some (cn, sel)).
    { cbn in I. destruct I as [[= <- <-]|[[= <- <-]|[[= <- <-]|[[= <- <-]|[[= <- <-]|[]]]]]]; reflexivity. }
    rewrite FND. destruct (figure_inv _ _ _ _ _ _ _ F) as (s' & med' & comb & fx & S' & _ & _ & M & _).
    rewrite S in S'. injection S' as <- <-. unfold sensitivityplot in *. cbn [fst snd] in *.
    apply rbind_ok in P as (prime & E & P). rewrite E. cbn [rbind]. apply rbind_ok in P as (pts & E1 & P). rewrite E1. cbn [rbind].
    apply rbind_ok in P as (lo & E2 & P). rewrite E2. cbn [rbind]. apply rbind_ok in P as (hi & E3 & P). rewrite E3. cbn [rbind].
    rewrite no_masks; [reflexivity|rewrite M; exact NB|rewrite M; exact LEN].
  - intros ds H. destruct (sens_diagram_inv _ _ _ _ _ _ _ _ _ _ _ I H) as (fg & d & F & P & _). exact (K fg d F P).
  - intros ds H. unfold propulsionsensitivity_monothetic in H. apply rbind_ok in H as (fg & F & H).
    apply rbind_ok in H as (l & ML & _). change analysed with sensitivityplots_list in I. apply In_nth_error in I as (n & N).
    destruct (mapM_nth _ _ _ _ _ ML N) as (d & _ & P). exact (K fg d F P).
Qed.

(** ** The choice of diagrams *)
Lemma mapM_Forall2 {A B} (f : A -> res B) l : forall ds, mapM f l = Ok ds <-> Forall2 (fun a d => f a = Ok d) l ds.
Proof.
  induction l as [|a l IH]; intros ds; cbn [mapM].
  - split; [intros [= <-]; constructor|intros F; inversion F; reflexivity].
  - split.
    + intros H. apply rbind_ok in H as (d & E & H). apply rbind_ok in H as (r & M & H). injection H as <-. constructor; [exact E|apply IH, M].
    + intros F. inversion F as [|? d ? r E G]; subst. rewrite E. cbn [rbind]. apply IH in G. rewrite G. reflexivity.
Qed.
Definition diagram_names : list string := ["climb"; "cruise"; "servceil"; "take-off"; "turn"; "combined"].
Lemma sens_name fg labels mask cn d : sensitivityplot fg labels mask cn = Ok d -> diagram_name d = fst cn.
Proof.
  intros P. unfold sensitivityplot in P. apply rbind_ok in P as (prime & _ & P). apply rbind_ok in P as (pts & _ & P).
  apply rbind_ok in P as (lo & _ & P). apply rbind_ok in P as (hi & _ & P). apply rbind_ok in P as (mk & MK & P). injection P as <-. reflexivity.
Qed.
Lemma show_all ext self wl y yl x labels mask ds :
  propulsionsensitivity_monothetic ext self wl y yl x labels ShowAll mask = Ok ds <->
  Forall2 (fun n d => diagram_name d = n /\ propulsionsensitivity_monothetic ext self wl y yl x labels (ShowOne n) mask = Ok [d]) diagram_names ds.
Proof.
  unfold propulsionsensitivity_monothetic. destruct (figure ext self wl y x yl) as [fg|e]; cbn [rbind].
  2:{ split; [discriminate|]. intros F. inversion F as [|? ? ? ? (_ & Q) _]. discriminate. }
  assert (C : forall s cn, find (fun cn => String.eqb s (fst cn)) sensitivityplots_list = Some cn -> forall d,
     (diagram_name d = s /\ match find (fun cn => String.eqb s (fst cn)) sensitivityplots_list with
      | Some cn => rmap (fun d => [d]) (sensitivityplot fg labels mask cn)
      | None => if String.eqb s "combined" then rmap (fun d => [DCombined d]) (combinedplot fg) else Ok [] end = Ok [d]) <->
     sensitivityplot fg labels mask cn = Ok d).
  { intros s cn FND d. rewrite FND. apply find_some in FND as (_ & E). apply String.eqb_eq in E. subst s. split.
    - intros (_ & Q). destruct (sensitivityplot fg labels mask cn) as [d'|]; [|discriminate]. cbn in Q. congruence.
    - intros Q. split; [exact (sens_name _ _ _ _ _ Q)|]. rewrite Q. reflexivity. }
  assert (CC : forall d, (diagram_name d = "combined" /\ match find (fun cn => String.eqb "combined" (fst cn)) sensitivityplots_list with
      | Some cn => rmap (fun d => [d]) (sensitivityplot fg labels mask cn)
      | None => if String.eqb "combined" "combined" then rmap (fun d => [DCombined d]) (combinedplot fg) else Ok [] end = Ok [d]) <->
     exists d', d = DCombined d' /\ combinedplot fg = Ok d').
  { intros d. cbn [find sensitivityplots_list fst]. cbn -[combinedplot]. destruct (combinedplot fg) as [d'|]; cbn.
    - split; [intros (_ & Q); exists d'; split; congruence|intros (d2 & -> & Q); split; [reflexivity|congruence]].
    - split; [intros (_ & Q); discriminate|intros (? & _ & Q); discriminate]. }
  assert (MM : forall l, mapM (sensitivityplot fg labels mask) sensitivityplots_list = Ok l <->
     Forall2 (fun cn d => sensitivityplot fg labels mask cn = Ok d) sensitivityplots_list l) by (intros; apply mapM_Forall2).
  unfold diagram_names.
  split.
  - intros H. apply rbind_ok in H as (l & ML & H). apply rbind_ok in H as (d & CD & H). injection H as <-. apply MM in ML. unfold sensitivityplots_list in ML.
    repeat (match goal with F : Forall2 _ (_ :: _) _ |- _ => inversion F; clear F; subst end).
    match goal with F : Forall2 _ [] _ |- _ => inversion F; subst end. cbn [app].
    repeat (constructor; [eapply C; [reflexivity|assumption]|]). constructor; [apply CC; eauto|constructor].
  - intros F. inversion F as [|? d1 ? ? G1 F1]; subst. inversion F1 as [|? d2 ? ? G2 F2]; subst. inversion F2 as [|? d3 ? ? G3 F3]; subst.
    inversion F3 as [|? d4 ? ? G4 F4]; subst. inversion F4 as [|? d5 ? ? G5 F5]; subst. inversion F5 as [|? d6 ? ? G6 F6]; subst. inversion F6; subst.
    apply CC in G6 as (d' & -> & G6).
    assert (ML : mapM (sensitivityplot fg labels mask) sensitivityplots_list = Ok [d1; d2; d3; d4; d5]).
    { apply MM. repeat (constructor; [eapply C; [|eassumption]; reflexivity|]). constructor. }
    rewrite ML. cbn [rbind]. rewrite G6. reflexivity.
Qed.

Lemma show_other ext self wl y yl x labels mask s : ~ In s diagram_names ->
  propulsionsensitivity_monothetic ext self wl y yl x labels (ShowOne s) mask =
  propulsionsensitivity_monothetic ext self wl y yl x labels ShowNone mask.
Proof.
  intros N. unfold propulsionsensitivity_monothetic. destruct (figure ext self wl y x yl) as [fg|]; [|reflexivity]. cbn [rbind].
  destruct (find (fun cn => String.eqb s (fst cn)) sensitivityplots_list) as [cn|] eqn:E.
  - exfalso. apply find_some in E as (I & Q). apply String.eqb_eq in Q. subst s. apply N. unfold diagram_names. cbn in I.
    destruct I as [<-|[<-|[<-|[<-|[<-|[]]]]]]; cbn; auto 7.
  - destruct (String.eqb_spec s "combined") as [->|]; [|reflexivity]. exfalso. apply N. cbn. auto 7.
Qed.

(** ** A single wing loading *)
Lemma single_loading b d p atm prop self ext wl x labels show mask w0 : pyeta p -> construct b d p atm prop = Ok self ->
  elements wl = [w0] -> forall ds, propulsionsensitivity_monothetic ext self wl Ytw None x labels show mask <> Ok ds.
Proof.
  intros PY C E ds H. unfold propulsionsensitivity_monothetic in H. apply rbind_ok in H as (fg & F & _).
  destruct (figure_inv _ _ _ _ _ _ _ F) as (s & med & comb & fx & S & CC & _).
  destruct (nominal_requirement _ _ _ _ _ _ _ _ _ _ _ PY C S) as (w & W & Y). cbn [requirement_of] in Y.
  destruct (twrequired_parts _ _ _ _ _ _ Y) as (T & _ & _ & _ & _ & M).
  assert (exists t, rq_takeoff med = VNum t) as (t & ET).
  { unfold twrequired_to in T. apply rbind_ok in T as (z1 & _ & T). apply rbind_ok in T as (z2 & _ & T). cbv zeta in T.
    apply rbind_ok in T as (l & ML & T). apply mapM_length in ML. change recastasnpfloatarray with elements in ML.
    cbn [elements] in ML. rewrite E in ML. destruct l as [|t [|? ?]]; try discriminate ML. injection T as T _ _. exists t. symmetry. exact T. }
  assert (V : forall u z r, vmax (VNum u) z = Ok r -> exists q, r = VNum q) by (intros u [z|l|l] r [= <-]; eauto).
  rewrite ET in M. unfold npmax5 in M. apply rbind_ok in M as (m1 & M1 & M). apply V in M1 as (q1 & ->).
  apply rbind_ok in M as (m2 & M2 & M). apply V in M2 as (q2 & ->). apply rbind_ok in M as (m3 & M3 & M). apply V in M3 as (q3 & ->).
  apply V in M as (q & Q). congruence.
Qed.
