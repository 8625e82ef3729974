(** The diagrams of the sensitivity analysis: lists of indices, the region of infeasible
    lift coefficients, the feasible front. *)
From Coq Require Import Sorted.
From Verif Require Import Base BaseFacts UnitsModel AtmosModel AtmosSpec ConceptModel MethodsModel SensitivityModel SensitivitySpec
  SensitivityPlotModel SensitivityPlotSpec ConceptProofs MethodsProofs SensitivityProofs SensitivityProofs2.
Open Scope R_scope.
Open Scope string_scope.

Lemma where_aux m : forall k i, In i (map fst (filter snd (combine (seq k (List.length m)) m))) <->
  (k <= i)%nat /\ nth_error m (i - k) = Some true.
Proof.
  induction m as [|b m IH]; intros k i; cbn [List.length seq combine filter].
  - split; [contradiction|]. intros (_ & H). destruct (i - k)%nat; discriminate.
  - assert (X : In i (map fst (filter snd (combine (seq (S k) (List.length m)) m))) <-> (S k <= i)%nat /\ nth_error (b :: m) (i - k) = Some true).
    { rewrite IH. split; intros (A & B); (split; [exact A|]).
      - replace (i - k)%nat with (S (i - S k)) by lia. exact B.
      - replace (i - k)%nat with (S (i - S k)) in B by lia. exact B. }
    cbn [snd]. destruct b; cbn [map fst In]; rewrite X.
    + split.
      * intros [<-|(A & B)]; [split; [lia|rewrite Nat.sub_diag; reflexivity]|split; [lia|exact B]].
      * intros (A & B). destruct (Nat.eq_dec k i) as [E|E]; [left; exact E|right; split; [lia|exact B]].
    + split.
      * intros (A & B). split; [lia|exact B].
      * intros (A & B). split; [|exact B]. destruct (Nat.eq_dec k i) as [<-|E]; [rewrite Nat.sub_diag in B; discriminate|lia].
Qed.
Lemma where_true_in m i : In i (where_true m) <-> nth_error m i = Some true.
Proof. unfold where_true. rewrite where_aux, Nat.sub_0_r. intuition lia. Qed.
Lemma where_sorted m : StronglySorted lt (where_true m).
Proof.
  unfold where_true. generalize O. induction m as [|b m IH]; intros k; cbn [List.length seq combine filter]; [constructor|].
  cbn [snd]. destruct b; [|apply IH]. cbn [map fst]. constructor; [apply IH|].
  apply Forall_forall. intros i I. apply where_aux in I. lia.
Qed.
Lemma where_map {A} (f : A -> bool) l i : In i (where_true (map f l)) <-> exists x, nth_error l i = Some x /\ f x = true.
Proof.
  rewrite where_true_in, nth_error_map. destruct (nth_error l i) as [x|]; cbn.
  - split; [intros H; exists x; split; [reflexivity|congruence]|intros (y & E & F); congruence].
  - split; [discriminate|intros (y & E & _); discriminate].
Qed.
Lemma where_finite comb i : In i (where_true (map isfinite comb)) <-> defined_at (VArr comb) i.
Proof.
  rewrite where_map. unfold defined_at. cbn [elements]. split.
  - intros (x & E & F). destruct x as [v|]; [exists v; exact E|discriminate].
  - intros (v & E). exists (Fin v). split; [exact E|reflexivity].
Qed.

Lemma sorted_last_max l : StronglySorted lt l -> forall i, In i l -> (i <= last l O)%nat.
Proof.
  induction 1 as [|x l S IH F]; intros i I; [contradiction|]. destruct l as [|y l]; [destruct I as [<-|[]]; cbn; lia|].
  change (last (x :: y :: l) O) with (last (y :: l) O). destruct I as [<-|I]; [|apply IH, I].
  rewrite Forall_forall in F. pose proof (F y (or_introl eq_refl)). pose proof (IH y (or_introl eq_refl)). lia.
Qed.
Lemma last_in {A} (l : list A) d : l <> [] -> In (last l d) l.
Proof.
  induction l as [|x l IH]; [congruence|]. intros _. destruct l as [|y l]; [left; reflexivity|].
  right. apply IH. discriminate.
Qed.
Lemma removelast_sorted l : StronglySorted lt l -> forall i, In i (removelast l) <-> In i l /\ i <> last l O.
Proof.
  induction 1 as [|x l S IH F]; intros i; [cbn; tauto|]. destruct l as [|y l].
  - cbn. intuition congruence.
  - change (removelast (x :: y :: l)) with (x :: removelast (y :: l)). change (last (x :: y :: l) O) with (last (y :: l) O).
    cbn [In]. rewrite IH. cbn [In]. rewrite Forall_forall in F. specialize (F (last (y :: l) O) (last_in (y :: l) O (fun E => nil_cons (eq_sym E)))).
    split; [intros [<-|(A & B)]; [split; [auto|lia]|tauto]|tauto].
Qed.

Lemma mapM_nth_inv {A B} (f : A -> res B) l : forall l' n y, mapM f l = Ok l' -> nth_error l' n = Some y ->
  exists x, nth_error l n = Some x /\ f x = Ok y.
Proof.
  induction l as [|a r IH]; intros l' n y; cbn [mapM].
  - intros [= <-]. destruct n; discriminate.
  - destruct (f a) as [b|] eqn:E; [|discriminate]. cbn [rbind]. destruct (mapM f r) as [ys|] eqn:M; [|discriminate].
    cbn [rbind]. intros [= <-]. destruct n as [|n]; cbn [nth_error].
    + intros [= <-]. exists a. auto.
    + intros N. exact (IH ys n y eq_refl N).
Qed.
Lemma nth_num_ok l i x : nth_num l i = Ok x <-> nth_error l i = Some x.
Proof. unfold nth_num. destruct (nth_error l i); split; intros H; congruence. Qed.

Lemma existsb_neqb v l : existsb (neqb v) l = true <-> exists r, v = Fin r /\ In (Fin r) l.
Proof.
  rewrite existsb_exists. split.
  - intros (x & I & E). destruct v as [a|], x as [b|]; cbn in E; try discriminate. apply Reqb_iff in E as ->. eauto.
  - intros (r & -> & I). exists (Fin r). split; [exact I|]. cbn. apply Reqb_iff. reflexivity.
Qed.
Lemma existsb_false v l : existsb (neqb v) l = false <-> ~ exists r, v = Fin r /\ In (Fin r) l.
Proof. rewrite <- existsb_neqb. destruct (existsb (neqb v) l); split; congruence. Qed.

Lemma figure_inv ext self wl y x yl fg : figure ext self wl y x yl = Ok fg ->
  exists s med comb feas_x, sensitivity ext self wl y = Ok (s, med) /\ rq_combined med = VArr comb /\
  fg_sens fg = s /\ fg_med fg = med /\ fg_x fg = x_function (obj self) (elements wl) x /\
  xcrit_stall (obj self) (pval (weight_n (obj self)) / sc_g)%num x = Ok (fg_stall fg) /\ ylim_hi med yl = Ok (fg_top fg) /\
  fg_feas fg = where_true (map isfinite comb) /\ mapM (nth_num (fg_x fg)) (removelast (fg_feas fg)) = Ok feas_x /\
  fg_infeas fg = filter (fun v => negb (existsb (neqb v) feas_x)) (fg_x fg) /\
  pymaxn (fg_infeas fg) = Ok (fg_x2 fg) /\ pyminn (fg_infeas fg) = Ok (fg_x1 fg).
Proof.
  unfold figure. intros H. apply rbind_ok in H as ((s & med) & S & H). cbv zeta in H.
  apply rbind_ok in H as (st & ST & H). apply rbind_ok in H as (tp & TP & H).
  destruct (rq_combined med) as [|l|comb] eqn:C; try discriminate.
  apply rbind_ok in H as (fx & FX & H). apply rbind_ok in H as (x2 & X2 & H). apply rbind_ok in H as (x1 & X1 & H).
  injection H as <-. exists s, med, comb, fx. cbn.
  change (recastasnpfloatarray wl) with (elements wl) in *. repeat split; assumption.
Qed.

(** loading number [i] is not met by all constraints, or is the last one that is *)
Definition outside (front : val) (i : nat) : Prop := defined_at front i -> forall j, defined_at front j -> (j <= i)%nat.

Lemma axis_x self wl x ws xs : axis self wl x ws xs -> x_function (obj self) (elements wl) x = map Fin xs.
Proof.
  intros (E & A). rewrite E. destruct x; cbn [x_function].
  - rewrite A. reflexivity.
  - destruct A as (W & EW & HW & P & ->). rewrite EW. cbn [pval]. rewrite !map_map. apply map_ext_in.
    intros w I. rewrite ndiv_fin; [reflexivity|]. specialize (P w I). lra.
Qed.
Lemma nth_map_Fin l i x : nth_error (map Fin l) i = Some (Fin x) <-> nth_error l i = Some x.
Proof. rewrite nth_error_map. destruct (nth_error l i); cbn; split; congruence. Qed.
Lemma nth_inj (l : list R) i j x : NoDup l -> nth_error l i = Some x -> nth_error l j = Some x -> i = j.
Proof.
  intros N A B. apply (proj1 (NoDup_nth_error l)); [exact N| |congruence]. apply nth_error_Some. congruence.
Qed.

Lemma figure_bounds ext self wl y x yl fg ws xs : figure ext self wl y x yl = Ok fg -> axis self wl x ws xs -> NoDup xs ->
  exists a b, fg_x1 fg = Fin a /\ fg_x2 fg = Fin b /\
  (exists i, nth_error xs i = Some a /\ outside (rq_combined (fg_med fg)) i) /\
  (exists i, nth_error xs i = Some b /\ outside (rq_combined (fg_med fg)) i) /\
  forall i p, nth_error xs i = Some p -> outside (rq_combined (fg_med fg)) i -> a <= p <= b.
Proof.
  intros H A ND. destruct (figure_inv _ _ _ _ _ _ _ H) as (s & med & comb & fx & _ & C & _ & M & X & _ & _ & FE & FX & IN & X2 & X1).
  pose proof (axis_x _ _ _ _ _ A) as AX. rewrite AX in X. subst med. rewrite C. rewrite X in IN, FX.
  assert (DF : forall i, In i (fg_feas fg) <-> defined_at (VArr comb) i) by (intros; rewrite FE; apply where_finite).
  assert (K : forall i p, nth_error xs i = Some p -> (In (Fin p) fx <-> ~ outside (VArr comb) i)).
  { intros i p E. pose proof (where_sorted (map isfinite comb)) as SS. rewrite <- FE in SS.
    assert (IFF : In i (removelast (fg_feas fg)) <-> ~ outside (VArr comb) i).
    { rewrite (removelast_sorted _ SS), DF. split.
      - intros (D & NL) OO. apply NL. assert (NE : fg_feas fg <> []) by (intros Z; apply DF in D; rewrite Z in D; contradiction).
        pose proof (last_in (fg_feas fg) 0%nat NE) as LI. apply DF in LI. apply (OO D) in LI.
        pose proof (sorted_last_max _ SS i (proj2 (DF i) D)). lia.
      - intros NO. assert (D : defined_at (VArr comb) i).
        { destruct (in_dec Nat.eq_dec i (fg_feas fg)) as [I|I]; [apply DF, I|]. exfalso. apply NO. intros D. apply DF in D. contradiction. }
        split; [exact D|]. intros EQ. apply NO. intros _ j J. rewrite EQ. apply (sorted_last_max _ SS), DF, J. }
    rewrite <- IFF. split.
    - intros I. apply In_nth_error in I as (n & N). destruct (mapM_nth_inv _ _ _ _ _ FX N) as (j & J & Q).
      apply nth_num_ok in Q. apply (proj1 (nth_map_Fin xs j p)) in Q. assert (i = j) as -> by (eapply nth_inj; eassumption).
      eapply nth_error_In, J.
    - intros I. apply In_nth_error in I as (n & N). destruct (mapM_nth _ _ _ _ _ FX N) as (z & Z & Q).
      apply nth_num_ok in Q. rewrite (proj2 (nth_map_Fin xs i p) E) in Q. injection Q as <-. eapply nth_error_In, Z. }
  set (zs := filter (fun p => negb (existsb (neqb (Fin p)) fx)) xs).
  assert (ZI : fg_infeas fg = map Fin zs).
  { rewrite IN. unfold zs. clear. induction xs as [|p l IH]; [reflexivity|]. cbn [map filter]. rewrite IH.
    destruct (negb (existsb (neqb (Fin p)) fx)); reflexivity. }
  assert (ZIN : forall p, In p zs <-> exists i, nth_error xs i = Some p /\ outside (VArr comb) i).
  { intros p. unfold zs. rewrite filter_In, negb_true_iff, existsb_false. split.
    - intros (I & N). apply In_nth_error in I as (i & E). exists i. split; [exact E|].
      assert (NI : ~ In (Fin p) fx) by (intros Z; apply N; exists p; auto). rewrite (K i p E) in NI.
      intros D j J. destruct (le_lt_dec j i) as [L|L]; [exact L|]. exfalso. apply NI. intros O. specialize (O D j J). lia.
    - intros (i & E & O). split; [eapply nth_error_In, E|]. intros (r & R & Z). injection R as <-. apply (K i p E) in Z. contradiction. }
  rewrite ZI in X1, X2. apply pymaxn_largest in X2 as (rs & m & E1 & -> & I1 & L1). apply pyminn_smallest in X1 as (rs' & m' & E2 & -> & I2 & L2).
  apply map_Fin_inj in E1. apply map_Fin_inj in E2. subst rs rs'.
  exists m', m. split; [reflexivity|]. split; [reflexivity|]. split; [apply ZIN, I2|]. split; [apply ZIN, I1|].
  intros i p E O. assert (In p zs) by (apply ZIN; eauto). auto.
Qed.
