(** Proofs about AircraftConcept.__init__. *)
From Verif Require Import Base BaseFacts ConceptModel ConceptSpec.
Open Scope R_scope.
Open Scope string_scope.

(** ** Dictionaries *)
Lemma dget_set_same {V} k (v : V) d : dget k (dset k v d) = Some v.
Proof.
  induction d as [|[k' w] d IH]; simpl; [rewrite String.eqb_refl; reflexivity|].
  destruct (String.eqb k k') eqn:E; simpl; rewrite E; auto.
Qed.
Lemma dget_set_other {V} k k0 (v : V) d : k <> k0 -> dget k (dset k0 v d) = dget k d.
Proof.
  intros N. induction d as [|[k' w] d IH]; simpl.
  - apply String.eqb_neq in N. rewrite N. reflexivity.
  - destruct (String.eqb k0 k') eqn:E; simpl.
    + apply String.eqb_eq in E. subst k'. apply String.eqb_neq in N. rewrite N. reflexivity.
    + rewrite IH. reflexivity.
Qed.
Lemma dget_set {V} k k0 (v : V) d : dget k (dset k0 v d) = if String.eqb k k0 then Some v else dget k d.
Proof.
  destruct (String.eqb_spec k k0) as [->|N]; [apply dget_set_same|apply dget_set_other; exact N].
Qed.
Lemma dset_same {V} k (v : V) d : dget k d = Some v -> dset k v d = d.
Proof.
  induction d as [|[k' w] d IH]; simpl; [discriminate|].
  destruct (String.eqb k k') eqn:E; intros H; [congruence|]. rewrite IH by exact H. reflexivity.
Qed.
Lemma dget_binds {V} k (v : V) d : dget k d = Some v <-> binds d k v.
Proof.
  split.
  - induction d as [|[k' w] d IH]; simpl; [discriminate|].
    destruct (String.eqb_spec k k') as [->|N]; intros H.
    + injection H as ->. exists [], d. split; [reflexivity|intros []].
    + destruct (IH H) as (l & r & -> & A). exists ((k', w) :: l)%list, r. split; [reflexivity|].
      intros [B|B]; [simpl in B; congruence|exact (A B)].
  - intros (l & r & -> & A). induction l as [|[k' w] l IH]; simpl.
    + rewrite String.eqb_refl. reflexivity.
    + destruct (String.eqb_spec k k') as [->|N]; [exfalso; apply A; left; reflexivity|].
      apply IH. intros B. apply A. right. exact B.
Qed.
Lemma dget_unbound {V} k (d : dict V) : dget k d = None <-> unbound d k.
Proof.
  unfold unbound. induction d as [|[k' w] d IH]; simpl; [intuition|].
  destruct (String.eqb_spec k k') as [->|N].
  - split; [discriminate|]. intros H. exfalso. apply H. left. reflexivity.
  - rewrite IH. split; intros H; [intros [B|B]; [simpl in B; congruence|exact (H B)]|].
    intros B. apply H. right. exact B.
Qed.
Lemma dindex_ok {V} k (v : V) d : dindex d k = Ok v <-> dget k d = Some v.
Proof. unfold dindex. destruct (dget k d); split; intros H; congruence. Qed.
Lemma rbind_ok {A B} (x : res A) (f : A -> res B) b : rbind x f = Ok b -> exists a, x = Ok a /\ f a = Ok b.
Proof. destruct x; [eauto|discriminate]. Qed.

(** ** Filling in defaults *)
Lemma fillsub_get defs : NoDup (map fst defs) -> forall d k, dget k (fillsub defs d) =
  match dget k d with Some v => Some v | None => dget k defs end.
Proof.
  unfold fillsub. induction defs as [|[k0 v0] defs IH]; intros N d k; simpl.
  - destruct (dget k d); reflexivity.
  - inversion N as [|? ? Nin N']; subst. rewrite (IH N').
    destruct (dget k0 d) as [w|] eqn:E; simpl.
    + destruct (String.eqb_spec k k0) as [->|M]; [rewrite E|]; reflexivity.
    + rewrite dget_set. destruct (String.eqb_spec k k0) as [->|M]; [rewrite E|]; reflexivity.
Qed.
Lemma fillsub_id defs : forall d, (forall k, In k (map fst defs) -> dget k d <> None) -> fillsub defs d = d.
Proof.
  unfold fillsub. induction defs as [|[k0 v0] defs IH]; intros d H; simpl; [reflexivity|].
  destruct (dget k0 d) as [w|] eqn:E; simpl.
  - apply IH. intros k I. apply H. right. exact I.
  - exfalso. exact (H k0 (or_introl eq_refl) E).
Qed.

(** what filling does to one entry *)
Definition filled (dv : pv) (u : option pv) : option pv :=
  match u with
  | None => Some dv
  | Some (PDict s) => match dv with PDict ds => Some (PDict (fillsub ds s)) | _ => None end
  | Some v => Some v
  end.

Lemma fill1_spec k0 dv d d' : fill1 (k0, dv) d = Ok d' ->
  exists v, filled dv (dget k0 d) = Some v /\ dget k0 d' = Some v /\
    forall k, k <> k0 -> dget k d' = dget k d.
Proof.
  unfold fill1, filled. destruct (dget k0 d) as [u|] eqn:E.
  - destruct u as [s|l|sub].
    + intros H. injection H as <-. eauto.
    + intros H. injection H as <-. eauto.
    + destruct dv as [s|l|ds]; try discriminate. intros H. injection H as <-.
      eexists. split; [reflexivity|]. split; [apply dget_set_same|]. intros. apply dget_set_other. assumption.
  - intros H. injection H as <-. eexists. split; [reflexivity|]. split; [apply dget_set_same|].
    intros. apply dget_set_other. assumption.
Qed.

Lemma populate_get defs : NoDup (map fst defs) -> forall d d', populate defs d = Ok d' ->
  forall k, match dget k defs with
            | None => dget k d' = dget k d
            | Some dv => exists v, filled dv (dget k d) = Some v /\ dget k d' = Some v
            end.
Proof.
  induction defs as [|[k0 v0] defs IH]; intros N d d' H k.
  - simpl in *. congruence.
  - inversion N as [|? ? Nin N']; subst. cbn [populate] in H.
    apply rbind_ok in H as (d1 & H1 & H2).
    apply fill1_spec in H1 as (v & F & G & O).
    specialize (IH N' d1 d' H2 k). cbn [dget].
    destruct (String.eqb_spec k k0) as [->|M].
    + replace (dget k0 defs) with (@None pv) in IH.
      * exists v. rewrite IH. split; assumption.
      * symmetry. apply dget_unbound. exact Nin.
    + rewrite (O k M) in IH. exact IH.
Qed.

Lemma populate_total defs : NoDup (map fst defs) -> forall d,
  (forall k dv s, dget k defs = Some dv -> dget k d = Some (PDict s) -> exists ds, dv = PDict ds) ->
  exists d', populate defs d = Ok d'.
Proof.
  induction defs as [|[k0 v0] defs IH]; intros N d H; [eexists; reflexivity|].
  inversion N as [|? ? Nin N']; subst. cbn [populate].
  assert (exists d1, fill1 (k0, v0) d = Ok d1) as [d1 E1].
  { unfold fill1. destruct (dget k0 d) as [[s|l|s]|] eqn:E; try (eexists; reflexivity).
    destruct (H k0 v0 s) as [ds ->]; [cbn [dget]; rewrite String.eqb_refl; reflexivity|exact E|].
    eexists; reflexivity. }
  rewrite E1. cbn [rbind]. apply IH; [exact N'|].
  intros k dv s A B. apply fill1_spec in E1 as (v & _ & _ & O).
  destruct (String.eqb_spec k k0) as [->|M].
  - exfalso. apply Nin. assert (dget k0 defs <> None) as C by congruence.
    destruct (in_dec string_dec k0 (map fst defs)) as [I|I]; [exact I|].
    exfalso. apply C. apply dget_unbound. exact I.
  - rewrite (O k M) in B. apply (H k dv s); [|exact B]. cbn [dget].
    apply String.eqb_neq in M. rewrite M. exact A.
Qed.

Lemma populate_attribute_error defs : NoDup (map fst defs) -> forall d k dv s,
  dget k defs = Some dv -> (forall ds, dv <> PDict ds) -> dget k d = Some (PDict s) ->
  populate defs d = Err AttributeError.
Proof.
  induction defs as [|[k0 v0] defs IH]; intros N d k dv s A B C; [discriminate|].
  inversion N as [|? ? Nin N']; subst. cbn [populate]. cbn [dget] in A.
  destruct (String.eqb_spec k k0) as [->|M].
  - injection A as ->. unfold fill1. rewrite C. destruct dv; try reflexivity. exfalso. eapply B. reflexivity.
  - destruct (fill1 (k0, v0) d) as [d1|e] eqn:E1.
    + cbn [rbind]. pose proof (fill1_spec _ _ _ _ E1) as (v & _ & _ & O).
      apply (IH N' d1 k dv s A B). rewrite (O k M). exact C.
    + cbn [rbind]. unfold fill1 in E1. destruct (dget k0 d) as [[?|?|?]|]; try discriminate.
      destruct v0; congruence.
Qed.

Lemma populate_id defs : NoDup (map fst defs) -> forall d,
  (forall k dv, dget k defs = Some dv -> exists v, dget k d = Some v /\ filled dv (Some v) = Some v) ->
  populate defs d = Ok d.
Proof.
  induction defs as [|[k0 v0] defs IH]; intros N d H; [reflexivity|].
  inversion N as [|? ? Nin N']; subst. cbn [populate].
  destruct (H k0 v0) as (v & G & F); [cbn [dget]; rewrite String.eqb_refl; reflexivity|].
  assert (fill1 (k0, v0) d = Ok d) as ->.
  { unfold fill1. rewrite G. destruct v as [s|l|s]; try reflexivity.
    cbn in F. destruct v0; try discriminate. injection F as F. rewrite F.
    rewrite dset_same by exact G. reflexivity. }
  cbn [rbind]. apply IH; [exact N'|]. intros k dv A. apply H. cbn [dget].
  destruct (String.eqb_spec k k0) as [->|M]; [|exact A].
  exfalso. apply Nin. destruct (in_dec string_dec k0 (map fst defs)) as [I|I]; [exact I|].
  apply dget_unbound in I. congruence.
Qed.

(** ** Averages *)
Definition averaged (v : pv) (w : pv) : Prop :=
  match v with
  | PList l => exists m, mean l = Ok m /\ w = PScal (SNum m)
  | _ => w = v
  end.
Lemma in_keys {V} k (d : dict V) : In k (map fst d) <-> dget k d <> None.
Proof.
  split; intros H.
  - intros E. apply dget_unbound in E. exact (E H).
  - destruct (in_dec string_dec k (map fst d)) as [I|I]; [exact I|].
    exfalso. apply H. apply dget_unbound. exact I.
Qed.

Lemma average_get defs : NoDup (map fst defs) -> forall d d', average defs d = Ok d' ->
  forall k, if in_dec string_dec k (map fst defs)
            then exists v w, dget k d = Some v /\ dget k d' = Some w /\ averaged v w
            else dget k d' = dget k d.
Proof.
  induction defs as [|[k0 v0] defs IH]; intros N d d' H k.
  - simpl in *. congruence.
  - inversion N as [|? ? Nin N']; subst. cbn [average] in H.
    apply rbind_ok in H as (v & H1 & H). apply dindex_ok in H1.
    apply rbind_ok in H as (d1 & H2 & H).
    assert (exists w, dget k0 d1 = Some w /\ averaged v w /\ forall k, k <> k0 -> dget k d1 = dget k d) as (w & G & A & O).
    { destruct v as [s|l|s].
      - injection H2 as <-. exists (PScal s). simpl. auto.
      - apply rbind_ok in H2 as (m & Em & H2). injection H2 as <-.
        exists (PScal (SNum m)). split; [apply dget_set_same|]. split; [exists m; auto|].
        intros. apply dget_set_other. assumption.
      - injection H2 as <-. exists (PDict s). simpl. auto. }
    specialize (IH N' d1 d' H k). cbn [map fst] in *.
    destruct (in_dec string_dec k (k0 :: map fst defs)) as [I|I].
    + destruct (String.eqb_spec k k0) as [->|M].
      * destruct (in_dec string_dec k0 (map fst defs)) as [J|J]; [contradiction|].
        exists v, w. rewrite IH. auto.
      * destruct I as [I|I]; [congruence|].
        destruct (in_dec string_dec k (map fst defs)) as [J|J]; [|contradiction].
        rewrite (O k M) in IH. exact IH.
    + destruct (in_dec string_dec k (map fst defs)) as [J|J]; [exfalso; apply I; right; exact J|].
      rewrite IH. apply O. intros ->. apply I. left. reflexivity.
Qed.
Lemma average_total defs : NoDup (map fst defs) -> forall d,
  (forall k, In k (map fst defs) -> exists v, dget k d = Some v /\ forall l, v = PList l -> l <> []) ->
  exists d', average defs d = Ok d'.
Proof.
  induction defs as [|[k0 v0] defs IH]; intros N d H; [eexists; reflexivity|].
  inversion N as [|? ? Nin N']; subst. cbn [average].
  destruct (H k0 (or_introl eq_refl)) as (v & G & L).
  unfold dindex. rewrite G. cbn [rbind].
  assert (exists d1, match v with
     | PList l => do m <- mean l; Ok (dset k0 (PScal (SNum m)) d)
     | _ => Ok d end = Ok d1 /\ forall k, k <> k0 -> dget k d1 = dget k d) as (d1 & E & O).
  { destruct v as [s|l|s]; try (eexists; split; [reflexivity|auto]).
    destruct l as [|x l]; [exfalso; apply (L [] eq_refl); reflexivity|].
    cbn [mean rbind]. eexists. split; [reflexivity|]. intros. apply dget_set_other. assumption. }
  rewrite E. cbn [rbind]. apply IH; [exact N'|].
  intros k I. rewrite (O k); [apply H; right; exact I|]. intros ->. contradiction.
Qed.
Lemma average_id defs : forall d,
  (forall k, In k (map fst defs) -> exists v, dget k d = Some v /\ forall l, v <> PList l) ->
  average defs d = Ok d.
Proof.
  induction defs as [|[k0 v0] defs IH]; intros d H; [reflexivity|]. cbn [average].
  destruct (H k0 (or_introl eq_refl)) as (v & G & L). unfold dindex. rewrite G. cbn [rbind].
  assert (match v with
     | PList l => do m <- mean l; Ok (dset k0 (PScal (SNum m)) d)
     | _ => Ok d end = Ok d) as ->.
  { destruct v as [s|l|s]; try reflexivity. exfalso. eapply L. reflexivity. }
  cbn [rbind]. apply IH. intros k I. apply H. right. exact I.
Qed.

Lemma sum_fin rs a : fold_left nadd (map Fin rs) (Fin a) = Fin (a + fold_right Rplus 0 rs).
Proof.
  revert a. induction rs as [|r rs IH]; intros a; simpl; [f_equal; ring|]. rewrite IH. f_equal. ring.
Qed.
Lemma mean_fin rs : rs <> [] -> mean (map Fin rs) = Ok (Fin (arith_mean rs)).
Proof.
  intros N. destruct rs as [|r rs]; [congruence|]. unfold mean.
  change (map Fin (r :: rs)) with (Fin r :: map Fin rs).
  change (Fin r :: map Fin rs) with (map Fin (r :: rs)). rewrite sum_fin, map_length.
  cbn [map]. unfold ndiv, lift2. unfold Reqb.
  destruct (Req_EM_T (INR (List.length (r :: rs))) 0) as [E|E].
  - exfalso. apply (not_0_INR (List.length (r :: rs))); [simpl; lia|exact E].
  - unfold arith_mean. rewrite Rplus_0_l. reflexivity.
Qed.
Lemma mean_bounds rs lo hi : rs <> [] -> (forall r, In r rs -> lo <= r <= hi) -> lo <= arith_mean rs <= hi.
Proof.
  intros N H. assert (P : 0 < INR (List.length rs)) by (apply lt_0_INR; destruct rs; simpl; [congruence|lia]).
  assert (S : lo * INR (List.length rs) <= fold_right Rplus 0 rs <= hi * INR (List.length rs)).
  { clear N P. induction rs as [|r rs IH]; [simpl; lra|].
    change (List.length (r :: rs)) with (S (List.length rs)). rewrite S_INR. cbn [fold_right].
    specialize (IH (fun x I => H x (or_intror I))). pose proof (H r (or_introl eq_refl)). lra. }
  unfold arith_mean. split.
  - apply Rmult_le_reg_r with (INR (List.length rs)); [exact P|]. unfold Rdiv. rewrite Rmult_assoc, Rinv_l by lra. lra.
  - apply Rmult_le_reg_r with (INR (List.length rs)); [exact P|]. unfold Rdiv. rewrite Rmult_assoc, Rinv_l by lra. lra.
Qed.
