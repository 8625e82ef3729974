(** Lemmas and tactics about [Base]. *)
From Verif Require Import Base.

Lemma Rltb_true a b : a < b -> Rltb a b = true.
Proof. unfold Rltb; destruct (Rlt_dec a b); tauto. Qed.
Lemma Rltb_false a b : b <= a -> Rltb a b = false.
Proof. unfold Rltb; destruct (Rlt_dec a b); [lra|reflexivity]. Qed.
Lemma Rleb_true a b : a <= b -> Rleb a b = true.
Proof. unfold Rleb; destruct (Rle_dec a b); tauto. Qed.
Lemma Rleb_false a b : b < a -> Rleb a b = false.
Proof. unfold Rleb; destruct (Rle_dec a b); [lra|reflexivity]. Qed.
Lemma Reqb_true a b : a = b -> Reqb a b = true.
Proof. unfold Reqb; destruct (Req_EM_T a b); tauto. Qed.
Lemma Reqb_false a b : a <> b -> Reqb a b = false.
Proof. unfold Reqb; destruct (Req_EM_T a b); tauto. Qed.

Lemma Rltb_iff a b : Rltb a b = true <-> a < b.
Proof. unfold Rltb; destruct (Rlt_dec a b); intuition discriminate. Qed.
Lemma Rltb_nlt a b : Rltb a b = false <-> b <= a.
Proof. unfold Rltb; destruct (Rlt_dec a b); split; intros; try discriminate; try reflexivity; lra. Qed.
Lemma Rleb_iff a b : Rleb a b = true <-> a <= b.
Proof. unfold Rleb; destruct (Rle_dec a b); intuition discriminate. Qed.
Lemma Rleb_nle a b : Rleb a b = false <-> b < a.
Proof. unfold Rleb; destruct (Rle_dec a b); split; intros; try discriminate; try reflexivity; lra. Qed.
Lemma Reqb_iff a b : Reqb a b = true <-> a = b.
Proof. unfold Reqb; destruct (Req_EM_T a b); intuition discriminate. Qed.

Lemma Rltb_reflect a b : BoolSpec (a < b) (b <= a) (Rltb a b).
Proof. unfold Rltb; destruct (Rlt_dec a b); constructor; lra. Qed.
Lemma Rleb_reflect a b : BoolSpec (a <= b) (b < a) (Rleb a b).
Proof. unfold Rleb; destruct (Rle_dec a b); constructor; lra. Qed.
Lemma Reqb_reflect a b : BoolSpec (a = b) (a <> b) (Reqb a b).
Proof. unfold Reqb; destruct (Req_EM_T a b); constructor; assumption. Qed.

Open Scope num_scope.
Lemma nadd_fin a b : #a + #b = Fin (a + b). Proof. reflexivity. Qed.
Lemma nsub_fin a b : #a - #b = Fin (a - b). Proof. reflexivity. Qed.
Lemma nmul_fin a b : #a * #b = Fin (a * b). Proof. reflexivity. Qed.
Lemma nopp_fin a : - #a = Fin (- a). Proof. reflexivity. Qed.
Lemma nabs_fin a : nabs #a = Fin (Rabs a). Proof. reflexivity. Qed.
Lemma npown_fin a n : #a ^ n = Fin (a ^ n)%R. Proof. reflexivity. Qed.
Lemma nexp_fin a : nexp #a = Fin (exp a). Proof. reflexivity. Qed.
Lemma ncos_fin a : ncos #a = Fin (cos a). Proof. reflexivity. Qed.
Lemma nsin_fin a : nsin #a = Fin (sin a). Proof. reflexivity. Qed.
Lemma natan_fin a : natan #a = Fin (atan a). Proof. reflexivity. Qed.
Lemma ntan_fin a : cos a <> 0%R -> ntan #a = Fin (tan a).
Proof. intros H; simpl; rewrite (Reqb_false _ _ H); reflexivity. Qed.
Lemma ndiv_fin a b : b <> 0%R -> #a / #b = Fin (a / b).
Proof. intros H; simpl; rewrite (Reqb_false _ _ H); reflexivity. Qed.
Lemma ndiv_zero x : x / #0 = NonFin.
Proof. destruct x; simpl; [rewrite (Reqb_true 0 0 eq_refl)|]; reflexivity. Qed.
Lemma npow_fin a b : (0 < a)%R -> #a ** #b = Fin (Rpower a b).
Proof. intros H; simpl; rewrite (Rltb_true _ _ H); reflexivity. Qed.
Lemma nsqrt_fin a : (0 <= a)%R -> nsqrt #a = Fin (sqrt a).
Proof. intros H; simpl; rewrite (Rltb_false _ _ H); reflexivity. Qed.
Lemma nsqrt_neg a : (a < 0)%R -> nsqrt #a = NonFin.
Proof. intros H; simpl; rewrite (Rltb_true _ _ H); reflexivity. Qed.
Lemma msqrt_fin a : (0 <= a)%R -> msqrt #a = Ok (Fin (sqrt a)).
Proof. intros H; simpl; rewrite (Rltb_false _ _ H); reflexivity. Qed.
Lemma msqrt_neg a : (a < 0)%R -> msqrt #a = Err ValueError.
Proof. intros H; simpl; rewrite (Rltb_true _ _ H); reflexivity. Qed.
Lemma nltb_fin a b : (#a <? #b) = Rltb a b. Proof. reflexivity. Qed.
Lemma nleb_fin a b : (#a <=? #b) = Rleb a b. Proof. reflexivity. Qed.
Lemma Fin_inj a b : Fin a = Fin b -> a = b.
Proof. intros H; injection H; auto. Qed.
Lemma Fin_eq a b : a = b -> Fin a = Fin b.
Proof. intros ->; reflexivity. Qed.
Close Scope num_scope.

(** decimal literals to quotients of integers *)
Ltac rpow := repeat match goal with
  | |- context [Z.pow_pos ?a ?b] =>
      let v := eval vm_compute in (Z.pow_pos a b) in change (Z.pow_pos a b) with v
  | H : context [Z.pow_pos ?a ?b] |- _ =>
      let v := eval vm_compute in (Z.pow_pos a b) in change (Z.pow_pos a b) with v in H
  end.
Ltac rdec := unfold Q2R in *;
  cbn [QArith_base.Qnum QArith_base.Qden] in *; rpow.
(** decide a side condition about literals or easy reals *)
Ltac rside := first [ assumption | lra | (rdec; lra) | nra ].
(** push a num computation whose operands are finite into R *)
Ltac nfin1 := first
  [ rewrite nadd_fin | rewrite nsub_fin | rewrite nmul_fin | rewrite nopp_fin
  | rewrite nabs_fin | rewrite npown_fin | rewrite nexp_fin
  | rewrite ncos_fin | rewrite nsin_fin | rewrite natan_fin
  | rewrite ndiv_fin by rside
  | rewrite npow_fin by rside
  | rewrite nsqrt_fin by rside ].
Ltac nfin := repeat nfin1.

(** [rdec] for the field tactic *)
Ltac dfield := rdec; field; try (repeat split; lra).

Lemma mapM_ok_map {A B} (f : A -> res B) (g : A -> B) l :
  (forall x, In x l -> f x = Ok (g x)) -> mapM f l = Ok (map g l).
Proof.
  induction l as [|x r IH]; intros H; [reflexivity|].
  cbn [mapM map]. rewrite (H x (or_introl eq_refl)); cbn [rbind].
  rewrite IH by (intros y Hy; apply H; right; exact Hy). reflexivity.
Qed.
Lemma mapM_length {A B} (f : A -> res B) l l' :
  mapM f l = Ok l' -> List.length l' = List.length l.
Proof.
  revert l'; induction l as [|x r IH]; intros l'; cbn [mapM].
  - intros [= <-]; reflexivity.
  - destruct (f x) as [y|e]; cbn [rbind]; [|discriminate].
    destruct (mapM f r) as [ys|e]; cbn [rbind]; [|discriminate].
    intros [= <-]; simpl; f_equal; apply IH; reflexivity.
Qed.
Lemma mapM_nth {A B} (f : A -> res B) l l' n x :
  mapM f l = Ok l' -> nth_error l n = Some x ->
  exists y, nth_error l' n = Some y /\ f x = Ok y.
Proof.
  revert l' n; induction l as [|a r IH]; intros l' n; cbn [mapM].
  - destruct n; discriminate.
  - destruct (f a) as [y|e] eqn:Ha; cbn [rbind]; [|discriminate].
    destruct (mapM f r) as [ys|e] eqn:Hr; cbn [rbind]; [|discriminate].
    intros [= <-]; destruct n as [|n]; simpl.
    + intros [= <-]; exists y; auto.
    + intros Hn; apply (IH ys n eq_refl Hn).
Qed.
