(** Queries of an atmosphere with a profile: falling and bounded columns. *)
From Coq Require Import QArith Qreals Sorted.
From Verif Require Import Base BaseFacts AtmosModel AtmosSpec AtmosProofs AtmosProofs3 RunwayModel RunwaySpec RunwayProofs2.
Open Scope R_scope.

Lemma seg_value x0 y0 x1 y1 x v : x0 < x1 -> Ok ((#(y1 - y0) / #(x1 - x0)) * #(x - x0) + #y0)%num = Ok (Fin v) -> v - y0 = (y1 - y0) * ((x - x0) / (x1 - x0)).
Proof. intros H E. rewrite interp_seg in E by lra. injection E as <-. field. lra. Qed.
Definition ptfall (p q : R * R) := snd q < snd p.
Lemma frac_pos a b : 0 < a -> 0 < b -> 0 < a / b.
Proof. apply Rdiv_lt_0_compat. Qed.
Lemma head_above : forall l x0 y0 x v, StronglySorted ptlt ((x0, y0) :: l) -> StronglySorted ptfall ((x0, y0) :: l) ->
  interp_sorted x ((x0, y0) :: l) = Ok (Fin v) -> x0 < x -> v < y0.
Proof.
  induction l as [|(x1, y1) r IH]; intros x0 y0 x v S F E L; cbn [interp_sorted] in E.
  - destruct (Reqb_reflect x x0); [lra|discriminate].
  - apply StronglySorted_inv in S. destruct S as [S Sh]. apply StronglySorted_inv in F. destruct F as [F Fh].
    apply Forall_inv in Sh. apply Forall_inv in Fh. unfold ptlt, ptfall in Sh, Fh. cbn [fst snd] in Sh, Fh.
    rewrite Rltb_false in E by lra. destruct (Rleb_reflect x x1) as [Hx|Hx].
    + apply seg_value in E; [|lra]. pose proof (frac_pos (x - x0) (x1 - x0) ltac:(lra) ltac:(lra)). nra.
    + specialize (IH x1 y1 x v S F E ltac:(lra)). lra.
Qed.
Lemma sorted_falls : forall l x x' v v', StronglySorted ptlt l -> StronglySorted ptfall l -> x < x' ->
  interp_sorted x l = Ok (Fin v) -> interp_sorted x' l = Ok (Fin v') -> v' < v.
Proof.
  induction l as [|(x0, y0) [|(x1, y1) r] IH]; intros x x' v v' S F L E E'.
  - discriminate.
  - cbn [interp_sorted] in E, E'. destruct (Reqb_reflect x x0); [|discriminate]. destruct (Reqb_reflect x' x0); [|discriminate]. lra.
  - pose proof S as S0. pose proof F as F0. apply StronglySorted_inv in S. destruct S as [S Sh]. apply StronglySorted_inv in F. destruct F as [F Fh].
    apply Forall_inv in Sh. apply Forall_inv in Fh. unfold ptlt, ptfall in Sh, Fh. cbn [fst snd] in Sh, Fh.
    cbn [interp_sorted] in E, E'. destruct (Rltb_reflect x x0); [discriminate|]. rewrite Rltb_false in E' by lra.
    destruct (Rleb_reflect x x1) as [Hx|Hx].
    + apply seg_value in E; [|lra].
      assert (A : (x - x0) / (x1 - x0) <= 1).
      { apply Rmult_le_reg_r with (x1 - x0); [lra|]. replace ((x - x0) / (x1 - x0) * (x1 - x0)) with (x - x0) by (field; lra). lra. }
      destruct (Rleb_reflect x' x1) as [Hx'|Hx'].
      * apply seg_value in E'; [|lra]. pose proof (frac_pos (x' - x) (x1 - x0) ltac:(lra) ltac:(lra)) as D.
        replace ((x' - x0) / (x1 - x0)) with ((x' - x) / (x1 - x0) + (x - x0) / (x1 - x0)) in E' by (field; lra). nra.
      * pose proof (head_above r x1 y1 x' v' S F E' ltac:(lra)). pose proof (Rmult_le_pos (1 - (x - x0) / (x1 - x0)) (y0 - y1) ltac:(lra) ltac:(lra)). lra.
    + rewrite Rleb_false in E' by lra. exact (IH x x' v v' S F L E E').
Qed.
Lemma sorted_within l x v lo hi : StronglySorted ptlt l -> Forall (fun p => lo < snd p < hi) l -> interp_sorted x l = Ok (Fin v) -> lo < v < hi.
Proof.
  revert v. induction l as [|(x0, y0) [|(x1, y1) r] IH]; intros v S F E.
  - discriminate.
  - cbn [interp_sorted] in E. destruct (Reqb x x0); [|discriminate]. injection E as <-. exact (Forall_inv F).
  - apply StronglySorted_inv in S. destruct S as [S Sh]. apply Forall_inv in Sh. unfold ptlt in Sh. cbn [fst] in Sh.
    pose proof (Forall_inv F) as F0. pose proof (Forall_inv (Forall_inv_tail F)) as F1. apply Forall_inv_tail in F. cbn [snd] in F0, F1.
    cbn [interp_sorted] in E. destruct (Rltb_reflect x x0); [discriminate|]. destruct (Rleb_reflect x x1) as [Hx|Hx]; [|exact (IH v S F E)].
    rewrite interp_seg in E by lra. injection E as <-. pose proof (chord_value x0 y0 x1 y1 x Sh ltac:(lra)) as (_ & _ & C).
    cbn [snd] in C. unfold Rmin, Rmax in C. destruct (Rle_dec y0 y1); lra.
Qed.

(** a column over increasing altitudes *)
Lemma sort_same l : StronglySorted ptlt l -> sort_pts l = l.
Proof.
  induction 1 as [|p l S IH H]; [reflexivity|]. cbn [sort_pts]. rewrite IH. destruct l as [|q l]; [reflexivity|]. cbn [insert_pt].
  apply Forall_inv in H. unfold ptlt in H. rewrite Rleb_true by lra. reflexivity.
Qed.
Lemma combine_sorted {B} (P : R * B -> R * B -> Prop) (Q : R -> R -> Prop) a : (forall p q, Q (fst p) (fst q) -> P p q) -> StronglySorted Q a ->
  forall b, StronglySorted P (combine a b).
Proof.
  intros H. induction 1 as [|x a S IH F]; intros [|y b]; try constructor; [apply IH|].
  apply Forall_forall. intros (x', y') I. apply in_combine_l in I. rewrite Forall_forall in F. apply H. cbn. apply F. exact I.
Qed.
Lemma combine_falls a : forall b, StronglySorted Rgt b -> StronglySorted ptfall (combine a b).
Proof.
  induction a as [|x a IH]; intros b S; [constructor|]. destruct S as [|y b S F]; [constructor|]. cbn [combine]. constructor; [apply IH; exact S|].
  apply Forall_forall. intros (x', y') I. apply in_combine_r in I. rewrite Forall_forall in F. unfold ptfall. cbn. apply F. exact I.
Qed.
Lemma combine_within a b lo hi : Forall (fun y => lo < y < hi) b -> Forall (fun p : R * R => lo < snd p < hi) (combine a b).
Proof. intros F. apply Forall_forall. intros (x, y) I. apply in_combine_r in I. rewrite Forall_forall in F. apply F. exact I. Qed.

(** ** Smallest and largest altitude *)
Lemma fold_min r : forall x, Forall (Rlt x) r -> fold_left Rmin r x = x.
Proof. induction r as [|y r IH]; intros x F; [reflexivity|]. cbn. pose proof (Forall_inv F). rewrite Rmin_left by lra. apply IH. exact (Forall_inv_tail F). Qed.
Lemma fold_max r : forall x, StronglySorted Rlt (x :: r) -> fold_left Rmax r x = last r x.
Proof.
  induction r as [|y r IH]; intros x S; [reflexivity|]. cbn [fold_left]. apply StronglySorted_inv in S. destruct S as [S F]. pose proof (Forall_inv F).
  rewrite Rmax_right by lra. rewrite IH by exact S. clear. destruct r as [|z r]; [reflexivity|]. revert z. induction r as [|w r IH]; intros z; [reflexivity|]. cbn [last] in *. apply IH.
Qed.

Lemma last_in (l : list R) d : In (last l d) (d :: l).
Proof.
  induction l as [|x l IH]; [left; reflexivity|]. destruct l as [|y l]; [right; left; reflexivity|]. change (last (x :: y :: l) d) with (last (y :: l) d). destruct IH as [IH|IH]; [left; exact IH|right; right; exact IH].
Qed.
Section Profile.
  Variables (a : atmosphere) (p : profile) (x0 : R) (xs : list R).
  Hypotheses (HP : prof a = Some p) (HA : alt_m p = x0 :: xs) (HS : StronglySorted Rlt (x0 :: xs)).
  Let top := last xs x0.
  Lemma alt_limits h : alttest a (VNum (Fin h)) = if (Rltb h x0 || Rltb top h)%bool then Err TypeError else Ok [Fin h].
  Proof.
    unfold alttest. rewrite HP, HA. cbn [pymin pymax rbind recastasnpfloatarray existsb]. rewrite fold_max by exact HS.
    rewrite fold_min by (apply StronglySorted_inv in HS; apply HS). rewrite !nltb_fin, !Bool.orb_false_r. unfold top.
    destruct (Rltb h x0); [reflexivity|]. destruct (Rltb (last xs x0) h); reflexivity.
  Qed.
  Definition column (y : list R) (h : R) : res num := interp_sorted h (combine (x0 :: xs) y).
  Definition inside (h : R) : Prop := x0 <= h <= top.
  Lemma column_inside y h : List.length y = List.length (x0 :: xs) -> inside h -> exists v, column y h = Ok (Fin v).
  Proof.
    intros L [I J]. assert (SS : StronglySorted ptlt (combine (x0 :: xs) y)) by (apply (combine_sorted _ Rlt); [intros ? ? K; exact K|exact HS]).
    assert (In1 : exists q, In q (combine (x0 :: xs) y) /\ fst q = x0) by (destruct y as [|y0 y]; [discriminate|]; exists (x0, y0); split; [left|]; reflexivity).
    assert (In2 : exists q, In q (combine (x0 :: xs) y) /\ fst q = top).
    { assert (G : In top (x0 :: xs)).
      { apply last_in. }
      assert (G2 : In top (map fst (combine (x0 :: xs) y))).
      { replace (map fst (combine (x0 :: xs) y)) with (x0 :: xs); [exact G|]. clear - L. revert y L. generalize (x0 :: xs) as u. induction u as [|z u IH]; intros [|w y] L; try discriminate; [reflexivity|].
        cbn. f_equal. apply IH. cbn in L. lia. }
      apply in_map_iff in G2. destruct G2 as (q & E & Q). exists q. auto. }
    destruct In1 as (q1 & I1 & E1). destruct In2 as (q2 & I2 & E2).
    destruct (interp_sorted_between _ h q1 q2 SS I1 I2) as (v & _ & _ & E & _); [rewrite E1, E2; lra|]. exists v. exact E.
  Qed.
  Lemma interp_column y h : interp1d (combine (alt_m p) y) (Fin h) = column y h.
  Proof. unfold interp1d, column. rewrite HA, sort_same; [reflexivity|]. apply (combine_sorted _ Rlt); [intros ? ? K; exact K|exact HS]. Qed.
  Lemma query_inside h : inside h ->
    airdens_kgpm3 a (VNum (Fin h)) = rmap VNum (column (rho_kgpm3 p) h) /\ airtemp_k a (VNum (Fin h)) = rmap VNum (column (temp_k p) h) /\
    airpress_pa a (VNum (Fin h)) = rmap VNum (column (p_pa p) h).
  Proof.
    intros [I J]. unfold airdens_kgpm3, airtemp_k, airpress_pa. rewrite alt_limits, !Rltb_false by lra. cbn [orb rbind]. rewrite HP. cbn [mapM].
    unfold frho_kgpm3, ftemp_k, fp_pa. rewrite !interp_column.
    repeat split; [destruct (column (rho_kgpm3 p) h)|destruct (column (temp_k p) h)|destruct (column (p_pa p) h)]; reflexivity.
  Qed.
  Lemma query_outside h : h < x0 \/ top < h ->
    airdens_kgpm3 a (VNum (Fin h)) = Err TypeError /\ airtemp_k a (VNum (Fin h)) = Err TypeError /\ airpress_pa a (VNum (Fin h)) = Err TypeError.
  Proof.
    intros H. unfold airdens_kgpm3, airtemp_k, airpress_pa. rewrite alt_limits.
    replace (Rltb h x0 || Rltb top h)%bool with true; [repeat split|]. destruct H; [rewrite (Rltb_true h)|rewrite (Rltb_true top), Bool.orb_true_r]; auto.
  Qed.
  Lemma column_falls y h h' v v' : StronglySorted Rgt y -> h < h' -> column y h = Ok (Fin v) -> column y h' = Ok (Fin v') -> v' < v.
  Proof. intros F. apply sorted_falls; [apply (combine_sorted _ Rlt); [intros ? ? K; exact K|exact HS]|apply combine_falls; exact F]. Qed.
  Lemma column_within y h v lo hi : Forall (fun z => lo < z < hi) y -> column y h = Ok (Fin v) -> lo < v < hi.
  Proof. intros F. apply sorted_within; [apply (combine_sorted _ Rlt); [intros ? ? K; exact K|exact HS]|apply combine_within; exact F]. Qed.
  Lemma column_knot y h v : In (h, v) (combine (x0 :: xs) y) -> column y h = Ok (Fin v).
  Proof. intros I. apply interp_sorted_knot; [apply (combine_sorted _ Rlt); [intros ? ? K; exact K|exact HS]|exact I]. Qed.
End Profile.
