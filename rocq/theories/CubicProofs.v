(** The not-a-knot cubic spline: it exists and there is only one. *)
From Coq Require Import Sorting.Sorted Sorting.Permutation.
From Verif Require Import Base BaseFacts AtmosModel MethodsModel CubicModel CubicSpec.
Open Scope R_scope.

(* ------------------------------------------------------------------------ *)
(** * One piece *)

Lemma join_left x v s q x1 y1 : peval (join x v s q x1 y1) x = v.
Proof. unfold peval, join; simpl. ring. Qed.
Lemma join_left_slope x v s q x1 y1 : pslope (join x v s q x1 y1) x = s.
Proof. unfold pslope, join; simpl. ring. Qed.
Lemma join_left_half x v s q x1 y1 : phalf (join x v s q x1 y1) x = q.
Proof. unfold phalf, join; simpl. ring. Qed.
Lemma join_right x v s q x1 y1 : x < x1 -> peval (join x v s q x1 y1) x1 = y1.
Proof. intros H. unfold peval, join; simpl. field. lra. Qed.

(** a piece as a polynomial in x *)
Definition poly_of (p : piece) : cubic_poly :=
  let b := base p in
  {| c3 := k3 p; c2 := k2 p - 3 * b * k3 p; c1 := k1 p - 2 * b * k2 p + 3 * b ^ 2 * k3 p;
     c0 := k0 p - b * k1 p + b ^ 2 * k2 p - b ^ 3 * k3 p |}.
Lemma poly_val p x : cval (poly_of p) x = peval p x.
Proof. unfold cval, poly_of, peval; simpl. ring. Qed.
Lemma poly_slope p x : cslope (poly_of p) x = pslope p x.
Proof. unfold cslope, poly_of, pslope; simpl. ring. Qed.
Lemma poly_curv p x : ccurv (poly_of p) x = 2 * phalf p x.
Proof. unfold ccurv, poly_of, phalf; simpl. ring. Qed.

(** a cubic is determined by its value, slope and curvature at one point and its value at
    another one *)
Lemma cubic_join (p : cubic_poly) x x1 z : x < x1 ->
  cval p z = peval (join x (cval p x) (cslope p x) (ccurv p x / 2) x1 (cval p x1)) z /\
  cslope p z = pslope (join x (cval p x) (cslope p x) (ccurv p x / 2) x1 (cval p x1)) z /\
  ccurv p z = 2 * phalf (join x (cval p x) (cslope p x) (ccurv p x / 2) x1 (cval p x1)) z.
Proof.
  intros H. unfold cval, cslope, ccurv, peval, pslope, phalf, join; simpl.
  repeat split; field; lra.
Qed.

(** ... or by three values and its first coefficient *)
Lemma cubic_start (p : cubic_poly) x0 x1 x2 z : x0 < x1 -> x1 < x2 ->
  let P := start (c3 p) (x0, cval p x0) (x1, cval p x1) (x2, cval p x2) in
  cval p z = peval P z /\ cslope p z = pslope P z /\ ccurv p z = 2 * phalf P z.
Proof.
  intros H0 H1. unfold cval, cslope, ccurv, peval, pslope, phalf, start; simpl.
  repeat split; field; lra.
Qed.
Lemma start_meets c x0 y0 x1 y1 x2 y2 : x0 < x1 -> x1 < x2 ->
  let P := start c (x0, y0) (x1, y1) (x2, y2) in peval P x0 = y0 /\ peval P x1 = y1 /\ peval P x2 = y2.
Proof.
  intros H0 H1. unfold peval, start; simpl. repeat split; field; lra.
Qed.
Lemma start_state c p0 p1 p2 : let P := start c p0 p1 p2 in
  peval P (fst p2) = snd p2 /\ pslope P (fst p2) = k1 P /\ phalf P (fst p2) = k2 P.
Proof. unfold peval, pslope, phalf, start; simpl. repeat split; ring. Qed.

(* ------------------------------------------------------------------------ *)
(** * How far the last point is missed *)

Definition increasing (l : list R) : Prop := StronglySorted Rlt l.
Lemma increasing_cons a b l : increasing (a :: b :: l) -> a < b /\ increasing (b :: l).
Proof. intros H. inversion H as [|? ? S F]; subst. inversion F; subst. auto. Qed.
Lemma increasing_le_last l : forall a, increasing (a :: l) -> a <= last (a :: l) 0.
Proof.
  induction l as [|b l IH]; intros a H; [simpl; lra|].
  apply increasing_cons in H as (H & S). specialize (IH b S). change (last (a :: b :: l) 0) with (last (b :: l) 0). lra.
Qed.

Lemma shoot_cons x v s q x1 y1 p2 p3 rest :
  shoot x v s q ((x1, y1) :: p2 :: p3 :: rest) =
  (let p := join x v s q x1 y1 in
   let l := shoot x1 y1 (pslope p x1) (phalf p x1) (p2 :: p3 :: rest) in ((x1, p) :: fst l, snd l)).
Proof. destruct p2; reflexivity. Qed.
Lemma shoot_last x v s q x1 y1 x2 y2 :
  shoot x v s q [(x1, y1); (x2, y2)] = ([(x2, join x v s q x1 y1)], peval (join x v s q x1 y1) x2 - y2).
Proof. reflexivity. Qed.

(** the miss depends on slope and curvature through two factors of the same sign *)
Lemma shoot_factors rest : forall x v, (2 <= List.length rest)%nat -> increasing (x :: map fst rest) ->
  exists A B, 0 < A * B /\ forall s q s' q',
    snd (shoot x v s q rest) - snd (shoot x v s' q' rest) = A * (s - s') + B * (q - q').
Proof.
  induction rest as [|[x1 y1] rest IH]; intros x v L I; [simpl in L; lia|].
  destruct rest as [|[x2 y2] rest]; [simpl in L; lia|]. cbn [map fst] in I.
  apply increasing_cons in I as (H & I).
  destruct rest as [|p3 rest].
  - apply increasing_cons in I as (H2 & _).
    set (h := x1 - x). set (T := x2 - x).
    assert (0 < h /\ h < T) as (Hh & HT) by (unfold h, T; lra).
    exists (T * (1 - T ^ 2 / h ^ 2)), (T ^ 2 * (1 - T / h)). split.
    + replace (T * (1 - T ^ 2 / h ^ 2) * (T ^ 2 * (1 - T / h)))
        with (T ^ 3 * ((T - h) * (T - h) * (T + h)) / h ^ 3) by (field; lra).
      apply Rdiv_lt_0_compat; [|apply pow_lt; lra].
      apply Rmult_lt_0_compat; [apply pow_lt; lra|]. repeat apply Rmult_lt_0_compat; lra.
    + intros. rewrite !shoot_last. cbn [snd]. unfold peval, join; simpl. fold h T. field. lra.
  - destruct (IH x1 y1) as (A & B & P & E); [simpl; lia|exact I|].
    set (h := x1 - x) in *. assert (0 < h) by (unfold h; lra).
    exists (-2 * A - 3 / h * B), (- h * A - 2 * B). split.
    + replace ((-2 * A - 3 / h * B) * (- h * A - 2 * B))
        with (2 * h * (A * A) + 7 * (A * B) + 6 * (B * B) * / h) by (field; lra).
      assert (0 < / h) by (apply Rinv_0_lt_compat; lra).
      assert (0 <= h * (A * A)) by (apply Rmult_le_pos; nra).
      assert (0 <= (B * B) * / h) by (apply Rmult_le_pos; nra). lra.
    + intros. rewrite !shoot_cons. cbn [snd]. rewrite E.
      unfold pslope, phalf, join; simpl. fold h. field. lra.
Qed.

Lemma trial_cons c p0 p1 p2 p3 p4 rest :
  trial c (p0 :: p1 :: p2 :: p3 :: p4 :: rest) =
  (let p := start c p0 p1 p2 in
   let l := shoot (fst p2) (snd p2) (k1 p) (k2 p) (p3 :: p4 :: rest) in ((fst p2, p) :: fst l, snd l)).
Proof. destruct p3; reflexivity. Qed.

Lemma trial_slope pts : (4 <= List.length pts)%nat -> left_to_right pts ->
  exists K, K <> 0 /\ forall c c', snd (trial c pts) - snd (trial c' pts) = K * (c - c').
Proof.
  unfold left_to_right. intros L I.
  destruct pts as [|[x0 y0] [|[x1 y1] [|[x2 y2] [|p3 rest]]]]; try (simpl in L; lia). clear L.
  cbn [map fst] in I.
  apply increasing_cons in I as (H0 & I). apply increasing_cons in I as (H1 & I).
  assert (D : 0 < (x2 - x0) * (x2 - x1)) by (apply Rmult_lt_0_compat; lra).
  destruct rest as [|p4 rest].
  - destruct p3 as [x3 y3]. apply increasing_cons in I as (H2 & _). cbn [fst] in H2.
    exists ((x3 - x2) * (x3 - x1) * (x3 - x0)). split.
    + apply Rgt_not_eq. repeat apply Rmult_lt_0_compat; lra.
    + intros. simpl. unfold peval, start; simpl. field. lra.
  - destruct (shoot_factors (p3 :: p4 :: rest) x2 y2) as (A & B & P & E); [simpl; lia|exact I|].
    exists (A * ((x2 - x0) * (x2 - x1)) + B * ((x2 - x0) + (x2 - x1))). split.
    + destruct (Rle_lt_dec A 0) as [[Q|Q]|Q].
      * assert (B < 0) by nra. apply Rlt_not_eq. nra.
      * subst A. lra.
      * assert (0 < B) by nra. apply Rgt_not_eq. nra.
    + intros. rewrite !trial_cons. cbn [snd fst]. rewrite E. unfold start; simpl. field. lra.
Qed.

(** the coefficient chosen is the only one with which the last point is met *)
Lemma free_coefficient_iff pts c : (4 <= List.length pts)%nat -> left_to_right pts ->
  snd (trial c pts) = 0 <-> c = free_coefficient pts.
Proof.
  intros L I. destruct (trial_slope pts L I) as (K & KN & E).
  unfold free_coefficient. pose proof (E 1 0) as E1. pose proof (E c 0) as E0.
  replace (snd (trial 0 pts) - snd (trial 1 pts)) with (- K) by lra.
  split; intros H.
  - assert (snd (trial 0 pts) = - K * c) as -> by lra. field. exact KN.
  - assert (K * c = - snd (trial 0 pts)) by (rewrite H; field; exact KN). lra.
Qed.

(* ------------------------------------------------------------------------ *)
(** * Every spline through the points is found *)

Lemma walk_one e p x : walk [(e, p)] x = peval p x.
Proof. reflexivity. Qed.
Lemma walk_left e p l x : x < e -> walk ((e, p) :: l) x = peval p x.
Proof. intros H. destruct l; [reflexivity|]. cbn [walk]. now rewrite (Rltb_true x e H). Qed.
Lemma walk_right e p l x : l <> [] -> e <= x -> walk ((e, p) :: l) x = walk l x.
Proof. intros N H. destruct l; [congruence|]. cbn [walk]. now rewrite (Rltb_false x e H). Qed.
Lemma shoot_nonempty x v s q rest : rest <> [] -> fst (shoot x v s q rest) <> [].
Proof. destruct rest as [|[x1 y1] [|[x2 y2] [|? ?]]]; simpl; congruence. Qed.

Lemma drop_cons a b c l : drop_last_but_one (a :: b :: c :: l) = a :: drop_last_but_one (b :: c :: l).
Proof. reflexivity. Qed.

Lemma shoot_unique rest : forall x v s q P ps f, (2 <= List.length rest)%nat -> increasing (x :: map fst rest) ->
  cubic_pieces (x :: drop_last_but_one (map fst rest)) (P :: ps) f ->
  cval P x = v -> cslope P x = s -> ccurv P x = 2 * q ->
  (forall p, In p rest -> f (fst p) = snd p) ->
  snd (shoot x v s q rest) = 0 /\
  forall z, x <= z <= last (map fst rest) 0 -> f z = walk (fst (shoot x v s q rest)) z.
Proof.
  induction rest as [|[x1 y1] rest IH]; intros x v s q P ps f L I S V1 V2 V3 M; [simpl in L; lia|].
  destruct rest as [|[x2 y2] rest]; [simpl in L; lia|]. cbn [map fst] in I, S.
  pose proof I as I0. apply increasing_cons in I as (H & I).
  pose proof (increasing_cons _ _ _ I) as (H2 & I2).
  assert (Q : ccurv P x / 2 = q) by lra.
  destruct rest as [|p3 rest].
  - destruct S as (S1 & _ & _).
    assert (Y1 : cval P x1 = y1).
    { rewrite <- S1 by lra. apply (M (x1, y1)). left; reflexivity. }
    assert (Y2 : cval P x2 = y2).
    { rewrite <- S1 by lra. apply (M (x2, y2)). right; left; reflexivity. }
    assert (E : forall z, cval P z = peval (join x v s q x1 y1) z).
    { intros z. rewrite (proj1 (cubic_join P x x1 z H)). rewrite V1, V2, Q, Y1. reflexivity. }
    rewrite shoot_last. cbn [fst snd]. split; [rewrite <- E; lra|].
    intros z Z. rewrite walk_one, <- E. apply S1. exact Z.
  - rewrite shoot_cons. cbn [map fst] in S. rewrite drop_cons in S.
    destruct ps as [|P' ps]; [destruct S as (_ & _ & S); simpl in S; destruct (map fst rest); tauto|].
    destruct S as (S1 & (J1 & J2) & S2).
    assert (Y1 : cval P x1 = y1).
    { rewrite <- S1 by lra. apply (M (x1, y1)). left; reflexivity. }
    assert (E : forall z, cval P z = peval (join x v s q x1 y1) z /\ cslope P z = pslope (join x v s q x1 y1) z /\
              ccurv P z = 2 * phalf (join x v s q x1 y1) z).
    { intros z. pose proof (cubic_join P x x1 z H) as C. rewrite V1, V2, Q, Y1 in C. exact C. }
    assert (Y1' : cval P' x1 = y1).
    { assert (HB : x1 <= hd x1 (drop_last_but_one (x2 :: fst p3 :: map fst rest))).
      { apply increasing_cons in I2 as (H3 & _). destruct (map fst rest); simpl; lra. }
      destruct (drop_last_but_one (x2 :: fst p3 :: map fst rest)) as [|b brk] eqn:EB;
        [cbn in EB; destruct (map fst rest); discriminate|].
      destruct S2 as (S2 & _). simpl in HB. rewrite <- S2 by lra. apply (M (x1, y1)). left; reflexivity. }
    destruct (E x1) as (_ & E2 & E3).
    destruct (IH x1 y1 (pslope (join x v s q x1 y1) x1) (phalf (join x v s q x1 y1) x1) P' ps f) as (R1 & R2);
      [simpl; lia|exact I|exact S2|exact Y1'|rewrite <- J1; exact E2|rewrite <- J2; exact E3| |].
    { intros p Hp. apply M. right. exact Hp. }
    cbn [fst snd]. split; [exact R1|].
    intros z Z. destruct (Rlt_le_dec z x1) as [Zl|Zl].
    + rewrite walk_left by exact Zl. rewrite <- (proj1 (E z)). apply S1. lra.
    + rewrite walk_right by (auto; apply shoot_nonempty; discriminate). apply R2. split; [exact Zl|]. apply Z.
Qed.

Lemma trial_unique pts f : (4 <= List.length pts)%nat -> left_to_right pts -> cubic_through pts f ->
  exists c, snd (trial c pts) = 0 /\
  forall z, hd 0 (map fst pts) <= z <= last (map fst pts) 0 -> f z = walk (fst (trial c pts)) z.
Proof.
  unfold left_to_right. intros L I ((ps & S) & M).
  destruct pts as [|[x0 y0] [|[x1 y1] [|[x2 y2] [|p3 rest]]]]; try (simpl in L; lia). clear L.
  cbn [map fst] in I, S. unfold breaks_of in S.
  apply increasing_cons in I as (H0 & I). apply increasing_cons in I as (H1 & I).
  pose proof (increasing_cons _ _ _ I) as (H2 & I2).
  assert (M0 : f x0 = y0) by (apply (M (x0, y0)); left; reflexivity).
  assert (M1 : f x1 = y1) by (apply (M (x1, y1)); right; left; reflexivity).
  assert (M2 : f x2 = y2) by (apply (M (x2, y2)); right; right; left; reflexivity).
  destruct ps as [|P ps].
  { destruct rest; cbn [map drop_last_but_one] in S; cbn in S; tauto. }
  destruct rest as [|p4 rest].
  - destruct p3 as [x3 y3]. cbn [map fst drop_last_but_one] in S. destruct S as (S & _). cbn [fst] in *.
    assert (M3 : f x3 = y3) by (apply (M (x3, y3)); do 3 right; left; reflexivity).
    pose proof (fun z => proj1 (cubic_start P x0 x1 x2 z H0 H1)) as E.
    rewrite <- !S in E by lra. rewrite M0, M1, M2 in E.
    exists (c3 P). cbn [trial fst snd]. split.
    + rewrite <- E, <- S by lra. lra.
    + intros z Z. rewrite walk_one, <- E. apply S. exact Z.
  - cbn [map fst] in S. rewrite drop_cons in S. destruct S as (S & J & S2).
    pose proof (fun z => cubic_start P x0 x1 x2 z H0 H1) as E. cbv zeta in E.
    rewrite <- !S in E by lra. rewrite M0, M1, M2 in E.
    destruct ps as [|P' ps]; [destruct (map fst rest); simpl in S2; tauto|]. destruct J as (J1 & J2).
    assert (Y2 : cval P' x2 = y2).
    { assert (HB : x2 <= hd x2 (drop_last_but_one (fst p3 :: fst p4 :: map fst rest))).
      { apply increasing_cons in I2 as (H3 & _). cbn. destruct (map fst rest); simpl; lra. }
      destruct (drop_last_but_one (fst p3 :: fst p4 :: map fst rest)) as [|b brk] eqn:EB;
        [cbn in EB; destruct (map fst rest); discriminate|].
      destruct S2 as (S2 & _). simpl in HB. rewrite <- S2 by lra. exact M2. }
    set (Pc := start (c3 P) (x0, y0) (x1, y1) (x2, y2)) in *.
    pose proof (start_state (c3 P) (x0, y0) (x1, y1) (x2, y2)) as (T0 & T1 & T2). fold Pc in T0, T1, T2. cbn [fst snd] in T0, T1, T2.
    destruct (shoot_unique (p3 :: p4 :: rest) x2 y2 (k1 Pc) (k2 Pc) P' ps f) as (R1 & R2);
      [simpl; lia|exact I|exact S2|exact Y2| | | |].
    { rewrite <- J1, <- T1. apply E. }
    { rewrite <- J2, <- T2. apply E. }
    { intros p Hp. apply M. do 3 right. exact Hp. }
    exists (c3 P). rewrite trial_cons. cbn [fst snd]. fold Pc. split; [exact R1|].
    intros z Z. cbn [map fst hd] in Z. destruct (Rlt_le_dec z x2) as [Zl|Zl].
    + rewrite walk_left by exact Zl. rewrite <- (proj1 (E z)). apply S. lra.
    + rewrite walk_right by (auto; apply shoot_nonempty; discriminate). apply R2. split; [exact Zl|]. apply Z.
Qed.

Lemma cubic_unique pts f : (4 <= List.length pts)%nat -> left_to_right pts -> cubic_through pts f ->
  forall z, hd 0 (map fst pts) <= z <= last (map fst pts) 0 -> f z = cubic_at pts z.
Proof.
  intros L I S z Z. destruct (trial_unique pts f L I S) as (c & R0 & E).
  apply free_coefficient_iff in R0; auto. subst c. apply E. exact Z.
Qed.

(* ------------------------------------------------------------------------ *)
(** * What is found is such a spline *)

Lemma cubic_pieces_ext brk f g : (forall x, hd 0 brk <= x -> f x = g x) ->
  forall ps, increasing brk -> cubic_pieces brk ps f -> cubic_pieces brk ps g.
Proof.
  revert f g; induction brk as [|a brk IH]; intros f g H ps SS P; [simpl in *; tauto|].
  destruct brk as [|b brk]; destruct ps as [|p ps]; simpl in P |- *; try tauto.
  destruct P as (P1 & P2 & P3). split; [|split; [exact P2|]].
  - intros x X. rewrite <- H by (simpl; lra). auto.
  - apply increasing_cons in SS as (SS & SS'). apply (IH f g); auto. intros x X. apply H. simpl in X |- *. lra.
Qed.

Lemma drop_sub l : forall a, In a (drop_last_but_one l) -> In a l.
Proof.
  induction l as [|x l IH]; intros a H; [exact H|].
  destruct l as [|y l]; [exact H|]. destruct l as [|z l]; [right; exact H|].
  rewrite drop_cons in H. destruct H as [<-|H]; [left; reflexivity|right; auto].
Qed.
Lemma drop_sorted l : increasing l -> increasing (drop_last_but_one l).
Proof.
  unfold increasing.
  induction l as [|x l IH]; intros H; [exact H|].
  destruct l as [|y l]; [exact H|]. inversion H as [|? ? S F]; subst. destruct l as [|z l]; [exact S|].
  rewrite drop_cons. constructor; [apply IH; exact S|].
  apply Forall_forall. intros a A. apply (proj1 (Forall_forall _ _) F). now apply drop_sub.
Qed.
Lemma cons_drop_sorted x l : increasing (x :: l) -> increasing (x :: drop_last_but_one l).
Proof.
  unfold increasing. intros H. inversion H as [|? ? S F]; subst. constructor; [now apply drop_sorted|].
  apply Forall_forall. intros a A. apply (proj1 (Forall_forall _ _) F). now apply drop_sub.
Qed.

Lemma shoot_at_left rest : forall x v s q, (2 <= List.length rest)%nat -> increasing (x :: map fst rest) ->
  walk (fst (shoot x v s q rest)) x = v.
Proof.
  intros x v s q L I. destruct rest as [|[x1 y1] [|[x2 y2] rest]]; try (simpl in L; lia).
  cbn [map fst] in I. apply increasing_cons in I as (H & _). destruct rest as [|p3 rest].
  - rewrite shoot_last. cbn [fst]. rewrite walk_one. apply join_left.
  - rewrite shoot_cons. cbn [fst]. rewrite walk_left by exact H. apply join_left.
Qed.

Lemma shoot_pieces rest : forall x v s q, (2 <= List.length rest)%nat -> increasing (x :: map fst rest) ->
  snd (shoot x v s q rest) = 0 ->
  (exists P ps, cubic_pieces (x :: drop_last_but_one (map fst rest)) (P :: ps) (walk (fst (shoot x v s q rest))) /\
     cval P x = v /\ cslope P x = s /\ ccurv P x = 2 * q) /\
  forall p, In p rest -> walk (fst (shoot x v s q rest)) (fst p) = snd p.
Proof.
  induction rest as [|[x1 y1] rest IH]; intros x v s q L I Z; [simpl in L; lia|].
  destruct rest as [|[x2 y2] rest]; [simpl in L; lia|]. cbn [map fst] in I.
  pose proof I as I0. apply increasing_cons in I as (H & I).
  pose proof (increasing_cons _ _ _ I) as (H2 & I2).
  destruct rest as [|p3 rest].
  - rewrite shoot_last in *. cbn [fst snd] in *. split.
    + exists (poly_of (join x v s q x1 y1)), []. split.
      * cbn [map fst drop_last_but_one cubic_pieces]. split; [|split; exact Logic.I].
        intros z _. rewrite poly_val. apply walk_one.
      * rewrite poly_val, poly_slope, poly_curv, join_left, join_left_slope, join_left_half. auto.
    + intros p [<-|[<-|[]]]; cbn [fst snd]; rewrite walk_one; [now apply join_right|lra].
  - rewrite shoot_cons in *. cbn [fst snd] in *.
    set (J := join x v s q x1 y1) in *.
    destruct (IH x1 y1 (pslope J x1) (phalf J x1)) as ((P & ps & C & V1 & V2 & V3) & M); [simpl; lia|exact I|exact Z|].
    set (g := fst (shoot x1 y1 (pslope J x1) (phalf J x1) ((x2, y2) :: p3 :: rest))) in *.
    assert (G : g <> []) by (apply shoot_nonempty; discriminate).
    assert (GR : forall z, x1 <= z -> walk ((x1, J) :: g) z = walk g z) by (intros; now apply walk_right).
    split.
    + exists (poly_of J), (P :: ps). split.
      * cbn [map fst]. rewrite drop_cons.
        assert (SB : increasing (x1 :: drop_last_but_one (x2 :: fst p3 :: map fst rest)))
          by (apply cons_drop_sorted; exact I).
        cbn [map fst] in C.
        change (cubic_pieces (x :: x1 :: drop_last_but_one (x2 :: fst p3 :: map fst rest)) (poly_of J :: P :: ps) (walk ((x1, J) :: g)))
          with ((forall z, x <= z <= x1 -> walk ((x1, J) :: g) z = cval (poly_of J) z) /\
                (cslope (poly_of J) x1 = cslope P x1 /\ ccurv (poly_of J) x1 = ccurv P x1) /\
                cubic_pieces (x1 :: drop_last_but_one (x2 :: fst p3 :: map fst rest)) (P :: ps) (walk ((x1, J) :: g))).
        split; [|split].
        -- intros z Hz. rewrite poly_val. destruct (Rlt_le_dec z x1) as [K|K]; [now apply walk_left|].
           assert (z = x1) by lra. subst z. rewrite GR by lra. unfold J at 1.
           transitivity y1; [|symmetry; apply join_right; exact H].
           unfold g. apply shoot_at_left; [simpl; lia|exact I].
        -- rewrite V2, V3, poly_slope, poly_curv. auto.
        -- apply (cubic_pieces_ext _ (walk g)); [|exact SB|exact C]. intros z Hz. simpl in Hz. symmetry. now apply GR.
      * rewrite poly_val, poly_slope, poly_curv. unfold J. rewrite join_left, join_left_slope, join_left_half. auto.
    + intros p [<-|Hp]; cbn [fst snd].
      * rewrite GR by lra. unfold g. apply shoot_at_left; [simpl; lia|exact I].
      * rewrite GR; [apply M; exact Hp|].
        left. inversion I as [|? ? S F]; subst. apply (proj1 (Forall_forall _ _) F).
        apply (in_map fst) in Hp. exact Hp.
Qed.

Lemma trial_pieces pts c : (4 <= List.length pts)%nat -> left_to_right pts -> snd (trial c pts) = 0 ->
  cubic_through pts (walk (fst (trial c pts))).
Proof.
  unfold left_to_right. intros L I Z.
  destruct pts as [|[x0 y0] [|[x1 y1] [|[x2 y2] [|p3 rest]]]]; try (simpl in L; lia). clear L.
  cbn [map fst] in I.
  pose proof (increasing_cons _ _ _ I) as (H0 & I1). pose proof (increasing_cons _ _ _ I1) as (H1 & I2).
  pose proof (increasing_cons _ _ _ I2) as (H2 & I3).
  pose proof (start_meets c x0 y0 x1 y1 x2 y2 H0 H1) as (Y0 & Y1 & Y2).
  pose proof (start_state c (x0, y0) (x1, y1) (x2, y2)) as (T0 & T1 & T2).
  cbn [fst snd] in T0, T1, T2.
  destruct rest as [|p4 rest].
  - destruct p3 as [x3 y3]. cbn [trial fst snd] in *. split.
    + exists [poly_of (start c (x0, y0) (x1, y1) (x2, y2))].
      cbn [map fst breaks_of drop_last_but_one cubic_pieces]. split; [|split; exact Logic.I].
      intros z _. rewrite poly_val. apply walk_one.
    + intros p [<-|[<-|[<-|[<-|[]]]]]; cbn [fst snd]; rewrite walk_one; lra.
  - rewrite trial_cons in *. cbn [fst snd] in *.
    set (J := start c (x0, y0) (x1, y1) (x2, y2)) in *.
    destruct (shoot_pieces (p3 :: p4 :: rest) x2 y2 (k1 J) (k2 J)) as ((P & ps & C & V1 & V2 & V3) & M); [simpl; lia|exact I2|exact Z|].
    pose proof (shoot_at_left (p3 :: p4 :: rest) x2 y2 (k1 J) (k2 J) ltac:(simpl; lia) I2) as A.
    set (g := fst (shoot x2 y2 (k1 J) (k2 J) (p3 :: p4 :: rest))) in *.
    assert (G : g <> []) by (apply shoot_nonempty; discriminate).
    assert (GR : forall z, x2 <= z -> walk ((x2, J) :: g) z = walk g z) by (intros; now apply walk_right).
    cbn [map fst] in C. pose proof (cons_drop_sorted _ _ I2) as SB. cbn [map fst] in SB.
    split.
    + exists (poly_of J :: P :: ps). cbn [map fst breaks_of]. rewrite drop_cons.
      change (cubic_pieces (x0 :: x2 :: drop_last_but_one (fst p3 :: fst p4 :: map fst rest)) (poly_of J :: P :: ps) (walk ((x2, J) :: g)))
        with ((forall z, x0 <= z <= x2 -> walk ((x2, J) :: g) z = cval (poly_of J) z) /\
              (cslope (poly_of J) x2 = cslope P x2 /\ ccurv (poly_of J) x2 = ccurv P x2) /\
              cubic_pieces (x2 :: drop_last_but_one (fst p3 :: fst p4 :: map fst rest)) (P :: ps) (walk ((x2, J) :: g))).
      split; [|split].
      * intros z Hz. rewrite poly_val. destruct (Rlt_le_dec z x2) as [K|K]; [now apply walk_left|].
        assert (z = x2) by lra. subst z. rewrite GR by lra. lra.
      * rewrite V2, V3, poly_slope, poly_curv. split; congruence.
      * apply (cubic_pieces_ext _ (walk g)); [|exact SB|exact C]. intros z Hz. simpl in Hz. symmetry. now apply GR.
    + intros p [<-|[<-|[<-|Hp]]]; cbn [fst snd].
      * rewrite walk_left by lra. exact Y0.
      * rewrite walk_left by lra. exact Y1.
      * rewrite GR by lra. exact A.
      * rewrite GR; [apply M; exact Hp|].
        left. apply StronglySorted_inv in I2 as (_ & F). apply (proj1 (Forall_forall _ _) F).
        apply (in_map fst) in Hp. exact Hp.
Qed.
Lemma cubic_found pts : (4 <= List.length pts)%nat -> left_to_right pts -> cubic_through pts (cubic_at pts).
Proof. intros L I. apply trial_pieces; auto. now apply free_coefficient_iff. Qed.
