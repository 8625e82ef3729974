(** Linearity, positivity and monotonicity of fitted splines; the tensor product. *)
From Coq Require Import Sorted.
From Verif Require Import Base BaseFacts TurbopropModel TurbopropSpec TurbopropProofs TurbopropProofs2.

(* ------------------------------------------------------------------------ *)
(** * A spline is a weighted mean of its coefficients *)

Fixpoint dot (w c : list R) : R :=
  match w, c with a :: w', b :: c' => a * b + dot w' c' | _, _ => 0 end.

Fixpoint wts (t : list R) (n : nat) (x : R) : list R :=
  match t, n with
  | tm :: ((t0 :: t1 :: tp :: _) as t'), S ((S (S m)) as n') =>
      let '(w0, w1, w2) := bspl tm t0 t1 tp x in
      match m with
      | O => [w0; w1; w2]
      | _ => if Rltb x t1 then w0 :: w1 :: w2 :: repeat 0 m else 0 :: wts t' n' x
      end
  | _, _ => []
  end.

Lemma dot_repeat n : forall c, dot (repeat 0 n) c = 0.
Proof. induction n; intros [|a c]; simpl; try reflexivity. rewrite IHn. ring. Qed.

Lemma walk_dot t : forall c x, spline_walk t c x = dot (wts t (List.length c) x) c.
Proof.
  induction t as [|tm t IH]; intros c x; [reflexivity|].
  destruct t as [|t0 [|t1 [|tp t]]]; try reflexivity.
  destruct c as [|c0 [|c1 [|c2 c]]]; try reflexivity.
  specialize (IH (c1 :: c2 :: c) x).
  change (wts (tm :: t0 :: t1 :: tp :: t) (List.length (c0 :: c1 :: c2 :: c)) x) with
    (let '(w0, w1, w2) := bspl tm t0 t1 tp x in
      match List.length c with
      | O => [w0; w1; w2]
      | _ => if Rltb x t1 then w0 :: w1 :: w2 :: repeat 0 (List.length c)
             else 0 :: wts (t0 :: t1 :: tp :: t) (List.length (c1 :: c2 :: c)) x
      end).
  change (spline_walk (tm :: t0 :: t1 :: tp :: t) (c0 :: c1 :: c2 :: c) x) with
    (match c with
      | [] => let '(w0, w1, w2) := bspl tm t0 t1 tp x in w0 * c0 + w1 * c1 + w2 * c2
      | _ => if Rltb x t1
             then let '(w0, w1, w2) := bspl tm t0 t1 tp x in w0 * c0 + w1 * c1 + w2 * c2
             else spline_walk (t0 :: t1 :: tp :: t) (c1 :: c2 :: c) x
      end).
  destruct (bspl tm t0 t1 tp x) as [[w0 w1] w2].
  destruct c as [|c3 c].
  - simpl. ring.
  - destruct (Rltb x t1).
    + cbn [List.length]. cbn [dot]. rewrite dot_repeat. ring.
    + rewrite IH. cbn [dot List.length]. ring.
Qed.

Lemma spline_at_dot x c v : spline_at x c v
  = dot (wts (tl (fit_knots x)) (List.length c) (clamp (hd 0 x) (last x 0) v)) c.
Proof. apply walk_dot. Qed.

Definition mean_weights (w : list R) (n : nat) : Prop :=
  List.length w = n /\ Forall (fun a => 0 <= a) w /\ fold_right Rplus 0 w = 1.

Lemma wts_mean n : forall t x, knots_ok t (S n) ->
  nth 1 t 0 <= x <= nth (S (S n)) t 0 -> mean_weights (wts t (S (S (S n))) x) (S (S (S n))).
Proof.
  induction n as [|n IH]; intros t x K X;
    destruct t as [|tm [|t0 [|t1 [|tp t]]]]; try (simpl in K; tauto);
    cbn [nth] in X; destruct K as (K1 & K2 & K3 & K4);
    destruct (bspl tm t0 t1 tp x) as [[w0 w1] w2] eqn:EW.
  - cbn [wts]. rewrite EW.
    destruct (bspl_nonneg _ _ _ _ _ _ _ _ EW K1 K2 K3 X) as (A & B & C).
    pose proof (bspl_sum _ _ _ _ _ _ _ _ EW K1 K2 K3) as SM.
    repeat split; auto. simpl. lra.
  - change (wts (tm :: t0 :: t1 :: tp :: t) (S (S (S (S n)))) x) with
      (let '(w0, w1, w2) := bspl tm t0 t1 tp x in
       if Rltb x t1 then w0 :: w1 :: w2 :: repeat 0 (S n)
       else 0 :: wts (t0 :: t1 :: tp :: t) (S (S (S n))) x).
    rewrite EW. destruct (Rlt_dec x t1) as [L|L].
    + rewrite Rltb_true by lra.
      assert (X' : t0 <= x <= t1) by lra.
      destruct (bspl_nonneg _ _ _ _ _ _ _ _ EW K1 K2 K3 X') as (A & B & C).
      pose proof (bspl_sum _ _ _ _ _ _ _ _ EW K1 K2 K3) as SM.
      assert (RP : fold_right Rplus 0 (repeat 0 (S n)) = 0).
      { generalize (S n). induction n0; simpl; [reflexivity|lra]. }
      repeat split.
      * cbn [List.length]. now rewrite repeat_length.
      * apply Forall_cons; [exact A|]. apply Forall_cons; [exact B|]. apply Forall_cons; [exact C|].
        apply Forall_forall. intros a IN.
        apply repeat_spec in IN. lra.
      * cbn [fold_right]. rewrite RP. lra.
    + rewrite Rltb_false by lra.
      destruct (IH (t0 :: t1 :: tp :: t) x) as (A & B & C).
      * exact K4.
      * cbn [nth]. lra.
      * repeat split; [cbn [List.length]; now rewrite A|constructor; [lra|exact B]|].
        cbn [fold_right]. rewrite C. ring.
Qed.

Lemma dot_bounds lo hi w : forall c, Forall (fun a => 0 <= a) w -> List.length c = List.length w ->
  Forall (fun a => lo <= a <= hi) c ->
  lo * fold_right Rplus 0 w <= dot w c <= hi * fold_right Rplus 0 w.
Proof.
  induction w as [|a w IH]; intros c F L B; destruct c as [|b c]; try discriminate; simpl; [lra|].
  inversion F; inversion B; subst. injection L as L.
  destruct (IH c) as (I1 & I2); auto. nra.
Qed.
Lemma mean_bounds lo hi w c n : mean_weights w n -> List.length c = n ->
  Forall (fun a => lo <= a <= hi) c -> lo <= dot w c <= hi.
Proof.
  intros (L & F & SM) LC B. destruct (dot_bounds lo hi w c F) as (A1 & A2); [congruence|exact B|].
  rewrite SM in *. lra.
Qed.

Lemma dot_le w : forall c c', Forall (fun a => 0 <= a) w -> Forall2 Rle c c' -> dot w c <= dot w c'.
Proof.
  induction w as [|a w IH]; intros c c' F L; destruct L as [|u u' l l' U L]; simpl; try lra.
  inversion F as [|? ? A F']; subst. specialize (IH l l' F' L).
  assert (a * u <= a * u') by (apply Rmult_le_compat_l; lra). lra.
Qed.
Lemma dot_lt w : forall c c', Forall (fun a => 0 <= a) w -> List.length c = List.length w ->
  Forall2 Rlt c c' -> fold_right Rplus 0 w <> 0 -> dot w c < dot w c'.
Proof.
  induction w as [|a w IH]; intros c c' F LC L N; [simpl in N; lra|].
  destruct L as [|u u' l l' U L]; [discriminate|]. cbn [dot fold_right] in *.
  inversion F as [|? ? A F']; subst. injection LC as LC.
  destruct (Req_dec a 0) as [Z|Z].
  - subst a. specialize (IH l l' F' LC L). rewrite !Rmult_0_l, !Rplus_0_l in *. auto.
  - assert (dot w l <= dot w l').
    { apply dot_le; auto. clear - L. induction L; constructor; auto; lra. }
    assert (a * u < a * u') by (apply Rmult_lt_compat_l; lra). lra.
Qed.
Lemma mean_lt w c c' n : mean_weights w n -> List.length c = n -> Forall2 Rlt c c' -> dot w c < dot w c'.
Proof. intros (L & F & SM) LC H. apply dot_lt; auto; [congruence|lra]. Qed.

(* ------------------------------------------------------------------------ *)
(** * Monotonicity *)

(** at both ends of a knot interval too *)
Lemma walk_at n tm t0 t1 tp r c0 c1 c2 c x w0 w1 w2 :
  knots_ok (tm :: t0 :: t1 :: tp :: r) (S n) -> List.length c = n -> t0 <= x <= t1 ->
  bspl tm t0 t1 tp x = (w0, w1, w2) ->
  spline_walk (tm :: t0 :: t1 :: tp :: r) (c0 :: c1 :: c2 :: c) x = w0 * c0 + w1 * c1 + w2 * c2.
Proof.
  intros (K1 & K2 & K3 & K4) L X EW.
  destruct c as [|c3 c]; [now apply walk_here; [left|]|].
  destruct (Rlt_dec x t1) as [LT|GE]; [apply walk_here; auto|].
  assert (x = t1) by lra. subst x. rewrite walk_tail by lra.
  destruct n as [|n]; [discriminate|]. destruct r as [|tq r]; [simpl in K4; tauto|].
  destruct K4 as (_ & K5 & K6 & _).
  destruct (bspl t0 t1 tp tq t1) as [[u0 u1] u2] eqn:EU.
  rewrite (walk_here _ _ _ _ _ _ _ _ c t1 u0 u1 u2) by (auto || exact EU).
  unfold bspl in EU, EW. injection EU as <- <- <-. injection EW as <- <- <-. field. lra.
Qed.

Lemma cell_decreasing tm t0 t1 tp x y a b c w0 w1 w2 v0 v1 v2 :
  bspl tm t0 t1 tp x = (w0, w1, w2) -> bspl tm t0 t1 tp y = (v0, v1, v2) ->
  tm <= t0 -> t0 < t1 -> t1 <= tp -> t0 <= x -> x < y -> y <= t1 -> b < a -> c < b ->
  v0 * a + v1 * b + v2 * c < w0 * a + w1 * b + w2 * c.
Proof.
  unfold bspl; intros EX EY H1 H2 H3 H4 H5 H6 H7 H8.
  injection EX as <- <- <-. injection EY as <- <- <-.
  set (s := (x + y) / 2).

  apply Rminus_gt_0_lt, Rlt_gt.
  match goal with |- 0 < ?d => replace d with
    ((y - x) * (2 * / (t1 - t0)) * ((a - b) * (t1 - s) * / (t1 - tm) + (b - c) * (s - t0) * / (tp - t0)))
    by (unfold s; field; lra) end.
  assert (I0 : 0 < / (t1 - t0)) by (apply Rinv_0_lt_compat; lra).
  assert (I1 : 0 < / (t1 - tm)) by (apply Rinv_0_lt_compat; lra).
  assert (I2 : 0 < / (tp - t0)) by (apply Rinv_0_lt_compat; lra).
  assert (S1 : 0 < t1 - s) by (unfold s; lra). assert (S2 : 0 < s - t0) by (unfold s; lra).
  apply Rmult_lt_0_compat; [apply Rmult_lt_0_compat; lra|].
  apply Rplus_lt_0_compat; apply Rmult_lt_0_compat; auto; apply Rmult_lt_0_compat; lra.
Qed.

Fixpoint falls (k : nat) (c : list R) : Prop :=
  match k, c with
  | O, _ => True
  | S k', a :: ((b :: _) as c') => b < a /\ falls k' c'
  | _, _ => False
  end.

Lemma walk_decreasing k : forall n t c x y, (k <= n)%nat -> knots_ok t (S n) ->
  List.length c = S (S (S n)) -> falls (S (S k)) c ->
  nth 1 t 0 <= x -> x < y -> y <= nth (S (S k)) t 0 ->
  spline_walk t c y < spline_walk t c x.
Proof.
  induction k as [|k IH]; intros n t c x y KN K L F X XY Y;
    destruct t as [|tm [|t0 [|t1 [|tp t]]]]; try (simpl in K; tauto);
    destruct c as [|c0 [|c1 [|c2 c]]]; try discriminate; cbn [nth] in X, Y;
    injection L as L; pose proof K as (K1 & K2 & K3 & K4); destruct F as (F1 & F2 & F3);
    destruct (bspl tm t0 t1 tp x) as [[w0 w1] w2] eqn:EX;
    destruct (bspl tm t0 t1 tp y) as [[v0 v1] v2] eqn:EY.
  - rewrite (walk_at n _ _ _ _ _ _ _ _ _ x w0 w1 w2), (walk_at n _ _ _ _ _ _ _ _ _ y v0 v1 v2)
      by (assumption || lra).
    apply (cell_decreasing tm t0 t1 tp x y); auto; lra.
  - destruct n as [|n]; [lia|]. destruct c as [|c3 c]; [discriminate|].
    assert (K4' : knots_ok (t0 :: t1 :: tp :: t) (S n)) by exact K4. clear K4.
    assert (TAIL : forall u v, t1 <= u -> u < v -> v <= nth k (tp :: t) 0 ->
       spline_walk (tm :: t0 :: t1 :: tp :: t) (c0 :: c1 :: c2 :: c3 :: c) v
       < spline_walk (tm :: t0 :: t1 :: tp :: t) (c0 :: c1 :: c2 :: c3 :: c) u).
    { intros u v U1 U2 U3. rewrite !walk_tail by lra.
      apply (IH n); auto; try lia; [simpl in *; lia|]. split; [exact F2|exact F3]. }
    assert (YK : y <= nth k (tp :: t) 0 \/ y <= t1) by (left; exact Y).
    destruct (Rle_dec y t1) as [YT|YT].
    + rewrite (walk_at (S n) _ _ _ _ _ _ _ _ _ x w0 w1 w2), (walk_at (S n) _ _ _ _ _ _ _ _ _ y v0 v1 v2)
        by (assumption || lra).
      apply (cell_decreasing tm t0 t1 tp x y); auto; lra.
    + destruct (Rle_dec t1 x) as [XT|XT].
      * apply TAIL; auto; try lra.
      * apply Rlt_trans with (spline_walk (tm :: t0 :: t1 :: tp :: t) (c0 :: c1 :: c2 :: c3 :: c) t1).
        -- apply TAIL; try lra.
        -- destruct (bspl tm t0 t1 tp t1) as [[u0 u1] u2] eqn:EU.
           rewrite (walk_at (S n) _ _ _ _ _ _ _ _ _ x w0 w1 w2), (walk_at (S n) _ _ _ _ _ _ _ _ _ t1 u0 u1 u2)
             by (assumption || lra).
           apply (cell_decreasing tm t0 t1 tp x t1); auto; lra.
Qed.

Lemma walk_opp t : forall c x, spline_walk t (map Ropp c) x = - spline_walk t c x.
Proof.
  intros c x. rewrite !walk_dot, map_length. generalize (wts t (List.length c) x). intros w.
  revert c; induction w as [|a w IH]; intros [|b c]; simpl; try ring. rewrite IH. ring.
Qed.
Fixpoint rises (k : nat) (c : list R) : Prop :=
  match k, c with
  | O, _ => True
  | S k', a :: ((b :: _) as c') => a < b /\ rises k' c'
  | _, _ => False
  end.
Lemma rises_falls k : forall c, rises k c -> falls k (map Ropp c).
Proof.
  induction k; intros [|a [|b c]]; simpl; try tauto. intros (A & B). split; [lra|].
  apply (IHk (b :: c)). exact B.
Qed.
Lemma walk_increasing k n t c x y : (k <= n)%nat -> knots_ok t (S n) ->
  List.length c = S (S (S n)) -> rises (S (S k)) c ->
  nth 1 t 0 <= x -> x < y -> y <= nth (S (S k)) t 0 ->
  spline_walk t c x < spline_walk t c y.
Proof.
  intros KN K L F X XY Y.
  pose proof (walk_decreasing k n t (map Ropp c) x y KN K) as W.
  rewrite map_length in W. specialize (W L (rises_falls _ _ F) X XY Y). rewrite !walk_opp in W. lra.
Qed.

(* ------------------------------------------------------------------------ *)
(** * Linearity of the fit, and the order of the two directions *)

Fixpoint lin (k : R) (a b : list R) : list R :=
  match a, b with u :: a', v :: b' => k * u + v :: lin k a' b' | _, _ => [] end.

Lemma lin_hd k a b : List.length a = List.length b -> hd 0 (lin k a b) = k * hd 0 a + hd 0 b.
Proof. destruct a, b; simpl; try discriminate; intros; ring. Qed.
Lemma lin_tl k a b : tl (lin k a b) = lin k (tl a) (tl b).
Proof. destruct a as [|a0 a], b as [|b0 b]; simpl; try reflexivity. now destruct a. Qed.

(** same matrix, right hand sides in linear relation *)
Fixpoint rows_lin (k : R) (r1 r2 r3 : list row) : Prop :=
  match r1, r2, r3 with
  | [], [], [] => True
  | (a, b, c, d) :: r1', (a2, b2, c2, d2) :: r2', (a3, b3, c3, d3) :: r3' =>
      a2 = a /\ a3 = a /\ b2 = b /\ b3 = b /\ c2 = c /\ c3 = c /\ d3 = k * d + d2 /\ rows_lin k r1' r2' r3'
  | _, _, _ => False
  end.

Lemma rows_lin_length k r1 : forall r2 r3, rows_lin k r1 r2 r3 -> List.length r1 = List.length r2.
Proof.
  induction r1 as [|[[[? ?] ?] ?] r1 IH]; intros [|[[[? ?] ?] ?] s2] [|[[[? ?] ?] ?] s3]; simpl; try tauto.
  intros (_ & _ & _ & _ & _ & _ & _ & H). f_equal. eauto.
Qed.

Lemma eliminate_lin k r1 : forall r2 r3 cp dp1 dp2, rows_lin k r1 r2 r3 ->
  eliminate r3 cp (k * dp1 + dp2) = lin k (eliminate r1 cp dp1) (eliminate r2 cp dp2).
Proof.
  induction r1 as [|[[[a b] c] d] r1 IH]; intros [|[[[a2 b2] c2] d2] r2] [|[[[a3 b3] c3] d3] r3] cp dp1 dp2;
    cbn [rows_lin]; try tauto.
  intros (-> & -> & -> & -> & -> & -> & -> & H). cbn [eliminate lin].
  replace ((k * d + d2 - a * (k * dp1 + dp2)) / (b - a * cp))
    with (k * ((d - a * dp1) / (b - a * cp)) + (d2 - a * dp2) / (b - a * cp)) by (unfold Rdiv; ring).
  rewrite (IH r2 r3) by exact H. f_equal. rewrite lin_hd; [ring|].
  rewrite !eliminate_length. eapply rows_lin_length; exact H.
Qed.

Lemma site_rows_lin k x : forall t z1 z2, List.length z1 = List.length z2 ->
  rows_lin k (site_rows t x z1) (site_rows t x z2) (site_rows t x (lin k z1 z2)).
Proof.
  induction x as [|v x IH]; intros t z1 z2 L.
  - destruct t as [|? [|? [|? [|? ?]]]]; simpl; exact I.
  - destruct z1 as [|u1 z1], z2 as [|u2 z2]; try discriminate.
    + destruct t as [|? [|? [|? [|? ?]]]], x; simpl; exact I.
    + injection L as L. destruct x as [|e x].
      * destruct t as [|? [|? [|? [|? ?]]]]; simpl; repeat split; ring.
      * destruct t as [|tm [|t0 [|t1 [|tp t]]]]; try (simpl; exact I).
        specialize (IH (t0 :: t1 :: tp :: t) z1 z2 L).
        change (rows_lin k
          (let '(a, b, c) := bspl tm t0 t1 tp v in (a, b, c, u1) :: site_rows (t0 :: t1 :: tp :: t) (e :: x) z1)
          (let '(a, b, c) := bspl tm t0 t1 tp v in (a, b, c, u2) :: site_rows (t0 :: t1 :: tp :: t) (e :: x) z2)
          (let '(a, b, c) := bspl tm t0 t1 tp v in
             (a, b, c, k * u1 + u2) :: site_rows (t0 :: t1 :: tp :: t) (e :: x) (lin k z1 z2))).
        destruct (bspl tm t0 t1 tp v) as [[a b] c]. repeat split; auto.
Qed.

Lemma fit_lin k x z1 z2 : List.length z1 = List.length z2 ->
  fit x (lin k z1 z2) = lin k (fit x z1) (fit x z2).
Proof.
  intros L. unfold fit, fit_rows.
  replace 0 with (k * 0 + 0) at 5 by ring. apply eliminate_lin. rewrite lin_tl, lin_hd by exact L.
  repeat split. apply site_rows_lin. destruct z1, z2; simpl in *; try discriminate; congruence.
Qed.

Lemma lin_length k a : forall b, List.length a = List.length b -> List.length (lin k a b) = List.length a.
Proof. induction a; intros [|v b] L; try discriminate; simpl in *; [reflexivity|]. f_equal. apply IHa. congruence. Qed.


Lemma map_dot_cons w ws M : map (dot (w :: ws)) M = map (fun r => w * hd 0 r + dot ws (tl r)) M.
Proof. apply map_ext. intros [|a r]; simpl; [destruct ws; simpl; ring|reflexivity]. Qed.
Lemma map_lin {A} k (f g : A -> R) l : map (fun a => k * f a + g a) l = lin k (map f l) (map g l).
Proof. induction l; simpl; [reflexivity|]. now rewrite IHl. Qed.

Lemma columns_cons k : forall w ws r rows, List.length r = k ->
  map (dot (w :: ws)) (columns k (r :: rows)) = lin w r (map (dot ws) (columns k rows)).
Proof.
  induction k as [|k IH]; intros w ws r rows L.
  - destruct r; [reflexivity|discriminate].
  - destruct r as [|a r]; [discriminate|]. injection L as L.
    cbn [columns map hd tl lin dot]. f_equal. now apply IH.
Qed.

Lemma columns_nil k : map (dot []) (columns k []) = repeat 0 k.
Proof. induction k; [reflexivity|]. cbn [columns map]. rewrite IHk. reflexivity. Qed.

Lemma fit_zeros x brk delta n : grid_ok x brk delta -> List.length x = n ->
  fit x (repeat 0 n) = repeat 0 n.
Proof.
  intros G L.
  assert (LL : List.length (fit x (repeat 0 n)) = n).
  { rewrite <- L. rewrite (fit_length x brk delta G); [reflexivity|apply repeat_length]. }
  pose proof (fit_lin (-1) x (repeat 0 n) (repeat 0 n) eq_refl) as F.
  assert (E : lin (-1) (repeat 0 n) (repeat 0 n) = repeat 0 n).
  { clear. induction n; simpl; [reflexivity|]. rewrite IHn. f_equal. ring. }
  rewrite E in F. rewrite F. clear - LL. revert n LL. generalize (fit x).
  intros g n. generalize (g (repeat 0 n)). intros l; revert n; induction l; intros [|n] L; try discriminate; simpl.
  - reflexivity.
  - f_equal; [ring|]. apply IHl. now injection L.
Qed.

(** fitting a weighted mean of columns is the weighted mean of the fits *)
Lemma fit_mean x brk delta : grid_ok x brk delta -> forall n w M, List.length w = n ->
  List.length M = List.length x -> Forall (fun r => List.length r = n) M ->
  fit x (map (dot w) M) = map (dot w) (columns (List.length x) (map (fit x) (columns n M))).
Proof.
  intros G. induction n as [|n IH]; intros w M LW LM F.
  - destruct w; [|discriminate]. cbn [columns map].
    rewrite columns_nil. replace (map (dot []) M) with (repeat 0 (List.length x)).
    + eapply fit_zeros; eauto.
    + rewrite <- LM. clear. induction M; simpl; [reflexivity|]. now rewrite IHM.
  - destruct w as [|w ws]; [discriminate|]. injection LW as LW.
    rewrite map_dot_cons, (map_lin w (hd 0) (fun r => dot ws (tl r))).
    rewrite fit_lin by now rewrite !map_length.
    cbn [columns map]. rewrite columns_cons by (rewrite (fit_length x brk delta G); rewrite ?map_length; auto).
    f_equal. rewrite <- (map_map (@tl R) (dot ws)).
    apply IH; [exact LW|now rewrite map_length|].
    apply Forall_forall. intros r IN. apply in_map_iff in IN. destruct IN as (r0 & <- & IN).
    rewrite Forall_forall in F. specialize (F r0 IN). destruct r0; simpl in *; congruence.
Qed.

Lemma dot_columns n : forall wx wy C, List.length wy = n -> Forall (fun r => List.length r = n) C ->
  dot wx (map (dot wy) C) = dot wy (map (dot wx) (columns n C)).
Proof.
  induction n as [|n IH]; intros wx wy C LW F.
  - destruct wy; [|discriminate]. cbn [columns map dot].
    clear. revert wx; induction C; intros [|w wx]; simpl; try reflexivity. rewrite IHC. ring.
  - destruct wy as [|w wy]; [discriminate|]. injection LW as LW.
    rewrite map_dot_cons. cbn [columns map dot]. rewrite <- (IH wx wy (map (@tl R) C) LW).
    + rewrite map_map. clear. revert wx; induction C; intros [|u wx]; simpl; try ring.
      rewrite IHC. ring.
    + apply Forall_forall. intros r IN. apply in_map_iff in IN. destruct IN as (r0 & <- & IN).
      rewrite Forall_forall in F. specialize (F r0 IN). destruct r0; simpl in *; congruence.
Qed.
