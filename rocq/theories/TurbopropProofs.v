(** Quadratic splines in one variable: weights, elimination, interpolation, uniqueness. *)
From Verif Require Import Base BaseFacts TurbopropModel TurbopropSpec.

(* ------------------------------------------------------------------------ *)
(** * The weights *)

Lemma bspl_sum tm t0 t1 tp x a b c :
  bspl tm t0 t1 tp x = (a, b, c) -> tm <= t0 -> t0 < t1 -> t1 <= tp -> a + b + c = 1.
Proof.
  unfold bspl; intros E H1 H2 H3; injection E as <- <- <-. field. lra.
Qed.

Lemma bspl_a tm t0 t1 tp x : fst (fst (bspl tm t0 t1 tp x))
   = 1 / (t1 - t0) * (t1 - x) / (t1 - tm) * (t1 - x).
Proof. reflexivity. Qed.

Lemma div_pos a b : 0 <= a -> 0 < b -> 0 <= a / b.
Proof. intros. apply Rmult_le_pos; [lra|]. left. now apply Rinv_0_lt_compat. Qed.

Lemma bspl_nonneg tm t0 t1 tp x a b c :
  bspl tm t0 t1 tp x = (a, b, c) -> tm <= t0 -> t0 < t1 -> t1 <= tp -> t0 <= x <= t1 ->
  0 <= a /\ 0 <= b /\ 0 <= c.
Proof.
  unfold bspl; intros E H1 H2 H3 H4; injection E as <- <- <-.
  assert (F : 0 <= 1 / (t1 - t0)) by (apply div_pos; lra).
  assert (A : 0 <= 1 / (t1 - t0) * (t1 - x) / (t1 - tm)).
  { apply div_pos; [apply Rmult_le_pos; lra|lra]. }
  assert (B : 0 <= 1 / (t1 - t0) * (x - t0) / (tp - t0)).
  { apply div_pos; [apply Rmult_le_pos; lra|lra]. }
  repeat split.
  - apply Rmult_le_pos; lra.
  - apply Rplus_le_le_0_compat; apply Rmult_le_pos; lra.
  - apply Rmult_le_pos; lra.
Qed.

(* ------------------------------------------------------------------------ *)
(** * Elimination *)

Definition row := (R * R * R * R)%type.

(** [xs] solves the equations, [prev] being the unknown before them *)
Fixpoint sat (prev : R) (rows : list row) (xs : list R) : Prop :=
  match rows, xs with
  | [], [] => True
  | (a, b, c, d) :: rows', x :: xs' => a * prev + b * x + c * hd 0 xs' = d /\ sat x rows' xs'
  | _, _ => False
  end.
(** ... up to [eps] *)
Fixpoint near_sat (eps prev : R) (rows : list row) (xs : list R) : Prop :=
  match rows, xs with
  | [], [] => True
  | (a, b, c, d) :: rows', x :: xs' =>
      Rabs (a * prev + b * x + c * hd 0 xs' - d) <= eps /\ near_sat eps x rows' xs'
  | _, _ => False
  end.
Definition dominant (delta : R) (r : row) : Prop :=
  let '(a, b, c, d) := r in 0 <= a /\ 0 <= c /\ delta <= b - a - c.

Lemma eliminate_length rows cp dp : List.length (eliminate rows cp dp) = List.length rows.
Proof.
  revert cp dp; induction rows as [|[[[a b] c] d] rows IH]; intros; simpl; [reflexivity|].
  f_equal. apply IH.
Qed.

Lemma step_cp delta a b c cp : 0 < delta -> 0 <= a -> 0 <= c -> delta <= b - a - c -> 0 <= cp < 1 ->
  0 < b - a * cp /\ 0 <= c / (b - a * cp) < 1.
Proof.
  intros D A C B K.
  assert (P : c < b - a * cp) by nra.
  assert (P0 : 0 < b - a * cp) by lra.
  split; [exact P0|]. split.
  - apply div_pos; lra.
  - apply (Rmult_lt_reg_r (b - a * cp)); [exact P0|].
    unfold Rdiv. rewrite Rmult_assoc, Rinv_l by lra. lra.
Qed.

(** the solution found does solve the equations *)
Lemma eliminate_sat delta rows : 0 < delta -> Forall (dominant delta) rows ->
  forall cp dp prev, 0 <= cp < 1 ->
  (forall r, In r [hd 0 (eliminate rows cp dp)] -> prev = dp - cp * r) ->
  sat prev rows (eliminate rows cp dp).
Proof.
  intros D F; induction F as [|[[[a b] c] d] rows (A & C & B) F IH]; intros cp dp prev K H;
    [simpl; exact I|].
  destruct (step_cp delta a b c cp D A C B K) as (P & Q).
  cbn [eliminate sat].
  set (p := b - a * cp) in *. set (rest := eliminate rows (c / p) ((d - a * dp) / p)) in *.
  split.
  - rewrite (H ((d - a * dp) / p - c / p * hd 0 rest)) by (left; reflexivity).
    replace (a * (dp - cp * ((d - a * dp) / p - c / p * hd 0 rest)) +
             b * ((d - a * dp) / p - c / p * hd 0 rest) + c * hd 0 rest)
      with (a * dp + p * ((d - a * dp) / p - c / p * hd 0 rest) + c * hd 0 rest)
      by (unfold p; ring).
    field. lra.
  - apply IH; [exact Q|]. intros r [<-|[]]. reflexivity.
Qed.

Fixpoint close (M : R) (xs ys : list R) : Prop :=
  match xs, ys with
  | [], [] => True
  | x :: xs', y :: ys' => Rabs (x - y) <= M /\ close M xs' ys'
  | _, _ => False
  end.

Lemma close_hd M xs ys : 0 <= M -> close M xs ys -> Rabs (hd 0 xs - hd 0 ys) <= M.
Proof.
  intros HM C. destruct xs, ys; simpl in *; try tauto.
  rewrite Rminus_0_r, Rabs_R0; lra.
Qed.

Lemma abs_le_split a m : - m <= a <= m -> Rabs a <= m.
Proof. intros; apply Rabs_le; lra. Qed.
Lemma abs_split a m : Rabs a <= m -> - m <= a <= m.
Proof. intros H. unfold Rabs in H. destruct (Rcase_abs a); lra. Qed.

(** an approximate solution is close to the solution found *)
Lemma eliminate_close delta M rows : 0 < delta -> 0 <= M -> Forall (dominant delta) rows ->
  forall ys cp dp prev, 0 <= cp < 1 ->
  near_sat (M * delta) prev rows ys ->
  (rows <> [] -> Rabs (prev + cp * hd 0 ys - dp) <= M * (1 - cp)) ->
  close M (eliminate rows cp dp) ys.
Proof.
  intros D HM F; induction F as [|[[[a b] c] d] rows (A & C & B) F IH];
    intros ys cp dp prev K N H; destruct ys as [|y ys]; cbn [near_sat eliminate close hd] in *; try tauto.
  destruct N as (N1 & N2).
  specialize (H ltac:(discriminate)).
  destruct (step_cp delta a b c cp D A C B K) as (P & Q).
  set (p := b - a * cp) in *.
  assert (S1 : Rabs (y + c / p * hd 0 ys - (d - a * dp) / p) <= M * (1 - c / p)).
  { apply abs_split in N1. apply abs_split in H. apply abs_le_split.
    replace (y + c / p * hd 0 ys - (d - a * dp) / p)
      with (((a * prev + b * y + c * hd 0 ys - d) - a * (prev + cp * y - dp)) / p)
      by (unfold p in *; field; lra).
    replace (M * (1 - c / p)) with (M * (p - c) / p) by (field; lra).
    replace (- (M * (p - c) / p)) with (- (M * (p - c)) / p) by (field; lra).
    assert (T : M * delta + a * (M * (1 - cp)) <= M * (p - c)) by (unfold p; nra).
    assert (T1 : - (a * (M * (1 - cp))) <= a * (prev + cp * y - dp) <= a * (M * (1 - cp))) by nra.
    split; apply Rmult_le_compat_r; try lra; left; apply Rinv_0_lt_compat; lra. }
  assert (R1 : close M (eliminate rows (c / p) ((d - a * dp) / p)) ys)
    by (eapply IH; eauto).
  split; [|exact R1].
  pose proof (close_hd M _ _ HM R1) as HH.
  set (e := hd 0 (eliminate rows (c / p) ((d - a * dp) / p))) in *.
  apply abs_split in S1. apply abs_split in HH. apply abs_le_split.
  set (k := c / p) in *.
  assert (- (k * M) <= k * (e - hd 0 ys) <= k * M) by nra.
  lra.
Qed.

Lemma close_0 xs ys : close 0 xs ys -> xs = ys.
Proof.
  revert ys; induction xs; intros [|y ys]; simpl; try tauto. intros (H & C).
  apply abs_split in H. f_equal; [lra|auto].
Qed.

Lemma sat_near prev rows xs : sat prev rows xs -> near_sat (0 * 1) prev rows xs.
Proof.
  revert prev xs; induction rows as [|[[[a b] c] d] rows IH]; intros prev [|x xs]; simpl; try tauto.
  intros (E & T). split; [|auto]. rewrite E. replace (d - d) with 0 by ring. rewrite Rabs_R0; lra.
Qed.
Lemma near_eq eps eps' prev rows xs : eps = eps' -> near_sat eps prev rows xs -> near_sat eps' prev rows xs.
Proof. now intros ->. Qed.
Lemma eliminate_unique delta rows xs : 0 < delta -> Forall (dominant delta) rows ->
  sat 0 rows xs -> eliminate rows 0 0 = xs.
Proof.
  intros D F S0. apply close_0. eapply (eliminate_close delta 0 rows D) with (prev := 0); try lra; auto.
  - apply (near_eq (0 * 1)); [ring|now apply sat_near].
  - intros _. replace (0 + 0 * hd 0 xs - 0) with 0 by ring. rewrite Rabs_R0. lra.
Qed.

(* ------------------------------------------------------------------------ *)
(** * Interpolation *)

Fixpoint aligned (t x : list R) : Prop :=
  match t, x with
  | tm :: ((t0 :: t1 :: tp :: _) as t'), v :: ((e :: x'') as x') =>
      tm <= t0 /\ t0 < t1 /\ t1 <= tp /\ t0 <= v < t1 /\
      match x'' with
      | [] => t1 = e /\ tp = e
      | _ => Forall (fun u => t1 <= u) x' /\ aligned t' x'
      end
  | _, _ => False
  end.

Definition on_sites (t c x z : list R) : Prop := map (spline_walk t c) x = z.

Lemma walk_tail tm t0 t1 tp r c0 c1 c2 c3 c x : t1 <= x ->
  spline_walk (tm :: t0 :: t1 :: tp :: r) (c0 :: c1 :: c2 :: c3 :: c) x
  = spline_walk (t0 :: t1 :: tp :: r) (c1 :: c2 :: c3 :: c) x.
Proof. intros H. cbn [spline_walk]. now rewrite (Rltb_false x t1) by lra. Qed.

Lemma walk_here tm t0 t1 tp r c0 c1 c2 c x w0 w1 w2 : (c = [] \/ x < t1) ->
  bspl tm t0 t1 tp x = (w0, w1, w2) ->
  spline_walk (tm :: t0 :: t1 :: tp :: r) (c0 :: c1 :: c2 :: c) x = w0 * c0 + w1 * c1 + w2 * c2.
Proof.
  intros H E. cbn [spline_walk]. destruct c as [|c3 c].
  - now rewrite E.
  - destruct H as [H|H]; [discriminate|]. rewrite (Rltb_true x t1) by lra. now rewrite E.
Qed.

Lemma cons_inj {A} (a b : A) l l' : a :: l = b :: l' -> a = b /\ l = l'.
Proof. intros H; now injection H. Qed.
Lemma map_eq_in {A B} (f g : A -> B) l : (forall a, In a l -> f a = g a) -> map f l = map g l.
Proof. induction l; simpl; intros H; [reflexivity|]. f_equal; auto. Qed.

Lemma sites_iff t x : aligned t x -> forall prev cs z, List.length cs = List.length x ->
  List.length z = List.length x ->
  (sat prev (site_rows t x z) cs <-> on_sites t (prev :: cs) x z).
Proof.
  revert t; induction x as [|v x IH]; intros t A prev cs z LC LZ.
  { destruct t as [|? [|? [|? [|? ?]]]]; simpl in A; tauto. }
  destruct t as [|tm [|t0 [|t1 [|tp t]]]]; try (simpl in A; tauto).
  destruct x as [|e x]; [simpl in A; tauto|].
  destruct z as [|w z]; [discriminate|]. destruct z as [|w' z]; [discriminate|].
  destruct cs as [|c1 cs]; [discriminate|]. destruct cs as [|c2 cs]; [discriminate|].
  destruct A as (A1 & A2 & A3 & A4 & A5).
  destruct (bspl tm t0 t1 tp v) as [[w0 w1] w2] eqn:EW.
  destruct x as [|e' x].
  - (* last window *)
    destruct A5 as (E1 & E2).
    destruct cs; [|discriminate]. destruct z; [|discriminate].
    cbn [site_rows]. rewrite EW. unfold on_sites. cbn [map].
    rewrite (walk_here _ _ _ _ _ _ _ _ [] v w0 w1 w2) by (auto || exact EW).
    destruct (bspl tm t0 t1 tp e) as [[u0 u1] u2] eqn:EU.
    rewrite (walk_here _ _ _ _ _ _ _ _ [] e u0 u1 u2) by (auto || exact EU).
    unfold bspl in EU. injection EU as <- <- <-.
    assert (U : 1 / (t1 - t0) * (t1 - e) / (t1 - tm) * (t1 - e) * prev +
       (1 / (t1 - t0) * (t1 - e) / (t1 - tm) * (e - tm) + 1 / (t1 - t0) * (e - t0) / (tp - t0) * (tp - e)) * c1 +
       1 / (t1 - t0) * (e - t0) / (tp - t0) * (e - t0) * c2 = c2)
      by (rewrite <- E1, E2, <- E1; field; lra).
    rewrite U. destruct t; cbn [site_rows sat hd]; split.
    all: try (intros (S1 & S2 & _); f_equal; [lra|f_equal; lra]).
    all: intros S1; injection S1 as S1 S2; repeat split; lra.
  - destruct A5 as (A5 & A6).
    destruct cs as [|c3 cs]; [discriminate|].
    change (site_rows (tm :: t0 :: t1 :: tp :: t) (v :: e :: e' :: x) (w :: w' :: z))
      with (let '(a, b, c) := bspl tm t0 t1 tp v in
            (a, b, c, w) :: site_rows (t0 :: t1 :: tp :: t) (e :: e' :: x) (w' :: z)).
    rewrite EW. cbn [sat hd].
    specialize (IH (t0 :: t1 :: tp :: t) A6 c1 (c2 :: c3 :: cs) (w' :: z)).
    rewrite IH by (simpl in *; lia).
    unfold on_sites. 
    change (map (spline_walk (tm :: t0 :: t1 :: tp :: t) (prev :: c1 :: c2 :: c3 :: cs)) (v :: e :: e' :: x))
      with (spline_walk (tm :: t0 :: t1 :: tp :: t) (prev :: c1 :: c2 :: c3 :: cs) v
            :: map (spline_walk (tm :: t0 :: t1 :: tp :: t) (prev :: c1 :: c2 :: c3 :: cs)) (e :: e' :: x)).
    rewrite (walk_here _ _ _ _ _ _ _ _ (c3 :: cs) v w0 w1 w2) by (try exact EW; right; lra).
    rewrite (map_eq_in (spline_walk (tm :: t0 :: t1 :: tp :: t) (prev :: c1 :: c2 :: c3 :: cs))
       (spline_walk (t0 :: t1 :: tp :: t) (c1 :: c2 :: c3 :: cs)) (e :: e' :: x)).
    2:{ intros a IN. apply walk_tail. rewrite Forall_forall in A5. now apply A5. }
    split.
    + intros (S1 & S2). now rewrite S1, S2.
    + intros S1. apply cons_inj in S1. exact S1.
Qed.
