(** Quadratic splines in one variable, continued: the fitted spline is a quadratic spline
    through the data and the only one; linearity, positivity and monotonicity. *)
From Coq Require Import Sorted.
From Verif Require Import Base BaseFacts TurbopropModel TurbopropSpec TurbopropProofs.

(* ------------------------------------------------------------------------ *)
(** * Control points of a piecewise quadratic *)

Definition blossom (p : quadratic) (u v : R) : R := q2 p * (u * v) + q1 p * ((u + v) / 2) + q0 p.

Fixpoint ctrl (t : list R) (ps : list quadratic) : list R :=
  match t, ps with
  | tm :: ((t0 :: t1 :: tp :: _) as t'), p :: ps' =>
      match ps' with
      | [] => [blossom p tm t0; blossom p t0 t1; blossom p t1 tp]
      | _ => blossom p tm t0 :: ctrl t' ps'
      end
  | _, _ => []
  end.

(** [t] is one knot, then the break points, then at least one more knot *)
Fixpoint knots_ok (t : list R) (n : nat) : Prop :=
  match t, n with
  | tm :: ((t0 :: t1 :: tp :: _) as t'), S n' =>
      tm <= t0 /\ t0 < t1 /\ t1 <= tp /\ match n' with O => True | _ => knots_ok t' n' end
  | _, _ => False
  end.

Lemma blossom_joint p q t v : qval p t = qval q t -> qslope p t = qslope q t ->
  blossom p t v = blossom q t v.
Proof. unfold qval, qslope, blossom; intros. nra. Qed.

Lemma blossom_sym p u v : blossom p u v = blossom p v u.
Proof. unfold blossom. f_equal. f_equal; [f_equal; ring|f_equal; f_equal; ring]. Qed.

Lemma cell_blossom p tm t0 t1 tp x w0 w1 w2 :
  bspl tm t0 t1 tp x = (w0, w1, w2) -> tm <= t0 -> t0 < t1 -> t1 <= tp ->
  w0 * blossom p tm t0 + w1 * blossom p t0 t1 + w2 * blossom p t1 tp = qval p x.
Proof.
  unfold bspl, blossom, qval; intros E H1 H2 H3; injection E as <- <- <-. field. lra.
Qed.

Lemma pieces_joint a b c r p q ps f : a < b -> b <= c -> pieces (a :: b :: c :: r) (p :: q :: ps) f ->
  qval p b = qval q b /\ qslope p b = qslope q b.
Proof.
  intros A B (H1 & H2 & H3 & _). split; [|exact H2].
  rewrite <- H1, <- H3 by lra. reflexivity.
Qed.

(** the first three control points are those of the first piece *)
Lemma ctrl_first f ps : forall p t tm t0 t1 tp r, t = tm :: t0 :: t1 :: tp :: r ->
  knots_ok t (S (List.length ps)) ->
  forall brk, pieces brk (p :: ps) f ->
  (exists e, t = tm :: brk ++ e)%list ->
  exists c, ctrl t (p :: ps) = blossom p tm t0 :: blossom p t0 t1 :: blossom p t1 tp :: c
            /\ List.length c = List.length ps.
Proof.
  induction ps as [|q ps IH]; intros p t tm t0 t1 tp r -> K brk P (e & E).
  { cbn [ctrl]. eexists; split; reflexivity. }
  destruct brk as [|b0 [|b1 [|b2 brk]]]; try (simpl in P; tauto).
  cbn [app] in E. injection E as <- <- <- E.
  cbn [List.length] in K.
  destruct K as (K1 & K2 & K3 & K4).
  assert (exists tq r', r = tq :: r') as (tq & r' & ->).
  { destruct r as [|tq r']; [simpl in K4; tauto|eauto]. }
  destruct (pieces_joint t0 t1 tp _ p q ps f K2 K3 P) as (J1 & J2).
  destruct P as (P1 & P2 & P3).
  destruct (IH q (t0 :: t1 :: tp :: tq :: r') t0 t1 tp tq r' eq_refl K4 _ P3) as (c & EC & LC).
  { exists e. cbn [app]. now rewrite E. }
  change (ctrl (tm :: t0 :: t1 :: tp :: tq :: r') (p :: q :: ps))
    with (blossom p tm t0 :: ctrl (t0 :: t1 :: tp :: tq :: r') (q :: ps)).
  rewrite EC. exists (blossom q tp tq :: c). split; [|simpl; lia].
  rewrite (blossom_sym q t0 t1), (blossom_sym p t0 t1), (blossom_joint q p t1 t0) by auto.
  now rewrite (blossom_joint q p t1 tp) by auto.
Qed.

(** a piecewise quadratic is the spline of its control points *)
Lemma ctrl_eval f ps : forall t tm t0 t1 tp r, t = tm :: t0 :: t1 :: tp :: r ->
  knots_ok t (List.length ps) -> ps <> [] ->
  forall brk, pieces brk ps f -> (exists e, t = tm :: brk ++ e)%list ->
  forall x, t0 <= x <= last brk 0 -> spline_walk t (ctrl t ps) x = f x.
Proof.
  induction ps as [|p ps IH]; intros t tm t0 t1 tp r ET K NE brk P E x X; [congruence|].
  destruct (ctrl_first f ps p t tm t0 t1 tp r ET K brk P E) as (c & EC & LC).
  subst t. destruct E as (e & E).
  destruct (bspl tm t0 t1 tp x) as [[w0 w1] w2] eqn:EW.
  destruct K as (K1 & K2 & K3 & K4).
  destruct ps as [|q ps].
  - destruct brk as [|b0 [|b1 [|b2 brk]]]; try (simpl in P; tauto).
    cbn [app] in E. injection E as <- <- E.
    destruct c; [|discriminate]. rewrite EC.
    rewrite (walk_here _ _ _ _ _ _ _ _ [] x w0 w1 w2) by (auto || exact EW).
    rewrite (cell_blossom p tm t0 t1 tp x w0 w1 w2 EW) by lra. cbn [last] in X.
    destruct P as (P & _). now rewrite P by lra.
  - destruct brk as [|b0 [|b1 [|b2 brk]]]; try (simpl in P; tauto).
    cbn [app] in E. injection E as <- <- <- E.
    destruct c as [|c3 c]; [discriminate|].
    destruct (Rlt_dec x t1) as [L|L].
    + rewrite EC. rewrite (walk_here _ _ _ _ _ _ _ _ (c3 :: c) x w0 w1 w2) by (auto || exact EW).
      rewrite (cell_blossom p tm t0 t1 tp x w0 w1 w2 EW) by lra. destruct P as (P & _). now rewrite P by lra.
    + assert (EC' : ctrl (tm :: t0 :: t1 :: tp :: r) (p :: q :: ps)
                    = blossom p tm t0 :: ctrl (t0 :: t1 :: tp :: r) (q :: ps)) by reflexivity.
      rewrite EC in EC'. apply cons_inj in EC'. destruct EC' as (_ & EC'). rewrite EC.
      rewrite walk_tail by lra. rewrite EC'.
      assert (exists tq r', r = tq :: r') as (tq & r' & ER).
      { destruct r as [|tq r']; [simpl in K4; tauto|eauto]. }
      rewrite ER in K4, E |- *. destruct P as (P1 & P2 & P3).
      apply (IH (t0 :: t1 :: tp :: tq :: r') t0 t1 tp tq r' eq_refl K4 ltac:(discriminate)
               (t1 :: tp :: brk) P3).
      * exists e. cbn [app]. now rewrite E.
      * split; [lra|]. exact (proj2 X).
Qed.

Lemma ctrl_length ps : forall t, knots_ok t (List.length ps) -> ps <> [] ->
  List.length (ctrl t ps) = S (S (List.length ps)).
Proof.
  induction ps as [|p ps IH]; intros t K NE; [congruence|].
  destruct t as [|tm [|t0 [|t1 [|tp t]]]]; try (simpl in K; tauto).
  destruct K as (K1 & K2 & K3 & K4). destruct ps as [|q ps]; [reflexivity|].
  change (ctrl (tm :: t0 :: t1 :: tp :: t) (p :: q :: ps))
    with (blossom p tm t0 :: ctrl (t0 :: t1 :: tp :: t) (q :: ps)).
  cbn [List.length]. rewrite IH; [reflexivity|exact K4|discriminate].
Qed.

(** conversely, the spline of any control points is a piecewise quadratic *)
Definition cell_quad (tm t0 t1 tp c0 c1 c2 : R) : quadratic :=
  let k := 1 / (t1 - t0) in let k0 := k / (t1 - tm) in let k1 := k / (tp - t0) in
  {| q2 := k0 * (c0 - c1) + k1 * (c2 - c1);
     q1 := k0 * (- 2 * t1 * c0 + (t1 + tm) * c1) + k1 * (- 2 * t0 * c2 + (tp + t0) * c1);
     q0 := k0 * (t1 * t1 * c0 - t1 * tm * c1) + k1 * (t0 * t0 * c2 - t0 * tp * c1) |}.

Lemma cell_quad_val tm t0 t1 tp c0 c1 c2 x w0 w1 w2 :
  bspl tm t0 t1 tp x = (w0, w1, w2) -> tm <= t0 -> t0 < t1 -> t1 <= tp ->
  qval (cell_quad tm t0 t1 tp c0 c1 c2) x = w0 * c0 + w1 * c1 + w2 * c2.
Proof.
  unfold bspl, cell_quad, qval; cbn [q2 q1 q0]; intros E H1 H2 H3; injection E as <- <- <-. field. lra.
Qed.
Lemma cell_quad_joint tm t0 t1 tp tq c0 c1 c2 c3 : tm <= t0 -> t0 < t1 -> t1 < tp -> tp <= tq ->
  qval (cell_quad tm t0 t1 tp c0 c1 c2) t1 = qval (cell_quad t0 t1 tp tq c1 c2 c3) t1 /\
  qslope (cell_quad tm t0 t1 tp c0 c1 c2) t1 = qslope (cell_quad t0 t1 tp tq c1 c2 c3) t1.
Proof.
  intros. unfold cell_quad, qval, qslope; cbn [q2 q1 q0]. split; field; lra.
Qed.

Fixpoint cell_quads (t c : list R) : list quadratic :=
  match t, c with
  | tm :: ((t0 :: t1 :: tp :: _) as t'), c0 :: ((c1 :: c2 :: c3) as c') =>
      match c3 with
      | [] => [cell_quad tm t0 t1 tp c0 c1 c2]
      | _ => cell_quad tm t0 t1 tp c0 c1 c2 :: cell_quads t' c'
      end
  | _, _ => []
  end.

Lemma pieces_ext brk f g : (forall x, hd 0 brk <= x -> f x = g x) ->
  forall ps, (StronglySorted Rle brk) -> pieces brk ps f -> pieces brk ps g.
Proof.
  revert f g; induction brk as [|a brk IH]; intros f g H ps SS P; [simpl in *; tauto|].
  destruct brk as [|b brk]; destruct ps as [|p ps]; simpl in P |- *; try tauto.
  destruct P as (P1 & P2 & P3). split; [|split; [exact P2|]].
  - intros x X. rewrite <- H by (simpl; lra). auto.
  - inversion SS as [|? ? SS' F]; subst. apply (IH f g); auto. intros x X. apply H. simpl in X |- *.
    inversion F; subst. lra.
Qed.

Lemma walk_pieces n : forall t c brk, knots_ok t (S n) -> List.length c = S (S (S n)) ->
  StronglySorted Rle brk -> List.length brk = S (S n) -> (exists tm e, t = tm :: brk ++ e)%list ->
  pieces brk (cell_quads t c) (spline_walk t c) /\ List.length (cell_quads t c) = S n.
Proof.
  induction n as [|n IH]; intros t c brk K LC SS LB (tm & e & ET).
  all: destruct brk as [|t0 [|t1 brk]]; try discriminate.
  all: cbn [app] in ET; subst t; destruct c as [|c0 [|c1 [|c2 c]]]; try discriminate.
  - destruct c; [|discriminate]. destruct brk; [|discriminate]. cbn [app] in *.
    destruct e as [|tp e]; [simpl in K; tauto|]. destruct K as (K1 & K2 & K3 & _).
    cbn [cell_quads]. split; [|reflexivity]. cbn [pieces]. split; [|split; exact I].
    intros x X. destruct (bspl tm t0 t1 tp x) as [[w0 w1] w2] eqn:EW.
    rewrite (walk_here _ _ _ _ _ _ _ _ [] x w0 w1 w2) by (auto || exact EW).
    symmetry. now apply cell_quad_val.
  - destruct brk as [|tp brk]; [discriminate|]. destruct c as [|c3 c]; [discriminate|].
    cbn [app] in *. destruct K as (K1 & K2 & K3 & K4).
    assert (exists tq r', (brk ++ e = tq :: r')%list) as (tq & r' & ER).
    { destruct (brk ++ e)%list as [|tq r'] eqn:Q; [simpl in K4; tauto|eauto]. }
    rewrite ER in *. assert (K5 : t1 < tp /\ tp <= tq) by (destruct K4 as (? & ? & ? & ?); auto).
    inversion SS as [|? ? SS' FA]; subst.
    destruct (IH (t0 :: t1 :: tp :: tq :: r') (c1 :: c2 :: c3 :: c) (t1 :: tp :: brk)) as (P & L); auto.
    { exists t0, e. cbn [app]. now rewrite ER. }
    change (cell_quads (tm :: t0 :: t1 :: tp :: tq :: r') (c0 :: c1 :: c2 :: c3 :: c))
      with (cell_quad tm t0 t1 tp c0 c1 c2 :: cell_quads (t0 :: t1 :: tp :: tq :: r') (c1 :: c2 :: c3 :: c)).
    split; [|cbn [List.length]; now rewrite L].
    assert (HQ : exists qs, cell_quads (t0 :: t1 :: tp :: tq :: r') (c1 :: c2 :: c3 :: c)
              = cell_quad t0 t1 tp tq c1 c2 c3 :: qs).
    { destruct c; cbn [cell_quads]; eauto. }
    destruct HQ as (qs & HQ). rewrite HQ in *.
    destruct (cell_quad_joint tm t0 t1 tp tq c0 c1 c2 c3) as (J1 & J2); try lra.
    split; [|split; [exact J2|]].
    + intros x X. destruct (bspl tm t0 t1 tp x) as [[w0 w1] w2] eqn:EW.
      destruct (Rlt_dec x t1) as [LT|GE].
      * rewrite (walk_here _ _ _ _ _ _ _ _ (c3 :: c) x w0 w1 w2) by (auto || exact EW).
        symmetry. now apply cell_quad_val.
      * assert (x = t1) by lra. subst x. rewrite walk_tail by lra.
        destruct P as (P & _). rewrite P by lra. symmetry. exact J1.
    + apply (pieces_ext (t1 :: tp :: brk) (spline_walk (t0 :: t1 :: tp :: tq :: r') (c1 :: c2 :: c3 :: c))); auto.
      intros x X. cbn [hd] in X. now rewrite walk_tail by lra.
Qed.

(* ------------------------------------------------------------------------ *)
(** * The two facts about a fitted grid *)

Record grid_ok (x brk : list R) (delta : R) : Prop := {
  g_len : List.length x = S (List.length brk);
  g_brk : (2 <= List.length brk)%nat;
  g_knots : exists e, tl (fit_knots x) = (hd 0 x :: brk ++ e)%list;
  g_hd : hd 0 brk = hd 0 x;
  g_last : last brk 0 = last x 0;
  g_sorted : StronglySorted Rle brk;
  g_ok : knots_ok (tl (fit_knots x)) (List.length brk - 1);
  g_aligned : aligned (tl (fit_knots x)) (tl x);
  g_delta : 0 < delta;
  g_rows : forall z, List.length z = List.length x -> Forall (dominant delta) (fit_rows x z);
  g_inside : Forall (fun v => hd 0 x <= v <= last x 0) x }.

Lemma clamp_id a b x : a <= x <= b -> clamp a b x = x.
Proof. intros. unfold clamp. rewrite (Rltb_false x a), (Rltb_false b x) by lra. reflexivity. Qed.
Lemma clamp_in a b x : a <= b -> a <= clamp a b x <= b.
Proof.
  intros. unfold clamp, Rltb. destruct (Rlt_dec x a); [lra|]. destruct (Rlt_dec b x); lra.
Qed.

Lemma walk_first t c0 c1 c2 c tm t1 tp r : t = tm :: tm :: t1 :: tp :: r -> tm < t1 -> t1 <= tp ->
  spline_walk t (c0 :: c1 :: c2 :: c) tm = c0.
Proof.
  intros -> H1 H2. destruct (bspl tm tm t1 tp tm) as [[w0 w1] w2] eqn:EW.
  rewrite (walk_here _ _ _ _ _ _ _ _ c tm w0 w1 w2) by (auto || exact EW).
  unfold bspl in EW. injection EW as <- <- <-. field. lra.
Qed.

Section Grid.
Variables (x brk : list R) (delta : R).
Hypothesis G : grid_ok x brk delta.
Let t := tl (fit_knots x).

Lemma grid_cons : exists x0 xs, x = x0 :: xs.
Proof. destruct x as [|x0 xs] eqn:EX; [|eauto]. pose proof (g_len _ _ _ G) as L. discriminate L. Qed.

Lemma grid_sat c z : List.length c = List.length x -> List.length z = List.length x ->
  (sat 0 (fit_rows x z) c <-> map (spline_walk t c) x = z).
Proof.
  intros LC LZ.
  destruct grid_cons as (x0 & xs & EX).
  pose proof (g_aligned _ _ _ G) as A. change (tl (fit_knots x)) with t in A.
  pose proof (g_brk _ _ _ G) as LB. pose proof (g_len _ _ _ G) as LL.
  destruct (g_knots _ _ _ G) as (e & ET). change (tl (fit_knots x)) with t in ET.
  pose proof (g_ok _ _ _ G) as K. change (tl (fit_knots x)) with t in K.
  pose proof (g_hd _ _ _ G) as HB.
  unfold fit_rows. change (tl (fit_knots x)) with t.
  clearbody t. rewrite EX in A, LL, ET, HB, LC, LZ |- *. cbn [hd tl map List.length] in *.
  destruct z as [|z0 zs]; [discriminate|]. destruct c as [|c0 cs]; [discriminate|].
  cbn [hd tl sat List.length] in *.
  rewrite (sites_iff t xs A) by lia. unfold on_sites.
  assert (F : spline_walk t (c0 :: cs) x0 = c0).
  { destruct brk as [|b0 [|b1 br]]; [simpl in LB; lia|simpl in LB; lia|].
    cbn [hd app List.length] in *. subst b0.
    assert (exists tp r, (br ++ e = tp :: r)%list) as (tp & r & ER).
    { rewrite ET in K. rewrite Nat.sub_succ, Nat.sub_0_r in K.
      destruct (br ++ e)%list; [simpl in K; tauto|eauto]. }
    rewrite ER in ET.
    destruct cs as [|c1 [|c2 cs]]; try (cbn [List.length] in *; lia).
    rewrite ET in K. rewrite Nat.sub_succ, Nat.sub_0_r in K. destruct K as (K1 & K2 & K3 & _).
    apply (walk_first _ _ _ _ _ _ b1 tp r); auto. }
  split.
  - intros (S1 & S2). rewrite F, S2. f_equal. lra.
  - intros S1. apply cons_inj in S1. destruct S1 as (S1 & S2). split; [lra|exact S2].
Qed.

Lemma site_rows_length xs : forall t zs, aligned t xs -> List.length zs = List.length xs ->
  List.length (site_rows t xs zs) = List.length xs.
Proof.
  induction xs as [|v xs IH]; intros s zs A LZ.
  { destruct s as [|? [|? [|? [|? ?]]]]; simpl in A; tauto. }
  destruct s as [|tm [|ta [|tb [|tp s]]]]; try (simpl in A; tauto).
  destruct xs as [|e xs]; [simpl in A; tauto|].
  destruct zs as [|w zs]; [discriminate|]. destruct A as (_ & _ & _ & _ & A).
  destruct xs as [|e' xs].
  - destruct zs as [|w' zs]; [discriminate|]. destruct zs; [|discriminate].
    cbn [site_rows]. destruct (bspl tm ta tb tp v) as [[? ?] ?]. destruct s; reflexivity.
  - destruct A as (_ & A).
    change (site_rows (tm :: ta :: tb :: tp :: s) (v :: e :: e' :: xs) (w :: zs))
      with (let '(a, b, c) := bspl tm ta tb tp v in
            (a, b, c, w) :: site_rows (ta :: tb :: tp :: s) (e :: e' :: xs) zs).
    destruct (bspl tm ta tb tp v) as [[? ?] ?].
    cbn [List.length] in *. f_equal. apply (IH (ta :: tb :: tp :: s) zs A). simpl; lia.
Qed.

Lemma fit_length z : List.length z = List.length x -> List.length (fit x z) = List.length x.
Proof.
  intros LZ. unfold fit. rewrite eliminate_length. unfold fit_rows. cbn [List.length].
  pose proof (g_aligned _ _ _ G) as A. destruct grid_cons as (x0 & xs & EX).
  revert A. generalize (tl (fit_knots x)). intros s A.
  rewrite EX in A, LZ |- *. destruct z as [|z0 zs]; [discriminate|]. cbn [List.length tl] in *. f_equal.
  apply site_rows_length; auto.
Qed.

Lemma fit_sat z : List.length z = List.length x -> sat 0 (fit_rows x z) (fit x z).
Proof.
  intros LZ. unfold fit. apply (eliminate_sat delta); auto.
  - exact (g_delta _ _ _ G).
  - exact (g_rows _ _ _ G z LZ).
  - lra.
  - intros r _. ring.
Qed.

Lemma fit_interpolates z : List.length z = List.length x ->
  map (spline_at x (fit x z)) x = z.
Proof.
  intros LZ.
  transitivity (map (spline_walk t (fit x z)) x).
  - apply map_eq_in. intros a IN. unfold spline_at. rewrite clamp_id; [reflexivity|].
    pose proof (g_inside _ _ _ G) as I0. rewrite Forall_forall in I0. now apply I0.
  - apply grid_sat; auto using fit_length, fit_sat.
Qed.

Lemma pieces_len b : forall ps f, pieces b ps f -> List.length b = S (List.length ps).
Proof.
  induction b as [|a b IH]; intros ps f P; [simpl in P; tauto|].
  destruct b as [|b0 b]; destruct ps as [|p ps]; simpl in P; try tauto.
  destruct P as (_ & _ & P). cbn [List.length]. f_equal. now apply (IH ps f).
Qed.

Lemma spline_unique z f : spline_through brk x z f ->
  forall v, hd 0 x <= v <= last x 0 -> f v = spline_at x (fit x z) v.
Proof.
  intros ((ps & P) & EZ) v V.
  pose proof (pieces_len _ _ _ P) as LB. pose proof (g_brk _ _ _ G) as B2.
  assert (NE : ps <> []) by (intros ->; simpl in LB; lia).
  pose proof (g_ok _ _ _ G) as K. rewrite LB in K. cbn [Nat.sub] in K.
  rewrite Nat.sub_0_r in K.
  destruct (g_knots _ _ _ G) as (e & ET).
  assert (EV : forall u, hd 0 x <= u <= last x 0 -> spline_walk t (ctrl t ps) u = f u).
  { intros u U. unfold t. 
    pose proof (g_hd _ _ _ G) as HH. pose proof (g_last _ _ _ G) as HL.
    destruct (tl (fit_knots x)) as [|tm [|t0 [|t1 [|tp r]]]] eqn:Q.
    1-4: destruct ps; [congruence|simpl in K; tauto].
    eapply (ctrl_eval f ps _ tm t0 t1 tp r eq_refl K NE brk P).
    - exists e. injection ET as E1 E2. subst tm. rewrite <- E2. reflexivity.
    - rewrite HL. destruct brk as [|b0 b]; [simpl in B2; lia|]. cbn [hd app] in *.
      injection ET as E1 E2 E3. subst. lra. }
  assert (L : List.length (ctrl t ps) = List.length x).
  { unfold t. rewrite (ctrl_length ps _ K NE). rewrite (g_len _ _ _ G), LB. reflexivity. }
  assert (LZ : List.length z = List.length x) by (rewrite <- EZ; apply map_length).
  assert (EC : fit x z = ctrl t ps).
  { unfold fit. apply (eliminate_unique delta); [exact (g_delta _ _ _ G)|exact (g_rows _ _ _ G z LZ)|].
    apply grid_sat; auto. rewrite <- EZ. apply map_eq_in. intros a IN. apply EV.
    pose proof (g_inside _ _ _ G) as I0. rewrite Forall_forall in I0. now apply I0. }
  rewrite EC. unfold spline_at. rewrite clamp_id by exact V. symmetry. now apply EV.
Qed.

Lemma pieces_range b : forall ps f g, (forall v, hd 0 b <= v <= last b 0 -> f v = g v) ->
  StronglySorted Rle b -> pieces b ps f -> pieces b ps g.
Proof.
  induction b as [|a b IH]; intros ps f g H SS P; [simpl in *; tauto|].
  destruct b as [|b0 b]; destruct ps as [|p ps]; simpl in P |- *; try tauto.
  destruct P as (P1 & P2 & P3). inversion SS as [|? ? SS' F]; subst.
  assert (BL : b0 <= last (b0 :: b) 0).
  { clear - SS'. inversion SS' as [|? ? SS2 F]; subst. clear SS'.
    destruct b as [|c b]; [simpl; lra|]. rewrite Forall_forall in F. apply F.
    change (last (b0 :: c :: b) 0) with (last (c :: b) 0).
    destruct (exists_last (l := c :: b)) as (l & y & E); [discriminate|]. rewrite E, last_last.
    apply in_or_app; right; left; reflexivity. }
  inversion F; subst.
  split; [|split; [exact P2|]].
  - intros v V. rewrite <- H; [now apply P1|]. cbn [hd].
    change (last (a :: b0 :: b) 0) with (last (b0 :: b) 0). lra.
  - apply (IH ps f g); auto. intros v V. apply H. cbn [hd] in *.
    change (last (a :: b0 :: b) 0) with (last (b0 :: b) 0). lra.
Qed.

Lemma spline_is_spline c : List.length c = List.length x -> quadratic_spline brk (spline_at x c).
Proof.
  intros LC. exists (cell_quads t c).
  apply (pieces_range brk _ (spline_walk t c)).
  - intros v V. rewrite (g_hd _ _ _ G), (g_last _ _ _ G) in V. unfold spline_at. rewrite clamp_id by exact V. reflexivity.
  - exact (g_sorted _ _ _ G).
  - pose proof (g_len _ _ _ G) as L. pose proof (g_brk _ _ _ G) as B2.
    destruct (g_knots _ _ _ G) as (e & ET).
    destruct (List.length brk) as [|[|n]] eqn:LB; try lia.
    apply (walk_pieces n); auto.
    + pose proof (g_ok _ _ _ G) as K. rewrite LB in K. exact K.
    + lia.
    + exact (g_sorted _ _ _ G).
    + exists (hd 0 x), e. exact ET.
Qed.

Lemma fit_spline_through z : List.length z = List.length x -> spline_through brk x z (spline_at x (fit x z)).
Proof.
  intros LZ. split; [apply spline_is_spline, fit_length, LZ|now apply fit_interpolates].
Qed.
End Grid.
