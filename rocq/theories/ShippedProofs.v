(** Polynomials with rational coefficients on an interval, by computation. *)
From Coq Require Import QArith Qreals Qminmax Ranalysis Ascii.
From Verif Require Import Base BaseFacts AtmosModel ConceptModel ConceptProofs PropulsionModel PropulsionSpec PropulsionProofs PropulsionProofs2 PropulsionProofs3 PropulsionProofs4
  ShippedText ShippedModel ShippedSpec.
Open Scope R_scope.

(** ** Evaluation *)
Fixpoint ev (c : list Q) (x : R) : R := match c with [] => 0 | a :: r => Q2R a + x * ev r x end.
Lemma ev_sum c x : poly_sum (map Q2R c) x = ev c x.
Proof. induction c as [|a c IH]; [reflexivity|]. cbn [map ev]. rewrite poly_sum_cons, IH. reflexivity. Qed.
Lemma Q2R_red q : Q2R (Qred q) = Q2R q.
Proof. apply Qeq_eqR, Qred_correct. Qed.
Lemma Q2R_z : Q2R 0 = 0.
Proof. unfold Q2R. cbn. lra. Qed.

Fixpoint padd (c d : list Q) : list Q :=
  match c, d with
  | [], _ => d
  | _, [] => c
  | a :: c, b :: d => Qred (a + b) :: padd c d
  end.
Lemma ev_add : forall c d x, ev (padd c d) x = ev c x + ev d x.
Proof.
  induction c as [|a c IH]; intros d x; [cbn; ring|]. destruct d as [|b d]; [cbn; ring|].
  cbn [padd ev]. rewrite IH, Q2R_red, Q2R_plus. ring.
Qed.
Definition pscale (k : Q) (c : list Q) : list Q := map (fun a => Qred (k * a)) c.
Lemma ev_scale k c x : ev (pscale k c) x = Q2R k * ev c x.
Proof. induction c as [|a c IH]; [cbn; ring|]. cbn [pscale map ev]. fold (pscale k c). rewrite IH, Q2R_red, Q2R_mult. ring. Qed.
(** the polynomial in s at a + w s *)
Fixpoint compose (c : list Q) (a w : Q) : list Q :=
  match c with
  | [] => []
  | k :: r => let q := compose r a w in padd (padd [k] (pscale a q)) (0%Q :: pscale w q)
  end.
Lemma ev_compose c a w s : ev (compose c a w) s = ev c (Q2R a + Q2R w * s).
Proof.
  induction c as [|k r IH]; [reflexivity|]. cbn [compose]. cbv zeta. rewrite !ev_add. cbn [ev]. rewrite !ev_scale, IH, Q2R_z. ring.
Qed.

(** ** Integer coefficients *)
Fixpoint zev (c : list Z) (x : R) : R := match c with [] => 0 | a :: r => IZR a + x * zev r x end.
(** a lower bound for 0 <= s <= 1 *)
Fixpoint low (c : list Z) : Z := match c with [] => 0%Z | k :: r => (k + Z.min 0 (low r))%Z end.
Lemma low_bound c s : 0 <= s <= 1 -> IZR (low c) <= zev c s.
Proof.
  intros S. induction c as [|k r IH]; cbn [low zev]; [lra|]. rewrite plus_IZR. apply Rplus_le_compat_l.
  destruct (Z_lt_le_dec (low r) 0) as [L|L].
  - rewrite Z.min_r by lia. apply IZR_lt in L. nra.
  - rewrite Z.min_l by lia. apply IZR_le in L. nra.
Qed.
(** 2^n p(s / 2) and p(s + 1) *)
Fixpoint halve (c : list Z) : list Z := match c with [] => [] | k :: r => (k * 2 ^ Z.of_nat (List.length r))%Z :: halve r end.
Lemma zev_halve c s : 2 * zev (halve c) s = 2 ^ List.length c * zev c (s / 2).
Proof.
  induction c as [|k r IH]; [cbn; ring|]. cbn [halve zev List.length pow].
  rewrite mult_IZR, <- pow_IZR. replace (2 * (IZR k * 2 ^ List.length r + s * zev (halve r) s))
    with (2 * IZR k * 2 ^ List.length r + s * (2 * zev (halve r) s)) by ring.
  rewrite IH. field.
Qed.
Fixpoint zadd (c d : list Z) : list Z :=
  match c, d with
  | [], _ => d
  | _, [] => c
  | a :: c, b :: d => (a + b)%Z :: zadd c d
  end.
Lemma zev_add : forall c d x, zev (zadd c d) x = zev c x + zev d x.
Proof.
  induction c as [|a c IH]; intros d x; [cbn; ring|]. destruct d as [|b d]; [cbn; ring|].
  cbn [zadd zev]. rewrite IH, plus_IZR. ring.
Qed.
Fixpoint shift (c : list Z) : list Z :=
  match c with [] => [] | k :: r => let q := shift r in zadd (zadd [k] q) (0%Z :: q) end.
Lemma zev_shift c s : zev (shift c) s = zev c (s + 1).
Proof.
  induction c as [|k r IH]; [reflexivity|]. cbn [shift]. cbv zeta. rewrite !zev_add. cbn [zev]. rewrite IH. ring.
Qed.
(** positive for 0 <= s <= 1: by the lower bound, or on both halves *)
Fixpoint pos_z (n : nat) (c : list Z) : bool :=
  if (0 <? low c)%Z then true
  else match n with
       | O => false
       | S n => let l := halve c in if pos_z n l then pos_z n (shift l) else false
       end.
Lemma pos_z_spec : forall n c, pos_z n c = true -> forall s, 0 <= s <= 1 -> 0 < zev c s.
Proof.
  assert (B : forall c, (0 <? low c)%Z = true -> forall s, 0 <= s <= 1 -> 0 < zev c s).
  { intros c E s S. apply Z.ltb_lt in E. apply IZR_lt in E. pose proof (low_bound c s S). lra. }
  induction n as [|n IH]; intros c E s S; cbn [pos_z] in E; destruct (0 <? low c)%Z eqn:L;
    [exact (B c L s S)|discriminate|exact (B c L s S)|].
  cbv zeta in E. destruct (pos_z n (halve c)) eqn:E1; [|discriminate].
  assert (K : 0 < 2 ^ List.length c) by (apply pow_lt; lra).
  destruct (Rle_dec s (1 / 2)) as [H|H].
  - pose proof (IH _ E1 (2 * s) ltac:(lra)) as P. pose proof (zev_halve c (2 * s)) as Z.
    replace (2 * s / 2) with s in Z by field. apply (Rmult_lt_reg_l (2 ^ List.length c)); [exact K|]. lra.
  - pose proof (IH _ E (2 * s - 1) ltac:(lra)) as P. rewrite zev_shift in P. pose proof (zev_halve c (2 * s - 1 + 1)) as Z.
    replace ((2 * s - 1 + 1) / 2) with s in Z by field. apply (Rmult_lt_reg_l (2 ^ List.length c)); [exact K|]. lra.
Qed.
(** D times the coefficients, rounded down *)
Definition scaled (D : Z) (c : list Q) : list Z := map (fun q => (Qnum q * D / Zpos (Qden q))%Z) c.
Lemma floor_le q D : (0 < D)%Z -> IZR (Qnum q * D / Zpos (Qden q)) <= IZR D * Q2R q.
Proof.
  intros P. unfold Q2R. assert (0 < IZR (Zpos (Qden q))) by (apply IZR_lt; reflexivity).
  pose proof (Z.mul_div_le (Qnum q * D) (Zpos (Qden q)) (eq_refl _)) as M. apply IZR_le in M. rewrite !mult_IZR in M.
  apply (Rmult_le_reg_l (IZR (Zpos (Qden q)))); [assumption|].
  replace (IZR (Z.pos (Qden q)) * (IZR D * (IZR (Qnum q) * / IZR (Z.pos (Qden q))))) with (IZR (Qnum q) * IZR D) by (field; lra). exact M.
Qed.
Lemma scaled_spec D c s : (0 < D)%Z -> 0 <= s -> zev (scaled D c) s <= IZR D * ev c s.
Proof.
  intros P S. induction c as [|q r IH]; cbn [scaled map zev ev]; [lra|]. fold (scaled D r). pose proof (floor_le q D P). nra.
Qed.
Definition Qltb (a b : Q) : bool := negb (Qle_bool b a).
Lemma Qltb_lt a b : Qltb a b = true -> Q2R a < Q2R b.
Proof.
  unfold Qltb. intros H. apply negb_true_iff in H. apply Qlt_Rlt. apply Qnot_le_lt. intros L. apply Qle_bool_iff in L. congruence.
Qed.
(** positive between a and b *)
Definition precision : Z := 1000000%Z.
Definition pos_on (n : nat) (c : list Q) (a b : Q) : bool :=
  if Qltb a b then pos_z n (scaled precision (compose c a (b - a))) else false.
Lemma pos_on_spec c n a b : pos_on n c a b = true -> forall x, Q2R a <= x <= Q2R b -> 0 < ev c x.
Proof.
  unfold pos_on. destruct (Qltb a b) eqn:L; [|discriminate]. intros E x X. apply Qltb_lt in L.
  assert (H : 0 <= (x - Q2R a) / (Q2R b - Q2R a) <= 1).
  { split.
    - apply Rmult_le_pos; [lra|]. left. apply Rinv_0_lt_compat. lra.
    - apply (Rmult_le_reg_r (Q2R b - Q2R a)); [lra|]. unfold Rdiv. rewrite Rmult_assoc, Rinv_l by lra. lra. }
  pose proof (pos_z_spec _ _ E _ H) as P. pose proof (scaled_spec precision (compose c a (b - a)) _ (eq_refl _) (proj1 H)) as K. rewrite ev_compose, Q2R_minus in K.
  replace (Q2R a + (Q2R b - Q2R a) * ((x - Q2R a) / (Q2R b - Q2R a))) with x in K by (field; lra).
  assert (0 < IZR precision) by (apply IZR_lt; reflexivity). nra.
Qed.

(** ** Derivative *)
Fixpoint deriv (c : list Q) : list Q := match c with [] => [] | _ :: r => padd r (0%Q :: deriv r) end.
Lemma ev_deriv c x : derivable_pt_lim (ev c) x (ev (deriv c) x).
Proof.
  induction c as [|k r IH]; cbn [deriv]; [apply derivable_pt_lim_const|].
  rewrite ev_add. cbn [ev]. rewrite Q2R_z.
  replace (ev r x + (0 + x * ev (deriv r) x)) with (0 + (1 * ev r x + x * ev (deriv r) x)) by ring.
  change (ev (k :: r)) with (fun y => (fct_cte (Q2R k) y + (id * ev r)%F y)).
  apply derivable_pt_lim_plus; [apply derivable_pt_lim_const|]. apply derivable_pt_lim_mult; [apply derivable_pt_lim_id|exact IH].
Qed.
Definition falling (n : nat) (c : list Q) (a b : Q) : bool := pos_on n (pscale (-(1)) (deriv c)) a b.
Lemma falling_spec n c a b : falling n c a b = true -> forall x y, Q2R a <= x -> x < y -> y <= Q2R b -> ev c y < ev c x.
Proof.
  intros F x y A L B. destruct (MVT_cor2 (ev c) (ev (deriv c)) x y L) as (z & E & Z1 & Z2); [intros; apply ev_deriv|].
  pose proof (pos_on_spec _ _ _ _ F z ltac:(lra)) as P. rewrite ev_scale in P.
  replace (Q2R (-(1))) with (-1) in P by (unfold Q2R; cbn; lra). nra.
Qed.

(** ** Polynomial files *)
Definition qfloat (s : string) : res Q := match decimal s with Some q => Ok q | None => Err ValueError end.
Definition qpoly (f : string) : res (list Q * list Q) :=
  do text <- shipped_text f;
  let lines := split_on "010"%char text in
  do l0 <- index lines 0;
  do coeffs <- mapM qfloat (split_on ","%char l0);
  do l1 <- index lines 1;
  do limits <- mapM qfloat (filter (fun s => negb (Nat.eqb (String.length s) 0)) (split_on ","%char l1));
  Ok (coeffs, limits).
Lemma mapM_float l : mapM (to_float parse_float) l = rmap (map to_num) (mapM qfloat l).
Proof.
  induction l as [|s l IH]; [reflexivity|]. cbn [mapM]. rewrite IH.
  assert (E : to_float parse_float s = rmap to_num (qfloat s)) by (unfold to_float, parse_float, qfloat; destruct (decimal s); reflexivity).
  rewrite E. destruct (qfloat s); [|reflexivity]. cbn [rbind rmap]. destruct (mapM qfloat l); reflexivity.
Qed.
Lemma poly_file f : poly_process shipped_text parse_float f = rmap (fun p => (map to_num (fst p), map to_num (snd p))) (qpoly f).
Proof.
  unfold poly_process, qpoly. destruct (shipped_text f); [|reflexivity]. cbn [rbind]. cbv zeta.
  destruct (index _ 0) as [l0|]; [|reflexivity]. cbn [rbind]. rewrite mapM_float. destruct (mapM qfloat _); [|reflexivity]. cbn [rbind rmap].
  destruct (index _ 1) as [l1|]; [|reflexivity]. cbn [rbind]. rewrite mapM_float. destruct (mapM qfloat _); reflexivity.
Qed.
Definition within (n : nat) (f : string) (range bounds : Q * Q) : bool :=
  match qpoly f with
  | Ok (c, [lo; hi]) =>
      (Qeq_bool lo (fst range) && Qeq_bool hi (snd range) && pos_on n (padd [- fst bounds]%Q c) lo hi &&
       pos_on n (padd [snd bounds] (pscale (-(1)) c)) lo hi)%bool
  | _ => false
  end.
Definition thrust_file (e : string) := (e ++ "_Sea_level_thrust_polynomial.csv")%string.
Definition take_off_file (e : string) := (e ++ "_Sea_level_take_off_thrust_polynomial.csv")%string.
Definition falls (n : nat) (f : string) : bool := match qpoly f with Ok (c, [lo; hi]) => falling n c lo hi | _ => false end.
