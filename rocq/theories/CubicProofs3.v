(** The table of liftslope_prad, and the lift slope with the interpolator of the repository. *)
From Coq Require Import Sorting.Sorted Sorting.Permutation.
From Verif Require Import Base BaseFacts AnalysisFacts AtmosModel ConceptModel MethodsModel AtmosProofs3 MethodsSpec MethodsProofs3 MethodsProofs4
  ConstraintSpec CubicModel CubicSpec CubicProofs CubicProofs2.
Open Scope R_scope.

(* ------------------------------------------------------------------------ *)
(** * Where the peak is *)

Lemma t23_cube : Rpower 0.05 (2 / 3) ^ 3 = 0.0025.
Proof.
  rewrite <- Rpower_pow by apply Rpower_pos. rewrite Rpower_mult.
  replace (2 / 3 * INR 3) with (INR 2) by (simpl; lra). rewrite Rpower_pow by lra. simpl. lra.
Qed.
Lemma t23_tight : 0.13572 < Rpower 0.05 (2 / 3) < 0.13573.
Proof.
  pose proof t23_cube as E. pose proof t23_small as (P & _). set (t := Rpower 0.05 (2 / 3)) in *. clearbody t.
  split; apply Rnot_le_lt; intros H.
  - assert (t ^ 3 <= 0.13572 ^ 3) by (apply pow_incr; lra). lra.
  - assert (0.13573 ^ 3 <= t ^ 3) by (apply pow_incr; lra). lra.
Qed.

Definition radicand (x : R) : R := (3.2784414 * x ^ 2 - 9.73119668 * x + 6.0546588) * Rpower 0.05 (2 / 3) + 1.
Lemma sqrt_above a r : 0 <= a -> a * a < r -> a < sqrt r.
Proof.
  intros H K. rewrite <- (sqrt_square a H). apply sqrt_lt_1; nra.
Qed.
Lemma sqrt_below a r : 0 <= a -> 0 <= r -> r < a * a -> sqrt r < a.
Proof. intros H N K. rewrite <- (sqrt_square a H). apply sqrt_lt_1; nra. Qed.

Lemma quad_lower x : -1.167 <= 3.2784414 * x ^ 2 - 9.73119668 * x + 6.0546588.
Proof. assert (0 <= (x - 1.4841) ^ 2) by apply pow2_ge_0. nra. Qed.
Lemma quad_falls x y : 0 <= x -> x <= y -> y <= 1.45 ->
  3.2784414 * y ^ 2 - 9.73119668 * y + 6.0546588 <= 3.2784414 * x ^ 2 - 9.73119668 * x + 6.0546588.
Proof. intros. nra. Qed.

(** the three cases: the point right of the peak lies beyond the data of the supersonic
    method, between its two Mach numbers, or below both *)
Lemma peak_cases x : fit_grid x -> 0.91 < fitted_mach x < 1.35 /\
  (x <= 0.02 /\ 1.34 < fitted_mach x \/ 0.02 < x <= 0.08 /\ 1.31 < fitted_mach x < 1.34 \/ 0.08 < x /\ fitted_mach x < 1.31).
Proof.
  intros (i & Hi & ->). unfold fitted_mach. fold (gx i). fold (radicand (gx i)).
  pose proof t23_tight as T. 
  assert (G : 0 <= gx i <= 1.5).
  { unfold gx. apply lt_INR in Hi. replace (INR 200) with 200 in Hi by (simpl; lra).
    assert (INR i <= 199). { apply Rnot_lt_le. intros K. assert (199 < i)%nat by (apply INR_lt; simpl; lra).
      apply le_INR in H. rewrite S_INR in H. replace (INR 199) with 199 in H by (simpl; lra). lra. }
    pose proof (pos_INR i). split; [|lra]. lra. }
  pose proof (quad_lower (gx i)) as QL.
  assert (QU : 3.2784414 * gx i ^ 2 - 9.73119668 * gx i + 6.0546588 <= 6.0546588) by nra.
  assert (RP : 0 < radicand (gx i)) by (unfold radicand; apply fit_radicand).
  split.
  { split; [apply sqrt_above|apply sqrt_below]; unfold radicand in *; try lra; nra. }
  destruct (Nat.le_gt_cases i 2) as [A|A]; [left|right; destruct (Nat.le_gt_cases i 10) as [B|B]; [left|right]].
  - assert (gx i <= 0.0151) by (unfold gx; apply le_INR in A; simpl in A; lra). split; [lra|].
    apply sqrt_above; [lra|]. unfold radicand.
    assert (5.908 <= 3.2784414 * gx i ^ 2 - 9.73119668 * gx i + 6.0546588) by nra. nra.
  - assert (0.0226 <= gx i) by (unfold gx; apply le_INR in A; replace (INR 3) with 3 in A by (simpl; lra); lra).
    assert (gx i <= 0.0754) by (unfold gx; apply le_INR in B; replace (INR 10) with 10 in B by (simpl; lra); lra).
    split; [lra|]. unfold radicand in *.
    assert (5.339 <= 3.2784414 * gx i ^ 2 - 9.73119668 * gx i + 6.0546588 <= 5.837) by nra.
    split; [apply sqrt_above|apply sqrt_below]; try lra; nra.
  - assert (0.0829 <= gx i) by (unfold gx; apply le_INR in B; replace (INR 11) with 11 in B by (simpl; lra); lra).
    split; [lra|]. unfold radicand in *.
    assert (3.2784414 * gx i ^ 2 - 9.73119668 * gx i + 6.0546588 <= 5.271) by nra.
    apply sqrt_below; try lra; nra.
Qed.

Lemma t13_tight : 0.3684 < Rpower 0.05 (1 / 3) < 0.36841.
Proof.
  assert (E : Rpower 0.05 (1 / 3) ^ 3 = 0.05).
  { rewrite <- Rpower_pow by apply Rpower_pos. rewrite Rpower_mult.
    replace (1 / 3 * INR 3) with 1 by (simpl; lra). rewrite Rpower_1 by lra. reflexivity. }
  pose proof t13_pos as P. set (t := Rpower 0.05 (1 / 3)) in *. clearbody t.
  split; apply Rnot_le_lt; intros H.
  - assert (t ^ 3 <= 0.3684 ^ 3) by (apply pow_incr; lra). lra.
  - assert (0.36841 ^ 3 <= t ^ 3) by (apply pow_incr; lra). lra.
Qed.

Lemma peak_range AR p : peak_mach AR p -> 0.91 < p < 1.35 /\
  (1.34 < p \/ 1.31 < p < 1.34 \/ p < 1.31) /\ (0.21 <= AR -> p < 1.31).
Proof.
  intros (x & G & -> & H). destruct (peak_cases x G) as (R1 & R2).
  split; [exact R1|]. split; [intuition lra|]. intros A.
  destruct H as [(H & _)|(_ & H)].
  - assert (X : 0.0754 < x).
    { unfold reduced_ar in H. pose proof t13_tight as T. apply (Rmult_le_compat_r (Rpower 0.05 (1 / 3))) in H; [|lra].
      unfold Rdiv in H. rewrite Rmult_assoc, Rinv_l in H by lra. nra. }
    destruct R2 as [(K & _)|[(K & _)|(_ & K)]]; [lra| |exact K].
    destruct G as (i & Hi & E). exfalso. assert (i <= 10)%nat.
    { apply Nat.lt_succ_r. apply INR_lt. replace (INR 11) with 11 by (simpl; lra). lra. }
    apply le_INR in H0. replace (INR 10) with 10 in H0 by (simpl; lra). lra.
  - assert (G' : fit_grid 1.5).
    { exists 199%nat. split; [lia|]. replace (INR 199) with 199 by (simpl; lra). lra. }
    specialize (H 1.5 G'). destruct (peak_cases 1.5 G') as (_ & [(K & _)|[(K & _)|(_ & K)]]); lra.
Qed.

(* ------------------------------------------------------------------------ *)
(** * The table *)

Definition ordered (w : wing) (a0 p : R) : list (R * R) :=
  let a := (0.6, mean_of (subsonic_slopes w a0 0.6)) in
  let b := (0.63, mean_of (subsonic_slopes w a0 0.63)) in
  let c := (p - 0.06, 0.95 * (PI / 2 * w_ar w)) in
  let d := (p + 0.06, 0.95 * (PI / 2 * w_ar w)) in
  let e := (1.37, mean_of (supersonic_slopes w 1.37)) in
  let f := (1.4, mean_of (supersonic_slopes w 1.4)) in
  if Rlt_dec p 1.31 then [a; b; c; d; e; f]
  else if Rlt_dec p 1.34 then [a; b; c; e; d; f] else [a; b; c; e; f; d].
Lemma ordered_perm w a0 p : Permutation (transonic_points w a0 p) (ordered w a0 p).
Proof.
  unfold ordered, transonic_points. destruct (Rlt_dec p 1.31); [reflexivity|].
  do 3 apply perm_skip || idtac.
  destruct (Rlt_dec p 1.34).
  - do 3 apply perm_skip. apply perm_swap.
  - do 3 apply perm_skip. rewrite perm_swap. apply perm_skip. apply perm_swap.
Qed.
Lemma ordered_ltr w a0 p AR : peak_mach AR p -> left_to_right (ordered w a0 p).
Proof.
  intros H. destruct (peak_range AR p H) as (R1 & R2 & _). unfold left_to_right, ordered.
  destruct (Rlt_dec p 1.31); [|destruct (Rlt_dec p 1.34)]; cbn [map fst];
    repeat first [apply SSorted_nil | apply SSorted_cons];
    repeat first [apply Forall_nil | apply Forall_cons]; lra.
Qed.
Lemma table_in_order w a0 p : peak_mach (w_ar w) p -> 0.21 <= w_ar w -> left_to_right (transonic_points w a0 p).
Proof.
  intros H A. pose proof (ordered_ltr w a0 p (w_ar w) H) as L. destruct (peak_range _ p H) as (_ & _ & K).
  unfold ordered in L. destruct (Rlt_dec p 1.31); [exact L|]. specialize (K A). lra.
Qed.
Lemma table_distinct w a0 p : peak_mach (w_ar w) p -> NoDup (map fst (transonic_points w a0 p)).
Proof.
  intros H. apply (Permutation_NoDup (l := map fst (ordered w a0 p))).
  - apply Permutation_map, Permutation_sym, ordered_perm.
  - apply ltr_nodup. eapply ordered_ltr; eauto.
Qed.

Lemma drop_last l d : (2 <= List.length l)%nat -> last (drop_last_but_one l) d = last l d.
Proof.
  induction l as [|a l IH]; intros L; [reflexivity|].
  destruct l as [|b l]; [simpl in L; lia|]. destruct l as [|e l]; [reflexivity|].
  rewrite drop_cons. assert (N : drop_last_but_one (b :: e :: l) <> []) by (destruct l; discriminate).
  change (last (a :: b :: e :: l) d) with (last (b :: e :: l) d). rewrite <- IH by (simpl; lia).
  destruct (drop_last_but_one (b :: e :: l)); [congruence|reflexivity].
Qed.
Lemma breaks_sorted x : increasing x -> increasing (breaks_of x).
Proof.
  destruct x as [|a [|b r]]; intros H; [exact H|exact H|]. unfold breaks_of. apply cons_drop_sorted.
  unfold increasing in *. apply StronglySorted_inv in H as (H & F). apply StronglySorted_inv in H as (H & _).
  inversion F; subst. constructor; auto.
Qed.
Lemma breaks_last x d : (4 <= List.length x)%nat -> last (breaks_of x) d = last x d.
Proof.
  destruct x as [|a [|b [|e [|f r]]]]; intros L; try (simpl in L; lia). unfold breaks_of.
  change (last (a :: b :: e :: f :: r) d) with (last (e :: f :: r) d). rewrite <- (drop_last (e :: f :: r)) by (simpl; lia).
  destruct (drop_last_but_one (e :: f :: r)) eqn:E; [|reflexivity]. destruct r; discriminate.
Qed.
Lemma breaks_hd x d : hd d (breaks_of x) = hd d x.
Proof. destruct x as [|a [|b r]]; reflexivity. Qed.

(** on the range of the points a spline is a continuous function *)
Lemma through_continuous s f : (4 <= List.length s)%nat -> left_to_right s -> cubic_through s f ->
  exists g, continuity g /\ forall x, hd 0 (map fst s) <= x <= last (map fst s) 0 -> f x = g x.
Proof.
  intros N L ((ps & C) & _). destruct (pieces_continuous _ _ _ C) as (g & G & E).
  - apply breaks_sorted. exact L.
  - exists g. split; [exact G|]. intros x X. apply E. rewrite breaks_hd, breaks_last by (rewrite map_length; exact N). exact X.
Qed.

(* ------------------------------------------------------------------------ *)
(** * The lift slope *)

Section Slope.
  Context (c : concept) (w : wing) (a0 : R).
  Hypothesis HW : has_wing c w.
  Hypothesis HR : regular w.
  Hypothesis HH : half_ok w.
  Hypothesis HA : a_0i c = Some (Fin a0).
  Hypothesis Ha0 : 0 < a0.

  Lemma transonic_curve : exists p s f, peak_mach (w_ar w) p /\ Permutation (transonic_points w a0 p) s /\
    left_to_right s /\ cubic_through s f /\
    forall m tab, 0.6 <= m <= 1.4 -> transonic_table c = Ok tab -> interp1d_cubic tab (Fin m) = Ok (Fin (f m)).
  Proof.
    destruct (transonic_real c w a0 HW HR HH HA Ha0) as (p & P & E).
    pose proof (ordered_ltr w a0 p _ P) as L. pose proof (ordered_perm w a0 p) as Q.
    assert (N : (4 <= List.length (ordered w a0 p))%nat).
    { rewrite <- (Permutation_length Q). simpl. lia. }
    pose proof (cubic_found _ N L) as C. set (s := ordered w a0 p) in *.
    exists p, s, (cubic_at s). split; [exact P|]. split; [exact Q|]. split; [exact L|]. split; [exact C|].
    intros m tab M TB. rewrite E in TB. injection TB as <-.
    apply (interp1d_value (transonic_points w a0 p) s); auto.
    - simpl. lia.
    - eexists. split; [left; reflexivity|]. simpl. lra.
    - eexists. split; [do 5 right; left; reflexivity|]. simpl. lra.
  Qed.

  Lemma spline_range p s : peak_mach (w_ar w) p -> Permutation (transonic_points w a0 p) s -> left_to_right s ->
    hd 0 (map fst s) <= 0.6 /\ 1.4 <= last (map fst s) 0.
  Proof.
    intros P Q L. assert (s <> []) as N. { intros ->. apply Permutation_sym, Permutation_nil in Q. discriminate. }
    change 0 with (fst (0, 0)) at 1 2. rewrite (hd_map fst s (0, 0)), (last_map fst s (0, 0)). split.
    - assert (I0 : In (0.6, mean_of (subsonic_slopes w a0 0.6)) s) by (apply (Permutation_in _ Q); left; reflexivity).
      apply ltr_iff in L. destruct s as [|a s]; [congruence|]. cbn [hd].
      apply StronglySorted_inv in L as (_ & F). destruct I0 as [->|I0]; [simpl; lra|].
      apply (proj1 (Forall_forall _ _) F) in I0. unfold ptlt in I0. cbn [fst] in I0. lra.
    - assert (I0 : In (1.4, mean_of (supersonic_slopes w 1.4)) s) by (apply (Permutation_in _ Q); do 5 right; left; reflexivity).
      pose proof (ltr_last_max s _ (0, 0) L I0). cbn [fst] in *. lra.
  Qed.

  Lemma liftslope_spline : exists p s f, peak_mach (w_ar w) p /\ Permutation (transonic_points w a0 p) s /\
    left_to_right s /\ cubic_through s f /\
    forall m, 0 <= m -> liftslope_prad interpolators c (Fin m) =
      Ok (Fin (weight_sub m * mean_of (subsonic_slopes w a0 m) + weight_trans m * f m
        + weight_sup m * mean_of (supersonic_slopes w m))).
  Proof.
    destruct transonic_curve as (p & s & f & P & Q & L & C & E). exists p, s, f.
    repeat (split; [assumption|]). intros m M.
    apply (liftslope_weighted c w a0 HW HR HH HA Ha0 interpolators f E m M).
  Qed.

  Lemma liftslope_all_mach : exists F, (forall m, 0 <= m -> liftslope_prad interpolators c (Fin m) = Ok (Fin (F m))) /\
    forall m, 0 < m -> m <> sonic_le w \/ m < 1.3 \/ w_le w <= 0 -> continuity_pt F m.
  Proof.
    destruct transonic_curve as (p & s & f & P & Q & L & C & E).
    assert (N : (4 <= List.length s)%nat) by (rewrite <- (Permutation_length Q); simpl; lia).
    destruct (through_continuous s f N L C) as (g & G & GE). destruct (spline_range p s P Q L) as (S1 & S2).
    assert (E' : forall m tab, 0.6 <= m <= 1.4 -> transonic_table c = Ok tab -> cubic interpolators tab (Fin m) = Ok (Fin (g m))).
    { intros m tab M TB. cbn [cubic interpolators]. rewrite (E m tab M TB), GE by lra. reflexivity. }
    exists (fun m => weight_sub m * mean_of (subsonic_slopes w a0 m) + weight_trans m * g m
        + weight_sup m * mean_of (supersonic_slopes w m)).
    assert (V : forall m, 0 <= m -> liftslope_prad interpolators c (Fin m) =
      Ok (Fin (weight_sub m * mean_of (subsonic_slopes w a0 m) + weight_trans m * g m
        + weight_sup m * mean_of (supersonic_slopes w m)))).
    { intros m M. apply (liftslope_weighted c w a0 HW HR HH HA Ha0 interpolators g E' m M). }
    split; [exact V|]. apply (liftslope_continuous c w a0 HW HR HH HA Ha0 interpolators g _ E' G V).
  Qed.

  (** 0.06 below the Mach number of the peak the slope is 95 percent of pi AR / 2 *)
  Lemma liftslope_below_peak : exists p, peak_mach (w_ar w) p /\
    liftslope_prad interpolators c (Fin (p - 0.06)) = Ok (Fin (0.95 * (PI / 2 * w_ar w))) /\
    (p <= 1.24 -> liftslope_prad interpolators c (Fin (p + 0.06)) = Ok (Fin (0.95 * (PI / 2 * w_ar w)))).
  Proof.
    destruct liftslope_spline as (p & s & f & P & Q & L & C & E). exists p. split; [exact P|].
    destruct (peak_range _ p P) as (R1 & _ & _). destruct C as (_ & M).
    assert (W : forall m, 0.8 <= m <= 1.3 -> weight_sub m = 0 /\ weight_sup m = 0 /\ weight_trans m = 1).
    { intros m K. unfold weight_trans. assert (weight_sub m = 0 /\ weight_sup m = 0) as (-> & ->); [|lra].
      unfold weight_sub, weight_sup, clamp01. split; rewrite Rmax_left; auto; rewrite Rmin_right; lra. }
    split.
    - rewrite E by lra. destruct (W (p - 0.06)) as (-> & -> & ->); [lra|].
      pose proof (M (p - 0.06, 0.95 * (PI / 2 * w_ar w)) ltac:(apply (Permutation_in _ Q); do 2 right; left; reflexivity)) as K2.
      cbn [fst snd] in K2. rewrite K2. do 2 f_equal. ring.
    - intros K. rewrite E by lra. destruct (W (p + 0.06)) as (-> & -> & ->); [lra|].
      pose proof (M (p + 0.06, 0.95 * (PI / 2 * w_ar w)) ltac:(apply (Permutation_in _ Q); do 3 right; left; reflexivity)) as K2.
      cbn [fst snd] in K2. rewrite K2. do 2 f_equal. ring.
  Qed.

  Lemma wing_ok_interpolators : wing_ok interpolators c.
  Proof.
    exists w, a0. repeat (split; [assumption|]). intros tab m TB M.
    destruct transonic_curve as (p & s & f & _ & _ & _ & _ & E). exists (f m). apply E; auto.
  Qed.
End Slope.
