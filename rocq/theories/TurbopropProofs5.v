(** What the turboprop thrust factor is and does. *)
From Coq Require Import Sorted.
From Verif Require Import Base BaseFacts ConceptModel MethodsModel ConstraintSpec ConstraintProofs
  TurbopropModel TurbopropSpec TurbopropProofs TurbopropProofs2 TurbopropProofs3 TurbopropProofs4.
Open Scope R_scope.

(* ------------------------------------------------------------------------ *)
(** * Shape of the coefficient table *)

Lemma close_length M a : forall b, close M a b -> List.length a = List.length b.
Proof. induction a; intros [|y b]; simpl; try tauto. intros (_ & H). f_equal. auto. Qed.
Lemma Forall2_len {A B} (P : A -> B -> Prop) l m : Forall2 P l m -> List.length l = List.length m.
Proof. induction 1; simpl; congruence. Qed.

Lemma coefs_len : List.length thrust_ratio_spline = 9%nat.
Proof. exact (Forall2_len _ _ _ coefs_close). Qed.
Lemma coefs_rows : Forall (fun r => List.length r = 7%nat) thrust_ratio_spline.
Proof.
  assert (A : Forall (fun r => List.length r = 7%nat) coefs_approx)
    by (repeat (apply Forall_cons; [reflexivity|]); apply Forall_nil).
  revert A. generalize coefs_close. generalize thrust_ratio_spline coefs_approx.
  induction 1; intros F; [apply Forall_nil|]. inversion F; subst. apply Forall_cons; [|auto].
  match goal with H : close _ _ _ |- _ => rewrite (close_length _ _ _ H) end. assumption.
Qed.

Definition wx (d : R) : list R :=
  wts (tl (fit_knots X_dens_ratio)) 9 (clamp (hd 0 X_dens_ratio) (last X_dens_ratio 0) d).
Definition wy (m : R) : list R :=
  wts (tl (fit_knots Y_Mach)) 7 (clamp (hd 0 Y_Mach) (last Y_Mach 0) m).

Lemma wx_mean d : mean_weights (wx d) 9.
Proof.
  unfold wx. apply (wts_mean 6); [exact (g_ok _ _ _ X_grid)|].
  pose proof (clamp_in (hd 0 X_dens_ratio) (last X_dens_ratio 0) d) as C.
  unfold fit_knots, X_dens_ratio in *. cbn [midpoints removelast tl last hd app nth] in *. lra.
Qed.
Lemma wy_mean m : mean_weights (wy m) 7.
Proof.
  unfold wy. apply (wts_mean 4); [exact (g_ok _ _ _ Y_grid)|].
  pose proof (clamp_in (hd 0 Y_Mach) (last Y_Mach 0) m) as C.
  unfold fit_knots, Y_Mach in *. cbn [midpoints removelast tl last hd app nth] in *. lra.
Qed.

Lemma X_dot c d : List.length c = 9%nat -> spline_at X_dens_ratio c d = dot (wx d) c.
Proof. intros L. rewrite spline_at_dot, L. reflexivity. Qed.
Lemma Y_dot c m : List.length c = 7%nat -> spline_at Y_Mach c m = dot (wy m) c.
Proof. intros L. rewrite spline_at_dot, L. reflexivity. Qed.

Lemma inner_map m C : Forall (fun r => List.length r = 7%nat) C ->
  map (fun c => spline_at Y_Mach c m) C = map (dot (wy m)) C.
Proof. intros F. apply map_eq_in. intros r IN. rewrite Forall_forall in F. apply Y_dot. auto. Qed.

Lemma bispev_dot d m : bispev thrust_ratio_spline d m
  = dot (wx d) (map (dot (wy m)) thrust_ratio_spline).
Proof.
  unfold bispev. rewrite (inner_map m _ coefs_rows). apply X_dot. rewrite map_length. apply coefs_len.
Qed.
Lemma bispev_dot' d m : bispev thrust_ratio_spline d m
  = dot (wy m) (map (dot (wx d)) (columns 7 thrust_ratio_spline)).
Proof.
  rewrite bispev_dot. apply dot_columns; [exact (proj1 (wy_mean m))|exact coefs_rows].
Qed.

(* ------------------------------------------------------------------------ *)
(** * The spline of splines *)

Definition fitted_columns : list (list R) := map (fit X_dens_ratio) (columns 7 Z_thr_ratio).

Lemma columns_table : columns 7 Z_thr_ratio = thrust_at_mach.
Proof. unfold Z_thr_ratio, thrust_at_mach. cbn [columns map hd tl].
  replace 1.0 with 1 by lra. reflexivity. Qed.
Lemma dens_sites : X_dens_ratio = dens.
Proof. unfold X_dens_ratio, dens. replace 1.0 with 1 by lra. reflexivity. Qed.
Lemma mach_sites : Y_Mach = machs.
Proof. reflexivity. Qed.

Lemma fitted_len : Forall (fun r => List.length r = 9%nat) fitted_columns.
Proof.
  unfold fitted_columns. rewrite columns_table. apply Forall_forall. intros r IN.
  apply in_map_iff in IN. destruct IN as (z & <- & IN).
  rewrite (fit_length _ _ _ X_grid); [reflexivity|].
  assert (F : Forall (fun z => List.length z = 9%nat) thrust_at_mach)
    by (repeat (apply Forall_cons; [reflexivity|]); apply Forall_nil).
  rewrite Forall_forall in F. rewrite (F z IN). reflexivity.
Qed.

(** evaluating across the columns first gives the same value *)
Lemma bispev_across d m : bispev thrust_ratio_spline d m
  = spline_at Y_Mach (fit Y_Mach (map (fun c => spline_at X_dens_ratio c d) fitted_columns)) m.
Proof.
  assert (E : map (fun c => spline_at X_dens_ratio c d) fitted_columns = map (dot (wx d)) fitted_columns).
  { apply map_eq_in. intros r IN. pose proof fitted_len as F. rewrite Forall_forall in F. apply X_dot. auto. }
  rewrite E. rewrite (fit_mean _ _ _ Y_grid 9 (wx d) fitted_columns).
  - rewrite bispev_dot'. unfold thrust_ratio_spline. symmetry. apply Y_dot. rewrite map_length. reflexivity.
  - exact (proj1 (wx_mean d)).
  - reflexivity.
  - exact fitted_len.
Qed.

Lemma tp_fin d m : turbopropthrustfactor (Fin d) (Fin m) = Fin (bispev thrust_ratio_spline d m).
Proof. reflexivity. Qed.

Definition column_spline (j : nat) : R -> R :=
  spline_at X_dens_ratio (fit X_dens_ratio (nth j thrust_at_mach [])).

Lemma X_range d : 0.24616951531253428 <= d <= 1 -> hd 0 X_dens_ratio <= d <= last X_dens_ratio 0.
Proof. unfold X_dens_ratio; cbn [hd last]; lra. Qed.
Lemma Y_range m : 0 <= m <= 0.6 -> hd 0 Y_Mach <= m <= last Y_Mach 0.
Proof. unfold Y_Mach; cbn [hd last]; lra. Qed.

Lemma tp_spline u w d m :
  (forall j, (j < 7)%nat -> spline_through dens_breaks dens (nth j thrust_at_mach []) (u j)) ->
  spline_through mach_breaks machs (map (fun j => u j d) (seq 0 7)) w ->
  0.24616951531253428 <= d <= 1 -> 0 <= m <= 0.6 ->
  turbopropthrustfactor (Fin d) (Fin m) = Fin (w m).
Proof.
  intros U W D M. rewrite tp_fin. f_equal. rewrite bispev_across.
  rewrite (spline_unique _ _ _ Y_grid _ w W m (Y_range m M)).
  unfold fitted_columns. rewrite columns_table, map_map.
  do 2 f_equal.
  assert (S : forall j, (j < 7)%nat -> u j d = column_spline j d).
  { intros j J. unfold column_spline. rewrite dens_sites. rewrite <- dens_sites.
    apply (spline_unique _ _ _ X_grid (nth j thrust_at_mach []) (u j)).
    - rewrite dens_sites. now apply U.
    - now apply X_range. }
  cbn [seq map]. rewrite !S by lia. unfold column_spline. clear.
  set (g := fun z => spline_at X_dens_ratio (fit X_dens_ratio z) d).
  change (map g thrust_at_mach = [g (nth 0 thrust_at_mach []); g (nth 1 thrust_at_mach []);
    g (nth 2 thrust_at_mach []); g (nth 3 thrust_at_mach []); g (nth 4 thrust_at_mach []);
    g (nth 5 thrust_at_mach []); g (nth 6 thrust_at_mach [])]).
  clearbody g. reflexivity.
Qed.

Lemma column_spline_through j : (j < 7)%nat ->
  spline_through dens_breaks dens (nth j thrust_at_mach []) (column_spline j).
Proof.
  intros J. unfold column_spline. rewrite <- dens_sites. apply (fit_spline_through _ _ _ X_grid).
  do 7 (destruct j as [|j]; [reflexivity|]). lia.
Qed.
Lemma tp_spline_exists :
  (forall j, (j < 7)%nat -> spline_through dens_breaks dens (nth j thrust_at_mach []) (column_spline j)) /\
  forall d, exists w, spline_through mach_breaks machs (map (fun j => column_spline j d) (seq 0 7)) w.
Proof.
  split; [exact column_spline_through|]. intros d. eexists.
  rewrite <- mach_sites. apply (fit_spline_through _ _ _ Y_grid). reflexivity.
Qed.
Lemma tp_splines_exist : exists u : nat -> R -> R,
  (forall j, (j < 7)%nat -> spline_through dens_breaks dens (nth j thrust_at_mach []) (u j)) /\
  forall d, exists w, spline_through mach_breaks machs (map (fun j => u j d) (seq 0 7)) w.
Proof. exists column_spline. exact tp_spline_exists. Qed.

(* ------------------------------------------------------------------------ *)
(** * The table *)

Lemma nth_map_R f l i : (i < List.length l)%nat -> nth i (map f l) 0 = f (nth i l 0).
Proof. revert i; induction l; intros [|i] L; simpl in *; try lia; auto. apply IHl. lia. Qed.

Lemma tp_table i j : (i < 9)%nat -> (j < 7)%nat ->
  turbopropthrustfactor (Fin (nth i dens 0)) (Fin (nth j machs 0)) = Fin (nth i (nth j thrust_at_mach []) 0).
Proof.
  intros I J.
  destruct (proj2 tp_spline_exists (nth i dens 0)) as (w & W).
  rewrite (tp_spline column_spline w _ _ column_spline_through W).
  - f_equal. destruct W as (_ & W).
    rewrite <- (nth_map_R w machs j) by exact J. rewrite W.
    rewrite (nth_indep _ 0 ((fun j => column_spline j (nth i dens 0)) 0%nat)) by (rewrite map_length, seq_length; exact J).
    rewrite (map_nth (fun j => column_spline j (nth i dens 0))), seq_nth by exact J. cbn [Nat.add].
    destruct (column_spline_through j J) as (_ & E).
    rewrite <- (nth_map_R (column_spline j) dens i) by exact I. now rewrite E.
  - do 9 (destruct i as [|i]; [unfold dens; cbn [nth]; lra|]). lia.
  - do 7 (destruct j as [|j]; [unfold machs; cbn [nth]; lra|]). lia.
Qed.

(* ------------------------------------------------------------------------ *)
(** * Outside the table *)

Lemma clamp_minmax a b x : a <= b -> clamp a b (Rmax a (Rmin b x)) = clamp a b x.
Proof.
  intros H. unfold Rmax, Rmin. destruct (Rle_dec b x), (Rle_dec a b), (Rle_dec a x);
    unfold clamp, Rltb; repeat destruct (Rlt_dec _ _); lra.
Qed.
Lemma tp_clamped d m : turbopropthrustfactor (Fin d) (Fin m)
  = turbopropthrustfactor (Fin (Rmax 0.24616951531253428 (Rmin 1 d))) (Fin (Rmax 0 (Rmin 0.6 m))).
Proof.
  rewrite !tp_fin, !bispev_dot. unfold wx, wy.
  assert (H1 : hd 0 X_dens_ratio = 0.24616951531253428) by reflexivity.
  assert (H2 : last X_dens_ratio 0 = 1) by (unfold X_dens_ratio; cbn [last]; lra).
  assert (H3 : hd 0 Y_Mach = 0) by reflexivity.
  assert (H4 : last Y_Mach 0 = 0.6) by reflexivity.
  rewrite H1, H2, H3, H4, !clamp_minmax by lra. reflexivity.
Qed.

(* ------------------------------------------------------------------------ *)
(** * Bounds *)

Lemma close_bounds lo hi M a : forall b, Forall (fun v => lo + M <= v <= hi - M) b -> close M a b ->
  Forall (fun v => lo <= v <= hi) a.
Proof.
  induction a as [|v a IH]; intros [|u b] F C; simpl in C; try tauto; [apply Forall_nil|].
  destruct C as (C1 & C2). inversion F; subst. apply Forall_cons; [|eauto].
  apply abs_split in C1. lra.
Qed.
Lemma coefs_bounds : Forall (Forall (fun v => 0.0015 <= v <= 1.001)) thrust_ratio_spline.
Proof.
  assert (A : Forall (Forall (fun v => 0.0015 + 0.0000001 <= v <= 1.001 - 0.0000001)) coefs_approx).
  { unfold coefs_approx. repeat (apply Forall_cons; [repeat (apply Forall_cons; [lra|]); apply Forall_nil|]). apply Forall_nil. }
  revert A. generalize coefs_close. generalize thrust_ratio_spline coefs_approx.
  induction 1; intros F; [apply Forall_nil|]. inversion F; subst. apply Forall_cons; [|auto].
  eapply close_bounds; eauto.
Qed.
Lemma tp_bounds d m : exists k, turbopropthrustfactor (Fin d) (Fin m) = Fin k /\ 0.0015 <= k <= 1.001.
Proof.
  rewrite tp_fin. eexists; split; [reflexivity|]. rewrite bispev_dot.
  apply (mean_bounds _ _ _ _ 9 (wx_mean d)); [rewrite map_length; apply coefs_len|].
  apply Forall_forall. intros v IN. apply in_map_iff in IN. destruct IN as (r & <- & IN).
  pose proof coefs_bounds as B. pose proof coefs_rows as L. rewrite Forall_forall in B, L.
  apply (mean_bounds _ _ _ _ 7 (wy_mean m)); auto.
Qed.

(* ------------------------------------------------------------------------ *)
(** * Monotonicity *)

Lemma close_7 M l b0 b1 b2 b3 b4 b5 b6 :
  close M l [b0; b1; b2; b3; b4; b5; b6] ->
  exists e0 e1 e2 e3 e4 e5 e6, l = [e0; e1; e2; e3; e4; e5; e6] /\
    Rabs (e0 - b0) <= M /\ Rabs (e1 - b1) <= M /\ Rabs (e2 - b2) <= M /\ Rabs (e3 - b3) <= M /\
    Rabs (e4 - b4) <= M /\ Rabs (e5 - b5) <= M /\ Rabs (e6 - b6) <= M.
Proof.
  intros H. destruct l as [|e0 [|e1 [|e2 [|e3 [|e4 [|e5 [|e6 [|]]]]]]]]; simpl in H; try tauto.
  exists e0, e1, e2, e3, e4, e5, e6. tauto.
Qed.

(** in every row the coefficients fall from the second on *)
Lemma coefs_fall : Forall (fun r => List.length r = 7%nat /\ falls 5 (tl r)) thrust_ratio_spline.
Proof.
  pose proof coefs_close as H. unfold coefs_approx in H. revert H. generalize thrust_ratio_spline. intros C H.
  inversion H as [|r0 ? l0 ? H0 R0]; subst; clear H. inversion R0 as [|r1 ? l1 ? H1 R1]; subst; clear R0.
  inversion R1 as [|r2 ? l2 ? H2 R2]; subst; clear R1. inversion R2 as [|r3 ? l3 ? H3 R3]; subst; clear R2.
  inversion R3 as [|r4 ? l4 ? H4 R4]; subst; clear R3. inversion R4 as [|r5 ? l5 ? H5 R5]; subst; clear R4.
  inversion R5 as [|r6 ? l6 ? H6 R6]; subst; clear R5. inversion R6 as [|r7 ? l7 ? H7 R7]; subst; clear R6.
  inversion R7 as [|r8 ? l8 ? H8 R8]; subst; clear R7. inversion R8; subst; clear R8.
  repeat (apply Forall_cons; [match goal with
    | HC : close _ ?r _ |- List.length ?r = _ /\ _ => clear - HC; apply close_7 in HC;
        destruct HC as (e0 & e1 & e2 & e3 & e4 & e5 & e6 & -> & B0 & B1 & B2 & B3 & B4 & B5 & B6);
        apply abs_split in B0, B1, B2, B3, B4, B5, B6;
        split; [reflexivity|cbn [tl falls]; repeat split; lra]
    end|]).
  apply Forall_nil.
Qed.

Lemma Y_falling c x y : List.length c = 7%nat -> falls 5 (tl c) -> 0.15 <= x -> x < y -> y <= 0.6 ->
  spline_at Y_Mach c y < spline_at Y_Mach c x.
Proof.
  intros L F X XY Y. unfold spline_at.
  rewrite !clamp_id by (unfold Y_Mach; cbn [hd last]; lra).
  destruct c as [|c0 [|c1 [|c2 [|c3 c]]]]; try discriminate.
  pose proof (g_ok _ _ _ Y_grid) as K.
  unfold fit_knots, Y_Mach in *. cbn [midpoints removelast tl last hd app] in *.
  rewrite !walk_tail by lra.
  apply (walk_decreasing 3 3); try lia; try (cbn [nth]; lra).
  - unfold mach_breaks in K. cbn [List.length Nat.sub] in K. exact (proj2 (proj2 (proj2 K))).
  - cbn [List.length] in *. lia.
  - exact F.
Qed.

Lemma tp_mach_falls d m1 m2 : 0.15 <= m1 -> m1 < m2 -> m2 <= 0.6 ->
  exists k1 k2, turbopropthrustfactor (Fin d) (Fin m1) = Fin k1 /\
    turbopropthrustfactor (Fin d) (Fin m2) = Fin k2 /\ k2 < k1.
Proof.
  intros H1 H2 H3. rewrite !tp_fin. do 2 eexists. split; [reflexivity|]. split; [reflexivity|].
  unfold bispev. rewrite !X_dot by (rewrite map_length; apply coefs_len).
  apply (mean_lt _ _ _ 9 (wx_mean d)); [rewrite map_length; apply coefs_len|].
  pose proof coefs_fall as F. induction F as [|r l (L & FA) F IH]; cbn [map]; [apply Forall2_nil|].
  apply Forall2_cons; [|exact IH]. now apply Y_falling.
Qed.

(** in every column the coefficients rise over the first six rows, in the first column over all *)
Lemma coefs_rise : Forall (fun c => List.length c = 9%nat /\ rises 5 c) (columns 7 thrust_ratio_spline)
  /\ rises 8 (hd [] (columns 7 thrust_ratio_spline)).
Proof.
  pose proof coefs_close as H. unfold coefs_approx in H. revert H. generalize thrust_ratio_spline. intros C H.
  inversion H as [|r0 ? l0 ? H0 R0]; subst; clear H. inversion R0 as [|r1 ? l1 ? H1 R1]; subst; clear R0.
  inversion R1 as [|r2 ? l2 ? H2 R2]; subst; clear R1. inversion R2 as [|r3 ? l3 ? H3 R3]; subst; clear R2.
  inversion R3 as [|r4 ? l4 ? H4 R4]; subst; clear R3. inversion R4 as [|r5 ? l5 ? H5 R5]; subst; clear R4.
  inversion R5 as [|r6 ? l6 ? H6 R6]; subst; clear R5. inversion R6 as [|r7 ? l7 ? H7 R7]; subst; clear R6.
  inversion R7 as [|r8 ? l8 ? H8 R8]; subst; clear R7. inversion R8; subst; clear R8.
  apply close_7 in H0; destruct H0 as (a00 & a01 & a02 & a03 & a04 & a05 & a06 & -> & A00 & A01 & A02 & A03 & A04 & A05 & A06).
  apply close_7 in H1; destruct H1 as (a10 & a11 & a12 & a13 & a14 & a15 & a16 & -> & A10 & A11 & A12 & A13 & A14 & A15 & A16).
  apply close_7 in H2; destruct H2 as (a20 & a21 & a22 & a23 & a24 & a25 & a26 & -> & A20 & A21 & A22 & A23 & A24 & A25 & A26).
  apply close_7 in H3; destruct H3 as (a30 & a31 & a32 & a33 & a34 & a35 & a36 & -> & A30 & A31 & A32 & A33 & A34 & A35 & A36).
  apply close_7 in H4; destruct H4 as (a40 & a41 & a42 & a43 & a44 & a45 & a46 & -> & A40 & A41 & A42 & A43 & A44 & A45 & A46).
  apply close_7 in H5; destruct H5 as (a50 & a51 & a52 & a53 & a54 & a55 & a56 & -> & A50 & A51 & A52 & A53 & A54 & A55 & A56).
  apply close_7 in H6; destruct H6 as (a60 & a61 & a62 & a63 & a64 & a65 & a66 & -> & A60 & _).
  apply close_7 in H7; destruct H7 as (a70 & a71 & a72 & a73 & a74 & a75 & a76 & -> & A70 & _).
  apply close_7 in H8; destruct H8 as (a80 & a81 & a82 & a83 & a84 & a85 & a86 & -> & A80 & _).
  cbn [columns map hd tl].
  split.
  - apply Forall_cons; [split; [reflexivity|]; apply abs_split in A00, A10, A20, A30, A40, A50; cbn [rises]; repeat split; lra|].
    apply Forall_cons; [split; [reflexivity|]; apply abs_split in A01, A11, A21, A31, A41, A51; cbn [rises]; repeat split; lra|].
    apply Forall_cons; [split; [reflexivity|]; apply abs_split in A02, A12, A22, A32, A42, A52; cbn [rises]; repeat split; lra|].
    apply Forall_cons; [split; [reflexivity|]; apply abs_split in A03, A13, A23, A33, A43, A53; cbn [rises]; repeat split; lra|].
    apply Forall_cons; [split; [reflexivity|]; apply abs_split in A04, A14, A24, A34, A44, A54; cbn [rises]; repeat split; lra|].
    apply Forall_cons; [split; [reflexivity|]; apply abs_split in A05, A15, A25, A35, A45, A55; cbn [rises]; repeat split; lra|].
    apply Forall_cons; [split; [reflexivity|]; apply abs_split in A06, A16, A26, A36, A46, A56; cbn [rises]; repeat split; lra|].
    apply Forall_nil.
  - apply abs_split in A00, A10, A20, A30, A40, A50, A60, A70, A80. cbn [rises]. repeat split; lra.
Qed.

Lemma X_rising k c x y : (k <= 6)%nat -> List.length c = 9%nat -> rises (S (S k)) c ->
  0.24616951531253428 <= x -> x < y -> y <= nth (S (S k)) (tl (fit_knots X_dens_ratio)) 0 -> y <= 1 ->
  spline_at X_dens_ratio c x < spline_at X_dens_ratio c y.
Proof.
  intros KN L F X XY Y Y1. unfold spline_at.
  rewrite !clamp_id by (unfold X_dens_ratio; cbn [hd last]; lra).
  apply (walk_increasing k 6); auto.
  exact (g_ok _ _ _ X_grid).
Qed.

Lemma tp_density_rises m d1 d2 : 0.24616951531253428 <= d1 -> d1 < d2 ->
  d2 <= (0.5328112272029571 + 0.6292375381232487) / 2 ->
  exists k1 k2, turbopropthrustfactor (Fin d1) (Fin m) = Fin k1 /\
    turbopropthrustfactor (Fin d2) (Fin m) = Fin k2 /\ k1 < k2.
Proof.
  intros H1 H2 H3. rewrite !tp_fin. do 2 eexists. split; [reflexivity|]. split; [reflexivity|].
  rewrite !bispev_dot'. apply (mean_lt _ _ _ 7 (wy_mean m)); [now rewrite map_length|].
  pose proof (proj1 coefs_rise) as F. induction F as [|r l (L & FA) F IH]; cbn [map]; [apply Forall2_nil|].
  apply Forall2_cons; [|exact IH]. rewrite <- !X_dot by exact L.
  apply (X_rising 3); auto; try lia; try lra.
  unfold fit_knots, X_dens_ratio. cbn [midpoints removelast tl last hd app nth]. lra.
Qed.

Lemma wy_static l m : m <= 0 -> List.length l = 7%nat -> dot (wy m) l = hd 0 l.
Proof.
  intros M L. rewrite <- Y_dot by exact L. unfold spline_at.
  replace (clamp (hd 0 Y_Mach) (last Y_Mach 0) m) with 0.
  2:{ unfold Y_Mach; cbn [hd last]. unfold clamp, Rltb. repeat destruct (Rlt_dec _ _); lra. }
  destruct l as [|c0 [|c1 [|c2 c]]]; try discriminate. cbn [hd].
  eapply walk_first; [unfold fit_knots, Y_Mach; cbn [midpoints removelast tl last hd app]; reflexivity|lra|lra].
Qed.

Lemma tp_static_rises m d1 d2 : m <= 0 -> 0.24616951531253428 <= d1 -> d1 < d2 -> d2 <= 1 ->
  exists k1 k2, turbopropthrustfactor (Fin d1) (Fin m) = Fin k1 /\
    turbopropthrustfactor (Fin d2) (Fin m) = Fin k2 /\ k1 < k2.
Proof.
  intros M H1 H2 H3. rewrite !tp_fin. do 2 eexists. split; [reflexivity|]. split; [reflexivity|].
  rewrite !bispev_dot', !wy_static by (auto; now rewrite map_length).
  destruct coefs_rise as (F & RI). destruct (columns 7 thrust_ratio_spline) as [|c0 cs] eqn:E; [discriminate|].
  cbn [map hd] in *. inversion F as [|? ? (L & _) _]; subst.
  rewrite <- !X_dot by exact L. apply (X_rising 6); auto; try lra.
  unfold fit_knots, X_dens_ratio. cbn [midpoints removelast tl last hd app nth]. lra.
Qed.

(* ------------------------------------------------------------------------ *)
(** * What does not hold *)

(** along the last row (sea level) *)
Lemma wx_sealevel l d : 1 <= d -> List.length l = 9%nat -> dot (wx d) l = last l 0.
Proof.
  intros D L. rewrite <- X_dot by exact L. unfold spline_at.
  replace (clamp (hd 0 X_dens_ratio) (last X_dens_ratio 0) d) with 1.
  2:{ unfold X_dens_ratio; cbn [hd last]. unfold clamp, Rltb. repeat destruct (Rlt_dec _ _); lra. }
  destruct l as [|c0 [|c1 [|c2 [|c3 [|c4 [|c5 [|c6 [|c7 [|c8 [|]]]]]]]]]]; try discriminate.
  unfold fit_knots, X_dens_ratio. cbn [midpoints removelast tl last hd app].
  do 6 (rewrite walk_tail by lra).
  destruct (bspl ((0.7384790974933775 + 0.6292375381232487) * (1 / 2))
     ((0.8616704548972803 + 0.7384790974933775) * (1 / 2)) 1.0 1.0 1) as [[w0 w1] w2] eqn:EW.
  erewrite walk_here; [|now left|exact EW].
  unfold bspl in EW. injection EW as <- <- <-.
  set (q := (0.8616704548972803 + 0.7384790974933775) * (1 / 2)).
  set (p := (0.7384790974933775 + 0.6292375381232487) * (1 / 2)).
  assert (q <> 1) by (unfold q; lra). assert (p <> 1) by (unfold p; lra).
  replace 1.0 with 1 by lra. field. split; lra.
Qed.

Lemma tp_above_static :
  exists d m k k0, 0.24616951531253428 <= d <= 1 /\ 0 < m <= 0.6 /\
    turbopropthrustfactor (Fin d) (Fin 0) = Fin k0 /\ k0 = 1 /\
    turbopropthrustfactor (Fin d) (Fin m) = Fin k /\ k > 1.
Proof.
  exists 1, 0.0005. do 2 eexists. split; [lra|]. split; [lra|].
  split; [apply (tp_table 8 0); lia|]. split; [unfold thrust_at_mach; cbn [nth]; lra|].
  rewrite tp_fin. split; [reflexivity|].
  rewrite bispev_dot, wx_sealevel by (try lra; rewrite map_length; apply coefs_len).
  pose proof coefs_close as H. unfold coefs_approx in H. revert H. generalize thrust_ratio_spline. intros C H.
  inversion H as [|r0 ? l0 ? H0 R0]; subst; clear H. inversion R0 as [|r1 ? l1 ? H1 R1]; subst; clear R0.
  inversion R1 as [|r2 ? l2 ? H2 R2]; subst; clear R1. inversion R2 as [|r3 ? l3 ? H3 R3]; subst; clear R2.
  inversion R3 as [|r4 ? l4 ? H4 R4]; subst; clear R3. inversion R4 as [|r5 ? l5 ? H5 R5]; subst; clear R4.
  inversion R5 as [|r6 ? l6 ? H6 R6]; subst; clear R5. inversion R6 as [|r7 ? l7 ? H7 R7]; subst; clear R6.
  inversion R7 as [|r8 ? l8 ? H8 R8]; subst; clear R7. inversion R8; subst; clear R8.
  clear - H8. apply close_7 in H8.
  destruct H8 as (a0 & a1 & a2 & a3 & a4 & a5 & a6 & -> & A0 & A1 & A2 & _).
  cbn [map last]. rewrite <- Y_dot by reflexivity. unfold spline_at.
  rewrite clamp_id by (unfold Y_Mach; cbn [hd last]; lra).
  unfold fit_knots, Y_Mach. cbn [midpoints removelast tl last hd app].
  destruct (bspl_num 0 0 ((0.2 + 0.1) * (1 / 2)) ((0.3 + 0.2) * (1 / 2)) 0.0005
     0.993344 0.993345 0.0000066 0.0000067) as (a & c & E & A & B); try lra.
  erewrite walk_here; [|right; lra|exact E].
  apply abs_split in A0, A1, A2. nra.
Qed.

Lemma tp_mach_rise :
  exists d m1 m2 k1 k2, 0.24616951531253428 <= d <= 1 /\ 0 <= m1 /\ m1 < m2 /\ m2 <= 0.6 /\
    turbopropthrustfactor (Fin d) (Fin m1) = Fin k1 /\
    turbopropthrustfactor (Fin d) (Fin m2) = Fin k2 /\ k1 < k2.
Proof.
  destruct tp_above_static as (d & m & k & k0 & D & M & E0 & K0 & E & K).
  exists d, 0, m, k0, k. repeat split; auto; lra.
Qed.

Lemma tp_density_drop :
  exists d1 d2 m k1 k2, 0.24616951531253428 <= d1 /\ d1 < d2 /\ d2 <= 1 /\ 0 <= m <= 0.6 /\
    turbopropthrustfactor (Fin d1) (Fin m) = Fin k1 /\
    turbopropthrustfactor (Fin d2) (Fin m) = Fin k2 /\ k2 < k1.
Proof.
  exists (nth 6 dens 0), (nth 7 dens 0), (nth 6 machs 0). do 2 eexists.
  split; [unfold dens; cbn [nth]; lra|]. split; [unfold dens; cbn [nth]; lra|].
  split; [unfold dens; cbn [nth]; lra|]. split; [unfold machs; cbn [nth]; lra|].
  split; [apply tp_table; lia|]. split; [apply tp_table; lia|]. unfold thrust_at_mach; cbn [nth]; lra.
Qed.

(* ------------------------------------------------------------------------ *)
(** * The sea level correction of a generic turboprop *)

Lemma tp_lapse ext c h s b tr V : tpspline ext = turbopropthrustfactor ->
  air_at c h s -> bpr c = Some (Fin b) -> throttle_r c = Some (Fin tr) ->
  generic_of b (propulsion c) Turboprop -> 0 <= V ->
  exists tau, lapse ext c true V h tau /\ 0.0015 <= tau <= 1.001 /\
    turbopropthrustfactor (Fin (a_rho s / 1.2249998682209657)) (Fin (mach_no V s)) = Fin tau.
Proof.
  intros EX HA HB HT HG HV.
  destruct (tp_bounds (a_rho s / 1.2249998682209657) (mach_no V s)) as (k & E & B).
  exists k. split; [|split; [exact B|exact E]].
  pose proof (slcorr_generic c h s HA ext b tr Turboprop HB HT HG V HV) as SL.
  cbn [engine_lapse] in SL. rewrite EX, E in SL.
  do 2 eexists. split; [exact SL|]. split; [lra|]. now right.
Qed.

From Verif Require Import AtmosModel MethodsExamples ConstraintProofs10.
Lemma tp_example : let c := example_aircraft 20 18 (-2) PropFalse (isa 0) in
  generic_of (-2) (propulsion c) Turboprop /\ bpr c = Some (Fin (-2)) /\ throttle_r c = Some (Fin 1.07) /\
  air_at c 6000 (std_air 6000).
Proof.
  split; [constructor; left; split; reflexivity|]. split; [reflexivity|]. split; [reflexivity|].
  apply std_air_at; [reflexivity|lra].
Qed.
