(** Propeller efficiency: arrays, and efficiencies outside [0, 1]. *)
From Verif Require Import Base BaseFacts AtmosModel AtmosSpec IsaReal IsaProofs AtmosProofs AtmosProofs2 ConceptModel ConceptProofs PropulsionModel PropulsionSpec PropulsionProofs PropulsionProofs5.
Open Scope R_scope.

(** ** Standard air below 50 km *)
Lemma air_below h : h <= 50000 -> exists rho a, standard_air h rho a.
Proof.
  intros H. pose proof (tl_pos' h) as T. rewrite tl_std in T by exact H.
  exists (exp (ld h)), (sqrt (1.4 * 287.05287 * (std_temp h + 0))). split; [apply airdens_isa0; exact H|].
  split; [apply vsound_isa; [exact H|lra]|]. split; [apply exp_pos|]. apply sqrt_lt_R0. lra.
Qed.
Lemma recast_elements v : recastasnpfloatarray v = elements v. Proof. destruct v; reflexivity. Qed.

(** batches of altitudes *)
Definition airs (hs : list R) (rhos sounds : list R) : Prop :=
  Forall2 (fun h r => exists a, standard_air h r a) hs rhos /\ Forall2 (fun h a => exists r, standard_air h r a) hs sounds.
Lemma dens_batch hs rhos : hs <> [] -> Forall2 (fun h r => exists a, standard_air h r a) hs rhos ->
  exists v, airdens_kgpm3 (isa 0) (VArr (map Fin hs)) = Ok v /\ recastasnpfloatarray v = map Fin rhos.
Proof.
  intros Ne F. pose proof (queries_pointwise (isa 0)) as (_ & _ & P & _).
  destruct (P (VArr (map Fin hs))) as (P1 & P2); [destruct hs; [congruence|discriminate]|].
  destruct (proj2 P1) as (v & E).
  { clear -F. cbn [elements]. induction F as [|h r hs rs (a & A) F IH]; constructor; [|exact IH]. destruct A as (A & _). eexists; exact A. }
  exists v. split; [exact E|]. destruct (P2 v E) as (Q & _). rewrite recast_elements. cbn [elements] in Q. clear -Q F.
  revert F. generalize (elements v) Q. clear. intros l Q F. revert l Q.
  induction F as [|h r hs rs (a & A) F IH]; intros l Q; inversion Q; subst; [reflexivity|]. cbn [map]. f_equal; [|apply IH; assumption].
  destruct A as (A & _). congruence.
Qed.
Lemma sound_batch hs sounds : hs <> [] -> Forall2 (fun h a => exists r, standard_air h r a) hs sounds ->
  vsound_mps (isa 0) (VArr (map Fin hs)) = Ok (reverttoscalar (VList (map Fin sounds))).
Proof.
  intros Ne F. pose proof (vsound_lifts (isa 0) (VArr (map Fin hs))) as L. cbn [elements] in L.
  specialize (L ltac:(destruct hs; [congruence|discriminate])).
  assert (E : mapM (fun x => do y <- altok (isa 0) x; do t <- gtemp (isa 0) y; vsound1 t) (map Fin hs) = Ok (map Fin sounds)).
  { clear -F. induction F as [|h a hs sounds (r & A) F IH]; [reflexivity|]. cbn [map mapM]. rewrite IH. destruct A as (_ & A & _).
    apply (lifts_single VList _ _ (Fin h) (Fin a) (or_intror eq_refl) (vsound_lifts (isa 0))) in A. rewrite A. reflexivity. }
  rewrite E in L. exact L.
Qed.
Lemma airs_exist hs : Forall (fun h => h <= 50000) hs -> exists rhos sounds, airs hs rhos sounds.
Proof.
  induction hs as [|h hs IH]; intros F; [exists [], []; split; constructor|]. inversion F as [|? ? Hh Hf]; subst.
  destruct (air_below h Hh) as (r & a & A). destruct (IH Hf) as (rs & ss & I1 & I2).
  exists (r :: rs), (a :: ss). split; constructor; try assumption; eauto.
Qed.

(** ** The loop over the entries *)
Lemma mapM_seq {A B} (f : nat * A -> res B) (l : list A) : forall k,
  (forall i x, nth_error l i = Some x -> exists y, f ((k + i)%nat, x) = Ok y) ->
  exists r, mapM f (combine (seq k (List.length l)) l) = Ok r /\ List.length r = List.length l /\
    forall i x, nth_error l i = Some x -> exists y, nth_error r i = Some y /\ f ((k + i)%nat, x) = Ok y.
Proof.
  induction l as [|x l IH]; intros k H; cbn [List.length seq combine mapM].
  - exists []. split; [reflexivity|]. split; [reflexivity|]. intros [|i] y; discriminate.
  - destruct (H 0%nat x eq_refl) as (y & E). rewrite Nat.add_0_r in E. rewrite E. cbn [rbind].
    destruct (IH (S k)) as (r & E2 & Len & N).
    { intros i z Hz. destruct (H (S i) z Hz) as (w & W). exists w. rewrite <- W. do 2 f_equal. lia. }
    rewrite E2. cbn [rbind]. exists (y :: r). split; [reflexivity|]. split; [cbn [List.length]; lia|].
    intros [|i] z Hz.
    + injection Hz as <-. exists y. split; [reflexivity|]. rewrite Nat.add_0_r. exact E.
    + destruct (N i z Hz) as (w & W1 & W2). exists w. split; [exact W1|]. rewrite <- W2. do 2 f_equal. lia.
Qed.
Lemma efficiency_at_total p sol m h rho P rpm : h <= 50000 -> exists e, efficiency_at p sol m (Fin h) rho P rpm = Ok e.
Proof. intros H. destruct (air_below h H) as (r & a & A). unfold efficiency_at. rewrite (vsound_at_air _ _ _ A). eexists. reflexivity. Qed.
Lemma nth_error_map_fin l i x : nth_error (map Fin l) i = Some x -> exists r, nth_error l i = Some r /\ x = Fin r.
Proof. rewrite nth_error_map. destruct (nth_error l i); intros E; [injection E as <-; eauto|discriminate]. Qed.
Lemma nth_error_same {A B} (l : list A) (m : list B) i x : List.length l = List.length m -> nth_error l i = Some x -> exists y, nth_error m i = Some y.
Proof.
  intros E H. destruct (nth_error m i) as [y|] eqn:N; [eauto|]. apply nth_error_None in N. rewrite <- E in N.
  assert (nth_error l i <> None) by congruence. apply nth_error_Some in H0. lia.
Qed.
Lemma Forall2_nth' {A B} (R : A -> B -> Prop) l m : Forall2 R l m -> forall i x, nth_error l i = Some x -> exists y, nth_error m i = Some y /\ R x y.
Proof. induction 1 as [|a b l m H F IH]; intros [|i] x; cbn; try discriminate; [intros [= <-]; eauto|apply IH]. Qed.

Lemma efficiency_single p m h rho a P rpm : standard_air h rho a ->
  efficiency p [m] [Fin h] [P] rpm =
  rmap (fun e => (with_solidity p, [e])) (efficiency_at (with_solidity p) (attr0 (solidity (with_solidity p))) m (Fin h) (Fin rho) P rpm).
Proof.
  intros A. unfold efficiency.
  assert (E : airdens_kgpm3 (isa 0) (VArr [Fin h]) = Ok (VNum (Fin rho))) by (destruct A as (E & _); exact E).
  rewrite E. cbn [rbind recastasnpfloatarray enumerate combine seq List.length mapM fst snd index nth_error].
  destruct (efficiency_at _ _ _ _ _ _ _); reflexivity.
Qed.
(** equal lengths: every entry is the efficiency of its own flight condition *)
Lemma efficiency_elementwise p ms hs Ps rpm :
  List.length ms = List.length hs -> List.length Ps = List.length hs -> hs <> [] -> Forall (fun h => h <= 50000) hs ->
  exists etas, efficiency p ms (map Fin hs) Ps rpm = Ok (with_solidity p, etas) /\ List.length etas = List.length hs /\
    forall i m h P, nth_error ms i = Some m -> nth_error hs i = Some h -> nth_error Ps i = Some P ->
      exists e, nth_error etas i = Some e /\ efficiency p [m] [Fin h] [P] rpm = Ok (with_solidity p, [e]).
Proof.
  intros L1 L2 Ne F. destruct (airs_exist hs F) as (rs & ss & A1 & A2). destruct (dens_batch hs rs Ne A1) as (v & E & Rv).
  unfold efficiency at 1. rewrite E. cbn [rbind]. rewrite Rv. unfold enumerate.
  destruct (mapM_seq (fun iw => do r <- index (map Fin rs) (fst iw); do a <- index (map Fin hs) (fst iw); do m <- index ms (fst iw);
       efficiency_at (with_solidity p) (attr0 (solidity (with_solidity p))) m a r (snd iw) rpm) Ps 0) as (etas & E2 & Len & N).
  - intros i P HP. cbn [Nat.add fst snd]. destruct (nth_error_same Ps hs i P L2 HP) as (h & Hh).
    destruct (nth_error_same hs ms i h (eq_sym L1) Hh) as (m & Hm). destruct (Forall2_nth' _ _ _ A1 i h Hh) as (r & Hr & _).
    unfold index. rewrite !nth_error_map, Hr, Hh, Hm. cbn [option_map rbind]. apply efficiency_at_total.
    apply nth_error_In in Hh. rewrite Forall_forall in F. exact (F h Hh).
  - rewrite E2. cbn [rbind]. exists etas. split; [reflexivity|]. split; [lia|]. intros i m h P Hm Hh HP.
    destruct (N i P HP) as (e & He & V). exists e. split; [exact He|]. cbn [Nat.add fst snd] in V.
    destruct (Forall2_nth' _ _ _ A1 i h Hh) as (r & Hr & (a & A)). unfold index in V. rewrite !nth_error_map, Hr, Hh, Hm in V. cbn [option_map rbind] in V.
    rewrite (efficiency_single _ _ _ _ _ _ _ A), V. reflexivity.
Qed.
Lemma efficiency_keeps p ms hs Ps rpm q etas : efficiency p ms hs Ps rpm = Ok (q, etas) ->
  q = with_solidity p /\ List.length etas = List.length Ps.
Proof.
  unfold efficiency. destruct (airdens_kgpm3 (isa 0) (VArr hs)) as [v|]; [|discriminate]. cbn [rbind].
  destruct (mapM _ (enumerate Ps)) as [r|] eqn:M; [|discriminate]. cbn [rbind]. intros [= <- <-]. split; [reflexivity|].
  apply mapM_length in M. rewrite M. unfold enumerate. rewrite combine_length, seq_length. lia.
Qed.
Lemma with_solidity_twice p : with_solidity (with_solidity p) = with_solidity p.
Proof. unfold with_solidity at 2 3. destruct (solidity p) eqn:E; [unfold with_solidity; rewrite E; reflexivity|reflexivity]. Qed.
Lemma efficiency_repeat p ms hs Ps rpm q etas : efficiency p ms hs Ps rpm = Ok (q, etas) ->
  forall ms' hs' Ps' rpm', efficiency q ms' hs' Ps' rpm' = efficiency p ms' hs' Ps' rpm'.
Proof. intros E ms' hs' Ps' rpm'. destruct (efficiency_keeps _ _ _ _ _ _ _ E) as (-> & _). unfold efficiency. rewrite with_solidity_twice. reflexivity. Qed.

(** unequal lengths: fewer Mach numbers or altitudes than powers fail, and more are ignored *)
Lemma efficiency_unity p m h rpm P Q Ps : h <= 50000 -> efficiency p [m] [Fin h] (P :: Q :: Ps) rpm = Err IndexError.
Proof.
  intros H. destruct (air_below h H) as (r & a & A). unfold efficiency.
  assert (E : airdens_kgpm3 (isa 0) (VArr [Fin h]) = Ok (VNum (Fin r))) by (destruct A as (E & _); exact E). rewrite E.
  cbn [rbind recastasnpfloatarray enumerate combine seq List.length mapM fst snd index nth_error].
  destruct (efficiency_at_total (with_solidity p) (attr0 (solidity (with_solidity p))) m h (Fin r) P rpm H) as (e & ->). reflexivity.
Qed.
Lemma efficiency_one_power p m ms h hs rpm P : Forall (fun h => h <= 50000) (h :: hs) ->
  efficiency p (m :: ms) (map Fin (h :: hs)) [P] rpm = efficiency p [m] [Fin h] [P] rpm.
Proof.
  intros F. destruct (airs_exist _ F) as (rs & ss & A1 & A2). destruct (dens_batch (h :: hs) rs ltac:(discriminate) A1) as (v & E & Rv).
  unfold efficiency. rewrite E. cbn [rbind]. rewrite Rv. inversion A1 as [|? r ? rs' (a & A) A1' Eh Er]; subst.
  assert (E1 : airdens_kgpm3 (isa 0) (VArr [Fin h]) = Ok (VNum (Fin r))) by (destruct A as (E1 & _); exact E1). rewrite E1. reflexivity.
Qed.

(** ** The returned efficiency *)
Lemma efficiency_value p D cl sol rpm h rho a m P :
  diameter_m p = Some (Fin D) -> idesign_cl p = Some (Fin cl) -> solidity p = Some (Fin sol) -> standard_air h rho a -> D <> 0 -> rpm <> 0 ->
  let cp := power_coefficient P rho (rpm / 60) D in let J := advance_ratio (m * a) (rpm / 60) D in
  let cd := drag_polar (cl * cp / J) in
  regular J cp sol cd (Z.to_nat (solve_maxiter p)) ->
  exists k, stops (solve_dp p) (fun j => snd (passes J cp sol cd j)) (Z.to_nat (solve_maxiter p)) k /\
    efficiency p [Fin m] [Fin h] [Fin P] (Fin rpm) = Ok (p, [Fin (snd (passes J cp sol cd k))]).
Proof.
  intros HD Hcl Hs A ND Nr cp J cd Rg. rewrite (efficiency_single _ _ _ _ _ _ _ A).
  assert (W : with_solidity p = p) by (unfold with_solidity; rewrite Hs; reflexivity). rewrite W, Hs. cbn [attr0].
  destruct (efficiency_at_spec p D cl sol rpm h rho a m P HD Hcl A ND Nr Rg) as (k & S & V). exists k. split; [exact S|].
  fold cp J cd in V. rewrite V. reflexivity.
Qed.
Lemma swirl_unit J cp e : 0 <= swirl J cp e <= 1.
Proof. unfold swirl. pose proof (clip01_range (4 * e * cp / (PI ^ 3 * J))). lra. Qed.

(** *** an efficiency above 1 *)
Definition s_star : R := swirl 3 (1/2) 0.98.
Definition q_star : R := 0.54 * PI / (s_star * 0.98 ^ 3).
Definition sol_star : R := (1 - q_star) * 4 / (PI ^ 4 * s_star ^ 2 * drag_polar 2 * glauert_factor (inflow 3 (1/2) 0.98)).
Lemma s_star_range : 0.97 < s_star <= 1.
Proof.
  unfold s_star, swirl. pose proof PI2_3_2 as P. assert (P3 : 27 < PI ^ 3) by (replace (PI ^ 3) with (PI * PI * PI) by ring; assert (9 < PI * PI) by nra; nra).
  assert (A : 0 < 4 * 0.98 * (1 / 2) / (PI ^ 3 * 3)) by (apply Rdiv_lt_0_compat; lra).
  assert (B : 4 * 0.98 * (1 / 2) / (PI ^ 3 * 3) < 0.03).
  { apply Rmult_lt_reg_r with (PI ^ 3 * 3); [lra|]. unfold Rdiv. rewrite Rmult_assoc, Rinv_l by lra. lra. }
  unfold clip01. rewrite Rmin_right, Rmax_right; lra.
Qed.
Lemma q_star_big : 1 < q_star.
Proof.
  unfold q_star. pose proof s_star_range. pose proof PI2_3_2 as P. apply Rmult_lt_reg_r with (s_star * 0.98 ^ 3); [apply Rmult_lt_0_compat; lra|].
  unfold Rdiv. rewrite Rmult_assoc, Rinv_l by (apply Rgt_not_eq, Rmult_lt_0_compat; lra). lra.
Qed.
Lemma inflow_star : 0 < glauert_factor (inflow 3 (1/2) 0.98).
Proof.
  unfold inflow. fold s_star. pose proof s_star_range. pose proof PI_RGT_0. apply glauert_bounds. apply Rdiv_lt_0_compat; [lra|].
  apply Rmult_lt_0_compat; [apply Rmult_lt_0_compat|]; lra.
Qed.
Lemma drag_star : drag_polar 2 < 0. Proof. unfold drag_polar. lra. Qed.
Lemma sol_star_pos : 0 < sol_star.
Proof.
  unfold sol_star. pose proof q_star_big. pose proof inflow_star. pose proof drag_star. pose proof s_star_range. pose proof PI_RGT_0.
  set (G := glauert_factor (inflow 3 (1/2) 0.98)) in *.
  assert (K : 0 < PI ^ 4 * s_star ^ 2) by (apply Rmult_lt_0_compat; apply pow_lt; lra).
  replace ((1 - q_star) * 4 / (PI ^ 4 * s_star ^ 2 * drag_polar 2 * G)) with ((q_star - 1) * 4 / (PI ^ 4 * s_star ^ 2 * (- drag_polar 2) * G)).
  - apply Rdiv_lt_0_compat; [lra|]. apply Rmult_lt_0_compat; [apply Rmult_lt_0_compat; lra|lra].
  - field. repeat split; lra.
Qed.
Lemma profile_star : profile_eff 3 (1/2) sol_star (drag_polar 2) 0.98 = q_star.
Proof.
  unfold profile_eff. fold s_star. unfold sol_star. pose proof inflow_star. pose proof drag_star. pose proof s_star_range. pose proof PI_RGT_0.
  set (G := glauert_factor (inflow 3 (1/2) 0.98)) in *. field. repeat split; lra.
Qed.
Lemma axial_star : axial 3 (1/2) sol_star (drag_polar 2) 0.98 = 0.98.
Proof.
  unfold axial. rewrite profile_star. fold s_star. unfold q_star. pose proof s_star_range. pose proof PI_RGT_0.
  replace (2 * (1 / 2) * s_star * (0.54 * PI / (s_star * 0.98 ^ 3)) * 0.98 ^ 3 / (PI * 3 ^ 3)) with (0.54 / 27) by (field; repeat split; lra). lra.
Qed.
Lemma passes_star k : fst (passes 3 (1/2) sol_star (drag_polar 2) k) = 0.98.
Proof. induction k as [|k IH]; [reflexivity|]. cbn [passes fst]. rewrite IH. exact axial_star. Qed.
Lemma eta_star k : 1.6 < snd (passes 3 (1/2) sol_star (drag_polar 2) (S k)).
Proof.
  cbn [passes snd]. rewrite passes_star, axial_star, profile_star. fold s_star. unfold q_star. pose proof s_star_range. pose proof PI2_3_2.
  replace (0.98 * s_star * (0.54 * PI / (s_star * 0.98 ^ 3))) with (0.54 / (0.98 * 0.98) * PI) by (field; lra). replace (0.98 * 0.98) with 0.9604 by lra. lra.
Qed.

(** *** low speed: three values in turn *)
Section Low.
Variable cd : R.
Notation E k := (passes (1/10) (1/10) 0 cd k).
Lemma low_profile e : profile_eff (1/10) (1/10) 0 cd e = 1. Proof. unfold profile_eff, Rdiv. ring. Qed.
Lemma low_axial e : axial (1/10) (1/10) 0 cd e = 1 - 200 * swirl (1/10) (1/10) e * e ^ 3 / PI.
Proof. unfold axial. rewrite low_profile. field. pose proof PI_RGT_0. lra. Qed.
Lemma low_swirl e : swirl (1/10) (1/10) e = 1 - clip01 (4 * e / PI ^ 3).
Proof. unfold swirl. do 2 f_equal. field. pose proof PI_RGT_0. lra. Qed.
Lemma PI3_bounds : 27 < PI ^ 3 <= 64.
Proof.
  pose proof PI2_3_2. pose proof PI_4. replace (PI ^ 3) with (PI * PI * PI) by ring. assert (9 < PI * PI <= 16) by nra. nra.
Qed.
Lemma low_first e : 0.98 <= e <= 1 -> 0.85 < swirl (1/10) (1/10) e /\ axial (1/10) (1/10) 0 cd e < -38.
Proof.
  intros H. pose proof PI3_bounds as P3. pose proof PI2_3_2. pose proof PI_4.
  assert (S : 0.85 < swirl (1/10) (1/10) e).
  { rewrite low_swirl. assert (B : 4 * e / PI ^ 3 < 0.149).
    { apply Rmult_lt_reg_r with (PI ^ 3); [lra|]. unfold Rdiv. rewrite Rmult_assoc, Rinv_l by lra. lra. }
    assert (clip01 (4 * e / PI ^ 3) <= 0.149); [|lra]. unfold clip01. apply Rmax_lub; [lra|]. eapply Rle_trans; [apply Rmin_r|lra]. }
  split; [exact S|]. rewrite low_axial. set (s := swirl (1/10) (1/10) e) in *.
  assert (E3 : 0.94 < e ^ 3) by (replace (e ^ 3) with (e * e * e) by ring; assert (0.9604 <= e * e) by nra; nra).
  assert (N : 39 * PI < 200 * s * e ^ 3) by nra.
  assert (39 < 200 * s * e ^ 3 / PI); [|lra]. apply Rmult_lt_reg_r with PI; [lra|]. unfold Rdiv. rewrite Rmult_assoc, Rinv_l by lra. lra.
Qed.
Lemma low_second e : e < -38 -> swirl (1/10) (1/10) e = 1 /\ 1000 < axial (1/10) (1/10) 0 cd e.
Proof.
  intros H. pose proof PI3_bounds as P3. pose proof PI2_3_2. pose proof PI_4.
  assert (S : swirl (1/10) (1/10) e = 1).
  { rewrite low_swirl. assert (B : 4 * e / PI ^ 3 < 0).
    { unfold Rdiv. assert (0 < / PI ^ 3) by (apply Rinv_0_lt_compat; lra). nra. }
    unfold clip01. rewrite Rmin_right by lra. rewrite Rmax_left by lra. lra. }
  split; [exact S|]. rewrite low_axial, S.
  assert (E3 : e ^ 3 < -1000) by (replace (e ^ 3) with (e * e * e) by ring; assert (1444 < e * e) by nra; nra).
  assert (A : 200 * 1 * e ^ 3 / PI < -1000); [|lra].
  apply Rmult_lt_reg_r with PI; [lra|]. unfold Rdiv. rewrite Rmult_assoc, Rinv_l by lra. lra.
Qed.
Lemma low_third e : 1000 < e -> swirl (1/10) (1/10) e = 0 /\ axial (1/10) (1/10) 0 cd e = 1.
Proof.
  intros H. pose proof PI3_bounds as P3. pose proof PI2_3_2.
  assert (S : swirl (1/10) (1/10) e = 0).
  { rewrite low_swirl. assert (B : 1 < 4 * e / PI ^ 3).
    { apply Rmult_lt_reg_r with (PI ^ 3); [lra|]. unfold Rdiv. rewrite Rmult_assoc, Rinv_l by lra. lra. }
    unfold clip01. rewrite Rmin_left by lra. rewrite Rmax_right by lra. lra. }
  split; [exact S|]. rewrite low_axial, S. field. lra.
Qed.
Definition low_state (r : nat) (p : R * R) : Prop :=
  match r with
  | O => 0.98 <= fst p <= 1 /\ 0 <= snd p <= 0.87
  | 1%nat => fst p < -38 /\ snd p < -30
  | _ => 1000 < fst p /\ 1000 < snd p
  end.
Lemma low_step r p : (r < 3)%nat -> low_state r p ->
  low_state (match r with O => 1 | 1 => 2 | _ => 0 end)%nat (axial (1/10) (1/10) 0 cd (fst p), axial (1/10) (1/10) 0 cd (fst p) * swirl (1/10) (1/10) (fst p) * profile_eff (1/10) (1/10) 0 cd (fst p)).
Proof.
  intros Hr H. destruct r as [|[|[|]]]; [| | |lia]; cbn [low_state fst snd] in *; rewrite low_profile; destruct H as (H & _).
  - destruct (low_first _ H) as (S & A). split; [exact A|]. nra.
  - destruct (low_second _ H) as (S & A). rewrite S. lra.
  - destruct (low_third _ H) as (S & A). rewrite S, A. lra.
Qed.
Lemma low_states : forall j, low_state 0 (E (3 * j)) /\ low_state 1 (E (3 * j + 1)) /\ low_state 2 (E (3 * j + 2)).
Proof.
  assert (N : forall k r, (r < 3)%nat -> low_state r (E k) -> low_state (match r with O => 1 | 1 => 2 | _ => 0 end)%nat (E (S k))) by (intros k r L H; exact (low_step r _ L H)).
  assert (H0 : forall j, low_state 0 (E (3 * j))).
  { induction j as [|j IH]; [cbn; lra|]. replace (3 * S j)%nat with (S (S (S (3 * j)))) by lia.
    apply (N _ 2%nat ltac:(lia)), (N _ 1%nat ltac:(lia)), (N _ 0%nat ltac:(lia)), IH. }
  intros j. split; [apply H0|]. replace (3 * j + 1)%nat with (S (3 * j)) by lia. replace (3 * j + 2)%nat with (S (S (3 * j))) by lia.
  split; [apply (N _ 0%nat ltac:(lia)), H0|apply (N _ 1%nat ltac:(lia)), (N _ 0%nat ltac:(lia)), H0].
Qed.
Lemma low_zero j : E (3 * S j) = (1, 0).
Proof.
  destruct (low_states j) as (_ & _ & H). replace (3 * S j)%nat with (S (3 * j + 2)) by lia. cbn [low_state] in H. destruct H as (H & _).
  destruct (low_third _ H) as (S & A). cbn [passes]. rewrite S, A, low_profile. f_equal. ring.
Qed.
Lemma three k : exists j, k = (3 * j)%nat \/ k = (3 * j + 1)%nat \/ k = (3 * j + 2)%nat.
Proof. exists (k / 3)%nat. pose proof (Nat.div_mod k 3 ltac:(lia)). pose proof (Nat.mod_upper_bound k 3 ltac:(lia)). lia. Qed.
Lemma low_regular n : regular (1/10) (1/10) 0 cd n.
Proof.
  split; [lra|]. split; [lra|]. intros k _. destruct (three k) as (j & [->|[->| ->]]); destruct (low_states j) as (H0 & H1 & H2); cbn [low_state] in *; lra.
Qed.
Lemma low_disagree dp k : ~ agree dp (snd (E k)) (snd (E (S k))).
Proof.
  intros A. apply agree_close in A. assert (P : / 10 ^ dp <= 1) by (rewrite <- Rinv_1; apply Rinv_le_contravar; [lra|apply pow_R1_Rle; lra]).
  assert (D : Rabs (snd (E k) - snd (E (S k))) <= 1) by lra. clear A P. revert D. unfold Rabs.
  destruct (three k) as (j & [->|[->| ->]]); destruct (low_states j) as (H0 & H1 & H2); cbn [low_state] in *.
  - replace (S (3 * j)) with (3 * j + 1)%nat by lia. destruct (Rcase_abs _); lra.
  - replace (S (3 * j + 1)) with (3 * j + 2)%nat by lia. destruct (Rcase_abs _); lra.
  - replace (S (3 * j + 2)) with (3 * S j)%nat by lia. rewrite low_zero in *. cbn [snd]. destruct (Rcase_abs _); lra.
Qed.
Lemma low_stops dp n k : stops dp (fun j => snd (E j)) n k -> k = n.
Proof. intros (_ & _ & [H|(j & -> & A)]); [exact H|]. destruct (low_disagree dp j A). Qed.
End Low.
