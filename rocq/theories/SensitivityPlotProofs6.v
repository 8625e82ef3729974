(** The sensitivity diagrams: concrete cases. *)
From Coq Require Import Sorted.
From Verif Require Import Base BaseFacts AnalysisFacts UnitsModel AtmosModel AtmosSpec IsaReal IsaProofs AtmosProofs AtmosProofs2 AtmosProofs3 AtmosProofs4
  ConceptModel ConceptSpec MethodsModel MethodsSpec MethodsExamples ConstraintSpec
  SensitivityModel SensitivitySpec SensitivityPlotModel SensitivityPlotSpec ConceptProofs ConceptProofs2 ConceptProofs6 MethodsProofs MethodsProofs2
  ConstraintProofs ConstraintProofs2 ConstraintProofs3 ConstraintProofs4 ConstraintProofs7 ConstraintProofs8 ConstraintProofs9 ConstraintProofs10
  SensitivityProofs SensitivityProofs2 SensitivityProofs3 SensitivityProofs4 SensitivityPlotProofs SensitivityPlotProofs2 SensitivityPlotProofs3
  SensitivityPlotProofs4 SensitivityPlotProofs5.
Open Scope R_scope.
Open Scope string_scope.

Lemma nth_map_some {A B} (f : A -> B) l i a : nth_error l i = Some a -> nth_error (map f l) i = Some (f a).
Proof. intros E. rewrite nth_error_map, E. reflexivity. Qed.

(** at a small wing loading every constraint is a number *)
Lemma small_at wl ws med i w : elements wl = map Fin ws -> (forall w, In w ws -> 0 < w) -> nth_error ws i = Some w ->
  twrequired example_ext bare0 wl true true = Ok med ->
  nth_error (elements (rq_takeoff med)) i = Some (Fin (run_tw (exp (ld 0)) 1.7 1200 0.06 0.8 0.03 4 w)) /\
  nth_error (elements (rq_turncl med)) i = Some (Fin (1.5 * (0.92 * w) * 0.95 / dyn_press (knots 240) (std_air 2000))) /\
  (small w -> (forall cn sel, In (cn, sel) analysed -> defined_at (sel med) i) /\
     exists t, nth_error (elements (rq_cruise med)) i = Some (Fin t) /\ 10 <= t).
Proof.
  intros EV HP EW H. assert (HP' : forall u, In u ws -> 0 <= u) by (intros u U; left; apply HP, U).
  assert (TO : forall med wl ws, elements wl = map Fin ws -> (forall u, In u ws -> 0 <= u) -> twrequired example_ext bare0 wl true true = Ok med ->
     elements (rq_takeoff med) = map (fun w => Fin (run_tw (exp (ld 0)) 1.7 1200 0.06 0.8 0.03 4 w)) ws).
  { intros med' wl' ws' E P Q. rewrite (bare_takeoff 1200 ws' wl' med' ltac:(lra) E P Q). apply elements_revert. }
  split; [rewrite (TO _ _ _ EV HP' H); rewrite nth_error_map, EW; reflexivity|].
  destruct (twrequired_parts _ _ _ _ _ _ H) as (M1 & M2 & M3 & M4 & M5 & _). cbv zeta in *. split.
  { rewrite (turn_cl example_ext bare0 true (VArr (elements wl)) ws 240 2000 1.5 0.92 0.95 0.02 (std_air 2000) _ _ _ EV ltac:(repeat split) ltac:(lra) (bare_air 2000 ltac:(lra)) M2).
    rewrite nth_error_map, EW; reflexivity. }
  intros SM. destruct (bare_ok 1200) as (HW & HE & HB).
  destruct (twrequired_ok example_ext bare0 true HW HE HB (VList [Fin w]) true) as (med1 & H1).
  destruct (small_parts (VList [Fin w]) [w] med1 eq_refl ltac:(discriminate) ltac:(intros u [<-|[]]; exact SM) H1) as (Z1 & (T2 & Z2 & Z3) & _).
  destruct (twrequired_parts _ _ _ _ _ _ H1) as (N1 & N2 & N3 & N4 & N5 & _). cbv zeta in *.
  destruct (clm_ok example_ext bare0 true HW HE HB) as (F1 & E1). destruct (crs_ok example_ext bare0 true HW HE HB) as (F2 & E2).
  destruct (sec_ok example_ext bare0 true HW HE HB) as (F3 & E3). destruct (trn_ok example_ext bare0 true HW HE HB) as (F4 & G4 & E4).
  rewrite E1 in M3, N3. rewrite E2 in M4, N4. rewrite E3 in M5, N5. rewrite E4 in M2, N2.
  assert (FT : forall (F : num -> num) (a b : val), reverttoscalar (VArr (map F (elements (VArr (elements wl))))) = a ->
     reverttoscalar (VArr (map F (elements (VArr (elements (VList [Fin w])))))) = b -> forall T, elements b = map (fun w => Fin (T w)) [w] ->
     nth_error (elements a) i = Some (Fin (T w))).
  { intros F a b <- <- T E. rewrite elements_revert in *. cbn [elements map] in *. rewrite EV. rewrite map_map. rewrite (nth_map_some _ _ _ _ EW).
    injection E as ->. reflexivity. }
  injection M3 as M3. injection N3 as N3. injection M4 as M4. injection N4 as N4. injection M5 as M5. injection N5 as N5.
  assert (M2' : reverttoscalar (VArr (map F4 (elements (VArr (elements wl))))) = rq_turn med) by congruence.
  assert (N2' : reverttoscalar (VArr (map F4 (elements (VArr (elements (VList [Fin w])))))) = rq_turn med1) by congruence.
  split.
  - intros cn sel I. unfold defined_at. destruct (Z1 cn sel I) as (T & ET). cbn in I.
    destruct I as [I|[I|[I|[I|[I|[]]]]]]; injection I as <- <-.
    + exists (T w). exact (FT _ _ _ M3 N3 T ET).
    + exists (T w). exact (FT _ _ _ M4 N4 T ET).
    + exists (T w). exact (FT _ _ _ M5 N5 T ET).
    + rewrite (TO _ _ _ EV HP' H). eexists. apply (nth_map_some (fun w => Fin (run_tw (exp (ld 0)) 1.7 1200 0.06 0.8 0.03 4 w))), EW.
    + exists (T w). exact (FT _ _ _ M2' N2' T ET).
  - exists (T2 w). split; [exact (FT _ _ _ M4 N4 T2 Z2)|]. apply Z3. left. reflexivity.
Qed.

(** the example concept, its analysis and its stall *)
Lemma self1_pyeta : pyeta performance_dict.
Proof. intros e B. apply dget_binds in B. cbn in B. injection B as <-. repeat constructor; cbn; intros X; repeat (destruct X as [X|X]; [discriminate|]); contradiction. Qed.
Definition loading_list (ws : list R) : val := VList (map Fin ws).
Lemma self1_analysis ws : exists med, sensitivity example_ext self1 (loading_list ws) Ytw = Ok (sens0, med) /\
  twrequired example_ext bare0 (loading_list ws) true true = Ok med.
Proof.
  destruct (bare_ok 1200) as (HW & HE & HB). destruct (twrequired_ok example_ext bare0 true HW HE HB (loading_list ws) true) as (med & H).
  exists med. split; [|exact H]. unfold sensitivity. cbn [self1 obj designspace designstate weight_n]. 
  change (required (weight_n jet)) with (Ok (Fin 100000)). cbn [rbind]. cbv zeta.
  match goal with |- context [foldM ?f (brief_dict (pnum 1200)) sens0] => change (foldM f (brief_dict (pnum 1200)) sens0) with (Ok sens0) end. cbn [rbind].
  match goal with |- context [foldM ?f design_dict sens0] => change (foldM f design_dict sens0) with (Ok sens0) end. cbn [rbind].
  match goal with |- context [foldM ?f performance_dict sens0] => change (foldM f performance_dict sens0) with (Ok sens0) end. cbn [rbind].
  match goal with |- rbind ?e _ = _ => change e with (Ok bare0) end. cbn [rbind].
  change (recastasnpfloatarray (loading_list ws)) with (elements (loading_list ws)). rewrite y_function_elements. cbn [y_function]. rewrite H. reflexivity.
Qed.
Definition stall_load : R := dyn_press (knots 110) (std_air 0) * 1.5.
Lemma self1_stall : 0 < stall_load /\ stall_position self1 Xws (Some stall_load) /\ stall_position self1 Xarea (Some (100000 / stall_load)).
Proof.
  assert (P : 0 < stall_load) by (unfold stall_load; pose proof (std_q_pos (knots 110) 0 ltac:(unfold knots; lra)); lra).
  assert (E : wsmaxcleanstall_pa (obj self1) = Ok (Fin stall_load)).
  { unfold wsmaxcleanstall_pa. change (clmaxclean (obj self1)) with (Some (Fin 1.5)). change (vstallclean_kcas (obj self1)) with (Some (Fin 110)).
    cbn [required rbind]. rewrite knots_fin. change #0 with (Fin 0).
    rewrite (q_air (obj self1) 0 (std_air 0) (jet_air 0 ltac:(lra)) (knots 110)). cbn [rbind]. rewrite nmul_fin. reflexivity. }
  split; [exact P|]. split; apply (a_stall _ _ 110 1.5 stall_load 100000); try reflexivity; try assumption; lra.
Qed.
Definition wA : R := 0.001 * Rmin qmin stall_load.
Definition wB : R := 0.002 * Rmin qmin stall_load.
Definition wC : R := 2 * dyn_press (knots 240) (std_air 2000).
Definition wD : R := 3 * dyn_press (knots 240) (std_air 2000).
Lemma loads_order : 0 < wA /\ wA < wB /\ wB < wC /\ wC < wD /\ wB < stall_load /\ small wA /\ small wB.
Proof.
  destruct qmin_spec as (Q0 & _ & _ & _ & Q4). destruct self1_stall as (L & _).
  assert (0 < Rmin qmin stall_load) by (apply Rmin_glb_lt; assumption). pose proof (Rmin_l qmin stall_load). pose proof (Rmin_r qmin stall_load).
  unfold wA, wB, wC, wD, small. repeat split; lra.
Qed.
Lemma self1_front ws med : (forall w, In w ws -> 0 < w) -> sensitivity example_ext self1 (loading_list ws) Ytw = Ok (sens0, med) ->
  twrequired example_ext bare0 (loading_list ws) true true = Ok med ->
  (forall i w, nth_error ws i = Some w -> small w -> defined_at (rq_combined med) i) /\
  (forall i w, nth_error ws i = Some w -> wC <= w -> ~ defined_at (rq_combined med) i) /\
  (forall i, (List.length ws <= i)%nat -> ~ defined_at (rq_combined med) i).
Proof.
  intros HP S H. pose proof (front_defined _ _ _ _ _ _ _ _ _ _ 1.5 self1_pyeta self1_ok S eq_refl) as FD.
  assert (Q4 : 0 < dyn_press (knots 240) (std_air 2000)) by (apply std_q_pos; unfold knots; lra).
  destruct qmin_spec as (Q0 & _ & _ & _ & Q5).
  split; [|split].
  - intros i w E SM. apply FD. destruct (small_at (loading_list ws) ws med i w eq_refl HP E H) as (_ & CL & SS). destruct (SS SM) as (D & _).
    split; [exact D|]. intros (c & EC & LT). rewrite CL in EC. injection EC as <-. destruct SM as (W0 & W1).
    set (q := dyn_press (knots 240) (std_air 2000)) in *.
    assert (1.5 * (0.92 * w) * 0.95 / q <= 1.5); [|lra]. apply (Rmult_le_reg_r q); [exact Q4|]. unfold Rdiv. rewrite Rmult_assoc, Rinv_l; lra.
  - intros i w E W D. apply FD in D as (_ & D). apply D. destruct (small_at (loading_list ws) ws med i w eq_refl HP E H) as (_ & CL & _).
    eexists. split; [exact CL|]. unfold wC in W. set (q := dyn_press (knots 240) (std_air 2000)) in *.
    apply (Rmult_lt_reg_r q); [exact Q4|]. unfold Rdiv. rewrite Rmult_assoc, Rinv_l; lra.
  - intros i L D. apply FD in D as (D & _). destruct (D "take-off" rq_takeoff ltac:(cbn; auto 6)) as (v & V).
    assert (E : elements (rq_takeoff med) = map (fun w => Fin (run_tw (exp (ld 0)) 1.7 1200 0.06 0.8 0.03 4 w)) ws).
    { rewrite (bare_takeoff 1200 ws (loading_list ws) med ltac:(lra) eq_refl (fun u U => Rlt_le _ _ (HP u U)) H). apply elements_revert. }
    rewrite E in V. assert (nth_error (map (fun w => Fin (run_tw (exp (ld 0)) 1.7 1200 0.06 0.8 0.03 4 w)) ws) i = None) by (apply nth_error_None; rewrite map_length; exact L). congruence.
Qed.
Lemma self1_axis ws : axis self1 (loading_list ws) Xws ws ws.
Proof. split; reflexivity. Qed.
Lemma self1_drawn ws labels mask : NoDup ws -> (2 <= List.length ws)%nat -> exists d,
  propulsionsensitivity_monothetic example_ext self1 (loading_list ws) Ytw None Xws labels (ShowOne "combined") mask = Ok [DCombined d].
Proof.
  intros ND L. destruct (self1_analysis ws) as (med & S & H).
  apply (drawn _ _ _ _ _ _ _ _ _ _ _ _ _ ws ws (Some stall_load) self1_pyeta self1_ok S); try assumption;
    [exact (bare_ok 1200)|apply self1_axis|apply self1_stall].
Qed.

Lemma plain_total ws cn sel labels : In (cn, sel) analysed -> NoDup ws -> (2 <= List.length ws)%nat -> exists d,
  propulsionsensitivity_monothetic example_ext self1 (loading_list ws) Ytw None Xws labels (ShowOne cn) false = Ok [d].
Proof.
  intros I ND L. destruct (self1_drawn ws labels false ND L) as (d & D). destruct (combined_inv _ _ _ _ _ _ _ _ _ D) as (fg & F & _).
  unfold propulsionsensitivity_monothetic. rewrite F. cbn [rbind].
  assert (FND : find (fun q => String.eqb cn (fst q)) sensitivityplots_list = Some (cn, sel)).
  { cbn in I. destruct I as [[= <- <-]|[[= <- <-]|[[= <- <-]|[[= <- <-]|[[= <- <-]|[]]]]]]; reflexivity. }
  rewrite FND. destruct (figure_inv _ _ _ _ _ _ _ F) as (s' & med' & comb & fx & S' & _ & FS & M & X & _).
  destruct (self1_analysis ws) as (med & S & H). rewrite S in S'. injection S' as <- <-.
  unfold sensitivityplot. cbn [fst snd]. rewrite FS.
  assert (dindex (primes sens0) cn = Ok []) as ->.
  { cbn in I. destruct I as [[= <- <-]|[[= <- <-]|[[= <- <-]|[[= <- <-]|[[= <- <-]|[]]]]]]; reflexivity. }
  cbn [rbind]. unfold shares. cbn [foldM mapM rbind].
  assert (XN : fg_x fg <> []) by (rewrite X; cbn; destruct ws; [cbn in L; lia|discriminate]).
  destruct (pymaxn_total _ XN) as (hi & ->). destruct (pyminn_total _ XN) as (lo & ->). cbn [rbind rmap]. eauto.
Qed.

Lemma mask_total ws cn sel labels med : In (cn, sel) analysed -> NoDup ws -> (2 <= List.length ws)%nat ->
  sensitivity example_ext self1 (loading_list ws) Ytw = Ok (sens0, med) ->
  List.length (elements (sel med)) = List.length ws -> List.length (elements (rq_combined med)) = List.length ws ->
  (exists i, below_front (sel med) (rq_combined med) i) -> (exists i, defined_at (rq_combined med) i) -> exists xlim parts masks,
  propulsionsensitivity_monothetic example_ext self1 (loading_list ws) Ytw None Xws labels (ShowOne cn) true = Ok [DSensitivity cn xlim parts masks].
Proof.
  intros I ND L S L1 L2 (i0 & B0) (j0 & D0).
  destruct (plain_total ws cn sel labels I ND L) as (d & D). destruct (sens_diagram_inv _ _ _ _ _ _ _ _ _ _ _ I D) as (fg & d' & F & P & _).
  destruct (figure_inv _ _ _ _ _ _ _ F) as (s' & med' & comb & fx & S' & CC & FS & M & X & _ & _ & FE & _). rewrite S in S'. injection S' as <- <-.
  assert (exists masks, focusmasks fg (sel (fg_med fg)) = Ok masks) as (masks & MK).
  { unfold focusmasks. change recastasnpfloatarray with elements. rewrite M.
    destruct (broadcast (fun c f => if (c <? nan_to_num f)%num then #1 else #0) (elements (sel med)) (elements (rq_combined med))) as [bl|] eqn:BL;
      [|unfold broadcast in BL; rewrite L1, L2, Nat.eqb_refl in BL; discriminate].
    cbn [rbind].
    assert (BI : forall i, In i (where_true (map truthy bl)) <-> below_front (sel med) (rq_combined med) i) by (intros; apply (below_index _ _ _ (eq_trans L1 (eq_sym L2)) _ BL)).
    pose proof (where_sorted (map truthy bl)) as SS. destruct (where_true (map truthy bl)) as [|a r] eqn:EW; [apply BI in B0; contradiction|].
    destruct (consecutive_runs r a SS) as (ij & ijs & RUN & _ & _ & STR & _).
    assert (RNG : forall i, In i (a :: r) -> (i < List.length (fg_x fg))%nat).
    { intros i J. apply BI in J as (z & Z & _). rewrite X. cbn [x_function]. change (elements (loading_list ws)) with (map Fin ws). rewrite map_length, <- L1.
      apply nth_error_Some. congruence. }
    assert (FN : exists f, pymaxi (fg_feas fg) = Ok f /\ (f < List.length (fg_x fg))%nat).
    { assert (J : In j0 (fg_feas fg)) by (rewrite FE; apply where_finite; rewrite <- CC; exact D0).
      destruct (fg_feas fg) as [|f0 fr] eqn:EF; [contradiction|]. rewrite <- EF in *. assert (exists f, pymaxi (fg_feas fg) = Ok f) as (f & PF) by (rewrite EF; eexists; reflexivity).
      exists f. split; [exact PF|]. pose proof (where_sorted (map isfinite comb)) as SF. rewrite <- FE in SF.
      destruct (pymaxi_sorted _ _ SF PF) as (FI & _). rewrite FE in FI. apply where_range in FI. rewrite map_length in FI.
      rewrite X. cbn [x_function]. change (elements (loading_list ws)) with (map Fin ws). rewrite map_length, <- L2, CC. exact FI. }
    destruct FN as (f & PF & LF).
    assert (NN : forall k, (k < List.length (fg_x fg))%nat -> exists z, nth_num (fg_x fg) k = Ok z).
    { intros k K. unfold nth_num. destruct (nth_error (fg_x fg) k) as [z|] eqn:E; [eauto|]. apply nth_error_None in E. lia. }
    clear B0 BL BI EW SS. induction RUN as [|q g qs gs R RUN IH]; cbn [mapM]; [eauto|].
    destruct (STR q (or_introl eq_refl)) as (Q1 & Q2 & _).
    assert (exists m, maskregion fg g = Ok m) as (m & ->).
    { unfold maskregion. rewrite R, pymaxi_seq. cbn [rbind]. replace (fst q + (snd q - fst q))%nat with (snd q) by lia.
      destruct (NN (snd q)) as (z2 & ->); [apply RNG, Q2; lia|]. cbn [rbind]. rewrite pymini_seq. cbn [rbind].
      destruct (NN (fst q)) as (z1 & ->); [apply RNG, Q2; lia|]. cbn [rbind]. rewrite PF. cbn [rbind]. destruct (NN f LF) as (zf & ->). cbn [rbind]. eauto. }
    cbn [rbind]. destruct IH as (ms & ->); [intros q' Q'; apply STR; right; exact Q'|]. cbn [rbind]. eauto. }
  unfold propulsionsensitivity_monothetic. rewrite F. cbn [rbind].
  assert (FND : find (fun q => String.eqb cn (fst q)) sensitivityplots_list = Some (cn, sel)).
  { cbn in I. destruct I as [[= <- <-]|[[= <- <-]|[[= <- <-]|[[= <- <-]|[[= <- <-]|[]]]]]]; reflexivity. }
  rewrite FND. unfold sensitivityplot in *. cbn [fst snd] in *.
  apply rbind_ok in P as (prime & E & P). rewrite E. cbn [rbind]. apply rbind_ok in P as (pts & E1 & P). rewrite E1. cbn [rbind].
  apply rbind_ok in P as (lo & E2 & P). rewrite E2. cbn [rbind]. apply rbind_ok in P as (hi & E3 & P). rewrite E3. cbn [rbind].
  rewrite MK. cbn [rbind rmap]. eauto.
Qed.

Lemma run_bound w : 0 < w <= wB -> 0 < run_tw (exp (ld 0)) 1.7 1200 0.06 0.8 0.03 4 w < 10.
Proof.
  intros (W0 & W1). pose proof (exp_pos (ld 0)) as P.
  assert (W2 : w <= 0.002 * stall_load) by (unfold wB in W1; pose proof (Rmin_r qmin stall_load); lra).
  unfold stall_load, dyn_press in W2. cbn [std_air a_rho] in W2. set (rho := exp (ld 0)) in *.
  unfold run_tw, static_factor. destruct (Rlt_dec 1 4) as [_|]; [|lra].
  assert (X : 0 < 2 * w / (rho * 1.7)) by (apply Rdiv_lt_0_compat; [lra|apply Rmult_lt_0_compat; lra]).
  assert (Y : 2 * w / (rho * 1.7) <= 10).
  { apply (Rmult_le_reg_r (rho * 1.7)); [lra|]. unfold Rdiv. rewrite Rmult_assoc, Rinv_l by lra. unfold knots in W2. simpl in W2. lra. }
  rewrite Rpow_mult_distr, pow2_sqrt by lra. set (z := 2 * w / (rho * 1.7)) in *. simpl. lra.
Qed.
Lemma run_pos w : 0 < w -> 0 < run_tw (exp (ld 0)) 1.7 1200 0.06 0.8 0.03 4 w.
Proof.
  intros W0. pose proof (exp_pos (ld 0)) as P. unfold run_tw, static_factor. destruct (Rlt_dec 1 4) as [_|]; [|lra].
  assert (X : 0 < 2 * w / (exp (ld 0) * 1.7)) by (apply Rdiv_lt_0_compat; [lra|apply Rmult_lt_0_compat; lra]).
  rewrite Rpow_mult_distr, pow2_sqrt by lra. set (z := 2 * w / (exp (ld 0) * 1.7)) in *. simpl. lra.
Qed.

(** ** The cases *)
Definition feasible_loads : list R := [wA; wB].
Definition mixed_loads : list R := [wA; wB; wC].
Definition heavy_loads : list R := [wC; wD].
Definition falling_loads : list R := [wB; wA].
Lemma feasible_ascending : ascending feasible_loads.
Proof.
  destruct loads_order as (O1 & O2 & O3 & O4 & _). intros i j a b L A B. unfold feasible_loads in A, B. destruct i as [|[|i]], j as [|[|j]]; cbn in A, B; try lia;
    try (destruct i; discriminate); try (destruct j; discriminate); injection A as <-; injection B as <-; lra.
Qed.
Lemma mixed_ascending : ascending mixed_loads.
Proof.
  destruct loads_order as (O1 & O2 & O3 & O4 & _). intros i j a b L A B. unfold mixed_loads in A, B. destruct i as [|[|[|i]]], j as [|[|[|j]]]; cbn in A, B; try lia;
    try (destruct i; discriminate); try (destruct j; discriminate); injection A as <-; injection B as <-; lra.
Qed.
Lemma heavy_ascending : ascending heavy_loads.
Proof.
  destruct loads_order as (O1 & O2 & O3 & O4 & _). intros i j a b L A B. unfold heavy_loads in A, B. destruct i as [|[|i]], j as [|[|j]]; cbn in A, B; try lia;
    try (destruct i; discriminate); try (destruct j; discriminate); injection A as <-; injection B as <-; lra.
Qed.
Lemma falling_descending : descending falling_loads.
Proof.
  destruct loads_order as (O1 & O2 & O3 & O4 & _). intros i j a b L A B. unfold falling_loads in A, B. destruct i as [|[|i]], j as [|[|j]]; cbn in A, B; try lia;
    try (destruct i; discriminate); try (destruct j; discriminate); injection A as <-; injection B as <-; lra.
Qed.
Lemma loads_positive ws w : (forall u, In u ws -> In u [wA; wB; wC; wD]) -> In w ws -> 0 < w.
Proof. intros SUB I. apply SUB in I. destruct loads_order as (A & B & C & D & _). destruct I as [<-|[<-|[<-|[<-|[]]]]]; lra. Qed.
Lemma case_lengths ws med cn sel : In (cn, sel) analysed -> (2 <= List.length ws)%nat -> twrequired example_ext bare0 (loading_list ws) true true = Ok med ->
  List.length (elements (sel med)) = List.length ws /\ List.length (elements (rq_combined med)) = List.length ws.
Proof.
  intros I L H. destruct (bare_ok 1200) as (HW & HE & HB).
  assert (EL : List.length (elements (loading_list ws)) = List.length ws) by apply map_length.
  assert (SH := entries_shape example_ext bare0 (loading_list ws) med HW HE HB ltac:(lia) H).
  destruct (SH cn sel I) as (l & E & LL). destruct (SH "climb" rq_climb ltac:(cbn; auto)) as (lc & EC & LC).
  destruct (combined_envelope _ _ _ _ _ _ H) as ((_ & _ & N3 & _) & _). rewrite E, N3, EC. cbn [elements]. lia.
Qed.
Lemma analysis_of ws : (forall u, In u ws -> In u [wA; wB; wC; wD]) -> (2 <= List.length ws)%nat -> NoDup ws -> exists med,
  sensitivity example_ext self1 (loading_list ws) Ytw = Ok (sens0, med) /\ twrequired example_ext bare0 (loading_list ws) true true = Ok med /\
  (forall i w, nth_error ws i = Some w -> small w -> defined_at (rq_combined med) i) /\
  (forall i w, nth_error ws i = Some w -> wC <= w -> ~ defined_at (rq_combined med) i) /\
  (forall i, (List.length ws <= i)%nat -> ~ defined_at (rq_combined med) i) /\
  forall labels mask, exists d, propulsionsensitivity_monothetic example_ext self1 (loading_list ws) Ytw None Xws labels (ShowOne "combined") mask = Ok [DCombined d].
Proof.
  intros SUB L ND. destruct (self1_analysis ws) as (med & S & H). exists med. split; [exact S|]. split; [exact H|].
  destruct (self1_front ws med (fun w I => loads_positive ws w SUB I) S H) as (A & B & C). repeat (split; [assumption|]).
  intros. apply self1_drawn; assumption.
Qed.

Lemma feasible_case : exists med d, sensitivity example_ext self1 (loading_list feasible_loads) Ytw = Ok (sens0, med) /\
  propulsionsensitivity_monothetic example_ext self1 (loading_list feasible_loads) Ytw None Xws [] (ShowOne "combined") true = Ok [DCombined d] /\
  axis self1 (loading_list feasible_loads) Xws feasible_loads feasible_loads /\
  forall cn sel, In (cn, sel) analysed -> exists rs, elements (sel med) = map Fin rs.
Proof.
  destruct loads_order as (O1 & O2 & O3 & O4 & O5 & SA & SB).
  destruct (analysis_of feasible_loads) as (med & S & H & DS & _ & _ & DR); [cbn; tauto|cbn; lia|apply monotone_nodup; left; apply feasible_ascending|].
  destruct (DR [] true) as (d & D). exists med, d. split; [exact S|]. split; [exact D|]. split; [apply self1_axis|].
  intros cn sel I. destruct (small_parts (loading_list feasible_loads) feasible_loads med eq_refl) as (Z & _); [discriminate|intros w [<-|[<-|[]]]; assumption|exact H|].
  destruct (Z cn sel I) as (T & E). exists (map T feasible_loads). rewrite E, map_map. reflexivity.
Qed.

Lemma mixed_case : exists med d, sensitivity example_ext self1 (loading_list mixed_loads) Ytw = Ok (sens0, med) /\
  propulsionsensitivity_monothetic example_ext self1 (loading_list mixed_loads) Ytw None Xws [] (ShowOne "combined") true = Ok [DCombined d] /\
  axis self1 (loading_list mixed_loads) Xws mixed_loads mixed_loads /\ ascending mixed_loads /\ stall_position self1 Xws (Some stall_load) /\
  wB < stall_load /\ (forall i, defined_at (rq_combined med) i <-> (i < 2)%nat) /\
  ~ shaded d wA /\ shaded d wB /\ shaded d wC /\ cd_turn d = Some (Fin wB).
Proof.
  destruct loads_order as (O1 & O2 & O3 & O4 & O5 & SA & SB). destruct self1_stall as (L0 & ST & _).
  destruct (analysis_of mixed_loads) as (med & S & H & DS & DH & DL & DR); [cbn; tauto|cbn; lia|apply monotone_nodup; left; apply mixed_ascending|].
  destruct (DR [] true) as (d & D). exists med, d. split; [exact S|]. split; [exact D|]. split; [apply self1_axis|].
  pose proof mixed_ascending as ASC.
  split; [exact ASC|]. split; [exact ST|]. split; [exact O5|].
  assert (FD : forall i, defined_at (rq_combined med) i <-> (i < 2)%nat).
  { intros i. split.
    - intros Q. destruct i as [|[|[|i]]]; try lia; exfalso; [apply (DH 2%nat wC eq_refl (Rle_refl wC) Q)|revert Q; apply DL; cbn; lia].
    - intros L. destruct i as [|[|i]]; [apply (DS 0%nat wA eq_refl SA)|apply (DS 1%nat wB eq_refl SB)|lia]. }
  split; [exact FD|].
  pose proof (shading _ _ _ _ _ _ _ _ _ _ _ _ _ _ 2 D S (self1_axis mixed_loads) ASC ST ltac:(cbn; lia) FD) as SH.
  split; [rewrite (SH 0%nat wA eq_refl); intros [Q|(L & [= <-] & Q)]; [lia|cbn in Q; lra]|].
  split; [rewrite (SH 1%nat wB eq_refl); left; lia|]. split; [rewrite (SH 2%nat wC eq_refl); left; lia|].
  apply (turn_line _ _ _ _ _ _ _ _ _ _ _ _ _ D S (self1_axis mixed_loads)). exists 1%nat, wB.
  split; [reflexivity|]. split; [reflexivity|]. split; [apply FD; lia|]. split; [intros j J; apply FD in J; lia|].
  exists wA, wC. cbn. repeat split; auto.
Qed.

(** a loading that every constraint allows, below the stall, is shaded *)
Lemma last_feasible_refuted : exists self ws med d i w L,
  sensitivity example_ext self (loading_list ws) Ytw = Ok (sens0, med) /\
  propulsionsensitivity_monothetic example_ext self (loading_list ws) Ytw None Xws [] (ShowOne "combined") true = Ok [DCombined d] /\
  ascending ws /\ nth_error ws i = Some w /\ defined_at (rq_combined med) i /\
  stall_position self Xws (Some L) /\ w < L /\ shaded d w.
Proof.
  destruct mixed_case as (med & d & S & D & _ & ASC & ST & L & FD & _ & SB & _). exists self1, mixed_loads, med, d, 1%nat, wB, stall_load.
  repeat (split; [first [assumption|reflexivity|apply FD; lia]|]). exact SB.
Qed.

Lemma falling_case : exists med d, sensitivity example_ext self1 (loading_list falling_loads) Ytw = Ok (sens0, med) /\
  propulsionsensitivity_monothetic example_ext self1 (loading_list falling_loads) Ytw None Xws [] (ShowOne "combined") true = Ok [DCombined d] /\
  descending falling_loads /\ stall_position self1 Xws (Some stall_load) /\
  (forall i, defined_at (rq_combined med) i <-> (i < 2)%nat) /\ last falling_loads 0 < stall_load /\ forall w, In w falling_loads -> w < stall_load /\ shaded d w.
Proof.
  destruct loads_order as (O1 & O2 & O3 & O4 & O5 & SA & SB). destruct self1_stall as (L0 & ST & _).
  destruct (analysis_of falling_loads) as (med & S & H & DS & DH & DL & DR); [cbn; tauto|cbn; lia|apply monotone_nodup; right; apply falling_descending|].
  destruct (DR [] true) as (d & D). exists med, d. split; [exact S|]. split; [exact D|].
  pose proof falling_descending as DSC.
  split; [exact DSC|]. split; [exact ST|].
  assert (FD : forall i, defined_at (rq_combined med) i <-> (i < 2)%nat).
  { intros i. split.
    - intros Q. destruct i as [|[|i]]; try lia; exfalso. revert Q. apply DL. cbn. lia.
    - intros L. destruct i as [|[|i]]; [apply (DS 0%nat wB eq_refl SB)|apply (DS 1%nat wA eq_refl SA)|lia]. }
  split; [exact FD|]. split; [cbn; lra|]. intros w I.
  assert (W : w < stall_load) by (destruct I as [<-|[<-|[]]]; lra). split; [exact W|].
  apply (descending_shading _ _ _ _ _ _ _ _ _ _ falling_loads stall_load D S eq_refl DSC ST FD ltac:(discriminate) ltac:(cbn; lra) w I). lra.
Qed.

(** the focus mask of the take-off requirement, which is below the front everywhere *)
Lemma mask_case : exists med xlim parts masks, sensitivity example_ext self1 (loading_list feasible_loads) Ytw = Ok (sens0, med) /\
  propulsionsensitivity_monothetic example_ext self1 (loading_list feasible_loads) Ytw None Xws [] (ShowOne "take-off") true =
    Ok [DSensitivity "take-off" xlim parts masks] /\
  axis self1 (loading_list feasible_loads) Xws feasible_loads feasible_loads /\ NoDup feasible_loads /\
  List.length (elements (rq_takeoff med)) = List.length (elements (rq_combined med)) /\
  masks = [(Fin wA, Fin wB)].
Proof.
  destruct loads_order as (O1 & O2 & O3 & O4 & O5 & SA & SB).
  assert (ND : NoDup feasible_loads) by (apply monotone_nodup; left; apply feasible_ascending).
  destruct (analysis_of feasible_loads) as (med & S & H & DS & _ & DL & DR); [cbn; tauto|cbn; lia|exact ND|].
  assert (I : In ("take-off", rq_takeoff) analysed) by (cbn; auto 6).
  destruct (case_lengths feasible_loads med "take-off" rq_takeoff I ltac:(cbn; lia) H) as (L1 & L2).
  assert (BF : forall i, below_front (rq_takeoff med) (rq_combined med) i <-> (i < 2)%nat).
  { intros i. split.
    - intros (a & E & _). assert (Z : (i < List.length (elements (rq_takeoff med)))%nat) by (apply nth_error_Some; congruence). rewrite L1 in Z. exact Z.
    - intros L. assert (exists w, nth_error feasible_loads i = Some w /\ small w /\ 0 < w <= wB) as (w & E & SM & W).
      { destruct i as [|[|i]]; [exists wA|exists wB|lia]; (split; [reflexivity|split; [assumption|lra]]). }
      destruct (small_at (loading_list feasible_loads) feasible_loads med i w eq_refl) as (T & _ & SS);
        [intros u [<-|[<-|[]]]; lra|exact E|exact H|]. destruct (SS SM) as (_ & t & C & C10). pose proof (run_bound w W) as (_ & RB).
      destruct (DS i w E SM) as (v & V). exists (run_tw (exp (ld 0)) 1.7 1200 0.06 0.8 0.03 4 w). split; [exact T|]. left. exists v. split; [exact V|].
      destruct (combined_envelope _ _ _ _ _ _ H) as (_ & ENV). destruct (ENV i _ V) as (z1 & z2 & z3 & z4 & z5 & E1 & E2 & E3 & E4 & E5 & [(_ & Q)|(_ & _ & MX)]); [discriminate|].
      rewrite C in E4. injection E4 as <-. specialize (MX t v ltac:(cbn; auto) eq_refl). lra. }
  destruct (mask_total feasible_loads "take-off" rq_takeoff [] med I ND ltac:(cbn; lia) S L1 L2) as (xl & parts & masks & MK).
  { exists 0%nat. apply BF. lia. } { exists 0%nat. apply (DS 0%nat wA eq_refl SA). }
  exists med, xl, parts, masks. split; [exact S|]. split; [exact MK|]. split; [apply self1_axis|]. split; [exact ND|]. split; [congruence|].
  destruct (masks_drawn _ _ _ _ _ _ _ _ _ _ _ _ _ _ _ _ I MK S (self1_axis feasible_loads) ND (eq_trans L1 (eq_sym L2))) as (ijs & F2 & SSQ & STR & COV).
  assert (Q : forall ij, In ij ijs -> ij = (0%nat, 1%nat)).
  { intros [a b] J. destruct (STR _ J) as (LE & AL & NX & PV). cbn [fst snd] in *.
    assert (a < 2)%nat by (apply BF, AL; lia). assert (b < 2)%nat by (apply BF, AL; lia).
    assert (~ (1 + b < 2)%nat) by (intros Z; apply NX, BF, Z). destruct a as [|a]; [f_equal; lia|]. exfalso. apply (PV a eq_refl), BF. lia. }
  destruct (proj1 (COV 0%nat) (proj2 (BF 0%nat) ltac:(lia))) as (ij & J & _).
  destruct F2 as [|ij1 m1 ijs ms M1 F2]; [contradiction|]. rewrite (Q ij1 (or_introl eq_refl)) in M1.
  destruct F2 as [|ij2 m2 ijs ms M2 F2]; [|exfalso].
  - destruct M1 as (a & b & A & B & MA & MB). cbn in A, B. injection A as <-. injection B as <-. destruct m1 as [u v]. cbn [fst snd] in *. subst u.
    destruct MB as [(_ & _ & ->)|(_ & ->)]; reflexivity.
  - inversion SSQ as [|? ? _ FQ]; subst. rewrite Forall_forall in FQ. specialize (FQ ij2 (or_introl eq_refl)).
    rewrite (Q ij1 (or_introl eq_refl)), (Q ij2 (or_intror (or_introl eq_refl))) in FQ. cbn in FQ. lia.
Qed.

(** loadings beyond the turn stall: the front is nowhere defined *)
Lemma heavy_case : exists med d, sensitivity example_ext self1 (loading_list heavy_loads) Ytw = Ok (sens0, med) /\
  List.length (elements (rq_takeoff med)) = List.length (elements (rq_combined med)) /\
  (forall i, ~ below_front (rq_takeoff med) (rq_combined med) i) /\
  propulsionsensitivity_monothetic example_ext self1 (loading_list heavy_loads) Ytw None Xws [] (ShowOne "take-off") false = Ok [d] /\
  propulsionsensitivity_monothetic example_ext self1 (loading_list heavy_loads) Ytw None Xws [] (ShowOne "take-off") true = Err ValueError.
Proof.
  destruct loads_order as (O1 & O2 & O3 & O4 & O5 & SA & SB).
  assert (ND : NoDup heavy_loads) by (apply monotone_nodup; left; apply heavy_ascending).
  destruct (analysis_of heavy_loads) as (med & S & H & _ & DH & DL & DR); [cbn; tauto|cbn; lia|exact ND|].
  assert (I : In ("take-off", rq_takeoff) analysed) by (cbn; auto 6).
  destruct (case_lengths heavy_loads med "take-off" rq_takeoff I ltac:(cbn; lia) H) as (L1 & L2).
  assert (NB : forall i, ~ below_front (rq_takeoff med) (rq_combined med) i).
  { intros i (a & E & Q). assert (Z : (i < List.length (elements (rq_takeoff med)))%nat) by (apply nth_error_Some; congruence). rewrite L1 in Z. cbn in Z.
    assert (exists w, nth_error heavy_loads i = Some w /\ wC <= w) as (w & EW & W).
    { destruct i as [|[|i]]; [exists wC|exists wD|lia]; (split; [reflexivity|lra]). }
    destruct (small_at (loading_list heavy_loads) heavy_loads med i w eq_refl) as (T & _);
      [intros u [<-|[<-|[]]]; lra|exact EW|exact H|]. rewrite T in E. injection E as <-.
    destruct Q as [(v & V & _)|(_ & Q)]; [apply (DH i w EW W); exists v; exact V|]. pose proof (run_pos w ltac:(lra)). lra. }
  destruct (plain_total heavy_loads "take-off" rq_takeoff [] I ND ltac:(cbn; lia)) as (d & D).
  exists med, d. split; [exact S|]. split; [congruence|]. split; [exact NB|]. split; [exact D|].
  destruct (dominating _ _ _ _ None Xws [] _ _ _ _ I S (eq_trans L1 (eq_sym L2)) NB) as (Q & _). exact (Q _ D).
Qed.
