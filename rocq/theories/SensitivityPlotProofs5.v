(** The sensitivity diagrams: when they can be drawn, and concrete cases. *)
From Coq Require Import Sorted.
From Verif Require Import Base BaseFacts AnalysisFacts UnitsModel AtmosModel AtmosSpec IsaReal IsaProofs AtmosProofs AtmosProofs2 AtmosProofs3 AtmosProofs4
  ConceptModel ConceptSpec MethodsModel MethodsSpec MethodsExamples ConstraintSpec
  SensitivityModel SensitivitySpec SensitivityPlotModel SensitivityPlotSpec ConceptProofs ConceptProofs2 ConceptProofs6 MethodsProofs MethodsProofs2
  ConstraintProofs ConstraintProofs2 ConstraintProofs3 ConstraintProofs4 ConstraintProofs7 ConstraintProofs8 ConstraintProofs9 ConstraintProofs10
  SensitivityProofs SensitivityProofs2 SensitivityProofs3 SensitivityProofs4 SensitivityPlotProofs SensitivityPlotProofs2 SensitivityPlotProofs3 SensitivityPlotProofs4.
Open Scope R_scope.
Open Scope string_scope.

Lemma mapM_nth_num l is' : (forall i, In i is' -> (i < List.length l)%nat) -> exists r, mapM (nth_num l) is' = Ok r.
Proof.
  induction is' as [|i is' IH]; intros H; cbn [mapM]; [eauto|].
  assert (L : (i < List.length l)%nat) by (apply H; left; reflexivity).
  unfold nth_num at 1. destruct (nth_error l i) as [x|] eqn:E; [|apply nth_error_None in E; lia]. cbn [rbind].
  destruct IH as (r & ->); [intros j J; apply H; right; exact J|]. eexists. reflexivity.
Qed.
Lemma where_range m i : In i (where_true m) -> (i < List.length m)%nat.
Proof. intros I. apply where_true_in in I. apply nth_error_Some. congruence. Qed.
Lemma pymaxn_total l : l <> [] -> exists m, pymaxn l = Ok m.
Proof. destruct l; [congruence|]. intros _. eexists. reflexivity. Qed.
Lemma pyminn_total l : l <> [] -> exists m, pyminn l = Ok m.
Proof. destruct l; [congruence|]. intros _. eexists. reflexivity. Qed.
Lemma removelast_incl {A} (l : list A) x : In x (removelast l) -> In x l.
Proof. induction l as [|a l IH]; [auto|]. destruct l; [contradiction|]. cbn [removelast]. intros [->|I]; [left; reflexivity|right; apply IH, I]. Qed.

Section Total.
  Variables (ext : externals) (self : constructed) (wl : val) (x : xvar) (ws xs : list R) (o : option R) (s : sens) (med : requirement) (comb : list num)
    (y : yvar).
  Hypothesis S : sensitivity ext self wl y = Ok (s, med).
  Hypothesis AX : axis self wl x ws xs.
  Hypothesis ND : NoDup xs.
  Hypothesis NE : xs <> [].
  Hypothesis ST : stall_position self x o.
  Hypothesis CC : rq_combined med = VArr comb.
  Hypothesis LC : List.length comb = List.length xs.
  Hypothesis LL : forall cn sel, In (cn, sel) analysed -> exists l, sel med = VArr l /\ l <> [].

  Lemma weight_known : exists m, weight_n (obj self) = Some m.
  Proof. destruct (sensitivity_inv _ _ _ _ _ _ S) as (w & ac & W & _). eauto. Qed.

  Lemma figure_total : exists fg, figure ext self wl y x None = Ok fg.
  Proof.
    unfold figure. rewrite S. cbn [rbind]. cbv zeta. destruct weight_known as (m & W).
    change (recastasnpfloatarray wl) with (elements wl). rewrite (axis_x _ _ _ _ _ AX).
    rewrite W. cbn [pval]. rewrite (proj1 (stall_fg _ _ _ _ ST W)). cbn [rbind].
    assert (exists top, ylim_hi med None = Ok top) as (top & ->).
    { unfold ylim_hi. assert (exists tops, mapM (fun cn => pymaxv (snd cn med)) sensitivityplots_list = Ok tops /\ tops <> []) as (tops & -> & N).
      { destruct (LL "climb" rq_climb ltac:(cbn; auto)) as (l1 & E1 & N1). destruct (LL "cruise" rq_cruise ltac:(cbn; auto)) as (l2 & E2 & N2).
        destruct (LL "servceil" rq_servceil ltac:(cbn; auto)) as (l3 & E3 & N3). destruct (LL "take-off" rq_takeoff ltac:(cbn; auto 6)) as (l4 & E4 & N4).
        destruct (LL "turn" rq_turn ltac:(cbn; auto 7)) as (l5 & E5 & N5).
        destruct (pymaxn_total l1 N1) as (m1 & M1). destruct (pymaxn_total l2 N2) as (m2 & M2). destruct (pymaxn_total l3 N3) as (m3 & M3).
        destruct (pymaxn_total l4 N4) as (m4 & M4). destruct (pymaxn_total l5 N5) as (m5 & M5).
        exists [m1; m2; m3; m4; m5]. split; [|discriminate]. cbn [mapM sensitivityplots_list snd]. rewrite E1, E2, E3, E4, E5. cbn [pymaxv].
        rewrite M1, M2, M3, M4, M5. reflexivity. }
      cbn [rbind]. destruct (pymaxn_total tops N) as (mt & ->). eexists. reflexivity. }
    cbn [rbind]. rewrite CC.
    assert (R0 : forall i, In i (where_true (map isfinite comb)) -> (i < List.length (map Fin xs))%nat).
    { intros i I. apply where_range in I. rewrite map_length in *. lia. }
    destruct (mapM_nth_num (map Fin xs) (removelast (where_true (map isfinite comb)))) as (fx & FX).
    { intros i I. apply R0, removelast_incl, I. }
    rewrite FX. cbn [rbind].
    assert (IN : filter (fun v => negb (existsb (neqb v) fx)) (map Fin xs) <> []).
    { pose proof (where_sorted (map isfinite comb)) as SS. set (feas := where_true (map isfinite comb)) in *.
      assert (exists i p, nth_error xs i = Some p /\ ~ In i (removelast feas)) as (i & p & P & NI).
      { destruct feas as [|f0 fr] eqn:EF.
        - destruct xs as [|p l]; [congruence|]. exists 0%nat, p. split; [reflexivity|]. intros [].
        - rewrite <- EF in *. assert (NZ : feas <> []) by (rewrite EF; discriminate).
          pose proof (last_in feas 0%nat NZ) as LI. pose proof (R0 _ LI) as LR. rewrite map_length in LR.
          destruct (nth_error xs (last feas 0%nat)) as [p|] eqn:P; [|apply nth_error_None in P; lia].
          exists (last feas 0%nat), p. split; [exact P|]. rewrite (removelast_sorted _ SS). tauto. }
      intros Z. assert (I : In (Fin p) (filter (fun v => negb (existsb (neqb v) fx)) (map Fin xs))); [|rewrite Z in I; contradiction].
      apply filter_In. split; [apply in_map, (nth_error_In _ _ P)|]. apply Bool.negb_true_iff, Bool.not_true_iff_false.
      intros EX. apply existsb_exists in EX as (v & V & Q). apply In_nth_error in V as (n & N).
      destruct (mapM_nth_inv _ _ _ _ _ FX N) as (j & J & EJ). apply nth_num_ok in EJ. rewrite nth_error_map in EJ.
      destruct (nth_error xs j) as [pj|] eqn:PJ; [|discriminate]. cbn in EJ. injection EJ as <-. cbn [neqb] in Q. destruct (Reqb_reflect p pj) as [->|]; [|discriminate].
      apply NI. assert (i = j) as -> by (eapply nth_inj; eassumption). eapply nth_error_In, J. }
    destruct (pymaxn_total _ IN) as (m2 & ->). destruct (pyminn_total _ IN) as (m1 & ->). eexists. reflexivity.
  Qed.

  Lemma combined_total labels mask : exists d, propulsionsensitivity_monothetic ext self wl y None x labels (ShowOne "combined") mask = Ok [DCombined d].
  Proof.
    destruct figure_total as (fg & F). unfold propulsionsensitivity_monothetic. rewrite F. cbn [rbind].
    destruct (figure_inv _ _ _ _ _ _ _ F) as (s' & med' & comb' & fx & S' & CC' & _ & M & X & _ & _ & FE & _).
    rewrite S in S'. injection S' as <- <-. rewrite CC in CC'. injection CC' as <-.
    assert (XE : fg_x fg = map Fin xs) by (rewrite X; apply (axis_x _ _ _ _ _ AX)).
    assert (XN : fg_x fg <> []) by (rewrite XE; destruct xs; [congruence|discriminate]).
    assert (XL : List.length (fg_x fg) = List.length xs) by (rewrite XE; apply map_length).
    change (find (fun cn => String.eqb "combined" (fst cn)) sensitivityplots_list) with (@None (string * (requirement -> val))).
    change (String.eqb "combined" "combined") with true. cbv iota.
    assert (exists d, combinedplot fg = Ok d) as (d & ->); [|exists d; reflexivity].
    unfold combinedplot. destruct (pymaxn_total _ XN) as (hi & ->). destruct (pyminn_total _ XN) as (lo & ->). cbn [rbind]. cbv zeta.
    match goal with |- exists d, rbind ?e _ = _ => assert (exists t, e = Ok t) as (t & ->) end.
    { destruct (fg_feas fg) as [|f fr] eqn:EF; [eauto|]. rewrite <- EF in *. assert (NZ : fg_feas fg <> []) by (rewrite EF; discriminate).
      destruct (nth_error (fg_x fg) (last (fg_feas fg) 0%nat)) as [p|] eqn:P; [unfold nth_num; rewrite P; cbn [rbind]; eauto|].
      apply nth_error_None in P. pose proof (last_in (fg_feas fg) 0%nat NZ) as LI. rewrite FE in LI at 2. apply where_range in LI. rewrite map_length in LI. lia. }
    cbn [rbind]. match goal with |- context [let '(_, _) := ?e in _] => destruct e as [u v] end.
    match goal with |- context [mapM (nth_num (fg_x fg)) ?e] => set (ix := e) end.
    assert (IX : forall i, In i ix -> (i < List.length xs)%nat).
    { intros i I. assert (XP : (0 < List.length xs)%nat) by (destruct xs; [congruence|cbn; lia]).
      assert (K : forall i, In i (where_true (map (fun x0 => (v <? x0)%num) (fg_x fg)) ++ where_true (map (fun x0 => (x0 <? u)%num) (fg_x fg)))%list -> (i < List.length xs)%nat).
      { intros j J. apply in_app_or in J as [J|J]; apply where_range in J; rewrite map_length in J; lia. }
      unfold ix in I. destruct (where_true _ ++ where_true _)%list as [|i0 l]; [destruct I as [<-|[]]; exact XP|]. apply K, I. }
    destruct (mapM_nth_num (fg_x fg) ix) as (xf & ->); [intros i I; apply IX in I; lia|]. cbn [rbind].
    rewrite M, CC. cbn [recastasnpfloatarray]. destruct (mapM_nth_num comb ix) as (yf & ->); [intros i I; apply IX in I; lia|]. cbn [rbind]. eauto.
  Qed.
End Total.

Lemma drawn b d p atm prop self ext wl x labels mask s med ws xs o : pyeta p -> construct b d p atm prop = Ok self ->
  sensitivity ext self wl Ytw = Ok (s, med) ->
  (let c := match prop with PropFalse => with_engine (obj self) PropOther | _ => obj self end in wing_ok ext c /\ engine_ok c /\ brief_complete c) ->
  axis self wl x ws xs -> NoDup xs -> (2 <= List.length xs)%nat -> stall_position self x o ->
  exists d, propulsionsensitivity_monothetic ext self wl Ytw None x labels (ShowOne "combined") mask = Ok [DCombined d].
Proof.
  intros PY C S (HW & HE & HB) AX ND L2 ST.
  destruct (nominal_requirement _ _ _ _ _ _ _ _ _ _ _ PY C S) as (w & W & Y). cbn [requirement_of] in Y.
  set (c := match prop with PropFalse => _ | _ => _ end) in *. clearbody c.
  assert (LE : List.length (elements wl) = List.length xs).
  { pose proof (f_equal (@List.length num) (axis_x _ _ _ _ _ AX)) as Q. rewrite map_length in Q. rewrite <- Q.
    destruct x; cbn [x_function]; [reflexivity|rewrite map_length; reflexivity]. }
  assert (N1 : List.length (elements wl) <> 1%nat) by lia.
  pose proof (entries_shape ext c wl med HW HE HB N1 Y) as SH.
  destruct (combined_envelope _ _ _ _ _ _ Y) as ((_ & _ & N3 & _) & _). destruct (SH "climb" rq_climb ltac:(cbn; auto)) as (lc & EC & LC).
  destruct (twrequired_parts _ _ _ _ _ _ Y) as (_ & _ & _ & _ & _ & M).
  assert (exists comb, rq_combined med = VArr comb) as (comb & CC).
  { unfold npmax5 in M. apply rbind_ok in M as (m1 & _ & M). apply rbind_ok in M as (m2 & _ & M). apply rbind_ok in M as (m3 & _ & M).
    rewrite EC in N3. cbn [elements] in N3.
    destruct (rq_combined med) as [z|l|l] eqn:E; [cbn in N3; lia| |eauto]. exfalso. destruct m3, (rq_servceil med); cbn in M; try discriminate.
    destruct (arrmax l0 l1); discriminate. }
  apply (combined_total ext self wl x ws xs o s med comb Ytw); try assumption.
  - intros ->. cbn in L2. lia.
  - rewrite CC, EC in N3. cbn [elements] in N3. lia.
  - intros cn sel I. destruct (SH cn sel I) as (l & E & L). exists l. split; [exact E|]. intros ->. cbn in L. lia.
Qed.

(** ** The example aircraft without ranges *)
Notation bare0 := (bare 1200).
Lemma bare_air h : 0 <= h <= 11000 -> air_at bare0 h (std_air h).
Proof. intros. apply std_air_at; [reflexivity|assumption]. Qed.
Lemma bare_lapse_h V h : 0 <= h <= 11000 -> lapse example_ext bare0 true V h 1.
Proof.
  intros H. pose proof (bare_air h H) as A. unfold lapse. do 2 eexists. split.
  - unfold propulsion_slcorr. cbn [sl_propulsion bare with_run example_aircraft propulsion rbind].
    rewrite (mach1_air bare0 h (std_air h) A V). cbn [rbind recastasnpfloatarray map]. reflexivity.
  - cbv beta iota. split; [lra|]. right. reflexivity.
Qed.
Lemma bare_induced m w cl : 0 <= m < 0.6 -> 0 < w -> 0 <= cl <= 0.005 ->
  w <= 0.005 * dyn_press (knots 300) (std_air 6000) -> exists k, induced example_ext bare0 m w cl k /\ 0 < k.
Proof.
  intros Hm Hw L2 Hc. pose proof (bare_air 6000 ltac:(lra)) as HA.
  set (qc := dyn_press (knots 300) (std_air 6000)) in *. assert (QC : 0 < qc) by lra.
  assert (L1 : 0 <= w * 0.9 / qc <= 0.005).
  { split; [apply Rdiv_le_0_compat; lra|]. apply (Rmult_le_reg_r qc); [exact QC|]. unfold Rdiv. rewrite Rmult_assoc, Rinv_l; lra. }
  apply (induced_slow example_ext bare0 m w cl (w * 0.9 / qc)); [apply bare_ok|exact Hm| |lra|apply Rabs_le; lra].
  right. exists 300, 6000, (std_air 6000), 0.9. repeat split; try exact HA; try apply HA. lra.
Qed.
Definition qmin : R := Rmin (Rmin (dyn_press climb_V (std_air 1000)) (dyn_press (knots 300) (std_air 6000)))
  (Rmin (dyn_press ceiling_V (std_air 9000)) (dyn_press (knots 240) (std_air 2000))).
Lemma qmin_spec : 0 < qmin /\ qmin <= dyn_press climb_V (std_air 1000) /\ qmin <= dyn_press (knots 300) (std_air 6000) /\
  qmin <= dyn_press ceiling_V (std_air 9000) /\ qmin <= dyn_press (knots 240) (std_air 2000).
Proof.
  assert (K : forall x, 0 < x -> 0 < knots x) by (intros; unfold knots; lra).
  pose proof (true_pos_std (knots 250) 1000 (K 250 ltac:(lra))) as P1. pose proof (true_pos_std (knots 180) 9000 (K 180 ltac:(lra))) as P2.
  fold climb_V in P1. fold ceiling_V in P2.
  pose proof (std_q_pos climb_V 1000 P1) as Q1. pose proof (std_q_pos (knots 300) 6000 (K 300 ltac:(lra))) as Q2.
  pose proof (std_q_pos ceiling_V 9000 P2) as Q3. pose proof (std_q_pos (knots 240) 2000 (K 240 ltac:(lra))) as Q4.
  unfold qmin. set (q1 := dyn_press climb_V (std_air 1000)) in *. set (q2 := dyn_press (knots 300) (std_air 6000)) in *.
  set (q3 := dyn_press ceiling_V (std_air 9000)) in *. set (q4 := dyn_press (knots 240) (std_air 2000)) in *.
  pose proof (Rmin_l (Rmin q1 q2) (Rmin q3 q4)). pose proof (Rmin_r (Rmin q1 q2) (Rmin q3 q4)).
  pose proof (Rmin_l q1 q2). pose proof (Rmin_r q1 q2). pose proof (Rmin_l q3 q4). pose proof (Rmin_r q3 q4).
  split; [repeat apply Rmin_glb_lt; assumption|]. lra.
Qed.
Definition small (w : R) : Prop := 0 < w <= 0.002 * qmin.

Lemma choose_k (P : R -> R -> Prop) ws : (forall w, In w ws -> exists k, P w k) -> exists k : R -> R, forall w, In w ws -> P w (k w).
Proof.
  induction ws as [|w ws IH]; intros H; [exists (fun _ => 0); contradiction|].
  destruct (H w (or_introl eq_refl)) as (k0 & K0). destruct IH as (k & K); [intros u U; apply H; right; exact U|].
  exists (fun u => if Req_EM_T u w then k0 else k u). intros u U. destruct (Req_EM_T u w) as [->|N]; [exact K0|].
  apply K. destruct U as [->|U]; [congruence|exact U].
Qed.
Lemma elements_results ws T : elements (results ws T) = map (fun w => Fin (T w)) ws.
Proof. unfold results. apply elements_revert. Qed.

Lemma small_parts wl ws med : elements wl = map Fin ws -> ws <> [] -> (forall w, In w ws -> small w) ->
  twrequired example_ext bare0 wl true true = Ok med ->
  (forall cn sel, In (cn, sel) analysed -> exists T, elements (sel med) = map (fun w => Fin (T w)) ws) /\
  (exists T, elements (rq_cruise med) = map (fun w => Fin (T w)) ws /\ forall w, In w ws -> 10 <= T w) /\
  elements (rq_takeoff med) = map (fun w => Fin (run_tw (exp (ld 0)) 1.7 1200 0.06 0.8 0.03 4 w)) ws /\
  elements (rq_turncl med) = map (fun w => Fin (1.5 * (0.92 * w) * 0.95 / dyn_press (knots 240) (std_air 2000))) ws.
Proof.
  intros EV NE SM H. destruct qmin_spec as (Q0 & Q1 & Q2 & Q3 & Q4).
  destruct (twrequired_parts _ _ _ _ _ _ H) as (M1 & M2 & M3 & M4 & M5 & _). cbv zeta in *.
  assert (EV' : elements (VArr (elements wl)) = map Fin ws) by exact EV.
  assert (HP : forall w, In w ws -> 0 < w) by (intros w I; apply (SM w I)).
  destruct jet_machs as (C1 & C2 & C3 & C4).
  assert (D : forall a x, 0 < x -> 0 <= a <= 0.005 * x -> 0 <= a / x <= 0.005).
  { intros a x Hx Ha. split; [apply Rdiv_le_0_compat; lra|]. apply (Rmult_le_reg_r x); [exact Hx|].
    unfold Rdiv. rewrite Rmult_assoc, Rinv_l; lra. }
  assert (ZC : exists T, elements (rq_climb med) = map (fun w => Fin (T w)) ws).
  { destruct (choose_k (fun w k => induced example_ext bare0 (mach_no climb_V (std_air 1000)) w (0.95 * w / dyn_press climb_V (std_air 1000)) k /\ 0 < k) ws) as (k & K).
    { intros w I. destruct (SM w I). apply bare_induced; [lra|lra|apply D; lra|lra]. }
    destruct (climb_balance example_ext bare0 true (VArr (elements wl)) ws EV' NE HP 250 1000 1000 0.95 0.02 (std_air 1000) (std_air 0) 1 k) as (T & E & _);
      try lra; [repeat split|apply bare_air; lra|apply bare_air; lra| |apply bare_lapse_h; lra|intros w I; apply K, I|].
    { rewrite Rabs_right; [apply true_ratio; unfold feet_per_min, knots; lra|]. left. apply true_pos_std. unfold feet_per_min. lra. }
    rewrite E in M3. injection M3 as <-. exists T. apply elements_results. }
  assert (ZS : exists T, elements (rq_servceil med) = map (fun w => Fin (T w)) ws).
  { destruct (choose_k (fun w k => induced example_ext bare0 (mach_no ceiling_V (std_air 9000)) w (0.85 * w / dyn_press ceiling_V (std_air 9000)) k /\ 0 < k) ws) as (k & K).
    { intros w I. destruct (SM w I). apply bare_induced; [lra|lra|apply D; lra|lra]. }
    destruct (ceiling_balance example_ext bare0 true (VArr (elements wl)) ws EV' NE HP 180 9000 0.85 0.02 (std_air 9000) (std_air 0) 1 k) as (T & E & _);
      try lra; [repeat split|apply bare_air; lra|apply bare_air; lra|apply true_ratio; unfold feet_per_min, knots; lra|apply bare_lapse_h; lra|intros w I; apply K, I|].
    rewrite E in M5. injection M5 as <-. exists T. apply elements_results. }
  assert (ZR : exists T, elements (rq_cruise med) = map (fun w => Fin (T w)) ws /\ forall w, In w ws -> 10 <= T w).
  { destruct (choose_k (fun w k => induced example_ext bare0 (mach_no (knots 300) (std_air 6000)) w (0.9 * w / dyn_press (knots 300) (std_air 6000)) k /\ 0 < k) ws) as (k & K).
    { intros w I. destruct (SM w I). apply bare_induced; [lra|lra|apply D; lra|lra]. }
    destruct (cruise_balance example_ext bare0 true (VArr (elements wl)) ws EV' NE HP 300 6000 0.9 1 0.02 (std_air 6000) 1 k) as (T & E & B);
      try lra; [repeat split|apply bare_air; lra|apply bare_lapse_h; lra|intros w I; apply K, I|].
    rewrite E in M4. injection M4 as <-. exists T. split; [apply elements_results|]. intros w I. destruct (SM w I) as (W0 & W1).
    destruct (B w I) as ((t & -> & BAL) & _). destruct (K w I) as (_ & KP). unfold drag_balance in BAL. rewrite sin_0 in BAL.
    set (q := dyn_press (knots 300) (std_air 6000)) in *.
    assert (0 <= k w * (1 * (0.9 * w) / q) ^ 2) by (apply Rmult_le_pos; [lra|apply pow2_ge_0]).
    assert (0 <= q * (k w * (1 * (0.9 * w) / q) ^ 2)) by (apply Rmult_le_pos; lra).
    assert (0.02 * q <= t * (0.9 * w)) by lra. assert (10 * w <= 0.9 * t * w) by lra.
    replace (0.9 * t / 1 / 1) with (0.9 * t) by field. apply (Rmult_le_reg_r w); lra. }
  assert (ZT : exists T, elements (rq_turn med) = map (fun w => Fin (T w)) ws).
  { destruct (choose_k (fun w k => induced example_ext bare0 (mach_no (knots 240) (std_air 2000)) (0.92 * w) (1.5 * (0.92 * w) * 0.95 / dyn_press (knots 240) (std_air 2000)) k /\ 0 < k) ws) as (k & K).
    { intros w I. destruct (SM w I). apply bare_induced; [lra|lra|apply D; lra|lra]. }
    pose proof (turn_general example_ext bare0 true (VArr (elements wl)) ws EV' NE HP 240 2000 1.5 0.92 0.95 0.02 (std_air 2000) 1 k) as E. cbv zeta in E.
    rewrite E in M2; [|repeat split|lra|lra|apply bare_air; lra|apply bare_lapse_h; lra|intros w I; apply K, I].
    eexists. assert (Q := f_equal (fun r => match r with Ok (a, _, _) => elements a | _ => [] end) M2). cbv beta iota in Q. rewrite <- Q. apply elements_results. }
  assert (ZO : elements (rq_takeoff med) = map (fun w => Fin (run_tw (exp (ld 0)) 1.7 1200 0.06 0.8 0.03 4 w)) ws).
  { rewrite (bare_takeoff 1200 ws wl med ltac:(lra) EV (fun w I => Rlt_le _ _ (HP w I)) H). apply elements_revert. }
  split; [|split; [exact ZR|split; [exact ZO|]]].
  - intros cn sel I. cbn in I. destruct I as [I|[I|[I|[I|[I|[]]]]]]; injection I as <- <-; try assumption.
    + destruct ZR as (T & E & _). eauto.
    + eexists; exact ZO.
  - apply (turn_cl example_ext bare0 true (VArr (elements wl)) ws 240 2000 1.5 0.92 0.95 0.02 (std_air 2000) _ _ _ EV' ltac:(repeat split) ltac:(lra) (bare_air 2000 ltac:(lra)) M2).
Qed.
