(** Induced drag by the leading edge suction method. *)
From Verif Require Import Base BaseFacts AnalysisFacts UnitsModel AtmosModel AtmosSpec
  ConceptModel MethodsModel MethodsSpec MethodsProofs MethodsProofs2
  MethodsProofs3 MethodsProofs4 ConstraintSpec ConstraintProofs.
Open Scope R_scope.

Lemma npinterp_clamp x x0 x1 : x0 < x1 ->
  npinterp2 (Fin x) (Fin x0) (Fin x1) (Fin 1) (Fin 0) = Fin (clamp01 ((x1 - x) / (x1 - x0))).
Proof.
  intros H. unfold npinterp2. rewrite !nleb_fin.
  assert (D : forall y, y / (x1 - x0) = y * / (x1 - x0)) by reflexivity.
  assert (I : 0 < / (x1 - x0)) by (apply Rinv_0_lt_compat; lra).
  assert (J : (x1 - x0) * / (x1 - x0) = 1) by (apply Rinv_r; lra).
  destruct (Rleb_reflect x x0) as [A|A].
  - rewrite clamp_hi; [reflexivity|]. rewrite D. nra.
  - destruct (Rleb_reflect x1 x) as [B|B].
    + rewrite clamp_lo; [reflexivity|]. rewrite D. nra.
    + rewrite !nsub_fin. rewrite ndiv_fin by lra. rewrite nmul_fin, nadd_fin. rewrite clamp_mid.
      * apply Fin_eq. field. lra.
      * rewrite D. nra.
Qed.

Lemma suction_fin d clc A C r : cos (0.1 * (d + (1 / 2 * clc ^ 2 + 1 / 4 * clc + 0.22))) <> 0 ->
  y_suction (Fin d) (Fin clc) (Fin A) (Fin C) (Fin r) = Fin (suction_curve clc A C r d).
Proof.
  intros H. unfold y_suction, suction_curve. cbv zeta.
  rewrite npown_fin, !nmul_fin, !nsub_fin, !nmul_fin.
  replace (-0.5 * clc ^ 2 - 0.25 * clc - 0.22) with (- (1 / 2) * clc ^ 2 - 1 / 4 * clc - 0.22) by lra.
  set (k := - (1 / 2) * clc ^ 2 - 1 / 4 * clc - 0.22) in *.
  rewrite nadd_fin, !nsub_fin, nmul_fin, nopp_fin, !nmul_fin, nexp_fin.
  rewrite (ntan_fin (0.1 * (d - k))).
  2:{ replace (d - k) with (d + (1 / 2 * clc ^ 2 + 1 / 4 * clc + 0.22)) by (unfold k; lra). exact H. }
  rewrite nopp_fin, !nmul_fin. reflexivity.
Qed.

Section Lesm.
  Variables (ext : externals) (c : concept) (w : wing).
  Hypothesis HW : has_wing c w.
  Hypothesis HR : regular w.
  Local Notation Ms := (sonic_le w).

  Lemma Ms_ge1 : 1 <= Ms.
  Proof.
    destruct (regular_cos w HR) as (_ & HC & _). pose proof (COS_bound (rad (w_le w))) as CB.
    unfold sonic_le. apply Rmult_le_reg_r with (cos (rad (w_le w))); [exact HC|].
    unfold Rdiv. rewrite Rmult_assoc, Rinv_l; lra.
  Qed.

  Lemma oswald24 m : induceddragfact c (SelInt 24) (Some (Fin m))
    = Ok (Fin (1 / (PI * w_ar w * ((brandt (w_ar w) (rad (w_mt w)) + nita w m) / 2)))).
  Proof.
    pose proof (estimates_ranges w m HR) as (B & N).
    assert (E : mean_of (map (estimate w m) [2%N; 4%N]) = (brandt (w_ar w) (rad (w_mt w)) + nita w m) / 2).
    { unfold mean_of. cbn [map fold_right List.length INR estimate]. lra. }
    rewrite <- E. apply (factor_named c w HW); try assumption; try lia.
    - left; reflexivity.
    - apply named_examples.
    - discriminate.
    - rewrite E. lra.
  Qed.

  Lemma weight_fin m : 0 <= m ->
    (npow (npinterp2 (Fin m) (Fin 0) (Fin Ms) (Fin 1) (Fin 0)) (Fin 0.2))
    = Fin (if Rlt_dec m Ms then Rpower (1 - m / Ms) 0.2 else 0).
  Proof.
    intros Hm. pose proof Ms_ge1 as M1. rewrite npinterp_clamp by lra. rewrite Rminus_0_r.
    assert (D : (Ms - m) / Ms = 1 - m / Ms) by (field; lra). rewrite D.
    assert (P : m / Ms * Ms = m) by (field; lra).
    destruct (Rlt_dec m Ms) as [L|L].
    - rewrite clamp_mid by (split; nra). apply npow_fin. nra.
    - rewrite clamp_lo by nra. cbn [npow lift2]. rewrite (Rltb_false 0 0), (Reqb_true 0 0), (Rltb_true 0 0.2) by lra.
      reflexivity.
  Qed.

  Local Notation cruise_cl := (cruise_cl c).

  Lemma q_nonzero v s h : air_at c h s -> v <> 0 -> dyn_press v s <> 0.
  Proof.
    intros (_ & _ & _ & P & _) N. unfold dyn_press. apply Rgt_not_eq.
    assert (0 < v ^ 2) by (simpl; nra). nra.
  Qed.

  Lemma lesm_eval m a k1 x cl clc : 0 <= m ->
    liftslope_prad ext c (Fin m) = Ok (Fin a) -> a <> 0 ->
    k_full_suction ext c (Fin m) (Fin Ms) (Fin (1 / a)) = Ok (Fin k1) ->
    cruise_cl x clc -> suction_ok (cl - clc) ->
    induced ext c m x cl (lesm_factor Ms m
      (1 / (PI * w_ar w * ((brandt (w_ar w) (rad (w_mt w)) + nita w (Rmin m 0.6)) / 2)))
      (1 / a) k1 (suction clc (cl - clc))).
  Proof.
    intros Hm HS Ha HK HC (S1 & S2). destruct (regular_cos w HR) as (_ & HLE & _).
    unfold induced, lesm.
    assert (E : exists g, (match cruisespeed_ktas c, cruisealt_m c with
      | Some v, Some h => do qcruise <- q_at c (kts2mps v) h;
          Ok (fun w0 => ndiv (nmul w0 (pval (cruise_weight_fraction c))) qcruise)
      | _, _ => Ok (fun _ : num => Fin 0.6) end) = Ok g /\ g (Fin x) = Fin clc).
    { destruct HC as [(N & ->)|(v & h & s & b & Ev & Eh & HA & Nv & Eb & ->)].
      - exists (fun _ => Fin 0.6). split; [|reflexivity]. destruct N as [-> | ->]; [reflexivity|].
        destruct (cruisespeed_ktas c); reflexivity.
      - rewrite Ev, Eh, Eb. unfold kts2mps. rewrite nmul_fin. rewrite (q_air c h s HA). cbn [rbind].
        eexists. split; [reflexivity|]. cbn beta. cbn [pval]. rewrite nmul_fin, ndiv_fin; [reflexivity|].
        apply (q_nonzero _ s h HA). lra. }
    destruct E as (g & Eg & Gx). rewrite Eg. cbn [rbind]. rewrite (w_leE c w HW), ncos_fin.
    rewrite ndiv_fin by lra. fold Ms.
    assert (NM : nmin (Fin m) (Fin 0.6) = Fin (Rmin m 0.6)).
    { unfold nmin. rewrite nltb_fin. unfold Rmin. destruct (Rltb_reflect 0.6 m), (Rle_dec m 0.6); try reflexivity; apply Fin_eq; lra. }
    rewrite NM, oswald24. cbn [rbind]. rewrite HS. cbn [rbind]. rewrite ndiv_fin by exact Ha.
    rewrite HK. cbn [rbind].
    eexists. split; [reflexivity|]. cbv beta zeta. rewrite Gx, nsub_fin.
    rewrite (weight_fin m Hm).
    rewrite suction_fin.
    2:{ replace (cl - clc + (1 / 2 * 0.3 ^ 2 + 1 / 4 * 0.3 + 0.22)) with (cl - clc + 0.34) by lra. exact S1. }
    rewrite suction_fin.
    2:{ replace (cl - clc + (1 / 2 * 0.8 ^ 2 + 1 / 4 * 0.8 + 0.22)) with (cl - clc + 0.74) by lra. exact S2. }
    rewrite npinterp_clamp by lra. nfin. apply Fin_eq. unfold lesm_factor, suction, design_weight.
    replace (0.8 - 0.3) with 0.5 by lra. reflexivity.
  Qed.

  Lemma lesm_subsonic m a x cl clc : 0 <= m < 1 ->
    liftslope_prad ext c (Fin m) = Ok (Fin a) -> a <> 0 -> cruise_cl x clc -> suction_ok (cl - clc) ->
    induced ext c m x cl (lesm_factor Ms m
      (1 / (PI * w_ar w * ((brandt (w_ar w) (rad (w_mt w)) + nita w (Rmin m 0.6)) / 2)))
      (1 / a) (1 / (PI * w_ar w)) (suction clc (cl - clc))).
  Proof.
    intros Hm HS Ha HC HO. apply lesm_eval; try assumption; [lra|].
    unfold k_full_suction. rewrite nltb_fin, (Rltb_true m 1) by lra.
    rewrite (w_arE c w HW), nmul_fin. pose proof PI_RGT_0. destruct HR as (HAR & _).
    rewrite ndiv_fin by nra. reflexivity.
  Qed.

  Lemma lesm_transonic m a a2 x cl clc : 1 <= m < Ms ->
    liftslope_prad ext c (Fin m) = Ok (Fin a) -> a <> 0 ->
    liftslope_prad ext c (Fin Ms) = Ok (Fin a2) -> a2 <> 0 ->
    cruise_cl x clc -> suction_ok (cl - clc) ->
    exists f, parabola Ms (1 / (PI * w_ar w)) (1 / a2) f /\
    induced ext c m x cl (lesm_factor Ms m
      (1 / (PI * w_ar w * ((brandt (w_ar w) (rad (w_mt w)) + nita w (Rmin m 0.6)) / 2)))
      (1 / a) (f m) (suction clc (cl - clc))).
  Proof.
    intros Hm HS Ha HS2 Ha2 HC HO. destruct HR as (HAR & _). pose proof PI_RGT_0.
    set (y1 := 1 / (PI * w_ar w)). set (y2 := 1 / a2).
    set (A := (y2 - y1) / (Ms - 1) ^ 2).
    exists (fun x => A * x ^ 2 + -2 * A * x + (y1 + A)). split.
    - split; [exists A, (-2 * A), (y1 + A); reflexivity|]. split; [lra|]. split.
      + unfold A. field. lra.
      + replace 0 with (A * (2 * 1 + 0) + -2 * A * 1 + 0) by lra.
        apply derivable_pt_lim_plus; [|apply derivable_pt_lim_const].
        apply derivable_pt_lim_plus.
        * apply (derivable_pt_lim_scal (fun x => x ^ 2)). replace (2 * 1 + 0) with (INR 2 * 1 ^ 1) by (cbn; lra).
          apply derivable_pt_lim_pow.
        * apply (derivable_pt_lim_scal (fun x => x)). apply derivable_pt_lim_id.
    - apply lesm_eval; try assumption; [lra|].
      unfold k_full_suction. rewrite !nltb_fin, (Rltb_false m 1), (Rltb_true m Ms) by lra.
      rewrite HS2. cbn [rbind]. rewrite (w_arE c w HW), nmul_fin, !ndiv_fin by (try assumption; nra).
      fold y1 y2. unfold solve_quadratic. rewrite !nsub_fin, !npown_fin. rewrite ndiv_fin.
      2:{ apply pow_nonzero. lra. }
      fold A. rewrite !nmul_fin, !nadd_fin. f_equal. apply Fin_eq. simpl; ring.
  Qed.

  Lemma lesm_supersonic m a x cl clc : 1 <= m -> Ms <= m ->
    liftslope_prad ext c (Fin m) = Ok (Fin a) -> a <> 0 -> cruise_cl x clc -> suction_ok (cl - clc) ->
    induced ext c m x cl (1 / a).
  Proof.
    intros Hm HM HS Ha HC HO.
    assert (K : k_full_suction ext c (Fin m) (Fin Ms) (Fin (1 / a)) = Ok (Fin (1 / a))).
    { unfold k_full_suction. rewrite !nltb_fin, (Rltb_false m 1), (Rltb_false m Ms) by lra. reflexivity. }
    pose proof (lesm_eval m a (1 / a) x cl clc ltac:(lra) HS Ha K HC HO) as E.
    unfold lesm_factor in E. destruct (Rlt_dec m Ms); [lra|].
    match type of E with induced _ _ _ _ _ ?e => replace (1 / a) with e; [exact E|] end.
    match goal with |- ?ko * 0 + _ = _ => generalize ko end. intros ko.
    generalize (suction clc (cl - clc)) (1 / a). intros. ring.
  Qed.
End Lesm.
