(** The gas law, total temperature, and the speed of best climb. *)
From Verif Require Import Base BaseFacts AtmosModel AtmosSpec AtmosProofs AtmosProofs3 ConceptModel MethodsModel MethodsSpec MethodsProofs MethodsExamples PropulsionSpec PropulsionProofs6 GasClimbSpec.
Open Scope R_scope.

Lemma gas_density p T rho : T <> 0 -> idealgasdens_kgm3 (Fin p) (Fin T) = Fin rho <-> gas_law p rho T.
Proof.
  intros H. unfold idealgasdens_kgm3, R_JPKGPK, gas_law. rewrite !ndiv_fin by lra. split.
  - intros E. injection E as <-. field. split; [lra|exact H].
  - intros ->. f_equal. field. split; [lra|exact H].
Qed.
Lemma gas_pressure rho T p : idealgaspress_pa (Fin rho) (Fin T) = Fin p <-> gas_law p rho T.
Proof.
  unfold idealgaspress_pa, R_JPKGPK, gas_law. rewrite !nmul_fin. split; [intros E; injection E as <-; reflexivity|intros ->; reflexivity].
Qed.
Lemma tat_value m r : tatbysat (Fin m) (Fin r) = Fin (1 + 0.2005 * r * m ^ 2).
Proof. unfold tatbysat, GAMMA_DRY_AIR. rewrite nsub_fin, npown_fin, !nmul_fin, nadd_fin. f_equal. lra. Qed.
Lemma tat_stagnation m : tatbysat (Fin m) (Fin 1) = Fin (stagnation m).
Proof. rewrite tat_value. unfold stagnation. f_equal. lra. Qed.
Lemma tat_recovery m r x : tatbysat (Fin m) (Fin r) = Fin x <-> x - 1 = r * (stagnation m - 1).
Proof.
  rewrite tat_value. unfold stagnation. split; [intros E; injection E as <-; lra|]. intros E. f_equal. lra.
Qed.
Lemma tat_range m r x y : 0 <= r <= 1 -> tatbysat (Fin m) (Fin r) = Fin x -> tatbysat (Fin m) (Fin 1) = Fin y -> 1 <= x <= y.
Proof. rewrite !tat_value. intros H E F. injection E as <-. injection F as <-. pose proof (pow2_ge_0 m). nra. Qed.
Lemma tat_mono m m' r x y : 0 < r -> Rabs m < Rabs m' -> tatbysat (Fin m) (Fin r) = Fin x -> tatbysat (Fin m') (Fin r) = Fin y -> x < y.
Proof.
  rewrite !tat_value. intros H L E F. injection E as <-. injection F as <-. apply Rsqr_lt_abs_1 in L. unfold Rsqr in L. cbn [pow]. nra.
Qed.
Lemma ratios_total tc m p : tempratio (Fin tc) (Fin m) = nmul (tempratio (Fin tc) (Fin 0)) (tatbysat (Fin m) (Fin 1)) /\
  pressratio (Fin p) (Fin m) = nmul (pressratio (Fin p) (Fin 0)) (Fin (Rpower (stagnation m) (1.401 / (1.401 - 1)))).
Proof.
  split.
  - rewrite tat_stagnation, !tempratio_real, nmul_fin. f_equal. unfold theta0, stagnation. lra.
  - rewrite !pressratio_real, nmul_fin. f_equal. unfold delta0, stagnation.
    replace (1 + 0.2005 * 0 ^ 2) with 1 by lra. replace (Rpower 1 (1.401 / 0.401)) with 1.
    2: { unfold Rpower. rewrite ln_1, Rmult_0_r, exp_0. reflexivity. }
    replace (1.401 / (1.401 - 1)) with (1.401 / 0.401) by lra.
    replace (1 + (1.401 - 1) / 2 * m ^ 2) with (1 + 0.2005 * m ^ 2) by lra. lra.
Qed.

(** ** The speed of least power *)
Lemma default_k c w : has_wing c w -> MethodsSpec.regular w -> exists k, 0 < k /\ induceddragfact c SelOther None = Ok (Fin k) /\
  k = 1 / (PI * w_ar w * ((brandt (w_ar w) (rad (w_mt w)) + nita w 0.3) / 2)).
Proof.
  intros HW HR. assert (E : induceddragfact c SelOther None = Ok (Fin (1 / (PI * w_ar w * ((brandt (w_ar w) (rad (w_mt w)) + nita w 0.3) / 2))))).
  { assert (P : 0 < (brandt (w_ar w) (rad (w_mt w)) + nita w 0.3) / 2).
    { pose proof (brandt_range w). pose proof (nita_range w 0.3 (proj1 HR)). lra. }
    unfold induceddragfact. cbn [oswaldeff_list rbind]. rewrite (default_factor c w HW HR). cbn [rbind]. rewrite (w_arE c w HW).
    unfold mean_of. cbn [fold_right List.length INR estimate].
    rewrite !nmul_fin. pose proof PI_RGT_0. pose proof (proj1 HR). rewrite ndiv_fin.
    - do 2 f_equal. f_equal. f_equal. lra.
    - apply Rgt_not_eq. apply Rmult_lt_0_compat; [apply Rmult_lt_0_compat; lra|]. lra. }
  exists (1 / (PI * w_ar w * ((brandt (w_ar w) (rad (w_mt w)) + nita w 0.3) / 2))). split; [|split; [exact E|reflexivity]].
  pose proof PI_RGT_0. pose proof (proj1 HR). pose proof (brandt_range w). pose proof (nita_range w 0.3 (proj1 HR)).
  apply Rdiv_lt_0_compat; [lra|]. apply Rmult_lt_0_compat; [apply Rmult_lt_0_compat; lra|]. lra.
Qed.

Definition best (cd0 k rho w : R) : R := sqrt (2 / rho * w * sqrt (k / (3 * cd0))).
Lemma best_fourth cd0 k rho w : 0 < cd0 -> 0 < k -> 0 < rho -> 0 < w ->
  0 < best cd0 k rho w /\ 3 * cd0 * (rho * best cd0 k rho w ^ 2) ^ 2 = k * (2 * w) ^ 2.
Proof.
  intros Hc Hk Hr Hw. unfold best.
  assert (Q : 0 < k / (3 * cd0)) by (apply Rdiv_lt_0_compat; lra).
  pose proof (sqrt_lt_R0 _ Q) as S. assert (0 < 2 / rho) by (apply Rdiv_lt_0_compat; lra).
  assert (P : 0 < 2 / rho * w * sqrt (k / (3 * cd0))) by (repeat apply Rmult_lt_0_compat; lra).
  split; [apply sqrt_lt_R0; exact P|].
  rewrite pow2_sqrt by lra. pose proof (pow2_sqrt (k / (3 * cd0)) ltac:(lra)) as F.
  replace (rho * (2 / rho * w * sqrt (k / (3 * cd0)))) with (2 * w * sqrt (k / (3 * cd0))) by (field; lra).
  rewrite Rpow_mult_distr, F. field. lra.
Qed.
Lemma power_gap cd0 k rho w V V' : 0 < cd0 -> 0 < rho -> 0 < V -> 0 < V' -> 3 * cd0 * (rho * V ^ 2) ^ 2 = k * (2 * w) ^ 2 ->
  level_power cd0 k rho w V' - level_power cd0 k rho w V = / 2 * rho * cd0 / V' * ((V' - V) ^ 2 * (V' ^ 2 + 2 * V' * V + 3 * V ^ 2)).
Proof.
  intros Hc Hr HV HV' E.
  assert (K : forall U, 0 < U -> level_power cd0 k rho w U = / 2 * rho * cd0 * U ^ 3 + (3 * cd0 * (rho * V ^ 2) ^ 2) / (2 * rho * U)).
  { intros U HU. rewrite E. unfold level_power, lift_coefficient. field. lra. }
  rewrite !K by assumption. field. lra.
Qed.
Lemma best_least cd0 k rho w : 0 < cd0 -> 0 < k -> 0 < rho -> 0 < w -> least_power cd0 k rho w (best cd0 k rho w).
Proof.
  intros Hc Hk Hr Hw. destruct (best_fourth cd0 k rho w Hc Hk Hr Hw) as [P E]. split; [exact P|].
  intros V' HV' N. pose proof (power_gap cd0 k rho w _ V' Hc Hr P HV' E) as G.
  set (V := best cd0 k rho w) in *.
  assert (0 < / 2 * rho * cd0 / V' * ((V' - V) ^ 2 * (V' ^ 2 + 2 * V' * V + 3 * V ^ 2))); [|lra].
  apply Rmult_lt_0_compat; [apply Rdiv_lt_0_compat; [|exact HV']; apply Rmult_lt_0_compat; lra|].
  apply Rmult_lt_0_compat; [|nra]. assert (V' - V <> 0) by lra. replace ((V' - V) ^ 2) with (Rsqr (V' - V)) by (unfold Rsqr; ring). apply Rsqr_pos_lt. assumption.
Qed.
Lemma best_third cd0 k rho w : 0 < cd0 -> 0 < k -> 0 < rho -> 0 < w ->
  k * lift_coefficient rho w (best cd0 k rho w) ^ 2 = 3 * cd0.
Proof.
  intros Hc Hk Hr Hw. destruct (best_fourth cd0 k rho w Hc Hk Hr Hw) as [P E]. unfold lift_coefficient.
  set (V := best cd0 k rho w) in *.
  replace (k * (w / (/ 2 * rho * V ^ 2)) ^ 2) with (k * (2 * w) ^ 2 / (rho * V ^ 2) ^ 2) by (field; lra).
  rewrite <- E. field. split; lra.
Qed.

Section Climb.
  Variables (c : concept) (w : wing) (cd0 h rho : R).
  Hypotheses (HW : has_wing c w) (HR : MethodsSpec.regular w) (HC : cdminclean c = Some (Fin cd0)) (Hc : 0 < cd0)
    (HA : airdens_kgpm3 (designatm c) (VNum (Fin h)) = Ok (VNum (Fin rho))) (Hr : 0 < rho).
  Lemma climb_speeds v ws : recastasnpfloatarray v = map Fin ws -> Forall (fun x => 0 < x) ws ->
    exists k Vs, k = 1 / (PI * w_ar w * ((brandt (w_ar w) (rad (w_mt w)) + nita w 0.3) / 2)) /\
      bestclimbspeedprop c v (Fin h) = Ok (answer Vs) /\
      Forall2 (fun x V => least_power cd0 k rho x V /\ k * lift_coefficient rho x V ^ 2 = 3 * cd0) ws Vs.
  Proof.
    intros HV HF. destruct (default_k c w HW HR) as (k & Hk & EK & VK).
    exists k, (map (best cd0 k rho) ws). split; [exact VK|]. split.
    - unfold bestclimbspeedprop. rewrite HV, EK. cbn [rbind]. unfold dens_at. rewrite HA. cbn [rbind as1]. rewrite HC. cbn [pval].
      assert (Q : 0 < k / (3 * cd0)) by (apply Rdiv_lt_0_compat; lra).
      rewrite nmul_fin, !ndiv_fin by lra. rewrite nsqrt_fin by lra. rewrite map_map.
      rewrite (map_ext_in _ (fun x => Fin (best cd0 k rho x))).
      + rewrite <- (map_map (best cd0 k rho) Fin). destruct ws as [|a [|b r]]; reflexivity.
      + intros x Hx. rewrite Forall_forall in HF. specialize (HF x Hx). rewrite !nmul_fin, nsqrt_fin; [reflexivity|].
        pose proof (sqrt_lt_R0 _ Q). assert (0 < 2 / rho) by (apply Rdiv_lt_0_compat; lra).
        apply Rlt_le. repeat apply Rmult_lt_0_compat; lra.
    - clear HV. induction HF as [|x r Hx HF IH]; cbn [map]; constructor; [|exact IH].
      split; [apply best_least|apply best_third]; assumption.
  Qed.
End Climb.

Lemma climb_no_drag c w h rho : has_wing c w -> MethodsSpec.regular w -> cdminclean c = None ->
  airdens_kgpm3 (designatm c) (VNum (Fin h)) = Ok (VNum (Fin rho)) -> 0 < rho ->
  forall v, exists V, bestclimbspeedprop c v (Fin h) = Ok V /\ Forall (fun x => x = NonFin) (recastasnpfloatarray V).
Proof.
  intros HW HR HC HA Hr v. destruct (default_k c w HW HR) as (k & Hk & EK & _).
  unfold bestclimbspeedprop. rewrite EK. cbn [rbind]. unfold dens_at. rewrite HA. cbn [rbind as1]. rewrite HC. cbn [pval].
  eexists. split; [reflexivity|]. rewrite nmul_fin, Rmult_0_r.
  assert (E : ndiv (Fin k) (Fin 0) = NonFin) by (unfold ndiv, lift2; rewrite Reqb_true; reflexivity).
  rewrite E. cbn [nsqrt]. rewrite ndiv_fin by lra. set (l := recastasnpfloatarray v). set (f := fun w0 : num => nsqrt _).
  assert (F : Forall (fun x => x = NonFin) (map f l)).
  { apply Forall_forall. intros x Hx. apply in_map_iff in Hx. destruct Hx as (y & <- & _). unfold f. destruct y; reflexivity. }
  destruct (map f l) as [|a [|b r]]; exact F.
Qed.

(** ** Cases *)
Lemma example_gas : idealgasdens_kgm3 (Fin 101325) (Fin 288.15) = Fin (101325 / (287.05287 * 288.15)) /\
  (exists p, idealgaspress_pa (Fin 1.2) (Fin 300) = Fin p /\ 103000 < p < 104000) /\
  tatbysat (Fin 2) (Fin 0.9) = Fin (1 + 0.2005 * 0.9 * 2 ^ 2).
Proof.
  split; [apply gas_density; [lra|]; unfold gas_law; field; split; lra|]. split; [|apply tat_value].
  eexists. split; [apply gas_pressure; reflexivity|]. lra.
Qed.
Lemma example_climb : exists rho, let c := example_jet 20 18 in let w := example_wing 20 18 in
  has_wing c w /\ MethodsSpec.regular w /\ cdminclean c = Some (Fin 0.02) /\ 0 < 0.02 /\
  airdens_kgpm3 (designatm c) (VNum (Fin 3000)) = Ok (VNum (Fin rho)) /\ 0 < rho /\
  recastasnpfloatarray (VList [#1000; #2000]) = map Fin [1000; 2000] /\ Forall (fun x => 0 < x) [1000; 2000].
Proof.
  destruct (air_below 3000 ltac:(lra)) as (rho & a & A & _ & P & _). exists rho. cbv zeta.
  split; [apply example_has_wing|]. split; [apply example_regular|]. split; [reflexivity|]. split; [lra|].
  split; [exact A|]. split; [exact P|]. split; [reflexivity|]. repeat constructor; lra.
Qed.
