(** Concrete cases that meet the hypotheses of the trends. *)
From Verif Require Import Base BaseFacts AnalysisFacts UnitsModel AtmosModel AtmosSpec IsaReal IsaProofs AtmosProofs
  AtmosProofs2 AtmosProofs4 ConceptModel ConceptProofs MethodsModel MethodsSpec MethodsExamples MethodsProofs MethodsProofs2
  MethodsProofs3 MethodsProofs4 ConstraintSpec ConstraintProofs ConstraintProofs2 ConstraintProofs3 ConstraintProofs4
  ConstraintProofs5 ConstraintProofs6 ConstraintProofs7 ConstraintProofs8 ConstraintProofs9 ConstraintProofs10 TrendProofs.
Open Scope R_scope.

(** a concept with another rate of climb *)
Definition with_climb_rate (c : concept) (r : option num) : concept := {|
  climbalt_m := climbalt_m c; climbspeed_kias := climbspeed_kias c; climbrate_fpm := r;
  cruisealt_m := cruisealt_m c; cruisespeed_ktas := cruisespeed_ktas c; cruisethrustfact := cruisethrustfact c;
  servceil_m := servceil_m c; secclimbspd_kias := secclimbspd_kias c; vstallclean_kcas := vstallclean_kcas c;
  groundrun_m := groundrun_m c; rwyelevation_m := rwyelevation_m c; to_headwind_kts := to_headwind_kts c;
  to_slope_perc := to_slope_perc c; turnalt_m := turnalt_m c; turnspeed_ktas := turnspeed_ktas c;
  stloadfactor := stloadfactor c;
  aspectratio := aspectratio c; sweep_le_deg := sweep_le_deg c; sweep_25_deg := sweep_25_deg c;
  sweep_mt_deg := sweep_mt_deg c; roottaperratio := roottaperratio c; wingarea_m2 := wingarea_m2 c;
  wingheightratio := wingheightratio c;
  bpr := bpr c; spooluptime_s := spooluptime_s c; totalstaticthrust_n := totalstaticthrust_n c;
  throttle_r := throttle_r c; weight_n := weight_n c;
  climb_weight_fraction := climb_weight_fraction c; cruise_weight_fraction := cruise_weight_fraction c;
  sec_weight_fraction := sec_weight_fraction c; turn_weight_fraction := turn_weight_fraction c;
  runwayalpha_deg := runwayalpha_deg c; runwayalpha_max_deg := runwayalpha_max_deg c;
  CD0TO := CD0TO c; cdto := cdto c; cdminclean := cdminclean c; mu_r := mu_r c;
  CL0TO := CL0TO c; clto := clto c; clmaxclean := clmaxclean c; clminclean := clminclean c; clmaxto := clmaxto c;
  a_0i := a_0i c;
  etaprop_climb := etaprop_climb c; etaprop_cruise := etaprop_cruise c; etaprop_sec := etaprop_sec c;
  etaprop_to := etaprop_to c; etaprop_turn := etaprop_turn c;
  designatm := designatm c; propulsion := propulsion c |}.
(** the induced drag factors at one Mach number are bounded *)
Lemma induced_bounded ext c m : wing_ok ext c -> 0 <= m < 0.6 -> exists B, 0 < B /\ forall x cl clc, cruise_cl c x clc -> 0 <= clc <= 0.3 ->
  Rabs (cl - clc) <= 0.005 -> exists k, induced ext c m x cl k /\ 0 < k <= B.
Proof.
  intros (w & a0 & HW & HR & HH & HA & Ha & _) Hm.
  destruct (subsonic_slope_pos ext c w a0 m HW HR HH HA Ha Hm) as (a & L & P).
  exists (Rabs (1 / (PI * w_ar w * ((brandt (w_ar w) (rad (w_mt w)) + nita w (Rmin m 0.6)) / 2))) + Rabs (1 / (PI * w_ar w)) + Rabs (1 / a) + 1).
  split; [repeat (apply Rplus_le_lt_0_compat; [|lra]); repeat apply Rplus_le_le_0_compat; apply Rabs_pos|].
  intros x cl clc HC Hc Hd.
  destruct (suction_small clc (cl - clc) Hc Hd) as (SO & S1 & S2).
  eexists. split; [apply (lesm_subsonic ext c w HW HR m a x cl clc); try assumption; lra|].
  pose proof (Ms_ge1 w HR) as M1. destruct (estimates_ranges w (Rmin m 0.6) HR) as (B1 & B2).
  destruct (regular_cos w HR) as (HAR & _). pose proof PI_RGT_0 as PP.
  unfold lesm_factor. cbv zeta. destruct (Rlt_dec m (sonic_le w)); [|lra].
  assert (X : 0 < 1 - m / sonic_le w <= 1).
  { assert (0 <= m / sonic_le w) by (apply Rdiv_le_0_compat; lra).
    assert (m / sonic_le w < 1) by (apply (Rmult_lt_reg_r (sonic_le w)); [lra|]; unfold Rdiv; rewrite Rmult_assoc, Rinv_l; lra). lra. }
  assert (WT : 0 < Rpower (1 - m / sonic_le w) 0.2 <= 1).
  { split; [apply Rpower_pos|]. apply Rle_trans with (exp 0); [unfold Rpower|rewrite exp_0; lra].
    destruct (Rle_lt_or_eq_dec _ _ (proj2 X)) as [Q|Q]; [|rewrite Q, ln_1, !Rmult_0_r; lra].
    left. apply exp_increasing. assert (ln (1 - m / sonic_le w) < 0) by (rewrite <- ln_1; apply ln_increasing; lra). lra. }
  set (wt := Rpower _ _) in *. set (S := suction clc (cl - clc)) in *.
  assert (K0 : 0 < 1 / a) by (apply Rdiv_lt_0_compat; lra).
  assert (KP : 0 < PI * w_ar w) by (apply Rmult_lt_0_compat; assumption).
  assert (K1 : 0 < 1 / (PI * w_ar w)) by (apply Rdiv_lt_0_compat; lra).
  assert (KE : 0 < PI * w_ar w * ((brandt (w_ar w) (rad (w_mt w)) + nita w (Rmin m 0.6)) / 2)).
  { apply Rmult_lt_0_compat; lra. }
  assert (KO : 0 < 1 / (PI * w_ar w * ((brandt (w_ar w) (rad (w_mt w)) + nita w (Rmin m 0.6)) / 2))).
  { apply Rdiv_lt_0_compat; lra. }
  set (ko := 1 / (PI * w_ar w * ((brandt (w_ar w) (rad (w_mt w)) + nita w (Rmin m 0.6)) / 2))) in *.
  assert (0 < ko * wt) by (apply Rmult_lt_0_compat; lra).
  assert (0 <= (S * (1 / (PI * w_ar w)) + (1 - S) * (1 / a)) * (1 - wt)).
  { apply Rmult_le_pos; [|lra]. apply Rplus_le_le_0_compat; apply Rmult_le_pos; lra. }
  assert (ko * wt <= ko) by nra.
  assert ((S * (1 / (PI * w_ar w)) + (1 - S) * (1 / a)) * (1 - wt) <= 1 / (PI * w_ar w) + 1 / a).
  { set (p := 1 / (PI * w_ar w)) in *. set (rr := 1 / a) in *. apply Rle_trans with (S * p + (1 - S) * rr); [|nra].
    assert (0 <= S * p + (1 - S) * rr) by nra. nra. }
  rewrite !Rabs_right by lra. lra.
Qed.
Notation jet := (example_jet 20 18).
Lemma climb_trend_case : exists w tau k, 0 < w /\ 0 < tau /\
  let slow := with_climb_rate jet (Some (Fin 500)) in
  climb_data slow 250 500 1000 0.95 0.02 /\ climb_data jet 250 1000 1000 0.95 0.02 /\
  air_at slow 1000 (std_air 1000) /\ air_at slow 0 (std_air 0) /\ air_at jet 1000 (std_air 1000) /\ air_at jet 0 (std_air 0) /\
  Rabs (true_speed (feet_per_min 500) (std_air 1000) (std_air 0)) <= climb_V /\ Rabs (true_speed (feet_per_min 1000) (std_air 1000) (std_air 0)) <= climb_V /\
  lapse example_ext slow true climb_V 1000 tau /\ lapse example_ext jet true climb_V 1000 tau /\
  induced example_ext slow (mach_no climb_V (std_air 1000)) w (0.95 * w / dyn_press climb_V (std_air 1000)) k /\
  induced example_ext jet (mach_no climb_V (std_air 1000)) w (0.95 * w / dyn_press climb_V (std_air 1000)) k /\
  0 <= k * (0.95 * w / dyn_press climb_V (std_air 1000)) <= 1 / 2.
Proof.
  assert (K : forall x, 0 < x -> 0 < knots x) by (intros; unfold knots; lra).
  pose proof (true_pos_std (knots 250) 1000 (K 250 ltac:(lra))) as P1. fold climb_V in P1. destruct jet_machs as (M1 & _).
  pose proof (std_q_pos climb_V 1000 P1) as Q1. pose proof (std_q_pos (knots 300) 6000 (K 300 ltac:(lra))) as Q2.
  set (q1 := dyn_press climb_V (std_air 1000)) in *. set (q2 := dyn_press (knots 300) (std_air 6000)) in *.
  destruct (induced_bounded example_ext jet (mach_no climb_V (std_air 1000)) (jet_wing _ _ _) ltac:(lra)) as (B & BP & H).
  assert (IB : 0 < / (1 + B) <= 1) by (split; [apply Rinv_0_lt_compat; lra|rewrite <- Rinv_1 at 2; apply Rinv_le_contravar; lra]).
  assert (IM : / (1 + B) * (1 + B) = 1) by (apply Rinv_l; lra).
  set (w := 0.002 * Rmin q1 q2 * / (1 + B)).
  assert (HM : 0 < Rmin q1 q2 /\ Rmin q1 q2 <= q1 /\ Rmin q1 q2 <= q2) by (split; [apply Rmin_glb_lt; assumption|split; [apply Rmin_l|apply Rmin_r]]).
  set (q := Rmin q1 q2) in *.
  assert (W0 : 0 < w) by (unfold w; apply Rmult_lt_0_compat; lra). assert (W1 : w <= 0.002 * q) by (unfold w; nra).
  assert (W2 : w * B <= 0.002 * q) by (unfold w; replace (0.002 * q * / (1 + B) * B) with (0.002 * q * (1 - / (1 + B))) by (field; lra); nra).
  assert (HA : air_at jet 6000 (std_air 6000)) by (apply std_air_at; [reflexivity|lra]).
  assert (L1 : 0 <= w * 0.9 / q2 <= 0.005).
  { split; [apply Rdiv_le_0_compat; lra|]. apply (Rmult_le_reg_r q2); [lra|]. unfold Rdiv. rewrite Rmult_assoc, Rinv_l; lra. }
  assert (L2 : 0 <= 0.95 * w / q1 <= 0.005).
  { split; [apply Rdiv_le_0_compat; lra|]. apply (Rmult_le_reg_r q1); [lra|]. unfold Rdiv. rewrite Rmult_assoc, Rinv_l; lra. }
  destruct (H w (0.95 * w / q1) (w * 0.9 / q2)) as (k & I & KP).
  { right. exists 300, 6000, (std_air 6000), 0.9. repeat split; try exact HA; try apply HA. lra. }
  { lra. }
  { apply Rabs_le. lra. }
  destruct (jet_lapse climb_V 1000 ltac:(lra) ltac:(lra) M1) as (tau & T & TP).
  exists w, tau, k. split; [exact W0|]. split; [exact TP|]. cbv zeta. split; [repeat split|]. split; [repeat split|].
  split; [apply std_air_at; [reflexivity|lra]|]. split; [apply std_air_at; [reflexivity|lra]|]. split; [apply jet_air; lra|]. split; [apply jet_air; lra|].
  split; [rewrite Rabs_right; [apply true_ratio; unfold feet_per_min, knots; lra|left; apply true_pos_std; unfold feet_per_min; lra]|].
  split; [rewrite Rabs_right; [apply true_ratio; unfold feet_per_min, knots; lra|left; apply true_pos_std; unfold feet_per_min; lra]|].
  split; [exact T|]. split; [exact T|]. split; [exact I|]. split; [exact I|]. split; [apply Rmult_le_pos; lra|].
  apply Rle_trans with (B * (0.95 * w / q1)); [apply Rmult_le_compat_r; lra|]. apply (Rmult_le_reg_r q1); [lra|].
  replace (B * (0.95 * w / q1) * q1) with (0.95 * (w * B)) by (field; lra). lra.
Qed.
Lemma hot_case : designatm (example_aircraft 20 18 4 PropFalse (isa 0)) = isa 0 /\ designatm (example_aircraft 20 18 4 PropFalse (isa 15)) = isa 15 /\
  takeoff_data (example_aircraft 20 18 4 PropFalse (isa 0)) 1200 0 1.7 0.06 0.8 0.03 4 /\ takeoff_data (example_aircraft 20 18 4 PropFalse (isa 15)) 1200 0 1.7 0.06 0.8 0.03 4.
Proof. repeat split. Qed.
Lemma turn_least_case : let c := with_climb_fraction jet (Some (Fin 1)) in
  turn_data c 240 2000 1.5 0.92 1 0.02 /\ air_at c 2000 (std_air 2000) /\
  exists w tau k, 0 < w /\ lapse example_ext c true (knots 240) 2000 tau /\ 0 < tau /\
    induced example_ext c (mach_no (knots 240) (std_air 2000)) (0.92 * w) (1.5 * (0.92 * w) / dyn_press (knots 240) (std_air 2000)) k /\ 0 < k.
Proof.
  intros c. split; [repeat split|]. split; [apply std_air_at; [reflexivity|lra]|].
  destruct jet_cases as (w & W & _ & _ & _ & _ & _ & ((tau & T & TP) & (k & K & KP)) & _).
  exists w, tau, k. repeat (split; [assumption|]). assumption.
Qed.
