(** Concrete aircraft, used only to show that the hypotheses of the property theorems can
    be met. *)
From Verif Require Import Base BaseFacts AtmosModel AtmosSpec IsaReal ConceptModel MethodsModel MethodsSpec
  MethodsProofs MethodsProofs2 MethodsProofs3 MethodsProofs4 MethodsExamples ConstraintSpec ConstraintProofs ConstraintProofs10
  AirworthinessModel AirworthinessSpec AirworthinessProofs AirworthinessProofs2 AirworthinessProofs3.
Open Scope R_scope.

(** the aircraft of MethodsExamples with another wing area and lift coefficient *)
Definition plane (area clmax : R) : concept := {|
  climbalt_m := Some (Fin (1000));
  climbspeed_kias := Some (Fin (250));
  climbrate_fpm := Some (Fin (1000));
  cruisealt_m := Some (Fin (6000));
  cruisespeed_ktas := Some (Fin (300));
  cruisethrustfact := Some (Fin (1));
  servceil_m := Some (Fin (9000));
  secclimbspd_kias := Some (Fin (180));
  vstallclean_kcas := Some (Fin (110));
  groundrun_m := Some (Fin (1200));
  rwyelevation_m := Some (Fin (0));
  to_headwind_kts := Some (Fin (0));
  to_slope_perc := Some (Fin (0));
  turnalt_m := Some (Fin (2000));
  turnspeed_ktas := Some (Fin (240));
  stloadfactor := Some (Fin (1.5));
  aspectratio := Some (Fin (8));
  sweep_le_deg := Some (Fin 20);
  sweep_25_deg := Some (Fin 18);
  sweep_mt_deg := Some (Fin (16));
  roottaperratio := Some (Fin (0.4));
  wingarea_m2 := Some (Fin area);
  wingheightratio := Some (Fin (0.1));
  bpr := Some (Fin 4);
  spooluptime_s := Some (Fin (5));
  totalstaticthrust_n := Some (Fin (40000));
  throttle_r := Some (Fin (1.07));
  weight_n := Some (Fin (100000));
  climb_weight_fraction := Some (Fin (0.95));
  cruise_weight_fraction := Some (Fin (0.9));
  sec_weight_fraction := Some (Fin (0.85));
  turn_weight_fraction := Some (Fin (0.92));
  runwayalpha_deg := Some (Fin (0));
  runwayalpha_max_deg := Some (Fin (12));
  CD0TO := Some (Fin (0.04));
  cdto := Some (Fin (0.06));
  cdminclean := Some (Fin (0.02));
  mu_r := Some (Fin (0.03));
  CL0TO := Some (Fin (0.5));
  clto := Some (Fin (0.8));
  clmaxclean := Some (Fin clmax);
  clminclean := Some (Fin (-1));
  clmaxto := Some (Fin (1.7));
  a_0i := Some (Fin (6.28));
  etaprop_climb := Some (Fin (0.75));
  etaprop_cruise := Some (Fin (0.85));
  etaprop_sec := Some (Fin (0.65));
  etaprop_to := Some (Fin (0.45));
  etaprop_turn := Some (Fin (0.85));
  designatm := isa 0;
  propulsion := PropFalse |}.
(** flown in category [k] at [vc] KEAS at sea level with weight fraction [wf] *)
Definition example_cert (area clmax vc wf : R) (k : cat) : cert :=
  {| acobj := plane area clmax; cruisespeed_keas := Some (Fin vc); category := CStr (names k);
     divespeed_keas := None; maxlevelspeed_keas := None; altitude_m := Fin 0; weightfraction := Fin wf |}.

(** ** density at sea level *)
Lemma sea_density : 1.21 <= a_rho (std_air 0) <= 1.226.
Proof.
  cbn [std_air a_rho]. unfold ld. rewrite layer1 by lra. unfold ld1. rewrite Rmult_0_r, Rplus_0_r.
  assert (E4 : exp (4 * ln 1.048840) = 1.048840 ^ 4).
  { replace (4 * ln 1.048840) with (INR 4 * ln 1.048840) by (simpl; lra).
    rewrite <- (Rpower_pow 4) by lra. reflexivity. }
  replace (4.2558797 * ln 1.048840) with (4 * ln 1.048840 + 0.2558797 * ln 1.048840) by lra. rewrite exp_plus, E4.
  assert (L0 : 0 <= ln 1.048840) by (left; rewrite <- ln_1; apply ln_increasing; lra).
  assert (L1 : ln 1.048840 <= 0.048840) by (pose proof (exp_ineq1_le (ln 1.048840)) as Q; rewrite exp_ln in Q by lra; lra).
  assert (A : 1 <= exp (0.2558797 * ln 1.048840)) by (pose proof (exp_ineq1_le (0.2558797 * ln 1.048840)); nra).
  assert (B : exp (0.2558797 * ln 1.048840) <= 1.0127).
  { pose proof (exp_ineq1_le (- (0.2558797 * ln 1.048840))) as Q. rewrite exp_Ropp in Q.
    pose proof (exp_pos (0.2558797 * ln 1.048840)) as P. set (x := exp (0.2558797 * ln 1.048840)) in *.
    assert (E : x * / x = 1) by (field; lra). set (y := / x) in *.
    assert (Y : 0.9875 <= y) by lra. nra. }
  simpl. nra.
Qed.

(** ** lift slope *)
Lemma mean_positive l : Forall (fun x => 0 < x) l -> l <> [] -> 0 < mean_of l.
Proof.
  intros F N. assert (S : 0 <= fold_right Rplus 0 l /\ (l <> [] -> 0 < fold_right Rplus 0 l)).
  { clear N. induction F as [|x l P F IH]; cbn [fold_right]; [split; [lra|congruence]|]. split; [|intros _]; lra. }
  unfold mean_of. apply Rdiv_lt_0_compat; [apply S, N|]. destruct l; [congruence|]. apply lt_0_INR. cbn. lia.
Qed.
Definition plane_slope (m : R) : R := slope_real (example_wing 20 18) 6.28 (fun _ => 5) m.
Lemma plane_slope_spec area clmax m : 0 <= m -> liftslope_prad example_ext (plane area clmax) (Fin m) = Ok (Fin (plane_slope m)).
Proof.
  intros Hm. destruct example_regular as (R1 & R2 & _).
  apply (liftslope_blend (plane area clmax)); try assumption; [repeat split|reflexivity|lra|]. intros; reflexivity.
Qed.
Lemma plane_slope_transonic m : 0.8 <= m <= 1.3 -> plane_slope m = 5.
Proof.
  intros H. unfold plane_slope, slope_real, weight_trans, weight_sub, weight_sup. rewrite !clamp01_lo by lra. ring.
Qed.
Lemma plane_slope_pos m : 0 <= m <= 1.3 -> 0 < plane_slope m.
Proof.
  intros H. destruct (Rle_dec 0.8 m) as [Q|Q]; [rewrite plane_slope_transonic; lra|].
  destruct example_regular as (R1 & R2 & _).
  destruct (subsonic_real (example_jet 20 18) (example_wing 20 18) 6.28 (example_has_wing 20 18) R1 R2 eq_refl ltac:(lra) m ltac:(lra)) as (_ & F).
  assert (P : 0 < mean_of (subsonic_slopes (example_wing 20 18) 6.28 m)).
  { apply mean_positive; [exact F|discriminate]. }
  unfold plane_slope, slope_real. unfold weight_trans. pose proof (clamp01_range ((0.8 - m) / 0.2)) as W.
  assert (W1 : 0 < weight_sub m).
  { assert (X : 0 < (0.8 - m) / 0.2) by (apply Rdiv_lt_0_compat; lra).
    unfold weight_sub, clamp01. set (x := (0.8 - m) / 0.2) in *. unfold Rmin, Rmax. repeat destruct (Rle_dec _ _); lra. }
  unfold weight_sup. rewrite (clamp01_lo ((m - 1.3) / 0.1)) by lra. fold (weight_sub m) in W.
  assert (0 < weight_sub m * mean_of (subsonic_slopes (example_wing 20 18) 6.28 m)) by (apply Rmult_lt_0_compat; assumption).
  assert (0 <= (1 - weight_sub m - 0) * 5) by (apply Rmult_le_pos; lra). lra.
Qed.

(** ** the flight *)
Definition example_mach (vc : R) : R := mach_no (knots (vc / sqrt (a_rho (std_air 0) / 1.225))) (std_air 0).
Definition example_flight (area clmax vc wf : R) : flight :=
  {| f_weight := 100000; f_area := area; f_aspect := 8; f_taper := 0.4; f_clmax := clmax; f_clmin := -1; f_vc := vc;
     f_alt := 0; f_wf := wf; f_sl := std_air 0; f_air := std_air 0; f_slope := plane_slope (example_mach vc) |}.
Lemma sound_sea : 340 < sound_speed (std_air 0) < 341.
Proof.
  unfold sound_speed. cbn [std_air a_temp]. rewrite std_temp_low by lra. split.
  - rewrite <- (sqrt_pow2 340) by lra. apply sqrt_lt_1; simpl; lra.
  - rewrite <- (sqrt_pow2 341) by lra. apply sqrt_lt_1; simpl; lra.
Qed.
Lemma root_sea : 0.99 < sqrt (a_rho (std_air 0) / 1.225) < 1.001.
Proof.
  pose proof sea_density. set (r := a_rho (std_air 0)) in *. split.
  - rewrite <- (sqrt_pow2 0.99) by lra. apply sqrt_lt_1; simpl; lra.
  - rewrite <- (sqrt_pow2 1.001) by lra. apply sqrt_lt_1; simpl; lra.
Qed.
Lemma example_mach_range vc : 0 < vc <= 560 -> 0.00150 * vc < example_mach vc < 0.0016 * vc.
Proof.
  intros H. unfold example_mach, mach_no. pose proof sound_sea as S. pose proof root_sea as Q.
  set (a := sound_speed _) in *. set (q := sqrt _) in *. unfold knots.
  replace (vc / q * 0.5144444 / a) with (vc * (0.5144444 / (q * a))) by (field; lra).
  assert (P : 336 < q * a < 342) by nra.
  assert (0.00150 < 0.5144444 / (q * a) < 0.0016).
  { split; apply (Rmult_lt_reg_r (q * a)); try lra; unfold Rdiv; rewrite Rmult_assoc, Rinv_l by lra; nra. }
  nra.
Qed.
Lemma example_describes area clmax vc wf k : 0 < area -> 0 < clmax -> 0 < vc <= 560 -> 0 < wf ->
  describes example_ext (example_cert area clmax vc wf k) (example_flight area clmax vc wf).
Proof.
  intros HA HC HV HW. pose proof (example_mach_range vc HV) as M.
  assert (AIR : air_at (plane area clmax) 0 (std_air 0)) by (apply std_air_at; [reflexivity|lra]).
  unfold describes, example_cert, example_flight.
  cbn [acobj cruisespeed_keas altitude_m weightfraction f_weight f_area f_aspect f_taper f_clmax f_clmin f_vc f_alt f_wf f_sl f_air f_slope].
  do 9 (split; [reflexivity|]). do 2 (split; [exact AIR|]).
  split; [apply plane_slope_spec; lra|]. assert (P : 0 < plane_slope (example_mach vc)) by (apply plane_slope_pos; lra).
  repeat split; lra.
Qed.
