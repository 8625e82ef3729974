(** Concrete concepts, used only to show that the hypotheses of the property theorems
    can be met. *)
From Verif Require Import Base BaseFacts AtmosModel ConceptModel MethodsModel MethodsSpec.
Open Scope R_scope.

(** an aircraft with bypass ratio [byp], engine [p] and design atmosphere [atm]; [le] and
    [qc] are the sweep angles of the leading edge and of the quarter chord line *)
Definition example_aircraft (le qc byp : R) (p : propulsion_t) (atm : atmosphere) : concept := {|
  climbalt_m := Some (Fin (1000));
  climbspeed_kias := Some (Fin (250));
  climbrate_fpm := Some (Fin (1000));
  cruisealt_m := Some (Fin (6000));
  cruisespeed_ktas := Some (Fin (300));
  cruisethrustfact := Some (Fin (1));
  servceil_m := Some (Fin (9000));
  secclimbspd_kias := Some (Fin (180));
  vstallclean_kcas := Some (Fin (110));
  groundrun_m := Some (Fin (1200));
  rwyelevation_m := Some (Fin (0));
  to_headwind_kts := Some (Fin (0));
  to_slope_perc := Some (Fin (0));
  turnalt_m := Some (Fin (2000));
  turnspeed_ktas := Some (Fin (240));
  stloadfactor := Some (Fin (1.5));
  aspectratio := Some (Fin (8));
  sweep_le_deg := Some (Fin le);
  sweep_25_deg := Some (Fin qc);
  sweep_mt_deg := Some (Fin (16));
  roottaperratio := Some (Fin (0.4));
  wingarea_m2 := Some (Fin (30));
  wingheightratio := Some (Fin (0.1));
  bpr := Some (Fin byp);
  spooluptime_s := Some (Fin (5));
  totalstaticthrust_n := Some (Fin (40000));
  throttle_r := Some (Fin (1.07));
  weight_n := Some (Fin (100000));
  climb_weight_fraction := Some (Fin (0.95));
  cruise_weight_fraction := Some (Fin (0.9));
  sec_weight_fraction := Some (Fin (0.85));
  turn_weight_fraction := Some (Fin (0.92));
  runwayalpha_deg := Some (Fin (0));
  runwayalpha_max_deg := Some (Fin (12));
  CD0TO := Some (Fin (0.04));
  cdto := Some (Fin (0.06));
  cdminclean := Some (Fin (0.02));
  mu_r := Some (Fin (0.03));
  CL0TO := Some (Fin (0.5));
  clto := Some (Fin (0.8));
  clmaxclean := Some (Fin (1.5));
  clminclean := Some (Fin (-1));
  clmaxto := Some (Fin (1.7));
  a_0i := Some (Fin (6.28));
  etaprop_climb := Some (Fin (0.75));
  etaprop_cruise := Some (Fin (0.85));
  etaprop_sec := Some (Fin (0.65));
  etaprop_to := Some (Fin (0.45));
  etaprop_turn := Some (Fin (0.85));
  designatm := atm;
  propulsion := p |}.
(** a jet with bypass ratio 4 *)
Definition example_jet (le qc : R) : concept := example_aircraft le qc 4 PropFalse (isa 0).
Definition example_wing (le qc : R) : wing :=
  {| w_ar := 8; w_le := le; w_25 := qc; w_mt := 16; w_taper := 0.4 |}.
(** an interpolator that always answers 5 *)
Definition example_ext : externals := {| cubic := fun _ _ => Ok (Fin 5); tpspline := fun _ _ => Fin 1 |}.

Lemma example_has_wing le qc : has_wing (example_jet le qc) (example_wing le qc).
Proof. repeat split. Qed.
Lemma example_regular : regular (example_wing 20 18) /\ half_ok (example_wing 20 18) /\
  regular (example_wing 60 50) /\ half_ok (example_wing 60 50) /\ sonic_le (example_wing 60 50) = 2.
Proof.
  unfold regular, half_ok, w_half, sonic_le. cbn [w_ar w_le w_25 w_mt example_wing].
  repeat split; try lra. replace (rad 60) with (PI / 3) by (unfold rad; lra). rewrite cos_PI3. lra.
Qed.
