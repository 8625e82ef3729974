(** Specifications: the same aeroplane at another weight. *)
From Verif Require Import Base AtmosModel AtmosSpec ConceptModel MethodsModel MethodsSpec ConstraintSpec AirworthinessModel AirworthinessSpec.
Open Scope R_scope.

(** the concept, and the object to be certified, with the weight [w] newtons *)
Definition with_weight (c : concept) (w : R) : concept := {|
  climbalt_m := climbalt_m c; climbspeed_kias := climbspeed_kias c; climbrate_fpm := climbrate_fpm c;
  cruisealt_m := cruisealt_m c; cruisespeed_ktas := cruisespeed_ktas c; cruisethrustfact := cruisethrustfact c;
  servceil_m := servceil_m c; secclimbspd_kias := secclimbspd_kias c; vstallclean_kcas := vstallclean_kcas c;
  groundrun_m := groundrun_m c; rwyelevation_m := rwyelevation_m c; to_headwind_kts := to_headwind_kts c;
  to_slope_perc := to_slope_perc c; turnalt_m := turnalt_m c; turnspeed_ktas := turnspeed_ktas c;
  stloadfactor := stloadfactor c;
  aspectratio := aspectratio c; sweep_le_deg := sweep_le_deg c; sweep_25_deg := sweep_25_deg c;
  sweep_mt_deg := sweep_mt_deg c; roottaperratio := roottaperratio c; wingarea_m2 := wingarea_m2 c;
  wingheightratio := wingheightratio c;
  bpr := bpr c; spooluptime_s := spooluptime_s c; totalstaticthrust_n := totalstaticthrust_n c;
  throttle_r := throttle_r c; weight_n := Some (Fin w);
  climb_weight_fraction := climb_weight_fraction c; cruise_weight_fraction := cruise_weight_fraction c;
  sec_weight_fraction := sec_weight_fraction c; turn_weight_fraction := turn_weight_fraction c;
  runwayalpha_deg := runwayalpha_deg c; runwayalpha_max_deg := runwayalpha_max_deg c;
  CD0TO := CD0TO c; cdto := cdto c; cdminclean := cdminclean c; mu_r := mu_r c;
  CL0TO := CL0TO c; clto := clto c; clmaxclean := clmaxclean c; clminclean := clminclean c; clmaxto := clmaxto c;
  a_0i := a_0i c;
  etaprop_climb := etaprop_climb c; etaprop_cruise := etaprop_cruise c; etaprop_sec := etaprop_sec c;
  etaprop_to := etaprop_to c; etaprop_turn := etaprop_turn c;
  designatm := designatm c; propulsion := propulsion c |}.
Definition weighing (s : cert) (w : R) : cert :=
  {| acobj := with_weight (acobj s) w; cruisespeed_keas := cruisespeed_keas s; category := category s;
     divespeed_keas := divespeed_keas s; maxlevelspeed_keas := maxlevelspeed_keas s;
     altitude_m := altitude_m s; weightfraction := weightfraction s |}.
(** wing loading in lb/ft2 at that weight *)
Definition loading_at (f : flight) (w : R) : R := pounds_per_ft2 (w / f_area f).
(** the second gust load factors are milder than the first: nearer to 1 g, both ways *)
Definition milder (a b : option (num * num)) : Prop :=
  exists u1 d1 u2 d2, a = Some (Fin u1, Fin d1) /\ b = Some (Fin u2, Fin d2) /\ 1 < u2 < u1 /\ d1 < d2 < 1.
