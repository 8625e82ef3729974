(** Theorems of C85: the demonstration plots of the engine decks. *)
From Verif Require Import Base PropulsionModel DemoModel DemoSpec DemoProofs.
Open Scope string_scope.
Open Scope R_scope.

(** C85: the plots of a turboprop show hot thrust, shaft power and fuel consumption on an
    even 1001 by 1001 grid over the range of the table *)
Theorem C85_turboprop (grid : list num -> list num -> list num -> num -> num -> num) (e : string) (d : turboprop) :
  (forall t, tp_thr d = Some t -> draws (tp_demoplot_thrust grid e d) t (grid (tx t) (ty t) (tz t))
    "Mach Number" "Altitude (m)" "Core/hot Thrust (N)" (e ++ " core/hot thrust (N) for Mach number and altitude (m)")) /\
  (forall t, tp_pwr d = Some t -> draws (tp_demoplot_shaftpower grid e d) t (grid (tx t) (ty t) (tz t))
    "Mach Number" "Altitude (m)" "Power (W)" (e ++ " shaft power (W) for Mach Number and altitude (m)")) /\
  (forall t, tp_bsfc d = Some t -> draws (tp_demoplot_bsfc grid e d) t (between_complete grid t)
    "Mach Number" "Altitude (m)" "BSFC (g/(kWh))" (e ++ " BSFC (g/(kWh)) for Mach Number and altitude (m)")).
Proof. exact (turboprop_demo grid e d). Qed.
Print Assumptions C85_turboprop.
Example C85_turboprop_nonvacuous : exists m, tp_demoplot_bsfc demo_grid "Tyne" {| tp_thr := Some demo_table; tp_pwr := Some demo_table; tp_bsfc := Some demo_table |} = Ok (Some m)
  /\ List.length (m_x m) = 1001%nat /\ m_title m = "Tyne BSFC (g/(kWh)) for Mach Number and altitude (m)".
Proof. exact turboprop_case. Qed.

(** C85: the plots of a piston engine *)
Theorem C85_piston (grid : list num -> list num -> list num -> num -> num -> num) (e : string) (d : piston) :
  (forall t, pi_pwr d = Some t -> draws (pi_demoplot_shaftpower grid e d) t (grid (tx t) (ty t) (tz t))
    "Engine Speed (RPM)" "Altitude (m)" "Shaft power (W)" (e ++ " shaft power (W) for Engine speed (RPM) and altitude (m)")) /\
  (forall t, pi_bsfc d = Some t -> draws (pi_demoplot_bsfc grid e d "economy") t (grid (tx t) (ty t) (tz t))
    "Engine Speed (RPM)" "Shaft power (W)" "BSFC (g/(kWh))" (e ++ " BSFC (g/(kWh)) at best economy for Engine speed (RPM) and shaft power (W)")) /\
  (forall t, pi_bsfc_pwr d = Some t -> draws (pi_demoplot_bsfc grid e d "power") t (grid (tx t) (ty t) (tz t))
    "Engine Speed (RPM)" "Shaft power (W)" "BSFC (g/(kWh))" (e ++ " BSFC (g/(kWh)) at best power for Engine speed (RPM) and shaft power (W)")).
Proof. exact (piston_demo grid e d). Qed.
Print Assumptions C85_piston.
Example C85_piston_nonvacuous : exists m, pi_demoplot_bsfc demo_grid "IO-540" {| pi_pwr := None; pi_bsfc := None; pi_bsfc_pwr := Some demo_table |} "power" = Ok (Some m).
Proof. exact piston_case. Qed.

(** C85: the plot of an electric motor *)
Theorem C85_electric (grid : list num -> list num -> list num -> num -> num -> num) (e : string) (d : electric_data) :
  draws (el_demoplot_efficiency grid e (Some d)) (el_tab d) (grid (tx (el_tab d)) (ty (el_tab d)) (tz (el_tab d)))
    "Motor Speed (RPM)" "Torque (Nm)" "Efficiency" (e ++ " efficiency for Motor speed (RPM) and torque (Nm)").
Proof. exact (electric_demo grid e d). Qed.
Print Assumptions C85_electric.
Example C85_electric_nonvacuous : exists m, el_demoplot_efficiency demo_grid "M" (Some {| el_tab := demo_table; el_shaft := []; el_elec := [] |}) = Ok (Some m)
  /\ nth_error (m_x m) 500 = Some (Fin (1/4)).
Proof. exact electric_case. Qed.

(** C85: the plots of a jet engine; the fuel consumption against thrust, or against
    altitude at the thrust available there *)
Theorem C85_jet (grid : list num -> list num -> list num -> num -> num -> num) (e : string) (d : jet) :
  (forall t, jt_thr d = Some t -> draws (jt_demoplot_thrust grid e d) t (grid (tx t) (ty t) (tz t))
    "Mach Number" "Altitude (m)" "Thrust (N)" (e ++ " thrust (N) for Mach number and altitude (m)")) /\
  (forall t s, jt_thr d = Some t -> jt_tsfc d = Some s ->
    draws (jt_demoplot_tsfc grid e d "t_n") s (between_complete grid s)
      "Mach Number" "Thrust (N)" "TSFC (g/(kNs))" (e ++ " TSFC (g/(kNs)) for Mach number and Thrust (N)") /\
    draws (jt_demoplot_tsfc grid e d "alt_m") t (fun mach h => between_complete grid s mach (grid (tx t) (ty t) (tz t) mach h))
      "Mach Number" "Altitude (m)" "TSFC (g/(kNs))" (e ++ " TSFC (g/(kNs)) for Mach number and altitude (m)")).
Proof. exact (jet_demo grid e d). Qed.
Print Assumptions C85_jet.
Example C85_jet_nonvacuous : exists m, jt_demoplot_tsfc demo_grid "J" {| jt_thr := Some demo_table; jt_tsfc := Some demo_table; jt_sl := None; jt_to := None |} "alt_m" = Ok (Some m)
  /\ m_ylabel m = "Altitude (m)".
Proof. exact jet_case. Qed.

(** C85: where the table or the chosen quantity is missing, these plots warn and show
    nothing *)
Theorem C85_warns (grid : list num -> list num -> list num -> num -> num -> num) (e : string) :
  el_demoplot_efficiency grid e None = Ok None /\
  (forall d, jt_thr d = None -> jt_demoplot_thrust grid e d = Ok None) /\
  (forall d y, jt_tsfc d = None -> jt_demoplot_tsfc grid e d y = Ok None) /\
  (forall d, jt_thr d = None -> jt_demoplot_tsfc grid e d "t_n" = Ok None) /\
  (forall d, pi_bsfc d = None -> pi_demoplot_bsfc grid e d "economy" = Ok None) /\
  (forall d, pi_bsfc_pwr d = None -> pi_demoplot_bsfc grid e d "power" = Ok None) /\
  (forall d y, y <> "t_n" -> y <> "alt_m" -> jt_demoplot_tsfc grid e d y = Ok None) /\
  (forall d y, y <> "economy" -> y <> "power" -> pi_demoplot_bsfc grid e d y = Ok None).
Proof. exact (demo_warned grid e). Qed.
Print Assumptions C85_warns.
Example C85_warns_nonvacuous : pi_demoplot_bsfc demo_grid "IO-540" {| pi_pwr := None; pi_bsfc := None; pi_bsfc_pwr := Some demo_table |} "economy" = Ok None.
Proof. reflexivity. Qed.

(** C85, false of the turboprop plots, of the shaft power of a piston engine and of the fuel
    consumption of a jet against altitude: instead of the warning there is an exception *)
Theorem C85_warns_refuted (grid : list num -> list num -> list num -> num -> num -> num) (e : string) :
  (forall d, tp_thr d = None -> tp_demoplot_thrust grid e d = Err AttributeError) /\
  (forall d, tp_pwr d = None -> tp_demoplot_shaftpower grid e d = Err AttributeError) /\
  (forall d, tp_bsfc d = None -> tp_demoplot_bsfc grid e d = Err AttributeError) /\
  (forall d, pi_pwr d = None -> pi_demoplot_shaftpower grid e d = Err AttributeError) /\
  (forall d s, jt_tsfc d = Some s -> jt_thr d = None -> jt_demoplot_tsfc grid e d "alt_m" = Err AttributeError).
Proof. exact (demo_unwarned grid e). Qed.
Print Assumptions C85_warns_refuted.
Example C85_warns_refuted_nonvacuous : tp_demoplot_thrust demo_grid "Tyne" {| tp_thr := None; tp_pwr := Some demo_table; tp_bsfc := None |} = Err AttributeError.
Proof. reflexivity. Qed.
