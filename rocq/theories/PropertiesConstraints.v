(** The performance constraints: property theorems (C31-C42, C56, C61, C62). *)
From Verif Require Import Base UnitsModel AtmosModel AtmosSpec ConceptModel MethodsModel MethodsSpec MethodsExamples
  ConstraintSpec ConstraintProofs ConstraintProofs2 ConstraintProofs3 ConstraintProofs4
  ConstraintProofs5 ConstraintProofs6 ConstraintProofs7 ConstraintProofs8 ConstraintProofs9 ConstraintProofs10.
Open Scope R_scope.

(** C31: take-off.  [tau w] is the thrust lapse at the lift-off speed of wing loading [w]. *)
Theorem C31_takeoff_balance : forall ext c (map2sl : bool) v ws d h clmax cd cl mu b s (tau : R -> R),
  elements v = map Fin ws -> (forall w, In w ws -> 0 < w) ->
  takeoff_data c d h clmax cd cl mu b -> 0 < d -> 0 < clmax -> cl <> 0 -> air_at c h s ->
  (forall w L, In w ws -> liftoff_speed w (a_rho s) clmax L ->
     if map2sl then lapse ext c true L h (tau w) else tau w = 1) ->
  exists T L : R -> R,
    twrequired_to ext c v map2sl = Ok (results ws T, results ws L, results ws (fun w => L w / sqrt 2)) /\
    forall w, In w ws -> liftoff_speed w (a_rho s) clmax (L w) /\
      exists t, T w = static_factor b * t / tau w /\ ground_run t (L w) d cd cl mu.
Proof. exact takeoff_balance. Qed.
Print Assumptions C31_takeoff_balance.
Theorem C31_pointwise : forall ext c map2sl v1 v2 t1 l1 a1 t2 l2 a2,
  twrequired_to ext c v1 map2sl = Ok (t1, l1, a1) -> twrequired_to ext c v2 map2sl = Ok (t2, l2, a2) ->
  forall i j x, nth_error (elements v1) i = Some x -> nth_error (elements v2) j = Some x ->
  nth_error (elements t1) i = nth_error (elements t2) j /\
  nth_error (elements l1) i = nth_error (elements l2) j /\
  nth_error (elements a1) i = nth_error (elements a2) j /\ nth_error (elements t1) i <> None.
Proof. exact takeoff_pointwise. Qed.
Print Assumptions C31_pointwise.
Theorem C31_missing_groundrun_raises : forall ext c v map2sl, groundrun_m c = None ->
  twrequired_to ext c v map2sl = Err ValueError.
Proof. exact groundrun_missing. Qed.
Print Assumptions C31_missing_groundrun_raises.
Example C31_nonvacuous : takeoff_data jet 1200 0 1.7 0.06 0.8 0.03 4 /\ air_at jet 0 (std_air 0) /\
  exists w tau, 0 < w /\
    forall L, liftoff_speed w (a_rho (std_air 0)) 1.7 L -> lapse example_ext jet true L 0 tau.
Proof. exact takeoff_example. Qed.

(** C32: sustained turn, without a climb weight fraction (see C33). *)
Theorem C32_turn_balance_partial : forall ext c map2sl v ws spd h n b cd0 clm s tau k,
  elements v = map Fin ws -> ws <> [] -> (forall w, In w ws -> 0 < w) ->
  turn_data c spd h n b 1 cd0 -> clmaxclean c = Some (Fin clm) -> 0 < spd -> 0 < b -> air_at c h s ->
  let V := knots spd in
  let q := dyn_press V s in
  lapse ext c map2sl V h tau ->
  (forall w, In w ws -> induced ext c (mach_no V s) (b * w) (n * (b * w) / q) (k w)) ->
  exists T, twrequired_trn ext c v map2sl = Ok (results ws T, results ws (fun w => n * (b * w) / q),
      reverttoscalar (VArr (map (fun w => if Rlt_dec clm (n * (b * w) / q) then NonFin else Fin (T w)) ws))) /\
  forall w, In w ws ->
    (exists t, T w = b * t / tau /\ drag_balance q cd0 (k w) (b * w) n 0 t) /\
    (0 < cd0 -> 0 <= k w -> 0 < tau -> 0 < T w).
Proof. exact turn_balance. Qed.
Print Assumptions C32_turn_balance_partial.
Example C32_nonvacuous : let c := with_climb_fraction jet (Some (Fin 1)) in
  turn_data c 240 2000 1.5 0.92 1 0.02 /\ air_at c 2000 (std_air 2000) /\
  exists w tau k, 0 < w /\ lapse example_ext c true (knots 240) 2000 tau /\
    induced example_ext c (mach_no (knots 240) (std_air 2000)) (0.92 * w)
      (1.5 * (0.92 * w) / dyn_press (knots 240) (std_air 2000)) k.
Proof. exact turn_example. Qed.

Theorem C32_climb_fraction_refuted : forall ext c map2sl v ws spd h n b bc cd0 s tau k,
  elements v = map Fin ws -> ws <> [] -> (forall w, In w ws -> 0 < w) ->
  turn_data c spd h n b bc cd0 -> 0 < spd -> 0 < n -> 0 < b -> bc < 1 -> air_at c h s ->
  let V := knots spd in
  let q := dyn_press V s in
  lapse ext c map2sl V h tau -> 0 < tau ->
  (forall w, In w ws -> induced ext c (mach_no V s) (b * w) (n * (b * w) * bc / q) (k w) /\ 0 < k w) ->
  exists T C F, twrequired_trn ext c v map2sl = Ok (results ws T, C, F) /\
  forall w t, In w ws -> drag_balance q cd0 (k w) (b * w) n 0 t -> T w < b * t / tau.
Proof. exact turn_deficit. Qed.
Print Assumptions C32_climb_fraction_refuted.
Example C32_refuted_nonvacuous : turn_data jet 240 2000 1.5 0.92 0.95 0.02 /\ air_at jet 2000 (std_air 2000) /\
  exists w, 0 < w /\ flown (knots 240) 2000 (0.92 * w) (1.5 * (0.92 * w) * 0.95).
Proof. exact deficit_example. Qed.

(** C33: the turn constraint depends on the climb weight fraction: the lift coefficient
    it reports and checks is never the same for two different climb fractions. *)
Theorem C33_only_turn_fraction_refuted : forall ext c map2sl v ws spd h n b bc bc' cd0 s r r' w,
  elements v = map Fin ws -> turn_data c spd h n b bc cd0 -> 0 < spd -> 0 < n -> 0 < b -> air_at c h s ->
  bc <> bc' -> In w ws -> 0 < w ->
  twrequired_trn ext c v map2sl = Ok r ->
  twrequired_trn ext (with_climb_fraction c (Some (Fin bc'))) v map2sl = Ok r' ->
  elements (snd (fst r)) <> elements (snd (fst r')).
Proof. exact climb_fraction_matters. Qed.
Print Assumptions C33_only_turn_fraction_refuted.
Theorem C33_turn_general : forall ext c map2sl v ws,
  elements v = map Fin ws -> ws <> [] -> (forall w, In w ws -> 0 < w) ->
  forall spd h n b bc cd0 s tau k,
  turn_data c spd h n b bc cd0 -> 0 < spd -> 0 < b -> air_at c h s ->
  let V := knots spd in
  let q := dyn_press V s in
  lapse ext c map2sl V h tau ->
  (forall w, In w ws -> induced ext c (mach_no V s) (b * w) (n * (b * w) * bc / q) (k w)) ->
  let T w := b * (q * (cd0 / (b * w) + k w * (n / q) ^ 2 * (b * w * bc))) / tau in
  let C w := n * (b * w) * bc / q in
  twrequired_trn ext c v map2sl = Ok (results ws T, results ws C,
    reverttoscalar (VArr (map (fun w => feasible c (Fin (T w)) (Fin (C w))) ws))).
Proof. exact turn_general. Qed.
Print Assumptions C33_turn_general.
Example C33_nonvacuous : turn_data jet 240 2000 1.5 0.92 0.95 0.02 /\ air_at jet 2000 (std_air 2000) /\
  forall v map2sl, (exists r, twrequired_trn example_ext jet v map2sl = Ok r) /\
    exists r, twrequired_trn example_ext (with_climb_fraction jet (Some (Fin 0.8))) v map2sl = Ok r.
Proof. exact fraction_example. Qed.

(** C34: climb and cruise satisfy the force balance; the ceiling constraint, which takes
    lift = weight instead of weight * cos(path angle), exceeds it by k x / q sin^2. *)
Theorem C34_climb_balance : forall ext c map2sl v ws,
  elements v = map Fin ws -> ws <> [] -> (forall w, In w ws -> 0 < w) ->
  forall spd rate h b cd0 s s0 tau k,
  climb_data c spd rate h b cd0 -> 0 < spd -> 0 < b -> air_at c h s -> air_at c 0 s0 ->
  let V := true_speed (knots spd) s s0 in
  let roc := true_speed (feet_per_min rate) s s0 in
  Rabs roc <= V -> lapse ext c map2sl V h tau ->
  (forall w, In w ws -> induced ext c (mach_no V s) w (b * w / dyn_press V s) (k w)) ->
  exists T, twrequired_clm ext c v map2sl = Ok (results ws T) /\
  forall w, In w ws ->
    (exists t g, T w = b * t / tau /\ - (PI / 2) <= g <= PI / 2 /\ V * sin g = roc /\
       drag_balance (dyn_press V s) cd0 (k w) (b * w) (cos g) g t) /\
    (0 < cd0 -> 0 <= k w -> 0 <= rate -> 0 < tau -> 0 < T w).
Proof. exact climb_balance. Qed.
Print Assumptions C34_climb_balance.
Theorem C34_cruise_balance : forall ext c map2sl v ws,
  elements v = map Fin ws -> ws <> [] -> (forall w, In w ws -> 0 < w) ->
  forall spd h b ct cd0 s tau k,
  cruise_data c spd h b ct cd0 -> 0 < spd -> 0 < b -> ct <> 0 -> air_at c h s ->
  let V := knots spd in
  lapse ext c map2sl V h tau ->
  (forall w, In w ws -> induced ext c (mach_no V s) w (b * w / dyn_press V s) (k w)) ->
  exists T, twrequired_crs ext c v map2sl = Ok (results ws T) /\
  forall w, In w ws ->
    (exists t, T w = b * t / tau / ct /\ drag_balance (dyn_press V s) cd0 (k w) (b * w) 1 0 t) /\
    (0 < cd0 -> 0 <= k w -> 0 < tau -> 0 < ct -> 0 < T w).
Proof. exact cruise_balance. Qed.
Print Assumptions C34_cruise_balance.
Theorem C34_ceiling_balance_partial : forall ext c map2sl v ws,
  elements v = map Fin ws -> ws <> [] -> (forall w, In w ws -> 0 < w) ->
  forall spd h b cd0 s s0 tau k,
  ceiling_data c spd h b cd0 -> 0 < spd -> 0 < b -> air_at c h s -> air_at c 0 s0 ->
  let V := true_speed (knots spd) s s0 in
  let roc := true_speed (feet_per_min 100) s s0 in
  roc <= V -> lapse ext c map2sl V h tau ->
  (forall w, In w ws -> induced ext c (mach_no V s) w (b * w / dyn_press V s) (k w)) ->
  exists T, twrequired_sec ext c v map2sl = Ok (results ws T) /\
  forall w, In w ws ->
    (exists t g, T w = b * t / tau /\ 0 <= g <= PI / 2 /\ V * sin g = roc /\
       drag_balance (dyn_press V s) cd0 (k w) (b * w) 1 g t /\
       exists t', drag_balance (dyn_press V s) cd0 (k w) (b * w) (cos g) g t' /\
         t - t' = k w * (b * w) / dyn_press V s * sin g ^ 2) /\
    (0 < cd0 -> 0 <= k w -> 0 < tau -> 0 < T w).
Proof. exact ceiling_balance. Qed.
Print Assumptions C34_ceiling_balance_partial.
Theorem C34_ceiling_balance_refuted : forall ext c map2sl v ws spd h b cd0 s s0 tau k,
  elements v = map Fin ws -> ws <> [] -> (forall w, In w ws -> 0 < w) ->
  ceiling_data c spd h b cd0 -> 0 < spd -> 0 < b -> air_at c h s -> air_at c 0 s0 ->
  let V := true_speed (knots spd) s s0 in
  let roc := true_speed (feet_per_min 100) s s0 in
  roc <= V -> lapse ext c map2sl V h tau -> 0 < tau ->
  (forall w, In w ws -> induced ext c (mach_no V s) w (b * w / dyn_press V s) (k w) /\ 0 < k w) ->
  exists T, twrequired_sec ext c v map2sl = Ok (results ws T) /\
  forall w t g, In w ws -> - (PI / 2) <= g <= PI / 2 -> V * sin g = roc ->
    drag_balance (dyn_press V s) cd0 (k w) (b * w) (cos g) g t -> b * t / tau < T w.
Proof. exact ceiling_excess. Qed.
Print Assumptions C34_ceiling_balance_refuted.
Example C34_nonvacuous :
  (climb_data jet 250 1000 1000 0.95 0.02 /\ cruise_data jet 300 6000 0.9 1 0.02 /\
   ceiling_data jet 180 9000 0.85 0.02 /\
   air_at jet 0 (std_air 0) /\ air_at jet 1000 (std_air 1000) /\ air_at jet 6000 (std_air 6000) /\
   air_at jet 9000 (std_air 9000)) /\
  exists w, 0 < w /\
  Rabs (true_speed (feet_per_min 1000) (std_air 1000) (std_air 0)) <= climb_V /\
  true_speed (feet_per_min 100) (std_air 9000) (std_air 0) <= ceiling_V /\
  flown climb_V 1000 w (0.95 * w) /\ flown (knots 300) 6000 w (0.9 * w) /\
  flown ceiling_V 9000 w (0.85 * w).
Proof. exact flight_example. Qed.

(** C35: the entries are the results of the five methods, and the combined one is their
    largest at each wing loading. *)
Theorem C35_combined_is_envelope : forall ext c v fo map2sl r,
  twrequired ext c v fo map2sl = Ok r ->
  let n := List.length (elements (rq_combined r)) in
  (n = List.length (elements (rq_takeoff r)) /\ n = List.length (elements (chosen_turn fo r)) /\
   n = List.length (elements (rq_climb r)) /\ n = List.length (elements (rq_cruise r)) /\
   n = List.length (elements (rq_servceil r))) /\
  forall i x, nth_error (elements (rq_combined r)) i = Some x ->
  exists t u cl cr se,
    nth_error (elements (rq_takeoff r)) i = Some t /\ nth_error (elements (chosen_turn fo r)) i = Some u /\
    nth_error (elements (rq_climb r)) i = Some cl /\ nth_error (elements (rq_cruise r)) i = Some cr /\
    nth_error (elements (rq_servceil r)) i = Some se /\ envelope [t; u; cl; cr; se] x.
Proof. exact combined_envelope. Qed.
Print Assumptions C35_combined_is_envelope.
Theorem C35_entries_are_the_constraints : forall ext c v fo map2sl r,
  twrequired ext c v fo map2sl = Ok r ->
  let ws := VArr (elements v) in
  twrequired_to ext c ws map2sl = Ok (rq_takeoff r, rq_liftoffspeed r, rq_avspeed r) /\
  twrequired_trn ext c ws map2sl = Ok (rq_turn r, rq_turncl r, rq_turnfeasible r) /\
  twrequired_clm ext c ws map2sl = Ok (rq_climb r) /\ twrequired_crs ext c ws map2sl = Ok (rq_cruise r) /\
  twrequired_sec ext c ws map2sl = Ok (rq_servceil r).
Proof. exact entries_are_constraints. Qed.
Print Assumptions C35_entries_are_the_constraints.
Example C35_nonvacuous : forall v fo map2sl, exists r, twrequired example_ext jet v fo map2sl = Ok r.
Proof. exact requirement_example. Qed.

(** C36: each constraint needs its items of the brief; with all of them every method
    succeeds, for every list of wing loadings. *)
Theorem C36_missing_items_raise : forall ext c v map2sl,
  (groundrun_m c = None -> twrequired_to ext c v map2sl = Err ValueError) /\
  (turnspeed_ktas c = None \/ stloadfactor c = None -> twrequired_trn ext c v map2sl = Err ValueError) /\
  (climbspeed_kias c = None \/ climbrate_fpm c = None -> twrequired_clm ext c v map2sl = Err ValueError) /\
  (cruisespeed_ktas c = None \/ cruisealt_m c = None -> twrequired_crs ext c v map2sl = Err ValueError) /\
  (servceil_m c = None \/ secclimbspd_kias c = None -> twrequired_sec ext c v map2sl = Err ValueError).
Proof. exact missing_items. Qed.
Print Assumptions C36_missing_items_raise.
Theorem C36_never_defaulted : forall ext c v fo map2sl r, twrequired ext c v fo map2sl = Ok r ->
  groundrun_m c <> None /\ turnspeed_ktas c <> None /\ stloadfactor c <> None /\ climbspeed_kias c <> None /\
  climbrate_fpm c <> None /\ cruisespeed_ktas c <> None /\ cruisealt_m c <> None /\ servceil_m c <> None /\
  secclimbspd_kias c <> None.
Proof. exact never_defaulted. Qed.
Print Assumptions C36_never_defaulted.
Theorem C36_complete_brief_succeeds : forall ext c map2sl, wing_ok ext c -> engine_ok c -> brief_complete c ->
  forall v fo, exists r, twrequired ext c v fo map2sl = Ok r.
Proof. exact twrequired_ok. Qed.
Print Assumptions C36_complete_brief_succeeds.
Theorem C36_complete_brief_power : forall ext c m map2sl, wing_ok ext c -> engine_ok c -> brief_complete c ->
  forall v fo, exists r, powerrequired ext c v m fo map2sl = Ok r.
Proof. exact powerrequired_ok. Qed.
Print Assumptions C36_complete_brief_power.
Example C36_nonvacuous : wing_ok example_ext jet /\ engine_ok jet /\ brief_complete jet.
Proof. exact complete_example. Qed.

(** C37: the power is thrust times speed over propeller efficiency, and the combined
    power the largest. *)
Theorem C37_power_is_thrust_times_speed : forall ext c v m fo map2sl r eto etn ecl ecr ese vcl hcl vse hse vtn vcr s s' s0,
  etaprop_to c = Some (Fin eto) /\ etaprop_turn c = Some (Fin etn) /\ etaprop_climb c = Some (Fin ecl) /\
  etaprop_cruise c = Some (Fin ecr) /\ etaprop_sec c = Some (Fin ese) ->
  eto <> 0 /\ etn <> 0 /\ ecl <> 0 /\ ecr <> 0 /\ ese <> 0 ->
  climbspeed_kias c = Some (Fin vcl) -> climbalt_m c = Some (Fin hcl) -> air_at c hcl s ->
  secclimbspd_kias c = Some (Fin vse) -> servceil_m c = Some (Fin hse) -> air_at c hse s' -> air_at c 0 s0 ->
  turnspeed_ktas c = Some (Fin vtn) -> cruisespeed_ktas c = Some (Fin vcr) ->
  powerrequired ext c v (Fin m) fo map2sl = Ok r ->
  let sp x := VNum (Fin (knots x)) in
  exists tw kto ktn kcl kcr kse,
    twrequired ext c v fo false = Ok tw /\
    power_corr ext c map2sl (rq_liftoffspeed tw) (pval (rwyelevation_m c)) kto /\
    power_corr ext c map2sl (sp vtn) (pval (turnalt_m c)) ktn /\
    power_corr ext c map2sl (sp (true_speed vcl s s0)) (Fin hcl) kcl /\
    power_corr ext c map2sl (sp vcr) (pval (cruisealt_m c)) kcr /\
    power_corr ext c map2sl (sp (true_speed vse s' s0)) (Fin hse) kse /\
    powers m eto (rq_takeoff tw) (rq_liftoffspeed tw) kto (rq_takeoff r) /\
    powers m etn (rq_turn tw) (sp vtn) ktn (rq_turn r) /\
    powers m etn (rq_turnfeasible tw) (sp vtn) ktn (rq_turnfeasible r) /\
    powers m ecl (rq_climb tw) (sp (true_speed vcl s s0)) kcl (rq_climb r) /\
    powers m ecr (rq_cruise tw) (sp vcr) kcr (rq_cruise r) /\
    powers m ese (rq_servceil tw) (sp (true_speed vse s' s0)) kse (rq_servceil r).
Proof. exact power_balance. Qed.
Print Assumptions C37_power_is_thrust_times_speed.
Theorem C37_combined_is_envelope : forall ext c v m fo map2sl r eto etn ecl ecr ese,
  etaprop_to c = Some (Fin eto) /\ etaprop_turn c = Some (Fin etn) /\ etaprop_climb c = Some (Fin ecl) /\
  etaprop_cruise c = Some (Fin ecr) /\ etaprop_sec c = Some (Fin ese) ->
  eto <> 0 /\ etn <> 0 /\ ecl <> 0 /\ ecr <> 0 /\ ese <> 0 ->
  powerrequired ext c v (Fin m) fo map2sl = Ok r ->
  forall i x, nth_error (elements (rq_combined r)) i = Some x ->
  exists t u cl cr se, nth_error (elements (rq_takeoff r)) i = Some t /\
    nth_error (elements (chosen_turn fo r)) i = Some u /\ nth_error (elements (rq_climb r)) i = Some cl /\
    nth_error (elements (rq_cruise r)) i = Some cr /\ nth_error (elements (rq_servceil r)) i = Some se /\
    envelope [t; u; cl; cr; se] x.
Proof. exact power_envelope. Qed.
Print Assumptions C37_combined_is_envelope.
Example C37_nonvacuous : (etaprop_to jet = Some (Fin 0.45) /\ etaprop_turn jet = Some (Fin 0.85) /\
    etaprop_climb jet = Some (Fin 0.75) /\ etaprop_cruise jet = Some (Fin 0.85) /\ etaprop_sec jet = Some (Fin 0.65)) /\
  air_at jet 0 (std_air 0) /\ air_at jet 1000 (std_air 1000) /\ air_at jet 9000 (std_air 9000) /\
  forall v m fo map2sl, exists r, powerrequired example_ext jet v m fo map2sl = Ok r.
Proof. exact power_example. Qed.

(** C38: for every generic engine, the piston engine included, mapping to sea level
    leaves the power requirement as it is. *)
Theorem C38_sea_level_power_refuted : forall ext c v m fo r r',
  propulsion c = PropFalse \/ (exists s, propulsion c = PropStr s) ->
  powerrequired ext c v m fo false = Ok r -> powerrequired ext c v m fo true = Ok r' ->
  same_requirement r r'.
Proof. exact map2sl_no_effect. Qed.
Print Assumptions C38_sea_level_power_refuted.
Example C38_nonvacuous : let c := example_aircraft 20 18 (-1) (PropStr "piston") (isa 0) in
  forall v m fo map2sl, exists r, powerrequired example_ext c v m fo map2sl = Ok r.
Proof. exact piston_example. Qed.

(** C39: the stall constraint and the stall speed use different sea level densities
    unless the design atmosphere is the standard one. *)
Theorem C39_round_trip : forall c cl v s,
  clmaxclean c = Some (Fin cl) -> vstallclean_kcas c = Some (Fin v) -> 0 < cl -> 0 < v -> air_at c 0 s ->
  exists W, wsmaxcleanstall_pa c = Ok (Fin W) /\ W = dyn_press (knots v) s * cl /\ 0 < W /\
    vstall_kias c (VNum (Fin W)) (ClNum (Fin cl)) = Ok (Fin (v * (0.5144444 * 1.9438445) * sqrt (a_rho s / rho_isa))) /\
    forall m, exists A, smincleanstall_m2 c (Fin m) = Ok (Fin A) /\ A * W = m * gravity.
Proof. exact stall_roundtrip. Qed.
Print Assumptions C39_round_trip.
Theorem C39_standard_day_partial : forall c cl v, designatm c = isa 0 -> clmaxclean c = Some (Fin cl) ->
  vstallclean_kcas c = Some (Fin v) -> 0 < cl -> 0 < v ->
  exists W u, wsmaxcleanstall_pa c = Ok (Fin W) /\ vstall_kias c (VNum (Fin W)) (ClNum (Fin cl)) = Ok (Fin u) /\
    Rabs (u / v - 1) <= 1e-7.
Proof. exact stall_standard. Qed.
Print Assumptions C39_standard_day_partial.
Theorem C39_hot_day_refuted : forall c o cl v, designatm c = isa o -> 0 < o -> clmaxclean c = Some (Fin cl) ->
  vstallclean_kcas c = Some (Fin v) -> 0 < cl -> 0 < v ->
  exists W u, wsmaxcleanstall_pa c = Ok (Fin W) /\ vstall_kias c (VNum (Fin W)) (ClNum (Fin cl)) = Ok (Fin u) /\
    u < v /\ (15 <= o -> u < 0.976 * v).
Proof. exact stall_hot_day. Qed.
Print Assumptions C39_hot_day_refuted.
Theorem C39_stall_speed_equation : forall c cl w, 0 < cl -> 0 <= w ->
  exists u, vstall_kias c (VNum (Fin w)) (ClNum (Fin cl)) = Ok (Fin (u * 1.9438445)) /\ 0 <= u /\
    1 / 2 * rho_isa * u ^ 2 * cl = w.
Proof. exact vstall_value. Qed.
Print Assumptions C39_stall_speed_equation.
Theorem C39_lower_loading_lower_speed : forall c cl w1 w2, 0 < cl -> 0 <= w1 < w2 ->
  exists v1 v2, vstall_kias c (VNum (Fin w1)) (ClNum (Fin cl)) = Ok (Fin v1) /\
    vstall_kias c (VNum (Fin w2)) (ClNum (Fin cl)) = Ok (Fin v2) /\ v1 < v2.
Proof. exact vstall_monotone. Qed.
Print Assumptions C39_lower_loading_lower_speed.
Example C39_nonvacuous : let c := example_aircraft 20 18 4 PropFalse (isa 15) in
  designatm c = isa 15 /\ clmaxclean c = Some (Fin 1.5) /\ vstallclean_kcas c = Some (Fin 110) /\
  exists s, air_at c 0 s.
Proof. exact stall_example. Qed.

(** C40: several wing loadings raise. *)
Theorem C40_stall_of_list_refuted : forall c l clm, List.length (elements l) <> 1%nat ->
  vstall_kias c l clm = Err TypeError.
Proof. exact vstall_list. Qed.
Print Assumptions C40_stall_of_list_refuted.
Example C40_nonvacuous : List.length (elements (VList [Fin 1000; Fin 2000])) <> 1%nat.
Proof. exact two_loadings. Qed.

(** C41: the factor from average to static take-off thrust. *)
Theorem C41_inapplicable_is_one : forall c,
  bpr c = None \/ (exists b, bpr c = Some (Fin b) /\ b <= 1) -> map2static c = Fin 1.
Proof. exact static_inapplicable. Qed.
Print Assumptions C41_inapplicable_is_one.
Theorem C41_range : forall c b, bpr c = Some (Fin b) -> 1 < b ->
  exists f, map2static c = Fin f /\ f = 4 / 3 * (4 + b) / (5 + b) /\ 10 / 9 < f < 4 / 3.
Proof. exact static_applicable. Qed.
Print Assumptions C41_range.
Theorem C41_increasing : forall c c' b b', bpr c = Some (Fin b) -> bpr c' = Some (Fin b') -> b <= b' ->
  exists f f', map2static c = Fin f /\ map2static c' = Fin f' /\ f <= f'.
Proof. exact static_order. Qed.
Print Assumptions C41_increasing.
Example C41_nonvacuous : bpr jet = Some (Fin 4) /\ bpr (example_aircraft 20 18 0.5 PropFalse (isa 0)) = Some (Fin 0.5).
Proof. exact bypass_example. Qed.

(** C42: ground effect. *)
Theorem C42_factor : forall c h, wingheightratio c = Some (Fin h) ->
  exists f, wigfactor c = Fin f /\ f = (16 * h) ^ 2 / (1 + (16 * h) ^ 2) /\ 0 <= f < 1 /\ (f = 0 <-> h = 0) /\
    forall k, 0 <= k -> 0 <= f * k <= k.
Proof. exact wig_value. Qed.
Print Assumptions C42_factor.
Theorem C42_increasing : forall c c' h h', wingheightratio c = Some (Fin h) -> wingheightratio c' = Some (Fin h') ->
  0 <= h < h' -> exists f f', wigfactor c = Fin f /\ wigfactor c' = Fin f' /\ f < f'.
Proof. exact wig_order. Qed.
Print Assumptions C42_increasing.
Example C42_nonvacuous : wingheightratio jet = Some (Fin 0.1).
Proof. exact height_example. Qed.

(** C56: turn radius; [n] is the load factor of the level turn. *)
Theorem C56_turn_radius : forall c v deg, turnspeed_ktas c = Some (Fin v) -> 0 < deg < 90 -> 0 < v ->
  exists r n, bank2turnradius c (Fin deg) = Fin r /\ 0 < r /\
    r * (gravity * tan (deg * PI / 180)) = knots v ^ 2 /\
    n * cos (deg * PI / 180) = 1 /\ r * (gravity * sqrt (n ^ 2 - 1)) = knots v ^ 2.
Proof. exact turn_radius_value. Qed.
Print Assumptions C56_turn_radius.
Theorem C56_decreasing : forall c v d d', turnspeed_ktas c = Some (Fin v) -> 0 < v -> 0 < d < d' -> d' < 90 ->
  exists r r', bank2turnradius c (Fin d) = Fin r /\ bank2turnradius c (Fin d') = Fin r' /\ r' < r.
Proof. exact turn_radius_decreases. Qed.
Print Assumptions C56_decreasing.
Example C56_nonvacuous : turnspeed_ktas jet = Some (Fin 240).
Proof. exact turnspeed_example. Qed.

(** C61: the sea level correction of the engine the concept stands for. *)
Theorem C61_generic_engines : forall c h s, air_at c h s ->
  forall ext b tr g, bpr c = Some (Fin b) -> throttle_r c = Some (Fin tr) -> generic_of b (propulsion c) g ->
  forall V, 0 <= V ->
  propulsion_slcorr ext c (VNum (Fin V)) (Fin h) = Ok (VArr [engine_lapse ext g s (mach_no V s) tr], VArr [Fin 1]).
Proof. exact slcorr_generic. Qed.
Print Assumptions C61_generic_engines.
Theorem C61_decks : forall ext c h s V, air_at c h s -> let m := Fin (mach_no V s) in
  (forall f, propulsion c = PropJet f ->
     propulsion_slcorr ext c (VNum (Fin V)) (Fin h) = Ok (VArr [f m (Fin h)], VArr [Fin 1])) /\
  (forall f, propulsion c = PropTurboprop f ->
     propulsion_slcorr ext c (VNum (Fin V)) (Fin h) = Ok (VArr [Fin 1], VArr [f m (Fin h)])) /\
  (propulsion c = PropElectric ->
     propulsion_slcorr ext c (VNum (Fin V)) (Fin h) = Ok (VNum (Fin 1), VNum (Fin 1))) /\
  (forall rpms alts f, propulsion c = PropPiston rpms alts f -> rpms <> [] ->
     exists top, (In top rpms /\ forall x, In x rpms -> x <= top) /\
     exists l, propulsion_slcorr ext c (VNum (Fin V)) (Fin h) = Ok (VArr [Fin 1], VArr l) /\ l <> [] /\
       forall x, In x l -> x = f (Fin top) (Fin h)).
Proof. exact slcorr_decks. Qed.
Print Assumptions C61_decks.
Theorem C61_unknown_code_raises : forall ext c speed alt b, propulsion c = PropFalse -> bpr c = Some (Fin b) -> b < -3 ->
  propulsion_slcorr ext c speed alt = Err ValueError.
Proof. exact slcorr_rejects. Qed.
Print Assumptions C61_unknown_code_raises.
Theorem C61_jet_with_negative_bypass_raises : forall ext c h s V b,
  propulsion c = PropStr "jet" -> bpr c = Some (Fin b) -> b < 0 -> air_at c h s ->
  propulsion_slcorr ext c (VNum (Fin V)) (Fin h) = Err ValueError.
Proof. exact slcorr_negative_jet. Qed.
Print Assumptions C61_jet_with_negative_bypass_raises.
Example C61_nonvacuous : generic_of 4 (propulsion jet) LowBypass /\
  (let c := example_aircraft 20 18 (-1) PropFalse (isa 0) in generic_of (-1) (propulsion c) Piston) /\
  air_at jet 6000 (std_air 6000).
Proof. exact engine_example. Qed.

(** C62: induced drag by the leading edge suction method. *)
Theorem C62_subsonic : forall ext c w, has_wing c w -> regular w -> forall m a x cl clc,
  0 <= m < 1 -> liftslope_prad ext c (Fin m) = Ok (Fin a) -> a <> 0 -> cruise_cl c x clc -> suction_ok (cl - clc) ->
  induced ext c m x cl (lesm_factor (sonic_le w) m
    (1 / (PI * w_ar w * ((brandt (w_ar w) (rad (w_mt w)) + nita w (Rmin m 0.6)) / 2)))
    (1 / a) (1 / (PI * w_ar w)) (suction clc (cl - clc))).
Proof. exact lesm_subsonic. Qed.
Print Assumptions C62_subsonic.
Theorem C62_transonic : forall ext c w, has_wing c w -> regular w -> forall m a a2 x cl clc,
  1 <= m < sonic_le w -> liftslope_prad ext c (Fin m) = Ok (Fin a) -> a <> 0 ->
  liftslope_prad ext c (Fin (sonic_le w)) = Ok (Fin a2) -> a2 <> 0 ->
  cruise_cl c x clc -> suction_ok (cl - clc) ->
  exists f, parabola (sonic_le w) (1 / (PI * w_ar w)) (1 / a2) f /\
    induced ext c m x cl (lesm_factor (sonic_le w) m
      (1 / (PI * w_ar w * ((brandt (w_ar w) (rad (w_mt w)) + nita w (Rmin m 0.6)) / 2)))
      (1 / a) (f m) (suction clc (cl - clc))).
Proof. exact lesm_transonic. Qed.
Print Assumptions C62_transonic.
Theorem C62_supersonic_leading_edge : forall ext c w, has_wing c w -> regular w -> forall m a x cl clc,
  1 <= m -> sonic_le w <= m -> liftslope_prad ext c (Fin m) = Ok (Fin a) -> a <> 0 ->
  cruise_cl c x clc -> suction_ok (cl - clc) -> induced ext c m x cl (1 / a).
Proof. exact lesm_supersonic. Qed.
Print Assumptions C62_supersonic_leading_edge.
Theorem C62_positive_near_design_point : forall ext c m x cl clc, wing_ok ext c -> 0 <= m < 0.6 -> cruise_cl c x clc ->
  0 <= clc <= 0.3 -> Rabs (cl - clc) <= 0.005 -> exists k, induced ext c m x cl k /\ 0 < k.
Proof. exact induced_slow. Qed.
Print Assumptions C62_positive_near_design_point.
Example C62_nonvacuous : has_wing jet (example_wing 20 18) /\ regular (example_wing 20 18) /\ suction_ok 0.001 /\
  exists x clc a, cruise_cl jet x clc /\ 0 <= clc <= 0.3 /\ liftslope_prad example_ext jet (Fin 0.5) = Ok (Fin a) /\ 0 < a.
Proof. exact suction_example. Qed.
