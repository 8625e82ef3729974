(** C103: trends and lower bounds of the thrust to weight constraints. *)
From Coq Require Import String.
From Verif Require Import Base AtmosModel AtmosSpec ConceptModel MethodsModel MethodsSpec MethodsExamples ConstraintSpec IsaReal AtmosProofs2
  ConstraintProofs10 TrendProofs TrendExamples.
Open Scope R_scope.

(** take-off, thrust as installed: a higher wing loading, thinner air, a smaller maximum lift
    coefficient or a shorter ground run each ask for strictly more thrust to weight, and never
    for a lower lift-off speed *)
Theorem C103_takeoff : forall ext1 ext2 c1 c2 w1 w2 d1 d2 h1 h2 clmax1 clmax2 cd cl mu b s1 s2,
  takeoff_data c1 d1 h1 clmax1 cd cl mu b -> takeoff_data c2 d2 h2 clmax2 cd cl mu b -> air_at c1 h1 s1 -> air_at c2 h2 s2 -> cl <> 0 ->
  0 < w1 <= w2 -> a_rho s2 <= a_rho s1 -> 0 < clmax2 <= clmax1 -> 0 < d2 <= d1 ->
  w1 < w2 \/ a_rho s2 < a_rho s1 \/ clmax2 < clmax1 \/ d2 < d1 ->
  exists t1 l1 a1 t2 l2 a2, twrequired_to ext1 c1 (VNum (Fin w1)) false = Ok (VNum (Fin t1), VNum (Fin l1), VNum (Fin a1)) /\
    twrequired_to ext2 c2 (VNum (Fin w2)) false = Ok (VNum (Fin t2), VNum (Fin l2), VNum (Fin a2)) /\ t1 < t2 /\ l1 <= l2.
Proof. exact takeoff_trend. Qed.
Print Assumptions C103_takeoff.
(** hot and high: in the International Standard Atmosphere a hotter day or a higher runway asks
    for strictly more thrust to weight on the same ground run *)
Theorem C103_hot_high : forall ext1 ext2 c1 c2 w d h1 h2 o1 o2 clmax cd cl mu b,
  designatm c1 = isa o1 -> designatm c2 = isa o2 -> takeoff_data c1 d h1 clmax cd cl mu b -> takeoff_data c2 d h2 clmax cd cl mu b ->
  0 < w -> 0 < d -> 0 < clmax -> cl <> 0 -> -100 <= o1 <= o2 -> -5000 <= h1 -> h1 <= h2 -> h2 < 11000 -> o1 < o2 \/ h1 < h2 ->
  exists t1 l1 a1 t2 l2 a2, twrequired_to ext1 c1 (VNum (Fin w)) false = Ok (VNum (Fin t1), VNum (Fin l1), VNum (Fin a1)) /\
    twrequired_to ext2 c2 (VNum (Fin w)) false = Ok (VNum (Fin t2), VNum (Fin l2), VNum (Fin a2)) /\ t1 < t2 /\ l1 <= l2.
Proof. exact hot_high. Qed.
Print Assumptions C103_hot_high.
Example C103_hot_nonvacuous :
  designatm (example_aircraft 20 18 4 PropFalse (isa 0)) = isa 0 /\ designatm (example_aircraft 20 18 4 PropFalse (isa 15)) = isa 15 /\
  takeoff_data (example_aircraft 20 18 4 PropFalse (isa 0)) 1200 0 1.7 0.06 0.8 0.03 4 /\
  takeoff_data (example_aircraft 20 18 4 PropFalse (isa 15)) 1200 0 1.7 0.06 0.8 0.03 4.
Proof. exact hot_case. Qed.
(** least drag: the cruise constraint never asks for less than the weight over the best lift to
    drag ratio, 1/(2 sqrt(CD0 k)), and asks exactly for that where the two drag terms are equal *)
Theorem C103_cruise : forall ext c map2sl v ws,
  elements v = map Fin ws -> ws <> [] -> (forall w, In w ws -> 0 < w) ->
  forall spd h b ct cd0 s tau k,
  cruise_data c spd h b ct cd0 -> 0 < spd -> 0 < b -> 0 < ct -> air_at c h s -> lapse ext c map2sl (knots spd) h tau -> 0 < tau -> 0 <= cd0 ->
  (forall w, In w ws -> induced ext c (mach_no (knots spd) s) w (b * w / dyn_press (knots spd) s) (k w) /\ 0 <= k w) ->
  exists T, twrequired_crs ext c v map2sl = Ok (results ws T) /\ forall w, In w ws ->
    b * (2 * sqrt (cd0 * k w)) / tau / ct <= T w /\
    (T w = b * (2 * sqrt (cd0 * k w)) / tau / ct <-> cd0 = k w * (b * w / dyn_press (knots spd) s) ^ 2).
Proof. exact cruise_least. Qed.
Print Assumptions C103_cruise.
(** the same for a climb, where lift carries only the cosine of the weight *)
Theorem C103_climb : forall ext c map2sl v ws,
  elements v = map Fin ws -> ws <> [] -> (forall w, In w ws -> 0 < w) ->
  forall spd rate h b cd0 s s0 tau k,
  climb_data c spd rate h b cd0 -> 0 < spd -> 0 < b -> air_at c h s -> air_at c 0 s0 ->
  let V := true_speed (knots spd) s s0 in let roc := true_speed (feet_per_min rate) s s0 in
  Rabs roc <= V -> lapse ext c map2sl V h tau -> 0 < tau -> 0 <= cd0 ->
  (forall w, In w ws -> induced ext c (mach_no V s) w (b * w / dyn_press V s) (k w) /\ 0 <= k w) ->
  exists T, twrequired_clm ext c v map2sl = Ok (results ws T) /\ forall w, In w ws ->
    b * (roc / V + 2 * sqrt (1 - (roc / V) ^ 2) * sqrt (cd0 * k w)) / tau <= T w.
Proof. exact climb_least. Qed.
Print Assumptions C103_climb.
(** and for the service ceiling *)
Theorem C103_ceiling : forall ext c map2sl v ws,
  elements v = map Fin ws -> ws <> [] -> (forall w, In w ws -> 0 < w) ->
  forall spd h b cd0 s s0 tau k,
  ceiling_data c spd h b cd0 -> 0 < spd -> 0 < b -> air_at c h s -> air_at c 0 s0 ->
  let V := true_speed (knots spd) s s0 in let roc := true_speed (feet_per_min 100) s s0 in
  roc <= V -> lapse ext c map2sl V h tau -> 0 < tau -> 0 <= cd0 ->
  (forall w, In w ws -> induced ext c (mach_no V s) w (b * w / dyn_press V s) (k w) /\ 0 <= k w) ->
  exists T, twrequired_sec ext c v map2sl = Ok (results ws T) /\ forall w, In w ws ->
    b * (roc / V + 2 * sqrt (cd0 * k w)) / tau <= T w.
Proof. exact ceiling_least. Qed.
Print Assumptions C103_ceiling.
(** and for a turn at load factor n, when the turn is flown at the weight after climb (climb
    weight fraction 1: otherwise C32_climb_fraction_refuted applies) *)
Theorem C103_turn : forall ext c map2sl v ws,
  elements v = map Fin ws -> ws <> [] -> (forall w, In w ws -> 0 < w) ->
  forall spd h n b cd0 s tau k,
  turn_data c spd h n b 1 cd0 -> 0 < spd -> 0 < b -> 0 < n -> air_at c h s -> lapse ext c map2sl (knots spd) h tau -> 0 < tau -> 0 <= cd0 ->
  (forall w, In w ws -> induced ext c (mach_no (knots spd) s) (b * w) (n * (b * w) / dyn_press (knots spd) s) (k w) /\ 0 <= k w) ->
  exists T C F, twrequired_trn ext c v map2sl = Ok (results ws T, C, F) /\ forall w, In w ws ->
    b * (2 * n * sqrt (cd0 * k w)) / tau <= T w.
Proof. exact turn_least. Qed.
Print Assumptions C103_turn.
(** climbing faster at the same speed asks for strictly more thrust, as long as the induced drag
    coefficient is no more than half the lift coefficient *)
Theorem C103_climb_rate : forall ext c1 c2 map2sl w spd rate1 rate2 h b cd0 s s0 tau k,
  0 < w ->
  climb_data c1 spd rate1 h b cd0 -> climb_data c2 spd rate2 h b cd0 -> 0 < spd -> 0 < b -> air_at c1 h s -> air_at c1 0 s0 -> air_at c2 h s -> air_at c2 0 s0 ->
  let V := true_speed (knots spd) s s0 in
  Rabs (true_speed (feet_per_min rate1) s s0) <= V -> Rabs (true_speed (feet_per_min rate2) s s0) <= V ->
  lapse ext c1 map2sl V h tau -> lapse ext c2 map2sl V h tau -> 0 < tau ->
  induced ext c1 (mach_no V s) w (b * w / dyn_press V s) k -> induced ext c2 (mach_no V s) w (b * w / dyn_press V s) k ->
  0 <= k * (b * w / dyn_press V s) <= 1 / 2 -> rate1 < rate2 ->
  exists t1 t2, twrequired_clm ext c1 (VNum (Fin w)) map2sl = Ok (VNum (Fin t1)) /\ twrequired_clm ext c2 (VNum (Fin w)) map2sl = Ok (VNum (Fin t2)) /\ t1 < t2.
Proof. exact climb_trend. Qed.
Print Assumptions C103_climb_rate.
(** concrete aircraft that meet the hypotheses of the lower bounds ([flown] gives a positive lapse
    ratio and a positive induced drag factor) and of the climb trend *)
Example C103_least_nonvacuous :
  (climb_data (example_jet 20 18) 250 1000 1000 0.95 0.02 /\ cruise_data (example_jet 20 18) 300 6000 0.9 1 0.02 /\
   ceiling_data (example_jet 20 18) 180 9000 0.85 0.02 /\
   air_at (example_jet 20 18) 0 (std_air 0) /\ air_at (example_jet 20 18) 1000 (std_air 1000) /\ air_at (example_jet 20 18) 6000 (std_air 6000) /\
   air_at (example_jet 20 18) 9000 (std_air 9000)) /\
  exists w, 0 < w /\
  Rabs (true_speed (feet_per_min 1000) (std_air 1000) (std_air 0)) <= climb_V /\
  true_speed (feet_per_min 100) (std_air 9000) (std_air 0) <= ceiling_V /\
  flown climb_V 1000 w (0.95 * w) /\ flown (knots 300) 6000 w (0.9 * w) /\
  flown ceiling_V 9000 w (0.85 * w).
Proof. exact flight_example. Qed.
Example C103_turn_nonvacuous : let c := with_climb_fraction (example_jet 20 18) (Some (Fin 1)) in
  turn_data c 240 2000 1.5 0.92 1 0.02 /\ air_at c 2000 (std_air 2000) /\
  exists w tau k, 0 < w /\ lapse example_ext c true (knots 240) 2000 tau /\ 0 < tau /\
    induced example_ext c (mach_no (knots 240) (std_air 2000)) (0.92 * w) (1.5 * (0.92 * w) / dyn_press (knots 240) (std_air 2000)) k /\ 0 < k.
Proof. exact turn_least_case. Qed.
Example C103_climb_nonvacuous : exists w tau k, 0 < w /\ 0 < tau /\
  let slow := with_climb_rate (example_jet 20 18) (Some (Fin 500)) in
  climb_data slow 250 500 1000 0.95 0.02 /\ climb_data (example_jet 20 18) 250 1000 1000 0.95 0.02 /\
  air_at slow 1000 (std_air 1000) /\ air_at slow 0 (std_air 0) /\ air_at (example_jet 20 18) 1000 (std_air 1000) /\ air_at (example_jet 20 18) 0 (std_air 0) /\
  Rabs (true_speed (feet_per_min 500) (std_air 1000) (std_air 0)) <= climb_V /\ Rabs (true_speed (feet_per_min 1000) (std_air 1000) (std_air 0)) <= climb_V /\
  lapse example_ext slow true climb_V 1000 tau /\ lapse example_ext (example_jet 20 18) true climb_V 1000 tau /\
  induced example_ext slow (mach_no climb_V (std_air 1000)) w (0.95 * w / dyn_press climb_V (std_air 1000)) k /\
  induced example_ext (example_jet 20 18) (mach_no climb_V (std_air 1000)) w (0.95 * w / dyn_press climb_V (std_air 1000)) k /\
  0 <= k * (0.95 * w / dyn_press climb_V (std_air 1000)) <= 1 / 2.
Proof. exact climb_trend_case. Qed.
