(** Properties C98 and C99: the gas law and total temperature (atmospheres.py:59-65,
    892-905) and the speed of best climb (constraintanalysis.py:1020-1033). *)
From Verif Require Import Base AtmosModel AtmosSpec ConceptModel MethodsModel MethodsSpec MethodsExamples PropulsionSpec GasClimbSpec GasClimbProofs.
Open Scope R_scope.

(** C98: density and pressure obey the gas law, each is the inverse of the other *)
Theorem C98_density : forall p T rho, T <> 0 -> idealgasdens_kgm3 (Fin p) (Fin T) = Fin rho <-> gas_law p rho T.
Proof. exact gas_density. Qed.
Print Assumptions C98_density.
Theorem C98_pressure : forall rho T p, idealgaspress_pa (Fin rho) (Fin T) = Fin p <-> gas_law p rho T.
Proof. exact gas_pressure. Qed.
Print Assumptions C98_pressure.
(** total over static temperature, full recovery *)
Theorem C98_stagnation : forall m, tatbysat (Fin m) (Fin 1) = Fin (stagnation m).
Proof. exact tat_stagnation. Qed.
Print Assumptions C98_stagnation.
(** partial recovery lies between the static temperature and full recovery, and is the linear
    part of it *)
Theorem C98_recovery : forall m r x, tatbysat (Fin m) (Fin r) = Fin x <-> x - 1 = r * (stagnation m - 1).
Proof. exact tat_recovery. Qed.
Print Assumptions C98_recovery.
Theorem C98_range : forall m r x y, 0 <= r <= 1 -> tatbysat (Fin m) (Fin r) = Fin x -> tatbysat (Fin m) (Fin 1) = Fin y -> 1 <= x <= y.
Proof. exact tat_range. Qed.
Print Assumptions C98_range.
Theorem C98_rises : forall m m' r x y, 0 < r -> Rabs m < Rabs m' -> tatbysat (Fin m) (Fin r) = Fin x -> tatbysat (Fin m') (Fin r) = Fin y -> x < y.
Proof. exact tat_mono. Qed.
Print Assumptions C98_rises.
(** the ratios of the thrust models are the static ratios times the isentropic total ratios *)
Theorem C98_ratios : forall tc m p,
  tempratio (Fin tc) (Fin m) = nmul (tempratio (Fin tc) (Fin 0)) (tatbysat (Fin m) (Fin 1)) /\
  pressratio (Fin p) (Fin m) = nmul (pressratio (Fin p) (Fin 0)) (Fin (Rpower (stagnation m) (1.401 / (1.401 - 1)))).
Proof. exact ratios_total. Qed.
Print Assumptions C98_ratios.
Example C98_nonvacuous : idealgasdens_kgm3 (Fin 101325) (Fin 288.15) = Fin (101325 / (287.05287 * 288.15)) /\
  (exists p, idealgaspress_pa (Fin 1.2) (Fin 300) = Fin p /\ 103000 < p < 104000) /\
  tatbysat (Fin 2) (Fin 0.9) = Fin (1 + 0.2005 * 0.9 * 2 ^ 2).
Proof. exact example_gas. Qed.

(** C99: for every wing loading the speed of best climb is the only speed of least power in
    level flight, where induced drag is three times the zero-lift drag *)
Theorem C99_best_climb : forall c w cd0 h rho, has_wing c w -> MethodsSpec.regular w ->
  cdminclean c = Some (Fin cd0) -> 0 < cd0 -> airdens_kgpm3 (designatm c) (VNum (Fin h)) = Ok (VNum (Fin rho)) -> 0 < rho ->
  forall v ws, recastasnpfloatarray v = map Fin ws -> Forall (fun x => 0 < x) ws ->
  exists k Vs, k = 1 / (PI * w_ar w * ((brandt (w_ar w) (rad (w_mt w)) + nita w 0.3) / 2)) /\
    bestclimbspeedprop c v (Fin h) = Ok (answer Vs) /\
    Forall2 (fun x V => least_power cd0 k rho x V /\ k * lift_coefficient rho x V ^ 2 = 3 * cd0) ws Vs.
Proof. exact climb_speeds. Qed.
Print Assumptions C99_best_climb.
(** a drag coefficient that is not given counts as zero and leaves no speed: the division by
    it, a ZeroDivisionError of plain floats, is [NonFin] in this model *)
Theorem C99_no_drag : forall c w h rho, has_wing c w -> MethodsSpec.regular w -> cdminclean c = None ->
  airdens_kgpm3 (designatm c) (VNum (Fin h)) = Ok (VNum (Fin rho)) -> 0 < rho ->
  forall v, exists V, bestclimbspeedprop c v (Fin h) = Ok V /\ Forall (fun x => x = NonFin) (recastasnpfloatarray V).
Proof. exact climb_no_drag. Qed.
Print Assumptions C99_no_drag.
Example C99_nonvacuous : exists rho, let c := example_jet 20 18 in let w := example_wing 20 18 in
  has_wing c w /\ MethodsSpec.regular w /\ cdminclean c = Some (Fin 0.02) /\ 0 < 0.02 /\
  airdens_kgpm3 (designatm c) (VNum (Fin 3000)) = Ok (VNum (Fin rho)) /\ 0 < rho /\
  recastasnpfloatarray (VList [#1000; #2000]) = map Fin [1000; 2000] /\ Forall (fun x => 0 < x) [1000; 2000].
Proof. exact example_climb. Qed.
