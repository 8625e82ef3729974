(** C104: atmospheres made from the readings of an ascent. *)
From Verif Require Import Base AtmosModel AtmosSpec ObservedSpec ObservedProofs.
Open Scope R_scope.

(** physical readings at different altitudes make an atmosphere; it answers with positive numbers
    at every altitude from its lowest to its highest reading, and raises TypeError elsewhere *)
Theorem C104_constructible : forall obs, ascent obs -> exists a p, observed a p obs.
Proof. exact observed_exists. Qed.
Print Assumptions C104_constructible.
Theorem C104_range : forall a p obs, ascent obs -> observed a p obs -> exists lo hi, loalt p = Ok lo /\ hialt p = Ok hi /\ forall x,
  (lo <= x <= hi -> exists T rho q c, answers a x T rho q c /\ 0 < T /\ 0 < rho /\ 0 < q /\ 0 < c) /\ (x < lo \/ hi < x -> refuses a x).
Proof. exact range. Qed.
Print Assumptions C104_range.
Theorem C104_lowest_and_highest : forall a p obs, ascent obs -> observed a p obs -> exists lo hi, loalt p = Ok (rd_h lo) /\ hialt p = Ok (rd_h hi) /\ In lo obs /\ In hi obs /\
  forall l, In l obs -> rd_h lo <= rd_h l <= rd_h hi.
Proof. exact limits. Qed.
Print Assumptions C104_lowest_and_highest.

(** between neighbouring readings temperature, density and pressure are linear, and the speed of
    sound is that of the interpolated temperature *)
Theorem C104_between : forall a p obs x, ascent obs -> observed a p obs -> covered obs x -> exists lo hi s, layer obs x lo hi s /\
  answers a x (part_way s (rd_temp lo) (rd_temp hi)) (part_way s (rd_rho lo) (rd_rho hi)) (part_way s (rd_press lo) (rd_press hi))
    (sqrt (1.4 * 287.05287 * part_way s (rd_temp lo) (rd_temp hi))).
Proof. exact between_readings. Qed.
Print Assumptions C104_between.

(** the order of the readings does not matter *)
Theorem C104_any_order : forall a1 p1 a2 p2 obs1 obs2 x, ascent obs1 -> (forall l, In l obs1 <-> In l obs2) -> NoDup (map rd_h obs2) -> observed a1 p1 obs1 -> observed a2 p2 obs2 ->
  airtemp_k a1 (VNum (Fin x)) = airtemp_k a2 (VNum (Fin x)) /\ airdens_kgpm3 a1 (VNum (Fin x)) = airdens_kgpm3 a2 (VNum (Fin x)) /\
  airpress_pa a1 (VNum (Fin x)) = airpress_pa a2 (VNum (Fin x)) /\ vsound_mps a1 (VNum (Fin x)) = vsound_mps a2 (VNum (Fin x)).
Proof. exact any_order. Qed.
Print Assumptions C104_any_order.

(** density falls with altitude if the readings do, and so does pressure *)
Theorem C104_falls : forall a p obs x y T rho q c T' rho' q' c', ascent obs -> observed a p obs -> answers a x T rho q c -> answers a y T' rho' q' c' -> x < y ->
  ((forall l h, In l obs -> In h obs -> rd_h l < rd_h h -> rd_rho h < rd_rho l) -> rho' < rho) /\
  ((forall l h, In l obs -> In h obs -> rd_h l < rd_h h -> rd_press h < rd_press l) -> q' < q).
Proof. exact density_falls. Qed.
Print Assumptions C104_falls.

(** the gas law holds at the readings only: the exact error between them, and its sign in a layer
    where temperature and density fall *)
Theorem C104_gas_law_error : forall a p obs x lo hi s T rho q c, ascent obs -> observed a p obs -> layer obs x lo hi s -> answers a x T rho q c ->
  q - 287.05287 * rho * T = 287.05287 * (s * (1 - s)) * (rd_temp hi - rd_temp lo) * (rd_rho hi - rd_rho lo).
Proof. exact gas_law_error. Qed.
Print Assumptions C104_gas_law_error.
Theorem C104_gas_law_refuted : forall a p obs x lo hi s, ascent obs -> observed a p obs -> layer obs x lo hi s -> 0 < s < 1 -> rd_temp hi < rd_temp lo -> rd_rho hi < rd_rho lo ->
  exists T rho q c, answers a x T rho q c /\ 287.05287 * rho * T < q.
Proof. exact gas_law_refuted. Qed.
Print Assumptions C104_gas_law_refuted.

(** the profile's own speed of sound is never above that of the atmosphere, and is the same only
    at the readings and in isothermal layers *)
Theorem C104_two_speeds_of_sound_refuted : forall a p obs x lo hi s T rho q c, ascent obs -> observed a p obs -> layer obs x lo hi s -> answers a x T rho q c ->
  exists v, fvs_mps p (Fin x) = Ok (Fin v) /\ v <= c /\ (v = c <-> s = 0 \/ s = 1 \/ rd_temp lo = rd_temp hi).
Proof. exact slow_sound. Qed.
Print Assumptions C104_two_speeds_of_sound_refuted.

(** without a reading at or below and one at or above sea level, no airspeed can be converted at
    any altitude, also not where the atmosphere has readings *)
Theorem C104_airspeeds_refuted : forall a p obs, ascent obs -> observed a p obs -> ~ covered obs 0 -> forall x v,
  eas2tas_at a (VNum (Fin v)) (VNum (Fin x)) = Err TypeError /\ tas2eas_at a (VNum (Fin v)) (VNum (Fin x)) = Err TypeError.
Proof. exact no_sea_level. Qed.
Print Assumptions C104_airspeeds_refuted.

(** pressures may be given in place of densities: the same profile results *)
Theorem C104_by_pressure : forall obs, ascent obs -> List.length obs <> 1%nat ->
  obsprofile (Some (map rd_h obs)) (Some (map rd_temp obs)) None (Some (map rd_press obs)) =
  obsprofile (Some (map rd_h obs)) (Some (map rd_temp obs)) (Some (map rd_rho obs)) None.
Proof. exact by_pressure. Qed.
Print Assumptions C104_by_pressure.
(** but not if there is only one reading: the missing density then counts as a column of the right size *)
Theorem C104_one_pressure_refuted : forall l, ascent [l] ->
  obsprofile (Some [rd_h l]) (Some [rd_temp l]) None (Some [rd_press l]) = Err TypeError /\
  exists p, obsprofile (Some [rd_h l]) (Some [rd_temp l]) (Some [rd_rho l]) None = Ok p.
Proof. exact (fun l A => conj (one_pressure l) (one_density l A)). Qed.
Print Assumptions C104_one_pressure_refuted.

Example C104_nonvacuous : exists obs lo hi a p, ascent obs /\ observed a p obs /\ layer obs 500 lo hi (1 / 2) /\ rd_temp hi < rd_temp lo /\ rd_rho hi < rd_rho lo /\
  (forall l h, In l obs -> In h obs -> rd_h l < rd_h h -> rd_rho h < rd_rho l).
Proof. exact ascent_case. Qed.
Example C104_mountain_nonvacuous : exists obs a p, ascent obs /\ observed a p obs /\ ~ covered obs 0.
Proof. exact mountain_case. Qed.
Example C104_one_nonvacuous : exists l, ascent [l] /\ rd_h l = 300.
Proof. exact one_case. Qed.
