(** Property theorems about the atmosphere (C04-C14, C17-C22, C60). *)
From Verif Require Import Base UnitsModel AtmosModel AtmosSpec
  IsaInverse AtmosProofs AtmosProofs2 AtmosProofs3 AtmosProofs4 AtmosProofs5.
Open Scope R_scope.

(** C04: every query treats a batch of altitudes element by element, for ISA with
    any offset and for every observed profile. *)
Theorem C04_batch_is_pointwise : forall atm,
  pointwise (airtemp_k atm) /\ pointwise (airpress_pa atm) /\ pointwise (airdens_kgpm3 atm) /\
  pointwise (airtemp_c atm) /\ pointwise (airpress_mbar atm) /\ pointwise (vsound_mps atm) /\
  (forall v, pointwise (dynamicpressure_pa atm v)).
Proof. exact queries_pointwise. Qed.
Print Assumptions C04_batch_is_pointwise.
Example C04_nonvacuous : elements (VList [Fin 0; Fin 12000]) <> [] /\
  exists y, airtemp_k (isa 10) (VNum (Fin 12000)) = Ok (VNum y).
Proof. split; [discriminate|]. rewrite airtemp_isa by lra. eexists; reflexivity. Qed.

(** C04, airspeed conversions: an array of speeds at one altitude is converted
    element by element. *)
Theorem C04_airspeed_arrays : forall atm h d d0 xs, 0 < d -> 0 < d0 ->
  airdens_kgpm3 atm (VNum (Fin h)) = Ok (VNum (Fin d)) ->
  airdens_kgpm3 atm (VNum (Fin 0)) = Ok (VNum (Fin d0)) ->
  eas2tas_at atm (VArr (map Fin xs)) (VNum (Fin h)) =
    Ok (VArr (map (fun x => Fin (x / sqrt (d / d0))) xs)) /\
  tas2eas_at atm (VArr (map Fin xs)) (VNum (Fin h)) =
    Ok (VArr (map (fun x => Fin (x * sqrt (d / d0))) xs)).
Proof. exact eas_tas_arrays. Qed.
Print Assumptions C04_airspeed_arrays.

(** C04 is violated: airspeeds cannot be converted at two or more altitudes at
    once, whatever the speeds and the altitudes ... *)
Theorem C04_airspeed_many_altitudes_refuted : forall atm x v,
  (2 <= List.length (elements v))%nat -> exists e, eas2tas_at atm x v = Err e.
Proof. exact eas_many_altitudes. Qed.
Print Assumptions C04_airspeed_many_altitudes_refuted.

(** ... and neither can the speed of sound in knots. *)
Theorem C04_vsound_kts_many_refuted : forall o hs, (2 <= List.length hs)%nat ->
  Forall (fun h => h <= 50000 /\ 0 < std_temp h + o) hs ->
  vsound_kts (isa o) (VList (map Fin hs)) = Err TypeError.
Proof. exact vsound_kts_many. Qed.
Print Assumptions C04_vsound_kts_many_refuted.
Example C04_kts_nonvacuous : Forall (fun h => h <= 50000 /\ 0 < std_temp h + 0) [0; 11000].
Proof.
  destruct std_temp_joints as (A & B & _).
  repeat constructor; rewrite ?A, ?B; lra.
Qed.

(** C05: geometric and geopotential altitude. *)
Theorem C05_altitudes_inverse :
  (forall h, h <> 6356766 -> geom2geop45m (geop2geom45m (Fin h)) = Fin h) /\
  (forall z, z <> - 6356766 -> geop2geom45m (geom2geop45m (Fin z)) = Fin z).
Proof. exact (conj geo_inverse1 geo_inverse2). Qed.
Print Assumptions C05_altitudes_inverse.

Theorem C05_geopotential_relation : forall z, - 6356766 < z ->
  exists h, geom2geop45m (Fin z) = Fin h /\ h * (6356766 + z) = 6356766 * z.
Proof. exact geo_relation. Qed.
Print Assumptions C05_geopotential_relation.

Theorem C05_altitudes_increasing :
  (forall z1 z2, - 6356766 < z1 -> z1 < z2 -> exists h1 h2,
     geom2geop45m (Fin z1) = Fin h1 /\ geom2geop45m (Fin z2) = Fin h2 /\ h1 < h2 < 6356766) /\
  (forall h1 h2, h1 < h2 -> h2 < 6356766 -> exists z1 z2,
     geop2geom45m (Fin h1) = Fin z1 /\ geop2geom45m (Fin h2) = Fin z2 /\ - 6356766 < z1 < z2).
Proof. exact (conj geom_increasing geop_increasing). Qed.
Print Assumptions C05_altitudes_increasing.

Theorem C05_geopotential_not_above : forall z, - 6356766 < z ->
  exists h, geom2geop45m (Fin z) = Fin h /\ h <= z /\ (z <> 0 -> h < z).
Proof. exact geom_below. Qed.
Print Assumptions C05_geopotential_not_above.
Example C05_nonvacuous : - 6356766 < 11019 < 6356766. Proof. lra. Qed.

(** C06: the temperature is the standard one shifted by the offset. *)
Theorem C06_isa_temperature : forall o h, h <= 50000 ->
  airtemp_k (isa o) (VNum (Fin h)) = Ok (VNum (Fin (std_temp h + o))).
Proof. exact airtemp_isa. Qed.
Print Assumptions C06_isa_temperature.

(** ... the standard takes the tabulated values at the layer boundaries and is
    continuous (Lipschitz with the tropospheric lapse rate). *)
Theorem C06_standard_temperature_continuous :
  (std_temp 0 = 288.15 /\ std_temp 11000 = 216.65 /\ std_temp 20000 = 216.65 /\
   std_temp 32000 = 228.65 /\ std_temp 47000 = 270.65 /\ std_temp 50000 = 270.65) /\
  forall a b, Rabs (std_temp a - std_temp b) <= 0.0065 * Rabs (a - b).
Proof. exact (conj std_temp_joints IsaProofs.std_temp_lipschitz). Qed.
Print Assumptions C06_standard_temperature_continuous.
Example C06_nonvacuous : exists h : R, 11000 < h <= 50000. Proof. exists 25000; lra. Qed.

(** C07 is violated across layer boundaries: there are higher altitudes with
    higher pressure, and with higher density. *)
Theorem C07_strictly_decreasing_refuted : exists a b pa pb a' b' da db,
  (0 <= a /\ a < b /\ b <= 50000 /\
   airpress_pa (isa 0) (VNum (Fin a)) = Ok (VNum (Fin pa)) /\
   airpress_pa (isa 0) (VNum (Fin b)) = Ok (VNum (Fin pb)) /\ pa < pb) /\
  (0 <= a' /\ a' < b' /\ b' <= 50000 /\
   airdens_kgpm3 (isa 0) (VNum (Fin a')) = Ok (VNum (Fin da)) /\
   airdens_kgpm3 (isa 0) (VNum (Fin b')) = Ok (VNum (Fin db)) /\ da < db).
Proof. exact query_rises. Qed.
Print Assumptions C07_strictly_decreasing_refuted.

(** C07 inside each layer ... *)
Theorem C07_decreasing_in_layer : forall a b,
  -5000 <= a -> a < b -> b <= 50000 -> same_isa_layer a b ->
  exists pa pb da db,
    airpress_pa (isa 0) (VNum (Fin a)) = Ok (VNum (Fin pa)) /\
    airpress_pa (isa 0) (VNum (Fin b)) = Ok (VNum (Fin pb)) /\ 0 < pb < pa /\
    airdens_kgpm3 (isa 0) (VNum (Fin a)) = Ok (VNum (Fin da)) /\
    airdens_kgpm3 (isa 0) (VNum (Fin b)) = Ok (VNum (Fin db)) /\ 0 < db < da.
Proof. exact query_layer_mono. Qed.
Print Assumptions C07_decreasing_in_layer.

(** ... and across layers for altitudes at least 10 cm apart. *)
Theorem C07_decreasing_10cm : forall a b, -5000 <= a -> a + 0.1 <= b -> b <= 50000 ->
  exists pa pb da db,
    airpress_pa (isa 0) (VNum (Fin a)) = Ok (VNum (Fin pa)) /\
    airpress_pa (isa 0) (VNum (Fin b)) = Ok (VNum (Fin pb)) /\ 0 < pb < pa /\
    airdens_kgpm3 (isa 0) (VNum (Fin a)) = Ok (VNum (Fin da)) /\
    airdens_kgpm3 (isa 0) (VNum (Fin b)) = Ok (VNum (Fin db)) /\ 0 < db < da.
Proof. exact query_near_mono. Qed.
Print Assumptions C07_decreasing_10cm.

(** Pressure and density agree with the hydrostatic integral of the standard
    temperature profile to 10 parts per million. *)
Theorem C07_matches_hydrostatic_standard : forall h, -5000 <= h -> h <= 50000 -> exists p d,
  airpress_pa (isa 0) (VNum (Fin h)) = Ok (VNum (Fin p)) /\ agrees 1e-5 p (std_press h) /\
  airdens_kgpm3 (isa 0) (VNum (Fin h)) = Ok (VNum (Fin d)) /\ agrees 1e-5 d (std_dens h) /\
  0 < p /\ 0 < d.
Proof. exact query_std. Qed.
Print Assumptions C07_matches_hydrostatic_standard.
Example C07_nonvacuous : same_isa_layer 12000 15000.
Proof. unfold same_isa_layer; repeat split; lra. Qed.

(** C08: the ideal gas law to one part per million, for every offset. *)
Theorem C08_ideal_gas_law : forall o h,
  -5000 <= h -> h <= 50000 -> 0 < std_temp h + o ->
  exists p d t, airpress_pa (isa o) (VNum (Fin h)) = Ok (VNum (Fin p)) /\
    airdens_kgpm3 (isa o) (VNum (Fin h)) = Ok (VNum (Fin d)) /\
    airtemp_k (isa o) (VNum (Fin h)) = Ok (VNum (Fin t)) /\ 0 < d /\ 0 < t /\
    agrees 1e-6 p (d * Rair * t).
Proof. exact query_gas. Qed.
Print Assumptions C08_ideal_gas_law.

(** C08: a temperature offset changes neither the pressure nor the product of
    density and temperature. *)
Theorem C08_offset_effect : forall o h, h <= 50000 -> 0 < std_temp h + o ->
  exists p d d0 t t0,
    airpress_pa (isa o) (VNum (Fin h)) = Ok (VNum (Fin p)) /\
    airpress_pa (isa 0) (VNum (Fin h)) = Ok (VNum (Fin p)) /\
    airdens_kgpm3 (isa o) (VNum (Fin h)) = Ok (VNum (Fin d)) /\
    airdens_kgpm3 (isa 0) (VNum (Fin h)) = Ok (VNum (Fin d0)) /\
    airtemp_k (isa o) (VNum (Fin h)) = Ok (VNum (Fin t)) /\
    airtemp_k (isa 0) (VNum (Fin h)) = Ok (VNum (Fin t0)) /\
    t = t0 + o /\ d * t = d0 * t0.
Proof. exact offset_effect. Qed.
Print Assumptions C08_offset_effect.
Example C08_nonvacuous : 0 < std_temp 11000 + (-20).
Proof. destruct std_temp_joints as (_ & B & _). rewrite B; lra. Qed.

(** C09: pressure altitude inverts pressure, for a whole array of altitudes:
    exactly away from the layer boundaries, within 5 cm at them. *)
Theorem C09_pressure_altitude : forall hs, hs <> [] ->
  Forall (fun h => -5000 <= h <= 50000) hs ->
  exists ps hs', isapress_pa (map Fin hs) = Ok (map Fin ps) /\
    isapressalt_m (map Fin ps) = Ok (map Fin hs') /\
    Forall2 (fun h h' => Rabs (h' - h) <= 0.05 /\ (clear_of_joints 0.05 h -> h' = h)) hs hs'.
Proof. exact pressure_altitudes. Qed.
Print Assumptions C09_pressure_altitude.

(** C09, the other direction: the ISA has, to 10 parts per million, the given
    pressure at the computed altitude. *)
Theorem C09_pressure_at_pressure_altitude : forall p, 76.1 <= p <= 177600 ->
  exists h p', isapressalt1 (Fin p) = Ok (Fin h) /\ -5000 <= h <= 50000 /\
    isapress1 (Fin h) = Fin p' /\ agrees 1e-5 p' p.
Proof. exact altitude_pressure. Qed.
Print Assumptions C09_pressure_at_pressure_altitude.

(** C09: no altitude is invented for a non-positive pressure. *)
Theorem C09_nonpositive_pressure : forall p, p <= 0 -> isapressalt1 (Fin p) = Err ValueError.
Proof. exact isapressalt1_nonpos. Qed.
Print Assumptions C09_nonpositive_pressure.
Example C09_nonvacuous : Forall (fun h => -5000 <= h <= 50000) [0; 15000; 48000] /\
  clear_of_joints 0.05 15000 /\ 76.1 <= 50000 <= 177600.
Proof.
  split; [repeat constructor; lra|]. split; [|lra].
  unfold clear_of_joints, Rabs. repeat destruct (Rcase_abs _); lra.
Qed.

(** C10 for a single density. *)
Theorem C10_density_altitude_single : forall h, -5000 <= h -> h <= 50000 ->
  exists d h', isadens_kgpm3 (Fin 0) [Fin h] = Ok [Fin d] /\ 0 < d /\
    isadensalt_m [Fin d] = Ok [Fin h'] /\
    Rabs (h' - h) <= 0.05 /\ (clear_of_joints 0.05 h -> h' = h).
Proof. exact density_altitude_single. Qed.
Print Assumptions C10_density_altitude_single.

(** C10 is violated for lists: two densities, the first of them in the lower
    stratosphere, raise an error although each of them alone is converted. *)
Theorem C10_density_altitude_list_refuted : forall d e,
  (0.088034556579455497 < d <= 0.36391700650017816 -> isadensalt_m [Fin d; Fin e] = Err TypeError) /\
  (d <= 0.013224937668421609 -> isadensalt_m [Fin d; Fin e] = Err ValueError).
Proof. exact (fun d e => conj (densalt_pair_layer2 d e) (densalt_pair_layer4 d e)). Qed.
Print Assumptions C10_density_altitude_list_refuted.
Example C10_nonvacuous : 0.088034556579455497 < 0.2 <= 0.36391700650017816. Proof. lra. Qed.

(** C11 is violated: one altitude above 50 km in the batch makes every query
    raise TypeError instead of limiting it. *)
Theorem C11_clipping_refuted : forall o v,
  Exists (fun x => exists h, x = Fin h /\ 50000 < h) (elements v) ->
  airtemp_k (isa o) v = Err TypeError /\ airpress_pa (isa o) v = Err TypeError /\
  airdens_kgpm3 (isa o) v = Err TypeError /\ vsound_mps (isa o) v = Err TypeError.
Proof. exact above_limit. Qed.
Print Assumptions C11_clipping_refuted.
Example C11_nonvacuous : Exists (fun x => exists h, x = Fin h /\ 50000 < h)
  (elements (VList [Fin 1000; Fin 50001])).
Proof. apply Exists_cons_tl, Exists_cons_hd. exists 50001; split; [reflexivity|lra]. Qed.

(** C11: so are altitudes outside the range of an observed profile. *)
Theorem C11_profile_clipping_refuted : forall p o v lo hi,
  pymin (alt_m p) = Ok lo -> pymax (alt_m p) = Ok hi ->
  Exists (fun x => exists h, x = Fin h /\ (h < lo \/ hi < h)) (elements v) ->
  alttest {| offset_deg := o; prof := Some p |} v = Err TypeError.
Proof. exact outside_profile. Qed.
Print Assumptions C11_profile_clipping_refuted.

(** C11, the part that holds: admissible altitudes are never altered. *)
Theorem C11_admissible_altitudes_unaltered :
  (forall atm v l, alttest atm v = Ok l -> l = elements v) /\
  (forall o v, Forall (fun x => exists h, x = Fin h /\ h <= 50000) (elements v) ->
     alttest (isa o) v = Ok (elements v)).
Proof. exact (conj alttest_unaltered below_limit). Qed.
Print Assumptions C11_admissible_altitudes_unaltered.

(** C12: Mach number times speed of sound is the airspeed. *)
Theorem C12_mach_times_sound : forall o h V, h <= 50000 -> 0 < std_temp h + o ->
  exists m a, mach (isa o) (VNum (Fin V)) (VNum (Fin h)) = Ok (VArr [Fin m]) /\
    vsound_mps (isa o) (VNum (Fin h)) = Ok (VNum (Fin a)) /\ 0 < a /\
    m * a = V /\ a * a = 1.4 * Rair * (std_temp h + o).
Proof. exact mach_times_sound. Qed.
Print Assumptions C12_mach_times_sound.

Theorem C12_mach_arrays : forall o Vs hs,
  List.length hs = List.length Vs -> (2 <= List.length hs)%nat ->
  Forall (fun h => h <= 50000 /\ 0 < std_temp h + o) hs ->
  exists ms, mach (isa o) (VArr (map Fin Vs)) (VArr (map Fin hs)) = Ok (VArr (map Fin ms)) /\
   List.length ms = List.length Vs /\
   forall n V h, nth_error Vs n = Some V -> nth_error hs n = Some h ->
     exists m, nth_error ms n = Some m /\ m * sqrt (1.4 * Rair * (std_temp h + o)) = V.
Proof. exact mach_isa_many. Qed.
Print Assumptions C12_mach_arrays.

(** C12 is violated for negative airspeeds: the Mach number comes out negative. *)
Theorem C12_negative_airspeed_refuted : forall o h V,
  h <= 50000 -> 0 < std_temp h + o -> V < 0 ->
  exists m, mach (isa o) (VNum (Fin V)) (VNum (Fin h)) = Ok (VArr [Fin m]) /\ m < 0.
Proof. exact mach_negative. Qed.
Print Assumptions C12_negative_airspeed_refuted.
Example C12_nonvacuous : 11000 <= 50000 /\ 0 < std_temp 11000 + 5.
Proof. destruct std_temp_joints as (_ & B & _). rewrite B; lra. Qed.

(** C13: EAS and TAS, for every offset. *)
Theorem C13_eas_tas_inverse : forall o h,
  h <= 50000 -> 0 < std_temp h + o -> 0 < 288.15 + o ->
  exists d d0, airdens_kgpm3 (isa o) (VNum (Fin h)) = Ok (VNum (Fin d)) /\ 0 < d /\
    airdens_kgpm3 (isa o) (VNum (Fin 0)) = Ok (VNum (Fin d0)) /\ 0 < d0 /\
  (forall e, exists t, eas2tas_at (isa o) (VNum (Fin e)) (VNum (Fin h)) = Ok (VNum (Fin t)) /\
     tas2eas_at (isa o) (VNum (Fin t)) (VNum (Fin h)) = Ok (VNum (Fin e)) /\
     e * e * d0 = t * t * d /\ 0 <= e * t) /\
  (forall t, exists e, tas2eas_at (isa o) (VNum (Fin t)) (VNum (Fin h)) = Ok (VNum (Fin e)) /\
     eas2tas_at (isa o) (VNum (Fin e)) (VNum (Fin h)) = Ok (VNum (Fin t))).
Proof. exact isa_eas_tas. Qed.
Print Assumptions C13_eas_tas_inverse.

(** C13: the same for any atmosphere with positive densities, e.g. an observed one. *)
Theorem C13_eas_tas_inverse_any : forall atm h d d0, 0 < d -> 0 < d0 ->
  airdens_kgpm3 atm (VNum (Fin h)) = Ok (VNum (Fin d)) ->
  airdens_kgpm3 atm (VNum (Fin 0)) = Ok (VNum (Fin d0)) ->
  (forall e, exists t, eas2tas_at atm (VNum (Fin e)) (VNum (Fin h)) = Ok (VNum (Fin t)) /\
     tas2eas_at atm (VNum (Fin t)) (VNum (Fin h)) = Ok (VNum (Fin e)) /\ e * e * d0 = t * t * d) /\
  (forall t, exists e, tas2eas_at atm (VNum (Fin t)) (VNum (Fin h)) = Ok (VNum (Fin e)) /\
     eas2tas_at atm (VNum (Fin e)) (VNum (Fin h)) = Ok (VNum (Fin t)) /\ e * e * d0 = t * t * d).
Proof. exact eas_tas_inverse. Qed.
Print Assumptions C13_eas_tas_inverse_any.

Theorem C13_sea_level_identity : forall atm d0 x, 0 < d0 ->
  airdens_kgpm3 atm (VNum (Fin 0)) = Ok (VNum (Fin d0)) ->
  eas2tas_at atm (VNum (Fin x)) (VNum (Fin 0)) = Ok (VNum (Fin x)) /\
  tas2eas_at atm (VNum (Fin x)) (VNum (Fin 0)) = Ok (VNum (Fin x)).
Proof. exact eas_tas_sealevel. Qed.
Print Assumptions C13_sea_level_identity.

Theorem C13_tas_above_eas : forall h e, 0 < h -> h <= 50000 -> 0 < e ->
  exists t, eas2tas_at (isa 0) (VNum (Fin e)) (VNum (Fin h)) = Ok (VNum (Fin t)) /\ e < t.
Proof. exact tas_above_eas. Qed.
Print Assumptions C13_tas_above_eas.
Example C13_nonvacuous : exists d, airdens_kgpm3 (isa 20) (VNum (Fin 11000)) = Ok (VNum (Fin d)) /\ 0 < d.
Proof. apply isa_dens_pos; [lra|]. destruct std_temp_joints as (_ & B & _). rewrite B; lra. Qed.

(** C14: calibrated airspeed in m/s. *)
Theorem C14_cas_not_below_eas : forall e h, 0 <= h -> h <= 50000 -> exists c m t a,
  mpseas2mpscas (isa 0) (VNum (Fin e)) (VNum (Fin h)) = Ok (VArr [Fin c], VArr [Fin m]) /\
  eas2tas_at (isa 0) (VNum (Fin e)) (VNum (Fin h)) = Ok (VNum (Fin t)) /\
  vsound_mps (isa 0) (VNum (Fin h)) = Ok (VNum (Fin a)) /\ m * a = t /\ 0 < a /\
  (h = 0 -> c = e) /\ (e = 0 -> c = 0) /\ (0 <= e -> m ^ 2 <= 10 / 3 -> e <= c).
Proof. exact cas_isa. Qed.
Print Assumptions C14_cas_not_below_eas.

(** C14 in knots: the same up to the drift of the unit round trip (C02). *)
Theorem C14_kcas_not_below_keas : forall k h, 0 <= h -> h <= 50000 -> exists c m,
  keas2kcas (isa 0) (VNum (Fin k)) (VNum (Fin h)) = Ok (VArr [Fin c], VArr [Fin m]) /\
  (h = 0 -> c = k * (0.5144444 * 1.9438445)) /\ (k = 0 -> c = 0) /\
  (0 <= k -> m ^ 2 <= 10 / 3 -> k * (0.5144444 * 1.9438445) <= c).
Proof. exact kcas_isa. Qed.
Print Assumptions C14_kcas_not_below_keas.
Example C14_nonvacuous : 0 <= 11000 <= 50000 /\ 0.8 ^ 2 <= 10 / 3. Proof. lra. Qed.

(** C17: reciprocal headings. *)
Theorem C17_reciprocal_heading : forall h, 0 < h <= 360 ->
  exists r, reciprocalhdg (Fin h) = Fin r /\ 0 < r <= 360 /\
    (r = h + 180 \/ r = h - 180) /\ reciprocalhdg (Fin r) = Fin h.
Proof. exact recip_spec. Qed.
Print Assumptions C17_reciprocal_heading.
(** ... but 0 is not restored: 0 -> 180 -> 360. *)
Theorem C17_heading_zero_refuted :
  reciprocalhdg (Fin 0) = Fin 180 /\ reciprocalhdg (Fin 180) = Fin 360.
Proof. exact recip_zero. Qed.
Print Assumptions C17_heading_zero_refuted.
Example C17_nonvacuous : 0 < 280 <= 360. Proof. lra. Qed.

(** C18: profiles given by temperature and density. *)
Theorem C18_profile_from_density : forall alt temp rho p pr,
  obsprofile (Some alt) (Some temp) (Some rho) p = Ok pr ->
  List.length temp = List.length alt -> List.length rho = List.length alt ->
  alt_m pr = alt /\ temp_k pr = temp /\ rho_kgpm3 pr = rho /\
  List.length (p_pa pr) = List.length alt /\
  (forall n t r q, nth_error temp n = Some t -> nth_error rho n = Some r ->
      nth_error (p_pa pr) n = Some q -> q = r * 287.05287 * t) /\
  (forall n t, nth_error temp n = Some t ->
      exists v, nth_error (vs_mps pr) n = Some v /\ 0 <= v /\ v * v = 1.4 * 287.05287 * t).
Proof. exact obsprofile_rho. Qed.
Print Assumptions C18_profile_from_density.

(** C18: profiles given by temperature and pressure. *)
Theorem C18_profile_from_pressure : forall alt temp q pr,
  List.length alt <> 1%nat ->
  obsprofile (Some alt) (Some temp) None (Some q) = Ok pr ->
  List.length temp = List.length alt -> List.length q = List.length alt ->
  alt_m pr = alt /\ temp_k pr = temp /\ p_pa pr = q /\
  List.length (rho_kgpm3 pr) = List.length alt /\
  (forall n t r pp, nth_error temp n = Some t -> nth_error q n = Some pp ->
      nth_error (rho_kgpm3 pr) n = Some r -> t <> 0 /\ pp = r * 287.05287 * t) /\
  (forall n t, nth_error temp n = Some t ->
      exists v, nth_error (vs_mps pr) n = Some v /\ 0 <= v /\ v * v = 1.4 * 287.05287 * t).
Proof. exact obsprofile_p. Qed.
Print Assumptions C18_profile_from_pressure.

(** C18 is violated for a single observation given by its pressure. *)
Theorem C18_single_pressure_refuted : forall a t q, 0 <= t ->
  obsprofile (Some [a]) (Some [t]) None (Some [q]) = Err TypeError.
Proof. exact obsprofile_single_p. Qed.
Print Assumptions C18_single_pressure_refuted.

(** C18: the interpolators of a profile, at, between and outside observations;
    the observations may come in any order. *)
Theorem C18_interpolation_at_observation : forall tab x y,
  NoDup (map fst tab) -> In (x, y) tab -> interp1d tab (Fin x) = Ok (Fin y).
Proof. exact interp1d_knot. Qed.
Print Assumptions C18_interpolation_at_observation.
Theorem C18_interpolation_between : forall tab x lo hi,
  NoDup (map fst tab) -> In lo tab -> In hi tab -> fst lo <= x <= fst hi ->
  exists v p q, interp1d tab (Fin x) = Ok (Fin v) /\ In p tab /\ In q tab /\ on_chord p q x v /\
    (forall r, In r tab -> fst r <= fst p \/ fst q <= fst r).
Proof. exact interp1d_between. Qed.
Print Assumptions C18_interpolation_between.
Theorem C18_no_extrapolation : forall tab x, NoDup (map fst tab) ->
  (forall p, In p tab -> x < fst p) \/ (forall p, In p tab -> fst p < x) ->
  interp1d tab (Fin x) = Err ValueError.
Proof. exact interp1d_outside. Qed.
Print Assumptions C18_no_extrapolation.
Example C18_nonvacuous : exists pr,
  obsprofile (Some [0; 1000]) (Some [288; 281]) None (Some [101325; 89870]) = Ok pr.
Proof.
  unfold obsprofile. cbn -[Reqb vs_of_temp]. unfold Reqb.
  destruct (Req_EM_T 288 0); [lra|]. destruct (Req_EM_T 281 0); [lra|]. cbn -[vs_of_temp].
  unfold vs_of_temp, msqrt. cbn. unfold Rltb.
  destruct (Rlt_dec (1.4 * 287.05287 * 288) 0); [lra|].
  destruct (Rlt_dec (1.4 * 287.05287 * 281) 0); [lra|]. cbn. eexists; reflexivity.
Qed.

(** C19: the lapse factors are continuous in the throttle ratio, in particular
    across the break theta0 = TR, with explicit Lipschitz constants. *)
Theorem C19_turbofan_highbpr_continuous : forall tc p m a b, 0 <= p -> 0 <= m ->
  exists fa fb,
  turbofanthrustfactor (Fin tc) (Fin p) (Fin m) (Fin a) highbpr = Fin fa /\
  turbofanthrustfactor (Fin tc) (Fin p) (Fin m) (Fin b) highbpr = Fin fb /\
  Rabs (fa - fb) <= 2 * delta0 p m * Rabs (a - b).
Proof. exact fan_high_lip. Qed.
Print Assumptions C19_turbofan_highbpr_continuous.
Theorem C19_turbofan_lowbpr_continuous : forall tc p m a b, 0 <= p -> -273.15 < tc ->
  exists fa fb ga gb,
  turbofanthrustfactor (Fin tc) (Fin p) (Fin m) (Fin a) lowbpr = Fin fa /\
  turbofanthrustfactor (Fin tc) (Fin p) (Fin m) (Fin b) lowbpr = Fin fb /\
  turbofanthrustfactor (Fin tc) (Fin p) (Fin m) (Fin a) othertype = Fin ga /\
  turbofanthrustfactor (Fin tc) (Fin p) (Fin m) (Fin b) othertype = Fin gb /\
  Rabs (fa - fb) <= 3.5 / theta0 tc m * delta0 p m * Rabs (a - b) /\
  Rabs (ga - gb) <= 2.28 / theta0 tc m * delta0 p m * Rabs (a - b).
Proof. exact fan_low_lip. Qed.
Print Assumptions C19_turbofan_lowbpr_continuous.
Theorem C19_turbojet_dry_continuous : forall tc p m a b, 0 <= p -> 0 <= m -> -273.15 < tc ->
  exists fa fb,
  turbojetthrustfactor (Fin tc) (Fin p) (Fin m) (Fin a) false = Fin fa /\
  turbojetthrustfactor (Fin tc) (Fin p) (Fin m) (Fin b) false = Fin fb /\
  Rabs (fa - fb) <= 19.2 / ((9 + m) * theta0 tc m) * delta0 p m * Rabs (a - b).
Proof. exact jet_dry_lip. Qed.
Print Assumptions C19_turbojet_dry_continuous.
Theorem C19_turbojet_wet_continuous : forall tc p m a b,
  0 <= p -> 0 <= m -> -273.15 < tc -> 1 <= a -> 1 <= b -> exists fa fb,
  turbojetthrustfactor (Fin tc) (Fin p) (Fin m) (Fin a) true = Fin fa /\
  turbojetthrustfactor (Fin tc) (Fin p) (Fin m) (Fin b) true = Fin fb /\
  Rabs (fa - fb) <= 1.5 * theta0 tc m * delta0 p m * Rabs (a - b).
Proof. exact jet_wet_lip. Qed.
Print Assumptions C19_turbojet_wet_continuous.
Theorem C19_turboprop_continuous : forall tc p m a b, 0 <= p -> exists fa fb,
  turbopropthrustfactor_matt (Fin tc) (Fin p) (Fin m) (Fin a) = Fin fa /\
  turbopropthrustfactor_matt (Fin tc) (Fin p) (Fin m) (Fin b) = Fin fb /\
  (0.1 < m -> Rabs (fa - fb) <= 3 / (8.13 * (m - 0.1)) * delta0 p m * Rabs (a - b)) /\
  (m <= 0.1 -> fa = delta0 p m /\ fb = delta0 p m).
Proof. exact prop_matt_lip. Qed.
Print Assumptions C19_turboprop_continuous.

(** C19: the complete lapse laws; [excess] is the part above the break. *)
Theorem C19_turbofan_laws : forall tc p m tr, 0 <= m -> -273.15 < tc ->
  turbofanthrustfactor (Fin tc) (Fin p) (Fin m) (Fin tr) highbpr
  = Fin (delta0 p m * (1 - 0.49 * sqrt m - 3 * excess (theta0 tc m - tr) / (1.5 + m))) /\
  turbofanthrustfactor (Fin tc) (Fin p) (Fin m) (Fin tr) lowbpr
  = Fin (delta0 p m * (1 - 3.5 * excess (theta0 tc m - tr) / theta0 tc m)) /\
  turbofanthrustfactor (Fin tc) (Fin p) (Fin m) (Fin tr) othertype
  = Fin (0.6 * delta0 p m * (1 - 3.8 * excess (theta0 tc m - tr) / theta0 tc m)).
Proof. exact (fun tc p m tr A B => conj (fan_high tc p m tr A)
  (conj (fan_low tc p m tr B) (fan_other tc p m tr B))). Qed.
Print Assumptions C19_turbofan_laws.
Theorem C19_turbojet_laws : forall tc p m tr, 0 <= m -> -273.15 < tc -> 0 < tr ->
  turbojetthrustfactor (Fin tc) (Fin p) (Fin m) (Fin tr) true
  = Fin (delta0 p m * (1 - 0.3 * (theta0 tc m - 1) - 0.1 * sqrt m
                       - 1.5 * excess (theta0 tc m - tr) / tr)) /\
  turbojetthrustfactor (Fin tc) (Fin p) (Fin m) (Fin tr) false
  = Fin (delta0 p m * 0.8 * (1 - 0.16 * sqrt m
                       - 24 * excess (theta0 tc m - tr) / ((9 + m) * theta0 tc m))).
Proof. exact (fun tc p m tr A B C => conj (jet_wet tc p m tr A C) (jet_dry tc p m tr A B)). Qed.
Print Assumptions C19_turbojet_laws.
Theorem C19_turboprop_laws : forall tc p m tr,
  (m <= 0.1 -> turbopropthrustfactor_matt (Fin tc) (Fin p) (Fin m) (Fin tr) = Fin (delta0 p m)) /\
  (0.1 < m -> turbopropthrustfactor_matt (Fin tc) (Fin p) (Fin m) (Fin tr)
   = Fin (delta0 p m * (1 - 0.96 * Rpower (m - 0.1) 0.25
                        - 3 * excess (theta0 tc m - tr) / (8.13 * (m - 0.1))))).
Proof. exact (fun tc p m tr => conj (prop_matt_slow tc p m tr) (prop_matt tc p m tr)). Qed.
Print Assumptions C19_turboprop_laws.

(** C19: up to the break, the factors do not exceed the pressure ratio and are
    not negative (except for the afterburning turbojet). *)
Theorem C19_bounded_below_break : forall tc p m tr,
  0 <= p -> -273.15 < tc -> 0 <= m -> theta0 tc m <= tr ->
  exists fh fl fo fd fp,
   turbofanthrustfactor (Fin tc) (Fin p) (Fin m) (Fin tr) highbpr = Fin fh /\
   turbofanthrustfactor (Fin tc) (Fin p) (Fin m) (Fin tr) lowbpr = Fin fl /\
   turbofanthrustfactor (Fin tc) (Fin p) (Fin m) (Fin tr) othertype = Fin fo /\
   turbojetthrustfactor (Fin tc) (Fin p) (Fin m) (Fin tr) false = Fin fd /\
   turbopropthrustfactor_matt (Fin tc) (Fin p) (Fin m) (Fin tr) = Fin fp /\
   fh <= delta0 p m /\ fl = delta0 p m /\ fo = 0.6 * delta0 p m /\
   fd <= 0.8 * delta0 p m /\ fp <= delta0 p m /\
   (m <= 4 -> 0 <= fh /\ 0 <= fd) /\ (m <= 1.1 -> 0 <= fp).
Proof. exact below_break. Qed.
Print Assumptions C19_bounded_below_break.

(** C19 is violated by the afterburning turbojet on a cold day ... *)
Theorem C19_afterburner_bound_refuted : exists f,
  turbojetthrustfactor (Fin (-50)) (Fin 101325) (Fin 0) (Fin 1) true = Fin f /\
  theta0 (-50) 0 <= 1 /\ delta0 101325 0 < f.
Proof. exact wet_above. Qed.
Print Assumptions C19_afterburner_bound_refuted.

(** ... and by the turboprop, whose factor falls below every bound just above
    Mach 0.1 when it is hot. *)
Theorem C19_turboprop_bounded_refuted : forall tc p tr B,
  0 < p -> -273.15 < tc -> tr < (tc + 273.15) / 288.15 ->
  exists m f, 0.1 < m < 0.11 /\
    turbopropthrustfactor_matt (Fin tc) (Fin p) (Fin m) (Fin tr) = Fin f /\ f < B.
Proof. exact prop_matt_unbounded. Qed.
Print Assumptions C19_turboprop_bounded_refuted.
Example C19_nonvacuous : -273.15 < 20 /\ 1 < (20 + 273.15) / 288.15. Proof. lra. Qed.

(** C20: the Gagg-Ferrar law. *)
Theorem C20_piston_affine :
  (forall d, pistonpowerfactor (Fin d) = Fin (1.132 * (d / 1.225) - 0.132)) /\
  (forall a b, a < b -> exists fa fb,
     pistonpowerfactor (Fin a) = Fin fa /\ pistonpowerfactor (Fin b) = Fin fb /\ fa < fb).
Proof. exact (conj piston_real piston_order). Qed.
Print Assumptions C20_piston_affine.

(** C21: polyblend is a continuously differentiable monotone ramp. *)
Theorem C21_polyblend_c1_ramp : forall tf a b, 0 < tf -> exists f f' : R -> R,
  (forall t, polyblend t tf a b = Ok (f t)) /\
  (forall t, derivable_pt_lim f t (f' t)) /\ continuity f' /\
  (forall t, t <= 0 -> f t = a /\ f' t = 0) /\ (forall t, tf <= t -> f t = b /\ f' t = 0) /\
  (forall t, Rmin a b <= f t <= Rmax a b) /\
  (forall t1 t2, t1 <= t2 -> (a <= b -> f t1 <= f t2) /\ (b <= a -> f t2 <= f t1)) /\
  f (tf / 2) = (a + b) / 2.
Proof. exact polyblend_c1. Qed.
Print Assumptions C21_polyblend_c1_ramp.
Theorem C21_polyblend_zero_duration : forall t a b, polyblend t 0 a b = Err ZeroDivisionError.
Proof. exact polyblend_zero. Qed.
Print Assumptions C21_polyblend_zero_duration.
Example C21_nonvacuous : 0 < 2.5. Proof. lra. Qed.

(** C22: the coordinate transformation. *)
Theorem C22_rotation_inverse : forall x z a, List.length x = List.length z -> exists xt zt,
  coordtrans x z a = Ok (xt, zt) /\ List.length xt = List.length x /\
  List.length zt = List.length x /\ coordtrans xt zt (- a) = Ok (x, z).
Proof. exact coordtrans_inverse. Qed.
Print Assumptions C22_rotation_inverse.
Theorem C22_rotation_norm : forall x z a xt zt,
  List.length x = List.length z -> coordtrans x z a = Ok (xt, zt) ->
  forall n xi zi, nth_error x n = Some xi -> nth_error z n = Some zi ->
  exists xj zj, nth_error xt n = Some xj /\ nth_error zt n = Some zj /\
    xj ^ 2 + zj ^ 2 = xi ^ 2 + zi ^ 2.
Proof. exact coordtrans_norm. Qed.
Print Assumptions C22_rotation_norm.
Theorem C22_rotation_composes : forall x z a b xt zt,
  coordtrans x z a = Ok (xt, zt) -> coordtrans xt zt b = coordtrans x z (a + b).
Proof. exact coordtrans_compose. Qed.
Print Assumptions C22_rotation_composes.
Theorem C22_rotation_values : forall x z a xt zt, coordtrans x z a = Ok (xt, zt) ->
  forall n xi zi, nth_error x n = Some xi -> nth_error z n = Some zi ->
  nth_error xt n = Some (xi * cos a + zi * sin a) /\
  nth_error zt n = Some (- xi * sin a + zi * cos a).
Proof. exact coordtrans_nth. Qed.
Print Assumptions C22_rotation_values.
Theorem C22_short_column_raises : forall x z a,
  (List.length z < List.length x)%nat -> coordtrans x z a = Err IndexError.
Proof. exact coordtrans_short. Qed.
Print Assumptions C22_short_column_raises.
Example C22_nonvacuous : List.length [1; 2] = List.length [3; 4]. Proof. reflexivity. Qed.

(** C60: the queries in other units and the dynamic pressure, element by element, in
    every atmosphere. *)
Theorem C60_derived_queries : forall atm alts,
  (forall tk tc, airtemp_k atm alts = Ok tk -> airtemp_c atm alts = Ok tc ->
     Forall2 (converted (fun k => k - 273.15)) (elements tk) (elements tc)) /\
  (forall p pm, airpress_pa atm alts = Ok p -> airpress_mbar atm alts = Ok pm ->
     Forall2 (converted (fun x => x / 100)) (elements p) (elements pm)) /\
  (forall a ak, vsound_mps atm alts = Ok a -> vsound_kts atm alts = Ok ak ->
     Forall2 (converted (fun x => x * 1.9438445)) (elements a) (elements ak)) /\
  (forall V d q, airdens_kgpm3 atm alts = Ok d -> dynamicpressure_pa atm (Fin V) alts = Ok q ->
     Forall2 (converted (fun rho => 1 / 2 * rho * V ^ 2)) (elements d) (elements q)).
Proof. exact derived_queries. Qed.
Print Assumptions C60_derived_queries.
Theorem C60_derived_isa : forall o h V, h <= 50000 -> 0 < std_temp h + o ->
  exists p d a, airpress_pa (isa o) (VNum (Fin h)) = Ok (VNum (Fin p)) /\
    airdens_kgpm3 (isa o) (VNum (Fin h)) = Ok (VNum (Fin d)) /\
    vsound_mps (isa o) (VNum (Fin h)) = Ok (VNum (Fin a)) /\
    airtemp_c (isa o) (VNum (Fin h)) = Ok (VNum (Fin (std_temp h + o - 273.15))) /\
    airpress_mbar (isa o) (VNum (Fin h)) = Ok (VNum (Fin (p / 100))) /\
    vsound_kts (isa o) (VNum (Fin h)) = Ok (VNum (Fin (a * 1.9438445))) /\
    dynamicpressure_pa (isa o) (Fin V) (VNum (Fin h)) = Ok (VNum (Fin (1 / 2 * d * V ^ 2))).
Proof. exact derived_isa. Qed.
Print Assumptions C60_derived_isa.
Example C60_nonvacuous : 11000 <= 50000 /\ 0 < std_temp 11000 + 15.
Proof. exact derived_example. Qed.
