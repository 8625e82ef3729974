(** Property theorems about unit conversions (C01-C03). *)
From Verif Require Import Base UnitsModel UnitsSpec UnitsProofs.
Open Scope R_scope.

(** C01: every conversion pair is mutually inverse on every value. *)
Theorem C01_unit_pairs_mutually_inverse : forall f g, In (f, g)
   [ (feet2m, m2feet); (feet22m2, m22feet2); (m2km, km2m); (c2k, k2c);
     (c2r, r2c); (k2r, r2k); (pa2mbar, mbar2pa); (inhg2mbar, mbar2inhg);
     (mbar2lbfft2, lbfft22mbar); (pa2lbfft2, lbfft22pa); (kg2n, n2kg);
     (lbs2kg, kg2lbs); (lbf2n, n2lbf); (kw2hp, hp2kw); (kgm32sft3, sft32kgm3) ] ->
   mutually_inverse f g.
Proof. exact inverse_pairs. Qed.
Print Assumptions C01_unit_pairs_mutually_inverse.

(** C01: each conversion agrees with the definition of the units involved to
    2 parts per million (the inverse direction follows from the theorem above). *)
Theorem C01_units_match_definitions : forall f k, In (f, k)
   [ (feet2m, foot_m / 1); (m2feet, 1 / foot_m); (feet22m2, foot_m * foot_m);
     (m2km, 1 / 1000); (pa2mbar, 1 / mbar_Pa); (inhg2mbar, inHg_Pa / mbar_Pa);
     (mbar2lbfft2, mbar_Pa / lbfft2_Pa); (pa2lbfft2, 1 / lbfft2_Pa);
     (mps2kts, 1 / knot_mps); (kts2mps, knot_mps); (pa2kgm2, 1 / gravity);
     (kgm22pa, gravity); (kg2n, gravity); (fpm2mps, foot_m / 60);
     (lbs2kg, pound_kg); (lbf2n, lbf_N); (wn2wkg, gravity); (wn2kwkg, gravity / 1000);
     (wn2hpkg, gravity / hp_W); (kw2hp, 1000 / hp_W); (kgm32sft3, 1 / slugft3_kgm3) ] ->
   scales_by f k 2e-6.
Proof. exact scale_table. Qed.
Print Assumptions C01_units_match_definitions.

(** C02: the two pairs built from independently rounded constants. *)
Theorem C02_knots_round_trip_drift :
  scales_by (fun x => kts2mps (mps2kts x)) 1 1e-7 /\
  scales_by (fun x => mps2kts (kts2mps x)) 1 1e-7.
Proof. exact kts_round_trip. Qed.
Print Assumptions C02_knots_round_trip_drift.

Theorem C02_kgm2_round_trip_drift :
  scales_by (fun x => kgm22pa (pa2kgm2 x)) 1 1e-13 /\
  scales_by (fun x => pa2kgm2 (kgm22pa x)) 1 1e-13.
Proof. exact kgm2_round_trip. Qed.
Print Assumptions C02_kgm2_round_trip_drift.

(** ... and the knots pair is really not an exact inverse, for any speed. *)
Theorem C02_knots_exact_inverse_refuted :
  forall x : R, x <> 0 -> kts2mps (mps2kts (Fin x)) <> Fin x.
Proof. exact kts_not_inverse. Qed.
Print Assumptions C02_knots_exact_inverse_refuted.
Example C02_nonvacuous : exists x : R, x <> 0. Proof. exists 120; lra. Qed.

(** C03: the temperature scales. *)
Theorem C03_temperature_scales :
  affine c2f (9/5) 32 /\ affine c2k 1 273.15 /\ affine k2c 1 (-273.15) /\
  affine c2r (9/5) 491.67 /\ affine r2c (5/9) (-273.15) /\
  affine k2r (9/5) 0 /\ affine r2k (5/9) 0.
Proof. exact temp_affine. Qed.
Print Assumptions C03_temperature_scales.

Theorem C03_temperature_paths_agree : forall x : R,
  k2r (c2k (Fin x)) = c2r (Fin x) /\ k2c (r2k (Fin x)) = r2c (Fin x).
Proof. exact temp_paths. Qed.
Print Assumptions C03_temperature_paths_agree.

(** C13 (unit-conversion module's version, standard sea level density 1.225). *)
Theorem C13_units_eas_tas_inverse : forall v rho : R, 0 < rho ->
  exists t, eas2tas (Fin v) (Fin rho) = Fin t /\ tas2eas (Fin t) (Fin rho) = Fin v /\
            t * sqrt (rho / 1.225) = v.
Proof. exact eas_tas_units. Qed.
Print Assumptions C13_units_eas_tas_inverse.
Example C13_units_nonvacuous : exists rho : R, 0 < rho /\ rho <> 1.225.
Proof. exists 0.4; split; lra. Qed.
