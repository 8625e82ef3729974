(** Theorems of C86: the unit conversions in the double-precision arithmetic of Python. *)
From Coq Require Import Reals ZArith List.
From Coq.Floats Require Import SpecFloat.
From Verif Require Import Base FloatSpec FloatModel FloatProofs FloatProofs2 FloatProofs3 FloatProofs4.
Open Scope R_scope.
Import ListNotations.

(** C86: the four operations round correctly, and so does every literal *)
Theorem C86_operations (x y : spec_float) (a b : R) : double x -> double y -> stands_for x a -> stands_for y b ->
  (Rabs (a * b) < powerRZ 2 1023 -> double (fmul x y) /\ exists r, stands_for (fmul x y) r /\ rounded (a * b) r) /\
  (Rabs (a + b) < powerRZ 2 1023 -> double (fadd x y) /\ exists r, stands_for (fadd x y) r /\ rounded (a + b) r) /\
  (Rabs (a - b) < powerRZ 2 1023 -> double (fsub x y) /\ exists r, stands_for (fsub x y) r /\ rounded (a - b) r) /\
  (b <> 0 -> a = 0 \/ powerRZ 2 (-1022) <= Rabs (a / b) -> Rabs (a / b) < powerRZ 2 1023 ->
    double (fdiv x y) /\ exists r, stands_for (fdiv x y) r /\ rounded (a / b) r).
Proof. exact (operations_round x y a b). Qed.
Print Assumptions C86_operations.
Example C86_operations_nonvacuous : double (of_int 7) /\ stands_for (of_int 7) 7 /\ in_range 7.
Proof. exact seven. Qed.

Theorem C86_literals (p q : Z) : (1 <= p < 2 ^ 53)%Z -> (0 <= q <= 15)%Z ->
  double (lit p q) /\ exists r, stands_for (lit p q) r /\ rounded (IZR p / IZR (10 ^ q)) r.
Proof. exact (literals_rounded p q). Qed.
Print Assumptions C86_literals.
Example C86_literals_nonvacuous : (1 <= 20885434273039 < 2 ^ 53)%Z /\ (0 <= 15 <= 15)%Z.
Proof. split; split; reflexivity || discriminate. Qed.

(** C86: each conversion by a factor is within a few roundings of its formula *)
Theorem C86_conversions (F : spec_float -> spec_float) (f : R -> R) (k : R) :
  In (F, f, k)
  [ (fl_feet2m, (fun r => r * 0.3048), 2.002);
    (fl_feet22m2, (fun r => r / 10.7639), 2.002);
    (fl_m22feet2, (fun r => r * 10.7639), 2.002);
    (fl_m2km, (fun r => r / 1000), 1.001);
    (fl_km2m, (fun r => r * 1000), 1.001);
    (fl_k2r, (fun r => r * 9 / 5), 2.002);
    (fl_r2k, (fun r => r * 5 / 9), 2.002);
    (fl_pa2mbar, (fun r => r * 0.01), 2.002);
    (fl_mbar2pa, (fun r => r / 0.01), 2.002);
    (fl_inhg2mbar, (fun r => r * 33.8639), 2.002);
    (fl_mbar2inhg, (fun r => r / 33.8639), 2.002);
    (fl_mbar2lbfft2, (fun r => r * 2.08854), 2.002);
    (fl_lbfft22mbar, (fun r => r / 2.08854), 2.002);
    (fl_mps2kts, (fun r => r * 1.9438445), 2.002);
    (fl_kts2mps, (fun r => r * 0.5144444), 2.002);
    (fl_m2feet, (fun r => r / 0.3048), 2.002);
    (fl_pa2kgm2, (fun r => r * 0.1019716212978), 2.002);
    (fl_kg2n, (fun r => r * 9.80665), 2.002);
    (fl_n2kg, (fun r => r / 9.80665), 2.002);
    (fl_kgm22pa, (fun r => r * 9.80665), 2.002);
    (fl_fpm2mps, (fun r => r * 0.3048 / 60), 3.003);
    (fl_lbs2kg, (fun r => r * 0.453592), 2.002);
    (fl_kg2lbs, (fun r => r / 0.453592), 2.002);
    (fl_lbf2n, (fun r => r / 0.224809), 2.002);
    (fl_n2lbf, (fun r => r * 0.224809), 2.002);
    (fl_wn2wkg, (fun r => r * 9.80665), 2.002);
    (fl_wn2kwkg, (fun r => r * 9.80665 / 1000), 3.003);
    (fl_wn2hpkg, (fun r => r * 9.80665 / 1000 * 1.34102), 5.005);
    (fl_kw2hp, (fun r => r * 1.34102), 2.002);
    (fl_hp2kw, (fun r => r / 1.34102), 2.002);
    (fl_kgm32sft3, (fun r => r * 0.00194032), 2.002);
    (fl_sft32kgm3, (fun r => r / 0.00194032), 2.002);
    (fl_pa2lbfft2, (fun r => r * 0.020885434273039), 2.002);
    (fl_lbfft22pa, (fun r => r / 0.020885434273039), 2.002) ] ->
  accurate F f k 0.
Proof. exact (formulas_accurate F f k). Qed.
Print Assumptions C86_conversions.
Example C86_conversions_nonvacuous : exists r, stands_for (fl_feet2m (of_int 7)) r /\ r <> 7 * 0.3048 /\ Rabs (r - 7 * 0.3048) <= 2.002 * powerRZ 2 (-53) * (7 * 0.3048).
Proof. exact seven_feet. Qed.

(** C86: so is each conversion with an offset, relative to the result plus the offset *)
Theorem C86_temperatures (F : spec_float -> spec_float) (f : R -> R) (k c : R) :
  In (F, f, k, c)
  [ (fl_c2k, (fun r => r + 273.15), 1.01, 273.15); (fl_k2c, (fun r => r - 273.15), 1.01, 273.15); (fl_c2r, (fun r => (r + 273.15) * 9 / 5), 3.1, 491.67);
    (fl_r2c, (fun r => (r - 491.67) * 5 / 9), 3.1, 273.15); (fl_c2f, (fun r => r * 9 / 5 + 32), 3.1, 32) ] ->
  accurate F f k c.
Proof. exact (temperatures_accurate F f k c). Qed.
Print Assumptions C86_temperatures.
Example C86_temperatures_nonvacuous : exists r, stands_for (fl_c2f (of_int 100)) r /\ r = 212.
Proof. exact boiling. Qed.

(** C86: no conversion reverses an order *)
Theorem C86_rising (F : spec_float -> spec_float) :
  In F
  [ fl_c2f; fl_feet2m; fl_feet22m2; fl_m22feet2; fl_m2km; fl_km2m; fl_c2k; fl_k2c; fl_c2r; fl_r2c; fl_k2r; fl_r2k; fl_pa2mbar; fl_mbar2pa; fl_inhg2mbar;
    fl_mbar2inhg; fl_mbar2lbfft2; fl_lbfft22mbar; fl_mps2kts; fl_kts2mps; fl_m2feet; fl_pa2kgm2; fl_kg2n; fl_n2kg; fl_kgm22pa; fl_fpm2mps; fl_lbs2kg;
    fl_kg2lbs; fl_lbf2n; fl_n2lbf; fl_wn2wkg; fl_wn2kwkg; fl_wn2hpkg; fl_kw2hp; fl_hp2kw; fl_kgm32sft3; fl_sft32kgm3; fl_pa2lbfft2; fl_lbfft22pa ] ->
  rising F.
Proof. exact (all_rising F). Qed.
Print Assumptions C86_rising.
Example C86_rising_nonvacuous : double (of_int 7) /\ stands_for (of_int 7) 7 /\ in_range 7.
Proof. exact seven. Qed.

(** C86: a conversion followed by its inverse returns to within about two roundings *)
Theorem C86_round_trips (F G : spec_float -> spec_float) :
  In (F, G)
  [ (fl_feet2m, fl_m2feet); (fl_m22feet2, fl_feet22m2); (fl_km2m, fl_m2km); (fl_pa2mbar, fl_mbar2pa); (fl_inhg2mbar, fl_mbar2inhg);
    (fl_mbar2lbfft2, fl_lbfft22mbar); (fl_pa2lbfft2, fl_lbfft22pa); (fl_kg2n, fl_n2kg); (fl_lbs2kg, fl_kg2lbs); (fl_n2lbf, fl_lbf2n);
    (fl_kw2hp, fl_hp2kw); (fl_kgm32sft3, fl_sft32kgm3) ] ->
  recovers F G 2.002 0 /\ recovers G F 2.002 0.
Proof. exact (round_trips_close F G). Qed.
Print Assumptions C86_round_trips.
Example C86_round_trips_nonvacuous : exists r, stands_for (fl_m2feet (fl_feet2m (of_int 7))) r /\ r <> 7 /\ Rabs (r - 7) <= 2.002 * powerRZ 2 (-53) * 7.
Proof. exact seven_feet_back. Qed.

Theorem C86_temperature_round_trips :
  recovers fl_c2k fl_k2c 2.1 273.15 /\ recovers fl_k2c fl_c2k 2.1 273.15 /\ recovers fl_c2r fl_r2c 9.4 273.15 /\ recovers fl_r2c fl_c2r 9.4 491.67 /\
  recovers fl_k2r fl_r2k 4.004 0 /\ recovers fl_r2k fl_k2r 4.004 0.
Proof. exact (conj (proj1 trip_ck) (conj (proj2 trip_ck) (conj (proj1 trip_cr) (conj (proj2 trip_cr) trip_kr)))). Qed.
Print Assumptions C86_temperature_round_trips.
Example C86_temperature_round_trips_nonvacuous : double (of_int 7) /\ stands_for (of_int 7) 7 /\ in_range 7.
Proof. exact seven. Qed.

(** C86: the pairs with independently rounded factors come back within the drift of the factors *)
Theorem C86_drift (x : spec_float) (r : R) : double x -> stands_for x r -> in_range r ->
  (exists r', stands_for (fl_kts2mps (fl_mps2kts x)) r' /\ Rabs (r' - r) <= 0.0000001 * Rabs r) /\
  (exists r', stands_for (fl_mps2kts (fl_kts2mps x)) r' /\ Rabs (r' - r) <= 0.0000001 * Rabs r) /\
  (exists r', stands_for (fl_kgm22pa (fl_pa2kgm2 x)) r' /\ Rabs (r' - r) <= 0.000000000001 * Rabs r) /\
  (exists r', stands_for (fl_pa2kgm2 (fl_kgm22pa x)) r' /\ Rabs (r' - r) <= 0.000000000001 * Rabs r).
Proof. exact (drifts x r). Qed.
Print Assumptions C86_drift.
Example C86_drift_nonvacuous : double (of_int 7) /\ stands_for (of_int 7) 7 /\ in_range 7.
Proof. exact seven. Qed.

(** C86: but no pair of conversions is an exact inverse in doubles, in either order *)
Theorem C86_exact_inverse_refuted (F G : spec_float -> spec_float) :
  In (F, G)
  [ (fl_feet2m, fl_m2feet); (fl_m22feet2, fl_feet22m2); (fl_km2m, fl_m2km); (fl_c2k, fl_k2c); (fl_c2r, fl_r2c); (fl_k2r, fl_r2k); (fl_pa2mbar, fl_mbar2pa);
    (fl_inhg2mbar, fl_mbar2inhg); (fl_mbar2lbfft2, fl_lbfft22mbar); (fl_mps2kts, fl_kts2mps); (fl_pa2lbfft2, fl_lbfft22pa); (fl_pa2kgm2, fl_kgm22pa); (fl_kg2n, fl_n2kg);
    (fl_lbs2kg, fl_kg2lbs); (fl_n2lbf, fl_lbf2n); (fl_kw2hp, fl_hp2kw); (fl_kgm32sft3, fl_sft32kgm3) ] ->
  ~ undoes F G /\ ~ undoes G F.
Proof. exact (none_exact F G). Qed.
Print Assumptions C86_exact_inverse_refuted.

(** C86: Celsius to Rankine is Celsius to kelvin and kelvin to Rankine, bit for bit; the
    way back differs *)
Theorem C86_paths (x : spec_float) : fl_k2r (fl_c2k x) = fl_c2r x.
Proof. exact (kelvin_then_rankine x). Qed.
Print Assumptions C86_paths.
Theorem C86_paths_back_refuted : exists x a b, double x /\ stands_for x 3 /\ stands_for (fl_k2c (fl_r2k x)) a /\ stands_for (fl_r2c x) b /\ a <> b.
Proof. exact kelvin_then_celsius. Qed.
Print Assumptions C86_paths_back_refuted.

(** C86: the square root of IEEE 754 rounds correctly *)
Theorem C86_square_root (x : spec_float) (a : R) : double x -> stands_for x a -> 0 <= a ->
  double (SFsqrt 53 1024 x) /\ exists r, stands_for (SFsqrt 53 1024 x) r /\ rounded (sqrt a) r.
Proof. exact (sqrt_ok x a). Qed.
Print Assumptions C86_square_root.
Example C86_square_root_nonvacuous : double (of_int 7) /\ stands_for (of_int 7) 7 /\ in_range 7.
Proof. exact seven. Qed.

(** C86: with any root that is off by at most one unit in the last place, the conversions
    between true and equivalent airspeed are within about six roundings *)
Theorem C86_airspeeds (root : spec_float -> spec_float) (speed rho : spec_float) (v d : R) :
  near_root root -> double speed -> stands_for speed v -> in_range v -> double rho -> stands_for rho d -> powerRZ 2 (-60) <= d <= powerRZ 2 60 ->
  (exists r, double (fl_tas2eas root speed rho) /\ stands_for (fl_tas2eas root speed rho) r /\
    Rabs (r - v * sqrt (d / 1.225)) <= 6.006 * powerRZ 2 (-53) * Rabs (v * sqrt (d / 1.225))) /\
  (exists r, double (fl_eas2tas root speed rho) /\ stands_for (fl_eas2tas root speed rho) r /\
    Rabs (r - v / sqrt (d / 1.225)) <= 6.006 * powerRZ 2 (-53) * Rabs (v / sqrt (d / 1.225))).
Proof. exact (airspeeds root speed v rho d). Qed.
Print Assumptions C86_airspeeds.
Example C86_airspeeds_nonvacuous : near_root (SFsqrt 53 1024) /\
  exists d, double (lit 1225 3) /\ stands_for (lit 1225 3) d /\ powerRZ 2 (-60) <= d <= powerRZ 2 60 /\ fl_tas2eas (SFsqrt 53 1024) (of_int 100) (lit 1225 3) = of_int 100.
Proof. exact sea_level. Qed.

(** C86: and they undo each other within about two *)
Theorem C86_airspeed_round_trips (root : spec_float -> spec_float) (rho : spec_float) (d : R) :
  near_root root -> double rho -> stands_for rho d -> powerRZ 2 (-60) <= d <= powerRZ 2 60 ->
  recovers (fun v => fl_tas2eas root v rho) (fun v => fl_eas2tas root v rho) 2.002 0 /\
  recovers (fun v => fl_eas2tas root v rho) (fun v => fl_tas2eas root v rho) 2.002 0.
Proof. exact (airspeeds_back root rho d). Qed.
Print Assumptions C86_airspeed_round_trips.
Example C86_airspeed_round_trips_nonvacuous : near_root (SFsqrt 53 1024) /\
  exists d, double (lit 1225 3) /\ stands_for (lit 1225 3) d /\ powerRZ 2 (-60) <= d <= powerRZ 2 60 /\ fl_tas2eas (SFsqrt 53 1024) (of_int 100) (lit 1225 3) = of_int 100.
Proof. exact sea_level. Qed.
