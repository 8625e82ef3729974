(** Theorems of C87: the standard atmosphere in the double-precision arithmetic of Python. *)
From Coq Require Import Reals ZArith List.
From Coq.Floats Require Import SpecFloat.
From Verif Require Import Base AtmosSpec FloatSpec FloatModel FloatAtmosModel FloatAtmosProofs FloatAtmosProofs2 FloatAtmosProofs3 FloatAtmosProofs4.
Open Scope R_scope.

(** C87: comparisons of doubles are comparisons of the numbers *)
Theorem C87_comparison (x y : spec_float) (a b : R) : double x -> double y -> stands_for x a -> stands_for y b -> (SFltb x y = true <-> a < b).
Proof. exact (comparison x y a b). Qed.
Print Assumptions C87_comparison.
Example C87_comparison_nonvacuous : double (of_int 11000) /\ stands_for (of_int 11000) 11000 /\ SFltb (of_int 11000) (of_int 11000) = false.
Proof. exact tropopause_level. Qed.

(** C87: geometric and geopotential altitudes up to 100 km *)
Theorem C87_altitudes (x : spec_float) (h : R) : double x -> stands_for x h -> in_range h -> Rabs h <= 100000 ->
  (exists r, double (fl_geom2geop x) /\ stands_for (fl_geom2geop x) r /\
    Rabs (r - 6356766 * h / (6356766 + h)) <= 3.003 * powerRZ 2 (-53) * Rabs (6356766 * h / (6356766 + h))) /\
  (exists r, double (fl_geop2geom x) /\ stands_for (fl_geop2geom x) r /\
    Rabs (r - 6356766 * h / (6356766 - h)) <= 3.003 * powerRZ 2 (-53) * Rabs (6356766 * h / (6356766 - h))) /\
  (exists r, stands_for (fl_geop2geom (fl_geom2geop x)) r /\ Rabs (r - h) <= 6.1 * powerRZ 2 (-53) * Rabs h) /\
  (exists r, stands_for (fl_geom2geop (fl_geop2geom x)) r /\ Rabs (r - h) <= 6.1 * powerRZ 2 (-53) * Rabs h).
Proof. exact (altitudes x h). Qed.
Print Assumptions C87_altitudes.
Example C87_altitudes_nonvacuous : double (of_int 11000) /\ stands_for (of_int 11000) 11000 /\ in_range 11000 /\ Rabs 11000 <= 100000.
Proof. exact eleven_km. Qed.

Theorem C87_altitudes_inverse_refuted : ~ undoes fl_geom2geop fl_geop2geom /\ ~ undoes fl_geop2geom fl_geom2geop.
Proof. exact four_metres. Qed.
Print Assumptions C87_altitudes_inverse_refuted.

(** C87: a larger geopotential altitude never gets a smaller geometric one; the other way
    this holds for altitudes at least a tenth of a nanometre apart *)
Theorem C87_altitude_order (x y : spec_float) (a b : R) : double x -> double y -> stands_for x a -> stands_for y b -> in_range a -> in_range b ->
  (0 <= a -> a <= b -> b <= 100000 -> exists r s, stands_for (fl_geop2geom x) r /\ stands_for (fl_geop2geom y) s /\ r <= s) /\
  (Rabs a <= 100000 -> Rabs b <= 100000 -> a + 0.0000000001 <= b -> exists r s, stands_for (fl_geom2geop x) r /\ stands_for (fl_geom2geop y) s /\ r < s).
Proof. exact (altitude_order x y a b). Qed.
Print Assumptions C87_altitude_order.
Example C87_altitude_order_nonvacuous : double (of_int 11000) /\ stands_for (of_int 11000) 11000 /\ in_range 11000 /\ Rabs 11000 <= 100000.
Proof. exact eleven_km. Qed.

Theorem C87_altitude_order_refuted : exists x y a b a' b', double x /\ double y /\ stands_for x a /\ stands_for y b /\ 11982 < a < b /\ b < 11983 /\
  stands_for (fl_geom2geop x) a' /\ stands_for (fl_geom2geop y) b' /\ b' < a'.
Proof. exact drop. Qed.
Print Assumptions C87_altitude_order_refuted.

(** C87: the temperature is within 2e-13 degrees of the standard one *)
Theorem C87_temperature (off alt : spec_float) (o h : R) : double off -> stands_for off o -> Rabs o <= 100 ->
  double alt -> stands_for alt h -> in_range h -> -10000 <= h <= 50000 ->
  exists t, double (fl_isatemp off alt) /\ stands_for (fl_isatemp off alt) t /\ Rabs (t - (std_temp h + o)) <= 0.0000000000002.
Proof. exact (temperature off alt o h). Qed.
Print Assumptions C87_temperature.
Example C87_temperature_nonvacuous : double (of_int 20) /\ stands_for (of_int 20) 20 /\ Rabs 20 <= 100 /\ double (of_int 11000) /\ stands_for (of_int 11000) 11000 /\ in_range 11000 /\ -10000 <= 11000 <= 50000.
Proof. exact hot_day. Qed.

(** C87: below the tropopause the temperature never rises, above it it never falls *)
Theorem C87_temperature_order (off x y : spec_float) (o a b : R) : double off -> stands_for off o -> Rabs o <= 1000 ->
  double x -> double y -> stands_for x a -> stands_for y b -> a <= b ->
  (-50000 <= a -> b < 11000 -> exists s t, stands_for (fl_isatemp off x) s /\ stands_for (fl_isatemp off y) t /\ t <= s) /\
  (11000 <= a -> b <= 50000 -> exists s t, stands_for (fl_isatemp off x) s /\ stands_for (fl_isatemp off y) t /\ s <= t).
Proof. exact (temperature_order off x y o a b). Qed.
Print Assumptions C87_temperature_order.
Example C87_temperature_order_nonvacuous : double (of_int 20) /\ stands_for (of_int 20) 20 /\ Rabs 20 <= 100 /\ double (of_int 11000) /\ stands_for (of_int 11000) 11000 /\ in_range 11000 /\ -10000 <= 11000 <= 50000.
Proof. exact hot_day. Qed.

(** C87: but it jumps up at the tropopause, by the last binary digit *)
Theorem C87_tropopause_refuted : exists x a a' b', double x /\ stands_for x a /\ 10999 < a < 11000 /\
  stands_for (fl_isatemp (of_int 0) x) a' /\ stands_for (fl_isatemp (of_int 0) (of_int 11000)) b' /\ a' < b' /\ a' < 216.65 /\ b' - a' <= 0.0000000000001.
Proof. exact tropopause. Qed.
Print Assumptions C87_tropopause_refuted.

(** C87: the ideal gas law *)
Theorem C87_gas_law (x t : spec_float) (v T : R) : double x -> stands_for x v -> in_range v -> double t -> stands_for t T -> powerRZ 2 (-60) <= T <= powerRZ 2 60 ->
  (exists r, double (fl_idealgasdens x t) /\ stands_for (fl_idealgasdens x t) r /\ Rabs (r - v / (287.05287 * T)) <= 3.003 * powerRZ 2 (-53) * Rabs (v / (287.05287 * T))) /\
  (exists r, double (fl_idealgaspress x t) /\ stands_for (fl_idealgaspress x t) r /\ Rabs (r - 287.05287 * v * T) <= 3.003 * powerRZ 2 (-53) * Rabs (287.05287 * v * T)) /\
  (exists r, stands_for (fl_idealgaspress (fl_idealgasdens x t) t) r /\ Rabs (r - v) <= 4.004 * powerRZ 2 (-53) * Rabs v) /\
  (exists r, stands_for (fl_idealgasdens (fl_idealgaspress x t) t) r /\ Rabs (r - v) <= 4.004 * powerRZ 2 (-53) * Rabs v).
Proof. exact (gas_law x t v T). Qed.
Print Assumptions C87_gas_law.
Example C87_gas_law_nonvacuous : double (of_int 101325) /\ stands_for (of_int 101325) 101325 /\ in_range 101325 /\ double (of_int 288) /\ stands_for (of_int 288) 288 /\ powerRZ 2 (-60) <= 288 <= powerRZ 2 60.
Proof. exact sea_level_air. Qed.

(** C87: more pressure or less heat never gives a smaller density *)
Theorem C87_density_order (p p' t t' : spec_float) (P P' T T' : R) : double p -> double p' -> double t -> double t' ->
  stands_for p P -> stands_for p' P' -> stands_for t T -> stands_for t' T' -> in_range P -> in_range P' ->
  powerRZ 2 (-60) <= T <= powerRZ 2 60 -> powerRZ 2 (-60) <= T' <= powerRZ 2 60 -> 0 <= P -> P <= P' -> T' <= T ->
  exists r s, stands_for (fl_idealgasdens p t) r /\ stands_for (fl_idealgasdens p' t') s /\ r <= s.
Proof. exact (density_order p p' t t' P P' T T'). Qed.
Print Assumptions C87_density_order.
Example C87_density_order_nonvacuous : double (of_int 101325) /\ stands_for (of_int 101325) 101325 /\ in_range 101325 /\ double (of_int 288) /\ stands_for (of_int 288) 288 /\ powerRZ 2 (-60) <= 288 <= powerRZ 2 60.
Proof. exact sea_level_air. Qed.

(** C87: the speed of sound *)
Theorem C87_speed_of_sound (t t' : spec_float) (T T' : R) : double t -> double t' -> stands_for t T -> stands_for t' T' ->
  powerRZ 2 (-60) <= T <= powerRZ 2 60 -> powerRZ 2 (-60) <= T' <= powerRZ 2 60 -> T <= T' ->
  exists r r', double (fl_vsound t) /\ stands_for (fl_vsound t) r /\ stands_for (fl_vsound t') r' /\ r <= r' /\
  Rabs (r - sqrt (1.4 * 287.05287 * T)) <= 3.003 * powerRZ 2 (-53) * sqrt (1.4 * 287.05287 * T).
Proof. exact (sound t t' T T'). Qed.
Print Assumptions C87_speed_of_sound.
Example C87_speed_of_sound_nonvacuous : double (of_int 288) /\ stands_for (of_int 288) 288 /\ powerRZ 2 (-60) <= 288 <= powerRZ 2 60 /\ exists r, stands_for (fl_vsound (of_int 288)) r /\ 340 < r < 341.
Proof. exact sound_at_288. Qed.
