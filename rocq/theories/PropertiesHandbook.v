(** Property C100: the MIL-HDBK-310 atmospheres shipped with the code (ADRpy/data/_MHDBK310),
    as read by atmospheres.py:841-872. *)
From Coq Require Import QArith Ascii.
From Verif Require Import Base AtmosModel PropulsionSpec RunwayModel RunwaySpec ShippedSpec HandbookModel HandbookSpec HandbookReader HandbookProofs HandbookFacts HandbookCases.
Open Scope R_scope.

(** The reader: decimal numbers with or without an exponent, and tables separated by blanks *)
Theorem C100_number : forall s r, (exists q, sci s = Some q /\ Q2R q = r) <-> scientific s r.
Proof. exact sci_scientific. Qed.
Print Assumptions C100_number.
Theorem C100_table : forall rows vals n, rows <> [] -> (0 < n)%nat -> (forall row, In row rows -> List.length row = n) ->
  Forall2 (Forall2 scientific) rows vals -> (forall row s, In row rows -> In s row -> ~ occurs " " s) ->
  exists cols, loadtxt (map (joined " ") rows) = Ok cols /\ List.length cols = n /\
    forall i j v, (exists r, nth_error vals i = Some r /\ nth_error r j = Some v) <-> exists c, nth_error (map (map Q2R) cols) j = Some c /\ nth_error c i = Some v.
Proof. exact loadtxt_table. Qed.
Print Assumptions C100_table.

(** every combination of selectors loads two profiles with a level every 2 km up to 80 km *)
Theorem C100_loads : forall hl td alt cwd, In hl highs_lows -> In td quantities -> In alt altitudes ->
  exists p1 p10, mil_hdbk_310 handbook_dir cwd hl td alt = Ok (Some (p1, p10)) /\
    alt_m p1 = map (fun k => 2000 * INR k) (seq 0 41) /\ alt_m p10 = map (fun k => 2000 * INR k) (seq 0 41).
Proof. exact hb_loads. Qed.
Print Assumptions C100_loads.
(** no other altitude is shipped *)
Theorem C100_others : forall hl td alt, In hl highs_lows -> In td quantities -> handbook_dir (m310file hl td alt) = None <-> ~ In alt altitudes.
Proof. exact hb_others. Qed.
Print Assumptions C100_others.
(** so the altitude 5.0 finds nothing, where 5 does *)
Theorem C100_decimal_altitude_refuted : forall hl td cwd, In hl highs_lows -> In td quantities -> cwd (m310file hl td "5.0") = None ->
  mil_hdbk_310 handbook_dir cwd hl td "5.0" = Ok None.
Proof. exact hb_decimal_altitude. Qed.
Print Assumptions C100_decimal_altitude_refuted.

(** every altitude up to 80 km is answered, no other *)
Theorem C100_range : forall hl td alt f a h, handbook hl td alt f a ->
  (0 <= h <= 80000 -> exists rho T p, density a h rho /\ temperature a h T /\ pressure a h p) /\
  (h < 0 \/ 80000 < h -> airdens_kgpm3 a (VNum (Fin h)) = Err TypeError /\ airtemp_k a (VNum (Fin h)) = Err TypeError /\ airpress_pa a (VNum (Fin h)) = Err TypeError).
Proof. exact hb_range. Qed.
Print Assumptions C100_range.
Theorem C100_density : forall hl td alt f a h rho, handbook hl td alt f a -> density a h rho -> 0 < rho < 1.7.
Proof. exact hb_density. Qed.
Print Assumptions C100_density.
Theorem C100_temperature : forall hl td alt f a h T, handbook hl td alt f a -> ~ frozen hl td alt f -> temperature a h T -> 163 < T < 302.
Proof. exact hb_temperature. Qed.
Print Assumptions C100_temperature.
(** one file has a temperature of 263e-650 K where 263.650 K is meant: the air at 50 km is at
    absolute zero (0.0 in double precision), without pressure, below air with pressure *)
Theorem C100_temperature_refuted : forall a, handbook "high" "dens" "10" ten a -> exists T p p', temperature a 50000 T /\ 0 < T < 0.000000001 /\
  pressure a 50000 p /\ p < 0.000000001 /\ pressure a 52000 p' /\ 50 < p'.
Proof. exact hb_frozen. Qed.
Print Assumptions C100_temperature_refuted.
(** density and pressure fall with altitude *)
Theorem C100_density_falls : forall hl td alt f a h h' x x', handbook hl td alt f a -> ~ inverted hl td alt f -> h < h' -> density a h x -> density a h' x' -> x' < x.
Proof. exact hb_density_falls. Qed.
Print Assumptions C100_density_falls.
Theorem C100_pressure_falls : forall hl td alt f a h h' x x', handbook hl td alt f a -> ~ inverted hl td alt f -> ~ frozen hl td alt f -> h < h' ->
  pressure a h x -> pressure a h' x' -> x' < x.
Proof. exact hb_pressure_falls. Qed.
Print Assumptions C100_pressure_falls.
(** except in three profiles, where they rise between the altitudes listed *)
Theorem C100_falls_refuted : forall hl td alt f a h h', In (hl, td, alt, f, (h, h')) inversions -> handbook hl td alt f a ->
  exists x x' p p', density a h x /\ density a h' x' /\ x < x' /\ pressure a h p /\ pressure a h' p' /\ p < p'.
Proof. exact hb_rises. Qed.
Print Assumptions C100_falls_refuted.
(** at the altitude in the name the profile of one per cent is more extreme than that of ten *)
Theorem C100_extreme : forall hl td alt a b h x y, handbook hl td alt one a -> handbook hl td alt ten b -> named_altitude alt h -> quantity td a h x -> quantity td b h y ->
  (hl, td, alt) <> ("high", "dens", "5")%string -> (hl = "high"%string -> y < x) /\ (hl = "low"%string -> x < y).
Proof. exact hb_extreme. Qed.
Print Assumptions C100_extreme.
Theorem C100_extreme_refuted : forall a b x y, handbook "high" "dens" "5" one a -> handbook "high" "dens" "5" ten b -> density a 5000 x -> density b 5000 y -> x < y.
Proof. exact hb_extreme_not. Qed.
Print Assumptions C100_extreme_refuted.
(** each of these profiles exists *)
Theorem C100_exists : forall hl td alt f, In hl highs_lows -> In td quantities -> In alt altitudes -> exists a, handbook hl td alt f a.
Proof. exact hb_exists. Qed.
Print Assumptions C100_exists.
Example C100_nonvacuous : exists a x, handbook "high" "dens" "10" one a /\ density a 10000 x /\ x = 0.4342 /\ named_altitude "10" 10000.
Proof. exact hb_case. Qed.
