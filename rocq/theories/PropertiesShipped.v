(** Properties C96 and C97: the engine data shipped with the code (ADRpy/data/engine_data), as
    read by propulsion.py. *)
From Coq Require Import QArith Permutation Ascii.
From Verif Require Import Base ConceptSpec PropulsionModel PropulsionSpec ShippedModel ShippedSpec ShippedNumbers ShippedCsv ShippedProofs ShippedDecks ShippedThrust ShippedFacts.
Open Scope R_scope.

(** The reader of the files: float() reads exactly the decimal numbers *)
Theorem C96_float : forall s x, parse_float s = Some x <-> exists r, x = Fin r /\ number s r.
Proof. exact parse_number. Qed.
Print Assumptions C96_float.
(** and a table of comma separated values becomes its columns *)
Theorem C96_columns : forall header rows, header <> [] -> NoDup header -> joined "," header <> ""%string ->
  (forall s, In s header \/ (exists row, In row rows /\ In s row) -> ~ occurs "," s) ->
  (forall row, In row rows -> joined "," row <> ""%string) ->
  (forall row s, In row rows -> In s row -> s = ""%string \/ exists r, number s r) ->
  exists fr, rmap num_frame (csv_columns (joined "," header :: map (joined ",") rows)) = Ok fr /\
    forall j name, nth_error header j = Some name -> exists c, binds fr name c /\ Forall2 (fun row x => cell (nth j row ""%string) x) rows c.
Proof. exact csv_read. Qed.
Print Assumptions C96_columns.

(** C96: in the Mach range of its file the sea level thrust of a jet engine is a number
    between the bounds of the table, outside it there is none *)
Theorem C96_thrust : forall e lo hi a b d m, In (e, (lo, hi), (a, b)) thrust_ranges -> shipped_jet e d ->
  (Q2R lo <= m <= Q2R hi -> exists t, jet_sl_thrust d (Fin m) = Ok (Some (Fin t)) /\ Q2R a < t < Q2R b) /\
  (m < Q2R lo \/ Q2R hi < m -> jet_sl_thrust d (Fin m) = Ok None).
Proof. exact thrust_bounds. Qed.
Print Assumptions C96_thrust.
Theorem C96_take_off : forall e lo hi a b d m, In (e, (lo, hi), (a, b)) take_off_ranges -> shipped_jet e d ->
  (Q2R lo <= m <= Q2R hi -> exists t, jet_sl_take_off_thrust d (Fin m) = Ok (Some (Fin t)) /\ Q2R a < t < Q2R b) /\
  (m < Q2R lo \/ Q2R hi < m -> jet_sl_take_off_thrust d (Fin m) = Ok None).
Proof. exact take_off_bounds. Qed.
Print Assumptions C96_take_off.
(** the other engines have none *)
Theorem C96_others : forall e d m, In e jet_engines -> shipped_jet e d ->
  (~ In e (map (fun x => fst (fst x)) thrust_ranges) -> jet_sl_thrust d (Fin m) = Ok None) /\
  (~ In e (map (fun x => fst (fst x)) take_off_ranges) -> jet_sl_take_off_thrust d (Fin m) = Ok None).
Proof. exact no_polynomial. Qed.
Print Assumptions C96_others.
(** thrust falls with the Mach number: six of the nine engines, and all take-off thrusts *)
Theorem C96_falls : forall e d m m' t t', In e ["ATF3-6A"; "FJ-44"; "JT8D-9"; "JT9D-3"; "TF30"; "TFE731-2"]%string -> shipped_jet e d -> m < m' ->
  jet_sl_thrust d (Fin m) = Ok (Some (Fin t)) -> jet_sl_thrust d (Fin m') = Ok (Some (Fin t')) -> t' < t.
Proof. exact thrust_falls. Qed.
Print Assumptions C96_falls.
Theorem C96_take_off_falls : forall e d m m' t t', In e ["JT8D-9"; "JT9D-3"; "TFE731-5"]%string -> shipped_jet e d -> m < m' ->
  jet_sl_take_off_thrust d (Fin m) = Ok (Some (Fin t)) -> jet_sl_take_off_thrust d (Fin m') = Ok (Some (Fin t')) -> t' < t.
Proof. exact take_off_falls. Qed.
Print Assumptions C96_take_off_falls.
(** not so for the other three *)
Theorem C96_falls_refuted : forall e d, In e ["J52"; "J60"; "F404-400"]%string -> shipped_jet e d -> exists m m' t t', m < m' /\
  jet_sl_thrust d (Fin m) = Ok (Some (Fin t)) /\ jet_sl_thrust d (Fin m') = Ok (Some (Fin t')) /\ t < t'.
Proof. exact thrust_rises. Qed.
Print Assumptions C96_falls_refuted.
(** take-off thrust exceeds the normal thrust wherever both are known *)
Theorem C96_take_off_above : forall e k d m t u, In (e, k) [("JT8D-9"%string, 13000%Z); ("JT9D-3"%string, 44000%Z)] -> shipped_jet e d ->
  jet_sl_thrust d (Fin m) = Ok (Some (Fin t)) -> jet_sl_take_off_thrust d (Fin m) = Ok (Some (Fin u)) -> t + IZR k < u.
Proof. exact take_off_above. Qed.
Print Assumptions C96_take_off_above.
(** the polynomial agrees with the sea level rows of the engine's table to half a percent *)
Theorem C96_fits : forall e d t i m z p, In e (map (fun x => fst (fst x)) thrust_ranges) -> shipped_jet e d -> jt_thr d = Some t -> row t i m 0 z ->
  jet_sl_thrust d (Fin m) = Ok (Some (Fin p)) -> Rabs (p - z) <= 0.005 * z.
Proof. exact fit_spec. Qed.
Print Assumptions C96_fits.
Example C96_fits_nonvacuous : exists d t i m z p, shipped_jet "F404-400" d /\ jt_thr d = Some t /\ row t i m 0 z /\
  jet_sl_thrust d (Fin m) = Ok (Some (Fin p)) /\ Rabs (p - z) <= 0.005 * z.
Proof. exact some_fit. Qed.
(** the static take-off thrust of the JT8D-9 is not known *)
Theorem C96_static_take_off_refuted : forall d, shipped_jet "JT8D-9" d -> jet_sl_take_off_thrust d (Fin 0) = Ok None.
Proof. exact static_take_off. Qed.
Print Assumptions C96_static_take_off_refuted.
Example C96_nonvacuous : (exists d, shipped_jet "JT8D-9" d) /\ parse_float "-0.25" = Some (Fin (Q2R (-0.25))) /\ number "-0.25" (Q2R (-0.25)).
Proof.
  split; [|split; [vm_compute; reflexivity|apply (decimal_number "-0.25"); vm_compute; reflexivity]].
  destruct (jets_load "JT8D-9" jet_files) as (d & E); [cbn; intuition|apply Permutation_refl|]. exists d, jet_files. split; [apply Permutation_refl|exact E].
Qed.

(** C97: the decks of all engines load, in whatever order their files are listed *)
Theorem C97_loads :
  (forall e l, In e jet_engines -> Permutation jet_files l -> exists d, jet_deck shipped_csv shipped_text parse_float e l = Ok d) /\
  (forall e l, In e turboprop_engines -> Permutation turboprop_files l -> exists d, turboprop_deck shipped_csv shipped_text parse_float e l = Ok d) /\
  (forall l, Permutation piston_files l -> exists d, piston_deck shipped_csv shipped_text parse_float "Wasp_Major_B13" l = Ok d) /\
  (forall e l, In e electric_engines -> Permutation electric_files l -> exists d, electric_deck shipped_csv shipped_text parse_float e l = Ok (Some d)) /\
  (exists d, piston_deck shipped_csv shipped_text parse_float "IO-540" piston_files = Ok d).
Proof. exact (conj jets_load (conj turboprops_load (conj wasp_loads (conj electrics_load io540_loads)))). Qed.
Print Assumptions C97_loads.
(** except the IO-540: with its files listed in another order the constructor raises *)
Theorem C97_loads_refuted : exists l, Permutation piston_files l /\ piston_deck shipped_csv shipped_text parse_float "IO-540" l = Err KeyError.
Proof. exact io540_fails. Qed.
Print Assumptions C97_loads_refuted.
(** their tables are complete: a number in every cell, thrusts, powers and fuel consumptions
    positive, efficiencies between 0.5 and 0.97 *)
Theorem C97_jet_numbers : forall e d, In e jet_engines -> shipped_jet e d ->
  exists t, jt_thr d = Some t /\ rows_in t (fun m h f => -0.001 < m /\ 0 <= h /\ 0 < f).
Proof. exact jet_numbers. Qed.
Print Assumptions C97_jet_numbers.
Theorem C97_tsfc_numbers : forall e d, In e ["ATF3-6A"; "FJ-44"; "JT8D-9"; "JT9D-3"; "TF30"; "TFE731-5"]%string -> shipped_jet e d ->
  exists t, jt_tsfc d = Some t /\ rows_in t (fun m f c => 0 < m /\ 0 < f /\ 0 < c).
Proof. exact tsfc_numbers. Qed.
Print Assumptions C97_tsfc_numbers.
Theorem C97_tsfc_numbers_refuted : forall e d, In e ["J52"; "J60"]%string -> shipped_jet e d ->
  exists t i, jt_tsfc d = Some t /\ nth_error (tx t) i = Some NonFin.
Proof. exact tsfc_gaps. Qed.
Print Assumptions C97_tsfc_numbers_refuted.
Theorem C97_turboprop_numbers : forall e d, In e turboprop_engines -> shipped_turboprop e d ->
  (exists t, tp_thr d = Some t /\ rows_in t (fun m h f => -0.001 < m /\ 0 <= h /\ 0 < f)) /\
  (exists t, tp_pwr d = Some t /\ rows_in t (fun m h w => 0 <= m /\ 0 <= h /\ 0 < w)) /\
  (exists t, tp_bsfc d = Some t /\ rows_in t (fun m h b => 0 <= m /\ 0 <= h /\ 0 < b)).
Proof. exact turboprop_numbers. Qed.
Print Assumptions C97_turboprop_numbers.
Theorem C97_piston_numbers : forall e d, In e piston_engines -> shipped_piston e d ->
  (exists t, pi_pwr d = Some t /\ rows_in t (fun n h w => 1000 < n /\ -11 < h /\ 0 < w)) /\
  (exists t, pi_bsfc d = Some t /\ rows_in t (fun n w b => 1000 < n /\ 0 < w /\ 0 < b)).
Proof. exact piston_numbers. Qed.
Print Assumptions C97_piston_numbers.
Theorem C97_electric_numbers : forall e d, In e electric_engines -> shipped_electric e d ->
  rows_in (el_tab d) (fun n q eff => 0 < n /\ 0 < q /\ 0.5 <= eff < 0.97).
Proof. exact electric_numbers. Qed.
Print Assumptions C97_electric_numbers.
(** the corrections divide by the largest value of the table, meant to be the one at sea
    level: so it is for eight jets and the T56-A *)
Theorem C97_largest :
  (forall e d, In e ["ATF3-6A"; "FJ-44"; "J52"; "J60"; "JT8D-9"; "JT9D-3"; "TF30"; "TFE731-2"]%string -> shipped_jet e d ->
     exists t i m z, jt_thr d = Some t /\ row t i m 0 z /\ forall j m' h' z', row t j m' h' z' -> z' <= z) /\
  (forall d, shipped_turboprop "T56-A" d ->
     exists t i m z, tp_pwr d = Some t /\ row t i m 0 z /\ forall j m' h' z', row t j m' h' z' -> z' <= z).
Proof. exact (conj jet_largest t56_sea_level). Qed.
Print Assumptions C97_largest.
(** but not for these: a value aloft exceeds all those at sea level *)
Theorem C97_largest_refuted :
  (forall e d, In e ["F404-400"; "TFE731-5"]%string -> shipped_jet e d ->
     exists t i m h z, jt_thr d = Some t /\ 0 < h /\ row t i m h z /\ forall j m' z', row t j m' 0 z' -> z' < z) /\
  (forall d, shipped_turboprop "Tyne_RTy11" d ->
     exists t i m h z, tp_pwr d = Some t /\ 0 < h /\ row t i m h z /\ forall j m' z', row t j m' 0 z' -> z' < z).
Proof. exact (conj jet_largest_aloft tyne_aloft). Qed.
Print Assumptions C97_largest_refuted.
(** where tables end: no thrust of the TFE731-5 below 6096 m, no power of the Wasp Major at
    sea level, no fuel consumption of the T56-A below 3048 m, at any speed *)
Theorem C97_sea_level_refuted : forall grid, no_extrapolation grid ->
  (forall d m h, shipped_jet "TFE731-5" d -> h < 6096 -> jt_thrust grid d (VNum (Fin m)) (VNum (Fin h)) = Ok (Some (VNum NonFin))) /\
  (forall d n h, shipped_piston "Wasp_Major_B13" d -> h <= 1 -> pi_shaftpower grid d (VNum (Fin n)) (VNum (Fin h)) = Ok (Some (VNum NonFin))) /\
  (forall d m h, shipped_turboprop "T56-A" d -> h < 3048 -> tp_bsfc_at grid d (VNum (Fin m)) (VNum (Fin h)) = Ok (Some (VNum NonFin))).
Proof. exact (fun g NE => conj (tfe_low g NE) (conj (wasp_sea_level g NE) (t56_bsfc_low g NE))). Qed.
Print Assumptions C97_sea_level_refuted.
(** no static thrust, at any altitude, although the sea level polynomials give one *)
Theorem C97_static_refuted : forall grid, no_extrapolation grid ->
  (forall e d h, In e ["ATF3-6A"; "F404-400"; "FJ-44"; "J60"; "TF30"; "TFE731-5"]%string -> shipped_jet e d ->
     jt_thrust grid d (VNum (Fin 0)) (VNum (Fin h)) = Ok (Some (VNum NonFin))) /\
  (forall d h, shipped_turboprop "T56-A" d -> tp_shaftpower grid d (VNum (Fin 0)) (VNum (Fin h)) = Ok (Some (VNum NonFin))).
Proof. exact (fun g NE => conj (static_nan g NE) (t56_static g NE)). Qed.
Print Assumptions C97_static_refuted.
(** and no fuel consumption below the first Mach number of the table, whatever the thrust *)
Theorem C97_slow_tsfc_refuted : forall grid, no_extrapolation grid -> forall e k d m f, In (e, k) tsfc_starts -> shipped_jet e d -> m <= Q2R k ->
  jt_tsfc_at grid d (VNum (Fin m)) (VNum (Fin f)) = Ok (Some (VNum NonFin)).
Proof. exact tsfc_low. Qed.
Print Assumptions C97_slow_tsfc_refuted.
Example C97_nonvacuous : (exists d, shipped_jet "TFE731-5" d) /\ (exists d, shipped_turboprop "T56-A" d) /\
  (exists d, shipped_piston "IO-540" d) /\ (exists d, shipped_electric "JMX57" d) /\ (exists grid, no_extrapolation grid).
Proof.
  split; [destruct (jets_load "TFE731-5" jet_files) as (d & E); [cbn; intuition|apply Permutation_refl|]; exists d, jet_files; split; [apply Permutation_refl|exact E]|].
  split; [destruct (turboprops_load "T56-A" turboprop_files) as (d & E); [cbn; intuition|apply Permutation_refl|]; exists d, turboprop_files; split; [apply Permutation_refl|exact E]|].
  split; [destruct io540_loads as (d & E); exists d, piston_files; split; [apply Permutation_refl|exact E]|].
  split; [destruct (electrics_load "JMX57" electric_files) as (d & E); [cbn; intuition|apply Permutation_refl|]; exists d, electric_files; split; [apply Permutation_refl|exact E]|].
  exists (fun _ _ _ _ _ => NonFin). split; [|split]; reflexivity.
Qed.
