(** Runways, handbook profiles and weather reports: property theorems. *)
From Coq Require Import Ascii.
From Verif Require Import Base UnitsModel AtmosModel RunwayModel RunwaySpec RunwayProofs RunwayProofs2.
Open Scope R_scope.

(** C15: wind components. *)
Theorem C15_components : forall rw h d w, le_heading_degt rw = Fin h ->
  exists a c, windcomponents rw (VNum (Fin d)) (VNum (Fin w)) = Ok (VNum (Fin a), VNum (Fin c)) /\
   wind_resolved h d (Rabs w) a c.
Proof. exact wind_scalar. Qed.
Print Assumptions C15_components.
Theorem C15_components_elementwise : forall rw h ds ws,
  le_heading_degt rw = Fin h -> List.length ds = List.length ws ->
  forall dv, dv = VList (map Fin ds) \/ dv = VArr (map Fin ds) ->
  exists hs cs, windcomponents rw dv (VList (map Fin ws)) = Ok (VArr (map Fin hs), VArr (map Fin cs)) /\
   List.length hs = List.length ds /\ List.length cs = List.length ds /\
   forall n d w, nth_error ds n = Some d -> nth_error ws n = Some w ->
     exists a c, nth_error hs n = Some a /\ nth_error cs n = Some c /\ wind_resolved h d (Rabs w) a c.
Proof. exact wind_arrays. Qed.
Print Assumptions C15_components_elementwise.
Theorem C15_full_turn : forall rw h d w, le_heading_degt rw = Fin h ->
  windcomponents rw (VNum (Fin (d + 360))) (VNum (Fin w)) = windcomponents rw (VNum (Fin d)) (VNum (Fin w)).
Proof. exact wind_full_turn. Qed.
Print Assumptions C15_full_turn.
Theorem C15_reversed : forall rw h d w, le_heading_degt rw = Fin h -> exists a c,
  windcomponents rw (VNum (Fin d)) (VNum (Fin w)) = Ok (VNum (Fin a), VNum (Fin c)) /\
  windcomponents rw (VNum (Fin (d + 180))) (VNum (Fin w)) = Ok (VNum (Fin (- a)), VNum (Fin (- c))).
Proof. exact wind_reversed. Qed.
Print Assumptions C15_reversed.
Theorem C15_sign_immaterial : forall rw d w,
  windcomponents rw (VNum d) (VNum (Fin (- w))) = windcomponents rw (VNum d) (VNum (Fin w)).
Proof. exact wind_sign. Qed.
Print Assumptions C15_sign_immaterial.
Theorem C15_axes : forall rw h w, le_heading_degt rw = Fin h -> 0 <= w ->
  windcomponents rw (VNum (Fin h)) (VNum (Fin w)) = Ok (VNum (Fin w), VNum (Fin 0)) /\
  windcomponents rw (VNum (Fin (h + 90))) (VNum (Fin w)) = Ok (VNum (Fin 0), VNum (Fin w)).
Proof. exact wind_axes. Qed.
Print Assumptions C15_axes.
Theorem C15_mismatched_lists_raise : forall rw h ds ws, le_heading_degt rw = Fin h ->
  (2 <= List.length ds)%nat -> (2 <= List.length ws)%nat -> List.length ds <> List.length ws ->
  windcomponents rw (VList (map Fin ds)) (VList (map Fin ws)) = Err ValueError.
Proof. exact wind_mismatch. Qed.
Print Assumptions C15_mismatched_lists_raise.
(** Several speeds from one direction: all but the first are silently dropped. *)
Theorem C15_several_speeds_refuted : forall rw h d w ws, le_heading_degt rw = Fin h ->
  windcomponents rw (VNum (Fin d)) (VList (map Fin (w :: ws))) =
  windcomponents rw (VNum (Fin d)) (VNum (Fin w)).
Proof. exact wind_drops. Qed.
Print Assumptions C15_several_speeds_refuted.
Example C15_nonvacuous : exists rw, runway_custom (Fin 83) (Fin 90) "asp" (Fin 5000) (Fin 100) = Ok rw /\
  le_heading_degt rw = Fin 90.
Proof. destruct (custom_runway (Fin 83) 90 "asp" (Fin 5000) (Fin 100) ltac:(lra)) as (rw & r & li & hi & A & B & _). eauto. Qed.

(** C16: database lookup. *)
Theorem C16_nth_runway_of_airport : forall pfloat db code pre mid post n,
  consecutive db code pre mid post -> (n < List.length mid)%nat ->
  exists row, nth_error mid n = Some row /\
    runway_lookup pfloat db code (Z.of_nat n) =
    rmap (fun rw => (Z.of_nat (List.length mid), rw)) (runway_of_row pfloat row).
Proof. exact lookup_consecutive. Qed.
Print Assumptions C16_nth_runway_of_airport.
Theorem C16_number_too_large_raises : forall pfloat db code n,
  Forall (fun r => (3 <= List.length r)%nat) db ->
  (Z.of_nat (List.length (rows_of db code)) <= n)%Z ->
  runway_lookup pfloat db code n = Err ValueError.
Proof. exact lookup_too_large. Qed.
Print Assumptions C16_number_too_large_raises.
Theorem C16_unknown_airport_raises : forall pfloat db code n rw,
  (forall r, In r db -> ~ of_airport code r) -> runway_lookup pfloat db code n <> Ok rw.
Proof. exact lookup_unknown. Qed.
Print Assumptions C16_unknown_airport_raises.
Theorem C16_attributes_from_columns : forall pfloat r rw, runway_of_row pfloat r = Ok rw ->
  (forall name get, In (name, get) text_attrs -> exists s, column header r name = Some s /\ get rw = AText s) /\
  (forall name get, In (name, get) number_attrs ->
     exists s x, column header r name = Some s /\ pfloat s = Some x /\ get rw = x) /\
  (forall name get, In (name, get) threshold_attrs ->
     exists s, column header r name = Some s /\
       get rw = match pfloat s with Some x => x | None => NonFin end) /\
  column header r "airport_ident" = Some (airport_ident rw) /\
  column header r "surface" = Some (surface rw).
Proof. exact row_attributes. Qed.
Print Assumptions C16_attributes_from_columns.
(** exactly the rows with six readable numbers can be used *)
Theorem C16_usable_rows : forall pfloat r, (20 <= List.length r)%nat ->
  ((exists rw, runway_of_row pfloat r = Ok rw) <->
   forall name, In name (map fst number_attrs) ->
     exists s x, column header r name = Some s /\ pfloat s = Some x) /\
  ((forall rw, runway_of_row pfloat r <> Ok rw) -> runway_of_row pfloat r = Err ValueError).
Proof. exact row_usable. Qed.
Print Assumptions C16_usable_rows.
(** violated for negative numbers, and for airports with scattered rows *)
Theorem C16_negative_number_refuted : exists db code n rw,
  consecutive db code [sample_row "1" "AAAA"] [sample_row "2" "BBBB"] [] /\
  runway_lookup sample_float db code n = Ok rw /\ (n < 0)%Z /\ airport_ident (snd rw) <> code.
Proof. exact lookup_negative. Qed.
Print Assumptions C16_negative_number_refuted.
Theorem C16_scattered_rows_refuted : exists db code rw,
  List.length (rows_of db code) = 2%nat /\
  runway_lookup sample_float db code 1 = Ok rw /\ airport_ident (snd rw) <> code.
Proof. exact lookup_scattered. Qed.
Print Assumptions C16_scattered_rows_refuted.
Example C16_nonvacuous : exists rw, consecutive [sample_row "1" "AAAA"; sample_row "2" "BBBB"] "BBBB"
    [sample_row "1" "AAAA"] [sample_row "2" "BBBB"] [] /\
  runway_lookup sample_float [sample_row "1" "AAAA"; sample_row "2" "BBBB"] "BBBB" 0 = Ok (1%Z, rw).
Proof.
  eexists. split; [|reflexivity].
  split; [reflexivity|]. split; repeat constructor; try (simpl; lia). unfold of_airport. cbn. discriminate.
Qed.

(** C55: METAR history files. *)
Theorem C55_equals_terminated : forall rs, rs <> [] -> Forall plain rs ->
  readmethistfile (Some (file_of (text "=") rs)) = Ok (Some rs).
Proof. exact read_equals. Qed.
Print Assumptions C55_equals_terminated.
Theorem C55_newline_terminated : forall rs c r0 rest,
  rs = (r0 ++ [c]) :: rest -> c <> "="%char -> Forall plain rs ->
  readmethistfile (Some (file_of [] rs)) = Ok (Some rs).
Proof. exact read_plain. Qed.
Print Assumptions C55_newline_terminated.
Theorem C55_missing_file : readmethistfile None = Ok None.
Proof. exact (proj2 read_empty). Qed.
Print Assumptions C55_missing_file.
(** violated when the last line is not terminated ... *)
Theorem C55_unterminated_last_refuted : forall rs c r0 rest last d,
  rs = (r0 ++ [c]) :: rest -> c <> "="%char -> Forall plain rs -> plain (last ++ [d]) ->
  readmethistfile (Some (file_of [] rs ++ last ++ [d])) = Ok (Some (rs ++ [last])).
Proof. exact read_unterminated. Qed.
Print Assumptions C55_unterminated_last_refuted.
(** ... when only the first line has an equal sign ... *)
Theorem C55_mixed_terminators_refuted : forall r0 last d, plain r0 -> plain (last ++ [d]) ->
  readmethistfile (Some (file_of (text "=") [r0] ++ file_of [] [last ++ [d]])) = Ok (Some [r0; last]).
Proof. exact read_mixed_loses. Qed.
Print Assumptions C55_mixed_terminators_refuted.
(** ... and for an empty file. *)
Theorem C55_empty_file_refuted : readmethistfile (Some []) = Err IndexError.
Proof. exact (proj1 read_empty). Qed.
Print Assumptions C55_empty_file_refuted.
Example C55_nonvacuous : Forall plain [text "EGLL 311320Z"; text "EGHI 311320Z"] /\
  file_of (text "=") [text "EGLL 311320Z"; text "EGHI 311320Z"] <> [].
Proof.
  split; [|discriminate].
  repeat constructor; unfold plain; intros H; repeat (destruct H as [H|H]; [discriminate|]); exact H.
Qed.

(** C57: handbook profiles. *)
Theorem C57_profiles_of_table : forall datadir cwd hl td alt tb,
  (datadir (m310file hl td alt) = Some (columns_of tb) \/
   (datadir (m310file hl td alt) = None /\ cwd (m310file hl td alt) = Some (columns_of tb))) ->
  rectangular tb ->
  (td = "temp"%string -> Forall (fun x => 0 <= x) (extreme1 tb ++ extreme10 tb) ->
   exists p1 p10, mil_hdbk_310 datadir cwd hl td alt = Ok (Some (p1, p10)) /\
     alt_m p1 = map (fun k => k * 1000) (km tb) /\ alt_m p10 = map (fun k => k * 1000) (km tb) /\
     temp_k p1 = extreme1 tb /\ rho_kgpm3 p1 = associated1 tb /\
     temp_k p10 = extreme10 tb /\ rho_kgpm3 p10 = associated10 tb) /\
  (td <> "temp"%string -> Forall (fun x => 0 <= x) (associated1 tb ++ associated10 tb) ->
   exists p1 p10, mil_hdbk_310 datadir cwd hl td alt = Ok (Some (p1, p10)) /\
     alt_m p1 = map (fun k => k * 1000) (km tb) /\ alt_m p10 = map (fun k => k * 1000) (km tb) /\
     rho_kgpm3 p1 = extreme1 tb /\ temp_k p1 = associated1 tb /\
     rho_kgpm3 p10 = extreme10 tb /\ temp_k p10 = associated10 tb).
Proof. exact m310_profiles. Qed.
Print Assumptions C57_profiles_of_table.
Theorem C57_selectors_distinguished : forall hl td a hl' td' a',
  In hl ["high"; "low"]%string -> In hl' ["high"; "low"]%string ->
  In td ["temp"; "dens"]%string -> In td' ["temp"; "dens"]%string ->
  m310file hl td a = m310file hl' td' a' -> hl = hl' /\ td = td' /\ a = a'.
Proof. exact m310name_inj. Qed.
Print Assumptions C57_selectors_distinguished.
Theorem C57_wrong_columns_raise : forall datadir cwd hl td alt cols,
  datadir (m310file hl td alt) = Some cols -> List.length cols <> 5%nat ->
  mil_hdbk_310 datadir cwd hl td alt = Err ValueError.
Proof. exact m310_wrong_columns. Qed.
Print Assumptions C57_wrong_columns_raise.
(** untabulated combinations do not raise: a pair of Nones is returned *)
Theorem C57_untabulated_raises_refuted : forall datadir cwd hl td alt,
  datadir (m310file hl td alt) = None -> cwd (m310file hl td alt) = None ->
  mil_hdbk_310 datadir cwd hl td alt = Ok None.
Proof. exact m310_missing. Qed.
Print Assumptions C57_untabulated_raises_refuted.
Example C57_nonvacuous : rectangular sample_table /\
  Forall (fun x => 0 <= x) (extreme1 sample_table ++ extreme10 sample_table).
Proof. exact sample_rect. Qed.

(** C58: custom runways. *)
Theorem C58_custom_runway : forall e h surf l w, 0 < h <= 360 -> exists rw r li hi,
  runway_custom e (Fin h) surf l w = Ok rw /\
  le_heading_degt rw = Fin h /\ he_heading_degt rw = Fin r /\ (r = h + 180 \/ r = h - 180) /\ 0 < r <= 360 /\
  le_ident rw = AInt li /\ he_ident rw = AInt hi /\
  IZR li <= h / 10 < IZR li + 1 /\ IZR hi <= r / 10 < IZR hi + 1 /\
  length_ft rw = l /\ width_ft rw = w /\ surface rw = surf /\
  le_elevation_ft rw = e /\ he_elevation_ft rw = e /\
  le_displaced_threshold_ft rw = Fin 0 /\ he_displaced_threshold_ft rw = Fin 0 /\
  ident rw = AText "0000000" /\ airport_ref rw = AText "0000" /\ airport_ident rw = "CUST"%string /\ lighted rw = AInt 1 /\ closed rw = AInt 0 /\
  le_latitude_deg rw = AInt 0 /\ le_longitude_deg rw = AInt 0 /\ he_latitude_deg rw = AInt 0 /\ he_longitude_deg rw = AInt 0.
Proof. exact custom_runway. Qed.
Print Assumptions C58_custom_runway.
Theorem C58_metric_attributes : forall rw x,
  (length_ft rw = Fin x -> length_m rw = Fin (0.3048 * x)) /\
  (width_ft rw = Fin x -> width_m rw = Fin (0.3048 * x)) /\
  (le_elevation_ft rw = Fin x -> le_elevation_m rw = Fin (0.3048 * x)) /\
  (he_elevation_ft rw = Fin x -> he_elevation_m rw = Fin (0.3048 * x)) /\
  (le_displaced_threshold_ft rw = Fin x -> le_displaced_threshold_m rw = Fin (0.3048 * x)) /\
  (he_displaced_threshold_ft rw = Fin x -> he_displaced_threshold_m rw = Fin (0.3048 * x)).
Proof. exact metric_attributes. Qed.
Print Assumptions C58_metric_attributes.
Example C58_nonvacuous : 0 < 270 <= 360. Proof. lra. Qed.

(** C59: METAR decoding. *)
Theorem C59_decodable_untouched : forall M (parse : list ascii -> option M) s m,
  parse s = Some m -> decodemetar parse s = Some m.
Proof. exact @decode_ok. Qed.
Print Assumptions C59_decodable_untouched.
Theorem C59_only_day_replaced : forall M (parse : list ascii -> option M) a b c d x y rest,
  parse ([a; b; c; d; " "%char; x; y] ++ rest) = None ->
  decodemetar parse ([a; b; c; d; " "%char; x; y] ++ rest) =
  parse ([a; b; c; d] ++ text " 28" ++ rest).
Proof. exact @decode_retry. Qed.
Print Assumptions C59_only_day_replaced.
(** a report that starts with its type is mangled: the day is not replaced and the
    report stays undecodable *)
Theorem C59_typed_report_refuted :
  (forall M (parse : list ascii -> option M) e g rest,
   parse (text "METAR " ++ e :: g :: rest) = None ->
   decodemetar parse (text "METAR " ++ e :: g :: rest) = parse (text "META 28" ++ g :: rest)) /\
  (only_28 (text "METAR EGLL 281320Z") = Some tt /\
   decodemetar only_28 (text "METAR EGLL 311320Z") = None).
Proof. exact (conj (@decode_prefixed) decode_prefix_fails). Qed.
Print Assumptions C59_typed_report_refuted.
Example C59_nonvacuous : only_28 (text "METAR EGLL 311320Z") = None. Proof. reflexivity. Qed.
