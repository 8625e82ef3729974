(** Properties C94 and C95: the printed catalogue of engines (propulsion.py:25-124) and the
    constructor of a propeller (propulsion.py:1513-1576). *)
From Coq Require Import Ascii.
From Verif Require Import Base AtmosModel ConceptModel ConceptSpec PropulsionModel PropulsionSpec PropulsionProofs6 CatalogueModel CatalogueSpec CatalogueProofs.

(** C94: with printdata=True local_data prints one page per row of the metadata, in their
    order, and returns what it returns without printing *)
Theorem C94_printed : forall listdir metadata category, In (lowercase category) ["turboprop"; "jet"; "electric"; "piston"]%string ->
  (forall r, In r (metadata (lowercase category)) -> List.length r = 3%nat) ->
  exists text d, local_data_printed listdir metadata category PrintTrue = (text, Ok d) /\ local_data listdir metadata category = Ok d /\
    pages (lowercase category) (listdir (lowercase category)) (metadata (lowercase category)) text.
Proof. exact printed_pages. Qed.
Print Assumptions C94_printed.
(** the pages are determined by the metadata and the directory *)
Theorem C94_pages_unique : forall category listing rows t t', pages category listing rows t -> pages category listing rows t' -> t = t'.
Proof. exact pages_unique. Qed.
Print Assumptions C94_pages_unique.
Theorem C94_same_result : forall listdir metadata category p,
  snd (local_data_printed listdir metadata category p) = local_data listdir metadata category.
Proof. exact printed_result. Qed.
Print Assumptions C94_same_result.
(** anything but True prints nothing, even if it counts as true *)
Theorem C94_silent : forall listdir metadata category p, p <> PrintTrue -> fst (local_data_printed listdir metadata category p) = ""%string.
Proof. exact printed_silent. Qed.
Print Assumptions C94_silent.
Theorem C94_unknown_category : forall listdir metadata category p, ~ In (lowercase category) ["turboprop"; "jet"; "electric"; "piston"]%string ->
  local_data_printed listdir metadata category p = (""%string, Err LookupError).
Proof. exact printed_unknown. Qed.
Print Assumptions C94_unknown_category.
(** a row that does not have three fields raises after the pages of the rows before it *)
Theorem C94_bad_row : forall listdir metadata category good bad rest, In (lowercase category) ["turboprop"; "jet"; "electric"; "piston"]%string ->
  metadata (lowercase category) = (good ++ bad :: rest)%list -> (forall r, In r good -> List.length r = 3%nat) -> List.length bad <> 3%nat ->
  exists text, local_data_printed listdir metadata category PrintTrue = (text, Err ValueError) /\
    pages (lowercase category) (listdir (lowercase category)) good text.
Proof. exact printed_bad_row. Qed.
Print Assumptions C94_bad_row.
(** the data that a page lists is data that the engine's deck has.  Left out: take-off thrust
    of jets, and file names in which something stands between the kind and ".csv" *)
Theorem C94_listed_is_loaded_partial : forall read_csv read_text parse e listing,
  (forall d, jet_deck read_csv read_text parse e listing = Ok d ->
    (named e "Thrust_data" listing -> jt_thr d <> None) /\ (named e "TSFC_data" listing -> jt_tsfc d <> None)) /\
  (forall d, turboprop_deck read_csv read_text parse e listing = Ok d ->
    (named e "Thrust_data" listing -> tp_thr d <> None) /\ (named e "Power_data" listing -> tp_pwr d <> None) /\
    (named e "BSFC_data" listing -> tp_bsfc d <> None)) /\
  (forall d, piston_deck read_csv read_text parse e listing = Ok d ->
    (named e "Power_data" listing -> pi_pwr d <> None) /\ (named e "BSFC_data" listing -> pi_bsfc d <> None)) /\
  (forall d, electric_deck read_csv read_text parse e listing = Ok d -> named e "Efficiency_data" listing -> d <> None).
Proof. exact listed_loaded. Qed.
Print Assumptions C94_listed_is_loaded_partial.
(** the page of the JT8D-9 lists take-off thrust data, which its deck never reads *)
Theorem C94_take_off_refuted : forall read_csv read_text parse,
  (forall kinds items, described "jet" kinds -> listed "JT8D-9" jet_files kinds items ->
     In "Take-off thrust (N) versus Mach number at SL"%string items) /\
  jet_deck read_csv read_text parse "JT8D-9" jet_files =
  jet_deck read_csv read_text parse "JT8D-9" (filter (fun f => negb (String.eqb f "JT8D-9_Thrust_SL_TO_data.csv")) jet_files).
Proof. exact take_off_unread. Qed.
Print Assumptions C94_take_off_refuted.
(** the other way round: the best power table of the IO-540 is loaded and not listed, and
    so is a table whose file name is in lower case *)
Theorem C94_best_power_refuted :
  (forall kinds items, described "piston" kinds -> listed "IO-540" piston_files kinds items ->
     items = ["Shaft power (W) versus Engine Speed (RPM) and altitude (m)"; "BSFC (g/(kWh)) Engine Speed (RPM) and shaft power (W)"]%string) /\
  (forall kinds items, described "piston" kinds ->
     listed "IO-540" (filter (fun f => negb (String.eqb f "IO-540_BSFC_best_power_data.csv")) piston_files) kinds items ->
     items = ["Shaft power (W) versus Engine Speed (RPM) and altitude (m)"; "BSFC (g/(kWh)) Engine Speed (RPM) and shaft power (W)"]%string) /\
  forall read_csv read_text parse d, piston_deck read_csv read_text parse "IO-540" piston_files = Ok d -> pi_bsfc_pwr d <> None.
Proof. exact best_power_unlisted. Qed.
Print Assumptions C94_best_power_refuted.
Theorem C94_lower_case_refuted :
  (forall kinds items, described "jet" kinds -> listed "X1" ["X1_thrust_data.csv"]%string kinds items -> items = []) /\
  forall read_csv read_text parse d, jet_deck read_csv read_text parse "X1" ["X1_thrust_data.csv"]%string = Ok d -> jt_thr d <> None.
Proof. exact lower_case_unlisted. Qed.
Print Assumptions C94_lower_case_refuted.
Example C94_nonvacuous :
  fst (local_data_printed (fun _ => jet_files) (fun _ => [["F404-400"; " installed performance"; ""]]%string) "JET" PrintTrue) =
    text_of ["F404-400 (Jet Deck)"; "Ground-Truth Data Available:"; " > Thrust (N) versus Mach number and altitude (m)";
      "Engine Notes:"; "  installed performance"; "Reference:"; " - "; ""; ""]%string /\
  fst (local_data_printed (fun _ => []) (fun _ => [["J52"; ""; "Saarlas"]; ["J60"; ""]]%string) "jet" PrintTrue) =
    text_of ["J52 (Jet Deck)"; "Ground-Truth Data Available:"; " > "; "Engine Notes:"; " -"; "Reference:"; " Saarlas "; ""; ""]%string /\
  named "F404-400" "Thrust_data" jet_files.
Proof.
  split; [vm_compute; reflexivity|]. split; [vm_compute; reflexivity|]. exists "F404-400_Thrust_data.csv"%string. split; [cbn; tauto|]. split.
  - exists ""%string, "_Thrust_data.csv"%string. reflexivity.
  - exists "F404-400_"%string, ""%string. reflexivity.
Qed.

(** C95: the attributes of a propeller are the entries of the dictionary, False where there
    is none; the solver works to 6 decimals in at most 30 passes unless told otherwise *)
Theorem C95_attributes : forall d dp maxiter, exists p, propeller_init (PropellerDict d dp maxiter) = Ok p /\
  entry d "diameter_m" (diameter_m p) /\ entry d "bladecount" (bladecount p) /\ entry d "bladeactivityfact" (bladeactivityfact p) /\
  entry d "solidity" (solidity p) /\ entry d "idesign_cl" (idesign_cl p) /\
  (forall n, dp = Some n -> solve_dp p = n) /\ (dp = None -> solve_dp p = 6%nat) /\
  (forall n, maxiter = Some n -> solve_maxiter p = n) /\ (maxiter = None -> solve_maxiter p = 30%Z).
Proof. exact propeller_attributes. Qed.
Print Assumptions C95_attributes.
(** no propeller is the empty dictionary; another type raises *)
Theorem C95_no_dictionary : propeller_init NoPropeller = propeller_init (PropellerDict [] None None) /\ propeller_init OtherObject = Err TypeError.
Proof. split; reflexivity. Qed.
Print Assumptions C95_no_dictionary.
(** other entries are ignored without a message: a misspelt key counts as absent *)
Theorem C95_unknown_keys : forall k v l r dp maxiter, ~ In k ["diameter_m"; "bladecount"; "bladeactivityfact"; "solidity"; "idesign_cl"]%string ->
  propeller_init (PropellerDict (l ++ (k, v) :: r)%list dp maxiter) = propeller_init (PropellerDict (l ++ r)%list dp maxiter).
Proof. exact unknown_ignored. Qed.
Print Assumptions C95_unknown_keys.
(** without a diameter every efficiency is nan *)
Theorem C95_no_diameter : forall p ms hs Ps rpm q etas, diameter_m p = None -> (0 < solve_maxiter p)%Z ->
  efficiency p ms hs Ps rpm = Ok (q, etas) -> Forall (fun e => e = NonFin) etas.
Proof. exact no_diameter. Qed.
Print Assumptions C95_no_diameter.
Example C95_nonvacuous : exists p, propeller_init (PropellerDict [("diameter", Fin 2); ("bladecount", Fin 3)]%string None (Some 10%Z)) = Ok p /\
  diameter_m p = None /\ bladecount p = Some (Fin 3) /\ (0 < solve_maxiter p)%Z /\ exists q etas, efficiency p [Fin 0.5] (map Fin [0%R]) [Fin 1000] (Fin 1000) = Ok (q, etas).
Proof.
  eexists. split; [reflexivity|]. repeat split.
  destruct (efficiency_elementwise (propeller_of [("diameter", Fin 2); ("bladecount", Fin 3)]%string None (Some 10%Z)) [Fin 0.5] [0%R] [Fin 1000] (Fin 1000))
    as (etas & E & _); try reflexivity; [discriminate|constructor; [lra|constructor]|]. eexists. exists etas. exact E.
Qed.
