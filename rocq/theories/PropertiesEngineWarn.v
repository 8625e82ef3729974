(** Property C92: the warnings of the engine decks (propulsion.py:215-1415, 1866-1902). *)
From Verif Require Import Base AtmosModel ConceptModel PropulsionModel PropulsionSpec PropulsionProofs6 PropulsionProofs9
  EngineWarnModel EngineWarnSpec EngineWarnProofs.
Open Scope R_scope.

(** the methods with their warnings have the outcomes of the methods of C50 to C77 *)
Theorem C92_outcomes : forall grid,
  (forall d m h, snd (tp_hotthrust_w grid d m h) = tp_hotthrust grid d m h) /\
  (forall d m h, snd (tp_shaftpower_w grid d m h) = tp_shaftpower grid d m h) /\
  (forall d m h, snd (tp_bsfc_at_w grid d m h) = tp_bsfc_at grid d m h) /\
  (forall d m h rpm p, snd (tp_coldthrust_w grid d m h rpm p) = tp_coldthrust grid d m h rpm p) /\
  (forall d m h rpm p, snd (tp_thrust_w grid d m h rpm p) = tp_thrust grid d m h rpm p) /\
  (forall d m h, snd (tp_sl_powercorr_w grid d m h) = tp_sl_powercorr grid d m h) /\
  (forall d m h rpm p, snd (tp_tsfc_w grid d m h rpm p) = tp_tsfc grid d m h rpm p) /\
  (forall d r h, snd (pi_shaftpower_w grid d r h) = pi_shaftpower grid d r h) /\
  (forall d r w b, snd (pi_bsfc_at_w grid d r w b) = pi_bsfc_at grid d r w b) /\
  (forall d m h rpm p, snd (pi_thrust_w grid d m h rpm p) = pi_thrust grid d m h rpm p) /\
  (forall d r h, snd (pi_sl_powercorr_w grid d r h) = pi_sl_powercorr grid d r h) /\
  (forall d m h rpm p b, snd (pi_tsfc_w grid d m h rpm p b) = pi_tsfc grid d m h rpm p b) /\
  (forall d r t, snd (el_efficiency_w grid d r t) = el_efficiency grid d r t) /\
  (forall d r t, snd (el_bsec_w grid d r t) = el_bsec grid d r t) /\
  (forall w m h rpm p, snd (el_thrust_w w m h rpm p) = el_thrust w m h rpm p) /\
  (forall d m h, snd (jt_thrust_w grid d m h) = jt_thrust grid d m h) /\
  (forall d m t, snd (jt_tsfc_at_w grid d m t) = jt_tsfc_at grid d m t) /\
  (forall d m h, snd (jt_sl_thrustcorr_w grid d m h) = jt_sl_thrustcorr grid d m h) /\
  (forall d m, snd (jet_sl_thrust_w d m) = jet_sl_thrust d m) /\
  (forall d m, snd (jet_sl_take_off_thrust_w d m) = jet_sl_take_off_thrust d m).
Proof. exact engine_outcomes. Qed.
Print Assumptions C92_outcomes.

(** a look-up warns exactly when it has no data and returns None; the warning names the
    quantity and the type of deck *)
Theorem C92_queries : forall grid,
  (forall d m h, answers (tp_thr d <> None) (NoData "Hot thrust data" "turboprop") (tp_hotthrust_w grid d m h)) /\
  (forall d m h, answers (tp_pwr d <> None) (NoData "power data" "turboprop") (tp_shaftpower_w grid d m h)) /\
  (forall d r h, answers (pi_pwr d <> None) (NoData "power data" "piston") (pi_shaftpower_w grid d r h)) /\
  (forall d r w, answers (pi_bsfc d <> None) (NoData "BSFC for best economy condition" "piston")
                         (pi_bsfc_at_w grid d r w "economy")) /\
  (forall d r w, answers (pi_bsfc_pwr d <> None) (NoData "BSFC for best power condition" "piston")
                         (pi_bsfc_at_w grid d r w "power")) /\
  (forall d r w b, b <> "economy"%string -> b <> "power"%string ->
     answers False (UnknownBest b) (pi_bsfc_at_w grid d r w b)) /\
  (forall d r t, answers (d <> None) (NoData "efficiency data" "electric") (el_efficiency_w grid d r t)) /\
  (forall d m h, answers (jt_thr d <> None) (NoData "Thrust data" "jet") (jt_thrust_w grid d m h)) /\
  (forall d m t, answers (jt_tsfc d <> None) (NoData "TSFC" "jet") (jt_tsfc_at_w grid d m t)).
Proof. exact table_queries. Qed.
Print Assumptions C92_queries.
(** but a turboprop without fuel consumption data is said to lack the thrust specific one,
    when the power specific one was asked for *)
Theorem C92_bsfc_named_refuted : forall grid d m h,
  answers (tp_bsfc d <> None) (NoData "TSFC" "turboprop") (tp_bsfc_at_w grid d m h).
Proof. exact bsfc_named. Qed.
Print Assumptions C92_bsfc_named_refuted.

(** a method that combines look-ups and succeeds has warned only that it sized a propeller
    of its own, once, if none was given *)
Theorem C92_success : forall grid,
  (forall d m h rpm p r, tp_coldthrust grid d m h rpm p = Ok r -> fst (tp_coldthrust_w grid d m h rpm p) = propeller_warning p) /\
  (forall d m h rpm p r, tp_thrust grid d m h rpm p = Ok r -> fst (tp_thrust_w grid d m h rpm p) = propeller_warning p) /\
  (forall d m h rpm p r, tp_tsfc grid d m h rpm p = Ok r -> fst (tp_tsfc_w grid d m h rpm p) = propeller_warning p) /\
  (forall d m h rpm p r, pi_thrust grid d m h rpm p = Ok r -> fst (pi_thrust_w grid d m h rpm p) = propeller_warning p) /\
  (forall d m h rpm p b r, pi_tsfc grid d m h rpm p b = Ok r -> fst (pi_tsfc_w grid d m h rpm p b) = propeller_warning p) /\
  (forall w m h rpm p r, el_thrust w m h rpm p = Ok r -> fst (el_thrust_w w m h rpm p) = propeller_warning p) /\
  (forall d m h r, tp_sl_powercorr grid d m h = Ok r -> fst (tp_sl_powercorr_w grid d m h) = []) /\
  (forall d s h r, pi_sl_powercorr grid d s h = Ok r -> fst (pi_sl_powercorr_w grid d s h) = []) /\
  (forall d m h r, jt_sl_thrustcorr grid d m h = Ok r -> fst (jt_sl_thrustcorr_w grid d m h) = []) /\
  (forall d s t r, el_bsec grid d s t = Ok r -> fst (el_bsec_w grid d s t) = []).
Proof. exact success_warnings. Qed.
Print Assumptions C92_success.
(** without the data they need these methods warn first, and then raise *)
Theorem C92_missing_data : forall grid,
  (forall d m h rpm p, tp_pwr d = None -> exists e ws, tp_coldthrust_w grid d m h rpm p = (NoData "power data" "turboprop" :: ws, Err e) /\
     (ws = [] \/ ws = propeller_warning p)) /\
  (forall d m h rpm p, tp_pwr d = None -> exists e ws, tp_tsfc_w grid d m h rpm p = (NoData "power data" "turboprop" :: ws, Err e) /\
     (ws = [] \/ ws = propeller_warning p)) /\
  (forall d m h rpm p, tp_thr d = None -> exists e ws, tp_thrust_w grid d m h rpm p = (NoData "Hot thrust data" "turboprop" :: ws, Err e)) /\
  (forall d m h rpm p, pi_pwr d = None -> exists e ws, pi_thrust_w grid d m h rpm p = (NoData "power data" "piston" :: ws, Err e) /\
     (ws = [] \/ ws = propeller_warning p)) /\
  (forall d m h rpm p b, pi_pwr d = None -> exists e ws, pi_tsfc_w grid d m h rpm p b = (NoData "power data" "piston" :: ws, Err e) /\
     (ws = [] \/ ws = propeller_warning p)) /\
  (forall d m h, tp_pwr d = None -> tp_sl_powercorr_w grid d m h = ([NoData "power data" "turboprop"], Err AttributeError)) /\
  (forall d s h, pi_pwr d = None -> pi_sl_powercorr_w grid d s h = ([NoData "power data" "piston"], Err AttributeError)) /\
  (forall d m h, jt_thr d = None -> jt_sl_thrustcorr_w grid d m h = ([NoData "Thrust data" "jet"], Err AttributeError)) /\
  (forall s t, el_bsec_w grid None s t = ([NoData "efficiency data" "electric"], Err TypeError)).
Proof. exact missing_data. Qed.
Print Assumptions C92_missing_data.
(** with only the fuel consumption data missing - the method would have succeeded on a deck
    that has them - the look-up is what warns last *)
Theorem C92_missing_consumption : forall grid m h rpm p r,
  (forall d d', tp_tsfc grid d' m h rpm p = Ok r -> tp_pwr d = tp_pwr d' -> tp_bsfc d = None ->
     tp_tsfc_w grid d m h rpm p = ((propeller_warning p ++ [NoData "TSFC" "turboprop"])%list, Err TypeError)) /\
  (forall d d' b b', pi_tsfc grid d' m h rpm p b' = Ok r -> pi_pwr d = pi_pwr d' -> exists w,
     (b = "economy"%string -> w = NoData "BSFC for best economy condition" "piston") /\
     (b = "power"%string -> w = NoData "BSFC for best power condition" "piston") /\
     (b <> "economy"%string -> b <> "power"%string -> w = UnknownBest b) /\
     ((b = "economy"%string -> pi_bsfc d = None) -> (b = "power"%string -> pi_bsfc_pwr d = None) ->
      pi_tsfc_w grid d m h rpm p b = ((propeller_warning p ++ [w])%list, Err TypeError))).
Proof. exact missing_consumption. Qed.
Print Assumptions C92_missing_consumption.
(** whether they succeed or not, they give no other warnings *)
Theorem C92_no_other : forall grid w,
  (forall d m h rpm p, In w (fst (tp_coldthrust_w grid d m h rpm p)) ->
     In w (propeller_warning p) \/ w = NoData "power data" "turboprop" /\ tp_pwr d = None) /\
  (forall sw m h rpm p, In w (fst (el_thrust_w sw m h rpm p)) -> In w (propeller_warning p)) /\
  (forall d m h, In w (fst (tp_sl_powercorr_w grid d m h)) -> w = NoData "power data" "turboprop" /\ tp_pwr d = None) /\
  (forall d r h, In w (fst (pi_sl_powercorr_w grid d r h)) -> w = NoData "power data" "piston" /\ pi_pwr d = None) /\
  (forall d m h, In w (fst (jt_sl_thrustcorr_w grid d m h)) -> w = NoData "Thrust data" "jet" /\ jt_thr d = None) /\
  (forall d r t, In w (fst (el_bsec_w grid d r t)) -> w = NoData "efficiency data" "electric" /\ d = None) /\
  (forall d m h rpm p, In w (fst (tp_thrust_w grid d m h rpm p)) ->
     In w (propeller_warning p) \/ w = NoData "Hot thrust data" "turboprop" /\ tp_thr d = None \/
     w = NoData "power data" "turboprop" /\ tp_pwr d = None) /\
  (forall d m h rpm p, In w (fst (tp_tsfc_w grid d m h rpm p)) ->
     In w (propeller_warning p) \/ w = NoData "power data" "turboprop" /\ tp_pwr d = None \/
     w = NoData "TSFC" "turboprop" /\ tp_bsfc d = None) /\
  (forall d m h rpm p, In w (fst (pi_thrust_w grid d m h rpm p)) ->
     In w (propeller_warning p) \/ w = NoData "power data" "piston" /\ pi_pwr d = None) /\
  (forall d m h rpm p b, In w (fst (pi_tsfc_w grid d m h rpm p b)) ->
     In w (propeller_warning p) \/ w = NoData "power data" "piston" /\ pi_pwr d = None \/
     b = "economy"%string /\ w = NoData "BSFC for best economy condition" "piston" /\ pi_bsfc d = None \/
     b = "power"%string /\ w = NoData "BSFC for best power condition" "piston" /\ pi_bsfc_pwr d = None \/
     b <> "economy"%string /\ b <> "power"%string /\ w = UnknownBest b).
Proof. exact no_reason. Qed.
Print Assumptions C92_no_other.

(** the sea level polynomials warn exactly outside their limits, naming the limit passed *)
Theorem C92_polynomials : forall d p lo hi x m,
  jt_sl d = Some (p, [Fin lo; Fin hi]) /\ m = jet_sl_thrust_w d (Fin x) \/
  jt_to d = Some (p, [Fin lo; Fin hi]) /\ m = jet_sl_take_off_thrust_w d (Fin x) ->
  (hi < x -> m = ([MachTooHigh (Fin hi)], Ok None)) /\
  (x <= hi -> x < lo -> m = ([MachTooLow (Fin lo)], Ok None)) /\
  (lo <= x <= hi -> exists y, m = ([], Ok (Some y))).
Proof. exact deck_polynomials. Qed.
Print Assumptions C92_polynomials.
Theorem C92_polynomials_missing : forall d x,
  (jt_sl d = None -> jet_sl_thrust_w d x = ([NoData "sea level thrust data" "jet"], Ok None)) /\
  (jt_to d = None -> jet_sl_take_off_thrust_w d x = ([NoData "sea level take off thrust data" "jet"], Ok None)).
Proof. exact poly_missing. Qed.
Print Assumptions C92_polynomials_missing.
Example C92_nonvacuous :
  (exists P rpm r, 0 < P /\ el_thrust (VNum (Fin P)) (VNum (Fin 0.5)) (VNum (Fin 0)) (Fin rpm) PropellerNone = Ok r) /\
  (exists d m rpm p r, pi_thrust exact_grid d m (VNum (Fin 0)) rpm (PropellerObj p) = Ok r) /\
  (exists d m rpm p s, tp_tsfc exact_grid d (VNum (Fin m)) (VNum (Fin 0)) rpm (PropellerObj p) = Ok s) /\
  (exists d m rpm p s, pi_tsfc exact_grid d (VNum (Fin m)) (VNum (Fin 0)) rpm (PropellerObj p) "economy" = Ok s) /\
  (jt_thr climbing_deck <> None /\ jt_tsfc climbing_deck = None /\
   exists r, jt_sl_thrustcorr exact_grid climbing_deck (VNum (Fin 0)) (VNum (Fin 0)) = Ok r).
Proof. exact engine_examples. Qed.
