(** Property C93: the propulsion argument and the engine decks in the constraint analysis
    (constraintanalysis.py:247-277, 1035-1142, mtools4acdc.py:281-288). *)
From Verif Require Import Base AtmosModel ConceptModel MethodsModel MethodsExamples PropulsionModel PropulsionSpec PropulsionProofs9 DemoModel
  ConstraintSpec ConstraintProofs10 EngineObjectModel EngineObjectSpec EngineObjectProofs.
Open Scope R_scope.

(** the test for an iterable argument says what iter() would *)
Theorem C93_iterable : forall a, iterable a = true <-> iterates a.
Proof. exact iterable_iff. Qed.
Print Assumptions C93_iterable.
(** text, a pair of engine and propeller and a single object are kept as they are meant; the
    case left out is a tuple with an engine only *)
Theorem C93_argument_partial : forall a s, meant a s -> (forall e, a <> ArgTuple [e]) -> stored_propulsion a = s.
Proof. exact argument_kept. Qed.
Print Assumptions C93_argument_partial.
(** anything else counts as no propulsion system *)
Theorem C93_argument_other : forall a, (forall s, ~ meant a s) -> stored_propulsion a = SFalse.
Proof. exact argument_other. Qed.
Print Assumptions C93_argument_other.
(** a tuple with an engine and without the optional propeller is dropped: the corrections are
    those of a concept without a propulsion system, whatever the engine *)
Theorem C93_lone_engine_refuted : forall e, meant (ArgTuple [e]) (SPair e OfOther) /\
  forall grid ext b d p atm v h, slcorr_of grid ext b d p atm (ArgTuple [e]) v h = slcorr_of grid ext b d p atm ArgNothing v h.
Proof. exact lone_engine. Qed.
Print Assumptions C93_lone_engine_refuted.
Theorem C93_lone_engine_matters_refuted : exists d b de p t t' q q',
  slcorr_of exact_grid example_ext b de p (isa 0) (ArgObject false (OfJet d)) (VNum (Fin 0)) (Fin 0) = Ok (t, q) /\
  slcorr_of exact_grid example_ext b de p (isa 0) (ArgTuple [OfJet d]) (VNum (Fin 0)) (Fin 0) = Ok (t', q') /\ t <> t'.
Proof. exact lone_engine_differs. Qed.
Print Assumptions C93_lone_engine_matters_refuted.

(** the constructed concept uses the engine it was given in its own atmosphere, and the text *)
Theorem C93_constructed : forall grid ext b d p atm a v h,
  (forall e q o, meant a (SPair e q) -> (forall e', a <> ArgTuple [e']) -> construct b d p atm PropOther = Ok o ->
     slcorr_of grid ext b d p atm a v h = deck_slcorr grid e atm v h) /\
  (forall t o, a = ArgText t -> construct b d p atm (PropStr t) = Ok o ->
     slcorr_of grid ext b d p atm a v h = propulsion_slcorr ext (obj o) v h).
Proof. exact constructed_engine. Qed.
Print Assumptions C93_constructed.

(** a deck enters only through its sea level correction: the functions that stand for decks
    in C31 to C61 are the decks' table values over the largest table value *)
Theorem C93_decks_as_functions : forall grid ext c v h,
  (forall d t f, jt_thr d = Some t -> ratio_of grid t f -> propulsion c = PropJet f ->
     deck_slcorr grid (OfJet d) (designatm c) v h = propulsion_slcorr ext c v h) /\
  (forall d t f, tp_pwr d = Some t -> ratio_of grid t f -> propulsion c = PropTurboprop f ->
     deck_slcorr grid (OfTurboprop d) (designatm c) v h = propulsion_slcorr ext c v h) /\
  (forall d, propulsion c = PropElectric ->
     deck_slcorr grid (OfElectric d) (designatm c) v h = propulsion_slcorr ext c v h) /\
  (forall d t f g rpms lo hi, pi_pwr d = Some t -> ratio_of grid t f ->
     pyminn (tx t) = Ok lo -> pymaxn (tx t) = Ok hi -> arange lo hi = Ok rpms -> propulsion c = PropPiston rpms g f ->
     deck_slcorr grid (OfPiston d) (designatm c) v h = propulsion_slcorr ext c v h).
Proof. exact decks_as_functions. Qed.
Print Assumptions C93_decks_as_functions.
(** at a tabulated condition the thrust lapse of the balances of C31 to C34 is the tabulated
    thrust over the largest, and the power lapse that of a turboprop alike *)
Theorem C93_jet_lapse : forall grid ext c d t f zs i V h s T M,
  air_at c h s -> jt_thr d = Some t -> ratio_of grid t f -> propulsion c = PropJet f ->
  tz t = map Fin zs -> largest M zs -> 0 < M -> interpolates grid t ->
  nth_error (tx t) i = Some (Fin (mach_no V s)) -> nth_error (ty t) i = Some (Fin h) -> nth_error (tz t) i = Some (Fin T) -> T <> 0 ->
  lapse ext c true V h (T / M).
Proof. exact jet_lapse. Qed.
Print Assumptions C93_jet_lapse.
Theorem C93_turboprop_power : forall grid ext c d t f zs i V h s P M,
  air_at c h s -> tp_pwr d = Some t -> ratio_of grid t f -> propulsion c = PropTurboprop f ->
  tz t = map Fin zs -> largest M zs -> 0 < M -> interpolates grid t ->
  nth_error (tx t) i = Some (Fin (mach_no V s)) -> nth_error (ty t) i = Some (Fin h) -> nth_error (tz t) i = Some (Fin P) ->
  power_corr ext c true (VNum (Fin V)) (Fin h) (VArr [Fin (P / M)]).
Proof. exact turboprop_power. Qed.
Print Assumptions C93_turboprop_power.
(** decks without the table raise *)
Theorem C93_missing_table : forall grid atm v h m, mach atm v (VNum h) = Ok m ->
  (forall d, jt_thr d = None -> deck_slcorr grid (OfJet d) atm v h = Err AttributeError) /\
  (forall d, tp_pwr d = None -> deck_slcorr grid (OfTurboprop d) atm v h = Err AttributeError) /\
  (forall d, pi_pwr d = None -> deck_slcorr grid (OfPiston d) atm v h = Err AttributeError).
Proof. exact decks_without_data. Qed.
Print Assumptions C93_missing_table.

(** an object that is no deck, such as a propeller in the engine's place, corrects nothing *)
Theorem C93_other_object : forall grid atm v h l, mach atm v (VNum h) = Ok (VArr l) ->
  deck_slcorr grid OfOther atm v h = Ok (VArr (map (fun _ => Fin 1) l), VArr (map (fun _ => Fin 1) l)).
Proof. exact other_object. Qed.
Print Assumptions C93_other_object.
(** a table of a piston engine whose first speed is nan raises *)
Theorem C93_nan_speed : forall grid d t r atm v h m, mach atm v (VNum h) = Ok m -> pi_pwr d = Some t -> tx t = NonFin :: r ->
  deck_slcorr grid (OfPiston d) atm v h = Err ValueError.
Proof. exact nan_speed. Qed.
Print Assumptions C93_nan_speed.
(** a piston engine is taken at the last of the speeds lo, lo + 1, ... below the largest
    tabulated one, whatever its powers *)
Theorem C93_piston_speed : forall grid d t speeds lo hi top atm v h l,
  pi_pwr d = Some t -> tx t = map Fin speeds -> smallest lo speeds -> largest hi speeds -> lo < hi ->
  pymaxn (tz t) = Ok top -> mach atm v (VNum h) = Ok (VArr l) ->
  exists r k, r = lo + INR k /\ r < hi <= r + 1 /\
    deck_slcorr grid (OfPiston d) atm v h
    = Ok (VArr (map (fun _ => Fin 1) l), VArr [ndiv (grid (tx t) (ty t) (tz t) (Fin r) h) top]).
Proof. exact piston_speed. Qed.
Print Assumptions C93_piston_speed.
(** so it is not taken at the speed of greatest power, as the comment says: where the engine
    has the power P' at another tabulated speed, the correction stays that of P < P' *)
Theorem C93_best_power_refuted : forall grid d t speeds lo hi zs M atm v h l i j r k P r' P',
  pi_pwr d = Some t -> tx t = map Fin speeds -> smallest lo speeds -> largest hi speeds ->
  tz t = map Fin zs -> largest M zs -> 0 < M -> interpolates grid t -> mach atm v (VNum (Fin h)) = Ok (VArr l) ->
  r = lo + INR k -> r < hi <= r + 1 ->
  nth_error (tx t) i = Some (Fin r) -> nth_error (ty t) i = Some (Fin h) -> nth_error (tz t) i = Some (Fin P) ->
  nth_error (tx t) j = Some (Fin r') -> nth_error (ty t) j = Some (Fin h) -> nth_error (tz t) j = Some (Fin P') -> P < P' ->
  pi_shaftpower grid d (VNum (Fin r')) (VNum (Fin h)) = Ok (Some (VNum (Fin P'))) /\
  exists tc q, deck_slcorr grid (OfPiston d) atm v (Fin h) = Ok (tc, VArr [Fin q]) /\ q = P / M /\ q < P' / M.
Proof. exact piston_not_best. Qed.
Print Assumptions C93_best_power_refuted.
(** and a table for a single speed raises *)
Theorem C93_one_speed_refuted : forall grid d t speeds rpm atm v h m,
  pi_pwr d = Some t -> tx t = map Fin speeds -> speeds <> [] -> (forall x, In x speeds -> x = rpm) ->
  mach atm v (VNum h) = Ok m ->
  deck_slcorr grid (OfPiston d) atm v h = Err ValueError.
Proof. exact piston_one_speed. Qed.
Print Assumptions C93_one_speed_refuted.

Example C93_piston_nonvacuous : exists t, pi_pwr slow_piston = Some t /\ interpolates exact_grid t /\
  smallest 2000 [2000; 2001; 2002] /\ largest 2002 [2000; 2001; 2002] /\ largest 150 [150; 75; 60] /\
  tx t = map Fin [2000; 2001; 2002] /\ tz t = map Fin [150; 75; 60] /\
  2001 = 2000 + INR 1 /\ 2001 < 2002 <= 2001 + 1 /\ 75 < 150 /\
  exists l, mach (isa 0) (VNum (Fin 50)) (VNum (Fin 0)) = Ok (VArr l).
Proof. exact slow_piston_case. Qed.
Example C93_jet_nonvacuous : exists t, jt_thr (half_deck 10000) = Some t /\ interpolates exact_grid t /\
  tz t = map Fin [10000; 20000] /\ largest 20000 [10000; 20000] /\
  nth_error (tx t) 0 = Some (Fin (mach_no 0 (std_air 0))) /\ nth_error (ty t) 0 = Some (Fin 0) /\ nth_error (tz t) 0 = Some (Fin 10000) /\
  exists f, ratio_of exact_grid t f.
Proof. exact half_deck_case. Qed.
