(** Span efficiency, chord sweep and lift slope: property theorems. *)
From Verif Require Import Base ConceptModel MethodsModel MethodsSpec MethodsProofs MethodsProofs2
  MethodsProofs3 MethodsProofs4 MethodsExamples.
Open Scope R_scope.

(** C27: the four span efficiency estimates are the published formulas; methods 2 and 4
    are within their range for every wing; the factor is 1/(pi AR e). *)
Theorem C27_published_estimates : forall c w m, has_wing c w -> regular w ->
  oswaldspaneff1 c = Fin (raymer_straight (w_ar w)) /\
  oswaldspaneff2 c = Ok (Fin (brandt (w_ar w) (rad (w_mt w)))) /\
  oswaldspaneff3 c = Fin (raymer_swept (w_ar w) (rad (w_le w))) /\
  oswaldspaneff4 c (Fin m) = Fin (nita w m).
Proof. exact estimates_published. Qed.
Print Assumptions C27_published_estimates.
Theorem C27_ranges : forall w m, regular w ->
  0 < brandt (w_ar w) (rad (w_mt w)) < 1 /\ 0.001 <= nita w m <= 0.8280.
Proof. exact estimates_ranges. Qed.
Print Assumptions C27_ranges.
Theorem C27_factor_positive : forall c w, has_wing c w ->
  forall z mo m sel, regular w -> (0 <= z)%Z ->
  mo = Some (Fin m) \/ mo = None /\ m = 0.3 ->
  methods_named (Z.to_N z) sel -> Forall (fun d => d = 2%N \/ d = 4%N) sel ->
  exists k, induceddragfact c (SelInt z) mo = Ok (Fin k) /\ 0 < k.
Proof. exact factor_positive. Qed.
Print Assumptions C27_factor_positive.
(** Methods 1 and 3 are not in range: long wings get a negative induced drag. *)
Theorem C27_methods13_refuted : forall c w z mo m, has_wing c w -> regular w ->
  mo = Some (Fin m) \/ mo = None /\ m = 0.3 ->
  (z = 1%Z /\ 64 <= w_ar w) \/ (z = 3%Z /\ 27 <= w_ar w) ->
  exists k, induceddragfact c (SelInt z) mo = Ok (Fin k) /\ k < 0.
Proof. exact methods13_negative. Qed.
Print Assumptions C27_methods13_refuted.
Example C27_nonvacuous : has_wing (example_jet 20 18) (example_wing 20 18) /\
  regular (example_wing 20 18) /\ methods_named (Z.to_N 4) [4%N].
Proof. exact wing_example. Qed.

(** C28: the digits of the selector name the methods. *)
Theorem C28_digits_select : forall c w, has_wing c w ->
  forall z mo m sel, regular w -> (0 <= z)%Z ->
  mo = Some (Fin m) \/ mo = None /\ m = 0.3 ->
  methods_named (Z.to_N z) sel -> sel <> [] -> mean_of (map (estimate w m) sel) <> 0 ->
  induceddragfact c (SelInt z) mo = Ok (Fin (1 / (PI * w_ar w * mean_of (map (estimate w m) sel)))).
Proof. exact factor_named. Qed.
Print Assumptions C28_digits_select.
Theorem C28_negative_selector_raises : forall c z mo, (z < 0)%Z ->
  induceddragfact c (SelInt z) mo = Err ValueError.
Proof. exact factor_negative. Qed.
Print Assumptions C28_negative_selector_raises.
(** A selector naming no method is not rejected: it silently means 24 at Mach 0.3,
    whatever Mach number was given. *)
Theorem C28_unnamed_rejected_refuted : forall c w, has_wing c w ->
  forall z mo, regular w -> (0 <= z)%Z -> methods_named (Z.to_N z) [] ->
  induceddragfact c (SelInt z) mo = induceddragfact c (SelInt 24) (Some (Fin 0.3)) /\
  induceddragfact c SelOther mo = induceddragfact c (SelInt 24) (Some (Fin 0.3)).
Proof. exact factor_unnamed. Qed.
Print Assumptions C28_unnamed_rejected_refuted.
Example C28_nonvacuous : methods_named 24 [2%N; 4%N] /\ methods_named 50 [].
Proof. exact named_examples. Qed.

(** C29: the sweep at a chord fraction. *)
Theorem C29_angle_affine : forall c w, has_wing c w -> forall x, 0 <= x <= 1 ->
  findchordsweep_rad c (Some (Fin x))
  = Ok (Fin (rad (w_le w) + (rad (w_25 w) - rad (w_le w)) / 0.25 * x)).
Proof. exact sweep_real. Qed.
Print Assumptions C29_angle_affine.
Theorem C29_straight_edges_partial : forall c w x, has_wing c w -> regular w ->
  (x = 0 \/ x = 1 / 4 \/ (w_le w = w_25 w /\ 0 <= x <= 1)) ->
  exists s, findchordsweep_rad c (Some (Fin x)) = Ok (Fin s) /\
    straight_edges (rad (w_le w)) (rad (w_25 w)) x s.
Proof. exact sweep_straight. Qed.
Print Assumptions C29_straight_edges_partial.
(** Elsewhere it is not the sweep of a wing with straight edges: the angle, not its
    tangent, is interpolated. *)
Theorem C29_straight_edges_refuted : forall c w, has_wing c w -> w_le w = 0 -> 0 < w_25 w < 45 ->
  exists s, findchordsweep_rad c (Some (Fin 0.5)) = Ok (Fin s) /\
    ~ straight_edges (rad (w_le w)) (rad (w_25 w)) 0.5 s.
Proof. exact sweep_not_straight. Qed.
Print Assumptions C29_straight_edges_refuted.
Theorem C29_raises_exactly_outside : forall c xo,
  findchordsweep_rad c xo = Err ValueError <-> ~ (exists x, xo = Some (Fin x) /\ 0 <= x <= 1).
Proof. exact sweep_error. Qed.
Print Assumptions C29_raises_exactly_outside.
Example C29_nonvacuous : has_wing (example_jet 0 18) (example_wing 0 18) /\
  has_wing (example_jet 20 20) (example_wing 20 20).
Proof. exact (conj (example_has_wing 0 18) (example_has_wing 20 20)). Qed.

(** C30: [T] is the curve scipy's interpolator draws through the six transonic points. *)
Theorem C30_weighted_mean : forall c w a0,
  has_wing c w -> regular w -> half_ok w -> a_0i c = Some (Fin a0) -> 0 < a0 ->
  forall ext T,
  (forall m tab, 0.6 <= m <= 1.4 -> transonic_table c = Ok tab -> cubic ext tab (Fin m) = Ok (Fin (T m))) ->
  forall m, 0 <= m ->
  liftslope_prad ext c (Fin m) = Ok (Fin (weight_sub m * mean_of (subsonic_slopes w a0 m)
      + weight_trans m * T m + weight_sup m * mean_of (supersonic_slopes w m))) /\
  0 <= weight_sub m /\ 0 <= weight_trans m /\ 0 <= weight_sup m /\
  weight_sub m + weight_trans m + weight_sup m = 1.
Proof. exact liftslope_weighted. Qed.
Print Assumptions C30_weighted_mean.
Theorem C30_transonic_points : forall c w a0,
  has_wing c w -> regular w -> half_ok w -> a_0i c = Some (Fin a0) -> 0 < a0 ->
  exists p, peak_mach (w_ar w) p /\
    transonic_table c = Ok (map (fun q => (Fin (fst q), Fin (snd q))) (transonic_points w a0 p)).
Proof. exact transonic_real. Qed.
Print Assumptions C30_transonic_points.
Theorem C30_subsonic_slopes_positive : forall c w a0,
  has_wing c w -> regular w -> half_ok w -> a_0i c = Some (Fin a0) -> 0 < a0 ->
  forall m, 0 <= m < 1 ->
  a_subsonic c (Fin m) = Ok (Fin (mean_of (subsonic_slopes w a0 m))) /\
  Forall (fun s => 0 < s) (subsonic_slopes w a0 m).
Proof. exact subsonic_real. Qed.
Print Assumptions C30_subsonic_slopes_positive.
Theorem C30_continuous_partial : forall c w a0,
  has_wing c w -> regular w -> half_ok w -> a_0i c = Some (Fin a0) -> 0 < a0 ->
  forall ext T F,
  (forall m tab, 0.6 <= m <= 1.4 -> transonic_table c = Ok tab -> cubic ext tab (Fin m) = Ok (Fin (T m))) ->
  continuity T ->
  (forall m, 0 <= m -> liftslope_prad ext c (Fin m) = Ok (Fin (F m))) ->
  forall m, 0 < m -> m <> sonic_le w \/ m < 1.3 \/ w_le w <= 0 -> continuity_pt F m.
Proof. exact liftslope_continuous. Qed.
Print Assumptions C30_continuous_partial.
(** The one exception is a real one: the slope jumps where the leading edge becomes sonic. *)
Theorem C30_continuous_refuted : forall c w a0,
  has_wing c w -> regular w -> half_ok w -> a_0i c = Some (Fin a0) -> 0 < a0 ->
  forall ext F, 0 < w_le w -> 1.4 < sonic_le w ->
  (forall m, 1.4 < m -> liftslope_prad ext c (Fin m) = Ok (Fin (F m))) -> ~ continuity_pt F (sonic_le w).
Proof. exact liftslope_jump. Qed.
Print Assumptions C30_continuous_refuted.
Example C30_nonvacuous :
  (has_wing (example_jet 20 18) (example_wing 20 18) /\ regular (example_wing 20 18) /\
   half_ok (example_wing 20 18) /\ a_0i (example_jet 20 18) = Some (Fin 6.28)) /\
  (has_wing (example_jet 60 50) (example_wing 60 50) /\ regular (example_wing 60 50) /\
   half_ok (example_wing 60 50) /\ 0 < w_le (example_wing 60 50) /\ 1.4 < sonic_le (example_wing 60 50) /\
   exists F, forall m, 0 <= m -> liftslope_prad example_ext (example_jet 60 50) (Fin m) = Ok (Fin (F m))).
Proof. exact slope_example. Qed.
