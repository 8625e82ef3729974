(** The property theorems about analyses in atmospheres that answer at some altitudes only. *)
From Verif Require Import Base AtmosModel AtmosSpec ConceptModel MethodsModel MethodsSpec ConstraintSpec ObservedSpec HandbookModel HandbookSpec AirworthinessModel AirworthinessSpec
  SoundingSpec SoundingProofs.
Open Scope R_scope.

(** C106: where each kind of atmosphere answers. *)
Theorem C106_readings : forall a p obs, ascent obs -> observed a p obs -> answers_on a (covered obs).
Proof. exact sounding_answers. Qed.
Print Assumptions C106_readings.
Theorem C106_handbook : forall hl td alt f a, handbook hl td alt f a -> ~ frozen hl td alt f -> answers_on a (fun x => 0 <= x <= 80000).
Proof. exact handbook_answers. Qed.
Print Assumptions C106_handbook.
Theorem C106_standard : forall o, -216 < o -> answers_on (isa o) (fun x => x <= 50000).
Proof. exact standard_answers. Qed.
Print Assumptions C106_standard.

(** the altitudes each constraint needs; cruise enters everywhere but at take-off, sea level where airspeeds
    are indicated ones *)
Theorem C106_take_off : forall ext c S h, engine_ok c -> answers_on (designatm c) S -> briefed c h ->
  forall v m, needs S [runway_at h] (twrequired_to ext c v m).
Proof. exact takeoff_needs. Qed.
Print Assumptions C106_take_off.
Theorem C106_turn : forall ext c S h, wing_ok ext c -> engine_ok c -> answers_on (designatm c) S -> briefed c h ->
  forall v m, needs S [turn_at h; cruise_at h] (twrequired_trn ext c v m).
Proof. exact turn_needs. Qed.
Print Assumptions C106_turn.
Theorem C106_climb : forall ext c S h, wing_ok ext c -> engine_ok c -> answers_on (designatm c) S -> briefed c h ->
  forall v m, needs S [0; climb_at h; cruise_at h] (twrequired_clm ext c v m).
Proof. exact climb_needs. Qed.
Print Assumptions C106_climb.
Theorem C106_cruise : forall ext c S h, wing_ok ext c -> engine_ok c -> answers_on (designatm c) S -> briefed c h ->
  forall v m, needs S [cruise_at h] (twrequired_crs ext c v m).
Proof. exact cruise_needs. Qed.
Print Assumptions C106_cruise.
Theorem C106_ceiling : forall ext c S h, wing_ok ext c -> engine_ok c -> answers_on (designatm c) S -> briefed c h ->
  forall v m, needs S [0; ceiling_at h; cruise_at h] (twrequired_sec ext c v m).
Proof. exact ceiling_needs. Qed.
Print Assumptions C106_ceiling.
Theorem C106_combined : forall ext c S h, wing_ok ext c -> engine_ok c -> answers_on (designatm c) S -> briefed c h ->
  forall v fo m, needs S [0; climb_at h; cruise_at h; ceiling_at h; turn_at h; runway_at h] (twrequired ext c v fo m).
Proof. exact combined_needs. Qed.
Print Assumptions C106_combined.
Theorem C106_power : forall ext c S h, wing_ok ext c -> engine_ok c -> answers_on (designatm c) S -> briefed c h ->
  forall v kg fo m, needs S [0; climb_at h; cruise_at h; ceiling_at h; turn_at h; runway_at h] (powerrequired ext c v kg fo m).
Proof. exact power_needs. Qed.
Print Assumptions C106_power.

(** so readings at all the altitudes of the brief are not enough *)
Theorem C106_brief_covered_refuted : exists ext c h obs p, wing_ok ext c /\ engine_ok c /\ ascent obs /\ observed (designatm c) p obs /\ briefed c h /\
  (forall x, In x [climb_at h; cruise_at h; ceiling_at h; turn_at h; runway_at h] -> covered obs x) /\ forall v fo m, twrequired ext c v fo m = Err TypeError.
Proof. exact mountain_analysis. Qed.
Print Assumptions C106_brief_covered_refuted.
(** and no runway below sea level can be analysed in a handbook atmosphere *)
Theorem C106_low_runway_refuted : forall hl td alt f a ext c h, handbook hl td alt f a -> ~ frozen hl td alt f -> designatm c = a ->
  wing_ok ext c -> engine_ok c -> briefed c h -> runway_at h < 0 ->
  forall v fo m, twrequired_to ext c v m = Err TypeError /\ twrequired ext c v fo m = Err TypeError.
Proof. exact polder. Qed.
Print Assumptions C106_low_runway_refuted.

(** certification: sea level for stall speed and flight envelope, the altitude flown for the gusts *)
Theorem C106_stall : forall s S, answers_on (designatm (acobj s)) S -> forall W A cp cn n,
  weight_n (acobj s) = Some (Fin W) -> wingarea_m2 (acobj s) = Some (Fin A) -> clmaxclean (acobj s) = Some (Fin cp) -> clminclean (acobj s) = Some (Fin cn) ->
  0 < W -> 0 < A -> 0 < cp -> cn < 0 -> needs S [0] (vs_keas s (Fin n)).
Proof. exact stall_needs. Qed.
Print Assumptions C106_stall.
Theorem C106_envelope : forall ext s S, answers_on (designatm (acobj s)) S -> forall k, category s = CStr (names k) -> ~ S 0 -> flightenvelope ext s = Err TypeError.
Proof. exact envelope_raises. Qed.
Print Assumptions C106_envelope.
Theorem C106_gusts : forall ext s S, answers_on (designatm (acobj s)) S -> forall sp x, altitude_m s = Fin x -> ~ S x -> paragraph341 ext s sp = Err TypeError.
Proof. exact gusts_raise. Qed.
Print Assumptions C106_gusts.

Example C106_nonvacuous : exists ext c h obs p, wing_ok ext c /\ engine_ok c /\ ascent obs /\ observed (designatm c) p obs /\ briefed c h /\
  (forall x, In x [0; climb_at h; cruise_at h; ceiling_at h; turn_at h; runway_at h] -> covered obs x).
Proof. exact valley_analysis. Qed.
Example C106_low_nonvacuous : exists hl td alt f a ext c h, handbook hl td alt f a /\ ~ frozen hl td alt f /\ designatm c = a /\ wing_ok ext c /\ engine_ok c /\ briefed c h /\ runway_at h < 0.
Proof. exact polder_case. Qed.
Example C106_certificate_nonvacuous : exists s S k, answers_on (designatm (acobj s)) S /\ ~ S 0 /\ category s = CStr (names k) /\ altitude_m s = Fin 0 /\
  weight_n (acobj s) = Some (Fin 100000) /\ wingarea_m2 (acobj s) = Some (Fin 30) /\ clmaxclean (acobj s) = Some (Fin 1.5) /\ clminclean (acobj s) = Some (Fin (-1)).
Proof. exact mountain_certificate. Qed.
