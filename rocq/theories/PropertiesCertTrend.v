(** The property theorems about the same aeroplane certified at a higher weight. *)
From Verif Require Import Base AtmosModel AtmosSpec ConceptModel MethodsModel MethodsSpec ConstraintSpec AirworthinessModel AirworthinessSpec CertTrendSpec CertTrendProofs.
Open Scope R_scope.

(** C105: weight trends of the certification quantities. *)
Theorem C105_gusts : forall ext s f w, describes ext s f -> f_weight f < w ->
  forall sp, exists L1 L2 kg1 kg2 a, paragraph341 ext s sp = Ok (L1, Fin kg1, a) /\ paragraph341 ext (weighing s w) sp = Ok (L2, Fin kg2, a) /\ kg1 < kg2 /\
    (forall k v, 0 < v -> at_Uc sp = Some (Fin v) -> milder (l_Uc (L1 k)) (l_Uc (L2 k))) /\
    (forall k v, 0 < v -> at_Ud sp = Some (Fin v) -> milder (l_Ud (L1 k)) (l_Ud (L2 k))) /\
    (forall v, 0 < v -> at_Ub sp = Some (Fin v) -> milder (l_Ub (L1 Comm)) (l_Ub (L2 Comm))).
Proof. exact gusts_milder. Qed.
Print Assumptions C105_gusts.

Theorem C105_design_speeds : forall ext s f w, describes ext s f -> f_weight f < w ->
  exists p1 p2, paragraph335 ext s = Ok p1 /\ paragraph335 ext (weighing s w) = Ok p2 /\ forall k, exists vc1 vc2 va1 va2 vd1 vd2,
    vcmin_keas (p1 k) = Fin vc1 /\ vcmin_keas (p2 k) = Fin vc2 /\ vc1 < vc2 /\
    vamin_keas (p1 k) = Fin va1 /\ vamin_keas (p2 k) = Fin va2 /\ va1 < va2 /\
    vdmin_keas (p1 k) = Fin vd1 /\ vdmin_keas (p2 k) = Fin vd2 /\ (k <> Aero -> vd1 <= vd2).
Proof. exact speeds_rise. Qed.
Print Assumptions C105_design_speeds.

(** the exception: the aerobatic design dive speed, between 99 and 100 lb/ft2 *)
Theorem C105_aerobatic_dive : forall ext s f w, describes ext s f -> f_weight f < w ->
  99 <= loading_at f (f_weight f) -> loading_at f w <= 100 -> f_vc f <= vc_minimum Aero f ->
  exists p1 p2 vd1 vd2, paragraph335 ext s = Ok p1 /\ paragraph335 ext (weighing s w) = Ok p2 /\
    vdmin_keas (p1 Aero) = Fin vd1 /\ vdmin_keas (p2 Aero) = Fin vd2 /\ vd2 < vd1.
Proof. exact aerobatic_dive. Qed.
Print Assumptions C105_aerobatic_dive.
Theorem C105_dive_speed_refuted : ~ forall ext s f w p1 p2 k v1 v2, describes ext s f -> f_weight f < w ->
  paragraph335 ext s = Ok p1 -> paragraph335 ext (weighing s w) = Ok p2 ->
  vdmin_keas (p1 k) = Fin v1 -> vdmin_keas (p2 k) = Fin v2 -> v1 <= v2.
Proof. exact not_monotone. Qed.
Print Assumptions C105_dive_speed_refuted.

Theorem C105_stall_speed : forall ext s f w, describes ext s f -> f_weight f < w ->
  forall n, n <> 0 -> exists v1 v2, vs_keas s (Fin n) = Ok (Fin v1) /\ vs_keas (weighing s w) (Fin n) = Ok (Fin v2) /\ v1 < v2.
Proof. exact stall_rises. Qed.
Print Assumptions C105_stall_speed.

Theorem C105_limit_load : forall ext s f w, describes ext s f -> f_weight f < w ->
  exists l1 l2, paragraph337 s = Ok l1 /\ paragraph337 (weighing s w) = Ok l2 /\
    forall k, exists n1 n2, npos_min (l1 k) = Fin n1 /\ npos_min (l2 k) = Fin n2 /\ n2 <= n1 /\ n1 * f_weight f < n2 * w.
Proof. exact limit_load_rises. Qed.
Print Assumptions C105_limit_load.

Example C105_nonvacuous : exists ext s f w, describes ext s f /\ f_weight f < w /\
  99 <= loading_at f (f_weight f) /\ loading_at f w <= 100 /\ f_vc f <= vc_minimum Aero f.
Proof. exact dense_case. Qed.
