(** The property theorems of the flight envelope, and the concrete cases. *)
From Verif Require Import Base BaseFacts AnalysisFacts UnitsModel AtmosModel AtmosSpec ConceptModel ConceptSpec
  ConceptProofs ConceptProofs5 ConceptProofs6 MethodsModel MethodsSpec MethodsExamples ConstraintSpec ConstraintProofs ConstraintProofs10
  AirworthinessModel AirworthinessSpec AirworthinessProofs AirworthinessProofs2 AirworthinessProofs3 AirworthinessProofs4
  AirworthinessProofs5 AirworthinessExamples.
Open Scope R_scope.

Lemma gust_profile_shape lo hi : hi < lo -> gust_shape lo hi (gust_profile lo hi).
Proof.
  intros H. destruct (profile_shape lo hi (Rlt_le _ _ H)) as (A & B & C & D & E & F).
  do 5 (split; [assumption|]). intros x eps He. set (k := (lo - hi) / 30000) in *.
  assert (K : 0 < k) by (apply Rdiv_lt_0_compat; lra).
  exists (eps / k). split; [apply Rdiv_lt_0_compat; assumption|].
  intros y (_ & Hy). cbn [dist R_met] in *. unfold R_dist in *.
  eapply Rle_lt_trans; [apply F|]. apply (Rmult_lt_reg_r (/ k)); [apply Rinv_0_lt_compat; assumption|].
  replace (k * Rabs (y - x) * / k) with (Rabs (y - x)) by (field; lra). exact Hy.
Qed.
Lemma gust_velocities s W A : weight_n (acobj s) = Some (Fin W) -> wingarea_m2 (acobj s) = Some A -> 0 <= W ->
  exists Ub Uc Ud, gust_shape 66 38 Ub /\ gust_shape 50 25 Uc /\ gust_shape 25 12.5 Ud /\
  forall h, exists m g, paragraph333 (with_altitude s h) = Ok (m, g) /\
    forall k, Uc_mps (g k) = Fin (ft (Uc (h / 0.3048))) /\ Ud_mps (g k) = Fin (ft (Ud (h / 0.3048))) /\
      Ub_mps (g k) = match k with Comm => Some (Fin (ft (Ub (h / 0.3048)))) | _ => None end.
Proof.
  intros EW EA HW. exists (gust_profile 66 38), (gust_profile 50 25), (gust_profile 25 12.5).
  do 3 (split; [apply gust_profile_shape; lra|]). intros h.
  destruct (gusts_spec (with_altitude s h) W A h EW EA HW eq_refl) as (m & g & E & G). exists m, g. split; [exact E|].
  intros k. destruct (G k) as (_ & _ & _ & B & C & D). auto.
Qed.

Section Speeds.
  Variables (ext : externals) (s : cert) (f : flight).
  Hypothesis HD : describes ext s f.

  Lemma scaled_carries n u cl force : 0 <= n -> carries (a_rho (f_sl f)) (f_area f) cl force u ->
    carries (a_rho (f_sl f)) (f_area f) cl (n * force) (u * sqrt n).
  Proof.
    intros N (P & E). split; [apply Rmult_le_pos; [exact P|apply sqrt_pos]|].
    rewrite Rpow_mult_distr, pow2_sqrt by exact N. rewrite <- E. ring.
  Qed.
  Theorem design_speeds_meaning : exists p, paragraph335 ext s = Ok p /\ forall k, exists ua ub ub2,
    vcmin_keas (p k) = Fin (vc_minimum k f) /\ vdmin_keas (p k) = Fin (vd_minimum k f) /\
    1.25 * Rmax (f_vc f) (vc_minimum k f) <= vd_minimum k f /\
    vamin_keas (p k) = Fin (in_knots ua) /\ vasoftmax_keas (p k) = Fin (f_vc f) /\
    carries (a_rho (f_sl f)) (f_area f) (f_clmax f) (limit_positive k (pounds (f_weight f)) * (f_wf f * f_weight f)) ua /\
    vbmin1_keas (p k) = Fin (in_knots ub) /\ 0 < ub /\
    1 / 2 * a_rho (f_sl f) * ub ^ 2 * f_area f * f_clmax f =
      f_wf f * f_weight f * (f_wf f + alleviation f * a_rho (f_sl f) * rough_gust k f * ub * f_slope f / (2 * (wing_loading f * f_wf f))) /\
    vbmin2_keas (p k) = Fin (in_knots ub2) /\
    carries (a_rho (f_sl f)) (f_area f) (f_clmax f) ((1 + coded_increment f (gust_c f) (f_vc f)) * (f_wf f * f_weight f)) ub2 /\
    vbmin_keas (p k) = Fin (in_knots (Rmin ub ub2)) /\ vbmax_keas (p k) = Fin (Rmax (in_knots (Rmin ub ub2)) (f_vc f)) /\
    (maxlevelspeed_keas s = None -> vcsoftmax_keas (p k) = None) /\
    (forall vh, maxlevelspeed_keas s = Some (Fin vh) -> vcsoftmax_keas (p k) = Some (Fin (0.9 * vh))).
  Proof.
    destruct (speeds_spec ext s f HD) as (p & E & H). exists p. split; [exact E|]. intros k. rewrite H.
    pose proof (p_weight _ _ _ HD). pose proof (p_area _ _ _ HD). pose proof (p_clmax _ _ _ HD). pose proof (p_sl _ _ _ HD).
    pose proof (p_wf _ _ _ HD). pose proof (p_limit _ _ _ HD k) as PL.
    pose proof (coded_pos _ _ _ HD (gust_c f) (f_vc f) (gust_c_pos f) (p_vc _ _ _ HD)) as QP.
    pose proof (stall_carries _ _ _ HD (f_wf f) (f_clmax f) ltac:(apply Rmult_le_pos; lra) ltac:(lra)) as SC.
    set (u := stall_mps f (f_wf f) (f_clmax f)) in *.
    destruct (penetration_root _ _ _ HD _ (rough_pos f k)) as (UP & UE).
    exists (u * sqrt (limit_positive k (pounds (f_weight f)))), (penetration f (rough_gust k f)), (u * sqrt (1 + coded_increment f (gust_c f) (f_vc f))).
    unfold design_speeds. cbn [vcmin_keas vdmin_keas vamin_keas vasoftmax_keas vbmin1_keas vbmin2_keas vbmin_keas vbmax_keas vcsoftmax_keas].
    assert (VB2 : vb2_speed f = in_knots (u * sqrt (1 + coded_increment f (gust_c f) (f_vc f)))) by (unfold vb2_speed, in_knots; fold u; ring).
    assert (VM : Rmin (vb_speed k f) (vb2_speed f) = in_knots (Rmin (penetration f (rough_gust k f)) (u * sqrt (1 + coded_increment f (gust_c f) (f_vc f))))).
    { rewrite VB2. unfold vb_speed, in_knots. unfold Rmin. repeat destruct (Rle_dec _ _); lra. }
    do 2 (split; [reflexivity|]). split; [apply (vd_ratio _ _ _ HD)|].
    split; [apply Fin_eq; unfold va_speed, in_knots; fold u; ring|]. split; [reflexivity|].
    split; [apply scaled_carries; [lra|exact SC]|]. split; [reflexivity|]. split; [exact UP|]. split.
    { set (x := penetration f (rough_gust k f)) in *. rewrite UE. unfold pen_p, pen_k, wing_loading. field. repeat split; lra. }
    split; [f_equal; exact VB2|]. split; [apply scaled_carries; [lra|exact SC]|]. rewrite VM.
    do 2 (split; [reflexivity|]). split; [intros ->; reflexivity|]. intros vh ->. rewrite nmul_fin. reflexivity.
  Qed.

  Theorem va_refuted : a_rho (f_sl f) * f_clmax f <= 1.67 * f_wf f -> f_vc f <= vc_minimum Aero f ->
    exists p va vc, paragraph335 ext s = Ok p /\ vamin_keas (p Aero) = Fin va /\ vcmin_keas (p Aero) = Fin vc /\
      f_vc f <= vc < va.
  Proof.
    intros HR HV. destruct (speeds_spec ext s f HD) as (p & E & H). exists p, (va_speed Aero f), (vc_minimum Aero f).
    split; [exact E|]. rewrite H. do 2 (split; [reflexivity|]). pose proof (va_exceeds ext s f HD HR HV) as L.
    unfold vc_used in L. rewrite Rmax_right in L by exact HV. lra.
  Qed.
  Theorem va_partial k : k = Norm \/ k = Comm -> 1.69 * f_wf f <= a_rho (f_sl f) * f_clmax f ->
    exists p va vc, paragraph335 ext s = Ok p /\ vamin_keas (p k) = Fin va /\ vcmin_keas (p k) = Fin vc /\
      va <= Rmax (f_vc f) vc.
  Proof.
    intros HN HR. destruct (speeds_spec ext s f HD) as (p & E & H). exists p, (va_speed k f), (vc_minimum k f).
    split; [exact E|]. rewrite H. do 2 (split; [reflexivity|]). apply (va_below ext s f HD k HN HR).
  Qed.

  Theorem gust_loads : exists K, K = alleviation f * a_rho (f_sl f) * 0.5144444 * f_slope f / (2 * (wing_loading f * f_wf f)) / f_wf f /\
    0 < K /\ forall sp, exists L kg, paragraph341 ext s sp = Ok (L, Fin kg, Fin (f_slope f)) /\
    kg = 0.88 * mass_ratio f / (5.3 + mass_ratio f) /\ 0 < kg < 0.88 /\
    (forall k v, at_Uc sp = Some (Fin v) -> l_Uc (L k) = Some (Fin (1 + K * gust_c f * v), Fin (1 - K * gust_c f * v))) /\
    (forall k v, at_Ud sp = Some (Fin v) -> l_Ud (L k) = Some (Fin (1 + K * gust_d f * v), Fin (1 - K * gust_d f * v))) /\
    (forall v, at_Ub sp = Some (Fin v) -> l_Ub (L Comm) = Some (Fin (1 + K * gust_b f * v), Fin (1 - K * gust_b f * v))) /\
    (forall k, at_Uc sp = None -> l_Uc (L k) = None) /\ (forall k, at_Ud sp = None -> l_Ud (L k) = None) /\
    (forall k, at_Ub sp = None \/ k <> Comm -> l_Ub (L k) = None).
  Proof.
    exists (coded_increment f 1 1). split; [unfold coded_increment, gust_increment, knots, Rdiv; ring|].
    split; [apply (coded_unit_pos _ _ _ HD)|]. intros sp.
    destruct (gust_load_spec _ _ _ HD sp) as (L & E & A & B & C & D & F & G). exists L, (alleviation f).
    split; [exact E|]. split; [reflexivity|]. split; [apply (alleviation_range _ _ _ HD)|].
    split; [intros k v X; rewrite (A k v X); unfold load_pair; rewrite coded_linear; reflexivity|].
    split; [intros k v X; rewrite (B k v X); unfold load_pair; rewrite coded_linear; reflexivity|].
    split; [intros v X; rewrite (C v X); unfold load_pair; rewrite coded_linear; reflexivity|]. auto.
  Qed.

  (** the gust loads against the regulation: the weight fraction enters twice *)
  Theorem gust_twice sp k v : at_Uc sp = Some (Fin v) -> 0 < v -> exists L kg a q,
    paragraph341 ext s sp = Ok (L, kg, a) /\ l_Uc (L k) = Some (Fin (1 + q), Fin (1 - q)) /\
    q = gust_increment f (wing_loading f * f_wf f) (gust_c f) v / f_wf f /\
    (q = gust_increment f (wing_loading f * f_wf f) (gust_c f) v <-> f_wf f = 1).
  Proof.
    intros X V. destruct (gust_load_spec _ _ _ HD sp) as (L & E & A & _).
    exists L, (Fin (alleviation f)), (Fin (f_slope f)), (coded_increment f (gust_c f) v).
    split; [exact E|]. split; [apply (A k v X)|]. split; [reflexivity|].
    pose proof (coded_pos _ _ _ HD (gust_c f) v (gust_c_pos f) V) as Q. pose proof (p_wf _ _ _ HD) as PW.
    unfold coded_increment in *. set (g := gust_increment f _ _ _) in *.
    assert (G : g = g / f_wf f * f_wf f) by (field; lra). split.
    - intros EQ. rewrite G in EQ at 2. set (q := g / f_wf f) in *.
      apply (Rmult_eq_reg_l q); [|lra]. lra.
    - intros ->. field.
  Qed.

  (** ** stall speed *)
  Theorem stall_speed n : exists u, vs_keas s (Fin n) = Ok (Fin (in_knots u)) /\
    carries (a_rho (f_sl f)) (f_area f) (if Rle_dec 0 n then f_clmax f else f_clmin f) (n * f_weight f) u.
  Proof.
    pose proof (p_clmax _ _ _ HD). pose proof (p_clmin _ _ _ HD).
    destruct (Rle_dec 0 n) as [P|P].
    - exists (stall_mps f n (f_clmax f)). split; [apply (vs_up _ _ _ HD n P)|]. apply (stall_carries _ _ _ HD); [apply Rmult_le_pos; lra|lra].
    - exists (stall_mps f n (f_clmin f)). split; [apply (vs_down _ _ _ HD n); lra|]. apply (stall_carries _ _ _ HD); [nra|lra].
  Qed.

  Variables (c : cat) (vd : R).
  Hypothesis HC : category s = CStr (names c).
  Hypothesis HV : dive s c f vd.

  (** ** outline *)
  Theorem outline_bounds' : exists e sc cd ef fs va na, flightenvelope ext s = Ok e /\
    dget "SC" (outline e) = Some sc /\ dget "CD" (outline e) = Some cd /\ dget "EF" (outline e) = Some ef /\
    dget "FS" (outline e) = Some fs /\ dget "A" (poi e) = Some (Fin va, Fin na) /\
    ((exists vs, vs_keas s (weightfraction s) = Ok (Fin vs) /\ vs <= Rmax (f_vc f) (vc_minimum c f)) ->
     forall x y, In (x, y) sc -> exists v n, x = Fin v /\ y = Fin n /\
       n <= (1 + 2e-7) * stall_line f (f_clmax f) v /\
       (va <= v -> (1 - 2e-7) * (limit_positive c (pounds (f_weight f)) / f_wf f) <= n)) /\
    (forall x y, In (x, y) cd -> exists v n, x = Fin v /\ y = Fin n /\ limit_positive c (pounds (f_weight f)) / f_wf f <= n) /\
    (forall x y, In (x, y) ef -> exists v n, x = Fin v /\ y = Fin n /\ n <= limit_negative_dive c / f_wf f) /\
    (forall x y, In (x, y) fs -> exists v n, x = Fin v /\ y = Fin n /\ stall_line f (f_clmin f) v <= n /\
       (c = Norm \/ c = Comm -> n <= Rmax (limit_negative c (pounds (f_weight f)) / f_wf f) (stall_line f (f_clmin f) v))).
  Proof.
    destruct (outline_bounds ext s f HD c vd HC HV) as (e & sc & cd & ef & fs & E & A1 & A2 & A3 & A4 & B1 & B2 & B3 & B4).
    exists e, sc, cd, ef, fs, (va_speed c f), (limit_positive c (pounds (f_weight f)) / f_wf f).
    split; [exact E|]. do 4 (split; [assumption|]). split.
    { rewrite (envelope_spec ext s f HD c vd HC HV) in E. injection E as <-.
      unfold env. cbn [poi]. destruct (Rlt_dec _ _); [rewrite dget_filter by discriminate|]; reflexivity. }
    split; [|split; [|split]]; try assumption.
    intros (vs & EV & LV). apply B1. rewrite (d_wf _ _ _ HD) in EV.
    rewrite (vs_up _ _ _ HD) in EV by (left; apply (p_wf _ _ _ HD)). injection EV as <-. rewrite Rmult_1_l. exact LV.
  Qed.
  Theorem outline_covers : exists e sc cd ef fs va na, flightenvelope ext s = Ok e /\
    dget "SC" (outline e) = Some sc /\ dget "CD" (outline e) = Some cd /\ dget "EF" (outline e) = Some ef /\
    dget "FS" (outline e) = Some fs /\ dget "A" (poi e) = Some (Fin va, Fin na) /\
    ((exists vs, vs_keas s (weightfraction s) = Ok (Fin vs) /\ vs <= Rmax (f_vc f) (vc_minimum c f)) ->
     forall x y, In (x, y) sc -> exists v n, x = Fin v /\ y = Fin n /\
       (va <= v -> (1 - 2e-7) * (limit_positive c (pounds (f_weight f)) / f_wf f) <= n)) /\
    (forall x y, In (x, y) cd -> exists v n, x = Fin v /\ y = Fin n /\ limit_positive c (pounds (f_weight f)) / f_wf f <= n) /\
    (forall x y, In (x, y) ef -> exists v n, x = Fin v /\ y = Fin n /\ n <= limit_negative_dive c / f_wf f) /\
    (c = Norm \/ c = Comm -> forall x y, In (x, y) fs -> exists v n, x = Fin v /\ y = Fin n /\
       n <= Rmax (limit_negative c (pounds (f_weight f)) / f_wf f) (stall_line f (f_clmin f) v)).
  Proof.
    destruct outline_bounds' as (e & sc & cd & ef & fs & va & na & E & A1 & A2 & A3 & A4 & A5 & B1 & B2 & B3 & B4).
    exists e, sc, cd, ef, fs, va, na. do 6 (split; [assumption|]).
    split; [intros V x y H; destruct (B1 V x y H) as (v & n & ? & ? & ? & ?); eauto|]. do 2 (split; [assumption|]).
    intros HN x y H. destruct (B4 x y H) as (v & n & ? & ? & ? & K). exists v, n. auto.
  Qed.
  Theorem outline_stall : exists e sc fs, flightenvelope ext s = Ok e /\
    dget "SC" (outline e) = Some sc /\ dget "FS" (outline e) = Some fs /\
    ((exists vs, vs_keas s (weightfraction s) = Ok (Fin vs) /\ vs <= Rmax (f_vc f) (vc_minimum c f)) ->
     forall x y, In (x, y) sc -> exists v n, x = Fin v /\ y = Fin n /\ n <= (1 + 2e-7) * stall_line f (f_clmax f) v) /\
    (forall x y, In (x, y) fs -> exists v n, x = Fin v /\ y = Fin n /\ stall_line f (f_clmin f) v <= n).
  Proof.
    destruct outline_bounds' as (e & sc & cd & ef & fs & va & na & E & A1 & A2 & A3 & A4 & A5 & B1 & B2 & B3 & B4).
    exists e, sc, fs. do 3 (split; [assumption|]).
    split; [intros V x y H; destruct (B1 V x y H) as (v & n & ? & ? & ? & ?); eauto|].
    intros x y H. destruct (B4 x y H) as (v & n & ? & ? & ? & K). eauto.
  Qed.
  Theorem outline_gap : c = Norm \/ c = Comm ->
    limit_negative c (pounds (f_weight f)) / f_wf f < 1 - coded_increment f (gust_c f) (Rmax (f_vc f) (vc_minimum c f)) ->
    stall_line f (f_clmin f) (Rmax (f_vc f) (vc_minimum c f)) <= limit_negative c (pounds (f_weight f)) / f_wf f ->
    exists e ef fs v n1 n2, flightenvelope ext s = Ok e /\ dget "EF" (outline e) = Some ef /\ dget "FS" (outline e) = Some fs /\
      ends ef (Fin v, Fin n1) /\ starts fs (Fin v, Fin n2) /\ n2 < n1.
  Proof.
    intros HN H1 H2. destruct (f_uncovered ext s f HD c vd HC HV HN H1 H2) as (e & nf & fs & n & E & PF & L & F1 & F2 & ->).
    destruct (outline_joins ext s f HD c vd HC HV) as (e' & sc & cd & pe & ef & C & D & E2 & F & E' & _ & _ & _ & G1 & _ & _ & _ & G2 & _ & _ & _ & _ & G3 & _).
    rewrite E in E'. injection E' as <-. rewrite PF in G2. injection G2 as <-.
    do 6 eexists. split; [exact E|]. split; [exact G1|]. split; [exact F1|]. split; [exact G3|]. split; [exact F2|exact L].
  Qed.
End Speeds.

Lemma factor_monotone s1 s2 W1 W2 A1 A2 :
  weight_n (acobj s1) = Some (Fin W1) -> wingarea_m2 (acobj s1) = Some A1 ->
  weight_n (acobj s2) = Some (Fin W2) -> wingarea_m2 (acobj s2) = Some A2 -> 0 <= W1 <= W2 ->
  exists l1 l2, paragraph337 s1 = Ok l1 /\ paragraph337 s2 = Ok l2 /\ forall c, exists n1 n2,
    npos_min (l1 c) = Fin n1 /\ npos_min (l2 c) = Fin n2 /\ 2.1 < n2 <= n1 /\ n1 <= 6.
Proof.
  intros E1 F1 E2 F2 H. destruct (limits_spec s1 W1 A1 E1 F1 ltac:(lra)) as (l1 & L1 & H1).
  destruct (limits_spec s2 W2 A2 E2 F2 ltac:(lra)) as (l2 & L2 & H2). exists l1, l2. do 2 (split; [assumption|]). intros c.
  do 2 eexists. split; [apply H1|]. split; [apply H2|].
  assert (P : 0 <= pounds W1 <= pounds W2) by (unfold pounds; lra).
  pose proof (limit_positive_mono c _ _ P). pose proof (limit_positive_range c (pounds W1) ltac:(lra)).
  pose proof (limit_positive_range c (pounds W2) ltac:(lra)). lra.
Qed.

(** ** errors *)
Lemma bad_category ext s : (forall c, category s <> CStr (names c)) -> flightenvelope ext s = Err ValueError.
Proof.
  intros H. unfold flightenvelope. assert (E : check_category (category s) = Err ValueError); [|rewrite E; reflexivity].
  unfold check_category. destruct (category s) as [n| |]; try reflexivity. unfold cat_of_name.
  destruct (String.eqb_spec n "norm") as [->|]; [destruct (H Norm); reflexivity|].
  destruct (String.eqb_spec n "util") as [->|]; [destruct (H Util); reflexivity|].
  destruct (String.eqb_spec n "comm") as [->|]; [destruct (H Comm); reflexivity|].
  destruct (String.eqb_spec n "aero") as [->|]; [destruct (H Aero); reflexivity|]. reflexivity.
Qed.
Lemma stall_missing s n : weight_n (acobj s) = None \/ wingarea_m2 (acobj s) = None -> vs_keas s n = Err ValueError.
Proof.
  intros H. unfold vs_keas. destruct (weight_n (acobj s)); [|reflexivity]. destruct (wingarea_m2 (acobj s)); [|reflexivity].
  destruct H; discriminate.
Qed.
Lemma stall_missing_cl s w a n : weight_n (acobj s) = Some w -> wingarea_m2 (acobj s) = Some a ->
  (0 <= n /\ clmaxclean (acobj s) = None) \/ (n < 0 /\ clminclean (acobj s) = None) -> vs_keas s (Fin n) = Err ValueError.
Proof.
  intros EW EA H. unfold vs_keas. rewrite EW, EA. cbn [required rbind]. rewrite nleb_fin.
  destruct (Rleb_reflect 0 n) as [P|P]; destruct H as [(H & E)|(H & E)]; try lra; rewrite E; reflexivity.
Qed.

(** ** construction *)
Theorem certification_values b d p atm prop cs s cs' : certification b d p atm prop cs = Ok (s, cs') ->
  (forall k, dget k cs' = match dget k (match cs with None => [] | Some x => x end) with
                          | Some v => Some v | None => dget k csdefaults end) /\
  dget "certcat" cs' = Some (category s) /\
  (exists v, dget "altitude_m" cs' = Some v /\ cs_number v (altitude_m s)) /\
  (exists v, dget "weightfraction" cs' = Some v /\ cs_number v (weightfraction s)) /\
  (exists v, dget "divespeed_keas" cs' = Some v /\ cs_quantity v (divespeed_keas s)) /\
  (exists v, dget "maxlevelspeed_keas" cs' = Some v /\ cs_quantity v (maxlevelspeed_keas s)) /\
  exists v q, dget "cruisespeed_keas" cs' = Some v /\ cs_quantity v q /\
    (q <> None -> cruisespeed_keas s = q) /\
    (q = None -> cruisespeed_ktas (acobj s) = None -> cruisespeed_keas s = None) /\
    (forall v h a, q = None -> cruisespeed_ktas (acobj s) = Some (Fin v) ->
     altitude_m s = Fin h -> air_at (acobj s) h a -> cruisespeed_keas s = Some (Fin (v * sqrt (a_rho a / 1.225)))).
Proof.
  intros H. apply certification_inv in H. destruct H as (o & _ & EA & -> & H). rewrite <- EA in H.
  split. { intros k. rewrite csfill_get. destruct (dget k _); [reflexivity|]. unfold default_csbrief, csdefaults. cbn [dget].
    repeat match goal with |- context [String.eqb k ?x] => destruct (String.eqb_spec k x); [subst; cbn; try reflexivity|] end. reflexivity. }
  set (cs1 := csfill _) in *. clearbody cs1. unfold cert_of, dindex in H.
  apply rbind_ok in H. destruct H as (v1 & V1 & H). apply rbind_ok in H. destruct H as (p1 & P1 & H).
  apply rbind_ok in H. destruct H as (v2 & V2 & H). apply rbind_ok in H. destruct H as (p2 & P2 & H).
  apply rbind_ok in H. destruct H as (vc & VC & H).
  apply rbind_ok in H. destruct H as (ct & CT & H).
  apply rbind_ok in H. destruct H as (v3 & V3 & H). apply rbind_ok in H. destruct H as (p3 & P3 & H).
  apply rbind_ok in H. destruct H as (v4 & V4 & H). apply rbind_ok in H. destruct H as (p4 & P4 & H).
  apply rbind_ok in H. destruct H as (v5 & V5 & H). apply rbind_ok in H. destruct H as (p5 & P5 & H).
  injection H as ES. rewrite <- ES. cbn [category altitude_m weightfraction cruisespeed_keas divespeed_keas maxlevelspeed_keas acobj].
  destruct (dget "cruisespeed_keas" cs1) as [w1|]; [|discriminate]. injection V1 as ->.
  destruct (dget "altitude_m" cs1) as [w2|]; [|discriminate]. injection V2 as ->.
  destruct (dget "certcat" cs1) as [w3|]; [|discriminate]. injection CT as ->.
  destruct (dget "divespeed_keas" cs1) as [w4|]; [|discriminate]. injection V3 as ->.
  destruct (dget "maxlevelspeed_keas" cs1) as [w5|]; [|discriminate]. injection V4 as ->.
  destruct (dget "weightfraction" cs1) as [w6|]; [|discriminate]. injection V5 as ->.
  split; [reflexivity|].
  assert (KN : forall v x, csnum v = Ok x -> cs_number v x) by (intros [t|[|]|z] x E; cbn in E; try discriminate; injection E as <-; constructor).
  assert (KQ : forall v x, csparam v = Ok x -> cs_quantity v x) by (intros [t|[|]|z] x E; cbn in E; try discriminate; injection E as <-; constructor).
  do 4 (split; [eexists; split; [reflexivity|auto]|]).
  exists v1, p1. split; [reflexivity|]. split; [auto|].
  split; [intros N; destruct p1; [injection VC as <-; reflexivity|congruence]|].
  split; [intros -> E; rewrite E in VC; injection VC as <-; reflexivity|].
  intros v h a -> E2 E3 HA. rewrite E2, E3, (dens_air _ _ _ HA) in VC. cbn [rbind] in VC.
  assert (PR : 0 < a_rho a) by apply HA. assert (0 < a_rho a / 1.225) by (apply Rdiv_lt_0_compat; lra).
  unfold tas2eas in VC. rewrite ndiv_fin, npow_fin, nmul_fin in VC by lra. rewrite half_power in VC by assumption.
  injection VC as <-. reflexivity.
Qed.
Theorem certification_engine b d p atm prop cs s cs' : certification b d p atm prop cs = Ok (s, cs') ->
  propulsion (acobj s) = PropFalse.
Proof.
  intros H. apply certification_inv in H. destruct H as (o & E & -> & _). apply (construct_engine _ _ _ _ _ _ E).
Qed.
Theorem certification_total b d p atm prop v : wellformed b d p ->
  exists s cs', certification b d p atm prop (Some [("cruisespeed_keas", CNum v)]) = Ok (s, cs').
Proof.
  intros H. destruct (construct_total b d p atm PropFalse H) as (o & E).
  unfold certification. rewrite E. cbn [rbind]. do 2 eexists. reflexivity.
Qed.

(** ** concrete cases *)
Lemma example_any k : exists s f vd, describes example_ext s f /\ category s = CStr (names k) /\ dive s k f vd /\ f_wf f = 0.9.
Proof.
  exists (example_cert 30 1.5 250 0.9 k), (example_flight 30 1.5 250 0.9), (vd_minimum k (example_flight 30 1.5 250 0.9)).
  split; [apply example_describes; lra|]. split; [reflexivity|]. split; [|reflexivity]. left. split; reflexivity.
Qed.
Lemma minimum_ge k area clmax vc wf x : 0 < area -> 0 < clmax -> 0 < vc <= 560 -> 0 < wf -> 0 <= x ->
  x ^ 2 <= pounds_per_ft2 (100000 / area) -> 28.6 * x <= vc_minimum k (example_flight area clmax vc wf).
Proof.
  intros HA HC HV HW HX HL. unfold vc_minimum, wing_loading. cbn [f_weight f_area example_flight].
  set (wl := pounds_per_ft2 (100000 / area)) in *. pose proof (vc_coefficient_range k wl) as K.
  assert (S : x <= sqrt wl) by (rewrite <- (sqrt_pow2 x HX); apply sqrt_le_1; [apply pow2_ge_0|pose proof (pow2_ge_0 x); lra|exact HL]).
  apply Rmult_le_compat; lra.
Qed.
Lemma va_witness : exists s f, describes example_ext s f /\ category s = CStr (names Aero) /\
  a_rho (f_sl f) * f_clmax f <= 1.67 * f_wf f /\ f_vc f <= vc_minimum Aero f.
Proof.
  exists (example_cert 30 1.2 100 1 Aero), (example_flight 30 1.2 100 1). split; [apply example_describes; lra|]. split; [reflexivity|].
  pose proof sea_density as D. cbn [f_sl f_clmax f_wf f_vc example_flight]. split; [lra|].
  pose proof (minimum_ge Aero 30 1.2 100 1 8 ltac:(lra) ltac:(lra) ltac:(lra) ltac:(lra) ltac:(lra)) as M.
  assert (8 ^ 2 <= pounds_per_ft2 (100000 / 30)) by (unfold pounds_per_ft2; simpl; lra). specialize (M H). lra.
Qed.
Lemma va_partial_witness : exists s f, describes example_ext s f /\ category s = CStr (names Norm) /\
  1.69 * f_wf f <= a_rho (f_sl f) * f_clmax f.
Proof.
  exists (example_cert 30 1.5 250 1 Norm), (example_flight 30 1.5 250 1). split; [apply example_describes; lra|]. split; [reflexivity|].
  pose proof sea_density as D. cbn [f_sl f_clmax f_wf f_vc example_flight]. lra.
Qed.
Lemma uncovered_witness : exists s f vd, describes example_ext s f /\ category s = CStr (names Norm) /\ dive s Norm f vd /\
  limit_negative Norm (pounds (f_weight f)) / f_wf f < 1 - coded_increment f (gust_c f) (Rmax (f_vc f) (vc_minimum Norm f)) /\
  stall_line f (f_clmin f) (Rmax (f_vc f) (vc_minimum Norm f)) <= limit_negative Norm (pounds (f_weight f)) / f_wf f /\ f_wf f = 1.
Proof.
  exists (example_cert 10 1.5 560 1 Norm), (example_flight 10 1.5 560 1), (vd_minimum Norm (example_flight 10 1.5 560 1)).
  pose proof (example_describes 10 1.5 560 1 Norm ltac:(lra) ltac:(lra) ltac:(lra) ltac:(lra)) as HD.
  split; [exact HD|]. split; [reflexivity|]. split; [left; split; reflexivity|].
  set (f := example_flight 10 1.5 560 1) in *.
  assert (VM : vc_minimum Norm f <= 560).
  { unfold vc_minimum, wing_loading. cbn [f example_flight f_weight f_area]. set (wl := pounds_per_ft2 (100000 / 10)).
    pose proof (vc_coefficient_range Norm wl) as K.
    assert (S : sqrt wl <= 14.5).
    { rewrite <- (sqrt_pow2 14.5) by lra. apply sqrt_le_1; unfold wl, pounds_per_ft2; simpl; lra. }
    apply Rle_trans with (36 * 14.5); [apply Rmult_le_compat; try lra; apply sqrt_pos|lra]. }
  assert (VC : Rmax (f_vc f) (vc_minimum Norm f) = 560) by (apply Rmax_left; exact VM). rewrite VC.
  assert (LN : -1.6 < limit_negative Norm (pounds (f_weight f)) < -0.8).
  { cbn [limit_negative]. pose proof (limit_positive_norm _ (Rlt_le _ _ (p_pounds _ _ _ HD))). lra. }
  assert (LN2 : limit_negative Norm (pounds (f_weight f)) <= -1.13).
  { cbn [limit_negative limit_positive f example_flight f_weight]. unfold pounds, Rmin.
    destruct (Rle_dec _ _); lra. }
  pose proof sea_density as D. pose proof (alleviation_range _ _ _ HD) as A.
  assert (SL : f_slope f = 5).
  { cbn [f example_flight f_slope]. apply plane_slope_transonic. pose proof (example_mach_range 560 ltac:(lra)). lra. }
  set (n := limit_negative Norm (pounds (f_weight f))) in *.
  change (f_wf f) with 1. split; [|split; [|reflexivity]].
  - assert (Q : coded_increment f (gust_c f) 560 <= 2.1).
    { unfold coded_increment, gust_increment, wing_loading. rewrite SL. change (f_wf f) with 1. change (f_weight f) with 100000. change (f_area f) with 10.
      change (f_sl f) with (std_air 0). unfold gust_c. change (f_alt f) with 0. unfold ft, gust_profile. rewrite clamp01_lo by lra.
      unfold knots. set (k := alleviation f) in *. set (r := a_rho (std_air 0)) in *.
      assert (KR : k * r <= 0.88 * 1.226) by (apply Rmult_le_compat; lra).
      replace (k * r * ((50 + (25 - 50) * 0) * 0.3048) * (560 * 0.5144444) * 5 / (2 * (100000 / 10 * 1)) / 1)
        with (k * r * (50 * 0.3048 * (560 * 0.5144444) * 5 / 20000)) by field. lra. }
    lra.
  - unfold stall_line, wing_loading. change (f_wf f) with 1. change (f_weight f) with 100000. change (f_area f) with 10. change (f_clmin f) with (-1).
    change (f_sl f) with (std_air 0). unfold knots. set (r := a_rho (std_air 0)) in *. simpl. lra.
Qed.
Lemma chords_example : exists s root b, wingarea_m2 (acobj s) = Some (Fin 30) /\ aspectratio (acobj s) = Some (Fin 8) /\
  roottaperratio (acobj s) = Some (Fin 0.4) /\ trapezoid 30 8 0.4 root b.
Proof.
  exists (example_cert 30 1.5 250 1 Norm), (30 / sqrt 240 * 2 / 1.4), (sqrt 240).
  do 3 (split; [reflexivity|]). assert (P : 0 < sqrt 240) by (apply sqrt_lt_R0; lra).
  split; [apply Rdiv_lt_0_compat; [|lra]; apply Rmult_lt_0_compat; [apply Rdiv_lt_0_compat|]; lra|].
  split; [exact P|]. split; [rewrite pow2_sqrt by lra; lra|].
  replace (30 / sqrt 240) with (30 / sqrt 240 * 2 / 1.4 * (1 + 0.4) / 2) at 2 by (replace 0.4 with (2 / 5) by lra; replace 1.4 with (7 / 5) by lra; field; lra).
  apply chord_integral.
Qed.
(** the same with other weights and lift coefficients, or without them *)
Definition plane_with (weight clmin : param) : concept := {|
  climbalt_m := Some (Fin (1000));
  climbspeed_kias := Some (Fin (250));
  climbrate_fpm := Some (Fin (1000));
  cruisealt_m := Some (Fin (6000));
  cruisespeed_ktas := Some (Fin (300));
  cruisethrustfact := Some (Fin (1));
  servceil_m := Some (Fin (9000));
  secclimbspd_kias := Some (Fin (180));
  vstallclean_kcas := Some (Fin (110));
  groundrun_m := Some (Fin (1200));
  rwyelevation_m := Some (Fin (0));
  to_headwind_kts := Some (Fin (0));
  to_slope_perc := Some (Fin (0));
  turnalt_m := Some (Fin (2000));
  turnspeed_ktas := Some (Fin (240));
  stloadfactor := Some (Fin (1.5));
  aspectratio := Some (Fin (8));
  sweep_le_deg := Some (Fin 20);
  sweep_25_deg := Some (Fin 18);
  sweep_mt_deg := Some (Fin (16));
  roottaperratio := Some (Fin (0.4));
  wingarea_m2 := Some (Fin 30);
  wingheightratio := Some (Fin (0.1));
  bpr := Some (Fin 4);
  spooluptime_s := Some (Fin (5));
  totalstaticthrust_n := Some (Fin (40000));
  throttle_r := Some (Fin (1.07));
  weight_n := weight;
  climb_weight_fraction := Some (Fin (0.95));
  cruise_weight_fraction := Some (Fin (0.9));
  sec_weight_fraction := Some (Fin (0.85));
  turn_weight_fraction := Some (Fin (0.92));
  runwayalpha_deg := Some (Fin (0));
  runwayalpha_max_deg := Some (Fin (12));
  CD0TO := Some (Fin (0.04));
  cdto := Some (Fin (0.06));
  cdminclean := Some (Fin (0.02));
  mu_r := Some (Fin (0.03));
  CL0TO := Some (Fin (0.5));
  clto := Some (Fin (0.8));
  clmaxclean := Some (Fin 1.5);
  clminclean := clmin;
  clmaxto := Some (Fin (1.7));
  a_0i := Some (Fin (6.28));
  etaprop_climb := Some (Fin (0.75));
  etaprop_cruise := Some (Fin (0.85));
  etaprop_sec := Some (Fin (0.65));
  etaprop_to := Some (Fin (0.45));
  etaprop_turn := Some (Fin (0.85));
  designatm := isa 0;
  propulsion := PropFalse |}.
Lemma weighed_example : exists s f, describes example_ext s f /\ weight_n (acobj s) = Some (Fin 100000) /\
  wingarea_m2 (acobj s) = Some (Fin 30) /\ f_weight f = 100000.
Proof.
  exists (example_cert 30 1.5 250 0.9 Util), (example_flight 30 1.5 250 0.9).
  split; [apply example_describes; lra|]. repeat split.
Qed.
Lemma light_example : exists s, weight_n (acobj s) = Some (Fin 20000) /\ wingarea_m2 (acobj s) = Some (Fin 30) /\
  exists t, weight_n (acobj t) = Some (Fin 100000) /\ wingarea_m2 (acobj t) = Some (Fin 30).
Proof.
  exists {| acobj := plane_with (Some (Fin 20000)) (Some (Fin (-1))); cruisespeed_keas := Some (Fin 250); category := CStr "norm";
     divespeed_keas := None; maxlevelspeed_keas := None; altitude_m := Fin 0; weightfraction := Fin 1 |}.
  split; [reflexivity|]. split; [reflexivity|]. exists (example_cert 30 1.5 250 0.9 Norm). split; reflexivity.
Qed.
Lemma gust_example : exists s f sp, describes example_ext s f /\ at_Uc sp = Some (Fin 250) /\ at_Ub sp = Some (Fin 180) /\ at_Ud sp = None /\ f_wf f = 0.9.
Proof.
  exists (example_cert 30 1.5 250 0.9 Comm), (example_flight 30 1.5 250 0.9), {| at_Ub := Some (Fin 180); at_Uc := Some (Fin 250); at_Ud := None |}.
  split; [apply example_describes; lra|]. repeat split.
Qed.
Lemma category_example : exists s f vd, describes example_ext s f /\ category s = CStr "comm" /\ dive s Comm f vd /\
  exists t, (forall c, category t <> CStr (names c)) /\ category t = CStr "Normal".
Proof.
  exists (example_cert 30 1.5 250 0.9 Comm), (example_flight 30 1.5 250 0.9), (vd_minimum Comm (example_flight 30 1.5 250 0.9)).
  split; [apply example_describes; lra|]. split; [reflexivity|]. split; [left; split; reflexivity|].
  exists {| acobj := plane 30 1.5; cruisespeed_keas := Some (Fin 250); category := CStr "Normal";
     divespeed_keas := None; maxlevelspeed_keas := None; altitude_m := Fin 0; weightfraction := Fin 1 |}.
  split; [|reflexivity]. intros []; discriminate.
Qed.
Lemma incomplete_example : exists s, weight_n (acobj s) = Some (Fin 100000) /\ wingarea_m2 (acobj s) = Some (Fin 30) /\
  clminclean (acobj s) = None /\ exists t, weight_n (acobj t) = None.
Proof.
  exists {| acobj := plane_with (Some (Fin 100000)) None; cruisespeed_keas := Some (Fin 250); category := CStr "norm";
     divespeed_keas := None; maxlevelspeed_keas := None; altitude_m := Fin 0; weightfraction := Fin 1 |}.
  do 3 (split; [reflexivity|]).
  exists {| acobj := plane_with None (Some (Fin (-1))); cruisespeed_keas := Some (Fin 250); category := CStr "norm";
     divespeed_keas := None; maxlevelspeed_keas := None; altitude_m := Fin 0; weightfraction := Fin 1 |}. reflexivity.
Qed.
Lemma outline_example : exists s f vd vs, describes example_ext s f /\ category s = CStr "norm" /\ dive s Norm f vd /\
  vs_keas s (weightfraction s) = Ok (Fin vs) /\ vs <= Rmax (f_vc f) (vc_minimum Norm f).
Proof.
  set (f := example_flight 30 1.5 250 1). set (s := example_cert 30 1.5 250 1 Norm).
  assert (HD : describes example_ext s f) by (apply example_describes; lra).
  destruct (stall_speed _ _ _ HD 1) as (u & E & U0 & U). exists s, f, (vd_minimum Norm f), (in_knots u).
  split; [exact HD|]. split; [reflexivity|]. split; [left; split; reflexivity|]. split; [exact E|].
  apply Rle_trans with (f_vc f); [|apply Rmax_l]. change (f_vc f) with 250.
  destruct (Rle_dec 0 1) as [_|N]; [|lra]. change (f_clmax f) with 1.5 in U. change (f_area f) with 30 in U.
  change (f_weight f) with 100000 in U. change (f_sl f) with (std_air 0) in U. pose proof sea_density as D.
  set (r := a_rho (std_air 0)) in *. unfold in_knots. destruct (Rle_dec u 128) as [L|L]; [lra|exfalso].
  assert (128 ^ 2 <= u ^ 2) by (apply pow_incr; lra). simpl in *. nra.
Qed.
