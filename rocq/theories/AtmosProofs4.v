(** Public-interface consequences of the atmosphere lemmas. *)
From Verif Require Import Base BaseFacts UnitsModel AtmosModel AtmosSpec AnalysisFacts
  IsaReal IsaProofs IsaInverse AtmosProofs AtmosProofs2 AtmosProofs3.
Open Scope R_scope.

Lemma same_layer_of a b : same_isa_layer a b -> same_layer a b.
Proof.
  unfold same_isa_layer, same_layer, layer. intros (H1 & H2 & H3 & H4).
  unfold Rltb in *.
  repeat match goal with |- context [Rlt_dec ?x ?y] => destruct (Rlt_dec x y) end;
  auto; exfalso; tauto.
Qed.

(** ** C04 *)
Lemma vsound_kts_many o hs : (2 <= List.length hs)%nat ->
  Forall (fun h => h <= 50000 /\ 0 < std_temp h + o) hs ->
  vsound_kts (isa o) (VList (map Fin hs)) = Err TypeError.
Proof.
  intros H F. unfold vsound_kts. rewrite vsound_isa_many; [reflexivity|lia| |exact F].
  intros ->. simpl in H. lia.
Qed.

(** ** C05 *)
Lemma geo_relation z : - 6356766 < z -> exists h, geom2geop45m (Fin z) = Fin h /\
  h * (6356766 + z) = 6356766 * z.
Proof.
  intros H. exists (rE * z / (rE + z)). split; [apply geom_fin; unfold rE; lra|].
  unfold rE. field. lra.
Qed.

(** ** C06 *)
Lemma std_temp_joints :
  std_temp 0 = 288.15 /\ std_temp 11000 = 216.65 /\ std_temp 20000 = 216.65 /\
  std_temp 32000 = 228.65 /\ std_temp 47000 = 270.65 /\ std_temp 50000 = 270.65.
Proof.
  unfold std_temp, climb. repeat split;
  repeat match goal with |- context [Rmin ?a ?b] => 
    first [rewrite (Rmin_left a b) by lra | rewrite (Rmin_right a b) by lra] end;
  repeat match goal with |- context [Rmax ?a ?b] => 
    first [rewrite (Rmax_left a b) by lra | rewrite (Rmax_right a b) by lra] end; lra.
Qed.

(** ** C07 *)
Lemma query_layer_mono a b : -5000 <= a -> a < b -> b <= 50000 -> same_isa_layer a b ->
  exists pa pb da db,
    airpress_pa (isa 0) (VNum (Fin a)) = Ok (VNum (Fin pa)) /\
    airpress_pa (isa 0) (VNum (Fin b)) = Ok (VNum (Fin pb)) /\ 0 < pb < pa /\
    airdens_kgpm3 (isa 0) (VNum (Fin a)) = Ok (VNum (Fin da)) /\
    airdens_kgpm3 (isa 0) (VNum (Fin b)) = Ok (VNum (Fin db)) /\ 0 < db < da.
Proof.
  intros H1 H2 H3 L. apply same_layer_of in L.
  exists (exp (lp a)), (exp (lp b)), (exp (ld a)), (exp (ld b)).
  rewrite !airpress_isa, !airdens_isa0 by lra.
  pose proof (lp_strict_layer a b H1 H2 H3 L). pose proof (ld_strict_layer a b H1 H2 H3 L).
  repeat split; try reflexivity; try apply exp_pos; apply exp_increasing; assumption.
Qed.

Lemma query_near_mono a b : -5000 <= a -> a + 0.1 <= b -> b <= 50000 ->
  exists pa pb da db,
    airpress_pa (isa 0) (VNum (Fin a)) = Ok (VNum (Fin pa)) /\
    airpress_pa (isa 0) (VNum (Fin b)) = Ok (VNum (Fin pb)) /\ 0 < pb < pa /\
    airdens_kgpm3 (isa 0) (VNum (Fin a)) = Ok (VNum (Fin da)) /\
    airdens_kgpm3 (isa 0) (VNum (Fin b)) = Ok (VNum (Fin db)) /\ 0 < db < da.
Proof.
  intros H1 H2 H3.
  exists (exp (lp a)), (exp (lp b)), (exp (ld a)), (exp (ld b)).
  rewrite !airpress_isa, !airdens_isa0 by lra.
  pose proof (lp_decreases a b H1 ltac:(lra) H3). pose proof (ld_decreases a b H1 ltac:(lra) H3).
  repeat split; try reflexivity; try apply exp_pos; apply exp_increasing; lra.
Qed.

Lemma press_query o h : airpress_pa (isa o) (VNum (Fin h)) =
  if Rlt_dec 50000 h then Err TypeError else Ok (VNum (isapress1 (Fin h))).
Proof.
  unfold airpress_pa, alttest, isa, recastasnpfloatarray, isapress_pa, nditer_map. simpl.
  unfold Rltb. destruct (Rlt_dec 50000 h); reflexivity.
Qed.
Lemma dens_query o h : airdens_kgpm3 (isa o) (VNum (Fin h)) =
  if Rlt_dec 50000 h then Err TypeError else Ok (VNum (isadens1 (Fin o) (Fin h))).
Proof.
  unfold airdens_kgpm3, alttest, isa, recastasnpfloatarray, isadens_kgpm3, nditer_map.
  cbn [prof offset_deg existsb orb rbind]. unfold Level5 at 1. cbn [nltb].
  unfold Rltb at 1. destruct (Rlt_dec 50000 h); reflexivity.
Qed.
Lemma temp_query o h : airtemp_k (isa o) (VNum (Fin h)) =
  if Rlt_dec 50000 h then Err TypeError else Ok (VNum (isatemp1 (Fin o) (Fin h))).
Proof.
  unfold airtemp_k, alttest, isa, recastasnpfloatarray, isatemp_k, nditer_map.
  cbn [prof offset_deg existsb orb rbind]. unfold Level5 at 1. cbn [nltb].
  unfold Rltb at 1. destruct (Rlt_dec 50000 h); reflexivity.
Qed.

Lemma query_rises : exists a b pa pb a' b' da db,
  (0 <= a /\ a < b /\ b <= 50000 /\
   airpress_pa (isa 0) (VNum (Fin a)) = Ok (VNum (Fin pa)) /\
   airpress_pa (isa 0) (VNum (Fin b)) = Ok (VNum (Fin pb)) /\ pa < pb) /\
  (0 <= a' /\ a' < b' /\ b' <= 50000 /\
   airdens_kgpm3 (isa 0) (VNum (Fin a')) = Ok (VNum (Fin da)) /\
   airdens_kgpm3 (isa 0) (VNum (Fin b')) = Ok (VNum (Fin db)) /\ da < db).
Proof.
  destruct press_rises as (a & b & pa & pb & A1 & A2 & A3 & A4 & A5 & A6).
  destruct dens_rises as (c & d & da & db & B1 & B2 & B3 & B4 & B5 & B6).
  exists a, b, pa, pb, c, d, da, db.
  rewrite !press_query, !dens_query.
  repeat match goal with |- context [Rlt_dec 50000 ?x] => destruct (Rlt_dec 50000 x); [lra|] end.
  rewrite A4, A5, B4, B5. intuition.
Qed.

Lemma query_std h : -5000 <= h -> h <= 50000 -> exists p d,
  airpress_pa (isa 0) (VNum (Fin h)) = Ok (VNum (Fin p)) /\ agrees 1e-5 p (std_press h) /\
  airdens_kgpm3 (isa 0) (VNum (Fin h)) = Ok (VNum (Fin d)) /\ agrees 1e-5 d (std_dens h) /\
  0 < p /\ 0 < d.
Proof.
  intros H1 H2. destruct (press_std h H1 H2) as (p & P1 & P2).
  destruct (dens_std h H1 H2) as (d & D1 & D2).
  exists p, d. 
  assert (0 < p) by (pose proof (airpress_isa 0 h H2) as E; rewrite press_query in E;
    destruct (Rlt_dec 50000 h); [lra|]; rewrite P1 in E; injection E as ->; apply exp_pos).
  assert (0 < d) by (pose proof (airdens_isa0 h H2) as E; rewrite dens_query in E;
    destruct (Rlt_dec 50000 h); [lra|]; rewrite D1 in E; injection E as ->; apply exp_pos).
  rewrite press_query, dens_query. destruct (Rlt_dec 50000 h); [lra|].
  rewrite P1, D1. tauto.
Qed.

(** ** C08 *)
Lemma query_gas o h : -5000 <= h -> h <= 50000 -> 0 < std_temp h + o ->
  exists p d t, airpress_pa (isa o) (VNum (Fin h)) = Ok (VNum (Fin p)) /\
    airdens_kgpm3 (isa o) (VNum (Fin h)) = Ok (VNum (Fin d)) /\
    airtemp_k (isa o) (VNum (Fin h)) = Ok (VNum (Fin t)) /\ 0 < d /\ 0 < t /\
    agrees 1e-6 p (d * Rair * t).
Proof.
  intros H1 H2 H3. destruct (gas_law o h H1 H2 H3) as (p & d & t & P & D & T & G).
  exists p, d, t. 
  assert (0 < t) by (rewrite isatemp_std in T by assumption; injection T as <-; assumption).
  assert (0 < d).
  { pose proof (airdens_isa o h H2 ltac:(lra)) as E. rewrite dens_query in E.
    destruct (Rlt_dec 50000 h); [lra|]. rewrite D in E. injection E as ->.
    apply Rdiv_lt_0_compat; [|assumption]. apply Rmult_lt_0_compat; [apply exp_pos|].
    rewrite <- (tl_std h H2). pose proof (tl_std h H2). 
    revert H2. clear. intros. rewrite tl_std by assumption. unfold std_temp, climb.
    pose proof (Rmax_l 0 (Rmin h 32000 - 20000)). pose proof (Rmax_l 0 (Rmin h 47000 - 32000)).
    pose proof (Rmin_r h 11000). lra. }
  rewrite press_query, dens_query, temp_query. destruct (Rlt_dec 50000 h); [lra|].
  rewrite P, D, T. tauto.
Qed.

Lemma offset_effect o h : h <= 50000 -> 0 < std_temp h + o ->
  exists p d d0 t t0,
    airpress_pa (isa o) (VNum (Fin h)) = Ok (VNum (Fin p)) /\
    airpress_pa (isa 0) (VNum (Fin h)) = Ok (VNum (Fin p)) /\
    airdens_kgpm3 (isa o) (VNum (Fin h)) = Ok (VNum (Fin d)) /\
    airdens_kgpm3 (isa 0) (VNum (Fin h)) = Ok (VNum (Fin d0)) /\
    airtemp_k (isa o) (VNum (Fin h)) = Ok (VNum (Fin t)) /\
    airtemp_k (isa 0) (VNum (Fin h)) = Ok (VNum (Fin t0)) /\
    t = t0 + o /\ d * t = d0 * t0.
Proof.
  intros H1 H2. do 5 eexists.
  rewrite !airpress_isa, (airdens_isa o), !airdens_isa0, !airtemp_isa by lra.
  repeat (split; [reflexivity|]). split; [lra|]. field. lra.
Qed.

(** ** C09 *)
Lemma isapress_fin h : h <= 50000 -> exists p, isapress1 (Fin h) = Fin p /\ 0 < p.
Proof.
  intros H. pose proof (airpress_isa 0 h H) as E. rewrite press_query in E.
  destruct (Rlt_dec 50000 h); [lra|]. injection E as E. rewrite E. eexists; split; [reflexivity|apply exp_pos].
Qed.

Lemma pressure_altitudes hs : hs <> [] -> Forall (fun h => -5000 <= h <= 50000) hs ->
  exists ps hs', isapress_pa (map Fin hs) = Ok (map Fin ps) /\
    isapressalt_m (map Fin ps) = Ok (map Fin hs') /\
    Forall2 (fun h h' => Rabs (h' - h) <= 0.05 /\ (clear_of_joints 0.05 h -> h' = h)) hs hs'.
Proof.
  intros N F.
  assert (G : exists ps hs', mapM (fun a => Ok (isapress1 a)) (map Fin hs) = Ok (map Fin ps) /\
    mapM isapressalt1 (map Fin ps) = Ok (map Fin hs') /\
    Forall2 (fun h h' => Rabs (h' - h) <= 0.05 /\ (clear_of_joints 0.05 h -> h' = h)) hs hs').
  { clear N. induction F as [|h hs [H1 H2] F IH].
    - exists [], []. repeat split; constructor.
    - destruct IH as (ps & hs' & E1 & E2 & E3).
      destruct (pressure_altitude h H1 H2) as (h' & P1 & P2).
      destruct (isapress_fin h H2) as (p & Ep & _).
      exists (p :: ps), (h' :: hs'). cbn [map mapM rbind]. rewrite Ep in *.
      rewrite E1, P1. cbn [rbind]. rewrite E2. cbn [rbind].
      split; [reflexivity|]. split; [reflexivity|]. constructor; assumption. }
  destruct G as (ps & hs' & E1 & E2 & E3). exists ps, hs'.
  destruct hs as [|h hs]; [congruence|]. destruct ps as [|p ps].
  { exfalso. cbn [map mapM rbind] in E1. destruct (mapM _ (map Fin hs)); discriminate. }
  split; [exact E1|]. split; [exact E2|exact E3].
Qed.

(** ** C10 *)
Lemma density_altitude_single h : -5000 <= h -> h <= 50000 ->
  exists d h', isadens_kgpm3 (Fin 0) [Fin h] = Ok [Fin d] /\ 0 < d /\
    isadensalt_m [Fin d] = Ok [Fin h'] /\
    Rabs (h' - h) <= 0.05 /\ (clear_of_joints 0.05 h -> h' = h).
Proof.
  intros H1 H2. destruct (density_altitude h H1 H2) as (h' & E & B).
  pose proof (airdens_isa0 h H2) as D. rewrite dens_query in D.
  destruct (Rlt_dec 50000 h); [lra|]. injection D as D.
  exists (exp (ld h)), h'. unfold isadens_kgpm3, isadensalt_m, nditer_map. cbn [mapM rbind].
  rewrite D in *. rewrite E. repeat split; try apply exp_pos; apply B.
Qed.

Lemma densalt_pair_layer2 d e : 0.088034556579455497 < d <= 0.36391700650017816 ->
  isadensalt_m [Fin d; Fin e] = Err TypeError.
Proof.
  intros H. unfold isadensalt_m, nditer_map. cbn [mapM rbind].
  unfold isadensalt1 at 1. unfold dLevel1, dLevel2 at 1.
  cbn [nltb]. unfold Rltb.
  destruct (Rlt_dec 0.36391700650017816 d); [lra|].
  destruct (Rlt_dec 0.088034556579455497 d); [reflexivity|lra].
Qed.
Lemma densalt_pair_layer4 d e : d <= 0.013224937668421609 ->
  isadensalt_m [Fin d; Fin e] = Err ValueError.
Proof.
  intros H. unfold isadensalt_m, nditer_map. cbn [mapM rbind].
  unfold isadensalt1 at 1. unfold dLevel1, dLevel2, dLevel3 at 1.
  cbn [nltb]. unfold Rltb.
  destruct (Rlt_dec 0.36391700650017816 d); [lra|].
  destruct (Rlt_dec 0.088034556579455497 d); [lra|].
  destruct (Rlt_dec 0.013224937668421609 d); [lra|reflexivity].
Qed.

(** ** C12 *)
Lemma mach_negative o h V : h <= 50000 -> 0 < std_temp h + o -> V < 0 ->
  exists m, mach (isa o) (VNum (Fin V)) (VNum (Fin h)) = Ok (VArr [Fin m]) /\ m < 0.
Proof.
  intros H1 H2 H3. destruct (mach_times_sound o h V H1 H2) as (m & a & E & _ & A & B & _).
  exists m. split; [exact E|]. nra.
Qed.

(** ** C13 *)
Lemma isa_dens_pos o h : h <= 50000 -> 0 < std_temp h + o ->
  exists d, airdens_kgpm3 (isa o) (VNum (Fin h)) = Ok (VNum (Fin d)) /\ 0 < d.
Proof.
  intros H1 H2. rewrite airdens_isa by lra. eexists; split; [reflexivity|].
  apply Rdiv_lt_0_compat; [|assumption]. apply Rmult_lt_0_compat; [apply exp_pos|].
  unfold std_temp, climb.
  pose proof (Rmax_l 0 (Rmin h 32000 - 20000)). pose proof (Rmax_l 0 (Rmin h 47000 - 32000)).
  pose proof (Rmin_r h 11000). lra.
Qed.

Lemma isa_eas_tas o h : h <= 50000 -> 0 < std_temp h + o -> 0 < 288.15 + o ->
  exists d d0, airdens_kgpm3 (isa o) (VNum (Fin h)) = Ok (VNum (Fin d)) /\ 0 < d /\
    airdens_kgpm3 (isa o) (VNum (Fin 0)) = Ok (VNum (Fin d0)) /\ 0 < d0 /\
  (forall e, exists t, eas2tas_at (isa o) (VNum (Fin e)) (VNum (Fin h)) = Ok (VNum (Fin t)) /\
     tas2eas_at (isa o) (VNum (Fin t)) (VNum (Fin h)) = Ok (VNum (Fin e)) /\
     e * e * d0 = t * t * d /\ 0 <= e * t) /\
  (forall t, exists e, tas2eas_at (isa o) (VNum (Fin t)) (VNum (Fin h)) = Ok (VNum (Fin e)) /\
     eas2tas_at (isa o) (VNum (Fin e)) (VNum (Fin h)) = Ok (VNum (Fin t))).
Proof.
  intros H1 H2 H3. destruct (isa_dens_pos o h H1 H2) as (d & D & Dp).
  destruct (isa_dens_pos o 0) as (d0 & D0 & D0p); [lra|rewrite (proj1 std_temp_joints); lra|].
  exists d, d0. repeat (split; [assumption|]).
  destruct (eas_tas_inverse (isa o) h d d0 Dp D0p D D0) as [A B].
  split.
  - intros e. destruct (A e) as (t & T1 & T2 & T3). exists t. repeat (split; [assumption|]).
    destruct (eas_tas_general (isa o) h d d0 Dp D0p D D0 e) as [T4 _]. rewrite T4 in T1.
    injection T1 as <-. assert (S : 0 < sqrt (d / d0)) by (apply sqrt_lt_R0, Rdiv_lt_0_compat; assumption).
    replace (e * (e / sqrt (d / d0))) with (e * e / sqrt (d / d0)) by (field; lra).
    apply Rmult_le_pos; [nra|]. left. apply Rinv_0_lt_compat; assumption.
  - intros t. destruct (B t) as (e & E1 & E2 & _). eauto.
Qed.

(** ** C19 *)
Lemma excess_lip x y : Rabs (excess x - excess y) <= Rabs (x - y).
Proof.
  unfold excess. unfold Rmax. destruct (Rle_dec 0 x), (Rle_dec 0 y);
  unfold Rabs; repeat destruct (Rcase_abs _); lra.
Qed.

(** a Lipschitz bound for [D * (A - K * excess (th - tr))] *)
Lemma lip_form D A K th a b : 0 <= D -> 0 <= K ->
  Rabs (D * (A - K * excess (th - a)) - D * (A - K * excess (th - b))) <= D * K * Rabs (a - b).
Proof.
  intros HD HK.
  replace (D * (A - K * excess (th - a)) - D * (A - K * excess (th - b)))
    with (D * K * (excess (th - b) - excess (th - a))) by ring.
  rewrite Rabs_mult, (Rabs_right (D * K)) by nra.
  apply Rmult_le_compat_l; [nra|].
  eapply Rle_trans; [apply excess_lip|]. right.
  replace (th - b - (th - a)) with (a - b) by ring. reflexivity.
Qed.

Lemma fan_high_lip tc p m a b : 0 <= p -> 0 <= m -> exists fa fb,
  turbofanthrustfactor (Fin tc) (Fin p) (Fin m) (Fin a) highbpr = Fin fa /\
  turbofanthrustfactor (Fin tc) (Fin p) (Fin m) (Fin b) highbpr = Fin fb /\
  Rabs (fa - fb) <= 2 * delta0 p m * Rabs (a - b).
Proof.
  intros Hp Hm. rewrite !fan_high by assumption. do 2 eexists.
  split; [reflexivity|]. split; [reflexivity|].
  pose proof (delta0_nonneg p m Hp).
  replace (3 * excess (theta0 tc m - a) / (1.5 + m)) with (3 / (1.5 + m) * excess (theta0 tc m - a)) by (field; lra).
  replace (3 * excess (theta0 tc m - b) / (1.5 + m)) with (3 / (1.5 + m) * excess (theta0 tc m - b)) by (field; lra).
  assert (K : 0 <= 3 / (1.5 + m) <= 2).
  { split; [apply Rmult_le_pos; [lra|left; apply Rinv_0_lt_compat; lra]|].
    apply Rmult_le_reg_r with (1.5 + m); [lra|].
    replace (3 / (1.5 + m) * (1.5 + m)) with 3 by (field; lra). lra. }
  eapply Rle_trans; [apply lip_form; [assumption|apply K]|].
  apply Rmult_le_compat_r; [apply Rabs_pos|]. nra.
Qed.

Lemma fan_low_lip tc p m a b : 0 <= p -> -273.15 < tc -> exists fa fb ga gb,
  turbofanthrustfactor (Fin tc) (Fin p) (Fin m) (Fin a) lowbpr = Fin fa /\
  turbofanthrustfactor (Fin tc) (Fin p) (Fin m) (Fin b) lowbpr = Fin fb /\
  turbofanthrustfactor (Fin tc) (Fin p) (Fin m) (Fin a) othertype = Fin ga /\
  turbofanthrustfactor (Fin tc) (Fin p) (Fin m) (Fin b) othertype = Fin gb /\
  Rabs (fa - fb) <= 3.5 / theta0 tc m * delta0 p m * Rabs (a - b) /\
  Rabs (ga - gb) <= 2.28 / theta0 tc m * delta0 p m * Rabs (a - b).
Proof.
  intros Hp Ht. rewrite !fan_low, !fan_other by assumption. do 4 eexists.
  repeat (split; [reflexivity|]).
  pose proof (delta0_nonneg p m Hp). pose proof (theta0_pos tc m Ht) as T.
  assert (I : 0 < / theta0 tc m) by (apply Rinv_0_lt_compat; assumption).
  assert (E : forall K x, K * excess x / theta0 tc m = (K / theta0 tc m) * excess x) by (intros; field; lra).
  rewrite !E. split.
  - eapply Rle_trans; [apply lip_form; [assumption|unfold Rdiv; nra]|].
    right; ring.
  - eapply Rle_trans; [apply lip_form; [nra|unfold Rdiv; nra]|].
    unfold Rdiv; lra.
Qed.

Lemma jet_dry_lip tc p m a b : 0 <= p -> 0 <= m -> -273.15 < tc -> exists fa fb,
  turbojetthrustfactor (Fin tc) (Fin p) (Fin m) (Fin a) false = Fin fa /\
  turbojetthrustfactor (Fin tc) (Fin p) (Fin m) (Fin b) false = Fin fb /\
  Rabs (fa - fb) <= 19.2 / ((9 + m) * theta0 tc m) * delta0 p m * Rabs (a - b).
Proof.
  intros Hp Hm Ht. rewrite !jet_dry by assumption. do 2 eexists.
  repeat (split; [reflexivity|]).
  pose proof (delta0_nonneg p m Hp). pose proof (theta0_pos tc m Ht) as T.
  assert (P : 0 < (9 + m) * theta0 tc m) by nra.
  assert (I : 0 < / ((9 + m) * theta0 tc m)) by (apply Rinv_0_lt_compat; assumption).
  assert (E : forall x, 24 * excess x / ((9 + m) * theta0 tc m) = (24 / ((9 + m) * theta0 tc m)) * excess x)
    by (intros; field; split; lra).
  rewrite !E.
  eapply Rle_trans; [apply lip_form; [nra|unfold Rdiv; nra]|].
  unfold Rdiv; lra.
Qed.

Lemma jet_wet_lip tc p m a b : 0 <= p -> 0 <= m -> -273.15 < tc -> 1 <= a -> 1 <= b -> exists fa fb,
  turbojetthrustfactor (Fin tc) (Fin p) (Fin m) (Fin a) true = Fin fa /\
  turbojetthrustfactor (Fin tc) (Fin p) (Fin m) (Fin b) true = Fin fb /\
  Rabs (fa - fb) <= 1.5 * theta0 tc m * delta0 p m * Rabs (a - b).
Proof.
  intros Hp Hm Ht Ha Hb. rewrite !jet_wet by lra. do 2 eexists.
  repeat (split; [reflexivity|]).
  pose proof (delta0_nonneg p m Hp). pose proof (theta0_pos tc m Ht) as T.
  assert (E : forall x, 1 <= x -> excess (theta0 tc m - x) / x = excess (theta0 tc m * / x - 1)).
  { intros x Hx. unfold excess, Rmax.
    assert (0 < / x) by (apply Rinv_0_lt_compat; lra).
    assert (U : theta0 tc m * / x - 1 = (theta0 tc m - x) / x) by (field; lra). rewrite U.
    assert (V : (theta0 tc m - x) / x * x = theta0 tc m - x) by (field; lra).
    destruct (Rle_dec 0 (theta0 tc m - x)), (Rle_dec 0 ((theta0 tc m - x) / x)).
    - reflexivity.
    - exfalso. apply n. apply Rmult_le_pos; lra.
    - exfalso. apply n. rewrite <- V. apply Rmult_le_pos; lra.
    - unfold Rdiv; ring. }
  set (A := 1 - 0.3 * (theta0 tc m - 1) - 0.1 * sqrt m).
  replace (1.5 * excess (theta0 tc m - a) / a) with (1.5 * (excess (theta0 tc m - a) / a)) by (unfold Rdiv; ring).
  replace (1.5 * excess (theta0 tc m - b) / b) with (1.5 * (excess (theta0 tc m - b) / b)) by (unfold Rdiv; ring).
  rewrite !E by assumption.
  set (D := delta0 p m) in *. set (th := theta0 tc m) in *.
  replace (D * (A - 1.5 * excess (th * / a - 1)) - D * (A - 1.5 * excess (th * / b - 1)))
    with (1.5 * D * (excess (th * / b - 1) - excess (th * / a - 1))) by lra.
  rewrite Rabs_mult, (Rabs_right (1.5 * D)) by lra.
  assert (Q : Rabs (excess (th * / b - 1) - excess (th * / a - 1)) <= th * Rabs (a - b)).
  { eapply Rle_trans; [apply excess_lip|].
    replace (th * / b - 1 - (th * / a - 1)) with (th * ((a - b) * (/ a * / b))) by (field; lra).
    rewrite Rabs_mult, (Rabs_right th) by lra. apply Rmult_le_compat_l; [lra|].
    rewrite Rabs_mult. 
    assert (0 < / a <= 1 /\ 0 < / b <= 1).
    { split; (split; [apply Rinv_0_lt_compat; lra|]); rewrite <- Rinv_1; apply Rinv_le_contravar; lra. }
    rewrite (Rabs_right (/ a * / b)) by nra.
    rewrite <- (Rmult_1_r (Rabs (a - b))) at 2. apply Rmult_le_compat_l; [apply Rabs_pos|]. nra. }
  replace (1.5 * th * D * Rabs (a - b)) with (1.5 * D * (th * Rabs (a - b))) by ring.
  apply Rmult_le_compat_l; [lra|exact Q].
Qed.

Lemma prop_matt_lip tc p m a b : 0 <= p -> exists fa fb,
  turbopropthrustfactor_matt (Fin tc) (Fin p) (Fin m) (Fin a) = Fin fa /\
  turbopropthrustfactor_matt (Fin tc) (Fin p) (Fin m) (Fin b) = Fin fb /\
  (0.1 < m -> Rabs (fa - fb) <= 3 / (8.13 * (m - 0.1)) * delta0 p m * Rabs (a - b)) /\
  (m <= 0.1 -> fa = delta0 p m /\ fb = delta0 p m).
Proof.
  intros Hp. destruct (Rle_dec m 0.1).
  - rewrite !prop_matt_slow by assumption. do 2 eexists. repeat (split; [reflexivity|]).
    split; [lra|auto].
  - rewrite !prop_matt by lra. do 2 eexists. repeat (split; [reflexivity|]).
    split; [|lra]. intros Hm.
    pose proof (delta0_nonneg p m Hp).
    assert (P : 0 < 8.13 * (m - 0.1)) by lra.
    assert (I : 0 < / (8.13 * (m - 0.1))) by (apply Rinv_0_lt_compat; assumption).
    assert (E : forall x, 3 * excess x / (8.13 * (m - 0.1)) = (3 / (8.13 * (m - 0.1))) * excess x)
      by (intros; field; lra).
    rewrite !E.
    eapply Rle_trans; [apply lip_form; [assumption|unfold Rdiv; nra]|].
    right. ring.
Qed.

Lemma excess_0 x : x <= 0 -> excess x = 0.
Proof. intros. unfold excess. rewrite Rmax_left; lra. Qed.

Lemma below_break tc p m tr : 0 <= p -> -273.15 < tc -> 0 <= m -> theta0 tc m <= tr ->
  exists fh fl fo fd fp,
   turbofanthrustfactor (Fin tc) (Fin p) (Fin m) (Fin tr) highbpr = Fin fh /\
   turbofanthrustfactor (Fin tc) (Fin p) (Fin m) (Fin tr) lowbpr = Fin fl /\
   turbofanthrustfactor (Fin tc) (Fin p) (Fin m) (Fin tr) othertype = Fin fo /\
   turbojetthrustfactor (Fin tc) (Fin p) (Fin m) (Fin tr) false = Fin fd /\
   turbopropthrustfactor_matt (Fin tc) (Fin p) (Fin m) (Fin tr) = Fin fp /\
   fh <= delta0 p m /\ fl = delta0 p m /\ fo = 0.6 * delta0 p m /\
   fd <= 0.8 * delta0 p m /\ fp <= delta0 p m /\
   (m <= 4 -> 0 <= fh /\ 0 <= fd) /\ (m <= 1.1 -> 0 <= fp).
Proof.
  intros Hp Ht Hm Hb. rewrite fan_high, fan_low, fan_other, jet_dry by assumption.
  rewrite excess_0 by lra.
  pose proof (delta0_nonneg p m Hp) as D. pose proof (theta0_pos tc m Ht) as T.
  pose proof (sqrt_pos m) as S.
  assert (S2 : m <= 4 -> sqrt m <= 2).
  { intros. replace 2 with (sqrt (2 * 2)) by (apply sqrt_square; lra). apply sqrt_le_1_alt. lra. }
  assert (FP : exists fp, turbopropthrustfactor_matt (Fin tc) (Fin p) (Fin m) (Fin tr) = Fin fp /\
     fp <= delta0 p m /\ (m <= 1.1 -> 0 <= fp)).
  { destruct (Rle_dec m 0.1).
    - rewrite prop_matt_slow by assumption. eexists; split; [reflexivity|]. split; [lra|auto].
    - rewrite prop_matt by lra. rewrite excess_0 by lra. eexists; split; [reflexivity|].
      assert (R : 0 < Rpower (m - 0.1) 0.25) by (unfold Rpower; apply exp_pos).
      assert (Z0 : 3 * 0 / (8.13 * (m - 0.1)) = 0) by (field; lra). rewrite Z0.
      split; [nra|]. intros.
      assert (Rpower (m - 0.1) 0.25 <= 1).
      { replace 1 with (Rpower 1 0.25) by (unfold Rpower; rewrite ln_1, Rmult_0_r; apply exp_0).
        apply Rle_Rpower_l; lra. }
      apply Rmult_le_pos; lra. }
  destruct FP as (fp & P1 & P2 & P3).
  assert (Za : 3 * 0 / (1.5 + m) = 0) by (field; lra).
  assert (Zb : 3.5 * 0 / theta0 tc m = 0) by (field; lra).
  assert (Zc : 3.8 * 0 / theta0 tc m = 0) by (field; lra).
  assert (Zd : 24 * 0 / ((9 + m) * theta0 tc m) = 0) by (field; lra).
  rewrite Za, Zb, Zc, Zd.
  do 5 eexists. repeat (split; [reflexivity|]). split; [exact P1|].
  split; [nra|]. split; [ring|]. split; [ring|]. split; [nra|]. split; [exact P2|].
  split; [|exact P3]. intros Hm4. specialize (S2 Hm4).
  split; apply Rmult_le_pos; try lra; nra.
Qed.

Lemma wet_above : exists f,
  turbojetthrustfactor (Fin (-50)) (Fin 101325) (Fin 0) (Fin 1) true = Fin f /\
  theta0 (-50) 0 <= 1 /\ delta0 101325 0 < f.
Proof.
  rewrite jet_wet by lra. eexists. split; [reflexivity|].
  assert (T : theta0 (-50) 0 = 223.15 / 288.15) by (unfold theta0; simpl; lra).
  assert (D : delta0 101325 0 = 1).
  { unfold delta0. replace (1 + 0.2005 * 0 ^ 2) with 1 by ring.
    unfold Rpower. rewrite ln_1, Rmult_0_r, exp_0. field. }
  rewrite T, D. rewrite excess_0 by lra. rewrite sqrt_0. split; lra.
Qed.

(** ** C20 *)
Lemma piston_order a b : a < b -> exists fa fb,
  pistonpowerfactor (Fin a) = Fin fa /\ pistonpowerfactor (Fin b) = Fin fb /\ fa < fb.
Proof. intros. rewrite !piston_real. do 2 eexists. repeat split. lra. Qed.

(** ** C21 *)
Lemma deriv_of_quadratic f x l K : (forall h, Rabs (f (x + h) - f x - l * h) <= K * h ^ 2) ->
  derivable_pt_lim f x l.
Proof.
  intros H eps He.
  assert (HK : 0 <= K).
  { specialize (H 1). pose proof (Rabs_pos (f (x + 1) - f x - l * 1)). lra. }
  assert (Hd : 0 < eps / (K + 1)) by (apply Rdiv_lt_0_compat; lra).
  exists (mkposreal _ Hd). intros h Hh0 Hh. simpl in Hh.
  replace ((f (x + h) - f x) / h - l) with ((f (x + h) - f x - l * h) / h) by (field; assumption).
  unfold Rdiv. rewrite Rabs_mult, Rabs_inv.
  assert (P : 0 < Rabs h) by (apply Rabs_pos_lt; assumption).
  apply Rle_lt_trans with (K * h ^ 2 * / Rabs h).
  { apply Rmult_le_compat_r; [left; apply Rinv_0_lt_compat; assumption|apply H]. }
  replace (h ^ 2) with (Rabs h * Rabs h) by (rewrite <- Rabs_mult, Rabs_right; [ring|nra]).
  replace (K * (Rabs h * Rabs h) * / Rabs h) with (K * Rabs h) by (field; lra).
  apply Rle_lt_trans with ((K + 1) * Rabs h); [nra|].
  apply Rmult_lt_reg_r with (/ (K + 1)); [apply Rinv_0_lt_compat; lra|].
  replace ((K + 1) * Rabs h * / (K + 1)) with (Rabs h) by (field; lra). exact Hh.
Qed.

Lemma smooth_taylor x d :
  let c y := Rmax 0 (Rmin 1 y) in
  Rabs (smooth (c (x + d)) - smooth (c x) - 6 * c x * (1 - c x) * d) <= 9 * d ^ 2.
Proof.
  cbv zeta. set (s := Rmax 0 (Rmin 1 x)). set (u := Rmax 0 (Rmin 1 (x + d))).
  assert (S : 0 <= s <= 1) by (unfold s, Rmin, Rmax; repeat destruct (Rle_dec _ _); lra).
  assert (U : 0 <= u <= 1) by (unfold u, Rmin, Rmax; repeat destruct (Rle_dec _ _); lra).
  assert (D : (u - s) ^ 2 <= d ^ 2).
  { assert (A : Rabs (u - s) <= Rabs d).
    { unfold u, s, Rmin, Rmax, Rabs. repeat destruct (Rle_dec _ _); repeat destruct (Rcase_abs _); lra. }
    rewrite <- (pow2_abs (u - s)), <- (pow2_abs d). apply pow_incr. split; [apply Rabs_pos|exact A]. }
  assert (V : - d ^ 2 <= s * (1 - s) * (u - s - d) <= d ^ 2).
  { destruct (Req_EM_T s 0) as [->|N0]; [split; nra|].
    destruct (Req_EM_T s 1) as [->|N1]; [split; nra|].
    assert (x = s) by (unfold s, Rmin, Rmax in *; repeat destruct (Rle_dec _ _); lra).
    assert (W : u = s + d \/ (u = 0 /\ s + d <= 0) \/ (u = 1 /\ 1 <= s + d)).
    { unfold u, Rmin, Rmax. rewrite <- H. repeat destruct (Rle_dec _ _); lra. }
    destruct W as [->|[[-> W]|[-> W]]].
    - replace (s + d - s - d) with 0 by ring. split; nra.
    - assert (s <= - d) by lra. assert (0 <= - d - s <= - d) by lra.
      assert (0 <= s * (1 - s) <= s) by nra.
      assert (0 <= s * (1 - s) * (- d - s) <= s * (- d - s)) by (split; [apply Rmult_le_pos; lra|apply Rmult_le_compat_r; lra]).
      replace (0 - s - d) with (- d - s) by ring. nra.
    - assert (0 <= 1 - s <= d) by lra. assert (0 <= d - (1 - s) <= d) by lra.
      assert (0 <= s * (1 - s) <= 1 - s) by nra.
      assert (0 <= s * (1 - s) * (d - (1 - s)) <= (1 - s) * (d - (1 - s)))
        by (split; [apply Rmult_le_pos; lra|apply Rmult_le_compat_r; lra]).
      replace (1 - s - d) with (- (d - (1 - s))) by ring.
      assert ((1 - s) * (d - (1 - s)) <= d ^ 2) by nra. nra. }
  replace (smooth u - smooth s - 6 * s * (1 - s) * d)
    with ((3 - 2 * u - 4 * s) * (u - s) ^ 2 + 6 * (s * (1 - s) * (u - s - d))) by (unfold smooth; ring).
  assert (-3 <= 3 - 2 * u - 4 * s <= 3) by lra.
  assert (W : 0 <= (u - s) ^ 2) by apply pow2_ge_0.
  assert (-3 * (u - s) ^ 2 <= (3 - 2 * u - 4 * s) * (u - s) ^ 2 <= 3 * (u - s) ^ 2)
    by (split; apply Rmult_le_compat_r; lra).
  apply Rabs_le. split; lra.
Qed.

Lemma polyblend_c1 tf a b : 0 < tf -> exists f f' : R -> R,
  (forall t, polyblend t tf a b = Ok (f t)) /\
  (forall t, derivable_pt_lim f t (f' t)) /\ continuity f' /\
  (forall t, t <= 0 -> f t = a /\ f' t = 0) /\ (forall t, tf <= t -> f t = b /\ f' t = 0) /\
  (forall t, Rmin a b <= f t <= Rmax a b) /\
  (forall t1 t2, t1 <= t2 -> (a <= b -> f t1 <= f t2) /\ (b <= a -> f t2 <= f t1)) /\
  f (tf / 2) = (a + b) / 2.
Proof.
  intros H.
  exists (fun t => a + (b - a) * smooth (phase t tf)),
         (fun t => (b - a) * (6 * phase t tf * (1 - phase t tf)) * / tf).
  assert (I : 0 < / tf) by (apply Rinv_0_lt_compat; assumption).
  assert (PH : forall t1 t2, Rabs (phase t1 tf - phase t2 tf) <= Rabs (t1 - t2) * / tf).
  { intros t1 t2. replace (Rabs (t1 - t2) * / tf) with (Rabs (t1 / tf - t2 / tf)).
    - unfold phase. unfold Rmin, Rmax, Rabs. 
      repeat destruct (Rle_dec _ _); repeat destruct (Rcase_abs _); lra.
    - replace (t1 / tf - t2 / tf) with ((t1 - t2) * / tf) by (unfold Rdiv; ring).
      rewrite Rabs_mult, (Rabs_right (/ tf)); lra. }
  assert (P0 : forall t, t <= 0 -> phase t tf = 0).
  { intros t Ht. unfold phase. assert (t / tf <= 0) by (unfold Rdiv; nra).
    rewrite Rmin_right by lra. rewrite Rmax_left; lra. }
  assert (P1 : forall t, tf <= t -> phase t tf = 1).
  { intros t Ht. unfold phase. assert (1 <= t / tf).
    { apply Rmult_le_reg_r with tf; [assumption|]. unfold Rdiv. rewrite Rmult_assoc, Rinv_l by lra. lra. }
    rewrite Rmin_left by lra. rewrite Rmax_right; lra. }
  split; [intros t; apply polyblend_smooth; assumption|].
  split.
  { intros t. apply deriv_of_quadratic with (Rabs (b - a) * (9 * (/ tf) ^ 2)).
    intros h. unfold phase.
    replace ((t + h) / tf) with (t / tf + h / tf) by (unfold Rdiv; ring).
    match goal with |- Rabs ?e <= _ => replace e with
      ((b - a) * (smooth (Rmax 0 (Rmin 1 (t / tf + h / tf))) - smooth (Rmax 0 (Rmin 1 (t / tf)))
        - 6 * Rmax 0 (Rmin 1 (t / tf)) * (1 - Rmax 0 (Rmin 1 (t / tf))) * (h / tf))) by (unfold Rdiv; ring) end.
    rewrite Rabs_mult.
    rewrite (Rmult_assoc (Rabs (b - a))). apply Rmult_le_compat_l; [apply Rabs_pos|].
    eapply Rle_trans; [apply (smooth_taylor (t / tf) (h / tf))|]. right. unfold Rdiv; ring. }
  split.
  { intros t. 
    set (K := Rabs (b - a) * 6 * / tf * / tf).
    assert (HK : 0 <= K) by (unfold K; pose proof (Rabs_pos (b - a)); repeat apply Rmult_le_pos; lra).
    intros eps He. exists (eps / (K + 1)). split; [apply Rdiv_lt_0_compat; lra|].
    intros y [_ Hy]. simpl in *. unfold R_dist in *.
    set (s := phase t tf) in *. set (u := phase y tf) in *.
    pose proof (phase_range t tf) as S. pose proof (phase_range y tf) as U. fold s in S. fold u in U.
    apply Rle_lt_trans with (K * Rabs (y - t)).
    - replace ((b - a) * (6 * u * (1 - u)) * / tf - (b - a) * (6 * s * (1 - s)) * / tf)
        with ((b - a) * (6 * / tf * ((1 - u - s) * (u - s)))) by ring.
      rewrite !Rabs_mult, (Rabs_right 6), (Rabs_right (/ tf)) by lra.
      assert (Q : Rabs (1 - u - s) * Rabs (u - s) <= Rabs (y - t) * / tf).
      { apply Rle_trans with (1 * Rabs (u - s)).
        - apply Rmult_le_compat_r; [apply Rabs_pos|]. apply Rabs_le. lra.
        - rewrite Rmult_1_l. apply PH. }
      unfold K. 
      replace (Rabs (b - a) * 6 * / tf * / tf * Rabs (y - t))
        with (Rabs (b - a) * (6 * / tf * (Rabs (y - t) * / tf))) by ring.
      apply Rmult_le_compat_l; [apply Rabs_pos|]. apply Rmult_le_compat_l; [lra|exact Q].
    - apply Rle_lt_trans with ((K + 1) * Rabs (y - t)).
      + pose proof (Rabs_pos (y - t)). nra.
      + apply Rmult_lt_reg_r with (/ (K + 1)); [apply Rinv_0_lt_compat; lra|].
        replace ((K + 1) * Rabs (y - t) * / (K + 1)) with (Rabs (y - t)) by (field; lra). exact Hy. }
  split; [intros t Ht; rewrite (P0 t Ht); unfold smooth; split; ring|].
  split; [intros t Ht; rewrite (P1 t Ht); unfold smooth; split; ring|].
  split.
  { intros t. pose proof (smooth_range _ (phase_range t tf)).
    unfold Rmin, Rmax. destruct (Rle_dec a b); nra. }
  split.
  { intros t1 t2 Ht. pose proof (phase_mono t1 t2 tf H Ht).
    pose proof (smooth_mono _ _ (proj1 (phase_range t1 tf)) H0 (proj2 (phase_range t2 tf))).
    split; nra. }
  assert (M : phase (tf / 2) tf = 1 / 2).
  { unfold phase. replace (tf / 2 / tf) with (1/2) by (field; lra).
    rewrite Rmin_right by lra. rewrite Rmax_right; lra. }
  rewrite M. unfold smooth. field.
Qed.

Lemma polyblend_zero t a b : polyblend t 0 a b = Err ZeroDivisionError.
Proof. unfold polyblend, Reqb. destruct (Req_EM_T 0 0); [reflexivity|congruence]. Qed.

(** ** C22 *)
Lemma coordtrans_norm x z a xt zt : List.length x = List.length z -> coordtrans x z a = Ok (xt, zt) ->
  forall n xi zi, nth_error x n = Some xi -> nth_error z n = Some zi ->
  exists xj zj, nth_error xt n = Some xj /\ nth_error zt n = Some zj /\ xj ^ 2 + zj ^ 2 = xi ^ 2 + zi ^ 2.
Proof.
  intros _ H n xi zi Hx Hz. destruct (coordtrans_nth _ _ _ _ _ H n xi zi Hx Hz) as [A B].
  do 2 eexists. split; [exact A|]. split; [exact B|].
  pose proof (sin2_cos2 a) as T. unfold Rsqr in T.
  replace (xi ^ 2 + zi ^ 2) with ((xi ^ 2 + zi ^ 2) * (sin a * sin a + cos a * cos a)) by (rewrite T; ring).
  ring.
Qed.
Lemma coordtrans_inverse x z a : List.length x = List.length z -> exists xt zt,
  coordtrans x z a = Ok (xt, zt) /\ List.length xt = List.length x /\ List.length zt = List.length x /\
  coordtrans xt zt (- a) = Ok (x, z).
Proof.
  intros H. destruct (coordtrans_total x z a) as (xt & zt & E & L1 & L2); [lia|].
  exists xt, zt. repeat (split; [assumption|]).
  rewrite (coordtrans_compose _ _ _ _ _ _ E). replace (a + - a) with 0 by ring.
  apply coordtrans_zero; assumption.
Qed.
