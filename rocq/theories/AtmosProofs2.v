(** Proofs about Atmosphere queries at one altitude: C06-C14. *)
From Verif Require Import Base BaseFacts AnalysisFacts UnitsModel AtmosModel AtmosSpec
  IsaReal IsaProofs IsaInverse AtmosProofs.
Open Scope R_scope.

Lemma alttest_isa o h : h <= 50000 -> alttest (isa o) (VNum (Fin h)) = Ok [Fin h].
Proof.
  intros H. unfold alttest, isa, Level5; cbn [prof recastasnpfloatarray existsb].
  rewrite nltb_fin, Rltb_false by exact H. reflexivity.
Qed.
Lemma airtemp_isa o h : h <= 50000 ->
  airtemp_k (isa o) (VNum (Fin h)) = Ok (VNum (Fin (std_temp h + o))).
Proof.
  intros H. unfold airtemp_k. rewrite alttest_isa by exact H. cbn [rbind isa prof offset_deg].
  unfold isatemp_k, nditer_map. cbn [mapM rbind reverttoscalar]. rewrite isatemp_std by exact H. reflexivity.
Qed.
Lemma airpress_isa o h : h <= 50000 ->
  airpress_pa (isa o) (VNum (Fin h)) = Ok (VNum (Fin (exp (lp h)))).
Proof.
  intros H. unfold airpress_pa. rewrite alttest_isa by exact H. cbn [rbind isa prof offset_deg].
  unfold isapress_pa, nditer_map. cbn [mapM rbind reverttoscalar]. rewrite isapress1_real. reflexivity.
Qed.
Lemma airdens_isa o h : h <= 50000 -> std_temp h + o <> 0 ->
  airdens_kgpm3 (isa o) (VNum (Fin h)) = Ok (VNum (Fin (exp (ld h) * std_temp h / (std_temp h + o)))).
Proof.
  intros H Ho. unfold airdens_kgpm3. rewrite alttest_isa by exact H. cbn [rbind isa prof offset_deg].
  unfold isadens_kgpm3, nditer_map. cbn [mapM rbind reverttoscalar].
  rewrite <- !tl_std in * by exact H.
  rewrite isadens1_real by exact Ho. reflexivity.
Qed.
Lemma airdens_isa0 h : h <= 50000 ->
  airdens_kgpm3 (isa 0) (VNum (Fin h)) = Ok (VNum (Fin (exp (ld h)))).
Proof.
  intros H. pose proof (tl_pos' h) as Ht. rewrite tl_std in Ht by exact H.
  rewrite airdens_isa by lra. do 3 f_equal. field; lra.
Qed.
Lemma vsound_isa o h : h <= 50000 -> 0 <= std_temp h + o ->
  vsound_mps (isa o) (VNum (Fin h)) = Ok (VNum (Fin (sqrt (1.4 * 287.05287 * (std_temp h + o))))).
Proof.
  intros H Ho. unfold vsound_mps. rewrite alttest_isa by exact H. cbn [rbind].
  assert (airtemp_k (isa o) (VList [Fin h]) = Ok (VNum (Fin (std_temp h + o)))) as ->.
  { rewrite <- airtemp_isa by exact H. unfold airtemp_k, alttest, isa. reflexivity. }
  cbn [rbind vsound_of rmap]. unfold vsound1, R_JPKGPK. rewrite !nmul_fin.
  rewrite msqrt_fin; [reflexivity|]. apply Rmult_le_pos; lra.
Qed.

(** ** C11: above the limit every query fails *)
Lemma above_limit o v : Exists (fun x => exists h, x = Fin h /\ 50000 < h) (elements v) ->
  airtemp_k (isa o) v = Err TypeError /\ airpress_pa (isa o) v = Err TypeError /\
  airdens_kgpm3 (isa o) v = Err TypeError /\ vsound_mps (isa o) v = Err TypeError.
Proof.
  intros H. assert (alttest (isa o) v = Err TypeError) as E.
  { unfold alttest, isa; cbn [prof]. change (recastasnpfloatarray v) with (elements v).
    replace (existsb (fun x => Level5 <? x)%num (elements v)) with true; [reflexivity|].
    symmetry. apply existsb_exists. apply Exists_exists in H.
    destruct H as [x [Hin [h [-> Hh]]]]. exists (Fin h). split; [exact Hin|].
    unfold Level5. rewrite nltb_fin. apply Rltb_true; exact Hh. }
  unfold airtemp_k, airpress_pa, airdens_kgpm3, vsound_mps. rewrite E. repeat split.
Qed.
Lemma alttest_unaltered atm v l : alttest atm v = Ok l -> l = elements v.
Proof.
  unfold alttest. change (recastasnpfloatarray v) with (elements v).
  destruct (prof atm) as [p|].
  - destruct (pymin (alt_m p)); cbn [rbind]; [|discriminate].
    destruct (pymax (alt_m p)); cbn [rbind]; [|discriminate].
    destruct (existsb _ _); [discriminate|]. destruct (existsb _ _); [discriminate|]. congruence.
  - destruct (existsb _ _); [discriminate|]. congruence.
Qed.
Lemma below_limit o v : Forall (fun x => exists h, x = Fin h /\ h <= 50000) (elements v) ->
  alttest (isa o) v = Ok (elements v).
Proof.
  intros H. unfold alttest, isa; cbn [prof]. change (recastasnpfloatarray v) with (elements v).
  replace (existsb (fun x => Level5 <? x)%num (elements v)) with false; [reflexivity|].
  symmetry. induction H as [|x l [h [-> Hh]] Hl IH]; [reflexivity|].
  cbn [existsb]. unfold Level5 at 1. rewrite nltb_fin, Rltb_false by exact Hh. exact IH.
Qed.
(** observed profile: outside the observed altitudes *)
Lemma outside_profile p o v lo hi : pymin (alt_m p) = Ok lo -> pymax (alt_m p) = Ok hi ->
  Exists (fun x => exists h, x = Fin h /\ (h < lo \/ hi < h)) (elements v) ->
  alttest {| offset_deg := o; prof := Some p |} v = Err TypeError.
Proof.
  intros Hlo Hhi H. unfold alttest; cbn [prof]. rewrite Hlo, Hhi; cbn [rbind].
  change (recastasnpfloatarray v) with (elements v). apply Exists_exists in H.
  destruct H as [x [Hin [h [-> Hh]]]].
  destruct (existsb (fun x => x <? Fin lo)%num (elements v)) eqn:E1; [reflexivity|].
  destruct (existsb (fun x => Fin hi <? x)%num (elements v)) eqn:E2; [reflexivity|].
  exfalso. destruct Hh as [Hh|Hh].
  - assert (existsb (fun x => x <? Fin lo)%num (elements v) = true); [|congruence].
    apply existsb_exists. exists (Fin h). split; [exact Hin|]. rewrite nltb_fin. apply Rltb_true; exact Hh.
  - assert (existsb (fun x => Fin hi <? x)%num (elements v) = true); [|congruence].
    apply existsb_exists. exists (Fin h). split; [exact Hin|]. rewrite nltb_fin. apply Rltb_true; exact Hh.
Qed.

(** ** C12 *)
Lemma sound_pos t : 0 < t -> 0 < sqrt (1.4 * 287.05287 * t).
Proof. intros; apply sqrt_lt_R0. apply Rmult_lt_0_compat; lra. Qed.
Lemma vsound_isa_list o h : h <= 50000 -> 0 <= std_temp h + o ->
  vsound_mps (isa o) (VList [Fin h]) = Ok (VNum (Fin (sqrt (1.4 * 287.05287 * (std_temp h + o))))).
Proof.
  intros H Ho. rewrite <- vsound_isa by assumption. reflexivity.
Qed.
Lemma mach_isa o v h : h <= 50000 -> 0 <= std_temp h + o ->
  mach (isa o) v (VNum (Fin h)) =
  Ok (VArr (map (fun x => (x / Fin (sqrt (1.4 * 287.05287 * (std_temp h + o))))%num) (elements v))).
Proof.
  intros H Ho. unfold mach. rewrite alttest_isa by exact H. cbn [rbind].
  rewrite vsound_isa_list by assumption. cbn [rbind vop2].
  change (recastasnpfloatarray v) with (elements v). reflexivity.
Qed.
Lemma mach_times_sound o h V : h <= 50000 -> 0 < std_temp h + o ->
  exists m a, mach (isa o) (VNum (Fin V)) (VNum (Fin h)) = Ok (VArr [Fin m]) /\
    vsound_mps (isa o) (VNum (Fin h)) = Ok (VNum (Fin a)) /\ 0 < a /\
    m * a = V /\ a * a = 1.4 * Rair * (std_temp h + o).
Proof.
  intros H Ho. pose proof (sound_pos _ Ho) as Hs.
  exists (V / sqrt (1.4 * 287.05287 * (std_temp h + o))), (sqrt (1.4 * 287.05287 * (std_temp h + o))).
  split; [rewrite mach_isa by lra; cbn [elements map]; rewrite ndiv_fin by lra; reflexivity|].
  split; [apply vsound_isa; lra|]. split; [exact Hs|]. split; [field; lra|].
  unfold Rair. apply sqrt_sqrt. apply Rmult_le_pos; lra.
Qed.
(** several airspeeds at several altitudes *)
Lemma vsound_isa_many o hs : List.length hs <> 1%nat -> hs <> [] ->
  Forall (fun h => h <= 50000 /\ 0 < std_temp h + o) hs ->
  vsound_mps (isa o) (VList (map Fin hs)) =
  Ok (VList (map (fun h => Fin (sqrt (1.4 * 287.05287 * (std_temp h + o)))) hs)).
Proof.
  intros Hl Hne H.
  pose proof (vsound_lifts (isa o) (VList (map Fin hs))) as L. cbn [elements] in L.
  specialize (L ltac:(destruct hs; [congruence|discriminate])).
  assert (mapM (fun x => do y <- altok (isa o) x; do t <- gtemp (isa o) y; vsound1 t) (map Fin hs)
    = Ok (map (fun h => Fin (sqrt (1.4 * 287.05287 * (std_temp h + o)))) hs)) as E.
  { clear -H. induction H as [|h t [Hh Ho] Ht IH]; [reflexivity|].
    cbn [map mapM]. rewrite IH. unfold altok, isa, gtemp, Level5; cbn [prof offset_deg].
    rewrite nltb_fin, Rltb_false by exact Hh. cbn [rbind]. rewrite isatemp_std by exact Hh.
    unfold vsound1, R_JPKGPK. rewrite !nmul_fin, msqrt_fin; [reflexivity|].
    apply Rmult_le_pos; lra. }
  rewrite E in L. rewrite L. destruct hs as [|a [|b t]]; [congruence|simpl in Hl; congruence|reflexivity].
Qed.
Lemma mach_isa_many o Vs hs : List.length hs = List.length Vs -> (2 <= List.length hs)%nat ->
  Forall (fun h => h <= 50000 /\ 0 < std_temp h + o) hs ->
  exists ms, mach (isa o) (VArr (map Fin Vs)) (VArr (map Fin hs)) = Ok (VArr (map Fin ms)) /\
   List.length ms = List.length Vs /\
   forall n V h, nth_error Vs n = Some V -> nth_error hs n = Some h ->
     exists m, nth_error ms n = Some m /\ m * sqrt (1.4 * Rair * (std_temp h + o)) = V.
Proof.
  intros Hl H2 H. unfold Rair.
  set (a := fun h => sqrt (1.4 * 287.05287 * (std_temp h + o))).
  exists (map (fun p => fst p / a (snd p)) (combine Vs hs)).
  split.
  - unfold mach. rewrite below_limit.
    2:{ cbn [elements]. apply Forall_map. eapply Forall_impl; [|exact H].
        intros h [Hh _]. exists h; auto. }
    cbn [rbind elements recastasnpfloatarray].
    rewrite vsound_isa_many by (try exact H; try (intros ->; simpl in H2; lia); lia).
    cbn [rbind vop2]. unfold broadcast. rewrite !map_length, Hl, Nat.eqb_refl. cbn [rmap].
    do 2 f_equal. clear H2. revert Vs Hl. induction H as [|h t [Hh Ho] Ht IH]; intros Vs Hl.
    + destruct Vs; [reflexivity|discriminate].
    + destruct Vs as [|V Vs]; [discriminate|]. cbn [map combine fst snd].
      rewrite ndiv_fin by (pose proof (sound_pos _ Ho); lra). f_equal. apply IH. simpl in Hl; lia.
  - split; [rewrite map_length, combine_length; lia|].
    intros n V h HV Hh. exists (V / a h). split.
    + rewrite nth_error_map.
      replace (nth_error (combine Vs hs) n) with (Some (V, h)); [reflexivity|].
      symmetry. clear -HV Hh. revert Vs hs HV Hh. induction n as [|n IH]; intros [|v Vs] [|x hs]; simpl; try discriminate.
      * intros [= ->] [= ->]; reflexivity.
      * apply IH.
    + assert (0 < std_temp h + o) as Ho.
      { apply nth_error_In in Hh. rewrite Forall_forall in H. apply H; exact Hh. }
      pose proof (sound_pos _ Ho). unfold a. field; lra.
Qed.

(** ** C13 *)
Lemma eas_tas_general atm h d d0 : 0 < d -> 0 < d0 ->
  airdens_kgpm3 atm (VNum (Fin h)) = Ok (VNum (Fin d)) ->
  airdens_kgpm3 atm (VNum (Fin 0)) = Ok (VNum (Fin d0)) ->
  forall x,
  eas2tas_at atm (VNum (Fin x)) (VNum (Fin h)) = Ok (VNum (Fin (x / sqrt (d / d0)))) /\
  tas2eas_at atm (VNum (Fin x)) (VNum (Fin h)) = Ok (VNum (Fin (x * sqrt (d / d0)))).
Proof.
  intros Hd Hd0 E E0 x. assert (0 < d / d0) as Hr by (apply Rdiv_lt_0_compat; assumption).
  pose proof (sqrt_lt_R0 _ Hr) as Hs.
  assert (densratio atm (VNum (Fin h)) = Ok (VNum (Fin (d / d0)))) as D.
  { unfold densratio. rewrite E, E0. cbn [rbind vop2]. rewrite ndiv_fin by lra. reflexivity. }
  unfold eas2tas_at, tas2eas_at. rewrite D. cbn [rbind vmsqrt]. rewrite msqrt_fin by lra.
  cbn [rbind vlit]. rewrite ndiv_fin by lra. rewrite nmul_fin. split; reflexivity.
Qed.

Lemma eas_tas_inverse atm h d d0 : 0 < d -> 0 < d0 ->
  airdens_kgpm3 atm (VNum (Fin h)) = Ok (VNum (Fin d)) ->
  airdens_kgpm3 atm (VNum (Fin 0)) = Ok (VNum (Fin d0)) ->
  (forall e, exists t, eas2tas_at atm (VNum (Fin e)) (VNum (Fin h)) = Ok (VNum (Fin t)) /\
     tas2eas_at atm (VNum (Fin t)) (VNum (Fin h)) = Ok (VNum (Fin e)) /\ e * e * d0 = t * t * d) /\
  (forall t, exists e, tas2eas_at atm (VNum (Fin t)) (VNum (Fin h)) = Ok (VNum (Fin e)) /\
     eas2tas_at atm (VNum (Fin e)) (VNum (Fin h)) = Ok (VNum (Fin t)) /\ e * e * d0 = t * t * d).
Proof.
  intros Hd Hd0 E E0. pose proof (eas_tas_general atm h d d0 Hd Hd0 E E0) as G.
  assert (0 < d / d0) as Hr by (apply Rdiv_lt_0_compat; assumption).
  pose proof (sqrt_lt_R0 _ Hr) as Hs. set (s := sqrt (d / d0)) in *.
  assert (s * s = d / d0) as Hss by (apply sqrt_sqrt; lra).
  assert (d = s * s * d0) as Hdd by (rewrite Hss; field; lra).
  split.
  - intros e. exists (e / s). split; [apply G|]. split.
    + destruct (G (e / s)) as [_ ->]. do 3 f_equal. field; lra.
    + rewrite Hdd at 1. field; lra.
  - intros t. exists (t * s). split; [apply G|]. split.
    + destruct (G (t * s)) as [-> _]. do 3 f_equal. field; lra.
    + rewrite Hdd at 1. ring.
Qed.

Lemma ld_below_sl h : 0 <= h -> h <= 50000 -> ld h <= ld 0 /\ (0 < h -> ld h < ld 0).
Proof.
  intros H0 H1. destruct (Req_dec h 0) as [-> | Hn]; [split; lra|].
  assert (ld h < ld 0); [|lra].
  destruct (Rlt_dec h 11000).
  - apply ld_strict_layer; try lra. unfold same_layer. rewrite !layer1 by lra. reflexivity.
  - pose proof (ld_decreases 0 h ltac:(lra) ltac:(lra) ltac:(lra)). lra.
Qed.
Lemma lp_below_sl h : 0 <= h -> h <= 50000 -> lp h <= lp 0 /\ (0 < h -> lp h < lp 0).
Proof.
  intros H0 H1. destruct (Req_dec h 0) as [-> | Hn]; [split; lra|].
  assert (lp h < lp 0); [|lra].
  destruct (Rlt_dec h 11000).
  - apply lp_strict_layer; try lra. unfold same_layer. rewrite !layer1 by lra. reflexivity.
  - pose proof (lp_decreases 0 h ltac:(lra) ltac:(lra) ltac:(lra)). lra.
Qed.

Lemma tas_above_eas h e : 0 < h -> h <= 50000 -> 0 < e ->
  exists t, eas2tas_at (isa 0) (VNum (Fin e)) (VNum (Fin h)) = Ok (VNum (Fin t)) /\ e < t.
Proof.
  intros H0 H1 He.
  pose proof (eas_tas_general (isa 0) h _ _ (exp_pos _) (exp_pos _)
     (airdens_isa0 h H1) (airdens_isa0 0 ltac:(lra)) e) as [G _].
  eexists; split; [exact G|]. set (r := exp (ld h) / exp (ld 0)).
  assert (0 < r < 1) as Hr.
  { pose proof (exp_pos (ld h)); pose proof (exp_pos (ld 0)).
    pose proof (exp_increasing _ _ (proj2 (ld_below_sl h ltac:(lra) H1) H0)).
    unfold r. split; [apply Rdiv_lt_0_compat; assumption|].
    apply Rmult_lt_reg_r with (exp (ld 0)); [assumption|].
    unfold Rdiv. rewrite Rmult_assoc, Rinv_l by lra. lra. }
  assert (0 < sqrt r < 1) as Hs.
  { split; [apply sqrt_lt_R0; lra|]. rewrite <- sqrt_1. apply sqrt_lt_1; lra. }
  apply Rmult_lt_reg_r with (sqrt r); [lra|].
  unfold Rdiv. rewrite Rmult_assoc, Rinv_l by lra. nra.
Qed.
Lemma eas_tas_sealevel atm d0 x : 0 < d0 ->
  airdens_kgpm3 atm (VNum (Fin 0)) = Ok (VNum (Fin d0)) ->
  eas2tas_at atm (VNum (Fin x)) (VNum (Fin 0)) = Ok (VNum (Fin x)) /\
  tas2eas_at atm (VNum (Fin x)) (VNum (Fin 0)) = Ok (VNum (Fin x)).
Proof.
  intros Hd E. destruct (eas_tas_general atm 0 d0 d0 Hd Hd E E x) as [-> ->].
  replace (d0 / d0) with 1 by (field; lra). rewrite sqrt_1. split; do 3 f_equal; field.
Qed.
(** batches of speeds at one altitude are converted one by one; batches of
    altitudes are not supported *)
Lemma eas_tas_arrays atm h d d0 xs : 0 < d -> 0 < d0 ->
  airdens_kgpm3 atm (VNum (Fin h)) = Ok (VNum (Fin d)) ->
  airdens_kgpm3 atm (VNum (Fin 0)) = Ok (VNum (Fin d0)) ->
  eas2tas_at atm (VArr (map Fin xs)) (VNum (Fin h)) = Ok (VArr (map (fun x => Fin (x / sqrt (d / d0))) xs)) /\
  tas2eas_at atm (VArr (map Fin xs)) (VNum (Fin h)) = Ok (VArr (map (fun x => Fin (x * sqrt (d / d0))) xs)).
Proof.
  intros Hd Hd0 E E0. assert (0 < d / d0) as Hr by (apply Rdiv_lt_0_compat; assumption).
  pose proof (sqrt_lt_R0 _ Hr) as Hs.
  assert (densratio atm (VNum (Fin h)) = Ok (VNum (Fin (d / d0)))) as D.
  { unfold densratio. rewrite E, E0. cbn [rbind vop2]. rewrite ndiv_fin by lra. reflexivity. }
  unfold eas2tas_at, tas2eas_at. rewrite D. cbn [rbind vmsqrt]. rewrite msqrt_fin by lra.
  cbn [rbind vlit]. rewrite !map_map. split; do 2 f_equal; apply map_ext; intros x;
  try rewrite ndiv_fin by lra; reflexivity.
Qed.
Lemma airdens_list_shape atm v r : (2 <= List.length (elements v))%nat ->
  airdens_kgpm3 atm v = Ok r -> exists l, r = VArr l /\ List.length l = List.length (elements v).
Proof.
  intros H2 E. assert (elements v <> []) as Hne by (intros K; rewrite K in H2; simpl in H2; lia).
  pose proof (airdens_lifts atm v Hne) as L.
  destruct (mapM _ (elements v)) as [ys|e] eqn:Hm.
  - rewrite E in L. injection L as ->. exists ys. apply mapM_length in Hm. split; [|exact Hm].
    destruct ys as [|a [|b t]]; [|simpl in Hm; lia|reflexivity]. simpl in Hm; lia.
  - destruct L as [e' L]. congruence.
Qed.
Lemma eas_many_altitudes atm x v : (2 <= List.length (elements v))%nat ->
  exists e, eas2tas_at atm x v = Err e.
Proof.
  intros H2. unfold eas2tas_at, densratio.
  destruct (airdens_kgpm3 atm v) as [r|e] eqn:E; cbn [rbind]; [|eexists; reflexivity].
  destruct (airdens_list_shape atm v r H2 E) as [l [-> Hl]].
  destruct (airdens_kgpm3 atm (VNum (Fin 0))) as [r0|e0] eqn:E0; cbn [rbind]; [|eexists; reflexivity].
  assert (exists y, r0 = VNum y) as [y ->].
  { pose proof (airdens_lifts atm (VNum (Fin 0)) ltac:(discriminate)) as L. cbn [elements mapM] in L.
    destruct (do y <- altok atm #0; gdens atm y) as [z|ez]; cbn [rbind] in L.
    - rewrite E0 in L. injection L as ->. exists z; reflexivity.
    - destruct L as [e' L]. congruence. }
  cbn [vop2 rbind]. rewrite <- Hl in H2. destruct l as [|a [|b t]]; simpl in H2; try lia.
  cbn [map vmsqrt rbind]. eexists; reflexivity.
Qed.

(** ** C14 *)
Definition cas_factor (d m : R) : R :=
  1 + 1 / 8 * (1 - d) * m ^ 2 + 3 / 640 * (1 - 10 * d + 9 * d ^ 2) * m ^ 4.

Lemma cas_general atm e h t m p p0 :
  eas2tas_at atm (VNum (Fin e)) (VNum (Fin h)) = Ok (VNum (Fin t)) ->
  mach atm (VNum (Fin t)) (VNum (Fin h)) = Ok (VArr [Fin m]) ->
  airpress_pa atm (VNum (Fin h)) = Ok (VNum (Fin p)) ->
  airpress_pa atm (VNum (Fin 0)) = Ok (VNum (Fin p0)) -> p0 <> 0 ->
  mpseas2mpscas atm (VNum (Fin e)) (VNum (Fin h)) =
    Ok (VArr [Fin (e * cas_factor (p / p0) m)], VArr [Fin m]).
Proof.
  intros H1 H2 H3 H4 Hp. unfold mpseas2mpscas. rewrite H1; cbn [rbind]. rewrite H2; cbn [rbind].
  rewrite H3, H4; cbn [rbind vop2 map vlit]. rewrite (ndiv_fin p p0) by exact Hp.
  cbn [rbind vop2 map vlit]. rewrite !ndiv_fin by lra.
  rewrite !npown_fin, !nsub_fin, !nmul_fin, !nsub_fin, !nadd_fin, !nmul_fin.
  cbn [rbind vop2 map vlit broadcast List.length Nat.eqb combine rmap fst snd].
  rewrite !nadd_fin, nmul_fin. unfold cas_factor. reflexivity.
Qed.
Lemma cas_factor_ge1 d m : 0 < d <= 1 -> m ^ 2 <= 10 / 3 -> 1 <= cas_factor d m.
Proof.
  intros Hd Hm. unfold cas_factor.
  assert (0 <= m ^ 2) as H0 by (simpl; nra).
  replace (m ^ 4) with (m ^ 2 * m ^ 2) by ring. set (k := m ^ 2) in *.
  replace (1 - 10 * d + 9 * d ^ 2) with ((1 - d) * (1 - 9 * d)) by ring.
  assert (0 <= (1 - d) * k) by (apply Rmult_le_pos; lra).
  assert (0 <= 1 / 8 + 3 / 640 * (1 - 9 * d) * k) by nra.
  nra.
Qed.

Lemma press_ratio_isa h : 0 <= h -> h <= 50000 ->
  0 < exp (lp h) / exp (lp 0) <= 1 /\ (h = 0 -> exp (lp h) / exp (lp 0) = 1).
Proof.
  intros H0 H1. pose proof (exp_pos (lp h)); pose proof (exp_pos (lp 0)).
  split; [split|].
  - apply Rdiv_lt_0_compat; assumption.
  - apply Rmult_le_reg_r with (exp (lp 0)); [assumption|].
    unfold Rdiv. rewrite Rmult_assoc, Rinv_l by lra.
    destruct (lp_below_sl h H0 H1) as [[L|E] _].
    + pose proof (exp_increasing _ _ L). lra.
    + rewrite E. lra.
  - intros ->. field. lra.
Qed.

(** calibrated airspeed in the standard atmosphere *)
Lemma cas_isa e h : 0 <= h -> h <= 50000 -> exists c m t a,
  mpseas2mpscas (isa 0) (VNum (Fin e)) (VNum (Fin h)) = Ok (VArr [Fin c], VArr [Fin m]) /\
  eas2tas_at (isa 0) (VNum (Fin e)) (VNum (Fin h)) = Ok (VNum (Fin t)) /\
  vsound_mps (isa 0) (VNum (Fin h)) = Ok (VNum (Fin a)) /\ m * a = t /\ 0 < a /\
  (h = 0 -> c = e) /\ (e = 0 -> c = 0) /\ (0 <= e -> m ^ 2 <= 10 / 3 -> e <= c).
Proof.
  intros H0 H1.
  pose proof (eas_tas_general (isa 0) h _ _ (exp_pos _) (exp_pos _)
     (airdens_isa0 h H1) (airdens_isa0 0 ltac:(lra)) e) as [G _].
  set (t := e / sqrt (exp (ld h) / exp (ld 0))) in *.
  pose proof (tl_pos' h) as Ht. rewrite tl_std in Ht by exact H1.
  destruct (mach_times_sound 0 h t H1 ltac:(lra)) as [m [a [M [V [Ha [Hma _]]]]]].
  destruct (press_ratio_isa h H0 H1) as [Hr Hr0].
  set (d := exp (lp h) / exp (lp 0)) in *.
  exists (e * cas_factor d m), m, t, a.
  split; [apply (cas_general (isa 0) e h t m (exp (lp h)) (exp (lp 0)) G M (airpress_isa 0 h H1)
            (airpress_isa 0 0 ltac:(lra)))|].
  { pose proof (exp_pos (lp 0)); lra. }
  split; [exact G|]. split; [exact V|]. split; [exact Hma|]. split; [exact Ha|].
  split; [|split].
  - intros Hz. rewrite (Hr0 Hz). unfold cas_factor. lra.
  - intros ->. ring.
  - intros He Hm. pose proof (cas_factor_ge1 d m Hr Hm). nra.
Qed.

Lemma kcas_isa k h : 0 <= h -> h <= 50000 -> exists c m,
  keas2kcas (isa 0) (VNum (Fin k)) (VNum (Fin h)) = Ok (VArr [Fin c], VArr [Fin m]) /\
  (h = 0 -> c = k * (0.5144444 * 1.9438445)) /\ (k = 0 -> c = 0) /\
  (0 <= k -> m ^ 2 <= 10 / 3 -> k * (0.5144444 * 1.9438445) <= c).
Proof.
  intros H0 H1. destruct (cas_isa (k * 0.5144444) h H0 H1)
    as [c [m [t [a [C [_ [_ [_ [_ [Cs [Cz Cg]]]]]]]]]]].
  exists (c * 1.9438445), m.
  split.
  - unfold keas2kcas, kts2mps, mps2kts. cbn [vlit rbind]. rewrite nmul_fin, C. cbn [rbind fst snd vlit map].
    rewrite nmul_fin. reflexivity.
  - split; [intros Hz; rewrite (Cs Hz); ring|]. split.
    + intros ->. rewrite Cz by ring. ring.
    + intros Hk Hm. specialize (Cg ltac:(lra) Hm). lra.
Qed.
