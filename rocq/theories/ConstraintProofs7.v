(** The constraint methods succeed on complete briefs. *)
From Verif Require Import Base BaseFacts AnalysisFacts UnitsModel AtmosModel AtmosSpec AtmosProofs AtmosProofs2 AtmosProofs4
  ConceptModel ConceptProofs MethodsModel MethodsSpec MethodsProofs MethodsProofs2
  MethodsProofs3 MethodsProofs4 ConstraintSpec ConstraintProofs ConstraintProofs2 ConstraintProofs3 ConstraintProofs4
  ConstraintProofs5 ConstraintProofs6.
Open Scope R_scope.

Lemma recast_elements v : recastasnpfloatarray v = elements v.
Proof. destruct v; reflexivity. Qed.

Lemma mapM_total {A B} (f : A -> res B) l : (forall x, In x l -> exists y, f x = Ok y) ->
  exists r, mapM f l = Ok r /\ List.length r = List.length l.
Proof.
  intros H. assert (E : Forall (fun x => exists y, f x = Ok y) l) by (apply Forall_forall, H).
  apply mapM_ok_iff in E. destruct E as (r & E). exists r. split; [exact E|]. exact (mapM_length _ _ _ E).
Qed.

Lemma wing_slope ext c : wing_ok ext c -> forall m, 0 <= m -> exists a, liftslope_prad ext c (Fin m) = Ok (Fin a).
Proof.
  intros (w & a0 & HW & HR & HH & HA & Ha & HT) m Hm.
  destruct (Rle_dec 0.6 m) as [A|A]; [destruct (Rle_dec m 1.4) as [B|B]|].
  - assert (TB : exists tab, transonic_table c = Ok tab) by (eapply table_ok; eauto). destruct TB as (tab & TB).
    destruct (HT tab m TB (conj A B)) as (y & Y). eexists.
    apply (liftslope_blend c w a0 HW HR HH HA Ha ext (fun _ => y) m Hm). intros _ tab' TB'. congruence.
  - eexists. apply (liftslope_blend c w a0 HW HR HH HA Ha ext (fun _ => 0) m Hm). intros; lra.
  - eexists. apply (liftslope_blend c w a0 HW HR HH HA Ha ext (fun _ => 0) m Hm). intros; lra.
Qed.

Lemma lesm_total ext c : wing_ok ext c ->
  (forall v h, cruisespeed_ktas c = Some v -> cruisealt_m c = Some h -> exists q, q_at c (kts2mps v) h = Ok q) ->
  forall m, 0 <= m -> exists f, lesm ext c (Fin m) = Ok f.
Proof.
  intros HO HC m Hm. pose proof (wing_slope ext c HO) as HS. destruct HO as (w & a0 & HW & HR & HH & HA & Ha & HT).
  destruct (regular_cos w HR) as (_ & HLE & _). unfold lesm.
  assert (E : exists g, (match cruisespeed_ktas c, cruisealt_m c with
      | Some v, Some h => do qcruise <- q_at c (kts2mps v) h;
          Ok (fun w0 => ndiv (nmul w0 (pval (cruise_weight_fraction c))) qcruise)
      | _, _ => Ok (fun _ : num => Fin 0.6) end) = Ok g).
  { destruct (cruisespeed_ktas c) as [v|]; [|eauto]. destruct (cruisealt_m c) as [h|]; [|eauto].
    destruct (HC v h eq_refl eq_refl) as (q & ->). cbn [rbind]. eauto. }
  destruct E as (g & ->). cbn [rbind]. rewrite (w_leE c w HW), ncos_fin. rewrite ndiv_fin by lra.
  assert (NM : nmin (Fin m) (Fin 0.6) = Fin (Rmin m 0.6)).
  { unfold nmin. rewrite nltb_fin. unfold Rmin. destruct (Rltb_reflect 0.6 m), (Rle_dec m 0.6); try reflexivity; apply Fin_eq; lra. }
  rewrite NM, (oswald24 c w HW HR). cbn [rbind]. destruct (HS m Hm) as (a & ->). cbn [rbind].
  pose proof (Ms_ge1 w HR) as M1. unfold sonic_le in M1.
  assert (K : exists k, k_full_suction ext c (Fin m) (Fin (1 / cos (rad (w_le w)))) (#1 / Fin a)%num = Ok k).
  { unfold k_full_suction. destruct (nltb (Fin m) #1); [eauto|]. destruct (nltb _ _); [|eauto].
    destruct (HS (1 / cos (rad (w_le w))) ltac:(lra)) as (a2 & ->). cbn [rbind].
    destruct (solve_quadratic _ _ _) as [[ca cb] cc]. eauto. }
  destruct K as (k & ->). cbn [rbind]. eauto.
Qed.

(** ** sea level corrections of the generic engines, for any speeds *)
Lemma generic_total c h s ext b tr g : air_at c h s -> bpr c = Some (Fin b) -> throttle_r c = Some (Fin tr) ->
  generic_of b (propulsion c) g -> forall speed, exists ts,
  propulsion_slcorr ext c speed (Fin h) = Ok (VArr ts, VArr (map (fun _ => Fin 1) (elements speed))) /\
  List.length ts = List.length (elements speed).
Proof.
  intros HA HB HT HG speed.
  assert (LL : forall l : list num, map (fun _ => Fin 1) (map (fun x => ndiv x (Fin (sound_speed s))) l) = map (fun _ => Fin 1) l)
    by (intros; rewrite map_map; reflexivity).
  destruct (slcorr_generic c h s HA ext b tr g HB HT HG 0 (Rle_refl 0)) as [].
  assert (P : (exists x, sl_propulsion c = Ok (PropStr x) /\ forall t p d m, exists y, generic_tcorr ext c x t p d m = Ok y)
    \/ sl_propulsion c = Ok PropFalse).
  { assert (NG : forall x, String.eqb x "jet" = false -> forall t p d m, exists y, generic_tcorr ext c x t p d m = Ok y).
    { intros x N t p d m. unfold generic_tcorr. destruct (String.eqb x "turboprop"); [eauto|].
      destruct (String.eqb x "piston"); [eauto|]. destruct (String.eqb x "electric"); [eauto|]. rewrite N. eauto. }
    assert (NJ : 0 <= b -> forall t p d m, exists y, generic_tcorr ext c "jet" t p d m = Ok y).
    { intros B t p d m. unfold generic_tcorr. cbn [String.eqb Ascii.eqb Bool.eqb]. rewrite HB. cbn [pval neqb].
      destruct (Req_dec b 0) as [->|N]; [rewrite (Reqb_true 0 0) by reflexivity; eauto|].
      rewrite (Reqb_false b 0) by exact N. rewrite !nltb_fin, nleb_fin.
      destruct (Rltb_reflect 0 b) as [|X]; [|lra]. cbn [andb].
      destruct (Rltb_reflect b 5); [eauto|]. destruct (Rleb_reflect 5 b); [eauto|lra]. }
    remember (propulsion c) as pp eqn:EP.
    destruct HG as [p PP B|p PP B|p PP B|p PP|p PP|p PP|B N1 N2]; unfold sl_propulsion; rewrite <- EP.
    1-3: left; exists "jet"%string; (split; [|apply NJ; lra]);
      destruct PP as [-> | ->]; [rewrite HB; cbn [pval]; rewrite nleb_fin, (Rleb_true 0 b) by lra; reflexivity|reflexivity].
    - left. exists "piston"%string. split; [|apply NG; reflexivity]. destruct PP as [(-> & B) | ->]; [|reflexivity].
      rewrite HB. cbn [pval neqb]. rewrite nleb_fin, (Rleb_false 0 b), (Reqb_true b (-1)) by lra. reflexivity.
    - left. exists "turboprop"%string. split; [|apply NG; reflexivity]. destruct PP as [(-> & B) | ->]; [|reflexivity].
      rewrite HB. cbn [pval neqb]. rewrite nleb_fin, (Rleb_false 0 b), (Reqb_false b (-1)), (Reqb_true b (-2)) by lra. reflexivity.
    - left. exists "electric"%string. split; [|apply NG; reflexivity]. destruct PP as [(-> & B) | ->]; [|reflexivity].
      rewrite HB. cbn [pval neqb].
      rewrite nleb_fin, (Rleb_false 0 b), (Reqb_false b (-1)), (Reqb_false b (-2)), (Reqb_true b (-3)) by lra. reflexivity.
    - right. rewrite HB. cbn [pval neqb].
      rewrite nleb_fin, (Rleb_false 0 b), (Reqb_false b (-1)), (Reqb_false b (-2)), (Reqb_false b (-3)) by lra.
      rewrite nltb_fin, (nleb_fin (-3)), (Rleb_true (-3) b), (Rltb_true b 0) by lra. reflexivity. }
  unfold propulsion_slcorr. destruct P as [(x & E & G)|E]; rewrite E; cbn [rbind]; rewrite (mach_air c h s HA); cbn [rbind recastasnpfloatarray].
  - pose proof HA as (_ & _ & PR & _). rewrite (temp_c_air c h s HA). cbn [rbind as1]. rewrite PR. cbn [rbind as1].
    rewrite (dens_air c h s HA). cbn [rbind].
    edestruct (mapM_total (generic_tcorr ext c x (Fin (a_temp s - 273.15)) (Fin (a_press s)) (Fin (a_rho s))))
      as (r & R & L); [|rewrite R]. { intros m _. apply G. }
    cbn [rbind]. rewrite LL, recast_elements. exists r. split; [reflexivity|]. rewrite L, map_length, recast_elements. reflexivity.
  - rewrite LL, recast_elements. eexists. split; [reflexivity|]. apply map_length.
Qed.

Lemma engine_total ext c h s : engine_ok c -> air_at c h s -> forall speed, exists ts ks,
  propulsion_slcorr ext c speed (Fin h) = Ok (VArr ts, VArr ks) /\
  List.length ts = List.length (elements speed) /\ List.length ks = List.length (elements speed).
Proof.
  intros HE HA speed. destruct HE as [(b & tr & g & E1 & E2 & E3)|HE].
  - destruct (generic_total c h s ext b tr g HA E1 E2 E3 speed) as (ts & E & L). exists ts. eexists.
    split; [exact E|]. split; [exact L|apply map_length].
  - unfold propulsion_slcorr. destruct HE as [(f & E)|[(f & E)|E]]; unfold sl_propulsion; rewrite E; cbn [rbind];
      rewrite (mach_air c h s HA); cbn [rbind recastasnpfloatarray]; do 2 eexists; (split; [reflexivity|]);
      rewrite ?map_length, ?recast_elements; auto; split; rewrite !map_length; reflexivity.
Qed.

Lemma corrected_one (map2sl : bool) l x : exists F, corrected map2sl (VArr l) (VArr [x]) = Ok (VArr (map F l)).
Proof.
  destruct map2sl; cbn [corrected vop2].
  - exists (fun y => ndiv y x). unfold broadcast. destruct l as [|a [|b l]]; reflexivity.
  - exists (fun y => y). rewrite map_id. reflexivity.
Qed.

Section Total.
  Variables (ext : externals) (c : concept) (map2sl : bool).
  Hypothesis HW : wing_ok ext c.
  Hypothesis HE : engine_ok c.
  Hypothesis HB : brief_complete c.

  Lemma cruise_q v h : cruisespeed_ktas c = Some v -> cruisealt_m c = Some h -> exists q, q_at c (kts2mps v) h = Ok q.
  Proof.
    intros E1 E2. destruct HB as (_ & (v0 & V & _) & _ & _ & _ & _ & F).
    inversion F as [|x1 l1 _ F1]; subst. inversion F1 as [|x2 l2 F2 _]; subst. destruct F2 as (h0 & s & H & HA).
    rewrite V in E1. injection E1 as <-. rewrite H in E2. injection E2 as <-.
    rewrite knots_fin, (q_air c h0 s HA). eauto.
  Qed.

  Lemma lesm_here m : 0 <= m -> exists f, lesm ext c (Fin m) = Ok f.
  Proof. apply lesm_total; [exact HW|exact cruise_q]. Qed.

  Lemma one_corr h s V : air_at c h s -> exists x k, propulsion_slcorr ext c (VNum (Fin V)) (Fin h) = Ok (VArr [x], k).
  Proof.
    intros HA. destruct (engine_total ext c h s HE HA (VNum (Fin V))) as (ts & ks & E & L & _).
    destruct ts as [|x [|y ts]]; try discriminate. exists x, (VArr ks). exact E.
  Qed.

  Lemma clm_ok : exists F, forall v, twrequired_clm ext c v map2sl = Ok (reverttoscalar (VArr (map F (elements v)))).
  Proof.
    destruct HB as ((v & r & E1 & E2 & Hv) & _ & _ & _ & _ & (s0 & H0) & FA).
    inversion FA as [|x1 l1 (h & s & EH & HA) _]; subst.
    set (V := true_speed (knots v) s s0).
    assert (HV : 0 < V) by (apply true_pos; [apply HA|apply H0|unfold knots; lra]).
    destruct (one_corr h s V HA) as (x & kk & X). destruct (lesm_here (mach_no V s)) as (f & LF).
    { apply (mach_no_nonneg c h s HA). lra. }
    unfold twrequired_clm. rewrite E1, E2, EH. cbn [required pval rbind].
    rewrite knots_fin, fpm_fin, (tas_air c h s HA s0 _ H0), (tas_air c h s HA s0 _ H0). cbn [rbind].
    fold V. rewrite X. cbn [rbind fst]. rewrite (q_air c h s HA). cbn [rbind].
    rewrite (mach_at_air c h s HA). cbn [rbind]. rewrite LF. cbn [rbind].
    match goal with |- context [map ?G (recastasnpfloatarray _)] => set (tw := G) end.
    destruct map2sl; cbn [corrected].
    - exists (fun w => (tw w / x * pval (climb_weight_fraction c))%num). intros vv. rewrite recast_elements.
      cbn [vop2]. unfold broadcast. destruct (elements vv) as [|a [|b l]]; try reflexivity.
      cbn. rewrite !map_map. reflexivity.
    - exists (fun w => (tw w * pval (climb_weight_fraction c))%num). intros vv. rewrite recast_elements. cbn [rbind vlit].
      rewrite map_map. reflexivity.
  Qed.

  Lemma crs_ok : exists F, forall v, twrequired_crs ext c v map2sl = Ok (reverttoscalar (VArr (map F (elements v)))).
  Proof.
    destruct HB as (_ & (v & E1 & Hv) & _ & _ & _ & _ & FA).
    inversion FA as [|x1 l1 _ FB]; subst. inversion FB as [|x2 l2 (h & s & EH & HA) _]; subst.
    set (V := knots v).
    assert (HV : 0 < V) by (unfold V, knots; lra).
    destruct (one_corr h s V HA) as (x & kk & X). destruct (lesm_here (mach_no V s)) as (f & LF).
    { apply (mach_no_nonneg c h s HA). lra. }
    unfold twrequired_crs. rewrite E1, EH. cbn [required pval rbind].
    rewrite knots_fin. cbn [rbind]. fold V. rewrite X. cbn [rbind fst]. rewrite (q_air c h s HA). cbn [rbind].
    rewrite (mach_at_air c h s HA). cbn [rbind]. rewrite LF. cbn [rbind].
    match goal with |- context [map ?G (recastasnpfloatarray _)] => set (tw := G) end.
    match goal with |- context [vlit ?G _] => set (fin := G) end.
    destruct map2sl; cbn [corrected].
    - exists (fun w => fin (tw w / x)%num). intros vv. rewrite recast_elements.
      cbn [vop2]. unfold broadcast. destruct (elements vv) as [|a [|b l]]; try reflexivity.
      cbn. rewrite !map_map. reflexivity.
    - exists (fun w => fin (tw w)). intros vv. rewrite recast_elements. cbn [rbind vlit].
      rewrite map_map. reflexivity.
  Qed.

  Lemma sec_ok : exists F, forall v, twrequired_sec ext c v map2sl = Ok (reverttoscalar (VArr (map F (elements v)))).
  Proof.
    destruct HB as (_ & _ & (v & E1 & Hv) & _ & _ & (s0 & H0) & FA).
    inversion FA as [|x1 l1 _ FB]; subst. inversion FB as [|x2 l2 _ FC]; subst. inversion FC as [|x3 l3 (h & s & EH & HA) _]; subst.
    set (V := true_speed (knots v) s s0).
    assert (HV : 0 < V) by (apply true_pos; [apply HA|apply H0|unfold knots; lra]).
    destruct (one_corr h s V HA) as (x & kk & X). destruct (lesm_here (mach_no V s)) as (f & LF).
    { apply (mach_no_nonneg c h s HA). lra. }
    unfold twrequired_sec. rewrite E1, EH. cbn [required pval rbind].
    rewrite knots_fin, fpm_fin, (tas_air c h s HA s0 _ H0), (tas_air c h s HA s0 _ H0). cbn [rbind].
    fold V. rewrite X. cbn [rbind fst]. rewrite (q_air c h s HA). cbn [rbind].
    rewrite (mach_at_air c h s HA). cbn [rbind]. rewrite LF. cbn [rbind].
    match goal with |- context [map ?G (recastasnpfloatarray _)] => set (tw := G) end.
    match goal with |- context [vlit ?G _] => set (fin := G) end.
    destruct map2sl; cbn [corrected].
    - exists (fun w => fin (tw w / x)%num). intros vv. rewrite recast_elements.
      cbn [vop2]. unfold broadcast. destruct (elements vv) as [|a [|b l]]; try reflexivity.
      cbn. rewrite !map_map. reflexivity.
    - exists (fun w => fin (tw w)). intros vv. rewrite recast_elements. cbn [rbind vlit].
      rewrite map_map. reflexivity.
  Qed.

  Lemma trn_ok : exists F G, forall v, twrequired_trn ext c v map2sl =
    Ok (reverttoscalar (VArr (map F (elements v))), reverttoscalar (VArr (map G (elements v))),
        reverttoscalar (VArr (map (fun w => feasible c (F w) (G w)) (elements v)))).
  Proof.
    destruct HB as (_ & _ & _ & (v & n & E1 & E2 & Hv) & _ & _ & FA).
    inversion FA as [|x1 l1 _ FB]; subst. inversion FB as [|x2 l2 _ FC]; subst. inversion FC as [|x3 l3 _ FD]; subst.
    inversion FD as [|x4 l4 (h & s & EH & HA) _]; subst.
    set (V := knots v).
    assert (HV : 0 < V) by (unfold V, knots; lra).
    destruct (one_corr h s V HA) as (x & kk & X). destruct (lesm_here (mach_no V s)) as (f & LF).
    { apply (mach_no_nonneg c h s HA). lra. }
    unfold twrequired_trn, thrusttoweight_sustainedturn. rewrite E1, E2, EH. cbn [required pval rbind].
    rewrite knots_fin. cbn [rbind]. fold V. rewrite (mach_at_air c h s HA). cbn [rbind]. rewrite (q_air c h s HA). cbn [rbind].
    rewrite LF. cbn [rbind fst snd]. rewrite X. cbn [rbind fst].
    match goal with |- context [corrected _ (VArr (map ?G _))] => set (tw := G) end.
    match goal with |- context [combine _ (map ?G _)] => set (cl := G) end.
    set (wf := pval (turn_weight_fraction c)).
    assert (K : forall T (l : list num), map (fun p => feasible c (fst p) (snd p))
        (combine (map T l) (map cl (map (fun w => w * wf)%num l))) = map (fun w => feasible c (T w) (cl (w * wf)%num)) l).
    { intros T l. induction l as [|a l IH]; cbn [map combine]; [reflexivity|]. rewrite IH. reflexivity. }
    destruct map2sl; cbn [corrected].
    - exists (fun w => (tw (w * wf) / x * wf)%num), (fun w => cl (w * wf)%num). intros vv. rewrite recast_elements.
      assert (B : vop2 ndiv (VArr (map tw (map (fun w => (w * wf)%num) (elements vv)))) (VArr [x])
        = Ok (VArr (map (fun w => tw (w * wf)%num / x)%num (elements vv)))).
      { cbn [vop2]. unfold broadcast. destruct (elements vv) as [|a [|b l]]; try reflexivity.
        cbn. rewrite !map_map. reflexivity. }
      rewrite B. cbn [rbind vlit recastasnpfloatarray]. rewrite !map_map.
      rewrite <- (K (fun w => (tw (w * wf) / x * wf)%num)). rewrite !map_map. reflexivity.
    - exists (fun w => (tw (w * wf) * wf)%num), (fun w => cl (w * wf)%num). intros vv. rewrite recast_elements.
      cbn [rbind vlit recastasnpfloatarray]. rewrite !map_map.
      rewrite <- (K (fun w => (tw (w * wf) * wf)%num)). rewrite !map_map. reflexivity.
  Qed.

  Lemma to_ok v : exists T L A, twrequired_to ext c v map2sl =
    Ok (reverttoscalar (VArr T), reverttoscalar (VArr L), reverttoscalar (VArr A)) /\
    List.length T = List.length (elements v) /\ List.length L = List.length (elements v).
  Proof.
    destruct HB as (_ & _ & _ & _ & (d & E1) & _ & FA).
    inversion FA as [|x1 l1 _ FB]; subst. inversion FB as [|x2 l2 _ FC]; subst. inversion FC as [|x3 l3 _ FD]; subst.
    inversion FD as [|x4 l4 _ FE]; subst. inversion FE as [|x5 l5 (h & s & EH & HA) _]; subst.
    unfold twrequired_to. rewrite E1, EH. cbn [required pval rbind]. rewrite (dens_air c h s HA). cbn [rbind].
    match goal with |- context [mapM ?F ?L] => destruct (mapM_total F L) as (tws & TW & TL) end.
    { intros [t V] _. cbn [fst snd]. destruct map2sl; [|eauto].
      destruct (engine_total ext c h s HE HA (VNum V)) as (ts & ks & E & LL & _). rewrite E. cbn [rbind fst].
      destruct ts as [|y [|z ts]]; try discriminate. cbn [as1 rbind]. eauto. }
    rewrite TW. cbn [rbind]. eexists _, _, _. split; [reflexivity|].
    rewrite TL. rewrite !map_length, recast_elements. auto.
  Qed.

  Lemma arrmax_total a b : List.length a = List.length b -> exists r, arrmax a b = Ok r /\ List.length r = List.length a.
  Proof.
    revert b. induction a as [|x a IH]; intros [|y b] L; try discriminate; cbn [arrmax]; [eauto|].
    destruct (IH b) as (r & -> & RL); [cbn in L; lia|]. cbn [rbind]. eexists. split; [reflexivity|]. cbn. congruence.
  Qed.
  Lemma vmax_total a b : List.length a = List.length b -> exists r,
    vmax (reverttoscalar (VArr a)) (reverttoscalar (VArr b)) = Ok (reverttoscalar (VArr r)) /\ List.length r = List.length a.
  Proof.
    intros L. destruct a as [|x [|x2 a]], b as [|y [|y2 b]]; try discriminate.
    - exists []. auto.
    - exists [nmax x y]. auto.
    - destruct (arrmax_total (x :: x2 :: a) (y :: y2 :: b) L) as (r & E & RL). exists r. split; [|exact RL].
      cbn [reverttoscalar vmax]. rewrite E. destruct r as [|r1 [|r2 r]]; try discriminate. reflexivity.
  Qed.
  Lemma npmax5_total a b d e f n : List.length a = n -> List.length b = n -> List.length d = n -> List.length e = n -> List.length f = n ->
    exists r, npmax5 (reverttoscalar (VArr a)) (reverttoscalar (VArr b)) (reverttoscalar (VArr d)) (reverttoscalar (VArr e))
      (reverttoscalar (VArr f)) = Ok (reverttoscalar (VArr r)) /\ List.length r = n.
  Proof.
    intros La Lb Ld Le Lf. unfold npmax5.
    destruct (vmax_total a b) as (r1 & -> & L1); [congruence|]. cbn [rbind].
    destruct (vmax_total r1 d) as (r2 & -> & L2); [congruence|]. cbn [rbind].
    destruct (vmax_total r2 e) as (r3 & -> & L3); [congruence|]. cbn [rbind].
    destruct (vmax_total r3 f) as (r4 & -> & L4); [congruence|]. exists r4. split; [reflexivity|congruence].
  Qed.

  Lemma twrequired_ok v fo : exists r, twrequired ext c v fo map2sl = Ok r.
  Proof.
    unfold twrequired. rewrite recast_elements. set (ws := VArr (elements v)).
    destruct (to_ok ws) as (T & L & A & E & LT & LL). rewrite E. cbn [rbind].
    destruct trn_ok as (F & G & EF). rewrite EF. cbn [rbind].
    destruct clm_ok as (F2 & EF2). rewrite EF2. cbn [rbind].
    destruct crs_ok as (F3 & EF3). rewrite EF3. cbn [rbind].
    destruct sec_ok as (F4 & EF4). rewrite EF4. cbn [rbind].
    set (n := List.length (elements ws)).
    destruct fo.
    - destruct (npmax5_total T (map (fun w => feasible c (F w) (G w)) (elements ws)) (map F2 (elements ws)) (map F3 (elements ws)) (map F4 (elements ws)) n)
        as (r & -> & _); rewrite ?map_length; auto. cbn [rbind]. eauto.
    - destruct (npmax5_total T (map F (elements ws)) (map F2 (elements ws)) (map F3 (elements ws)) (map F4 (elements ws)) n)
        as (r & -> & _); rewrite ?map_length; auto. cbn [rbind]. eauto.
  Qed.
End Total.
