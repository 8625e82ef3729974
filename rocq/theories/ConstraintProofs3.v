(** Climb, cruise, ceiling and turn constraints. *)
From Verif Require Import Base BaseFacts AnalysisFacts UnitsModel AtmosModel AtmosSpec
  ConceptModel MethodsModel MethodsSpec MethodsProofs MethodsProofs2
  MethodsProofs3 MethodsProofs4 ConstraintSpec ConstraintProofs ConstraintProofs2.
Open Scope R_scope.

Lemma knots_fin v : kts2mps (Fin v) = Fin (knots v).
Proof. unfold kts2mps, knots. apply nmul_fin. Qed.
Lemma fpm_fin v : fpm2mps (Fin v) = Fin (feet_per_min v).
Proof. unfold fpm2mps, feet2m, feet_per_min. cbv zeta. rewrite nmul_fin, ndiv_fin by lra. reflexivity. Qed.

Lemma induced_list ext c m ws cl k : ws <> [] ->
  (forall w, In w ws -> induced ext c m w (cl w) (k w)) ->
  exists f, lesm ext c (Fin m) = Ok f /\ forall w, In w ws -> f (Fin w) (Some (Fin (cl w))) = Fin (k w).
Proof.
  intros N H. destruct ws as [|w0 ws]; [contradiction|].
  destruct (H w0 (or_introl eq_refl)) as (f & E & _). exists f. split; [exact E|].
  intros w I. destruct (H w I) as (f' & E' & V). rewrite E in E'. injection E' as <-. exact V.
Qed.

Lemma corrected_lapse ext c map2sl V h tau : lapse ext c map2sl V h tau ->
  exists tc pc, propulsion_slcorr ext c (VNum (Fin V)) (Fin h) = Ok (tc, pc) /\ tau <> 0 /\
  forall ts : list R, corrected map2sl (VArr (map Fin ts)) tc = Ok (VArr (map (fun t => Fin (t / tau)) ts)).
Proof.
  intros (tc & pc & E & L). exists tc, pc. split; [exact E|].
  destruct map2sl.
  - destruct L as (N & [-> | ->]); (split; [exact N|]); intros ts; cbn [corrected vop2].
    + rewrite map_map. do 2 f_equal. apply map_ext. intros t. apply ndiv_fin, N.
    + unfold broadcast. rewrite map_length. cbn [List.length].
      destruct ts as [|a [|b ts]]; cbn [List.length Nat.eqb map combine rmap rbind fst snd].
      * reflexivity.
      * rewrite ndiv_fin by exact N. reflexivity.
      * rewrite !ndiv_fin by exact N. rewrite map_map. do 4 f_equal. apply map_ext.
        intros t. apply ndiv_fin, N.
  - subst tau. split; [lra|]. intros ts. cbn [corrected]. do 2 f_equal. apply map_ext. intros t.
    apply Fin_eq. field.
Qed.

Lemma tws_fin (ws : list R) (F : num -> num) (T : R -> R) :
  (forall w, In w ws -> F (Fin w) = Fin (T w)) -> map F (map Fin ws) = map Fin (map T ws).
Proof.
  intros H. rewrite !map_map. apply map_ext_in. exact H.
Qed.

Lemma true_pos e s s0 : 0 < a_rho s -> 0 < a_rho s0 -> 0 < e -> 0 < true_speed e s s0.
Proof.
  intros. unfold true_speed. apply Rmult_lt_0_compat; [assumption|]. apply sqrt_lt_R0.
  apply Rdiv_lt_0_compat; assumption.
Qed.

Lemma q_pos v s : 0 < a_rho s -> 0 < v -> 0 < dyn_press v s.
Proof. intros. unfold dyn_press. assert (0 < v ^ 2) by (apply pow_lt; assumption). nra. Qed.

Section Climb.
  Variables (ext : externals) (c : concept) (map2sl : bool) (v : val) (ws : list R).
  Hypothesis HV : elements v = map Fin ws.
  Hypothesis HN : ws <> [].
  Hypothesis HP : forall w, In w ws -> 0 < w.

  Lemma recast_ws : recastasnpfloatarray v = map Fin ws.
  Proof. rewrite <- HV. destruct v; reflexivity. Qed.

  Lemma climb_balance spd rate h b cd0 s s0 tau k :
    climb_data c spd rate h b cd0 -> 0 < spd -> 0 < b ->
    air_at c h s -> air_at c 0 s0 ->
    let V := true_speed (knots spd) s s0 in
    let roc := true_speed (feet_per_min rate) s s0 in
    Rabs roc <= V ->
    lapse ext c map2sl V h tau ->
    (forall w, In w ws -> induced ext c (mach_no V s) w (b * w / dyn_press V s) (k w)) ->
    exists T, twrequired_clm ext c v map2sl = Ok (results ws T) /\
    forall w, In w ws ->
      (exists t g, T w = b * t / tau /\ - (PI / 2) <= g <= PI / 2 /\ V * sin g = roc /\
         drag_balance (dyn_press V s) cd0 (k w) (b * w) (cos g) g t) /\
      (0 < cd0 -> 0 <= k w -> 0 <= rate -> 0 < tau -> 0 < T w).
  Proof.
    intros (E1 & E2 & E3 & E4 & E5) Hs Hb HA H0 V roc HR HL HK.
    pose proof HA as (_ & _ & _ & RP & _). pose proof H0 as (_ & _ & _ & RP0 & _).
    assert (HVp : 0 < V) by (apply true_pos; try assumption; unfold knots; lra).
    pose proof (q_pos V s RP HVp) as Hq. set (q := dyn_press V s) in *.
    destruct (corrected_lapse _ _ _ _ _ _ HL) as (tc & pc & EC & Nt & CL).
    destruct (induced_list ext c (mach_no V s) ws (fun w => b * w / q) k HN HK) as (f & EF & FV).
    set (T := fun w => roc / V + 1 / (w * b) * q * cd0 + k w / q * (w * b) * (1 - (roc / V) ^ 2)).
    exists (fun w => b * T w / tau). split.
    - unfold twrequired_clm. rewrite E1, E2, E3, E4, E5. cbn [required pval rbind].
      rewrite knots_fin, fpm_fin, (tas_air c h s HA s0 _ H0), (tas_air c h s HA s0 _ H0). cbn [rbind].
      fold V roc. rewrite EC. cbn [rbind fst]. rewrite (q_air c h s HA). cbn [rbind].
      rewrite (mach_at_air c h s HA). cbn [rbind]. rewrite EF. cbn [rbind]. fold q.
      rewrite recast_ws. rewrite (tws_fin ws _ T).
      2:{ intros w I. pose proof (HP w I) as Hw. rewrite !nmul_fin. rewrite (ndiv_fin (w * b) q) by lra.
          replace (w * b / q) with (b * w / q) by (field; lra). rewrite (FV w I).
          rewrite (ndiv_fin (1 * roc) V), (ndiv_fin 1 (w * b)), (ndiv_fin (k w) q), (ndiv_fin roc V) by nra.
          nfin. apply Fin_eq. unfold T. field. repeat split; nra. }
      rewrite CL. cbn [rbind vlit]. unfold results. do 2 f_equal.
      rewrite !map_map. f_equal. apply map_ext. intros w. rewrite nmul_fin. apply Fin_eq. lra.
    - intros w I. pose proof (HP w I) as Hw. split.
      + assert (B : -1 <= roc / V <= 1).
        { pose proof (Rle_abs roc). pose proof (Rle_abs (- roc)) as A2. rewrite Rabs_Ropp in A2.
          split; apply Rmult_le_reg_r with V; try assumption; unfold Rdiv; rewrite Rmult_assoc, Rinv_l; lra. }
        exists (T w), (asin (roc / V)). split; [reflexivity|]. split; [apply asin_bound|].
        rewrite sin_asin by exact B. split; [field; lra|].
        unfold drag_balance, T. rewrite sin_asin by exact B.
        pose proof (sin2_cos2 (asin (roc / V))) as SC. rewrite sin_asin in SC by exact B.
        unfold Rsqr in SC. set (cg := cos (asin (roc / V))) in *.
        replace (1 - (roc / V) ^ 2) with (cg * cg) by (simpl; lra). field. repeat split; nra.
      + intros Hc Hk Hr Ht. assert (0 <= roc / V).
        { apply Rdiv_le_0_compat; [|exact HVp]. unfold roc, true_speed. apply Rmult_le_pos; [|apply sqrt_pos].
          unfold feet_per_min. lra. }
        assert (roc / V <= 1).
        { apply Rmult_le_reg_r with V; [exact HVp|]. unfold Rdiv; rewrite Rmult_assoc, Rinv_l by lra.
          pose proof (Rle_abs roc). lra. }
        apply Rdiv_lt_0_compat; [|exact Ht]. apply Rmult_lt_0_compat; [exact Hb|]. unfold T.
        assert (0 < w * b) by nra. assert (0 < 1 / (w * b) * q * cd0) by pos.
        assert (0 <= k w / q * (w * b) * (1 - (roc / V) ^ 2)).
        { apply Rmult_le_pos; [apply Rmult_le_pos|]; [apply Rdiv_le_0_compat; lra|nra|].
          set (z := roc / V) in *. simpl. nra. }
        lra.
  Qed.

  Lemma cruise_balance spd h b ct cd0 s tau k :
    cruise_data c spd h b ct cd0 -> 0 < spd -> 0 < b -> ct <> 0 ->
    air_at c h s ->
    let V := knots spd in
    lapse ext c map2sl V h tau ->
    (forall w, In w ws -> induced ext c (mach_no V s) w (b * w / dyn_press V s) (k w)) ->
    exists T, twrequired_crs ext c v map2sl = Ok (results ws T) /\
    forall w, In w ws ->
      (exists t, T w = b * t / tau / ct /\ drag_balance (dyn_press V s) cd0 (k w) (b * w) 1 0 t) /\
      (0 < cd0 -> 0 <= k w -> 0 < tau -> 0 < ct -> 0 < T w).
  Proof.
    intros (E1 & E2 & E3 & E4 & E5) Hs Hb Hct HA V HL HK.
    pose proof HA as (_ & _ & _ & RP & _).
    assert (HVp : 0 < V) by (unfold V, knots; lra).
    pose proof (q_pos V s RP HVp) as Hq. set (q := dyn_press V s) in *.
    destruct (corrected_lapse _ _ _ _ _ _ HL) as (tc & pc & EC & Nt & CL).
    destruct (induced_list ext c (mach_no V s) ws (fun w => b * w / q) k HN HK) as (f & EF & FV).
    set (T := fun w => 1 / (w * b) * q * cd0 + k w / q * (w * b)).
    exists (fun w => b * T w / tau / ct). split.
    - unfold twrequired_crs. rewrite E1, E2, E3, E4, E5. cbn [required pval rbind].
      rewrite knots_fin. fold V. rewrite EC. cbn [rbind fst]. rewrite (q_air c h s HA). cbn [rbind].
      rewrite (mach_at_air c h s HA). cbn [rbind]. rewrite EF. cbn [rbind]. fold q.
      rewrite recast_ws. rewrite (tws_fin ws _ T).
      2:{ intros w I. pose proof (HP w I) as Hw. rewrite !nmul_fin. rewrite (ndiv_fin (w * b) q) by lra.
          replace (w * b / q) with (b * w / q) by (field; lra). rewrite (FV w I).
          rewrite (ndiv_fin 1 (w * b)), (ndiv_fin (k w) q) by nra. nfin. reflexivity. }
      rewrite CL. cbn [rbind vlit]. unfold results. do 2 f_equal.
      rewrite !map_map. f_equal. apply map_ext. intros w. rewrite ndiv_fin by exact Hct. rewrite !nmul_fin.
      apply Fin_eq. field. split; assumption.
    - intros w I. pose proof (HP w I) as Hw. split.
      + exists (T w). split; [reflexivity|]. unfold drag_balance, T. rewrite sin_0. field. repeat split; nra.
      + intros Hc Hk Ht Hct'. apply Rdiv_lt_0_compat; [|exact Hct']. apply Rdiv_lt_0_compat; [|exact Ht].
        apply Rmult_lt_0_compat; [exact Hb|]. unfold T.
        assert (0 < w * b) by nra. assert (0 < 1 / (w * b) * q * cd0) by pos.
        assert (0 <= k w / q * (w * b)) by (apply Rmult_le_pos; [apply Rdiv_le_0_compat; lra|nra]).
        lra.
  Qed.

  (** the ceiling constraint takes the lift equal to the weight (cos g = 1) *)
  Lemma ceiling_balance spd h b cd0 s s0 tau k :
    ceiling_data c spd h b cd0 -> 0 < spd -> 0 < b ->
    air_at c h s -> air_at c 0 s0 ->
    let V := true_speed (knots spd) s s0 in
    let roc := true_speed (feet_per_min 100) s s0 in
    roc <= V ->
    lapse ext c map2sl V h tau ->
    (forall w, In w ws -> induced ext c (mach_no V s) w (b * w / dyn_press V s) (k w)) ->
    exists T, twrequired_sec ext c v map2sl = Ok (results ws T) /\
    forall w, In w ws ->
      (exists t g, T w = b * t / tau /\ 0 <= g <= PI / 2 /\ V * sin g = roc /\
         drag_balance (dyn_press V s) cd0 (k w) (b * w) 1 g t /\
         exists t', drag_balance (dyn_press V s) cd0 (k w) (b * w) (cos g) g t' /\
           t - t' = k w * (b * w) / dyn_press V s * sin g ^ 2) /\
      (0 < cd0 -> 0 <= k w -> 0 < tau -> 0 < T w).
  Proof.
    intros (E1 & E2 & E3 & E4) Hs Hb HA H0 V roc HR HL HK.
    pose proof HA as (_ & _ & _ & RP & _). pose proof H0 as (_ & _ & _ & RP0 & _).
    assert (HVp : 0 < V) by (apply true_pos; try assumption; unfold knots; lra).
    assert (Hrp : 0 < roc) by (apply true_pos; try assumption; unfold feet_per_min; lra).
    pose proof (q_pos V s RP HVp) as Hq. set (q := dyn_press V s) in *.
    destruct (corrected_lapse _ _ _ _ _ _ HL) as (tc & pc & EC & Nt & CL).
    destruct (induced_list ext c (mach_no V s) ws (fun w => b * w / q) k HN HK) as (f & EF & FV).
    set (T := fun w => roc / V + 1 / (w * b) * q * cd0 + k w / q * (w * b)).
    exists (fun w => b * T w / tau). split.
    - unfold twrequired_sec. rewrite E1, E2, E3, E4. cbn [required pval rbind].
      rewrite knots_fin, fpm_fin, (tas_air c h s HA s0 _ H0). cbn [rbind].
      fold V. rewrite EC. cbn [rbind fst]. rewrite (q_air c h s HA). cbn [rbind].
      rewrite (mach_at_air c h s HA). cbn [rbind]. rewrite EF. cbn [rbind].
      rewrite (tas_air c h s HA s0 _ H0). cbn [rbind]. fold q roc.
      rewrite recast_ws. rewrite (tws_fin ws _ T).
      2:{ intros w I. pose proof (HP w I) as Hw. rewrite !nmul_fin. rewrite (ndiv_fin (w * b) q) by lra.
          replace (w * b / q) with (b * w / q) by (field; lra). rewrite (FV w I).
          rewrite (ndiv_fin 1 (w * b)), (ndiv_fin (k w) q), (ndiv_fin roc V) by nra. nfin. reflexivity. }
      rewrite CL. cbn [rbind vlit]. unfold results. do 2 f_equal.
      rewrite !map_map. f_equal. apply map_ext. intros w. rewrite nmul_fin. apply Fin_eq. lra.
    - intros w I. pose proof (HP w I) as Hw.
      assert (B : 0 < roc / V <= 1).
      { split; [apply Rdiv_lt_0_compat; assumption|].
        apply Rmult_le_reg_r with V; try assumption; unfold Rdiv; rewrite Rmult_assoc, Rinv_l; lra. }
      split.
      + exists (T w), (asin (roc / V)). split; [reflexivity|]. split.
        { split; [|apply asin_bound]. rewrite <- asin_0. destruct (Rle_lt_dec (asin 0) (asin (roc / V))) as [L|L]; [exact L|].
          exfalso. pose proof (asin_bound (roc / V)) as A1. rewrite asin_0 in L.
          assert (sin (asin (roc / V)) < 0) by (apply sin_lt_0_var; pose proof PI_RGT_0; lra).
          rewrite sin_asin in H by lra. lra. }
        rewrite sin_asin by lra. split; [field; lra|].
        unfold drag_balance, T. rewrite sin_asin by lra. split; [field; repeat split; nra|].
        pose proof (sin2_cos2 (asin (roc / V))) as SC. rewrite sin_asin in SC by lra.
        unfold Rsqr in SC. set (cg := cos (asin (roc / V))) in *.
        exists (roc / V + 1 / (w * b) * q * cd0 + k w / q * (w * b) * (cg * cg)).
        split; [field; repeat split; nra|].
        replace (cg * cg) with (1 - (roc / V) ^ 2) by (simpl; lra). field. split; lra.
      + intros Hc Hk Ht.
        apply Rdiv_lt_0_compat; [|exact Ht]. apply Rmult_lt_0_compat; [exact Hb|]. unfold T.
        assert (0 < w * b) by nra. assert (0 < 1 / (w * b) * q * cd0) by pos.
        assert (0 <= k w / q * (w * b)) by (apply Rmult_le_pos; [apply Rdiv_le_0_compat; lra|nra]).
        lra.
  Qed.

  (** [bc] is the climb weight fraction *)
  Lemma turn_general spd h n b bc cd0 s tau k :
    turn_data c spd h n b bc cd0 -> 0 < spd -> 0 < b ->
    air_at c h s ->
    let V := knots spd in
    let q := dyn_press V s in
    lapse ext c map2sl V h tau ->
    (forall w, In w ws -> induced ext c (mach_no V s) (b * w) (n * (b * w) * bc / q) (k w)) ->
    let T w := b * (q * (cd0 / (b * w) + k w * (n / q) ^ 2 * (b * w * bc))) / tau in
    let C w := n * (b * w) * bc / q in
    twrequired_trn ext c v map2sl = Ok (results ws T, results ws C,
      reverttoscalar (VArr (map (fun w => feasible c (Fin (T w)) (Fin (C w))) ws))).
  Proof.
    intros (E1 & E2 & E3 & E4 & E5 & E6) Hs Hb HA V q HL HK T C.
    pose proof HA as (_ & _ & _ & RP & _).
    assert (HVp : 0 < V) by (unfold V, knots; lra).
    pose proof (q_pos V s RP HVp) as Hq. fold q in Hq.
    destruct (corrected_lapse _ _ _ _ _ _ HL) as (tc & pc & EC & Nt & CL).
    assert (HK2 : forall y, In y (map (fun w => b * w) ws) ->
       induced ext c (mach_no V s) y (n * y * bc / q) (k (y / b))).
    { intros y I. apply in_map_iff in I. destruct I as (w & <- & I).
      replace (b * w / b) with w by (field; lra). apply HK, I. }
    destruct (induced_list ext c (mach_no V s) (map (fun w => b * w) ws) (fun y => n * y * bc / q) (fun y => k (y / b)))
      as (f & EF & FV); [destruct ws; [contradiction|discriminate]|exact HK2|].
    unfold twrequired_trn. rewrite E1, E3, E4. cbn [required pval rbind]. rewrite recast_ws.
    assert (TS : thrusttoweight_sustainedturn ext c (map (fun w => nmul w (Fin b)) (map Fin ws))
      = Ok (map Fin (map (fun w => q * (cd0 / (b * w) + k w * (n / q) ^ 2 * (b * w * bc))) ws), map Fin (map C ws))).
    { unfold thrusttoweight_sustainedturn. rewrite E1, E2, E3, E5, E6. cbn [pval]. rewrite knots_fin. fold V.
      rewrite (mach_at_air c h s HA). cbn [rbind]. rewrite (q_air c h s HA). cbn [rbind]. fold q.
      rewrite EF. cbn [rbind]. f_equal. f_equal.
      - rewrite !map_map. apply map_ext_in. intros w I. pose proof (HP w I) as Hw.
        rewrite !nmul_fin. rewrite (ndiv_fin _ q) by lra.
        replace (w * b) with (b * w) by lra. replace (b * w * bc * n / q) with (n * (b * w) * bc / q) by (field; lra).
        rewrite (FV (b * w)) by (apply in_map_iff; exists w; split; [reflexivity|exact I]).
        replace (b * w / b) with w by (field; lra).
        rewrite (ndiv_fin cd0 (b * w)), (ndiv_fin n q) by nra. nfin. reflexivity.
      - rewrite !map_map. apply map_ext_in. intros w I. rewrite !nmul_fin. rewrite (ndiv_fin _ q) by lra.
        apply Fin_eq. unfold C. field. lra. }
    rewrite TS. cbn [rbind fst snd]. rewrite E2. cbn [pval]. rewrite knots_fin. fold V. rewrite EC. cbn [rbind fst].
    rewrite CL. cbn [rbind vlit]. unfold results. do 2 f_equal; [f_equal|].
    - rewrite !map_map. do 2 f_equal. apply map_ext. intros w. rewrite nmul_fin. apply Fin_eq. unfold T. lra.
    - rewrite !map_map. reflexivity.
    - cbn [recastasnpfloatarray]. do 2 f_equal. rewrite !map_map.
      clear - Hb. induction ws as [|w l IH]; cbn [map combine]; [reflexivity|]. f_equal; [|exact IH].
      cbn [fst snd]. rewrite nmul_fin. f_equal. apply Fin_eq. unfold T. lra.
  Qed.
End Climb.
