(** Final forms of the constraint properties, and concrete cases. *)
From Verif Require Import Base BaseFacts AnalysisFacts UnitsModel AtmosModel AtmosSpec IsaReal IsaProofs AtmosProofs
  AtmosProofs2 AtmosProofs4 ConceptModel ConceptProofs MethodsModel MethodsSpec MethodsExamples MethodsProofs MethodsProofs2
  MethodsProofs3 MethodsProofs4 ConstraintSpec ConstraintProofs ConstraintProofs2 ConstraintProofs3 ConstraintProofs4
  ConstraintProofs5 ConstraintProofs6 ConstraintProofs7 ConstraintProofs8.
Open Scope R_scope.

Lemma groundrun_missing ext c v map2sl : groundrun_m c = None ->
  twrequired_to ext c v map2sl = Err ValueError.
Proof. apply missing_items. Qed.

(** ** Turn *)
Lemma turn_balance ext c map2sl v ws spd h n b cd0 clm s tau k :
  elements v = map Fin ws -> ws <> [] -> (forall w, In w ws -> 0 < w) ->
  turn_data c spd h n b 1 cd0 -> clmaxclean c = Some (Fin clm) -> 0 < spd -> 0 < b -> air_at c h s ->
  let V := knots spd in
  let q := dyn_press V s in
  lapse ext c map2sl V h tau ->
  (forall w, In w ws -> induced ext c (mach_no V s) (b * w) (n * (b * w) / q) (k w)) ->
  exists T, twrequired_trn ext c v map2sl = Ok (results ws T, results ws (fun w => n * (b * w) / q),
      reverttoscalar (VArr (map (fun w => if Rlt_dec clm (n * (b * w) / q) then NonFin else Fin (T w)) ws))) /\
  forall w, In w ws ->
    (exists t, T w = b * t / tau /\ drag_balance q cd0 (k w) (b * w) n 0 t) /\
    (0 < cd0 -> 0 <= k w -> 0 < tau -> 0 < T w).
Proof.
  intros HV HN HP HD HC Hs Hb HA V q HL HK.
  pose proof HA as (_ & _ & _ & RP & _). assert (HVp : 0 < V) by (unfold V, knots; lra).
  pose proof (q_pos V s RP HVp) as Hq. fold q in Hq.
  assert (S1 : forall w, n * (b * w) * 1 / q = n * (b * w) / q) by (intros; field; lra).
  exists (fun w => b * (q * (cd0 / (b * w) + k w * (n / q) ^ 2 * (b * w * 1))) / tau). split.
  - rewrite (turn_general ext c map2sl v ws HV HN HP spd h n b 1 cd0 s tau k HD Hs Hb HA HL).
    2:{ intros w I. fold V q. rewrite S1. apply HK, I. }
    fold V q. unfold results. cbv zeta. erewrite (map_ext (fun w => Fin (n * (b * w) * 1 / q))).
    2:{ intros w. rewrite S1. reflexivity. }
    erewrite (map_ext (fun w => feasible c _ (Fin (n * (b * w) * 1 / q)))).
    2:{ intros w. rewrite S1. unfold feasible. rewrite HC. cbn [pval]. rewrite nltb_fin. unfold Rltb.
        instantiate (1 := fun w => if Rlt_dec clm (n * (b * w) / q) then NonFin else
          Fin (b * (q * (cd0 / (b * w) + k w * (n / q) ^ 2 * (b * w * 1))) / tau)). cbv beta.
        destruct (Rlt_dec _ _); reflexivity. }
    reflexivity.
  - intros w I. pose proof (HP w I) as Hw. assert (0 < b * w) by nra. split.
    + eexists. split; [reflexivity|]. unfold drag_balance. rewrite sin_0. field. split; lra.
    + intros Hc Hk Ht. apply Rdiv_lt_0_compat; [|exact Ht]. apply Rmult_lt_0_compat; [exact Hb|]. apply Rmult_lt_0_compat; [exact Hq|].
      assert (0 < cd0 / (b * w)) by (apply Rdiv_lt_0_compat; assumption).
      assert (0 <= k w * (n / q) ^ 2 * (b * w * 1)).
      { apply Rmult_le_pos; [apply Rmult_le_pos; [exact Hk|apply pow2_ge_0]|lra]. }
      lra.
Qed.

(** the lift coefficient that is reported and checked contains the climb fraction *)
Lemma turn_cl ext c map2sl v ws spd h n b bc cd0 s tw cl fe :
  elements v = map Fin ws -> turn_data c spd h n b bc cd0 -> 0 < spd -> air_at c h s ->
  twrequired_trn ext c v map2sl = Ok (tw, cl, fe) ->
  elements cl = map (fun w => Fin (n * (b * w) * bc / dyn_press (knots spd) s)) ws.
Proof.
  intros HV (E1 & E2 & E3 & E4 & E5 & E6) Hs HA H.
  pose proof HA as (_ & _ & _ & RP & _). assert (HVp : 0 < knots spd) by (unfold knots; lra).
  pose proof (q_pos _ s RP HVp) as Hq.
  unfold twrequired_trn in H. rewrite E1, E3, E4 in H. cbn [required pval rbind] in H.
  rewrite recast_elements, HV in H.
  apply rbind_ok in H. destruct H as (r & R & H).
  assert (ER : snd r = map (fun w => Fin (n * (b * w) * bc / dyn_press (knots spd) s)) ws).
  { unfold thrusttoweight_sustainedturn in R. rewrite E1, E2, E3, E5, E6 in R. cbn [pval] in R. rewrite knots_fin in R.
    rewrite (mach_at_air c h s HA) in R. cbn [rbind] in R. rewrite (q_air c h s HA) in R. cbn [rbind] in R.
    apply rbind_ok in R. destruct R as (f & _ & R). injection R as <-. cbn [snd].
    rewrite !map_map. apply map_ext. intros w. rewrite !nmul_fin, ndiv_fin by lra. apply Fin_eq. field. lra. }
  apply rbind_ok in H. destruct H as (corr & _ & H). apply rbind_ok in H. destruct H as (tws & _ & H).
  apply rbind_ok in H. destruct H as (tw' & _ & H). rewrite ER in H.
  assert (cl = reverttoscalar (VArr (map (fun w => Fin (n * (b * w) * bc / dyn_press (knots spd) s)) ws))) as -> by congruence.
  apply elements_revert.
Qed.

Lemma climb_fraction_matters ext c map2sl v ws spd h n b bc bc' cd0 s r r' w :
  elements v = map Fin ws -> turn_data c spd h n b bc cd0 -> 0 < spd -> 0 < n -> 0 < b -> air_at c h s ->
  bc <> bc' -> In w ws -> 0 < w ->
  twrequired_trn ext c v map2sl = Ok r ->
  twrequired_trn ext (with_climb_fraction c (Some (Fin bc'))) v map2sl = Ok r' ->
  elements (snd (fst r)) <> elements (snd (fst r')).
Proof.
  intros HV HD Hs Hn Hb HA HB I Hw H H' E. destruct r as [[tw cl] fe], r' as [[tw' cl'] fe'].
  cbn [fst snd] in E. rewrite (turn_cl _ _ _ _ _ _ _ _ _ _ _ _ _ _ _ HV HD Hs HA H) in E.
  assert (HD' : turn_data (with_climb_fraction c (Some (Fin bc'))) spd h n b bc' cd0).
  { destruct HD as (E1 & E2 & E3 & E4 & E5 & E6). repeat split; assumption. }
  assert (HA' : air_at (with_climb_fraction c (Some (Fin bc'))) h s) by exact HA.
  rewrite (turn_cl _ _ _ _ _ _ _ _ _ _ _ _ _ _ _ HV HD' Hs HA' H') in E.
  pose proof HA as (_ & _ & _ & RP & _). assert (HVp : 0 < knots spd) by (unfold knots; lra).
  pose proof (q_pos _ s RP HVp) as Hq.
  assert (EW : Fin (n * (b * w) * bc / dyn_press (knots spd) s) = Fin (n * (b * w) * bc' / dyn_press (knots spd) s)).
  { apply (f_equal (map (fun x => x))) in E. rewrite !map_id in E. revert E I. clear. induction ws as [|a l IH]; [easy|].
    cbn [map]. intros E. injection E as E1 E2. intros [<-|I]; [rewrite E1; reflexivity|]. apply IH; assumption. }
  injection EW as EW. apply HB. apply (Rmult_eq_reg_l (n * (b * w))); [|pose proof (Rmult_lt_0_compat _ _ Hb Hw); nra].
  apply (Rmult_eq_reg_r (/ dyn_press (knots spd) s)); [exact EW|]. apply Rinv_neq_0_compat; lra.
Qed.

(** ** Ceiling: the requirement exceeds that of the force balance *)
Lemma ceiling_excess ext c map2sl v ws spd h b cd0 s s0 tau k :
  elements v = map Fin ws -> ws <> [] -> (forall w, In w ws -> 0 < w) ->
  ceiling_data c spd h b cd0 -> 0 < spd -> 0 < b -> air_at c h s -> air_at c 0 s0 ->
  let V := true_speed (knots spd) s s0 in
  let roc := true_speed (feet_per_min 100) s s0 in
  roc <= V -> lapse ext c map2sl V h tau -> 0 < tau ->
  (forall w, In w ws -> induced ext c (mach_no V s) w (b * w / dyn_press V s) (k w) /\ 0 < k w) ->
  exists T, twrequired_sec ext c v map2sl = Ok (results ws T) /\
  forall w t g, In w ws -> - (PI / 2) <= g <= PI / 2 -> V * sin g = roc ->
    drag_balance (dyn_press V s) cd0 (k w) (b * w) (cos g) g t -> b * t / tau < T w.
Proof.
  intros HV HN HP HD Hs Hb HA H0 V roc HR HL Ht HK.
  destruct (ceiling_balance ext c map2sl v ws HV HN HP spd h b cd0 s s0 tau k HD Hs Hb HA H0 HR HL
    (fun w I => proj1 (HK w I))) as (T & E & F). fold V roc in F.
  exists T. split; [exact E|]. intros w t g I Hg HS HB.
  pose proof HA as (_ & _ & _ & RP & _). pose proof H0 as (_ & _ & _ & RP0 & _).
  assert (HVp : 0 < V) by (apply true_pos; try assumption; unfold knots; lra).
  assert (HRp : 0 < roc) by (apply true_pos; try assumption; unfold feet_per_min; lra).
  pose proof (q_pos V s RP HVp) as Hq.
  destruct (F w I) as ((t1 & g1 & ET & Hg1 & HS1 & _ & t' & HB' & ED) & _).
  pose proof PI_RGT_0. assert (SE : sin g = sin g1) by (apply (Rmult_eq_reg_l V); lra).
  assert (g = g1) as ->.
  { destruct (Rtotal_order g g1) as [L|[L|L]]; [|exact L|].
    - pose proof (sin_increasing_1 g g1). lra.
    - pose proof (sin_increasing_1 g1 g). lra. }
  pose proof (HP w I) as Hw.
  assert (t = t') as ->.
  { unfold drag_balance in HB, HB'. apply (Rmult_eq_reg_r (b * w)); [lra|nra]. }
  rewrite ET. apply Rmult_lt_compat_r; [apply Rinv_0_lt_compat; exact Ht|]. apply Rmult_lt_compat_l; [exact Hb|].
  assert (0 < sin g1) by (apply (Rmult_lt_reg_l V); lra).
  assert (0 < k w * (b * w) / dyn_press V s * sin g1 ^ 2).
  { pose proof (proj2 (HK w I)). apply Rmult_lt_0_compat; [apply Rdiv_lt_0_compat; [|exact Hq]|apply pow_lt; assumption].
    repeat apply Rmult_lt_0_compat; assumption. }
  lra.
Qed.

(** ** Power *)
Lemma power_balance ext c v m fo map2sl r eto etn ecl ecr ese vcl hcl vse hse vtn vcr s s' s0 :
  etaprop_to c = Some (Fin eto) /\ etaprop_turn c = Some (Fin etn) /\ etaprop_climb c = Some (Fin ecl) /\
  etaprop_cruise c = Some (Fin ecr) /\ etaprop_sec c = Some (Fin ese) ->
  eto <> 0 /\ etn <> 0 /\ ecl <> 0 /\ ecr <> 0 /\ ese <> 0 ->
  climbspeed_kias c = Some (Fin vcl) -> climbalt_m c = Some (Fin hcl) -> air_at c hcl s ->
  secclimbspd_kias c = Some (Fin vse) -> servceil_m c = Some (Fin hse) -> air_at c hse s' -> air_at c 0 s0 ->
  turnspeed_ktas c = Some (Fin vtn) -> cruisespeed_ktas c = Some (Fin vcr) ->
  powerrequired ext c v (Fin m) fo map2sl = Ok r ->
  let sp x := VNum (Fin (knots x)) in
  exists tw kto ktn kcl kcr kse,
    twrequired ext c v fo false = Ok tw /\
    power_corr ext c map2sl (rq_liftoffspeed tw) (pval (rwyelevation_m c)) kto /\
    power_corr ext c map2sl (sp vtn) (pval (turnalt_m c)) ktn /\
    power_corr ext c map2sl (sp (true_speed vcl s s0)) (Fin hcl) kcl /\
    power_corr ext c map2sl (sp vcr) (pval (cruisealt_m c)) kcr /\
    power_corr ext c map2sl (sp (true_speed vse s' s0)) (Fin hse) kse /\
    powers m eto (rq_takeoff tw) (rq_liftoffspeed tw) kto (rq_takeoff r) /\
    powers m etn (rq_turn tw) (sp vtn) ktn (rq_turn r) /\
    powers m etn (rq_turnfeasible tw) (sp vtn) ktn (rq_turnfeasible r) /\
    powers m ecl (rq_climb tw) (sp (true_speed vcl s s0)) kcl (rq_climb r) /\
    powers m ecr (rq_cruise tw) (sp vcr) kcr (rq_cruise r) /\
    powers m ese (rq_servceil tw) (sp (true_speed vse s' s0)) kse (rq_servceil r).
Proof.
  intros HE HZ C1 C2 CA S1 S2 SA A0 TN CR H sp.
  destruct (power_parts ext c v m fo map2sl r eto etn ecl ecr ese HE HZ H)
    as (tw & vclm & vsec & kto & ktn & kcl & kcr & kse & ETW & _ & _ & _ & T1 & T2 & P).
  rewrite C1, C2 in T1. rewrite S1, S2 in T2. cbn [pval] in T1, T2.
  rewrite (tas_air c hcl s CA s0 _ A0) in T1. rewrite (tas_air c hse s' SA s0 _ A0) in T2.
  injection T1 as <-. injection T2 as <-. rewrite C2, S2, TN, CR in P. cbn [pval] in P. rewrite !knots_fin in P.
  exists tw, kto, ktn, kcl, kcr, kse. split; [exact ETW|]. tauto.
Qed.
Lemma power_envelope ext c v m fo map2sl r eto etn ecl ecr ese :
  etaprop_to c = Some (Fin eto) /\ etaprop_turn c = Some (Fin etn) /\ etaprop_climb c = Some (Fin ecl) /\
  etaprop_cruise c = Some (Fin ecr) /\ etaprop_sec c = Some (Fin ese) ->
  eto <> 0 /\ etn <> 0 /\ ecl <> 0 /\ ecr <> 0 /\ ese <> 0 ->
  powerrequired ext c v (Fin m) fo map2sl = Ok r ->
  forall i x, nth_error (elements (rq_combined r)) i = Some x ->
  exists t u cl cr se, nth_error (elements (rq_takeoff r)) i = Some t /\
    nth_error (elements (chosen_turn fo r)) i = Some u /\ nth_error (elements (rq_climb r)) i = Some cl /\
    nth_error (elements (rq_cruise r)) i = Some cr /\ nth_error (elements (rq_servceil r)) i = Some se /\
    envelope [t; u; cl; cr; se] x.
Proof.
  intros HE HZ H.
  destruct (power_parts ext c v m fo map2sl r eto etn ecl ecr ese HE HZ H)
    as (tw & vclm & vsec & kto & ktn & kcl & kcr & kse & P).
  cbv zeta in P. decompose [and] P. match goal with X : npmax5 _ _ _ _ _ = _ |- _ => exact (proj2 (npmax5_envelope _ _ _ _ _ _ X)) end.
Qed.

(** ** Stall speeds *)
Lemma isa_air c o h : designatm c = isa o -> h <= 50000 -> 0 < std_temp h + o -> 
  air_at c h {| a_rho := exp (ld h) * std_temp h / (std_temp h + o); a_temp := std_temp h + o; a_press := exp (lp h) |}.
Proof.
  intros E H T. unfold air_at. rewrite E. cbn [a_rho a_temp a_press].
  rewrite airdens_isa, airtemp_isa, airpress_isa by lra. repeat split; try assumption.
  destruct (isa_dens_pos o h H T) as (d & D & P). rewrite airdens_isa in D by lra. injection D as <-. exact P.
Qed.
Lemma std_temp_0 : std_temp 0 = 288.15.
Proof. unfold std_temp, climb. rewrite !Rmin_left by lra. rewrite !Rmax_left by lra. lra. Qed.

Lemma stall_isa c o cl v : designatm c = isa o -> -288.15 < o -> clmaxclean c = Some (Fin cl) ->
  vstallclean_kcas c = Some (Fin v) -> 0 < cl -> 0 < v ->
  exists W, wsmaxcleanstall_pa c = Ok (Fin W) /\
    vstall_kias c (VNum (Fin W)) (ClNum (Fin cl)) = Ok (Fin (v * (0.5144444 * 1.9438445) * sqrt (288.15 / (288.15 + o)))).
Proof.
  intros E Ho E1 E2 Hc Hv. pose proof std_temp_0 as T0.
  pose proof (isa_air c o 0 E ltac:(lra) ltac:(lra)) as HA. rewrite T0 in HA.
  destruct (stall_roundtrip c cl v _ E1 E2 Hc Hv HA) as (W & A & _ & _ & B & _). cbn [a_rho] in B.
  exists W. split; [exact A|]. rewrite B. do 4 f_equal. unfold rho_isa. field.
  pose proof (exp_pos (ld 0)). repeat split; lra.
Qed.
Lemma stall_standard c cl v : designatm c = isa 0 -> clmaxclean c = Some (Fin cl) ->
  vstallclean_kcas c = Some (Fin v) -> 0 < cl -> 0 < v ->
  exists W u, wsmaxcleanstall_pa c = Ok (Fin W) /\ vstall_kias c (VNum (Fin W)) (ClNum (Fin cl)) = Ok (Fin u) /\
    Rabs (u / v - 1) <= 1e-7.
Proof.
  intros E E1 E2 Hc Hv. destruct (stall_isa c 0 cl v E ltac:(lra) E1 E2 Hc Hv) as (W & A & B).
  exists W. eexists. split; [exact A|]. split; [exact B|]. replace (288.15 / (288.15 + 0)) with 1 by (rewrite Rplus_0_r; symmetry; apply Rinv_r; lra).
  rewrite sqrt_1. replace (v * (0.5144444 * 1.9438445) * 1 / v) with (0.5144444 * 1.9438445) by (field; lra).
  apply Rabs_le. lra.
Qed.
Lemma stall_hot_day c o cl v : designatm c = isa o -> 0 < o -> clmaxclean c = Some (Fin cl) ->
  vstallclean_kcas c = Some (Fin v) -> 0 < cl -> 0 < v ->
  exists W u, wsmaxcleanstall_pa c = Ok (Fin W) /\ vstall_kias c (VNum (Fin W)) (ClNum (Fin cl)) = Ok (Fin u) /\
    u < v /\ (15 <= o -> u < 0.976 * v).
Proof.
  intros E Ho E1 E2 Hc Hv. destruct (stall_isa c o cl v E ltac:(lra) E1 E2 Hc Hv) as (W & A & B).
  exists W. eexists. split; [exact A|]. split; [exact B|].
  assert (P : 0 < 288.15 / (288.15 + o)) by (apply Rdiv_lt_0_compat; lra).
  assert (L : forall b, 0 < b -> 288.15 / (288.15 + o) < b * b -> sqrt (288.15 / (288.15 + o)) < b).
  { intros b Hb Q. rewrite <- (sqrt_square b) by lra. apply sqrt_lt_1; nra. }
  assert (LT : forall x, 288.15 < x * (288.15 + o) -> 288.15 / (288.15 + o) < x).
  { intros x Q. apply (Rmult_lt_reg_r (288.15 + o)); [lra|]. unfold Rdiv. rewrite Rmult_assoc, Rinv_l; lra. }
  pose proof (sqrt_lt_R0 _ P) as SP. split.
  - specialize (L 1 ltac:(lra) ltac:(apply LT; lra)). nra.
  - intros H15. specialize (L 0.976 ltac:(lra)). specialize (L ltac:(apply LT; nra)). nra.
Qed.

(** ** Static thrust *)
Lemma static_inapplicable c : bpr c = None \/ (exists b, bpr c = Some (Fin b) /\ b <= 1) -> map2static c = Fin 1.
Proof.
  intros [H|(b & H & L)].
  - unfold map2static. rewrite H. cbn [pval]. rewrite nltb_fin, Rltb_false by lra. reflexivity.
  - rewrite (map2static_fin c b H). unfold static_factor. destruct (Rlt_dec 1 b); [lra|reflexivity].
Qed.
Lemma static_applicable c b : bpr c = Some (Fin b) -> 1 < b ->
  exists f, map2static c = Fin f /\ f = 4 / 3 * (4 + b) / (5 + b) /\ 10 / 9 < f < 4 / 3.
Proof.
  intros H L. exists (static_factor b). split; [apply map2static_fin, H|]. split; [|apply static_range, L].
  unfold static_factor. destruct (Rlt_dec 1 b); [reflexivity|lra].
Qed.
Lemma static_order c c' b b' : bpr c = Some (Fin b) -> bpr c' = Some (Fin b') -> b <= b' ->
  exists f f', map2static c = Fin f /\ map2static c' = Fin f' /\ f <= f'.
Proof.
  intros H H' L. exists (static_factor b), (static_factor b'). rewrite (map2static_fin c b H), (map2static_fin c' b' H').
  repeat split. destruct (Rlt_dec 1 b) as [A|A].
  - destruct (Rle_lt_or_eq_dec b b' L) as [Q|Q]; [left; apply static_increasing; lra|rewrite Q; right; reflexivity].
  - destruct (Rlt_dec 1 b') as [B|B].
    + pose proof (static_range b' B). unfold static_factor at 1. destruct (Rlt_dec 1 b); lra.
    + unfold static_factor. destruct (Rlt_dec 1 b); [lra|]. destruct (Rlt_dec 1 b'); lra.
Qed.

(** ** Ground effect *)
Lemma wig_value c h : wingheightratio c = Some (Fin h) ->
  exists f, wigfactor c = Fin f /\ f = (16 * h) ^ 2 / (1 + (16 * h) ^ 2) /\ 0 <= f < 1 /\ (f = 0 <-> h = 0) /\
    forall k, 0 <= k -> 0 <= f * k <= k.
Proof.
  intros H. exists (1 - / (1 + (16 * h) ^ 2)). unfold wigfactor. rewrite H. cbn [pval]. rewrite wig_fin.
  pose proof (wig_range h) as WR. pose proof (pow2_ge_0 (16 * h)). repeat split; try apply WR; try reflexivity.
  - field. lra.
  - intros E. assert (EI : / (1 + (16 * h) ^ 2) = 1) by lra.
    assert (1 + (16 * h) ^ 2 = 1) by (rewrite <- (Rinv_inv (1 + (16 * h) ^ 2)), EI; lra).
    assert ((16 * h) ^ 2 = 0) as Q by lra. apply Rsqr_0_uniq. unfold Rsqr. simpl in Q. lra.
  - intros ->. replace (16 * 0) with 0 by lra. simpl. field.
  - apply Rmult_le_pos; lra.
  - nra.
Qed.
Lemma wig_order c c' h h' : wingheightratio c = Some (Fin h) -> wingheightratio c' = Some (Fin h') -> 0 <= h < h' ->
  exists f f', wigfactor c = Fin f /\ wigfactor c' = Fin f' /\ f < f'.
Proof.
  intros H H' L. do 2 eexists. unfold wigfactor. rewrite H, H'. cbn [pval]. rewrite !wig_fin.
  split; [reflexivity|]. split; [reflexivity|]. apply wig_increasing, L.
Qed.

(** ** Turn radius *)
Lemma turn_radius_value c v deg : turnspeed_ktas c = Some (Fin v) -> 0 < deg < 90 -> 0 < v ->
  exists r n, bank2turnradius c (Fin deg) = Fin r /\ 0 < r /\
    r * (gravity * tan (deg * PI / 180)) = knots v ^ 2 /\
    n * cos (deg * PI / 180) = 1 /\ r * (gravity * sqrt (n ^ 2 - 1)) = knots v ^ 2.
Proof.
  intros H D Hv. destruct (turn_radius c v deg H D) as (E & T & C). set (phi := deg * PI / 180) in *.
  assert (G : 0 < gravity) by (unfold gravity; lra). assert (K : 0 < knots v ^ 2) by (apply pow_lt; unfold knots; lra).
  exists (knots v ^ 2 / (gravity * tan phi)), (/ cos phi). split; [exact E|].
  assert (0 < gravity * tan phi) by (apply Rmult_lt_0_compat; assumption).
  split; [apply Rdiv_lt_0_compat; assumption|]. split; [field; lra|]. split; [field; lra|].
  replace (sqrt ((/ cos phi) ^ 2 - 1)) with (tan phi); [field; split; lra|].
  symmetry. apply sqrt_lem_1; [|lra|].
  - pose proof (COS_bound phi). assert (1 <= / cos phi) by (rewrite <- Rinv_1; apply Rinv_le_contravar; lra). nra.
  - unfold tan. pose proof (sin2_cos2 phi) as SC. unfold Rsqr in SC.
    replace (sin phi / cos phi * (sin phi / cos phi)) with ((sin phi * sin phi) / (cos phi * cos phi)) by (field; lra).
    replace (sin phi * sin phi) with (1 - cos phi * cos phi) by lra. field. lra.
Qed.
Lemma turn_radius_decreases c v d d' : turnspeed_ktas c = Some (Fin v) -> 0 < v -> 0 < d < d' -> d' < 90 ->
  exists r r', bank2turnradius c (Fin d) = Fin r /\ bank2turnradius c (Fin d') = Fin r' /\ r' < r.
Proof.
  intros H Hv D D'. destruct (turn_radius c v d H ltac:(lra)) as (E & T & C).
  destruct (turn_radius c v d' H ltac:(lra)) as (E' & T' & C').
  do 2 eexists. split; [exact E|]. split; [exact E'|].
  assert (G : 0 < gravity) by (unfold gravity; lra). assert (K : 0 < knots v ^ 2) by (apply pow_lt; unfold knots; lra).
  pose proof PI_RGT_0 as P.
  assert (TI : tan (d * PI / 180) < tan (d' * PI / 180)) by (apply tan_increasing; nra).
  apply Rmult_lt_compat_l; [exact K|]. apply Rinv_lt_contravar; [apply Rmult_lt_0_compat; apply Rmult_lt_0_compat; assumption|].
  apply Rmult_lt_compat_l; assumption.
Qed.

(** ** Sea level corrections of engine decks, and rejected engines *)
Lemma slcorr_rejects ext c speed alt b : propulsion c = PropFalse -> bpr c = Some (Fin b) -> b < -3 ->
  propulsion_slcorr ext c speed alt = Err ValueError.
Proof.
  intros HP HB L. unfold propulsion_slcorr, sl_propulsion. rewrite HP, HB. cbn [pval].
  unfold neqb. rewrite !nleb_fin, nltb_fin. rewrite !Rleb_false by lra. rewrite !Reqb_false by lra. reflexivity.
Qed.
Lemma slcorr_negative_jet ext c h s V b : propulsion c = PropStr "jet" -> bpr c = Some (Fin b) -> b < 0 -> air_at c h s ->
  propulsion_slcorr ext c (VNum (Fin V)) (Fin h) = Err ValueError.
Proof.
  intros HP HB L HA. unfold propulsion_slcorr, sl_propulsion. rewrite HP. cbn [rbind].
  rewrite (mach_air c h s HA). cbn [rbind recastasnpfloatarray].
  pose proof HA as (D & T & P & _). unfold airtemp_c. rewrite T. cbn [rbind vlit as1]. rewrite P. cbn [rbind as1].
  unfold dens_at. rewrite D. cbn [rbind as1 mapM]. unfold generic_tcorr at 1. cbn [String.eqb Ascii.eqb Bool.eqb].
  rewrite HB. cbn [pval]. unfold neqb. rewrite Reqb_false by lra. rewrite nltb_fin, Rltb_false by lra.
  cbn [andb]. rewrite nleb_fin, Rleb_false by lra. reflexivity.
Qed.
Lemma slcorr_decks ext c h s V : air_at c h s -> let m := Fin (mach_no V s) in
  (forall f, propulsion c = PropJet f ->
     propulsion_slcorr ext c (VNum (Fin V)) (Fin h) = Ok (VArr [f m (Fin h)], VArr [Fin 1])) /\
  (forall f, propulsion c = PropTurboprop f ->
     propulsion_slcorr ext c (VNum (Fin V)) (Fin h) = Ok (VArr [Fin 1], VArr [f m (Fin h)])) /\
  (propulsion c = PropElectric ->
     propulsion_slcorr ext c (VNum (Fin V)) (Fin h) = Ok (VNum (Fin 1), VNum (Fin 1))) /\
  (forall rpms alts f, propulsion c = PropPiston rpms alts f -> rpms <> [] ->
     exists top, (In top rpms /\ forall x, In x rpms -> x <= top) /\
     exists l, propulsion_slcorr ext c (VNum (Fin V)) (Fin h) = Ok (VArr [Fin 1], VArr l) /\ l <> [] /\
       forall x, In x l -> x = f (Fin top) (Fin h)).
Proof.
  intros HA m. unfold propulsion_slcorr, sl_propulsion. rewrite (mach1_air c h s HA). repeat split.
  - intros f ->. reflexivity.
  - intros f ->. reflexivity.
  - intros ->. reflexivity.
  - intros rpms alts f -> N. cbn [rbind recastasnpfloatarray map].
    destruct rpms as [|a l]; [contradiction|]. cbn [pymax rbind].
    assert (M : forall l a, In (fold_left Rmax l a) (a :: l) /\ forall x, In x (a :: l) -> x <= fold_left Rmax l a).
    { clear. induction l as [|b l IH]; intros a; cbn [fold_left].
      - split; [left; reflexivity|]. intros x [<-|[]]. lra.
      - destruct (IH (Rmax a b)) as (A & B). split.
        + destruct A as [A|A]; [|right; right; exact A]. rewrite <- A. unfold Rmax. destruct (Rle_dec a b); [right; left|left]; reflexivity.
        + pose proof (B (Rmax a b) (or_introl eq_refl)). pose proof (Rmax_l a b). pose proof (Rmax_r a b).
          intros x [<-|[<-|I]]; [lra|lra|]. apply B. right; exact I. }
    destruct (M l a) as (M1 & M2). set (top := fold_left Rmax l a) in *. exists top. split; [split; assumption|].
    eexists. split; [reflexivity|]. split.
    + intros E. assert (I : In (f (Fin top) (Fin h)) (map (fun r => f (Fin r) (Fin h)) (filter (Reqb top) (a :: l)))).
      { apply (in_map (fun r => f (Fin r) (Fin h))), filter_In. split; [exact M1|]. apply Reqb_true. reflexivity. }
      rewrite E in I. exact I.
    + intros x I. apply in_map_iff in I. destruct I as (r & <- & I). apply filter_In in I. destruct I as (_ & I).
      unfold Reqb in I. destruct (Req_EM_T top r) as [->|]; [reflexivity|discriminate].
Qed.
