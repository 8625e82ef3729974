(** Take-off, missing items, envelopes, power, stall, ground effect. *)
From Verif Require Import Base BaseFacts AnalysisFacts UnitsModel AtmosModel AtmosSpec AtmosProofs AtmosProofs2
  ConceptModel ConceptProofs MethodsModel MethodsSpec MethodsProofs MethodsProofs2
  MethodsProofs3 MethodsProofs4 ConstraintSpec ConstraintProofs ConstraintProofs2 ConstraintProofs3.
Open Scope R_scope.

Lemma elements_revert l : elements (reverttoscalar (VArr l)) = l.
Proof. destruct l as [|x [|y l]]; reflexivity. Qed.

(** ** take-off *)
Lemma takeoff1_fin c d h clmax cd cl mu b rho w :
  takeoff_data c d h clmax cd cl mu b -> 0 < d -> 0 < clmax -> cl <> 0 -> 0 < rho -> 0 < w ->
  exists t L, takeoff1 c (Fin rho) (Fin w) = (Fin t, Fin L) /\ liftoff_speed w rho clmax L /\
    ground_run t L d cd cl mu.
Proof.
  intros (E1 & E2 & E3 & E4 & E5 & E6 & E7) Hd Hc Hcl Hr Hw.
  unfold takeoff1. rewrite E1, E3, E4, E5, E6. cbn [pval]. rewrite !nmul_fin.
  assert (P : 0 < 2 * w / (rho * clmax)) by (apply Rdiv_lt_0_compat; nra).
  rewrite (ndiv_fin (2 * w)) by nra. rewrite nsqrt_fin by lra. rewrite nmul_fin.
  set (vs := sqrt (2 * w / (rho * clmax))) in *.
  assert (V2 : vs * vs = 2 * w / (rho * clmax)) by (apply sqrt_sqrt; lra).
  assert (V0 : 0 <= vs) by apply sqrt_pos.
  unfold sc_g. rewrite !nmul_fin, npown_fin. rewrite (ndiv_fin _ (2 * 9.80665 * d)) by nra.
  rewrite (ndiv_fin _ cl) by exact Hcl. rewrite !nadd_fin.
  eexists _, _. split; [reflexivity|]. split.
  - split; [lra|]. exists vs. split; [reflexivity|]. replace (vs ^ 2) with (vs * vs) by ring. rewrite V2.
    field. split; lra.
  - unfold ground_run, gravity.
    assert (G : forall g, 0 < g -> forall v, v ^ 2 / 2 = g * d * (v ^ 2 / (2 * g * d) + 0.5 * cd / cl + 0.5 * mu - cd / cl * (1 / 2) - mu * (1 - 1 / 2))).
    { intros g Hg v. replace (0.5 * cd / cl) with (cd / cl * (1 / 2)) by lra.
      replace (0.5 * mu) with (mu * (1 - 1 / 2)) by lra. field. repeat split; lra. }
    apply G. lra.
Qed.

Lemma takeoff_speed_unique w rho clmax L L' : 0 < rho -> 0 < clmax ->
  liftoff_speed w rho clmax L -> liftoff_speed w rho clmax L' -> L = L'.
Proof.
  intros Hr Hc (P & vs & -> & E) (P' & vs' & -> & E').
  assert (0 < rho * clmax) by nra. assert (vs ^ 2 = vs' ^ 2) by nra.
  assert (vs * vs = vs' * vs') by (simpl in *; lra). f_equal. nra.
Qed.

Lemma map2static_fin c b : bpr c = Some (Fin b) -> map2static c = Fin (static_factor b).
Proof.
  intros E. unfold map2static, static_factor. rewrite E. cbn [pval]. rewrite nltb_fin.
  destruct (Rltb_reflect 1 b) as [L|L]; destruct (Rlt_dec 1 b); try lra; [|reflexivity].
  nfin. all: try lra. reflexivity.
Qed.

Lemma takeoff_balance ext c (map2sl : bool) v ws d h clmax cd cl mu b s (tau : R -> R) :
  elements v = map Fin ws -> (forall w, In w ws -> 0 < w) ->
  takeoff_data c d h clmax cd cl mu b -> 0 < d -> 0 < clmax -> cl <> 0 -> air_at c h s ->
  (forall w L, In w ws -> liftoff_speed w (a_rho s) clmax L ->
     if map2sl then lapse ext c true L h (tau w) else tau w = 1) ->
  exists (T L : R -> R), twrequired_to ext c v map2sl = Ok (results ws T, results ws L, results ws (fun w => L w / sqrt 2)) /\
  forall w, In w ws -> liftoff_speed w (a_rho s) clmax (L w) /\
    exists t, T w = static_factor b * t / tau w /\ ground_run t (L w) d cd cl mu.
Proof.
  intros HV HP HD Hd Hc Hcl HA HL. pose proof HD as (E1 & E2 & E3 & E4 & E5 & E6 & E7).
  pose proof HA as (_ & _ & _ & RP & _).
  set (vl := fun w => 1.1 * sqrt (2 * w / (a_rho s * clmax))).
  set (tw := fun w => vl w ^ 2 / (2 * 9.80665 * d) + 0.5 * cd / cl + 0.5 * mu).
  assert (K : forall w, 0 < w -> takeoff1 c (Fin (a_rho s)) (Fin w) = (Fin (tw w), Fin (vl w)) /\
      liftoff_speed w (a_rho s) clmax (vl w) /\ ground_run (tw w) (vl w) d cd cl mu).
  { intros w Hw. destruct (takeoff1_fin c d h clmax cd cl mu b (a_rho s) w HD Hd Hc Hcl RP Hw) as (t & L & E & A & B).
    assert (E' : takeoff1 c (Fin (a_rho s)) (Fin w) = (Fin (tw w), Fin (vl w))).
    { unfold takeoff1. rewrite E1, E3, E4, E5, E6. cbn [pval]. rewrite !nmul_fin.
      rewrite (ndiv_fin (2 * w)) by nra.
      assert (P : 0 < 2 * w / (a_rho s * clmax)) by (apply Rdiv_lt_0_compat; nra).
      rewrite nsqrt_fin by lra. unfold sc_g. rewrite !nmul_fin, npown_fin.
      rewrite (ndiv_fin _ (2 * 9.80665 * d)) by nra. rewrite (ndiv_fin _ cl) by exact Hcl. rewrite !nadd_fin. reflexivity. }
    rewrite E in E'. injection E' as -> ->. repeat split; try exact E; try apply A; exact B. }
  exists (fun w => static_factor b * tw w / tau w), vl. split.
  - unfold twrequired_to. rewrite E1. cbn [required rbind]. rewrite E2. cbn [pval].
    rewrite (dens_air c h s HA). cbn [rbind]. rewrite (recast_ws v ws HV).
    assert (M : map (takeoff1 c (Fin (a_rho s))) (map Fin ws) = map (fun w => (Fin (tw w), Fin (vl w))) ws).
    { rewrite map_map. apply map_ext_in. intros w I. apply K, HP, I. }
    rewrite M. rewrite (map2static_fin c b E7).
    match goal with |- context [mapM ?F _] => set (G := F) end.
    assert (MM : mapM G (map (fun w => (Fin (tw w), Fin (vl w))) ws)
       = Ok (map (fun w => Fin (static_factor b * tw w / tau w)) ws)).
    { clear M HV. induction ws as [|w l IH]; cbn [map mapM]; [reflexivity|].
      assert (GW : G (Fin (tw w), Fin (vl w)) = Ok (Fin (static_factor b * tw w / tau w))).
      { unfold G. cbn [fst snd]. pose proof (HL w (vl w) (or_introl eq_refl)) as L.
        specialize (L (proj1 (proj2 (K w (HP w (or_introl eq_refl)))))). rewrite nmul_fin. destruct map2sl.
        - destruct L as (tc & pc & E & N & TC). rewrite E. cbn [rbind fst].
          assert (AS : as1 tc = Ok (Fin (tau w))) by (destruct TC as [-> | ->]; reflexivity).
          rewrite AS. cbn [rbind]. rewrite ndiv_fin by exact N. reflexivity.
        - rewrite L. f_equal. apply Fin_eq. field. }
      rewrite GW. cbn [rbind]. rewrite IH; [reflexivity| |].
      - intros x I. apply HP. right; exact I.
      - intros x L I. apply HL. right; exact I. }
    rewrite MM. cbn [rbind]. unfold results. rewrite !map_map. cbn [snd].
    do 2 f_equal. do 2 f_equal. apply map_ext. intros w. rewrite nsqrt_fin by lra.
    rewrite ndiv_fin; [reflexivity|]. apply Rgt_not_eq, sqrt_lt_R0. lra.
  - intros w I. destruct (K w (HP w I)) as (_ & A & B). split; [exact A|].
    exists (tw w). split; [reflexivity|exact B].
Qed.

Lemma takeoff_pointwise ext c map2sl v1 v2 t1 l1 a1 t2 l2 a2 :
  twrequired_to ext c v1 map2sl = Ok (t1, l1, a1) -> twrequired_to ext c v2 map2sl = Ok (t2, l2, a2) ->
  forall i j x, nth_error (elements v1) i = Some x -> nth_error (elements v2) j = Some x ->
  nth_error (elements t1) i = nth_error (elements t2) j /\ nth_error (elements l1) i = nth_error (elements l2) j /\
  nth_error (elements a1) i = nth_error (elements a2) j /\ nth_error (elements t1) i <> None.
Proof.
  unfold twrequired_to. intros H1 H2.
  apply rbind_ok in H1. destruct H1 as (g & _ & H1). apply rbind_ok in H2. destruct H2 as (g2 & _ & H2).
  apply rbind_ok in H1. destruct H1 as (d & D & H1). apply rbind_ok in H2. destruct H2 as (d2 & D2 & H2).
  rewrite D in D2. injection D2 as <-.
  apply rbind_ok in H1. destruct H1 as (tw1 & M1 & H1). apply rbind_ok in H2. destruct H2 as (tw2 & M2 & H2).
  assert (Q : forall A B C (a a' : A) (b b' : B) (c0 c' : C), Ok (a, b, c0) = Ok (a', b', c') -> a' = a /\ b' = b /\ c' = c0)
    by (intros * [= -> -> ->]; auto).
  apply Q in H1, H2. destruct H1 as (-> & -> & ->). destruct H2 as (-> & -> & ->).
  intros i j x I J. rewrite !elements_revert.
  assert (R1 : recastasnpfloatarray v1 = elements v1) by (destruct v1; reflexivity).
  assert (R2 : recastasnpfloatarray v2 = elements v2) by (destruct v2; reflexivity).
  rewrite R1 in *. rewrite R2 in *.
  assert (P1 : nth_error (map (takeoff1 c d) (elements v1)) i = Some (takeoff1 c d x)) by (apply map_nth_error, I).
  assert (P2 : nth_error (map (takeoff1 c d) (elements v2)) j = Some (takeoff1 c d x)) by (apply map_nth_error, J).
  destruct (mapM_nth _ _ _ _ _ M1 P1) as (y1 & Y1 & G1). destruct (mapM_nth _ _ _ _ _ M2 P2) as (y2 & Y2 & G2).
  rewrite G1 in G2. injection G2 as <-. rewrite Y1, Y2. split; [reflexivity|].
  rewrite !(map_nth_error _ _ _ (map_nth_error snd _ _ P1)), !(map_nth_error _ _ _ (map_nth_error snd _ _ P2)).
  rewrite (map_nth_error snd _ _ P1), (map_nth_error snd _ _ P2). repeat split. discriminate.
Qed.

(** ** missing items *)
Lemma missing_items ext c v map2sl :
  (groundrun_m c = None -> twrequired_to ext c v map2sl = Err ValueError) /\
  (turnspeed_ktas c = None \/ stloadfactor c = None -> twrequired_trn ext c v map2sl = Err ValueError) /\
  (climbspeed_kias c = None \/ climbrate_fpm c = None -> twrequired_clm ext c v map2sl = Err ValueError) /\
  (cruisespeed_ktas c = None \/ cruisealt_m c = None -> twrequired_crs ext c v map2sl = Err ValueError) /\
  (servceil_m c = None \/ secclimbspd_kias c = None -> twrequired_sec ext c v map2sl = Err ValueError).
Proof.
  unfold twrequired_to, twrequired_trn, twrequired_clm, twrequired_crs, twrequired_sec.
  split; [|split; [|split; [|split]]].
  - intros ->. reflexivity.
  - intros [-> | ->]; [reflexivity|]. destruct (turnspeed_ktas c); reflexivity.
  - intros [-> | ->]; [reflexivity|]. destruct (climbspeed_kias c); reflexivity.
  - intros [-> | ->]; [reflexivity|]. destruct (cruisespeed_ktas c); reflexivity.
  - intros [-> | ->]; [reflexivity|]. destruct (servceil_m c); reflexivity.
Qed.

Lemma never_defaulted ext c v fo map2sl r : twrequired ext c v fo map2sl = Ok r ->
  groundrun_m c <> None /\ turnspeed_ktas c <> None /\ stloadfactor c <> None /\ climbspeed_kias c <> None /\
  climbrate_fpm c <> None /\ cruisespeed_ktas c <> None /\ cruisealt_m c <> None /\ servceil_m c <> None /\
  secclimbspd_kias c <> None.
Proof.
  unfold twrequired. set (ws := VArr _). intros H.
  destruct (missing_items ext c ws map2sl) as (M1 & M2 & M3 & M4 & M5).
  apply rbind_ok in H. destruct H as (((a1 & a2) & a3) & T1 & H).
  apply rbind_ok in H. destruct H as (((b1 & b2) & b3) & T2 & H).
  apply rbind_ok in H. destruct H as (t3 & T3 & H). apply rbind_ok in H. destruct H as (t4 & T4 & H).
  apply rbind_ok in H. destruct H as (t5 & T5 & _).
  assert (N : forall X (y : res X) x, y = Ok x -> y <> Err ValueError) by (intros; congruence).
  apply N in T1, T2, T3, T4, T5. repeat split; intros E.
  - apply T1, M1, E.
  - apply T2, M2. left; exact E.
  - apply T2, M2. right; exact E.
  - apply T3, M3. left; exact E.
  - apply T3, M3. right; exact E.
  - apply T4, M4. left; exact E.
  - apply T4, M4. right; exact E.
  - apply T5, M5. left; exact E.
  - apply T5, M5. right; exact E.
Qed.

(** ** envelopes *)
Lemma arrmax_nth a b r : arrmax a b = Ok r -> List.length r = List.length a /\ List.length r = List.length b /\
  forall i x, nth_error r i = Some x -> exists p q, nth_error a i = Some p /\ nth_error b i = Some q /\ x = nmax p q.
Proof.
  revert b r. induction a as [|x a IH]; intros [|y b] r H; try discriminate.
  - injection H as <-. repeat split. intros [|i] x E; discriminate.
  - cbn [arrmax] in H. apply rbind_ok in H. destruct H as (r' & E & H). injection H as <-.
    destruct (IH b r' E) as (L1 & L2 & N). repeat split; [cbn; lia|cbn; lia|].
    intros [|i] z E'; cbn in *; [injection E' as <-; exists x, y; auto|]. apply N, E'.
Qed.

Lemma vmax_nth a b v : vmax a b = Ok v -> List.length (elements v) = List.length (elements a) /\
  List.length (elements v) = List.length (elements b) /\
  forall i x, nth_error (elements v) i = Some x ->
  exists p q, nth_error (elements a) i = Some p /\ nth_error (elements b) i = Some q /\ x = nmax p q.
Proof.
  destruct a as [x|l|l], b as [y|m|m]; intros H; try discriminate.
  - injection H as <-. repeat split. intros [|[|i]] z E; try discriminate. injection E as <-. exists x, y; auto.
  - cbn [vmax] in H. destruct (arrmax l m) as [r|] eqn:E; [|discriminate]. injection H as <-.
    apply (arrmax_nth _ _ _ E).
Qed.

Lemma nmax_envelope l p q : envelope l p -> envelope (l ++ [q]) (nmax p q).
Proof.
  intros [(I & ->)|(N & I & M)].
  - left. split; [apply in_or_app; left; exact I|reflexivity].
  - destruct q as [q|].
    + destruct p as [p|]; [|contradiction]. right. split; [|split].
      * intros J. apply in_app_or in J. destruct J as [J|[J|[]]]; [contradiction|discriminate].
      * cbn. unfold Rmax. destruct (Rle_dec p q); apply in_or_app; [right; left; reflexivity|left; exact I].
      * cbn. intros x y J [= <-]. apply in_app_or in J. destruct J as [J|[J|[]]].
        -- apply Rle_trans with p; [apply (M x p J eq_refl)|apply Rmax_l].
        -- injection J as <-. apply Rmax_r.
    + left. split; [apply in_or_app; right; left; reflexivity|]. destruct p; reflexivity.
Qed.

Lemma npmax5_envelope a b d e f v : npmax5 a b d e f = Ok v ->
  (List.length (elements v) = List.length (elements a) /\ List.length (elements v) = List.length (elements b) /\
   List.length (elements v) = List.length (elements d) /\ List.length (elements v) = List.length (elements e) /\
   List.length (elements v) = List.length (elements f)) /\
  forall i x, nth_error (elements v) i = Some x -> exists xa xb xd xe xf,
    nth_error (elements a) i = Some xa /\ nth_error (elements b) i = Some xb /\ nth_error (elements d) i = Some xd /\
    nth_error (elements e) i = Some xe /\ nth_error (elements f) i = Some xf /\ envelope [xa; xb; xd; xe; xf] x.
Proof.
  unfold npmax5. intros H.
  apply rbind_ok in H. destruct H as (v1 & E1 & H). apply rbind_ok in H. destruct H as (v2 & E2 & H).
  apply rbind_ok in H. destruct H as (v3 & E3 & H).
  destruct (vmax_nth _ _ _ E1) as (A1 & B1 & N1). destruct (vmax_nth _ _ _ E2) as (A2 & B2 & N2).
  destruct (vmax_nth _ _ _ E3) as (A3 & B3 & N3). destruct (vmax_nth _ _ _ H) as (A4 & B4 & N4).
  split; [repeat split; congruence|].
  intros i x X. destruct (N4 i x X) as (p3 & xf & P3 & XF & ->). destruct (N3 i p3 P3) as (p2 & xe & P2 & XE & ->).
  destruct (N2 i p2 P2) as (p1 & xd & P1 & XD & ->). destruct (N1 i p1 P1) as (xa & xb & XA & XB & ->).
  exists xa, xb, xd, xe, xf. repeat split; try assumption.
  apply (nmax_envelope [xa; xb; xd; xe]), (nmax_envelope [xa; xb; xd]), (nmax_envelope [xa; xb]), (nmax_envelope [xa]).
  destruct xa; [right|left; cbn; auto]. repeat split; cbn; auto.
  - intros [J|[]]; discriminate.
  - intros y z [[= <-]|[]] [= <-]. lra.
Qed.


Lemma twrequired_parts ext c v fo map2sl r : twrequired ext c v fo map2sl = Ok r ->
  let ws := VArr (elements v) in
  twrequired_to ext c ws map2sl = Ok (rq_takeoff r, rq_liftoffspeed r, rq_avspeed r) /\
  twrequired_trn ext c ws map2sl = Ok (rq_turn r, rq_turncl r, rq_turnfeasible r) /\
  twrequired_clm ext c ws map2sl = Ok (rq_climb r) /\ twrequired_crs ext c ws map2sl = Ok (rq_cruise r) /\
  twrequired_sec ext c ws map2sl = Ok (rq_servceil r) /\
  npmax5 (rq_takeoff r) (chosen_turn fo r) (rq_climb r) (rq_cruise r) (rq_servceil r) = Ok (rq_combined r).
Proof.
  unfold twrequired. assert (R1 : recastasnpfloatarray v = elements v) by (destruct v; reflexivity).
  rewrite R1. set (ws := VArr _). intros H.
  apply rbind_ok in H. destruct H as (((a1 & a2) & a3) & T1 & H).
  apply rbind_ok in H. destruct H as (((b1 & b2) & b3) & T2 & H).
  apply rbind_ok in H. destruct H as (t3 & T3 & H). apply rbind_ok in H. destruct H as (t4 & T4 & H).
  apply rbind_ok in H. destruct H as (t5 & T5 & H). apply rbind_ok in H. destruct H as (cb & C & H).
  injection H as <-. cbn. repeat split; assumption.
Qed.

Lemma combined_envelope ext c v fo map2sl r : twrequired ext c v fo map2sl = Ok r ->
  let n := List.length (elements (rq_combined r)) in
  (n = List.length (elements (rq_takeoff r)) /\ n = List.length (elements (chosen_turn fo r)) /\
   n = List.length (elements (rq_climb r)) /\ n = List.length (elements (rq_cruise r)) /\
   n = List.length (elements (rq_servceil r))) /\
  forall i x, nth_error (elements (rq_combined r)) i = Some x -> exists t u cl cr se,
    nth_error (elements (rq_takeoff r)) i = Some t /\ nth_error (elements (chosen_turn fo r)) i = Some u /\
    nth_error (elements (rq_climb r)) i = Some cl /\ nth_error (elements (rq_cruise r)) i = Some cr /\
    nth_error (elements (rq_servceil r)) i = Some se /\ envelope [t; u; cl; cr; se] x.
Proof.
  intros H. apply twrequired_parts in H. destruct H as (_ & _ & _ & _ & _ & H). apply npmax5_envelope, H.
Qed.
