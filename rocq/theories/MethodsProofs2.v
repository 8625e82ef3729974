(** Lift curve slope. *)
From Coq Require Import Machin.
From Verif Require Import Base BaseFacts AnalysisFacts UnitsModel AtmosModel ConceptModel
  MethodsModel MethodsSpec MethodsProofs.
Open Scope R_scope.

Lemma PI_bounds : 3.14 < PI < 3.142.
Proof.
  pose proof (PI_2_3_7_ineq 2) as H.
  cbv [sum_f_R0 tg_alt PI_2_3_7_tg Ratan_seq Nat.mul Nat.add pow] in H.
  cbn [INR] in H. lra.
Qed.

Ltac pos := lazymatch goal with
  | |- 0 < PI => apply PI_RGT_0
  | |- 0 < exp _ => apply exp_pos
  | |- 0 < Rpower _ _ => apply Rpower_pos
  | _ => first [ assumption | lra
     | lazymatch goal with
       | |- 0 < _ * _ => apply Rmult_lt_0_compat; pos
       | |- 0 < _ / _ => apply Rdiv_lt_0_compat; pos
       | |- 0 < sqrt _ => apply sqrt_lt_R0; pos
       | |- 0 < _ ^ _ => apply pow_lt; pos
       | |- 0 < _ + _ => first [ apply Rplus_lt_0_compat; pos
                               | apply Rplus_lt_le_0_compat; [pos | nneg]
                               | apply Rplus_le_lt_0_compat; [nneg | pos] ]
       end ]
  end
with nneg := lazymatch goal with
  | |- 0 <= _ ^ 2 => apply pow2_ge_0
  | |- 0 <= sqrt _ => apply sqrt_pos
  | |- 0 <= Rabs _ => apply Rabs_pos
  | _ => first [ assumption | lra
     | lazymatch goal with
       | |- 0 <= _ * _ => apply Rmult_le_pos; nneg
       | |- 0 <= _ / _ => apply Rdiv_le_0_compat; [nneg | pos]
       | |- 0 <= _ + _ => apply Rplus_le_le_0_compat; nneg
       end
     | apply Rlt_le; pos ]
  end.
Ltac nz := first [ assumption | lra | apply Rgt_not_eq; unfold Rgt; pos ].

(** one evaluation step on a finite computation, trying every division *)
Ltac ndivs := match goal with
  | |- context [ ndiv (Fin ?a) (Fin ?b) ] => rewrite (ndiv_fin a b) by nz
  | |- context [ npow (Fin ?a) (Fin ?b) ] => rewrite (npow_fin a b) by pos
  | |- context [ msqrt (Fin ?a) ] => rewrite (msqrt_fin a) by nneg
  end.
Ltac nstep := first
  [ rewrite nadd_fin | rewrite nsub_fin | rewrite nmul_fin | rewrite nopp_fin
  | rewrite nabs_fin | rewrite npown_fin | rewrite nexp_fin | rewrite ncos_fin | ndivs ].
Ltac nrun := repeat (nstep; cbn [rbind]).

Lemma kuechemann_parts a x P : 0 < a -> 0 < P ->
  let p := 1 / (4 * (1 + Rabs x / (0.5 * PI))) in
  let n := 1 - 1 / (2 * Rpower (1 + (a / P) ^ 2) p) in
  1 / 2 < n < 1 /\ cos (PI * n) <> 0 /\ tan (PI * n) < 0 /\
  0 < 1 - PI * n * (1 / tan (PI * n)) + 4 * a * n ^ 2 / P.
Proof.
  intros Ha HP p n. pose proof PI_RGT_0 as Hpi.
  assert (Hp : 0 < p).
  { unfold p. assert (0 <= Rabs x / (0.5 * PI)) by (apply Rdiv_le_0_compat; [apply Rabs_pos|lra]).
    set (y := Rabs x / (0.5 * PI)) in *. apply Rdiv_lt_0_compat; lra. }
  assert (Hq : 0 < (a / P) ^ 2) by (apply pow_lt, Rdiv_lt_0_compat; assumption).
  assert (H1 : 1 < Rpower (1 + (a / P) ^ 2) p).
  { unfold Rpower. apply Rle_lt_trans with (exp 0); [rewrite exp_0; lra|]. apply exp_increasing.
    apply Rmult_lt_0_compat; [exact Hp|]. set (z := (a / P) ^ 2) in *.
    apply Rle_lt_trans with (ln 1); [rewrite ln_1; lra|]. apply ln_increasing; lra. }
  set (X := Rpower (1 + (a / P) ^ 2) p) in *.
  assert (Hn : 1 / 2 < n < 1).
  { unfold n. assert (0 < 1 / (2 * X) < 1 / 2); [|lra]. split.
    - apply Rdiv_lt_0_compat; lra.
    - apply Rmult_lt_reg_r with (2 * X); [lra|]. unfold Rdiv. rewrite Rmult_assoc, Rinv_l by lra. lra. }
  assert (Hc : cos (PI * n) < 0).
  { apply cos_lt_0; nra. }
  assert (Hs : 0 < sin (PI * n)) by (apply sin_gt_0; nra).
  assert (Ht : tan (PI * n) < 0).
  { unfold tan. apply Ropp_lt_cancel. rewrite Ropp_0.
    replace (- (sin (PI * n) / cos (PI * n))) with (sin (PI * n) / - cos (PI * n)) by (field; lra).
    apply Rdiv_lt_0_compat; lra. }
  split; [exact Hn|split; [lra|split; [exact Ht|]]].
  assert (0 < - (1 / tan (PI * n))).
  { replace (- (1 / tan (PI * n))) with (1 / - tan (PI * n)) by (field; lra).
    apply Rdiv_lt_0_compat; lra. }
  assert (0 < PI * n * - (1 / tan (PI * n))) by (apply Rmult_lt_0_compat; [nra|assumption]).
  assert (0 < 4 * a * n ^ 2 / P) by (apply Rdiv_lt_0_compat; [apply Rmult_lt_0_compat; [lra|apply pow_lt; lra]|lra]).
  lra.
Qed.

Lemma kuechemann_pos a x P : 0 < a -> 0 < P -> 0 < kuechemann a x P.
Proof.
  intros Ha HP. destruct (kuechemann_parts a x P Ha HP) as (Hn & _ & _ & HD).
  unfold kuechemann. apply Rdiv_lt_0_compat; [|exact HD].
  apply Rmult_lt_0_compat; lra.
Qed.

(** effective sweep stays below 90 degrees *)
Lemma eff_cos y X : - (PI / 2) < y < PI / 2 -> 1 <= X -> 0 < cos (y / X).
Proof.
  intros Hy HX.
  assert (A : Rabs (y / X) <= Rabs y).
  { unfold Rdiv. rewrite Rabs_mult. rewrite <- (Rmult_1_r (Rabs y)) at 2.
    apply Rmult_le_compat_l; [apply Rabs_pos|].
    rewrite Rabs_pos_eq by (apply Rlt_le, Rinv_0_lt_compat; lra).
    rewrite <- Rinv_1. apply Rinv_le_contravar; lra. }
  assert (B : Rabs y < PI / 2) by (apply Rabs_def1; lra).
  assert (C : Rabs (y / X) < PI / 2) by lra. apply Rabs_def2 in C.
  apply cos_gt_0; lra.
Qed.

Lemma Rpower_ge1 x p : 1 <= x -> 0 <= p -> 1 <= Rpower x p.
Proof.
  intros Hx Hp. unfold Rpower. apply Rle_trans with (exp 0); [rewrite exp_0; lra|].
  assert (H0 : 0 <= ln x).
  { destruct (Rle_lt_or_eq_dec 1 x Hx) as [L|E]; [|subst; rewrite ln_1; lra].
    apply Rlt_le, Rle_lt_trans with (ln 1); [rewrite ln_1; lra|apply ln_increasing; lra]. }
  assert (H : 0 <= p * ln x) by (apply Rmult_le_pos; assumption).
  destruct (Rle_lt_or_eq_dec 0 _ H) as [L|E]; [apply Rlt_le, exp_increasing; exact L|rewrite <- E; lra].
Qed.

Section Slope.
  Variables (c : concept) (w : wing) (a0 : R).
  Hypothesis HW : has_wing c w.
  Hypothesis HR : regular w.
  Hypothesis HH : half_ok w.
  Hypothesis HA : a_0i c = Some (Fin a0).
  Hypothesis Ha0 : 0 < a0.

  Lemma half_rad : - (PI / 2) < rad (w_half w) < PI / 2.
  Proof. pose proof PI_RGT_0. unfold half_ok in HH. unfold rad. nra. Qed.

  Lemma subsonic_real m : 0 <= m < 1 ->
    a_subsonic c (Fin m) = Ok (Fin (mean_of (subsonic_slopes w a0 m))) /\
    Forall (fun s => 0 < s) (subsonic_slopes w a0 m).
  Proof.
    intros Hm. destruct (regular_cos w HR) as (HAR & HLE & H25 & HMT).
    pose proof half_rad as HF.
    assert (HC5 : 0 < cos (rad (w_half w))) by (apply cos_gt_0; lra).
    pose proof PI_RGT_0 as Hpi.
    assert (HP : 0 < PI * w_ar w) by (apply Rmult_lt_0_compat; assumption).
    pose proof (brandt_range w) as HB.
    unfold a_subsonic. rewrite HA. cbn [pval].
    rewrite (w_arE c w HW), (w_leE c w HW), (w_25E c w HW), (eff2_real c w HW) by lra.
    cbn [rbind].
    rewrite (sweep_real c w HW 0.5) by lra.
    replace (rad (w_le w) + (rad (w_25 w) - rad (w_le w)) / 0.25 * 0.5) with (rad (w_half w))
      by (unfold rad, w_half, Rdiv; replace (/ 0.25) with 4 by lra; lra).
    assert (Hb1 : 0 < 1 - m ^ 2) by (simpl; nra).
    assert (HLE1 : cos (rad (w_le w)) <= 1) by apply COS_bound.
    assert (Hb2 : 0 < 1 - (m * cos (rad (w_le w))) ^ 2).
    { assert (0 <= m * cos (rad (w_le w)) < 1) by nra. simpl; nra. }
    rewrite ncos_fin, npown_fin, nsub_fin, nmul_fin, npown_fin, nsub_fin.
    rewrite (msqrt_fin (1 - m ^ 2)) by lra. cbn [rbind].
    rewrite (msqrt_fin (1 - (m * cos (rad (w_le w))) ^ 2)) by lra. cbn [rbind].
    unfold subsonic_slopes.
    assert (Hb : 0 < sqrt (1 - m ^ 2)) by (apply sqrt_lt_R0; exact Hb1).
    set (b := sqrt (1 - m ^ 2)) in *.
    set (ble := sqrt (1 - (m * cos (rad (w_le w))) ^ 2)) in *.
    set (P := PI * w_ar w) in *. set (e := brandt (w_ar w) (rad (w_mt w))) in *.
    set (half := rad (w_half w)) in *. set (cl := cos (rad (w_le w))) in *.
    set (c25 := cos (rad (w_25 w))) in *.
    rewrite nmul_fin. fold P. rewrite ncos_fin. fold c25.
    assert (Hal : 0 < a0 * cl) by pos.
    nrun. rewrite ntan_fin by lra. nrun.
    set (X := Rpower (1 + (a0 / b * cos half / P) ^ 2) 0.25).
    assert (HX : 1 <= X).
    { unfold X. apply Rpower_ge1; [|lra]. pose proof (pow2_ge_0 (a0 / b * cos half / P)). lra. }
    assert (Hce : 0 < cos (half / X)) by (apply eff_cos; assumption).
    set (a := a0 / b * cos (half / X)).
    assert (Ha : 0 < a) by (unfold a; pos).
    destruct (kuechemann_parts a (half / X) P Ha HP) as (Hn & Hcn & Htn & HD).
    set (p := 1 / (4 * (1 + Rabs (half / X) / (0.5 * PI)))) in *.
    assert (0 <= Rabs (half / X) / (0.5 * PI)) by nneg.
    nrun. fold p. nrun. rewrite ntan_fin by exact Hcn. nrun.
    split.
    - f_equal.
      match goal with |- average_of (map Fin ?l) = _ => idtac | |- average_of ?l = Fin (mean_of ?r) =>
        change l with (map Fin r) end.
      apply average_fin. discriminate.
    - assert (HS : forall y, 0 <= sqrt y) by (intros; apply sqrt_pos).
      repeat apply Forall_cons; try apply Forall_nil; try (now apply kuechemann_pos).
      all: try (pos; fail).
  Qed.

  Lemma le_tan : w_le w <> 0 -> tan (rad (w_le w)) <> 0.
  Proof.
    intros H E. destruct (regular_cos w HR) as (_ & HLE & _). unfold tan in E.
    assert (S0 : sin (rad (w_le w)) = 0).
    { apply Rmult_eq_reg_r with (/ cos (rad (w_le w))); [|apply Rinv_neq_0_compat; lra].
      unfold Rdiv in E. rewrite E. lra. }
    pose proof PI_RGT_0. destruct HR as (_ & L & _).
    assert (B : - (PI / 2) < rad (w_le w) < PI / 2) by (unfold rad; nra).
    destruct (Rtotal_order (rad (w_le w)) 0) as [N | [Z | P]].
    - assert (sin (rad (w_le w)) < 0) by (apply sin_lt_0_var; lra). lra.
    - unfold rad in Z. nra.
    - assert (0 < sin (rad (w_le w))) by (apply sin_gt_0; lra). lra.
  Qed.

  Lemma shock_tan m : 1 < m -> cos (acos (1 / m)) <> 0 /\ tan (acos (1 / m)) = sqrt (m ^ 2 - 1).
  Proof.
    intros Hm. assert (I : 0 < 1 / m < 1).
    { split; [apply Rdiv_lt_0_compat; lra|]. apply Rmult_lt_reg_r with m; [lra|].
      unfold Rdiv; rewrite Rmult_assoc, Rinv_l; lra. }
    rewrite cos_acos by lra. split; [lra|]. rewrite tan_acos by lra.
    apply Rmult_eq_reg_r with (1 / m); [|lra].
    unfold Rdiv at 1. rewrite Rmult_assoc, Rinv_l, Rmult_1_r by lra.
    assert (E : 1 - (1 / m)² = (m ^ 2 - 1) * (1 / m) ^ 2) by (unfold Rsqr; field; lra).
    rewrite E, sqrt_mult by (try apply pow2_ge_0; simpl; nra). rewrite sqrt_pow2 by lra. reflexivity.
  Qed.

  Lemma supersonic_real m : 1 < m ->
    a_supersonic c (Fin m) = Ok (Fin (mean_of (supersonic_slopes w m))).
  Proof.
    intros Hm. destruct (regular_cos w HR) as (HAR & HLE & _ & _).
    pose proof PI_RGT_0 as Hpi.
    unfold a_supersonic. rewrite (w_arE c w HW), (w_leE c w HW).
    assert (Hb1 : 0 < m ^ 2 - 1) by (simpl; nra).
    rewrite npown_fin, nsub_fin, (msqrt_fin (m ^ 2 - 1)) by lra. cbn [rbind].
    assert (Hb : 0 < sqrt (m ^ 2 - 1)) by (apply sqrt_lt_R0; exact Hb1).
    unfold supersonic_slopes, delta_slope. set (b := sqrt (m ^ 2 - 1)) in *.
    destruct (shock_tan m Hm) as (SC & ST). fold b in ST.
    destruct (Req_EM_T (w_le w) 0) as [Z|NZ].
    - cbn [neqb]. rewrite (Reqb_true (rad (w_le w)) 0) by (rewrite Z; unfold rad; lra).
      cbn [negb rbind app]. nrun.
      change [Fin (4 / b); Fin (4 / b * (1 - 1 / 2 / w_ar w / b))]
        with (map Fin [4 / b; 4 / b * (1 - 1 / 2 / w_ar w / b)]).
      rewrite average_fin by discriminate. reflexivity.
    - pose proof (le_tan NZ) as HT.
      cbn [neqb]. rewrite (Reqb_false (rad (w_le w)) 0) by (unfold rad; nra).
      cbn [negb]. rewrite nltb_fin, (Rltb_false m 1) by lra.
      assert (I : 0 < 1 / m <= 1).
      { split; [apply Rdiv_lt_0_compat; lra|]. apply Rmult_le_reg_r with m; [lra|].
        unfold Rdiv; rewrite Rmult_assoc, Rinv_l; lra. }
      rewrite ndiv_fin by lra. cbn [macos].
      rewrite (Rltb_false (1 / m) (-1)), (Rltb_false 1 (1 / m)) by lra. cbn [orb rbind].
      rewrite (ntan_fin (acos (1 / m)) SC), (ntan_fin (rad (w_le w))) by lra. rewrite ST.
      set (t := tan (rad (w_le w))) in *.
      rewrite ndiv_fin by exact HT. rewrite !nleb_fin.
      assert (E : (if (Rleb 0 (b / t) && Rleb (b / t) 1)%bool then
              ((Fin 2 * (Fin PI ^ 2) * (Fin 1 / Fin t)) / (Fin PI + Fin (b / t) * (Fin 0.38 + Fin 2.26 * Fin (b / t) - Fin 0.86 * (Fin (b / t) ^ 2))))%num
            else (Fin 4 / Fin b)%num)
        = Fin (if Rle_dec 0 (b / t) then
                 if Rle_dec (b / t) 1 then 2 * PI ^ 2 * (1 / t) / (PI + b / t * (0.38 + 2.26 * (b / t) - 0.86 * (b / t) ^ 2))
                 else 4 / b
               else 4 / b)).
      { set (r := b / t) in *. unfold Rleb. destruct (Rle_dec 0 r), (Rle_dec r 1); cbn [andb].
        - assert (0 <= r * (0.38 + 2.26 * r - 0.86 * r ^ 2)) by (apply Rmult_le_pos; [lra|nra]).
          nrun. reflexivity.
        - apply ndiv_fin; lra.
        - apply ndiv_fin; lra.
        - apply ndiv_fin; lra. }
      rewrite E. cbn [app]. nrun.
      match goal with |- Ok (average_of ?l) = Ok (Fin (mean_of ?r)) => change l with (map Fin r) end.
      rewrite average_fin by discriminate. reflexivity.
  Qed.

  Lemma table_ok : exists tab, transonic_table c = Ok tab.
  Proof.
    unfold transonic_table. rewrite !nadd_fin, !nsub_fin.
    rewrite (proj1 (subsonic_real 0.6 ltac:(lra))), (proj1 (subsonic_real (0.6 + 3e-2) ltac:(lra))).
    rewrite (supersonic_real (1.4 - 3e-2)), (supersonic_real 1.4) by lra. cbn [rbind].
    eexists; reflexivity.
  Qed.

  Lemma clamp_lo x : x <= 0 -> clamp01 x = 0.
  Proof. intros H. unfold clamp01, Rmax, Rmin. destruct (Rle_dec 1 x), (Rle_dec 0 _); lra. Qed.
  Lemma clamp_hi x : 1 <= x -> clamp01 x = 1.
  Proof. intros H. unfold clamp01, Rmax, Rmin. destruct (Rle_dec 1 x), (Rle_dec 0 _); lra. Qed.
  Lemma clamp_mid x : 0 <= x <= 1 -> clamp01 x = x.
  Proof. intros H. unfold clamp01, Rmax, Rmin. destruct (Rle_dec 1 x), (Rle_dec 0 _); lra. Qed.
  Lemma clamp_range x : 0 <= clamp01 x <= 1.
  Proof. unfold clamp01, Rmax, Rmin. destruct (Rle_dec 1 x), (Rle_dec 0 _); lra. Qed.

  Lemma weights_range m : 0 <= weight_sub m /\ 0 <= weight_trans m /\ 0 <= weight_sup m /\
    weight_sub m + weight_trans m + weight_sup m = 1.
  Proof.
    unfold weight_trans, weight_sub, weight_sup.
    destruct (Rle_dec m 1) as [L|L].
    - rewrite (clamp_lo ((m - 1.3) / 0.1)) by lra. pose proof (clamp_range ((0.8 - m) / 0.2)). lra.
    - rewrite (clamp_lo ((0.8 - m) / 0.2)) by lra. pose proof (clamp_range ((m - 1.3) / 0.1)). lra.
  Qed.

  Lemma liftslope_blend ext T m : 0 <= m ->
    (0.6 <= m <= 1.4 -> forall tab, transonic_table c = Ok tab -> cubic ext tab (Fin m) = Ok (Fin (T m))) ->
    liftslope_prad ext c (Fin m) = Ok (Fin (slope_real w a0 T m)).
  Proof.
    intros Hm HT. unfold liftslope_prad. destruct (regular_cos w HR) as (_ & _ & _ & HMT).
    rewrite (eff2_real c w HW) by lra. cbn [rbind]. rewrite !nltb_fin.
    unfold slope_real, weight_trans, weight_sub, weight_sup.
    destruct (Rltb_reflect m 0.6) as [A|A].
    - rewrite (proj1 (subsonic_real m ltac:(lra))), (clamp_hi ((0.8 - m) / 0.2)), (clamp_lo ((m - 1.3) / 0.1)) by lra.
      f_equal. apply Fin_eq. lra.
    - destruct (Rltb_reflect 1.4 m) as [B|B].
      + rewrite (supersonic_real m) by lra.
        rewrite (clamp_lo ((0.8 - m) / 0.2)), (clamp_hi ((m - 1.3) / 0.1)) by lra.
        f_equal. apply Fin_eq. lra.
      + destruct table_ok as (tab & TB). rewrite TB. cbn [rbind].
        rewrite (HT ltac:(lra) tab TB). cbn [rbind]. unfold npinterp2. rewrite !nleb_fin.
        destruct (Rltb_reflect m 0.8) as [C|C].
        * rewrite (Rltb_true m 1) by lra. rewrite (Rltb_true m 1.4) by lra.
          rewrite (proj1 (subsonic_real m ltac:(lra))). cbn [rbind].
          rewrite (clamp_mid ((0.8 - m) / 0.2)), (clamp_lo ((m - 1.3) / 0.1)) by lra.
          destruct (Rleb_reflect m 0.6) as [D|D].
          -- assert (m = 0.6) by lra. subst m. rewrite (Rltb_false 0.6 0.6) by lra. cbn [andb].
             nfin. f_equal. apply Fin_eq. lra.
          -- rewrite (Rltb_true 0.6 m), (Rleb_false 0.8 m) by lra. cbn [andb].
             nfin. f_equal. apply Fin_eq. lra.
        * rewrite (Rltb_true 0.6 m) by lra. cbn [andb].
          rewrite (clamp_lo ((0.8 - m) / 0.2)) by lra.
          destruct (Rltb_reflect m 1) as [D|D].
          -- rewrite (Rltb_true m 1.4), (Rltb_false 1.3 m), (Rleb_false m 0.6), (Rleb_true 0.8 m) by lra.
             rewrite (clamp_lo ((m - 1.3) / 0.1)) by lra. nfin. f_equal. apply Fin_eq. lra.
          -- destruct (Rltb_reflect 1.3 m) as [E|E].
             ++ rewrite (supersonic_real m) by lra. cbn [rbind].
                rewrite (Rleb_false m 1.3), (clamp_mid ((m - 1.3) / 0.1)) by lra.
                destruct (Rleb_reflect 1.4 m) as [G|G].
                ** assert (m = 1.4) by lra. subst m. rewrite (Rltb_false 1.4 1.4) by lra.
                   nfin. f_equal. apply Fin_eq. lra.
                ** rewrite (Rltb_true m 1.4) by lra. nfin. f_equal. apply Fin_eq. lra.
             ++ rewrite (Rltb_true m 1.4), (Rleb_true m 1.3), (clamp_lo ((m - 1.3) / 0.1)) by lra.
                nfin. f_equal. apply Fin_eq. lra.
  Qed.
End Slope.
