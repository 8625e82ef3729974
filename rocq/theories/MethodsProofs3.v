(** Continuity of the lift curve slope in the Mach number. *)
From Verif Require Import Base BaseFacts AnalysisFacts UnitsModel AtmosModel ConceptModel
  MethodsModel MethodsSpec MethodsProofs MethodsProofs2.
Open Scope R_scope.

Lemma c_const k x : continuity_pt (fun _ => k) x.
Proof. apply continuity_pt_const. intros a b; reflexivity. Qed.
Lemma c_id x : continuity_pt (fun y => y) x.
Proof. apply derivable_continuous_pt, derivable_pt_id. Qed.
Lemma c_plus f g x : continuity_pt f x -> continuity_pt g x -> continuity_pt (fun y => f y + g y) x.
Proof. intros; apply (continuity_pt_plus f g); assumption. Qed.
Lemma c_minus f g x : continuity_pt f x -> continuity_pt g x -> continuity_pt (fun y => f y - g y) x.
Proof. intros; apply (continuity_pt_minus f g); assumption. Qed.
Lemma c_mult f g x : continuity_pt f x -> continuity_pt g x -> continuity_pt (fun y => f y * g y) x.
Proof. intros; apply (continuity_pt_mult f g); assumption. Qed.
Lemma c_div f g x : continuity_pt f x -> continuity_pt g x -> g x <> 0 ->
  continuity_pt (fun y => f y / g y) x.
Proof. intros; apply (continuity_pt_div f g); assumption. Qed.
Lemma c_pow f n x : continuity_pt f x -> continuity_pt (fun y => f y ^ n) x.
Proof.
  intros H. induction n as [|n IH].
  - exact (c_const 1 x).
  - apply (c_mult f (fun y => f y ^ n)); assumption.
Qed.
Lemma c_comp (h f : R -> R) x : continuity_pt f x -> continuity_pt h (f x) ->
  continuity_pt (fun y => h (f y)) x.
Proof. intros; apply (continuity_pt_comp f h); assumption. Qed.
Lemma c_sqrt f x : continuity_pt f x -> 0 <= f x -> continuity_pt (fun y => sqrt (f y)) x.
Proof. intros; apply c_comp; [assumption|]. apply continuity_pt_sqrt; assumption. Qed.
Lemma c_cos f x : continuity_pt f x -> continuity_pt (fun y => cos (f y)) x.
Proof. intros; apply c_comp; [assumption|]. apply continuity_cos. Qed.
Lemma c_sin f x : continuity_pt f x -> continuity_pt (fun y => sin (f y)) x.
Proof. intros; apply c_comp; [assumption|]. apply continuity_sin. Qed.
Lemma c_tan f x : continuity_pt f x -> cos (f x) <> 0 -> continuity_pt (fun y => tan (f y)) x.
Proof.
  intros H N. unfold tan. apply c_div; [apply c_sin|apply c_cos|]; assumption.
Qed.
Lemma c_abs f x : continuity_pt f x -> continuity_pt (fun y => Rabs (f y)) x.
Proof. intros; apply c_comp; [assumption|]. apply Rcontinuity_abs. Qed.
Lemma c_exp f x : continuity_pt f x -> continuity_pt (fun y => exp (f y)) x.
Proof.
  intros; apply c_comp; [assumption|]. apply derivable_continuous_pt, derivable_pt_exp.
Qed.
Lemma c_ln f x : continuity_pt f x -> 0 < f x -> continuity_pt (fun y => ln (f y)) x.
Proof.
  intros H P; apply c_comp; [assumption|]. apply derivable_continuous_pt.
  exists (/ f x). apply derivable_pt_lim_ln; exact P.
Qed.
Lemma c_Rpower f g x : continuity_pt f x -> continuity_pt g x -> 0 < f x ->
  continuity_pt (fun y => Rpower (f y) (g y)) x.
Proof. intros. unfold Rpower. apply c_exp, c_mult; [assumption|]. apply c_ln; assumption. Qed.

(** Lipschitz functions are continuous; clamping is Lipschitz *)
Lemma c_lip f x K : 0 < K -> (forall y, Rabs (f y - f x) <= K * Rabs (y - x)) -> continuity_pt f x.
Proof.
  intros HK H eps He. exists (eps / K). split; [apply Rdiv_lt_0_compat; assumption|].
  intros y (_ & D). simpl in *. unfold R_dist in *.
  apply Rle_lt_trans with (K * Rabs (y - x)); [apply H|].
  apply Rlt_le_trans with (K * (eps / K)); [apply Rmult_lt_compat_l; assumption|].
  right; field; lra.
Qed.
Lemma c_max k x : continuity_pt (Rmax k) x.
Proof.
  apply (c_lip _ x 1); [lra|]. intros y. unfold Rmax, Rabs.
  destruct (Rle_dec k y), (Rle_dec k x), (Rcase_abs (y - x)); match goal with |- context [Rcase_abs ?e] => destruct (Rcase_abs e) | _ => idtac end; lra.
Qed.
Lemma c_min k x : continuity_pt (Rmin k) x.
Proof.
  apply (c_lip _ x 1); [lra|]. intros y. unfold Rmin, Rabs.
  destruct (Rle_dec k y), (Rle_dec k x), (Rcase_abs (y - x)); match goal with |- context [Rcase_abs ?e] => destruct (Rcase_abs e) | _ => idtac end; lra.
Qed.
Lemma c_clamp f x : continuity_pt f x -> continuity_pt (fun y => clamp01 (f y)) x.
Proof.
  intros H. unfold clamp01. apply (c_comp (Rmax 0)); [|apply c_max].
  apply (c_comp (Rmin 1)); [exact H|apply c_min].
Qed.
Lemma c_weight_sub x : continuity_pt weight_sub x.
Proof.
  apply c_clamp, c_div; [apply c_minus; [apply c_const|apply c_id]|apply c_const|lra].
Qed.
Lemma c_weight_sup x : continuity_pt weight_sup x.
Proof.
  apply c_clamp, c_div; [apply c_minus; [apply c_id|apply c_const]|apply c_const|lra].
Qed.
Lemma c_weight_trans x : continuity_pt weight_trans x.
Proof.
  unfold weight_trans. apply c_minus; [|apply c_weight_sup].
  apply c_minus; [apply c_const|apply c_weight_sub].
Qed.

Ltac cont := repeat first
  [ assumption
  | lazymatch goal with
    | |- continuity_pt (fun _ => ?k) _ => apply (c_const k)
    | |- continuity_pt (fun y => y) _ => apply c_id
    | |- continuity_pt (fun y => @?f y + @?g y) _ => apply (c_plus f g)
    | |- continuity_pt (fun y => @?f y - @?g y) _ => apply (c_minus f g)
    | |- continuity_pt (fun y => @?f y * @?g y) _ => apply (c_mult f g)
    | |- continuity_pt (fun y => @?f y / @?g y) _ => apply (c_div f g)
    | |- continuity_pt (fun y => @?f y ^ 2) _ => apply (c_pow f 2)
    | |- continuity_pt (fun y => sqrt (@?f y)) _ => apply (c_sqrt f)
    | |- continuity_pt (fun y => cos (@?f y)) _ => apply (c_cos f)
    | |- continuity_pt (fun y => tan (@?f y)) _ => apply (c_tan f)
    | |- continuity_pt (fun y => Rabs (@?f y)) _ => apply (c_abs f)
    | |- continuity_pt (fun y => Rpower (@?f y) (@?g y)) _ => apply (c_Rpower f g)
    end ].

Lemma c_kue f g P x : continuity_pt f x -> continuity_pt g x -> 0 < f x -> 0 < P ->
  continuity_pt (fun y => kuechemann (f y) (g y) P) x.
Proof.
  intros Cf Cg Hf HP. pose proof PI_RGT_0 as Hpi.
  pose proof (kuechemann_parts (f x) (g x) P Hf HP) as K. cbv zeta in K.
  unfold kuechemann.
  assert (Cn : continuity_pt (fun y => 1 - 1 / (2 * Rpower (1 + (f y / P) ^ 2)
     (1 / (4 * (1 + Rabs (g y) / (0.5 * PI)))))) x).
  { assert (0 <= Rabs (g x) / (0.5 * PI)) by (apply Rdiv_le_0_compat; [apply Rabs_pos|lra]).
    set (q := Rabs (g x) / (0.5 * PI)) in *. cont; try nz.
    all: try (fold q; apply Rgt_not_eq; lra).
    all: pose proof (pow2_ge_0 (f x / P)); lra. }
  set (n := fun y => 1 - 1 / (2 * Rpower (1 + (f y / P) ^ 2)
     (1 / (4 * (1 + Rabs (g y) / (0.5 * PI)))))) in *.
  change (1 - 1 / (2 * Rpower (1 + (f x / P) ^ 2) (1 / (4 * (1 + Rabs (g x) / (0.5 * PI)))))) with (n x) in K.
  destruct K as (Kn & Kc & Kt & Kd).
  change (continuity_pt (fun y => 2 * f y * n y
     / (1 - PI * n y * (1 / tan (PI * n y)) + 4 * f y * n y ^ 2 / P)) x).
  cont; try nz.
Qed.

Lemma c_mean (fs : list (R -> R)) x : Forall (fun f => continuity_pt f x) fs -> fs <> [] ->
  continuity_pt (fun y => mean_of (map (fun f => f y) fs)) x.
Proof.
  intros H N. unfold mean_of. apply c_div.
  - clear N. induction H as [|f l Hf Hl IH]; cbn; [apply c_const|].
    apply (c_plus f (fun y => fold_right Rplus 0 (map (fun g => g y) l))); assumption.
  - apply (continuity_pt_locally_ext (fun _ => INR (List.length fs)) _ 1); [lra| |apply c_const].
    intros y _. rewrite map_length. reflexivity.
  - rewrite map_length. destruct fs; [contradiction|]. apply not_0_INR. discriminate.
Qed.

Section Continuity.
  Variables (w : wing) (a0 : R).
  Hypothesis HR : regular w.
  Hypothesis HH : half_ok w.
  Hypothesis Ha0 : 0 < a0.

  Lemma c_sub x : 0 <= x < 1 -> continuity_pt (fun m => mean_of (subsonic_slopes w a0 m)) x.
  Proof.
    intros Hm. destruct (regular_cos w HR) as (HAR & HLE & H25 & HMT).
    pose proof PI_RGT_0 as Hpi.
    assert (HF : - (PI / 2) < rad (w_half w) < PI / 2) by (unfold half_ok in HH; unfold rad; nra).
    assert (HC5 : 0 < cos (rad (w_half w))) by (apply cos_gt_0; lra).
    assert (HP : 0 < PI * w_ar w) by (apply Rmult_lt_0_compat; assumption).
    assert (Hb1 : 0 < 1 - x ^ 2) by (simpl; nra).
    assert (Hb : 0 < sqrt (1 - x ^ 2)) by (apply sqrt_lt_R0; exact Hb1).
    assert (HB : 0 < brandt (w_ar w) (rad (w_mt w)))
      by (apply (brandt_range w)).
    assert (Hl1 : 0 < 1 - (x * cos (rad (w_le w))) ^ 2).
    { pose proof (COS_bound (rad (w_le w))) as CB. set (k := cos (rad (w_le w))) in *.
      assert (0 <= x * k < 1) by (split; nra). set (z := x * k) in *. simpl. nra. }
    assert (Hle : 0 < sqrt (1 - (x * cos (rad (w_le w))) ^ 2)) by (apply sqrt_lt_R0; exact Hl1).
    unfold subsonic_slopes.
    set (b := fun m => sqrt (1 - m ^ 2)).
    set (bl := fun m => sqrt (1 - (m * cos (rad (w_le w))) ^ 2)).
    change (sqrt (1 - x ^ 2)) with (b x) in Hb.
    change (sqrt (1 - (x * cos (rad (w_le w))) ^ 2)) with (bl x) in Hle.
    assert (Cb : continuity_pt b x) by (unfold b; cont; lra).
    assert (Cbl : continuity_pt bl x) by (unfold bl; cont; lra).
    set (h := rad (w_half w)) in *. set (P := PI * w_ar w) in *.
    set (e := brandt (w_ar w) (rad (w_mt w))) in *.
    set (eff := fun m => h / Rpower (1 + (a0 / b m * cos h / P) ^ 2) 0.25).
    assert (Ceff : continuity_pt eff x).
    { unfold eff. cont; try nz.
      - pose proof (pow2_ge_0 (a0 / b x * cos h / P)). lra. }
    set (AR := w_ar w) in *. set (cl := cos (rad (w_le w))) in *. set (c2 := cos (rad (w_25 w))) in *.
    assert (Heff : 0 < cos (eff x)).
    { unfold eff. apply eff_cos; [exact HF|].
      apply Rpower_ge1; [pose proof (pow2_ge_0 (a0 / b x * cos h / P))|]; lra. }
    apply (c_mean [ fun m => P / (1 + sqrt (1 + (P / a0 / c2) ^ 2 * b m ^ 2));
      fun m => a0 / (b m + a0 / P / e);
      fun m => a0 / (sqrt (b m ^ 2 + (a0 / P) ^ 2) + a0 / P);
      fun m => a0 * cl / (sqrt (bl m ^ 2 + (a0 * cl / P) ^ 2) + a0 * cl / P);
      fun m => 2 * P / (2 + sqrt ((AR * b m / (a0 / (2 * PI))) ^ 2 * (1 + (tan h / b m) ^ 2) + 4));
      fun m => kuechemann (a0 / b m * cos (eff m)) (eff m) P;
      fun m => a0 / b m * AR / (sqrt (4 + AR ^ 2 + (a0 / b m / PI) ^ 2) + a0 / b m / PI) ]); [|discriminate].
    repeat constructor.
    - cont; try nz; try nneg.
    - cont; try nz; try nneg.
    - cont; try nz; try nneg.
    - cont; try nz; try nneg.
    - cont; try nz; try nneg.
    - apply c_kue; try assumption; [cont; try nz|pos].
    - cont; try nz; try nneg.
  Qed.

  Lemma c_b x : 1 < x -> continuity_pt (fun m => sqrt (m ^ 2 - 1)) x /\ 0 < sqrt (x ^ 2 - 1).
  Proof.
    intros Hx. assert (0 < x ^ 2 - 1) by (simpl; nra). split; [cont; lra|apply sqrt_lt_R0; assumption].
  Qed.

  Local Notation sonic_le := (sonic_le w).

  Lemma le_tan_pos : 0 < w_le w -> 0 < tan (rad (w_le w)).
  Proof.
    intros H. pose proof PI_RGT_0. destruct HR as (_ & L & _). apply tan_gt_0; unfold rad; nra.
  Qed.
  Lemma le_tan_neg : w_le w < 0 -> tan (rad (w_le w)) < 0.
  Proof.
    intros H. pose proof PI_RGT_0. destruct HR as (_ & L & _). apply tan_lt_0; unfold rad; nra.
  Qed.
  Lemma sonic_tan : 0 < w_le w -> 1 < sonic_le /\ sqrt (sonic_le ^ 2 - 1) = tan (rad (w_le w)).
  Proof.
    intros H. destruct (regular_cos w HR) as (_ & HC & _). pose proof (le_tan_pos H) as HT.
    unfold MethodsSpec.sonic_le. set (k := cos (rad (w_le w))) in *.
    assert (E : (1 / k) ^ 2 - 1 = tan (rad (w_le w)) ^ 2).
    { unfold tan. fold k. pose proof (sin2_cos2 (rad (w_le w))) as S. unfold Rsqr in S. fold k in S.
      set (s := sin (rad (w_le w))) in *. replace ((1 / k) ^ 2 - 1) with ((1 - k * k) / (k * k)) by (field; lra).
      replace (1 - k * k) with (s * s) by lra. field; lra. }
    split.
    - assert (0 < tan (rad (w_le w)) ^ 2) by (apply pow_lt; exact HT).
      assert (0 < 1 / k) by (apply Rdiv_lt_0_compat; lra). simpl in E, H0. nra.
    - rewrite E. apply sqrt_pow2. lra.
  Qed.

  Lemma sonic_sides m : 0 < w_le w -> 1 < m ->
    (m <= sonic_le -> sqrt (m ^ 2 - 1) <= tan (rad (w_le w))) /\
    (m < sonic_le -> sqrt (m ^ 2 - 1) < tan (rad (w_le w))) /\
    (sonic_le < m -> tan (rad (w_le w)) < sqrt (m ^ 2 - 1)).
  Proof.
    intros H Hm. destruct (sonic_tan H) as (S1 & S2). rewrite <- S2. repeat split; intros L.
    - apply sqrt_le_1_alt. simpl; nra.
    - apply sqrt_lt_1_alt. simpl; split; nra.
    - apply sqrt_lt_1_alt. simpl; split; nra.
  Qed.

  Lemma delta_far m : 1 < m -> w_le w <> 0 -> (0 < w_le w -> sonic_le < m) ->
    delta_slope w m = 4 / sqrt (m ^ 2 - 1).
  Proof.
    intros Hm NZ F. unfold delta_slope. destruct (c_b m Hm) as (_ & Hb).
    destruct (Rtotal_order (w_le w) 0) as [N|[Z|P]]; [|contradiction|].
    - pose proof (le_tan_neg N) as HT. destruct (Rle_dec 0 _) as [L|L]; [|reflexivity].
      exfalso. unfold Rdiv in L. assert (/ tan (rad (w_le w)) < 0) by (apply Rinv_lt_0_compat; exact HT). nra.
    - pose proof (le_tan_pos P) as HT. pose proof (proj2 (proj2 (sonic_sides m P Hm)) (F P)) as S.
      destruct (Rle_dec 0 _); [|reflexivity]. destruct (Rle_dec _ 1) as [L|L]; [|reflexivity].
      exfalso. apply (Rmult_le_compat_r (tan (rad (w_le w)))) in L; [|lra].
      unfold Rdiv in L. rewrite Rmult_assoc, Rinv_l in L; lra.
  Qed.

  Definition delta_near (m : R) : R :=
    let t := tan (rad (w_le w)) in let r := sqrt (m ^ 2 - 1) / t in
    2 * PI ^ 2 * (1 / t) / (PI + r * (0.38 + 2.26 * r - 0.86 * r ^ 2)).

  Lemma near_r m : 0 < w_le w -> 1 < m <= sonic_le ->
    0 <= sqrt (m ^ 2 - 1) / tan (rad (w_le w)) <= 1.
  Proof.
    intros P (Hm & L). pose proof (le_tan_pos P) as HT.
    pose proof (proj1 (sonic_sides m P Hm) L) as S. destruct (c_b m Hm) as (_ & Hb).
    split; [apply Rdiv_le_0_compat; lra|]. apply Rmult_le_reg_r with (tan (rad (w_le w))); [lra|].
    unfold Rdiv. rewrite Rmult_assoc, Rinv_l; lra.
  Qed.

  Lemma delta_sub m : 0 < w_le w -> 1 < m <= sonic_le -> delta_slope w m = delta_near m.
  Proof.
    intros P H. pose proof (near_r m P H) as N. unfold delta_slope, delta_near.
    destruct (Rle_dec 0 _); [|lra]. destruct (Rle_dec _ 1); [reflexivity|lra].
  Qed.

  Lemma c_delta x : 1 < x -> w_le w <> 0 -> (0 < w_le w -> x <> sonic_le) ->
    continuity_pt (delta_slope w) x.
  Proof.
    intros Hx NZ F. destruct (c_b x Hx) as (Cb & Hb).
    destruct (Rlt_dec 0 (w_le w)) as [P|P].
    - specialize (F P). destruct (Rlt_dec x sonic_le) as [L|L].
      + apply (continuity_pt_locally_ext delta_near _ (Rmin (x - 1) (sonic_le - x))).
        * apply Rmin_pos; lra.
        * intros y D. unfold R_dist in D. pose proof (Rmin_l (x - 1) (sonic_le - x)).
          pose proof (Rmin_r (x - 1) (sonic_le - x)). apply Rabs_def2 in D.
          symmetry; apply delta_sub; [exact P|lra].
        * pose proof (near_r x P ltac:(lra)) as N. pose proof PI_RGT_0.
          pose proof (le_tan_pos P). unfold delta_near. set (t := tan (rad (w_le w))) in *.
          assert (Cr : continuity_pt (fun m => sqrt (m ^ 2 - 1) / t) x) by (cont; lra).
          set (r := fun m => sqrt (m ^ 2 - 1) / t) in *. change (sqrt (x ^ 2 - 1) / t) with (r x) in N.
          change (continuity_pt (fun m => 2 * PI ^ 2 * (1 / t) / (PI + r m * (0.38 + 2.26 * r m - 0.86 * r m ^ 2))) x).
          cont; try lra.
          assert (0 <= r x * (0.38 + 2.26 * r x - 0.86 * r x ^ 2)) by (apply Rmult_le_pos; [lra|nra]). lra.
      + apply (continuity_pt_locally_ext (fun m => 4 / sqrt (m ^ 2 - 1)) _ (x - sonic_le)); [lra| |cont; lra].
        intros y D. unfold R_dist in D. apply Rabs_def2 in D. destruct (sonic_tan P).
        symmetry; apply delta_far; [lra|exact NZ|intros; lra].
    - apply (continuity_pt_locally_ext (fun m => 4 / sqrt (m ^ 2 - 1)) _ (x - 1)); [lra| |cont; lra].
      intros y D. unfold R_dist in D. apply Rabs_def2 in D.
      symmetry; apply delta_far; [lra|exact NZ|intros; lra].
  Qed.

  Lemma c_sup x : 1 < x -> (0 < w_le w -> x <> sonic_le) ->
    continuity_pt (fun m => mean_of (supersonic_slopes w m)) x.
  Proof.
    intros Hx F. destruct (c_b x Hx) as (Cb & Hb). destruct HR as (HAR & _).
    unfold supersonic_slopes. destruct (Req_EM_T (w_le w) 0) as [Z|NZ].
    - apply (c_mean [fun m => 4 / sqrt (m ^ 2 - 1);
         fun m => 4 / sqrt (m ^ 2 - 1) * (1 - 1 / 2 / w_ar w / sqrt (m ^ 2 - 1))]); [|discriminate].
      repeat constructor; cont; lra.
    - apply (c_mean [delta_slope w; fun m => 4 / sqrt (m ^ 2 - 1);
         fun m => 4 / sqrt (m ^ 2 - 1) * (1 - 1 / 2 / w_ar w / sqrt (m ^ 2 - 1))]); [|discriminate].
      repeat constructor; [apply c_delta; assumption|cont; lra|cont; lra].
  Qed.

  Lemma slope_continuous T x : continuity T -> 0 < x -> (0 < w_le w -> x <> sonic_le \/ x < 1.3) ->
    continuity_pt (slope_real w a0 T) x.
  Proof.
    intros CT Hx F. unfold slope_real.
    pose proof (c_weight_sub x) as W1. pose proof (c_weight_trans x) as W2. pose proof (c_weight_sup x) as W3.
    destruct (Rlt_dec x 1) as [L|L]; [|destruct (Rlt_dec x 1.3) as [L3|L3]].
    - apply (continuity_pt_locally_ext (fun m => weight_sub m * mean_of (subsonic_slopes w a0 m) + weight_trans m * T m) _ (1.3 - x)).
      + lra.
      + intros y D. unfold R_dist in D. apply Rabs_def2 in D.
        unfold weight_sup. rewrite clamp_lo by lra. lra.
      + apply c_plus; apply c_mult; try assumption; [apply c_sub; lra|apply CT].
    - apply (continuity_pt_locally_ext (fun m => weight_trans m * T m) _ (Rmin (1.3 - x) 0.2)).
      + apply Rmin_pos; lra.
      + intros y D. unfold R_dist in D. pose proof (Rmin_l (1.3 - x) 0.2). pose proof (Rmin_r (1.3 - x) 0.2).
        apply Rabs_def2 in D. unfold weight_sub at 1, weight_sup. rewrite !clamp_lo by lra. lra.
      + apply c_mult; [assumption|apply CT].
    - apply (continuity_pt_locally_ext (fun m => weight_trans m * T m + weight_sup m * mean_of (supersonic_slopes w m)) _ 0.2).
      + lra.
      + intros y D. unfold R_dist in D. apply Rabs_def2 in D.
        unfold weight_sub at 1. rewrite clamp_lo by lra. lra.
      + apply c_plus; apply c_mult; try assumption; [apply CT|apply c_sup; [lra|intros P; destruct (F P); lra]].
  Qed.

  Lemma slope_jump T : 0 < w_le w -> 1.4 < sonic_le -> ~ continuity_pt (slope_real w a0 T) sonic_le.
  Proof.
    intros P S C. set (x := sonic_le) in *.
    set (G := fun m => mean_of [4 / sqrt (m ^ 2 - 1); 4 / sqrt (m ^ 2 - 1);
         4 / sqrt (m ^ 2 - 1) * (1 - 1 / 2 / w_ar w / sqrt (m ^ 2 - 1))]).
    assert (E : forall m, 1.4 < m -> slope_real w a0 T m = mean_of (supersonic_slopes w m)).
    { intros m Hm. unfold slope_real, weight_trans, weight_sub, weight_sup.
      rewrite (clamp_lo ((0.8 - m) / 0.2)), (clamp_hi ((m - 1.3) / 0.1)) by lra. lra. }
    assert (CG : continuity_pt G x).
    { destruct (c_b x ltac:(lra)) as (Cb & Hb). destruct HR as (HAR & _). unfold G.
      apply (c_mean [fun m => 4 / sqrt (m ^ 2 - 1); fun m => 4 / sqrt (m ^ 2 - 1);
         fun m => 4 / sqrt (m ^ 2 - 1) * (1 - 1 / 2 / w_ar w / sqrt (m ^ 2 - 1))]); [|discriminate].
      repeat constructor; cont; lra. }
    assert (D : slope_real w a0 T x - G x <> 0).
    { rewrite E by exact S. unfold G, supersonic_slopes. destruct (Req_EM_T (w_le w) 0); [lra|].
      rewrite delta_sub by (unfold x; try exact P; fold x; lra). unfold delta_near.
      destruct (sonic_tan P) as (_ & ST). fold x in ST. rewrite ST.
      pose proof (le_tan_pos P) as HT. set (t := tan (rad (w_le w))) in *.
      replace (t / t) with 1 by (field; lra).
      cbn [app mean_of fold_right List.length INR]. unfold mean_of. cbn [fold_right List.length INR].
      pose proof PI_bounds as PB.
      assert (J : 4 / t < 2 * PI ^ 2 * (1 / t) / (PI + 1 * (0.38 + 2.26 * 1 - 0.86 * 1 ^ 2))).
      { replace (4 / t) with (4 * (1 / t)) by (unfold Rdiv; lra).
        assert (0 < 1 / t) by (apply Rdiv_lt_0_compat; lra). set (it := 1 / t) in *.
        set (Dn := PI + _). assert (HD : Dn = PI + 1.78) by (unfold Dn; lra).
        apply Rmult_lt_reg_r with Dn; [lra|]. unfold Rdiv.
        rewrite (Rmult_assoc _ (/ Dn) Dn), Rinv_l by lra. rewrite HD.
        assert (Q : 0 < 2 * PI ^ 2 - 4 * (PI + 1.78)) by (simpl; nra).
        assert (0 < it * (2 * PI ^ 2 - 4 * (PI + 1.78))) by (apply Rmult_lt_0_compat; assumption). lra. }
      set (A := 2 * PI ^ 2 * (1 / t) / _) in *. lra. }
    pose proof (c_minus _ _ x C CG) as CD. cbn beta in CD.
    destruct (CD (Rabs (slope_real w a0 T x - G x)) ltac:(apply Rabs_pos_lt; exact D)) as (al & Hal & N).
    specialize (N (x + al / 2)). assert (LT : x < x + al / 2) by lra.
    assert (Z : slope_real w a0 T (x + al / 2) - G (x + al / 2) = 0).
    { rewrite E by lra. unfold G, supersonic_slopes. destruct (Req_EM_T (w_le w) 0); [lra|].
      rewrite delta_far; [cbn [app]; lra|lra|assumption|intros; fold x; lra]. }
    simpl in N. unfold R_dist in N. rewrite Z in N.
    assert (N1 : Rabs (0 - (slope_real w a0 T x - G x)) < Rabs (slope_real w a0 T x - G x)).
    { apply N. split; [split; [exact I|lra]|].
      replace (x + al / 2 - x) with (al / 2) by lra. rewrite Rabs_pos_eq; lra. }
    rewrite <- Rabs_Ropp in N1. replace (- (0 - (slope_real w a0 T x - G x))) with (slope_real w a0 T x - G x) in N1 by lra.
    lra.
  Qed.
End Continuity.
