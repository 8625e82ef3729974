(** Proofs about the warnings: which are issued. *)
From Coq Require Import Reals Lra Lia Psatz List String ZArith.
From Verif Require Import Base BaseFacts AnalysisFacts UnitsModel AtmosModel AtmosSpec ConceptModel ConceptProofs MethodsModel MethodsSpec
  MethodsProofs MethodsProofs2 MethodsProofs3 MethodsProofs4 ConstraintSpec ConstraintProofs ConstraintProofs6
  SensitivityModel SensitivityPlotModel WarningsModel WarningsSpec WarningsProofs.
Import ListNotations.
Open Scope R_scope.

Lemma fst_lbind {A B} (m : logged A) (f : A -> logged B) x :
  snd m = Ok x -> fst (lbind m f) = (fst m ++ fst (f x))%list.
Proof. unfold lbind. intros ->. reflexivity. Qed.
Lemma fst_quiet {A B} (r : res A) (f : A -> logged B) x :
  r = Ok x -> fst (lbind (quiet r) f) = fst (f x).
Proof. intros ->. reflexivity. Qed.
Lemma lbind_ok {A B} (m : logged A) (f : A -> logged B) r : snd (lbind m f) = Ok r ->
  exists x, snd m = Ok x /\ snd (f x) = Ok r /\ fst (lbind m f) = (fst m ++ fst (f x))%list.
Proof.
  unfold lbind. destruct (snd m) as [x|e]; cbn [fst snd]; [|discriminate]. intros H. exists x. auto.
Qed.
Lemma lbind_silent {A B} (m : logged A) (f : A -> logged B) :
  fst m = [] -> (forall x, snd m = Ok x -> fst (f x) = []) -> fst (lbind m f) = [].
Proof.
  unfold lbind. intros H1 H2. destruct (snd m) as [x|e]; cbn [fst]; rewrite H1; [|reflexivity].
  apply H2; reflexivity.
Qed.
Lemma lmapM_ok {A B} (f : A -> logged B) ws : forall l r, snd (lmapM f l) = Ok r ->
  (forall x y, In x l -> snd (f x) = Ok y -> fst (f x) = ws) ->
  fst (lmapM f l) = times (List.length l) ws.
Proof.
  induction l as [|x l IH]; intros r H F; [reflexivity|]. cbn [lmapM] in *.
  apply lbind_ok in H. destruct H as (y & Y & H & ->). apply lbind_ok in H. destruct H as (ys & YS & H & ->).
  rewrite (F x y (or_introl eq_refl) Y), (IH ys YS) by (intros; eapply F; [right|]; eassumption).
  cbn. rewrite app_nil_r. reflexivity.
Qed.

(* ------------------------------------------------- Nita and Scholz *)
Section Wing.
  Variables (c : concept) (w : wing).
  Hypothesis HW : has_wing c w.
  Local Notation AR := (w_ar w).
  Local Notation tcorr := (w_taper w + 0.357 - 0.45 * exp (-0.0375 * w_25 w)).

  Lemma raw_real (x : num) ke : 0 < AR ->
    (if (Fin 0.3 <? x)%num then (Fin (-0.001521) * (((x / Fin 0.3) - Fin 1) ** Fin 10.82) + Fin 1)%num else Fin 1)
      = Fin ke ->
    fst (oswaldspaneff4_w c (Some x)) =
      (if Rlt_dec ((1 - 2 * 0.114 ^ 2) * 0.85 * ke / (1 + hoerner tcorr * AR)) 0.001 then [WBounds] else []).
  Proof.
    intros H K. unfold oswaldspaneff4_w. unfold default_to. rewrite (fst_quiet _ _ x eq_refl). cbv zeta.
    destruct HW as (_ & _ & H25 & _ & HT). rewrite (w_arE c w HW), H25, HT. cbn [pval].
    set (t := w_taper w + 0.357 - 0.45 * exp (-0.0375 * w_25 w)). rewrite K. nfin.
    replace (w_taper w - (-0.357 + 0.45 * exp (-0.0375 * w_25 w))) with t by (unfold t; lra).
    replace (0.0524 * t ^ 4 - 0.15 * t ^ 3 + 0.1659 * t ^ 2 - 0.0706 * t + 0.0119) with (hoerner t) by reflexivity.
    pose proof (hoerner_pos t) as P.
    assert (D : 0 < 1 + hoerner t * AR) by nra.
    rewrite ndiv_fin by lra. nfin. rewrite nltb_fin.
    replace (1 / (1 + hoerner t * AR) * (1 - 2 * 0.114 ^ 2) * 0.85 * ke)
      with ((1 - 2 * 0.114 ^ 2) * 0.85 * ke / (1 + hoerner t * AR)) by (unfold Rdiv; lra).
    set (e := _ / _). destruct (Rltb_reflect e 1e-3) as [L|L]; destruct (Rlt_dec e 0.001); try reflexivity; lra.
  Qed.
  Lemma compress_real m :
    (if (Fin 0.3 <? Fin m)%num then (Fin (-0.001521) * (((Fin m / Fin 0.3) - Fin 1) ** Fin 10.82) + Fin 1)%num else Fin 1)
      = Fin (compress m).
  Proof.
    rewrite nltb_fin. unfold compress. destruct (Rltb_reflect 0.3 m); destruct (Rlt_dec 0.3 m); try lra; [|reflexivity].
    rewrite ndiv_fin by lra. rewrite nsub_fin, npow_fin; [|].
    - nfin. apply Fin_eq. lra.
    - assert (1 < m / 0.3); [|lra]. apply Rmult_lt_reg_r with 0.3; [lra|].
      unfold Rdiv; rewrite Rmult_assoc, Rinv_l; lra.
  Qed.
  Lemma eff4_warnings_given m : 0 < AR -> fst (oswaldspaneff4_w c (Some (Fin m))) = if_too_small w m.
  Proof. intros H. apply (raw_real (Fin m) (compress m) H), compress_real. Qed.
  Lemma eff4_warnings_nan : 0 < AR -> fst (oswaldspaneff4_w c (Some NonFin)) = if_too_small w 0.3.
  Proof.
    intros H. rewrite (raw_real NonFin 1 H) by reflexivity. unfold if_too_small, nita_raw.
    replace (compress 0.3) with 1; [reflexivity|]. unfold compress. destruct (Rlt_dec 0.3 0.3); [lra|reflexivity].
  Qed.
  Lemma eff4_warnings mo m : 0 < AR -> mach_used mo m ->
    fst (oswaldspaneff4_w c mo) = (if_left_out WMach mo ++ if_too_small w m)%list.
  Proof.
    intros H [-> | (-> & ->)]; [apply eff4_warnings_given, H|].
    pose proof (eff4_warnings_given 0.3 H) as E. unfold oswaldspaneff4_w in E |- *.
    cbn [default_to] in E |- *. rewrite (fst_quiet _ _ (Fin 0.3) eq_refl) in E.
    rewrite (fst_lbind _ _ (Fin 0.3)) by reflexivity. cbn [if_left_out app].
    rewrite <- E. reflexivity.
  Qed.
End Wing.

Lemma hoerner_small t : -0.1 <= t <= 1.36 -> hoerner t <= 0.03.
Proof.
  intros H. unfold hoerner.
  assert (0 <= (t + 0.1) * (1.36 - t)) by nra.
  assert (0 <= ((t + 0.1) * (1.36 - t)) * (t - 0.7) ^ 2) by (apply Rmult_le_pos; [assumption|apply pow2_ge_0]).
  nra.
Qed.
Lemma usual_t w : usual w -> -0.1 <= w_taper w + 0.357 - 0.45 * exp (-0.0375 * w_25 w) <= 1.36.
Proof.
  intros (R & A & S & T). pose proof (exp_pos (-0.0375 * w_25 w)).
  assert (exp (-0.0375 * w_25 w) <= 1).
  { rewrite <- exp_0. destruct (Req_dec (w_25 w) 0) as [->|N]; [right; f_equal; lra|].
    left. apply exp_increasing. lra. }
  lra.
Qed.
Lemma compress_high m : m <= 0.84 -> 0.02 <= compress m.
Proof.
  intros H. unfold compress. destruct (Rlt_dec 0.3 m) as [L|L]; [|lra].
  assert (X : 0 < m / 0.3 - 1 <= 1.8).
  { split.
    - assert (1 < m / 0.3); [|lra]. apply Rmult_lt_reg_r with 0.3; [lra|]. unfold Rdiv; rewrite Rmult_assoc, Rinv_l; lra.
    - assert (m / 0.3 <= 2.8); [|lra]. apply Rmult_le_reg_r with 0.3; [lra|]. unfold Rdiv; rewrite Rmult_assoc, Rinv_l; lra. }
  assert (P : Rpower (m / 0.3 - 1) 10.82 <= 643).
  { apply Rle_trans with (Rpower 1.8 10.82); [apply Rle_Rpower_l; lra|].
    apply Rle_trans with (Rpower 1.8 (INR 11)).
    - apply Rle_Rpower; [lra|]. cbn [INR]. lra.
    - rewrite Rpower_pow by lra. lra. }
  lra.
Qed.
Lemma usual_raw w m : usual w -> m <= 0.84 -> 0.001 <= nita_raw w m.
Proof.
  intros U M. unfold nita_raw. pose proof (hoerner_small _ (usual_t w U)) as H1.
  pose proof (hoerner_pos (w_taper w + 0.357 - 0.45 * exp (-0.0375 * w_25 w))) as H0.
  pose proof (compress_high m M) as C. destruct U as ((A & _) & A' & _).
  set (h := hoerner _) in *. set (k := compress m) in *.
  assert (D : 0 < 1 + h * w_ar w <= 4) by nra.
  apply Rmult_le_reg_r with (1 + h * w_ar w); [lra|].
  unfold Rdiv. rewrite Rmult_assoc, Rinv_l by lra. nra.
Qed.
Lemma usual_silent w m : usual w -> m <= 0.84 -> if_too_small w m = [].
Proof.
  intros U M. unfold if_too_small. pose proof (usual_raw w m U M). destruct (Rlt_dec _ _); [lra|reflexivity].
Qed.

Lemma compress_low m : 0.85 <= m -> compress m <= 0.
Proof.
  intros H. unfold compress. destruct (Rlt_dec 0.3 m) as [L|L]; [|lra].
  assert (X : 11 / 6 <= m / 0.3 - 1).
  { assert (17 / 6 <= m / 0.3); [|lra]. apply Rmult_le_reg_r with 0.3; [lra|].
    unfold Rdiv at 2; rewrite Rmult_assoc, Rinv_l; lra. }
  assert (P : 658 <= Rpower (m / 0.3 - 1) 10.82).
  { apply Rle_trans with (Rpower (11 / 6) 10.82); [|apply Rle_Rpower_l; lra].
    apply Rle_trans with (Rpower (11 / 6) 10.8); [|apply Rle_Rpower; lra].
    replace 10.8 with (INR 54 * / 5) by (rewrite INR_IZR_INZ; cbn [Z.of_nat Pos.of_succ_nat Pos.succ]; lra).
    rewrite <- Rpower_mult, Rpower_pow by lra.
    replace 658 with (Rpower (658 ^ 5) (/ 5)).
    - apply Rle_Rpower_l; [lra|]. split; [apply pow_lt; lra|].
      unfold Rdiv. rewrite Rpow_mult_distr, pow_inv by lra.
      apply Rmult_le_reg_r with (6 ^ 54); [apply pow_lt; lra|].
      rewrite Rmult_assoc, Rinv_l, Rmult_1_r by (apply pow_nonzero; lra).
      rewrite !pow_IZR, <- mult_IZR. apply IZR_le. vm_compute. discriminate.
    - rewrite <- Rpower_pow by lra. rewrite Rpower_mult.
      replace (INR 5 * / 5) with 1 by (cbn [INR]; lra). apply Rpower_1. lra. }
  lra.
Qed.
Lemma fast_raw w m : regular w -> 0.85 <= m -> nita_raw w m < 0.001.
Proof.
  intros (A & _) M. unfold nita_raw. pose proof (compress_low m M) as C.
  pose proof (hoerner_pos (w_taper w + 0.357 - 0.45 * exp (-0.0375 * w_25 w))) as H0.
  set (h := hoerner _) in *. assert (D : 0 < 1 + h * w_ar w) by nra.
  apply Rle_lt_trans with 0; [|lra].
  apply Rmult_le_reg_r with (1 + h * w_ar w); [lra|].
  unfold Rdiv. rewrite Rmult_assoc, Rinv_l by lra. nra.
Qed.
Lemma fast_warns w m : regular w -> 0.85 <= m -> if_too_small w m = [WBounds].
Proof.
  intros U M. unfold if_too_small. pose proof (fast_raw w m U M). destruct (Rlt_dec _ _); [reflexivity|lra].
Qed.
