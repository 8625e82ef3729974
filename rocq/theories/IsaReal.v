(** The ISA formulas of the model as real functions in logarithmic form, and
    their slopes, joint mismatches and distance from the hydrostatic standard. *)
From Verif Require Import Base BaseFacts AnalysisFacts UnitsModel AtmosModel AtmosSpec.
Open Scope R_scope.

(** selection of the layer of altitude h *)
Definition layer {A} (h : R) (a b c d e : A) : A :=
  if Rlt_dec h 11000 then a else if Rlt_dec h 20000 then b
  else if Rlt_dec h 32000 then c else if Rlt_dec h 47000 then d else e.

(** log-pressure, per layer *)
Definition lp1 h := 5.2558797 * ln (8.9619638 + (-0.20216125e-3) * h).
Definition lp2 h := ln 128244.5 + (-0.15768852e-3) * h.
Definition lp3 h := -34.163218 * ln (0.70551848 + 3.5876861e-6 * h).
Definition lp4 h := -12.201149 * ln (0.34926867 + 7.0330980e-6 * h).
Definition lp5 h := ln 41828.42 + (-0.12622656e-3) * h.
Definition lp h := layer h (lp1 h) (lp2 h) (lp3 h) (lp4 h) (lp5 h).
(** log-density, per layer *)
Definition ld1 h := 4.2558797 * ln (1.048840 + (-23.659414e-6) * h).
Definition ld2 h := ln 2.0621400 + (-0.15768852e-3) * h.
Definition ld3 h := -35.163218 * ln (0.9726309 + 4.94600e-6 * h).
Definition ld4 h := -13.201149 * ln (0.84392929 + 16.993902e-6 * h).
Definition ld5 h := ln 0.53839563 + (-0.12622656e-3) * h.
Definition ld h := layer h (ld1 h) (ld2 h) (ld3 h) (ld4 h) (ld5 h).
(** temperature per layer *)
Definition tl h := layer h (288.15 + (-6.5e-3) * h) 216.65 (196.65 + 1e-3 * h)
                     (139.05 + 2.8e-3 * h) 270.65.

Lemma layer_num h (a b c d e : num) :
  (if (Fin h <? Level1)%num then a else if (Fin h <? Level2)%num then b
   else if (Fin h <? Level3)%num then c else if (Fin h <? Level4)%num then d else e)
  = layer h a b c d e.
Proof.
  unfold layer, Level1, Level2, Level3, Level4. rewrite !nltb_fin. unfold Rltb.
  repeat (destruct (Rlt_dec _ _); [reflexivity|]). reflexivity.
Qed.
Lemma layer_map {A B} (f : A -> B) h a b c d e :
  f (layer h a b c d e) = layer h (f a) (f b) (f c) (f d) (f e).
Proof. unfold layer; repeat (destruct (Rlt_dec _ _); [reflexivity|]); reflexivity. Qed.
Lemma layer_cases {A} (P : A -> Prop) h a b c d e :
  (h < 11000 -> P a) -> (11000 <= h < 20000 -> P b) -> (20000 <= h < 32000 -> P c) ->
  (32000 <= h < 47000 -> P d) -> (47000 <= h -> P e) -> P (layer h a b c d e).
Proof.
  intros H1 H2 H3 H4 H5. unfold layer.
  destruct (Rlt_dec h 11000); [auto|]. destruct (Rlt_dec h 20000); [apply H2; lra|].
  destruct (Rlt_dec h 32000); [apply H3; lra|]. destruct (Rlt_dec h 47000); [apply H4; lra|].
  apply H5; lra.
Qed.
Lemma layer1 {A} h (a b c d e : A) : h < 11000 -> layer h a b c d e = a.
Proof. intros H; unfold layer; destruct (Rlt_dec h 11000); [reflexivity|lra]. Qed.
Lemma layer2 {A} h (a b c d e : A) : 11000 <= h < 20000 -> layer h a b c d e = b.
Proof. intros H; unfold layer; destruct (Rlt_dec h 11000); [lra|]; destruct (Rlt_dec h 20000); [reflexivity|lra]. Qed.
Lemma layer3 {A} h (a b c d e : A) : 20000 <= h < 32000 -> layer h a b c d e = c.
Proof. intros H; unfold layer; destruct (Rlt_dec h 11000); [lra|]; destruct (Rlt_dec h 20000); [lra|];
  destruct (Rlt_dec h 32000); [reflexivity|lra]. Qed.
Lemma layer4 {A} h (a b c d e : A) : 32000 <= h < 47000 -> layer h a b c d e = d.
Proof. intros H; unfold layer; destruct (Rlt_dec h 11000); [lra|]; destruct (Rlt_dec h 20000); [lra|];
  destruct (Rlt_dec h 32000); [lra|]; destruct (Rlt_dec h 47000); [reflexivity|lra]. Qed.
Lemma layer5 {A} h (a b c d e : A) : 47000 <= h -> layer h a b c d e = e.
Proof. intros H; unfold layer; destruct (Rlt_dec h 11000); [lra|]; destruct (Rlt_dec h 20000); [lra|];
  destruct (Rlt_dec h 32000); [lra|]; destruct (Rlt_dec h 47000); [lra|reflexivity]. Qed.

(** [layer] only looks at the branch of the layer of h *)
Lemma layer_ext {A} h (a b c d e a' b' c' d' e' : A) :
  (h < 11000 -> a = a') -> (11000 <= h < 20000 -> b = b') -> (20000 <= h < 32000 -> c = c') ->
  (32000 <= h < 47000 -> d = d') -> (47000 <= h -> e = e') ->
  layer h a b c d e = layer h a' b' c' d' e'.
Proof.
  intros H1 H2 H3 H4 H5. unfold layer.
  destruct (Rlt_dec h 11000); [auto|]. destruct (Rlt_dec h 20000); [apply H2; lra|].
  destruct (Rlt_dec h 32000); [apply H3; lra|]. destruct (Rlt_dec h 47000); [apply H4; lra|].
  apply H5; lra.
Qed.

Lemma isapress1_real h : isapress1 (Fin h) = Fin (exp (lp h)).
Proof.
  unfold isapress1. rewrite layer_num. unfold lp.
  rewrite (layer_map exp), (layer_map Fin). apply layer_ext; intros H.
  - unfold C1, D1, E1. nfin. reflexivity.
  - unfold F2, G2. nfin. apply Fin_eq. unfold lp2. rewrite exp_plus, exp_ln by lra. reflexivity.
  - unfold C3, D3, E3. nfin. reflexivity.
  - unfold C4, D4, E4. nfin. reflexivity.
  - unfold F5, G5. nfin. apply Fin_eq. unfold lp5. rewrite exp_plus, exp_ln by lra. reflexivity.
Qed.

Lemma tl_pos h : 150 <= tl h \/ 11000 > h.
Proof. unfold tl. apply (layer_cases (fun x => 150 <= x \/ 11000 > h)); intros; lra. Qed.
Lemma tl_low h : -5000 <= h -> 216 <= tl h.
Proof. intros H. unfold tl. apply (layer_cases (fun x => 216 <= x)); intros; lra. Qed.
Lemma tl_pos' h : 0 < tl h.
Proof. unfold tl. apply (layer_cases (fun x => 0 < x)); intros; lra. Qed.

Lemma isatemp1_real o h : isatemp1 (Fin o) (Fin h) = Fin (tl h + o).
Proof.
  unfold isatemp1. rewrite layer_num. unfold tl.
  rewrite <- nadd_fin, (layer_map Fin).
  f_equal. apply layer_ext; intros H;
  unfold A1, B1, A2, B2, A3, B3, A4, B4, A5, B5; nfin; apply Fin_eq; lra.
Qed.

Lemma isadens1_real o h : tl h + o <> 0 ->
  isadens1 (Fin o) (Fin h) = Fin (exp (ld h) * tl h / (tl h + o)).
Proof.
  intros Ho. unfold isadens1. rewrite layer_num, isatemp1_real.
  pose proof (tl_pos' h) as Ht.
  replace (layer h ((I1 + J1 * #(h)) ** L1)%num (M2 * nexp (N2 * #(h)))%num
       ((I3 + J3 * #(h)) ** L3)%num ((I4 + J4 * #(h)) ** L4)%num (M5 * nexp (N5 * #(h)))%num)
   with (Fin (exp (ld h))).
  2:{ unfold ld. rewrite (layer_map exp), (layer_map Fin). symmetry. apply layer_ext; intros H.
    - unfold I1, J1, L1. nfin. reflexivity.
    - unfold M2, N2. nfin. apply Fin_eq. unfold ld2. rewrite exp_plus, exp_ln by lra. reflexivity.
    - unfold I3, J3, L3. nfin. reflexivity.
    - unfold I4, J4, L4. nfin. reflexivity.
    - unfold M5, N5. nfin. apply Fin_eq. unfold ld5. rewrite exp_plus, exp_ln by lra. reflexivity. }
  rewrite nsub_fin. replace (tl h + o - o) with (tl h) by ring.
  rewrite (ndiv_fin o) by lra. rewrite nadd_fin.
  assert (1 + o / tl h <> 0) as Hn.
  { intros E. apply Ho. assert (tl h * (1 + o / tl h) = 0) as E2 by (rewrite E; ring).
    rewrite <- E2. field. lra. }
  rewrite ndiv_fin by exact Hn. apply Fin_eq. field.
  repeat split; try lra; exact Ho.
Qed.
(** at an offset cancelling the absolute temperature the code divides by zero *)
Lemma isadens1_zero o h : tl h + o = 0 -> isadens1 (Fin o) (Fin h) = NonFin.
Proof.
  intros Ho. unfold isadens1. rewrite isatemp1_real. rewrite nsub_fin.
  replace (tl h + o - o) with (tl h) by ring. pose proof (tl_pos' h) as Ht.
  rewrite (ndiv_fin o) by lra. rewrite nadd_fin.
  replace (1 + o / tl h) with 0.
  - apply ndiv_zero.
  - replace o with (- tl h) by lra. field; lra.
Qed.

(** ** slopes *)
Lemma loglin_slope E C D m M a b : a <= b ->
  (forall c, a <= c <= b -> 0 < C + D * c /\ m * (C + D * c) <= E * D <= M * (C + D * c)) ->
  m * (b - a) <= E * ln (C + D * b) - E * ln (C + D * a) <= M * (b - a).
Proof.
  intros Hab H.
  apply (mvt_bounds (fun x => E * ln (C + D * x)) (fun x => E * (D / (C + D * x)))); [exact Hab| |].
  - intros c Hc. apply (dl_scal E (fun x => ln (C + D * x))).
    apply (dl_ln (fun x => C + D * x)); [apply dl_affine|]. apply H; exact Hc.
  - intros c Hc. destruct (H c Hc) as [Hp [H1 H2]].
    replace (E * (D / (C + D * c))) with ((E * D) / (C + D * c)) by (field; lra).
    split; apply Rmult_le_reg_r with (C + D * c); try exact Hp;
    replace (E * D / (C + D * c) * (C + D * c)) with (E * D) by (field; lra); lra.
Qed.
(** two competing logarithms, nearly cancelling *)
Lemma loglog_slope E C D K A B u0 v0 M a b : a <= b -> 0 < u0 -> 0 < v0 -> 0 <= M ->
  (forall c, a <= c <= b -> u0 <= C + D * c /\ v0 <= A + B * c /\
     - (M * u0 * v0) <= E * D * (A + B * c) + K * B * (C + D * c) <= M * u0 * v0) ->
  - M * (b - a) <= (E * ln (C + D * b) + K * ln (A + B * b))
                 - (E * ln (C + D * a) + K * ln (A + B * a)) <= M * (b - a).
Proof.
  intros Hab Hu Hv HM H.
  apply (mvt_bounds (fun x => E * ln (C + D * x) + K * ln (A + B * x))
           (fun x => E * (D / (C + D * x)) + K * (B / (A + B * x)))); [exact Hab| |].
  - intros c Hc. destruct (H c Hc) as [H1 [H2 _]].
    apply (dl_add (fun x => E * ln (C + D * x)) (fun x => K * ln (A + B * x))).
    + apply (dl_scal E (fun x => ln (C + D * x))).
      apply (dl_ln (fun x => C + D * x)); [apply dl_affine|lra].
    + apply (dl_scal K (fun x => ln (A + B * x))).
      apply (dl_ln (fun x => A + B * x)); [apply dl_affine|lra].
  - intros c Hc. destruct (H c Hc) as [H1 [H2 H3]].
    set (u := C + D * c) in *. set (v := A + B * c) in *.
    replace (E * (D / u) + K * (B / v)) with ((E * D * v + K * B * u) / (u * v)) by (field; lra).
    assert (0 < u * v) as Huv by (apply Rmult_lt_0_compat; lra).
    assert (u0 * v0 <= u * v) as Hle by (apply Rmult_le_compat; lra).
    assert (M * u0 * v0 <= M * (u * v)) as HMu.
    { rewrite Rmult_assoc. apply Rmult_le_compat_l; lra. }
    split; apply Rmult_le_reg_r with (u * v); try exact Huv;
    replace ((E * D * v + K * B * u) / (u * v) * (u * v)) with (E * D * v + K * B * u) by (field; lra); lra.
Qed.

Ltac slope_tac := intros Ha Hab Hb;
  apply loglin_slope; [exact Hab|]; intros c Hc; split; [lra|split; lra].

Lemma lp1_slope a b : -5000 <= a -> a <= b -> b <= 11001 ->
  -0.000158 * (b - a) <= lp1 b - lp1 a <= -0.000106 * (b - a).
Proof. slope_tac. Qed.
Lemma lp2_slope a b : lp2 b - lp2 a = -0.15768852e-3 * (b - a).
Proof. unfold lp2; ring. Qed.
Lemma lp3_slope a b : 19999 <= a -> a <= b -> b <= 32001 ->
  -0.000158 * (b - a) <= lp3 b - lp3 a <= -0.000149 * (b - a).
Proof. slope_tac. Qed.
Lemma lp4_slope a b : 31999 <= a -> a <= b -> b <= 47001 ->
  -0.00015 * (b - a) <= lp4 b - lp4 a <= -0.000126 * (b - a).
Proof. slope_tac. Qed.
Lemma lp5_slope a b : lp5 b - lp5 a = -0.12622656e-3 * (b - a).
Proof. unfold lp5; ring. Qed.
Lemma ld1_slope a b : -5000 <= a -> a <= b -> b <= 11001 ->
  -0.000128 * (b - a) <= ld1 b - ld1 a <= -0.000086 * (b - a).
Proof. slope_tac. Qed.
Lemma ld2_slope a b : ld2 b - ld2 a = -0.15768852e-3 * (b - a).
Proof. unfold ld2; ring. Qed.
Lemma ld3_slope a b : 19999 <= a -> a <= b -> b <= 32001 ->
  -0.000163 * (b - a) <= ld3 b - ld3 a <= -0.000153 * (b - a).
Proof. slope_tac. Qed.
Lemma ld4_slope a b : 31999 <= a -> a <= b -> b <= 47001 ->
  -0.000162 * (b - a) <= ld4 b - ld4 a <= -0.000136 * (b - a).
Proof. slope_tac. Qed.
Lemma ld5_slope a b : ld5 b - ld5 a = -0.12622656e-3 * (b - a).
Proof. unfold ld5; ring. Qed.

(** ** joints *)
Ltac ln_at H q k lo hi := ln_enclose H q k lo hi.
Lemma lnE_p1 : 1.907791350284 <= ln (8.9619638 + (-0.20216125e-3) * 11000) <= 1.907791350287.
Proof. replace (8.9619638 + (-0.20216125e-3) * 11000) with 6.73819005 by lra.
  ln_at H 6.73819005 2%Z (1.907791350284) (1.907791350287). exact H. Qed.
Lemma lnE_F2 : 11.761693877122 <= ln 128244.5 <= 11.761693877125.
Proof. ln_at H 128244.5 16%Z (11.761693877122) (11.761693877125). exact H. Qed.
Lemma lnE_p3a : -0.251964665641 <= ln (0.70551848 + 3.5876861e-6 * 20000) <= -0.251964665638.
Proof. replace (0.70551848 + 3.5876861e-6 * 20000) with 0.777272202 by lra.
  ln_at H 0.777272202 (-1)%Z (-0.251964665641) (-0.251964665638). exact H. Qed.
Lemma lnE_p3b : -0.198055364292 <= ln (0.70551848 + 3.5876861e-6 * 32000) <= -0.198055364289.
Proof. replace (0.70551848 + 3.5876861e-6 * 32000) with 0.8203244352 by lra.
  ln_at H 0.8203244352 (-1)%Z (-0.198055364292) (-0.198055364289). exact H. Qed.
Lemma lnE_p4a : -0.554554955082 <= ln (0.34926867 + 7.0330980e-6 * 32000) <= -0.554554955079.
Proof. replace (0.34926867 + 7.0330980e-6 * 32000) with 0.574327806 by lra.
  ln_at H 0.574327806 (-1)%Z (-0.554554955082) (-0.554554955079). exact H. Qed.
Lemma lnE_p4b : -0.385920931856 <= ln (0.34926867 + 7.0330980e-6 * 47000) <= -0.385920931853.
Proof. replace (0.34926867 + 7.0330980e-6 * 47000) with 0.679824276 by lra.
  ln_at H 0.679824276 (-1)%Z (-0.385920931856) (-0.385920931853). exact H. Qed.
Lemma lnE_F5 : 10.641331291787 <= ln 41828.42 <= 10.64133129179.
Proof. ln_at H 41828.42 15%Z (10.641331291787) (10.64133129179). exact H. Qed.
Lemma lnE_d1 : -0.237513245109 <= ln (1.048840 + (-23.659414e-6) * 11000) <= -0.237513245106.
Proof. replace (1.048840 + (-23.659414e-6) * 11000) with 0.788586446 by lra.
  ln_at H 0.788586446 (-1)%Z (-0.237513245109) (-0.237513245106). exact H. Qed.
Lemma lnE_M2 : 0.723744278536 <= ln 2.0621400 <= 0.723744278539.
Proof. ln_at H 2.0621400 1%Z (0.723744278536) (0.723744278539). exact H. Qed.
Lemma lnE_d3a : 0.069107038302 <= ln (0.9726309 + 4.94600e-6 * 20000) <= 0.069107038305.
Proof. replace (0.9726309 + 4.94600e-6 * 20000) with 1.0715509 by lra.
  ln_at H 1.0715509 0%Z (0.069107038302) (0.069107038305). exact H. Qed.
Lemma lnE_d3b : 0.12301634022 <= ln (0.9726309 + 4.94600e-6 * 32000) <= 0.123016340223.
Proof. replace (0.9726309 + 4.94600e-6 * 32000) with 1.1309029 by lra.
  ln_at H 1.1309029 0%Z (0.12301634022) (0.123016340223). exact H. Qed.
Lemma lnE_d4a : 0.327672312038 <= ln (0.84392929 + 16.993902e-6 * 32000) <= 0.327672312041.
Proof. replace (0.84392929 + 16.993902e-6 * 32000) with 1.387734154 by lra.
  ln_at H 1.387734154 0%Z (0.327672312038) (0.327672312041). exact H. Qed.
Lemma lnE_d4b : 0.496306337617 <= ln (0.84392929 + 16.993902e-6 * 47000) <= 0.49630633762.
Proof. replace (0.84392929 + 16.993902e-6 * 47000) with 1.642642684 by lra.
  ln_at H 1.642642684 0%Z (0.496306337617) (0.49630633762). exact H. Qed.
Lemma lnE_M5 : -0.619161617328 <= ln 0.53839563 <= -0.619161617325.
Proof. ln_at H 0.53839563 (-1)%Z (-0.619161617328) (-0.619161617325). exact H. Qed.
Lemma lnE_R : 5.65966641482 <= ln 287.05287 <= 5.659666414823.
Proof. ln_at H 287.05287 8%Z (5.65966641482) (5.659666414823). exact H. Qed.
Lemma lnE_T0 : 5.663481177881 <= ln 288.15 <= 5.663481177884.
Proof. ln_at H 288.15 8%Z (5.663481177881) (5.663481177884). exact H. Qed.
Lemma lnE_T1 : 5.378283148184 <= ln 216.65 <= 5.378283148187.
Proof. ln_at H 216.65 7%Z (5.378283148184) (5.378283148187). exact H. Qed.
Lemma lnE_T3 : 5.432192450103 <= ln 228.65 <= 5.432192450106.
Proof. ln_at H 228.65 7%Z (5.432192450103) (5.432192450106). exact H. Qed.
Lemma lnE_T4 : 5.600826473241 <= ln 270.65 <= 5.600826473244.
Proof. ln_at H 270.65 8%Z (5.600826473241) (5.600826473244). exact H. Qed.
Lemma lnE_p0 : 11.526088451495 <= ln 101325 <= 11.526088451498.
Proof. replace (ln 101325) with (ln 101325.0) by (f_equal; lra).
  ln_at H 101325.0 16%Z (11.526088451495) (11.526088451498). exact H. Qed.
Lemma lnE_C1 : 2.192989377077 <= ln (8.9619638 + (-0.20216125e-3) * 0) <= 2.19298937708.
Proof. replace (8.9619638 + (-0.20216125e-3) * 0) with 8.9619638 by lra.
  ln_at H 8.9619638 3%Z (2.192989377077) (2.19298937708). exact H. Qed.
Lemma lnE_I1 : 0.047684791564 <= ln (1.048840 + (-23.659414e-6) * 0) <= 0.047684791567.
Proof. replace (1.048840 + (-23.659414e-6) * 0) with 1.048840 by lra.
  ln_at H 1.048840 0%Z (0.047684791564) (0.047684791567). exact H. Qed.

(** log-pressure mismatch (lower formula minus upper formula) at each joint *)
Lemma lp_joint1 : 1.67e-6 <= lp1 11000 - lp2 11000 <= 1.68e-6.
Proof. unfold lp1, lp2. pose proof lnE_p1; pose proof lnE_F2. lra. Qed.
Lemma lp_joint2 : -3.24e-7 <= lp2 20000 - lp3 20000 <= -3.23e-7.
Proof. unfold lp2, lp3. pose proof lnE_F2; pose proof lnE_p3a. lra. Qed.
Lemma lp_joint3 : 9.5e-7 <= lp3 32000 - lp4 32000 <= 9.51e-7.
Proof. unfold lp3, lp4. pose proof lnE_p3b; pose proof lnE_p4a. lra. Qed.
Lemma lp_joint4 : -4.19e-6 <= lp4 47000 - lp5 47000 <= -4.17e-6.
Proof. unfold lp4, lp5. pose proof lnE_p4b; pose proof lnE_F5. lra. Qed.
Lemma ld_joint1 : 1.64e-6 <= ld1 11000 - ld2 11000 <= 1.65e-6.
Proof. unfold ld1, ld2. pose proof lnE_d1; pose proof lnE_M2. lra. Qed.
Lemma ld_joint2 : -2.69e-7 <= ld2 20000 - ld3 20000 <= -2.68e-7.
Proof. unfold ld2, ld3. pose proof lnE_d3a; pose proof lnE_M2. lra. Qed.
Lemma ld_joint3 : 6.25e-7 <= ld3 32000 - ld4 32000 <= 6.26e-7.
Proof. unfold ld3, ld4. pose proof lnE_d3b; pose proof lnE_d4a. lra. Qed.
Lemma ld_joint4 : -3.98e-6 <= ld4 47000 - ld5 47000 <= -3.97e-6.
Proof. unfold ld4, ld5. pose proof lnE_d4b; pose proof lnE_M5. lra. Qed.
