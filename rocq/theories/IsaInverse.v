(** Pressure altitude and density altitude as inverses of the ISA: C09, C10. *)
From Verif Require Import Base BaseFacts AnalysisFacts UnitsModel AtmosModel AtmosSpec IsaReal IsaProofs.
Open Scope R_scope.

Lemma lnE_pL1 : 10.027120157122 <= ln 22632.000999016603 <= 10.027120157125.
Proof. ln_at H 22632.000999016603 (14)%Z (10.027120157122) (10.027120157125). exact H. Qed.
Lemma lnE_pL2 : 8.607923800535 <= ln 5474.8699475808515 <= 8.607923800538.
Proof. ln_at H 5474.8699475808515 (12)%Z (8.607923800535) (8.607923800538). exact H. Qed.
Lemma lnE_pL3 : 6.766207635623 <= ln 868.01381950678511 <= 6.766207635626.
Proof. ln_at H 868.01381950678511 (9)%Z (6.766207635623) (6.766207635626). exact H. Qed.
Lemma lnE_pL4 : 4.708682971788 <= ln 110.90599734942646 <= 4.708682971791.
Proof. ln_at H 110.90599734942646 (6)%Z (4.708682971788) (4.708682971791). exact H. Qed.
Lemma lnE_dL1 : -1.010829441464 <= ln 0.36391700650017816 <= -1.010829441461.
Proof. ln_at H 0.36391700650017816 (-2)%Z (-1.010829441464) (-1.010829441461). exact H. Qed.
Lemma lnE_dL2 : -2.430025853184 <= ln 0.088034556579455497 <= -2.430025853181.
Proof. ln_at H 0.088034556579455497 (-4)%Z (-2.430025853184) (-2.430025853181). exact H. Qed.
Lemma lnE_dL3 : -4.325651014413 <= ln 0.013224937668421609 <= -4.325651014410.
Proof. ln_at H 0.013224937668421609 (-7)%Z (-4.325651014413) (-4.325651014410). exact H. Qed.
Lemma lnE_dL4 : -6.551809937327 <= ln 0.0014275295197313882 <= -6.551809937324.
Proof. ln_at H 0.0014275295197313882 (-10)%Z (-6.551809937327) (-6.551809937324). exact H. Qed.

(** inverse of [E * ln (C + D * h)] *)
Definition powalt E C D x := (exp (x / E) - C) / D.
Lemma powalt_inv E C D h : E <> 0 -> D <> 0 -> 0 < C + D * h -> powalt E C D (E * ln (C + D * h)) = h.
Proof.
  intros HE HD Hp. unfold powalt.
  replace (E * ln (C + D * h) / E) with (ln (C + D * h)) by (field; exact HE).
  rewrite exp_ln by exact Hp. field; exact HD.
Qed.
Lemma powalt_sound E C D x : E <> 0 -> D <> 0 ->
  0 < C + D * powalt E C D x /\ E * ln (C + D * powalt E C D x) = x.
Proof.
  intros HE HD. unfold powalt.
  replace (C + D * ((exp (x / E) - C) / D)) with (exp (x / E)) by (field; exact HD).
  split; [apply exp_pos|]. rewrite ln_exp. field; exact HE.
Qed.
Lemma loglin_anti E C D a b : E <> 0 -> D <> 0 -> E * D < 0 -> 0 < C + D * a -> 0 < C + D * b ->
  a < b -> E * ln (C + D * b) < E * ln (C + D * a).
Proof.
  intros HE HD HED Ha Hb Hab.
  destruct (Rlt_dec E 0) as [H|H].
  - assert (0 < D) by nra.
    assert (ln (C + D * a) < ln (C + D * b)) by (apply ln_increasing; [exact Ha|nra]). nra.
  - assert (D < 0) by nra.
    assert (ln (C + D * b) < ln (C + D * a)) by (apply ln_increasing; [exact Hb|nra]). nra.
Qed.
Lemma powalt_between E C D x lo hi : E <> 0 -> D <> 0 -> E * D < 0 ->
  0 < C + D * lo -> 0 < C + D * hi ->
  E * ln (C + D * hi) <= x <= E * ln (C + D * lo) -> lo <= powalt E C D x <= hi.
Proof.
  intros HE HD HED Hlo Hhi Hx. destruct (powalt_sound E C D x HE HD) as [Hp Hs].
  split; apply Rnot_lt_le; intros Hlt.
  - pose proof (loglin_anti E C D _ _ HE HD HED Hp Hlo Hlt). lra.
  - pose proof (loglin_anti E C D _ _ HE HD HED Hhi Hp Hlt). lra.
Qed.

(** ** pressure *)
Definition pa1 x := powalt 5.2558797 8.9619638 (-0.20216125e-3) x.
Definition pa2 x := (x - ln 128244.5) / (-0.15768852e-3).
Definition pa3 x := powalt (-34.163218) 0.70551848 3.5876861e-6 x.
Definition pa4 x := powalt (-12.201149) 0.34926867 7.0330980e-6 x.
Definition pa5 x := (x - ln 41828.42) / (-0.12622656e-3).
Definition pick x t1 t2 t3 t4 (a1 a2 a3 a4 a5 : R) :=
  if Rlt_dec t1 x then a1 else if Rlt_dec t2 x then a2 else if Rlt_dec t3 x then a3
  else if Rlt_dec t4 x then a4 else a5.
Definition palt x := pick x (ln 22632.000999016603) (ln 5474.8699475808515)
  (ln 868.01381950678511) (ln 110.90599734942646) (pa1 x) (pa2 x) (pa3 x) (pa4 x) (pa5 x).

Lemma Rltb_exp a x : 0 < a -> Rltb a (exp x) = if Rlt_dec (ln a) x then true else false.
Proof.
  intros Ha. destruct (Rlt_dec (ln a) x) as [H|H].
  - apply Rltb_true. rewrite <- (exp_ln a Ha). apply exp_increasing; exact H.
  - apply Rltb_false. rewrite <- (exp_ln a Ha).
    destruct (Rle_lt_or_eq_dec x (ln a) ltac:(lra)) as [H1|H1].
    + left; apply exp_increasing; exact H1.
    + rewrite <- H1. right; reflexivity.
Qed.
Lemma powalt_model E C D x : E <> 0 -> D <> 0 ->
  ((Fin (exp x) ** (#1 / Fin E) - Fin C) / Fin D)%num = Fin (powalt E C D x).
Proof.
  intros HE HD. rewrite ndiv_fin by exact HE. rewrite npow_fin by apply exp_pos.
  rewrite nsub_fin, ndiv_fin by exact HD. apply Fin_eq. unfold powalt, Rpower. rewrite ln_exp.
  do 3 f_equal. field; exact HE.
Qed.
Lemma log1p_model F G x : 0 < F -> G <> 0 ->
  (do l <- mlog1p (Fin (exp x) / Fin F - #1)%num; Ok ((#1 / Fin G) * l)%num)
  = Ok (Fin ((x - ln F) / G)).
Proof.
  intros HF HG. rewrite ndiv_fin by lra. rewrite nsub_fin.
  assert (0 < exp x / F) as Hp by (apply Rdiv_lt_0_compat; [apply exp_pos|exact HF]).
  unfold mlog1p. rewrite Rleb_false by lra. cbn [rbind].
  rewrite ndiv_fin by exact HG. rewrite nmul_fin. do 2 f_equal.
  replace (1 + (exp x / F - 1)) with (exp x * / F) by (unfold Rdiv; ring).
  rewrite ln_mult, ln_exp, ln_Rinv by (try apply exp_pos; try apply Rinv_0_lt_compat; exact HF).
  field; exact HG.
Qed.

Lemma isapressalt1_real x : isapressalt1 (Fin (exp x)) = Ok (Fin (palt x)).
Proof.
  unfold isapressalt1, palt, pick, pLevel1, pLevel2, pLevel3, pLevel4. rewrite !nltb_fin.
  rewrite !Rltb_exp by lra. unfold C1, D1, E1, C3, D3, E3, C4, D4, E4, F2, G2, F5, G5.
  rewrite !powalt_model by lra. rewrite !log1p_model by lra.
  repeat (destruct (Rlt_dec _ _); [reflexivity|]). reflexivity.
Qed.
Lemma isapressalt1_nonpos p : p <= 0 -> isapressalt1 (Fin p) = Err ValueError.
Proof.
  intros Hp. unfold isapressalt1, pLevel1, pLevel2, pLevel3, pLevel4. rewrite !nltb_fin.
  rewrite !Rltb_false by lra. unfold F5. rewrite ndiv_fin by lra. rewrite nsub_fin.
  unfold mlog1p. rewrite Rleb_true; [reflexivity|].
  assert (p / 41828.42 <= 0); [|lra]. unfold Rdiv.
  assert (0 < / 41828.42) by (apply Rinv_0_lt_compat; lra). nra.
Qed.

(** each branch is the exact inverse of its layer formula *)
Lemma pa1_lp h : -5000 <= h -> h <= 11001 -> pa1 (lp1 h) = h.
Proof. intros; apply powalt_inv; lra. Qed.
Lemma pa2_lp h : pa2 (lp2 h) = h.
Proof. unfold pa2, lp2. lra. Qed.
Lemma pa3_lp h : 19999 <= h -> h <= 32001 -> pa3 (lp3 h) = h.
Proof. intros; apply powalt_inv; lra. Qed.
Lemma pa4_lp h : 31999 <= h -> h <= 47001 -> pa4 (lp4 h) = h.
Proof. intros; apply powalt_inv; lra. Qed.
Lemma pa5_lp h : pa5 (lp5 h) = h.
Proof. unfold pa5, lp5. lra. Qed.
Lemma pa1_between x lo hi : -50000 <= lo -> hi <= 11001 -> lo <= hi ->
  lp1 hi <= x <= lp1 lo -> lo <= pa1 x <= hi.
Proof. intros; apply powalt_between; try lra; assumption. Qed.
Lemma pa2_between x lo hi : lp2 hi <= x <= lp2 lo -> lo <= pa2 x <= hi.
Proof. unfold pa2, lp2; intros; lra. Qed.
Lemma pa3_between x lo hi : 19999 <= lo -> hi <= 32001 -> lo <= hi ->
  lp3 hi <= x <= lp3 lo -> lo <= pa3 x <= hi.
Proof. intros; apply powalt_between; try lra; assumption. Qed.
Lemma pa4_between x lo hi : 31999 <= lo -> hi <= 47001 -> lo <= hi ->
  lp4 hi <= x <= lp4 lo -> lo <= pa4 x <= hi.
Proof. intros; apply powalt_between; try lra; assumption. Qed.
Lemma pa5_between x lo hi : lp5 hi <= x <= lp5 lo -> lo <= pa5 x <= hi.
Proof. unfold pa5, lp5; intros; lra. Qed.

(** values at the joints *)
Lemma lp1_11 : 10.02712182960 <= lp1 11000 <= 10.02712183000. Proof. unfold lp1. pose proof lnE_p1. lra. Qed.
Lemma lp2_11 : 10.02712015692 <= lp2 11000 <= 10.02712015732. Proof. unfold lp2. pose proof lnE_F2. lra. Qed.
Lemma lp2_20 : 8.60792347692 <= lp2 20000 <= 8.60792347732. Proof. unfold lp2. pose proof lnE_F2. lra. Qed.
Lemma lp3_20 : 8.60792380034 <= lp3 20000 <= 8.60792380074. Proof. unfold lp3. pose proof lnE_p3a. lra. Qed.
Lemma lp3_32 : 6.76620858614 <= lp3 32000 <= 6.76620858654. Proof. unfold lp3. pose proof lnE_p3b. lra. Qed.
Lemma lp4_32 : 6.76620763542 <= lp4 32000 <= 6.76620763582. Proof. unfold lp4. pose proof lnE_p4a. lra. Qed.
Lemma lp4_47 : 4.70867879158 <= lp4 47000 <= 4.70867879198. Proof. unfold lp4. pose proof lnE_p4b. lra. Qed.
Lemma lp5_47 : 4.70868297159 <= lp5 47000 <= 4.70868297199. Proof. unfold lp5. pose proof lnE_F5. lra. Qed.

Ltac sl L a b := pose proof (L a b ltac:(lra) ltac:(lra) ltac:(lra)).

(** round trip altitude -> pressure -> altitude, on the logarithmic forms *)
Lemma palt_lp h : -5000 <= h -> h <= 50000 ->
  h - 0.05 <= palt (lp h) <= h + 0.05 /\ (clear_of_joints 0.05 h -> palt (lp h) = h).
Proof.
  intros Ha Hb. unfold clear_of_joints.
  pose proof lnE_pL1; pose proof lnE_pL2; pose proof lnE_pL3; pose proof lnE_pL4.
  pose proof lp1_11; pose proof lp2_11; pose proof lp2_20; pose proof lp3_20.
  pose proof lp3_32; pose proof lp4_32; pose proof lp4_47; pose proof lp5_47.
  unfold palt, pick, lp, layer. split_layers h.
  - sl lp1_slope h 11000. destruct (Rlt_dec _ (lp1 h)); [|exfalso; lra].
    rewrite pa1_lp by lra. split; [lra|reflexivity].
  - pose proof (lp2_slope h 20000); pose proof (lp2_slope 11000 h).
    destruct (Rlt_dec _ (lp2 h)).
    + (* only within rounding distance of 11 km *)
      sl lp1_slope 10999.9 11000. sl lp1_slope 11000 11000.03.
      assert (11000 <= h <= 11000.01) by lra.
      assert (10999.98 <= pa1 (lp2 h) <= 11000.03).
      { apply pa1_between; try lra. sl lp1_slope 10999.98 11000. lra. }
      split; [lra|]. intros [K _]. rewrite Rabs_pos_eq in K; lra.
    + destruct (Rlt_dec _ (lp2 h)); [rewrite pa2_lp; split; [lra|reflexivity]|].
      (* just below 20 km *)
      assert (19999.99 <= h) by lra.
      sl lp3_slope 19999.98 20000. sl lp3_slope 20000 20000.03.
      destruct (Rlt_dec _ (lp2 h)); [|exfalso; lra].
      assert (19999.98 <= pa3 (lp2 h) <= 20000.03) by (apply pa3_between; lra).
      split; [lra|]. intros [_ [K _]]. rewrite Rabs_left1 in K; lra.
  - sl lp3_slope 20000 h. sl lp3_slope h 32000.
    destruct (Rlt_dec _ (lp3 h)); [exfalso; lra|].
    destruct (Rlt_dec _ (lp3 h)).
    + assert (h <= 20000.01) by lra.
      assert (19999.98 <= pa2 (lp3 h) <= 20000.03).
      { pose proof (lp2_slope 19999.98 20000). pose proof (lp2_slope 20000 20000.03).
        apply pa2_between. lra. }
      split; [lra|]. intros [_ [K _]]. rewrite Rabs_pos_eq in K; lra.
    + destruct (Rlt_dec _ (lp3 h)); [|exfalso; lra].
      rewrite pa3_lp by lra. split; [lra|reflexivity].
  - sl lp4_slope 32000 h. sl lp4_slope h 47000.
    destruct (Rlt_dec _ (lp4 h)); [exfalso; lra|].
    destruct (Rlt_dec _ (lp4 h)); [exfalso; lra|].
    destruct (Rlt_dec _ (lp4 h)).
    + assert (h <= 32000.01) by lra.
      sl lp3_slope 31999.98 32000. sl lp3_slope 32000 32000.03.
      assert (31999.98 <= pa3 (lp4 h) <= 32000.03) by (apply pa3_between; lra).
      split; [lra|]. intros [_ [_ [K _]]]. rewrite Rabs_pos_eq in K; lra.
    + destruct (Rlt_dec _ (lp4 h)).
      * rewrite pa4_lp by lra. split; [lra|reflexivity].
      * assert (46999.96 <= h) by lra.
        pose proof (lp5_slope 46999.95 47000); pose proof (lp5_slope 47000 47000.045).
        pose proof (lp5_slope h 47000).
        assert (h - 0.05 <= pa5 (lp4 h) <= h + 0.05).
        { pose proof (lp5_slope (h - 0.05) 47000); pose proof (lp5_slope (h + 0.05) 47000).
          apply pa5_between; lra. }
        split; [lra|]. intros [_ [_ [_ K]]]. rewrite Rabs_left1 in K; lra.
  - pose proof (lp5_slope 47000 h).
    destruct (Rlt_dec _ (lp5 h)); [exfalso; lra|].
    destruct (Rlt_dec _ (lp5 h)); [exfalso; lra|].
    destruct (Rlt_dec _ (lp5 h)); [exfalso; lra|].
    destruct (Rlt_dec _ (lp5 h)).
    + assert (h <= 47000.001) by lra.
      sl lp4_slope 46999.96 47000. sl lp4_slope 47000 47000.04.
      assert (46999.96 <= pa4 (lp5 h) <= 47000.04) by (apply pa4_between; lra).
      split; [lra|]. intros [_ [_ [_ K]]]. rewrite Rabs_pos_eq in K; lra.
    + rewrite pa5_lp. split; [lra|reflexivity].
Qed.

Lemma pressure_altitude h : -5000 <= h -> h <= 50000 ->
  exists h', isapressalt1 (isapress1 (Fin h)) = Ok (Fin h') /\
    Rabs (h' - h) <= 0.05 /\ (clear_of_joints 0.05 h -> h' = h).
Proof.
  intros Ha Hb. rewrite isapress1_real, isapressalt1_real.
  destruct (palt_lp h Ha Hb) as [H1 H2]. exists (palt (lp h)).
  split; [reflexivity|]. split; [|exact H2].
  apply Rabs_le. lra.
Qed.

(** the other direction: the ISA has the given pressure at the pressure altitude *)
Lemma lp_palt x : lp 50000 <= x <= lp (-5000) -> 
  -5000 <= palt x <= 50000 /\ Rabs (lp (palt x) - x) <= 5e-6.
Proof.
  unfold lp at 1 2. rewrite layer5 by lra. rewrite layer1 by lra. intros [Hlo Hhi].
  pose proof lnE_pL1; pose proof lnE_pL2; pose proof lnE_pL3; pose proof lnE_pL4.
  pose proof lp1_11; pose proof lp2_11; pose proof lp2_20; pose proof lp3_20.
  pose proof lp3_32; pose proof lp4_32; pose proof lp4_47; pose proof lp5_47.
  pose proof (lp5_slope 47000 50000).
  unfold palt, pick.
  destruct (Rlt_dec _ x).
  { sl lp1_slope 11000 11000.02.
    assert (-5000 <= pa1 x <= 11000.02) by (apply pa1_between; lra).
    assert (lp1 (pa1 x) = x) as S by (apply powalt_sound; lra).
    split; [lra|]. apply Rabs_le. unfold lp, layer.
    destruct (Rlt_dec (pa1 x) 11000); [lra|]. destruct (Rlt_dec (pa1 x) 20000); [|exfalso; lra].
    sl lp1_slope 11000 (pa1 x). pose proof (lp2_slope 11000 (pa1 x)). lra. }
  destruct (Rlt_dec _ x).
  { pose proof (lp2_slope 10999.99 11000). pose proof (lp2_slope 20000 20000.02).
    assert (10999.99 <= pa2 x <= 20000.02) by (apply pa2_between; lra).
    assert (lp2 (pa2 x) = x) as S by (unfold lp2, pa2; lra).
    split; [lra|]. apply Rabs_le. unfold lp, layer.
    destruct (Rlt_dec (pa2 x) 11000).
    - sl lp1_slope (pa2 x) 11000. pose proof (lp2_slope (pa2 x) 11000). lra.
    - destruct (Rlt_dec (pa2 x) 20000); [lra|]. destruct (Rlt_dec (pa2 x) 32000); [|exfalso; lra].
      sl lp3_slope 20000 (pa2 x). pose proof (lp2_slope 20000 (pa2 x)). lra. }
  destruct (Rlt_dec _ x).
  { sl lp3_slope 19999.98 20000. sl lp3_slope 32000 32000.02.
    assert (19999.98 <= pa3 x <= 32000.02) by (apply pa3_between; lra).
    assert (lp3 (pa3 x) = x) as S by (apply powalt_sound; lra).
    split; [lra|]. apply Rabs_le. unfold lp, layer.
    destruct (Rlt_dec (pa3 x) 11000); [exfalso; lra|].
    destruct (Rlt_dec (pa3 x) 20000).
    - sl lp3_slope (pa3 x) 20000. pose proof (lp2_slope (pa3 x) 20000). lra.
    - destruct (Rlt_dec (pa3 x) 32000); [lra|]. destruct (Rlt_dec (pa3 x) 47000); [|exfalso; lra].
      sl lp3_slope 32000 (pa3 x). sl lp4_slope 32000 (pa3 x). lra. }
  destruct (Rlt_dec _ x).
  { sl lp4_slope 31999.98 32000. sl lp4_slope 47000 47000.02.
    assert (31999.98 <= pa4 x <= 47000.02) by (apply pa4_between; lra).
    assert (lp4 (pa4 x) = x) as S by (apply powalt_sound; lra).
    split; [lra|]. apply Rabs_le. unfold lp, layer.
    destruct (Rlt_dec (pa4 x) 11000); [exfalso; lra|].
    destruct (Rlt_dec (pa4 x) 20000); [exfalso; lra|].
    destruct (Rlt_dec (pa4 x) 32000).
    - sl lp4_slope (pa4 x) 32000. sl lp3_slope (pa4 x) 32000. lra.
    - destruct (Rlt_dec (pa4 x) 47000); [lra|].
      sl lp4_slope 47000 (pa4 x). pose proof (lp5_slope 47000 (pa4 x)). lra. }
  pose proof (lp5_slope 46999.98 47000).
  assert (46999.98 <= pa5 x <= 50000) by (apply pa5_between; lra).
  assert (lp5 (pa5 x) = x) as S by (unfold lp5, pa5; lra).
  split; [lra|]. apply Rabs_le. unfold lp, layer.
  destruct (Rlt_dec (pa5 x) 11000); [exfalso; lra|].
  destruct (Rlt_dec (pa5 x) 20000); [exfalso; lra|].
  destruct (Rlt_dec (pa5 x) 32000); [exfalso; lra|].
  destruct (Rlt_dec (pa5 x) 47000); [|lra].
  sl lp4_slope (pa5 x) 47000. pose proof (lp5_slope (pa5 x) 47000). lra.
Qed.


Lemma lnE_pmin : 4.3320 <= ln 76.1 <= 4.3321.
Proof. ln_at H 76.1 6%Z 4.3320 4.3321. exact H. Qed.
Lemma lnE_pmax : 12.0872 <= ln 177600.0 <= 12.0874.
Proof. ln_at H 177600.0 17%Z 12.0872 12.0874. exact H. Qed.
Lemma lnE_p1m : 2.29985 <= ln (8.9619638 + (-0.20216125e-3) * (-5000)) <= 2.29987.
Proof. replace (8.9619638 + (-0.20216125e-3) * (-5000)) with 9.97277005 by lra.
  ln_at H 9.97277005 3%Z 2.29985 2.29987. exact H. Qed.

Lemma ln_mono a b : 0 < a -> a <= b -> ln a <= ln b.
Proof. intros Ha [H| ->]; [left; apply ln_increasing; assumption|right; reflexivity]. Qed.

Lemma altitude_pressure p : 76.1 <= p <= 177600 ->
  exists h p', isapressalt1 (Fin p) = Ok (Fin h) /\ -5000 <= h <= 50000 /\
    isapress1 (Fin h) = Fin p' /\ agrees 1e-5 p' p.
Proof.
  intros Hp.
  assert (lp 50000 <= ln p <= lp (-5000)) as Hr.
  { pose proof lp5_47. pose proof (lp5_slope 47000 50000). pose proof lnE_pmin. pose proof lnE_pmax.
    pose proof (ln_mono 76.1 p ltac:(lra) ltac:(lra)).
    pose proof (ln_mono p 177600.0 ltac:(lra) ltac:(lra)).
    unfold lp. rewrite layer5 by lra. rewrite layer1 by lra.
    split; [lra|]. unfold lp1. pose proof lnE_p1m. lra. }
  destruct (lp_palt _ Hr) as [H1 H2].
  exists (palt (ln p)), (exp (lp (palt (ln p)))).
  split; [rewrite <- isapressalt1_real, exp_ln by lra; reflexivity|].
  split; [exact H1|]. split; [apply isapress1_real|].
  rewrite <- (exp_ln p) at 2 by lra.
  eapply agrees_weaken; [|left; apply exp_pos|apply exp_agrees; [exact H2|lra]]. lra.
Qed.

(** ** density *)
Definition da1 x := powalt 4.2558797 1.048840 (-23.659414e-6) x.
Definition da2 x := (x - ln 2.0621400) / (-0.15768852e-3).
Definition da3 x := powalt (-35.163218) 0.9726309 4.94600e-6 x.
Definition da4 x := powalt (-13.201149) 0.84392929 16.993902e-6 x.
Definition da5 x := (x - ln 0.53839563) / (-0.12622656e-3).
Definition dalt x := pick x (ln 0.36391700650017816) (ln 0.088034556579455497)
  (ln 0.013224937668421609) (ln 0.0014275295197313882) (da1 x) (da2 x) (da3 x) (da4 x) (da5 x).

Lemma isadensalt1_real x : isadensalt1 [Fin (exp x)] (Fin (exp x)) = Ok (Fin (dalt x)).
Proof.
  unfold isadensalt1, dalt, pick, dLevel1, dLevel2, dLevel3, dLevel4. rewrite !nltb_fin.
  rewrite !Rltb_exp by lra. unfold I1, J1, L1, I3, J3, L3, I4, J4, L4, M2, N2, M5, N5.
  rewrite !powalt_model by lra. rewrite !log1p_model by lra.
  repeat (destruct (Rlt_dec _ _); [reflexivity|]). reflexivity.
Qed.

Lemma da1_ld h : -5000 <= h -> h <= 11001 -> da1 (ld1 h) = h.
Proof. intros; apply powalt_inv; lra. Qed.
Lemma da2_ld h : da2 (ld2 h) = h.
Proof. unfold da2, ld2. lra. Qed.
Lemma da3_ld h : 19999 <= h -> h <= 32001 -> da3 (ld3 h) = h.
Proof. intros; apply powalt_inv; lra. Qed.
Lemma da4_ld h : 31999 <= h -> h <= 47001 -> da4 (ld4 h) = h.
Proof. intros; apply powalt_inv; lra. Qed.
Lemma da5_ld h : da5 (ld5 h) = h.
Proof. unfold da5, ld5. lra. Qed.
Lemma da1_between x lo hi : -50000 <= lo -> hi <= 11001 -> lo <= hi ->
  ld1 hi <= x <= ld1 lo -> lo <= da1 x <= hi.
Proof. intros; apply powalt_between; try lra; assumption. Qed.
Lemma da2_between x lo hi : ld2 hi <= x <= ld2 lo -> lo <= da2 x <= hi.
Proof. unfold da2, ld2; intros; lra. Qed.
Lemma da3_between x lo hi : 19999 <= lo -> hi <= 32001 -> lo <= hi ->
  ld3 hi <= x <= ld3 lo -> lo <= da3 x <= hi.
Proof. intros; apply powalt_between; try lra; assumption. Qed.
Lemma da4_between x lo hi : 31999 <= lo -> hi <= 47001 -> lo <= hi ->
  ld4 hi <= x <= ld4 lo -> lo <= da4 x <= hi.
Proof. intros; apply powalt_between; try lra; assumption. Qed.
Lemma da5_between x lo hi : ld5 hi <= x <= ld5 lo -> lo <= da5 x <= hi.
Proof. unfold da5, ld5; intros; lra. Qed.

Lemma ld1_11 : -1.01082779853 <= ld1 11000 <= -1.01082779813. Proof. unfold ld1. pose proof lnE_d1. lra. Qed.
Lemma ld2_11 : -1.01082944166 <= ld2 11000 <= -1.01082944126. Proof. unfold ld2. pose proof lnE_M2. lra. Qed.
Lemma ld2_20 : -2.43002612166 <= ld2 20000 <= -2.43002612126. Proof. unfold ld2. pose proof lnE_M2. lra. Qed.
Lemma ld3_20 : -2.43002585338 <= ld3 20000 <= -2.43002585298. Proof. unfold ld3. pose proof lnE_d3a. lra. Qed.
Lemma ld3_32 : -4.32565038896 <= ld3 32000 <= -4.32565038856. Proof. unfold ld3. pose proof lnE_d3b. lra. Qed.
Lemma ld4_32 : -4.32565101461 <= ld4 32000 <= -4.32565101421. Proof. unfold ld4. pose proof lnE_d4a. lra. Qed.
Lemma ld4_47 : -6.55181391275 <= ld4 47000 <= -6.55181391235. Proof. unfold ld4. pose proof lnE_d4b. lra. Qed.
Lemma ld5_47 : -6.55180993753 <= ld5 47000 <= -6.55180993713. Proof. unfold ld5. pose proof lnE_M5. lra. Qed.

(** round trip altitude -> density -> altitude, on the logarithmic forms *)
Lemma dalt_ld h : -5000 <= h -> h <= 50000 ->
  h - 0.05 <= dalt (ld h) <= h + 0.05 /\ (clear_of_joints 0.05 h -> dalt (ld h) = h).
Proof.
  intros Ha Hb. unfold clear_of_joints.
  pose proof lnE_dL1; pose proof lnE_dL2; pose proof lnE_dL3; pose proof lnE_dL4.
  pose proof ld1_11; pose proof ld2_11; pose proof ld2_20; pose proof ld3_20.
  pose proof ld3_32; pose proof ld4_32; pose proof ld4_47; pose proof ld5_47.
  unfold dalt, pick, ld, layer. split_layers h.
  - sl ld1_slope h 11000. destruct (Rlt_dec _ (ld1 h)); [|exfalso; lra].
    rewrite da1_ld by lra. split; [lra|reflexivity].
  - pose proof (ld2_slope h 20000); pose proof (ld2_slope 11000 h).
    destruct (Rlt_dec _ (ld2 h)).
    + (* only within rounding distance of 11 km *)
      sl ld1_slope 10999.9 11000. sl ld1_slope 11000 11000.03.
      assert (11000 <= h <= 11000.01) by lra.
      assert (10999.98 <= da1 (ld2 h) <= 11000.03).
      { apply da1_between; try lra. sl ld1_slope 10999.98 11000. lra. }
      split; [lra|]. intros [K _]. rewrite Rabs_pos_eq in K; lra.
    + destruct (Rlt_dec _ (ld2 h)); [rewrite da2_ld; split; [lra|reflexivity]|].
      (* just below 20 km *)
      assert (19999.99 <= h) by lra.
      sl ld3_slope 19999.98 20000. sl ld3_slope 20000 20000.03.
      destruct (Rlt_dec _ (ld2 h)); [|exfalso; lra].
      assert (19999.98 <= da3 (ld2 h) <= 20000.03) by (apply da3_between; lra).
      split; [lra|]. intros [_ [K _]]. rewrite Rabs_left1 in K; lra.
  - sl ld3_slope 20000 h. sl ld3_slope h 32000.
    destruct (Rlt_dec _ (ld3 h)); [exfalso; lra|].
    destruct (Rlt_dec _ (ld3 h)).
    + assert (h <= 20000.01) by lra.
      assert (19999.98 <= da2 (ld3 h) <= 20000.03).
      { pose proof (ld2_slope 19999.98 20000). pose proof (ld2_slope 20000 20000.03).
        apply da2_between. lra. }
      split; [lra|]. intros [_ [K _]]. rewrite Rabs_pos_eq in K; lra.
    + destruct (Rlt_dec _ (ld3 h)); [|exfalso; lra].
      rewrite da3_ld by lra. split; [lra|reflexivity].
  - sl ld4_slope 32000 h. sl ld4_slope h 47000.
    destruct (Rlt_dec _ (ld4 h)); [exfalso; lra|].
    destruct (Rlt_dec _ (ld4 h)); [exfalso; lra|].
    destruct (Rlt_dec _ (ld4 h)).
    + assert (h <= 32000.01) by lra.
      sl ld3_slope 31999.98 32000. sl ld3_slope 32000 32000.03.
      assert (31999.98 <= da3 (ld4 h) <= 32000.03) by (apply da3_between; lra).
      split; [lra|]. intros [_ [_ [K _]]]. rewrite Rabs_pos_eq in K; lra.
    + destruct (Rlt_dec _ (ld4 h)).
      * rewrite da4_ld by lra. split; [lra|reflexivity].
      * assert (46999.96 <= h) by lra.
        pose proof (ld5_slope 46999.95 47000); pose proof (ld5_slope 47000 47000.045).
        pose proof (ld5_slope h 47000).
        assert (h - 0.05 <= da5 (ld4 h) <= h + 0.05).
        { pose proof (ld5_slope (h - 0.05) 47000); pose proof (ld5_slope (h + 0.05) 47000).
          apply da5_between; lra. }
        split; [lra|]. intros [_ [_ [_ K]]]. rewrite Rabs_left1 in K; lra.
  - pose proof (ld5_slope 47000 h).
    destruct (Rlt_dec _ (ld5 h)); [exfalso; lra|].
    destruct (Rlt_dec _ (ld5 h)); [exfalso; lra|].
    destruct (Rlt_dec _ (ld5 h)); [exfalso; lra|].
    destruct (Rlt_dec _ (ld5 h)).
    + assert (h <= 47000.001) by lra.
      sl ld4_slope 46999.96 47000. sl ld4_slope 47000 47000.04.
      assert (46999.96 <= da4 (ld5 h) <= 47000.04) by (apply da4_between; lra).
      split; [lra|]. intros [_ [_ [_ K]]]. rewrite Rabs_pos_eq in K; lra.
    + rewrite da5_ld. split; [lra|reflexivity].
Qed.


Lemma density_altitude h : -5000 <= h -> h <= 50000 ->
  exists h', isadensalt1 [isadens1 (Fin 0) (Fin h)] (isadens1 (Fin 0) (Fin h)) = Ok (Fin h') /\
    Rabs (h' - h) <= 0.05 /\ (clear_of_joints 0.05 h -> h' = h).
Proof.
  intros Ha Hb. pose proof (tl_pos' h) as Ht.
  assert (isadens1 (Fin 0) (Fin h) = Fin (exp (ld h))) as ->.
  { rewrite isadens1_real by lra. apply Fin_eq. field; lra. }
  rewrite isadensalt1_real.
  destruct (dalt_ld h Ha Hb) as [H1 H2]. exists (dalt (ld h)).
  split; [reflexivity|]. split; [|exact H2].
  apply Rabs_le. lra.
Qed.
