(** How the requirements move with the conditions. *)
From Verif Require Import Base BaseFacts UnitsModel AtmosModel AtmosSpec IsaReal IsaProofs AtmosProofs AtmosProofs2 ConceptModel MethodsModel MethodsSpec MethodsExamples
  ConstraintSpec ConstraintProofs ConstraintProofs2 ConstraintProofs3 ConstraintProofs4 ConstraintProofs5 ConstraintProofs9 ConstraintProofs10.
Open Scope R_scope.

(** ** Density *)
Lemma std_temp_lower h : -5000 <= h <= 11000 -> std_temp h = 288.15 - 0.0065 * h.
Proof.
  intros H. unfold std_temp, climb. rewrite (Rmin_left h 32000), (Rmin_left h 47000), (Rmin_left h 11000) by lra.
  rewrite !Rmax_left by lra. lra.
Qed.
(** density [o] degrees from the standard *)
Definition rho_of (o h : R) : R := exp (ld h) * std_temp h / (std_temp h + o).
Lemma rho_pos o h : -100 <= o -> -5000 <= h < 11000 -> 0 < rho_of o h.
Proof.
  intros O H. unfold rho_of. rewrite std_temp_lower by lra. apply Rdiv_lt_0_compat; [|lra]. apply Rmult_lt_0_compat; [apply exp_pos|lra].
Qed.
Lemma rho_hotter o1 o2 h : -100 <= o1 -> o1 < o2 -> -5000 <= h < 11000 -> rho_of o2 h < rho_of o1 h.
Proof.
  intros O1 O2 H. unfold rho_of. rewrite std_temp_lower by lra. unfold Rdiv. apply Rmult_lt_compat_l.
  - apply Rmult_lt_0_compat; [apply exp_pos|lra].
  - apply Rinv_lt_contravar; [nra|lra].
Qed.
Lemma rho_higher o h1 h2 : -100 <= o -> -5000 <= h1 -> h1 < h2 -> h2 < 11000 -> rho_of o h2 < rho_of o h1.
Proof.
  intros O H1 H H2. unfold rho_of. rewrite !std_temp_lower by lra. set (T1 := 288.15 - 0.0065 * h1). set (T2 := 288.15 - 0.0065 * h2).
  assert (B1 : 216.65 < T2 < T1) by (unfold T1, T2; lra). assert (D : T1 - T2 = 0.0065 * (h2 - h1)) by (unfold T1, T2; lra).
  assert (L : ld h2 - ld h1 <= -0.000086 * (h2 - h1)) by (unfold ld; rewrite !layer1 by lra; apply ld1_slope; lra).
  apply (Rmult_lt_reg_r ((T1 + o) * (T2 + o))); [nra|].
  replace (exp (ld h2) * T2 / (T2 + o) * ((T1 + o) * (T2 + o))) with (exp (ld h2) * (T2 * (T1 + o))) by (field; lra).
  replace (exp (ld h1) * T1 / (T1 + o) * ((T1 + o) * (T2 + o))) with (exp (ld h1) * (T1 * (T2 + o))) by (field; lra).
  replace (ld h1) with (ld h2 + (ld h1 - ld h2)) by ring. rewrite exp_plus, Rmult_assoc. apply Rmult_lt_compat_l; [apply exp_pos|].
  pose proof (exp_ineq1_le (ld h1 - ld h2)) as E.
  assert (K : T2 * (T1 + o) <= (1 + 0.00005 * (h2 - h1)) * (T1 * (T2 + o))).
  { replace (T2 * (T1 + o)) with (T1 * (T2 + o) - o * (T1 - T2)) by ring. rewrite D.
    assert (- o * 0.0065 <= 0.00005 * (T1 * (T2 + o))) by nra. nra. }
  assert (0 < T1 * (T2 + o)) by nra. nra.
Qed.
Lemma rho_trend o1 o2 h1 h2 : -100 <= o1 <= o2 -> -5000 <= h1 -> h1 <= h2 -> h2 < 11000 -> rho_of o2 h2 <= rho_of o1 h1 /\
  (o1 < o2 \/ h1 < h2 -> rho_of o2 h2 < rho_of o1 h1).
Proof.
  intros O H1 H H2. destruct (Rle_lt_or_eq_dec o1 o2) as [L|L]; [lra| |]; destruct (Rle_lt_or_eq_dec h1 h2 H) as [M|M].
  - pose proof (rho_hotter o1 o2 h1 ltac:(lra) L ltac:(lra)). pose proof (rho_higher o2 h1 h2 ltac:(lra) H1 M H2). split; [lra|intros; lra].
  - subst h2. pose proof (rho_hotter o1 o2 h1 ltac:(lra) L ltac:(lra)). split; [lra|intros; lra].
  - subst o2. pose proof (rho_higher o1 h1 h2 ltac:(lra) H1 M H2). split; [lra|intros; lra].
  - subst o2 h2. split; [lra|intros; lra].
Qed.

(** ** Take-off *)
Lemma takeoff_one ext c w d h clmax cd cl mu b s : 0 < w -> takeoff_data c d h clmax cd cl mu b -> 0 < d -> 0 < clmax -> cl <> 0 -> air_at c h s ->
  exists L, liftoff_speed w (a_rho s) clmax L /\
  twrequired_to ext c (VNum (Fin w)) false = Ok (VNum (Fin (static_factor b * (L ^ 2 / (2 * gravity * d) + cd / cl * (1 / 2) + mu * (1 / 2)))), VNum (Fin L), VNum (Fin (L / sqrt 2))).
Proof.
  intros W D Hd Hc Hl A. destruct (takeoff_balance ext c false (VNum (Fin w)) [w] d h clmax cd cl mu b s (fun _ => 1)) as (T & L & E & K); try assumption; try reflexivity.
  { intros x [<-|[]]. exact W. }
  destruct (K w (or_introl eq_refl)) as (LS & t & ET & G). exists (L w). split; [exact LS|]. rewrite E. unfold results. cbn [map reverttoscalar].
  replace (static_factor b * (L w ^ 2 / (2 * gravity * d) + cd / cl * (1 / 2) + mu * (1 / 2))) with (T w); [reflexivity|]. rewrite ET.
  unfold ground_run in G. assert (GP : 0 < gravity) by (unfold gravity; lra).
  assert (t = L w ^ 2 / (2 * gravity * d) + cd / cl * (1 / 2) + mu * (1 / 2)) as ->.
  { apply (Rmult_eq_reg_l (gravity * d)); [|nra]. replace (gravity * d * (L w ^ 2 / (2 * gravity * d) + cd / cl * (1 / 2) + mu * (1 / 2)))
      with (L w ^ 2 / 2 + gravity * d * (cd / cl * (1 / 2) + mu * (1 / 2))) by (field; lra). rewrite G. field. exact Hl. }
  field; lra.
Qed.
Lemma liftoff_square w rho clmax L : 0 < rho -> 0 < clmax -> liftoff_speed w rho clmax L -> L ^ 2 = 2.42 * w / (rho * clmax) /\ 0 <= L.
Proof.
  intros R C (N & vs & -> & E). split; [|exact N]. rewrite <- E. replace 1.1 with (11 / 10) by lra. replace 2.42 with (242 / 100) by lra. field. lra.
Qed.
Lemma static_pos b : 0 < static_factor b.
Proof.
  unfold static_factor. destruct (Rlt_dec 1 b); [|lra]. apply Rdiv_lt_0_compat; lra.
Qed.
Lemma quotient_trend w1 w2 p1 p2 : 0 < w1 <= w2 -> 0 < p2 <= p1 -> w1 / p1 <= w2 / p2 /\ (w1 < w2 \/ p2 < p1 -> w1 / p1 < w2 / p2).
Proof.
  intros W P. assert (E : w2 / p2 - w1 / p1 = (w2 * p1 - w1 * p2) / (p1 * p2)) by (field; lra).
  assert (Q : 0 < / (p1 * p2)) by (apply Rinv_0_lt_compat; nra). unfold Rdiv in *.
  split.
  - assert (0 <= (w2 * p1 - w1 * p2) * / (p1 * p2)) by (apply Rmult_le_pos; nra). lra.
  - intros H. assert (0 < (w2 * p1 - w1 * p2) * / (p1 * p2)) by (apply Rmult_lt_0_compat; nra). lra.
Qed.
Lemma takeoff_trend ext1 ext2 c1 c2 w1 w2 d1 d2 h1 h2 clmax1 clmax2 cd cl mu b s1 s2 :
  takeoff_data c1 d1 h1 clmax1 cd cl mu b -> takeoff_data c2 d2 h2 clmax2 cd cl mu b -> air_at c1 h1 s1 -> air_at c2 h2 s2 -> cl <> 0 ->
  0 < w1 <= w2 -> a_rho s2 <= a_rho s1 -> 0 < clmax2 <= clmax1 -> 0 < d2 <= d1 ->
  w1 < w2 \/ a_rho s2 < a_rho s1 \/ clmax2 < clmax1 \/ d2 < d1 ->
  exists t1 l1 a1 t2 l2 a2, twrequired_to ext1 c1 (VNum (Fin w1)) false = Ok (VNum (Fin t1), VNum (Fin l1), VNum (Fin a1)) /\
    twrequired_to ext2 c2 (VNum (Fin w2)) false = Ok (VNum (Fin t2), VNum (Fin l2), VNum (Fin a2)) /\ t1 < t2 /\ l1 <= l2.
Proof.
  intros D1 D2 A1 A2 CL W R C D S.
  destruct (takeoff_one ext1 c1 w1 d1 h1 clmax1 cd cl mu b s1) as (L1 & LS1 & E1); try assumption; try lra.
  destruct (takeoff_one ext2 c2 w2 d2 h2 clmax2 cd cl mu b s2) as (L2 & LS2 & E2); try assumption; try lra.
  destruct A1 as (_ & _ & _ & R1 & _). destruct A2 as (_ & _ & _ & R2 & _).
  apply liftoff_square in LS1; [|assumption|lra]. apply liftoff_square in LS2; [|assumption|lra]. destruct LS1 as (Q1 & N1), LS2 as (Q2 & N2).
  destruct (quotient_trend (2.42 * w1) (2.42 * w2) (a_rho s1 * clmax1) (a_rho s2 * clmax2)) as (K1 & K2); [lra|split; nra|]. rewrite <- Q1, <- Q2 in K1, K2.
  assert (GP : 0 < gravity) by (unfold gravity; lra). assert (P1 : 0 < L1 ^ 2) by (rewrite Q1; apply Rdiv_lt_0_compat; nra).
  destruct (quotient_trend (L1 ^ 2) (L2 ^ 2) (2 * gravity * d1) (2 * gravity * d2)) as (K3 & K4); [lra|split; nra|].
  do 6 eexists. split; [exact E1|]. split; [exact E2|]. split.
  - apply Rmult_lt_compat_l; [apply static_pos|]. enough (L1 ^ 2 / (2 * gravity * d1) < L2 ^ 2 / (2 * gravity * d2)) by lra. apply K4.
    destruct S as [S|[S|[S|S]]]; [left; apply K2; left; lra|left; apply K2; right; nra|left; apply K2; right; nra|right; nra].
  - apply Rsqr_incr_0; [unfold Rsqr; simpl in K1; lra| |]; assumption.
Qed.
Lemma hot_high ext1 ext2 c1 c2 w d h1 h2 o1 o2 clmax cd cl mu b :
  designatm c1 = isa o1 -> designatm c2 = isa o2 -> takeoff_data c1 d h1 clmax cd cl mu b -> takeoff_data c2 d h2 clmax cd cl mu b ->
  0 < w -> 0 < d -> 0 < clmax -> cl <> 0 -> -100 <= o1 <= o2 -> -5000 <= h1 -> h1 <= h2 -> h2 < 11000 -> o1 < o2 \/ h1 < h2 ->
  exists t1 l1 a1 t2 l2 a2, twrequired_to ext1 c1 (VNum (Fin w)) false = Ok (VNum (Fin t1), VNum (Fin l1), VNum (Fin a1)) /\
    twrequired_to ext2 c2 (VNum (Fin w)) false = Ok (VNum (Fin t2), VNum (Fin l2), VNum (Fin a2)) /\ t1 < t2 /\ l1 <= l2.
Proof.
  intros I1 I2 D1 D2 W D C CL O H1 H H2 S.
  assert (A1 := isa_air c1 o1 h1 I1 ltac:(lra) ltac:(rewrite std_temp_lower by lra; lra)). assert (A2 := isa_air c2 o2 h2 I2 ltac:(lra) ltac:(rewrite std_temp_lower by lra; lra)).
  destruct (rho_trend o1 o2 h1 h2 O H1 H H2) as (R1 & R2). specialize (R2 S).
  refine (takeoff_trend ext1 ext2 c1 c2 w w d d h1 h2 clmax clmax cd cl mu b _ _ D1 D2 A1 A2 CL _ _ _ _ _); try lra; cbn [a_rho]; fold (rho_of o1 h1); fold (rho_of o2 h2); [exact R1|].
  right. left. exact R2.
Qed.

(** ** Least drag *)
Lemma drag_least q cd0 k x n : 0 < q -> 0 < x -> 0 < n -> 0 <= cd0 -> 0 <= k ->
  2 * n * sqrt (cd0 * k) <= q * (cd0 + k * (n * x / q) ^ 2) / x.
Proof.
  intros Q X N C K. apply (Rmult_le_reg_r x); [exact X|]. replace (q * (cd0 + k * (n * x / q) ^ 2) / x * x) with (q * cd0 + k * (n * x) ^ 2 / q) by (field; lra).
  apply (Rmult_le_reg_r q); [exact Q|]. replace ((q * cd0 + k * (n * x) ^ 2 / q) * q) with (cd0 * q ^ 2 + k * (n * x) ^ 2) by (field; lra).
  rewrite sqrt_mult by assumption. pose proof (sqrt_sqrt cd0 C). pose proof (sqrt_sqrt k K). set (a := sqrt cd0) in *. set (b := sqrt k) in *.
  assert (0 <= (a * q - b * (n * x)) ^ 2) by apply pow2_ge_0. rewrite <- H, <- H0. nra.
Qed.
Lemma drag_least_at q cd0 k x n : 0 < q -> 0 < x -> 0 < n -> 0 <= cd0 -> 0 <= k ->
  (2 * n * sqrt (cd0 * k) = q * (cd0 + k * (n * x / q) ^ 2) / x <-> cd0 = k * (n * x / q) ^ 2).
Proof.
  intros Q X N C K. pose proof (sqrt_sqrt cd0 C) as HC. pose proof (sqrt_sqrt k K) as HK. pose proof (sqrt_pos cd0) as PC. pose proof (sqrt_pos k) as PK.
  rewrite sqrt_mult by assumption. set (a := sqrt cd0) in *. set (b := sqrt k) in *. set (y := n * x / q). assert (Y : 0 < y) by (apply Rdiv_lt_0_compat; nra).
  assert (NX : n = y * q / x) by (unfold y; field; lra). rewrite NX, <- HC, <- HK.
  assert (E : q * (a * a + b * b * y ^ 2) / x - 2 * (y * q / x) * (a * b) = q / x * (a - b * y) ^ 2) by (field; lra).
  assert (QX : 0 < q / x) by (apply Rdiv_lt_0_compat; assumption).
  split; intros H.
  - assert (Z : (a - b * y) ^ 2 = 0) by (apply (Rmult_eq_reg_l (q / x)); [|lra]; lra).
    assert (a - b * y = 0) by (apply Rsqr_0_uniq; unfold Rsqr; simpl in Z; lra). replace a with (b * y) by lra. ring.
  - assert (S : (a - b * y) * (a + b * y) = 0) by (replace ((a - b * y) * (a + b * y)) with (a * a - b * b * y ^ 2) by ring; lra).
    assert (0 <= b * y) by nra. assert (Z : a - b * y = 0) by (destruct (Rmult_integral _ _ S); lra). rewrite Z in E.
    replace (q / x * 0 ^ 2) with 0 in E by ring. lra.
Qed.
Lemma cruise_least ext c map2sl v ws : elements v = map Fin ws -> ws <> [] -> (forall w, In w ws -> 0 < w) ->
  forall spd h b ct cd0 s tau k,
  cruise_data c spd h b ct cd0 -> 0 < spd -> 0 < b -> 0 < ct -> air_at c h s -> lapse ext c map2sl (knots spd) h tau -> 0 < tau -> 0 <= cd0 ->
  (forall w, In w ws -> induced ext c (mach_no (knots spd) s) w (b * w / dyn_press (knots spd) s) (k w) /\ 0 <= k w) ->
  exists T, twrequired_crs ext c v map2sl = Ok (results ws T) /\ forall w, In w ws ->
    b * (2 * sqrt (cd0 * k w)) / tau / ct <= T w /\
    (T w = b * (2 * sqrt (cd0 * k w)) / tau / ct <-> cd0 = k w * (b * w / dyn_press (knots spd) s) ^ 2).
Proof.
  intros EV NE WP spd h b ct cd0 s tau k D Hs Hb Hct A L Ht Hc I.
  destruct (cruise_balance ext c map2sl v ws EV NE WP spd h b ct cd0 s tau k D Hs Hb ltac:(lra) A L (fun w J => proj1 (I w J))) as (T & E & K).
  exists T. split; [exact E|]. intros w J. destruct (K w J) as ((t & ET & B) & _). destruct (I w J) as (_ & KP). specialize (WP w J).
  assert (Q : 0 < dyn_press (knots spd) s).
  { destruct A as (_ & _ & _ & R & _). unfold dyn_press, knots. apply Rmult_lt_0_compat; [lra|]. apply pow_lt. lra. }
  unfold drag_balance in B. rewrite sin_0 in B. set (q := dyn_press (knots spd) s) in *.
  assert (BW : 0 < b * w) by nra. assert (T1 : t = q * (cd0 + k w * (1 * (b * w) / q) ^ 2) / (b * w)).
  { apply (Rmult_eq_reg_r (b * w)); [|lra]. rewrite B. field. lra. }
  pose proof (drag_least q cd0 (k w) (b * w) 1 Q BW ltac:(lra) Hc KP) as LE. pose proof (drag_least_at q cd0 (k w) (b * w) 1 Q BW ltac:(lra) Hc KP) as EQ.
  rewrite <- T1 in LE, EQ. rewrite !Rmult_1_r in LE, EQ. rewrite Rmult_1_l in EQ. rewrite ET.
  assert (P : 0 < / tau * / ct) by (apply Rmult_lt_0_compat; apply Rinv_0_lt_compat; assumption).
  assert (F : forall z, b * z / tau / ct = (b * (/ tau * / ct)) * z) by (intros; unfold Rdiv; ring). rewrite !F.
  assert (P2 : 0 < b * (/ tau * / ct)) by nra. split; [apply Rmult_le_compat_l; lra|]. rewrite <- EQ. split; intros Z.
  - symmetry. apply (Rmult_eq_reg_l (b * (/ tau * / ct))); lra.
  - rewrite Z. reflexivity.
Qed.
Lemma climb_least ext c map2sl v ws : elements v = map Fin ws -> ws <> [] -> (forall w, In w ws -> 0 < w) ->
  forall spd rate h b cd0 s s0 tau k,
  climb_data c spd rate h b cd0 -> 0 < spd -> 0 < b -> air_at c h s -> air_at c 0 s0 ->
  let V := true_speed (knots spd) s s0 in let roc := true_speed (feet_per_min rate) s s0 in
  Rabs roc <= V -> lapse ext c map2sl V h tau -> 0 < tau -> 0 <= cd0 ->
  (forall w, In w ws -> induced ext c (mach_no V s) w (b * w / dyn_press V s) (k w) /\ 0 <= k w) ->
  exists T, twrequired_clm ext c v map2sl = Ok (results ws T) /\ forall w, In w ws ->
    b * (roc / V + 2 * sqrt (1 - (roc / V) ^ 2) * sqrt (cd0 * k w)) / tau <= T w.
Proof.
  intros EV NE WP spd rate h b cd0 s s0 tau k D Hs Hb A A0 V roc HR L Ht Hc I.
  destruct (climb_balance ext c map2sl v ws EV NE WP spd rate h b cd0 s s0 tau k D Hs Hb A A0 HR L (fun w J => proj1 (I w J))) as (T & E & K).
  exists T. split; [exact E|]. intros w J. destruct (K w J) as ((t & g & ET & G & SG & B) & _). destruct (I w J) as (_ & KP). specialize (WP w J).
  assert (VP : 0 < V).
  { destruct A as (_ & _ & _ & R & _). destruct A0 as (_ & _ & _ & R0 & _). unfold V, true_speed, knots. apply Rmult_lt_0_compat; [lra|]. apply sqrt_lt_R0. apply Rdiv_lt_0_compat; assumption. }
  assert (Q : 0 < dyn_press V s).
  { destruct A as (_ & _ & _ & R & _). unfold dyn_press. apply Rmult_lt_0_compat; [lra|]. apply pow_lt. exact VP. }
  change (true_speed (knots spd) s s0) with V in B, SG. change (true_speed (feet_per_min rate) s s0) with roc in SG.
  assert (S1 : roc / V = sin g) by (rewrite <- SG; field; lra). rewrite S1. assert (CP : 0 <= cos g) by (apply cos_ge_0; lra).
  assert (C1 : sqrt (1 - sin g ^ 2) = cos g).
  { replace (1 - sin g ^ 2) with (Rsqr (cos g)); [apply sqrt_Rsqr; exact CP|]. pose proof (sin2_cos2 g) as P. unfold Rsqr in *. simpl. lra. }
  rewrite C1. rewrite ET. unfold Rdiv. apply Rmult_le_compat_r; [left; apply Rinv_0_lt_compat; exact Ht|]. apply Rmult_le_compat_l; [lra|].
  unfold drag_balance in B. set (q := dyn_press V s) in *. assert (BW : 0 < b * w) by nra.
  assert (T1 : t = q * (cd0 + k w * (cos g * (b * w) / q) ^ 2) / (b * w) + sin g).
  { apply (Rmult_eq_reg_r (b * w)); [|lra]. rewrite B. field. lra. }
  rewrite T1. destruct (Rle_lt_or_eq_dec 0 (cos g) CP) as [CC|CC].
  - pose proof (drag_least q cd0 (k w) (b * w) (cos g) Q BW CC Hc KP). lra.
  - rewrite <- CC. replace (2 * 0 * sqrt (cd0 * k w)) with 0 by ring. assert (0 <= q * (cd0 + k w * (0 * (b * w) / q) ^ 2) / (b * w)); [|lra].
    unfold Rdiv at 1. apply Rmult_le_pos; [|left; apply Rinv_0_lt_compat; exact BW]. apply Rmult_le_pos; [lra|]. pose proof (pow2_ge_0 (0 * (b * w) / q)). nra.
Qed.
Lemma ceiling_least ext c map2sl v ws : elements v = map Fin ws -> ws <> [] -> (forall w, In w ws -> 0 < w) ->
  forall spd h b cd0 s s0 tau k,
  ceiling_data c spd h b cd0 -> 0 < spd -> 0 < b -> air_at c h s -> air_at c 0 s0 ->
  let V := true_speed (knots spd) s s0 in let roc := true_speed (feet_per_min 100) s s0 in
  roc <= V -> lapse ext c map2sl V h tau -> 0 < tau -> 0 <= cd0 ->
  (forall w, In w ws -> induced ext c (mach_no V s) w (b * w / dyn_press V s) (k w) /\ 0 <= k w) ->
  exists T, twrequired_sec ext c v map2sl = Ok (results ws T) /\ forall w, In w ws ->
    b * (roc / V + 2 * sqrt (cd0 * k w)) / tau <= T w.
Proof.
  intros EV NE WP spd h b cd0 s s0 tau k D Hs Hb A A0 V roc HR L Ht Hc I.
  destruct (ceiling_balance ext c map2sl v ws EV NE WP spd h b cd0 s s0 tau k D Hs Hb A A0 HR L (fun w J => proj1 (I w J))) as (T & E & K).
  exists T. split; [exact E|]. intros w J. destruct (K w J) as ((t & g & ET & G & SG & B & _) & _). destruct (I w J) as (_ & KP). specialize (WP w J).
  assert (VP : 0 < V).
  { destruct A as (_ & _ & _ & R & _). destruct A0 as (_ & _ & _ & R0 & _). unfold V, true_speed, knots. apply Rmult_lt_0_compat; [lra|]. apply sqrt_lt_R0. apply Rdiv_lt_0_compat; assumption. }
  assert (Q : 0 < dyn_press V s).
  { destruct A as (_ & _ & _ & R & _). unfold dyn_press. apply Rmult_lt_0_compat; [lra|]. apply pow_lt. exact VP. }
  change (true_speed (knots spd) s s0) with V in B, SG. change (true_speed (feet_per_min 100) s s0) with roc in SG.
  assert (S1 : roc / V = sin g) by (rewrite <- SG; field; lra). rewrite S1.
  rewrite ET. unfold Rdiv. apply Rmult_le_compat_r; [left; apply Rinv_0_lt_compat; exact Ht|]. apply Rmult_le_compat_l; [lra|].
  unfold drag_balance in B. set (q := dyn_press V s) in *. assert (BW : 0 < b * w) by nra.
  assert (T1 : t = q * (cd0 + k w * (1 * (b * w) / q) ^ 2) / (b * w) + sin g).
  { apply (Rmult_eq_reg_r (b * w)); [|lra]. rewrite B. field. lra. }
  rewrite T1. pose proof (drag_least q cd0 (k w) (b * w) 1 Q BW ltac:(lra) Hc KP). lra.
Qed.
Lemma turn_least ext c map2sl v ws : elements v = map Fin ws -> ws <> [] -> (forall w, In w ws -> 0 < w) ->
  forall spd h n b cd0 s tau k,
  turn_data c spd h n b 1 cd0 -> 0 < spd -> 0 < b -> 0 < n -> air_at c h s -> lapse ext c map2sl (knots spd) h tau -> 0 < tau -> 0 <= cd0 ->
  (forall w, In w ws -> induced ext c (mach_no (knots spd) s) (b * w) (n * (b * w) / dyn_press (knots spd) s) (k w) /\ 0 <= k w) ->
  exists T C F, twrequired_trn ext c v map2sl = Ok (results ws T, C, F) /\ forall w, In w ws ->
    b * (2 * n * sqrt (cd0 * k w)) / tau <= T w.
Proof.
  intros EV NE WP spd h n b cd0 s tau k D Hs Hb Hn A L Ht Hc I.
  pose proof (turn_general ext c map2sl v ws EV NE WP spd h n b 1 cd0 s tau k D Hs Hb A L) as E. cbv zeta in E.
  rewrite E; [|intros w J; replace (n * (b * w) * 1 / dyn_press (knots spd) s) with (n * (b * w) / dyn_press (knots spd) s) by (unfold Rdiv; ring); exact (proj1 (I w J))].
  do 3 eexists. split; [reflexivity|]. intros w J. cbv beta. destruct (I w J) as (_ & KP). specialize (WP w J).
  assert (Q : 0 < dyn_press (knots spd) s).
  { destruct A as (_ & _ & _ & R & _). unfold dyn_press, knots. apply Rmult_lt_0_compat; [lra|]. apply pow_lt. lra. }
  set (q := dyn_press (knots spd) s) in *. assert (BW : 0 < b * w) by nra.
  unfold Rdiv at 1 2. apply Rmult_le_compat_r; [left; apply Rinv_0_lt_compat; exact Ht|]. apply Rmult_le_compat_l; [lra|].
  pose proof (drag_least q cd0 (k w) (b * w) n Q BW Hn Hc KP) as LE. refine (Rle_trans _ _ _ LE _). right. field. lra.
Qed.

(** ** Rate of climb *)
Lemma climb_trend ext c1 c2 map2sl w spd rate1 rate2 h b cd0 s s0 tau k : 0 < w ->
  climb_data c1 spd rate1 h b cd0 -> climb_data c2 spd rate2 h b cd0 -> 0 < spd -> 0 < b -> air_at c1 h s -> air_at c1 0 s0 -> air_at c2 h s -> air_at c2 0 s0 ->
  let V := true_speed (knots spd) s s0 in
  Rabs (true_speed (feet_per_min rate1) s s0) <= V -> Rabs (true_speed (feet_per_min rate2) s s0) <= V ->
  lapse ext c1 map2sl V h tau -> lapse ext c2 map2sl V h tau -> 0 < tau ->
  induced ext c1 (mach_no V s) w (b * w / dyn_press V s) k -> induced ext c2 (mach_no V s) w (b * w / dyn_press V s) k ->
  0 <= k * (b * w / dyn_press V s) <= 1 / 2 -> rate1 < rate2 ->
  exists t1 t2, twrequired_clm ext c1 (VNum (Fin w)) map2sl = Ok (VNum (Fin t1)) /\ twrequired_clm ext c2 (VNum (Fin w)) map2sl = Ok (VNum (Fin t2)) /\ t1 < t2.
Proof.
  intros W D1 D2 Hs Hb A1 A01 A2 A02 V R1 R2 L1 L2 Ht I1 I2 HK HR.
  assert (WP : forall x, In x [w] -> 0 < x) by (intros x [<-|[]]; exact W).
  destruct (climb_balance ext c1 map2sl (VNum (Fin w)) [w] eq_refl ltac:(discriminate) WP spd rate1 h b cd0 s s0 tau (fun _ => k) D1 Hs Hb A1 A01 R1 L1) as (T1 & E1 & K1).
  { intros x [<-|[]]. exact I1. }
  destruct (climb_balance ext c2 map2sl (VNum (Fin w)) [w] eq_refl ltac:(discriminate) WP spd rate2 h b cd0 s s0 tau (fun _ => k) D2 Hs Hb A2 A02 R2 L2) as (T2 & E2 & K2).
  { intros x [<-|[]]. exact I2. }
  destruct (K1 w (or_introl eq_refl)) as ((t1 & g1 & ET1 & G1 & SG1 & B1) & _). destruct (K2 w (or_introl eq_refl)) as ((t2 & g2 & ET2 & G2 & SG2 & B2) & _).
  exists (T1 w), (T2 w). split; [exact E1|]. split; [exact E2|].
  assert (SP : 0 < sqrt (a_rho s0 / a_rho s)) by (apply sqrt_lt_R0; destruct A1 as (_ & _ & _ & R & _); destruct A01 as (_ & _ & _ & R0 & _); apply Rdiv_lt_0_compat; assumption).
  assert (VP : 0 < V) by (unfold V, true_speed, knots; apply Rmult_lt_0_compat; lra).
  assert (Q : 0 < dyn_press V s).
  { destruct A1 as (_ & _ & _ & R & _). unfold dyn_press. apply Rmult_lt_0_compat; [lra|]. apply pow_lt. exact VP. }
  change (true_speed (knots spd) s s0) with V in B1, SG1, B2, SG2. unfold drag_balance in B1, B2. set (q := dyn_press V s) in *. assert (BW : 0 < b * w) by nra.
  assert (SL : sin g1 < sin g2).
  { apply (Rmult_lt_reg_l V); [exact VP|]. rewrite SG1, SG2. unfold true_speed, feet_per_min. apply Rmult_lt_compat_r; lra. }
  assert (F : forall t g, t * (b * w) = q * (cd0 + k * (cos g * (b * w) / q) ^ 2) + b * w * sin g ->
    t = q * cd0 / (b * w) + k * (b * w / q) * (1 - sin g ^ 2) + sin g).
  { intros t g B. apply (Rmult_eq_reg_r (b * w)); [|lra]. rewrite B. replace (1 - sin g ^ 2) with (cos g ^ 2); [field; lra|].
    pose proof (sin2_cos2 g) as P. unfold Rsqr in P. simpl. lra. }
  apply F in B1, B2. rewrite ET1, ET2. unfold Rdiv. apply Rmult_lt_compat_r; [apply Rinv_0_lt_compat; exact Ht|]. apply Rmult_lt_compat_l; [exact Hb|].
  rewrite B1, B2. set (a := k * (b * w / q)) in *. pose proof (SIN_bound g1). pose proof (SIN_bound g2).
  assert (a * (sin g1 + sin g2) < 1) by nra. nra.
Qed.
