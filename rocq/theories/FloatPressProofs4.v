(** Pressures and densities in double precision: the answers of the atmosphere, their
    order, and elementary functions that meet the requirements. *)
From Coq Require Import Reals ZArith List Lra Lia Bool.
From Coq.Floats Require Import SpecFloat.
From Verif Require Import Base BaseFacts AtmosSpec AtmosModel FloatSpec FloatModel FloatArith FloatProofs FloatProofs2 FloatProofs3 FloatProofs4 FloatAtmosModel FloatAtmosProofs FloatPressModel FloatPressSpec FloatPressProofs FloatPressProofs2 FloatPressProofs3 IsaReal IsaProofs AtmosProofs2 AtmosProofs4 FloatAtmosProofs4.
Open Scope R_scope.

Lemma off_agrees k r v s : 0 <= k <= 300 -> 0 < v -> 0 < s -> off_by k r v -> agrees 1e-5 v s -> agrees 1.0001e-5 r s.
Proof.
  unfold off_by, agrees. change (powerRZ 2 (-53)) with u. intros K V S O A. pose proof u_pos as [U1 _]. pose proof u_small as U2.
  apply abs_le_inv in A. assert (V2 : v <= 2 * s) by lra. assert (KU : k * u <= 0.0000000000001) by nra.
  assert (k * u * v <= 0.0000000000001 * (2 * s)) by (apply Rmult_le_compat; try lra; nra). replace (r - s) with ((r - v) + (v - s)) by ring. apply Rle_trans with (1 := Rabs_triang _ _).
  assert (Rabs (v - s) <= 1e-5 * s) by (apply Rabs_le; lra). lra.
Qed.
Lemma std_positive h : 0 < std_press h.
Proof.
  unfold std_press, press_ratio. repeat (apply Rmult_lt_0_compat); try lra; (match goal with |- context [Req_EM_T ?a ?b] => destruct (Req_EM_T a b) end); apply exp_pos.
Qed.
Lemma std_dens_positive h : -10000 <= h <= 50000 -> 0 < std_dens h.
Proof. intros B. unfold std_dens, Rair. assert (P := std_positive h). assert (T := std_temp_bounds h B). apply Rdiv_lt_0_compat; [exact P|]. apply Rmult_lt_0_compat; lra. Qed.

Lemma pressure k power expo alt h o : 0 <= k <= 100 -> good_power k power -> good_exp k expo -> double alt -> stands_for alt h -> in_range h -> -10000 <= h <= 50000 ->
  exists p r, airpress_pa (isa o) (VNum (Fin h)) = Ok (VNum (Fin p)) /\ 0 < p /\ double (fl_isapress power expo alt) /\ stands_for (fl_isapress power expo alt) r /\ off_by (k + 100) r p /\
  (-5000 <= h -> agrees 1.0001e-5 r (std_press h)).
Proof.
  intros K GP GE D H I B. destruct (press_off k power expo K GP GE alt h D H I B) as (Dr & r & Sr & Or).
  exists (exp (lp h)), r. split; [apply airpress_isa; lra|]. split; [apply exp_pos|]. split; [exact Dr|]. split; [exact Sr|]. split; [exact Or|]. intros L.
  destruct (query_std h L ltac:(lra)) as (p & d & P1 & P2 & _). rewrite airpress_isa in P1 by lra. injection P1 as <-.
  apply (off_agrees (k + 100) r (exp (lp h))); [lra|apply exp_pos|apply std_positive|exact Or|exact P2].
Qed.
Lemma density k power expo off alt o h : 0 <= k <= 100 -> good_power k power -> good_exp k expo -> double off -> stands_for off o -> in_range o -> Rabs o <= 100 ->
  double alt -> stands_for alt h -> in_range h -> -10000 <= h <= 50000 ->
  exists d r, airdens_kgpm3 (isa o) (VNum (Fin h)) = Ok (VNum (Fin d)) /\ 0 < d /\ double (fl_isadens power expo off alt) /\ stands_for (fl_isadens power expo off alt) r /\ off_by (k + 125) r d /\
  (o = 0 -> -5000 <= h -> agrees 1.0001e-5 r (std_dens h)).
Proof.
  intros K GP GE Do Ho Io Bo D H I B. destruct (dens_off k power expo K GP GE alt h D H I off o Do Ho Io Bo B) as (Dr & r & Sr & Or). assert (T := std_temp_bounds h B). pose proof (abs_le_inv _ _ Bo) as Bo'.
  assert (P : 0 < exp (ld h) * std_temp h / (std_temp h + o)) by (apply Rdiv_lt_0_compat; [apply Rmult_lt_0_compat; [apply exp_pos|lra]|lra]).
  exists (exp (ld h) * std_temp h / (std_temp h + o)), r. split; [apply airdens_isa; lra|]. split; [exact P|]. split; [exact Dr|]. split; [exact Sr|]. split; [exact Or|]. intros -> L.
  destruct (query_std h L ltac:(lra)) as (p & d & _ & _ & D1 & D2 & _). rewrite airdens_isa in D1 by lra. injection D1 as <-.
  apply (off_agrees (k + 125) r (exp (ld h) * std_temp h / (std_temp h + 0))); [lra|exact P|apply std_dens_positive, B|exact Or|exact D2].
Qed.

(** order *)
Lemma off_order k x y r s : 0 <= k <= 300 -> off_by k r (exp x) -> off_by k s (exp y) -> y <= x - 0.000001 -> s < r.
Proof.
  unfold off_by. change (powerRZ 2 (-53)) with u. intros K A B L. pose proof u_pos as [U1 _]. pose proof u_small as U2. apply abs_le_inv in A, B. assert (KU : 0 <= k * u <= 0.0000000000001) by nra.
  assert (Y := exp_pos y). assert (X := exp_pos x). assert (E : exp y * (1 + 0.000001) <= exp x).
  { apply Rle_trans with (exp y * exp 0.000001); [apply Rmult_le_compat_l; [lra|apply exp_ineq1_le]|]. rewrite <- exp_plus. apply exp_le. lra. }
  assert (k * u * exp y <= 0.0000000000001 * exp y) by (apply Rmult_le_compat_r; lra). assert (k * u * exp x <= 0.0000000000001 * exp x) by (apply Rmult_le_compat_r; lra). lra.
Qed.
Lemma order k power expo x y a b : 0 <= k <= 100 -> good_power k power -> good_exp k expo -> double x -> double y -> stands_for x a -> stands_for y b -> in_range a -> in_range b ->
  -5000 <= a -> a + 0.1 <= b -> b <= 50000 ->
  (exists r s, stands_for (fl_isapress power expo x) r /\ stands_for (fl_isapress power expo y) s /\ s < r) /\
  (exists r s, stands_for (fl_isadens power expo (of_int 0) x) r /\ stands_for (fl_isadens power expo (of_int 0) y) s /\ s < r).
Proof.
  intros K GP GE Dx Dy Hx Hy Ix Iy A AB B. split.
  - destruct (press_off k power expo K GP GE x a Dx Hx Ix ltac:(lra)) as (_ & r & Sr & Or). destruct (press_off k power expo K GP GE y b Dy Hy Iy ltac:(lra)) as (_ & s & Ss & Os).
    exists r, s. split; [exact Sr|]. split; [exact Ss|]. apply (off_order (k + 100) (lp a) (lp b)); [lra|exact Or|exact Os|]. pose proof (lp_decreases a b A ltac:(lra) B). lra.
  - destruct (int_exact 0 ltac:(lia)) as [D0 H0]. assert (I0 : in_range 0) by (left; reflexivity). assert (B0 : Rabs 0 <= 100) by (rewrite Rabs_R0; lra).
    destruct (dens_off k power expo K GP GE x a Dx Hx Ix (of_int 0) 0 D0 H0 I0 B0 ltac:(lra)) as (_ & r & Sr & Or). destruct (dens_off k power expo K GP GE y b Dy Hy Iy (of_int 0) 0 D0 H0 I0 B0 ltac:(lra)) as (_ & s & Ss & Os).
    assert (T := std_temp_bounds a ltac:(lra)). assert (T' := std_temp_bounds b ltac:(lra)).
    replace (exp (ld a) * std_temp a / (std_temp a + 0)) with (exp (ld a)) in Or by (field; lra). replace (exp (ld b) * std_temp b / (std_temp b + 0)) with (exp (ld b)) in Os by (field; lra).
    exists r, s. split; [exact Sr|]. split; [exact Ss|]. apply (off_order (k + 125) (ld a) (ld b)); [lra|exact Or|exact Os|]. pose proof (ld_decreases a b A ltac:(lra) B). lra.
Qed.

(** functions that are good to two rounding errors *)
Definition value (x : spec_float) : R := match x with S754_finite s m e => signed s (IZR (Zpos m) * p2 e) | _ => 0 end.
Lemma value_ok x a : stands_for x a -> value x = a. Proof. intros []; reflexivity. Qed.
Definition to_double (v : R) : spec_float := binary_normalize 53 1024 (up (v * p2 400)) (-400) false.
Lemma to_double_ok v : p2 (-240) <= v <= p2 240 -> double (to_double v) /\ exists r, stands_for (to_double v) r /\ off_by 2 r v.
Proof.
  intros [L U]. unfold to_double. destruct (archimed (v * p2 400)) as [A1 A2]. set (m := up (v * p2 400)) in *. pose proof u_pos as [U1 _]. pose proof u_small as U2. pose proof (p2_pos (-400)) as P4. pose proof (p2_pos (-240)) as P2.
  assert (I : p2 400 * p2 (-400) = 1) by (rewrite <- p2_add; apply p2_0).
  assert (B1 : v <= IZR m * p2 (-400)). { apply Rle_trans with (v * p2 400 * p2 (-400)); [rewrite Rmult_assoc, I; lra|apply Rmult_le_compat_r; lra]. }
  assert (B2 : IZR m * p2 (-400) <= v + p2 (-400)). { apply Rle_trans with ((v * p2 400 + 1) * p2 (-400)); [apply Rmult_le_compat_r; lra|]. rewrite Rmult_plus_distr_r, Rmult_assoc, I. lra. }
  assert (S : p2 (-400) <= 0.001 * u * v).
  { apply Rle_trans with (0.001 * u * p2 (-240)); [|apply Rmult_le_compat_l; lra]. unfold u. rewrite Rmult_assoc, <- p2_add. change (-53 + -240)%Z with (-293)%Z. replace (-400)%Z with (-107 + -293)%Z by lia. rewrite p2_add. apply Rmult_le_compat_r; [left; apply p2_pos|].
    apply Rle_trans with (p2 (-20)); [apply p2_le; lia|]. replace (-20)%Z with (Z.opp 20) by reflexivity. rewrite p2_opp, p2_Z by lia. change (2 ^ 20)%Z with 1048576%Z. lra. }
  assert (M : 0 <= IZR m * p2 (-400)) by lra.
  destruct (normalize_ok m (-400) ltac:(lia)) as (D & r & Sr & _ & E).
  { rewrite Rabs_right by lra. apply Rle_lt_trans with (v + p2 (-400)); [exact B2|]. assert (p2 (-400) <= v) by (apply Rle_trans with (2 := L), p2_le; lia). apply Rle_lt_trans with (p2 240 * p2 1); [rewrite p2_1; lra|]. rewrite <- p2_add. apply p2_lt. lia. }
  split; [exact D|]. exists r. split; [exact Sr|]. unfold off_by. change (powerRZ 2 (-53)) with u in *. rewrite (Rabs_right (IZR m * p2 (-400))) in E by lra. change (p2 (-53)) with u in E.
  assert (u * (IZR m * p2 (-400)) <= u * (v + 0.001 * u * v)) by (apply Rmult_le_compat_l; lra). assert (V : 0 < v) by lra. assert (UV : 0 < u * v) by (apply Rmult_lt_0_compat; lra).
  assert (u * (0.001 * u * v) <= 0.001 * (u * v)) by nra. replace (r - v) with ((r - IZR m * p2 (-400)) + (IZR m * p2 (-400) - v)) by ring. apply Rle_trans with (1 := Rabs_triang _ _). rewrite (Rabs_right (IZR m * p2 (-400) - v)) by lra. lra.
Qed.
Lemma exp_INR n : exp (INR n) <= p2 (2 * Z.of_nat n).
Proof.
  induction n as [|n IH]; [cbn [INR]; rewrite exp_0; cbn; lra|]. rewrite S_INR, exp_plus. replace (2 * Z.of_nat (Datatypes.S n))%Z with (2 * Z.of_nat n + 2)%Z by lia. rewrite p2_add. pose proof exp_le_3. pose proof (exp_pos 1). pose proof (exp_pos (INR n)).
  replace (p2 2) with 4 by (rewrite p2_Z by lia; cbn; lra). apply Rmult_le_compat; lra.
Qed.
Lemma exp_range y : -120 <= y <= 120 -> p2 (-240) <= exp y <= p2 240.
Proof.
  intros B. assert (E := exp_INR 120). change (2 * Z.of_nat 120)%Z with 240%Z in E. replace (INR 120) with 120 in E by (rewrite INR_IZR_INZ; reflexivity). split.
  - apply Rle_trans with (exp (Ropp 120)); [|apply exp_le; lra]. rewrite exp_Ropp. replace (-240)%Z with (Z.opp 240) by reflexivity. rewrite p2_opp. apply Rinv_le_contravar; [apply exp_pos|exact E].
  - apply Rle_trans with (2 := E). apply exp_le. lra.
Qed.
Lemma good_functions : exists power expo, good_power 2 power /\ good_exp 2 expo.
Proof.
  exists (fun x y => to_double (Rpower (value x) (value y))), (fun x => to_double (exp (value x))). split.
  - intros x y a b _ _ Hx Hy A B. rewrite (value_ok x a Hx), (value_ok y b Hy). unfold Rpower.
    assert (L : Rabs (ln a) <= 3). { destruct (Rle_dec 1 a); [apply ln_upto_11; lra|]. apply Rle_trans with 1; [apply ln_size; lra|lra]. }
    assert (Bb : Rabs b <= 40) by (apply Rabs_le; lra).
    assert (T : Rabs (b * ln a) <= 40 * 3) by (rewrite Rabs_mult; apply Rmult_le_compat; try apply Rabs_pos; assumption). apply abs_le_inv in T.
    destruct (to_double_ok (exp (b * ln a)) (exp_range (b * ln a) ltac:(lra))) as (D & r & S & O). exists r. split; [exact D|]. split; [exact S|exact O].
  - intros x a _ Hx A. rewrite (value_ok x a Hx). destruct (to_double_ok (exp a) (exp_range a ltac:(lra))) as (D & r & S & O). exists r. split; [exact D|]. split; [exact S|exact O].
Qed.
Lemma in_range_int z : (1 <= z <= 1000000)%Z -> in_range (IZR z). Proof. intros Z. apply (int_in_range z Z). Qed.
Lemma press_case : (exists power expo, good_power 2 power /\ good_exp 2 expo) /\ double (of_int 25000) /\ stands_for (of_int 25000) 25000 /\ in_range 25000 /\ -10000 <= 25000 <= 50000.
Proof. split; [exact good_functions|]. destruct (int_in_range 25000 ltac:(lia)) as (D & S & I). split; [exact D|]. split; [exact S|]. split; [exact I|lra]. Qed.
Lemma dens_case : (exists power expo, good_power 2 power /\ good_exp 2 expo) /\ (double (of_int 20) /\ stands_for (of_int 20) 20 /\ in_range 20 /\ Rabs 20 <= 100) /\ double (of_int 25000) /\ stands_for (of_int 25000) 25000 /\ in_range 25000 /\ -10000 <= 25000 <= 50000.
Proof. split; [exact good_functions|]. destruct (int_in_range 20 ltac:(lia)) as (D & S & I). split; [split; [exact D|split; [exact S|split; [exact I|rewrite Rabs_right; lra]]]|]. apply press_case. Qed.
Lemma order_case : (exists power expo, good_power 2 power /\ good_exp 2 expo) /\ (double (of_int 10999) /\ stands_for (of_int 10999) 10999 /\ in_range 10999) /\ (double (of_int 11000) /\ stands_for (of_int 11000) 11000 /\ in_range 11000) /\ 10999 + 0.1 <= 11000.
Proof. split; [exact good_functions|]. split; [exact (int_in_range 10999 ltac:(lia))|]. split; [exact (int_in_range 11000 ltac:(lia))|lra]. Qed.
