(** The gas law, the speed of sound and the order of altitudes in double-precision arithmetic. *)
From Coq Require Import Reals ZArith List Lra Lia Bool.
From Coq.Floats Require Import SpecFloat.
From Verif Require Import Base BaseFacts AtmosSpec FloatSpec FloatModel FloatArith FloatProofs FloatProofs2 FloatProofs3 FloatProofs4 FloatAtmosModel FloatAtmosProofs FloatAtmosProofs2.
Open Scope R_scope.

(** witnesses *)
Lemma witness F x y : double x -> double y -> moderate x = true -> moderate y = true -> SFltb x y = true ->
  double (F x) -> double (F y) -> moderate (F x) = true -> moderate (F y) = true -> SFltb (F y) (F x) = true ->
  exists a b a' b', stands_for x a /\ stands_for y b /\ a < b /\ stands_for (F x) a' /\ stands_for (F y) b' /\ b' < a'.
Proof.
  intros Dx Dy Mx My L Dx' Dy' Mx' My' L'.
  destruct (moderate_ok _ Dx Mx) as (a & Ha & _). destruct (moderate_ok _ Dy My) as (b & Hb & _). destruct (moderate_ok _ Dx' Mx') as (a' & Ha' & _). destruct (moderate_ok _ Dy' My') as (b' & Hb' & _).
  exists a, b, a', b'. rewrite (ltb_ok _ _ _ _ Dx Dy Ha Hb) in L. rewrite (ltb_ok _ _ _ _ Dy' Dx' Hb' Ha') in L'.
  destruct (Rlt_dec a b); [|discriminate]. destruct (Rlt_dec b' a'); [|discriminate]. tauto.
Qed.
Lemma drop : exists x y a b a' b', double x /\ double y /\ stands_for x a /\ stands_for y b /\ 11982 < a < b /\ b < 11983 /\
  stands_for (fl_geom2geop x) a' /\ stands_for (fl_geom2geop y) b' /\ b' < a'.
Proof.
  set (x := S754_finite false 6587352919170304 (-39)). set (y := S754_finite false 6587352919170305 (-39)).
  destruct (witness fl_geom2geop x y) as (a & b & a' & b' & H1 & H2 & H3 & H4 & H5 & H6); try (vm_compute; reflexivity).
  exists x, y, a, b, a', b'. assert (Pv : powerRZ 2 (-39) = / 549755813888) by (change (-39)%Z with (- (39))%Z; change (p2 (- (39)) = / 549755813888); rewrite p2_opp, p2_Z by lia; reflexivity).
  assert (Ea : a = IZR (Zpos 6587352919170304) * powerRZ 2 (-39)) by (apply (stands_unique x); [exact H1|constructor]).
  assert (Eb : b = IZR (Zpos 6587352919170305) * powerRZ 2 (-39)) by (apply (stands_unique y); [exact H2|constructor]). rewrite Pv in Ea, Eb.
  split; [reflexivity|]. split; [reflexivity|]. split; [exact H1|]. split; [exact H2|]. split; [split; [|exact H3]; rewrite Ea; lra|]. split; [rewrite Eb; lra|]. tauto.
Qed.
Lemma tropopause : exists x a a' b', double x /\ stands_for x a /\ 10999 < a < 11000 /\ stands_for (fl_isatemp (of_int 0) x) a' /\ stands_for (fl_isatemp (of_int 0) (of_int 11000)) b' /\ a' < b' /\ a' < 216.65 /\ b' - a' <= 0.0000000000001.
Proof.
  set (x := S754_finite false 6047313952767999 (-39)).
  assert (Dx : double x) by reflexivity. destruct (moderate_ok x Dx ltac:(vm_compute; reflexivity)) as (a & Ha & Ia).
  assert (Pv : powerRZ 2 (-39) = / 549755813888) by (change (-39)%Z with (- (39))%Z; change (p2 (- (39)) = / 549755813888); rewrite p2_opp, p2_Z by lia; reflexivity).
  assert (Ea : a = IZR (Zpos 6047313952767999) * powerRZ 2 (-39)) by (apply (stands_unique x); [exact Ha|constructor]). rewrite Pv in Ea.
  assert (V1 : fl_isatemp (of_int 0) x = S754_finite false 7622694213045452 (-45)) by (vm_compute; reflexivity).
  assert (V2 : fl_isatemp (of_int 0) (of_int 11000) = S754_finite false 7622694213045453 (-45)) by (vm_compute; reflexivity).
  exists x, a, (IZR (Zpos 7622694213045452) * powerRZ 2 (-45)), (IZR (Zpos 7622694213045453) * powerRZ 2 (-45)). rewrite V1, V2.
  assert (Pw : powerRZ 2 (-45) = / 35184372088832) by (change (-45)%Z with (- (45))%Z; change (p2 (- (45)) = / 35184372088832); rewrite p2_opp, p2_Z by lia; reflexivity).
  split; [exact Dx|]. split; [exact Ha|]. split; [rewrite Ea; lra|]. split; [constructor|]. split; [constructor|]. rewrite Pw. split; [lra|]. split; lra.
Qed.

(** altitudes in order *)
Lemma geop_spaced x y s t : double x -> double y -> stands_for x s -> stands_for y t -> in_range s -> in_range t -> Rabs s <= 100000 -> Rabs t <= 100000 -> s + 0.0000000001 <= t ->
  exists a b, stands_for (fl_geom2geop x) a /\ stands_for (fl_geom2geop y) b /\ a < b.
Proof.
  intros Dx Dy Sx Sy Ix Iy Bx By L. destruct (to_geop x s Dx Sx Ix Bx) as (a & _ & Ha & Ea). destruct (to_geop y t Dy Sy Iy By) as (b & _ & Hb & Eb). exists a, b. split; [exact Ha|]. split; [exact Hb|].
  change (powerRZ 2 (-53)) with u in *. assert (U3 : u <= 0.000000000000000112) by (rewrite u_val; lra). pose proof u_pos.
  assert (K : forall h, Rabs h <= 100000 -> 3.003 * u * Rabs (6356766 * h / (6356766 + h)) <= 0.000000000035).
  { intros h Bh. pose proof (quotient_bound 1 h Rabs_R1 Bh) as Qb. rewrite Rmult_1_l in Qb. set (v := Rabs (6356766 * h / (6356766 + h))) in *. assert (0 <= v) by apply Rabs_pos. assert (u * v <= 0.000000000000000112 * 101600) by (apply Rmult_le_compat; lra). lra. }
  assert (Ks := K s Bx). assert (Kt := K t By). apply abs_le_inv in Ea. apply abs_le_inv in Eb. apply abs_le_inv in Bx. apply abs_le_inv in By.
  assert (G : 6356766 * t / (6356766 + t) - 6356766 * s / (6356766 + s) >= 0.9 * (t - s)).
  { replace (6356766 * t / (6356766 + t) - 6356766 * s / (6356766 + s)) with ((t - s) * (6356766 / (6356766 + t) * (6356766 / (6356766 + s)))) by (field; lra).
    assert (Q : forall h, - (100000) <= h <= 100000 -> 0.98 <= 6356766 / (6356766 + h)). { intros h Bh. apply (Rmult_le_reg_r (6356766 + h)); [lra|]. replace (6356766 / (6356766 + h) * (6356766 + h)) with 6356766 by (field; lra). lra. }
    assert (Qt := Q t By). assert (Qs := Q s Bx). set (p := 6356766 / (6356766 + t)) in *. set (q := 6356766 / (6356766 + s)) in *. assert (0.9 <= p * q) by nra. assert (0 <= (t - s) * (p * q - 0.9)) by (apply Rmult_le_pos; lra). lra. }
  lra.
Qed.
Lemma div_order x x' y y' a a' b b' : double x -> double x' -> double y -> double y' -> stands_for x a -> stands_for x' a' -> stands_for y b -> stands_for y' b' -> b <> 0 -> b' <> 0 ->
  mid (a / b) -> mid (a' / b') -> a / b <= a' / b' -> at_most (fdiv x y) (fdiv x' y') /\ double (fdiv x y) /\ double (fdiv x' y').
Proof.
  intros Dx Dx' Dy Dy' Sx Sx' Sy Sy' N N' M M' L. destruct (mid_low _ M) as [Lo Hi]. destruct (mid_low _ M') as [Lo' Hi'].
  assert (Z : forall p q, q <> 0 -> p / q = 0 \/ p2 (-1022) <= Rabs (p / q) -> p = 0 \/ p2 (-1022) <= Rabs (p / q)).
  { intros p q Nq [E|E]; [left|right; exact E]. apply (Rmult_eq_reg_r (/ q)); [|apply Rinv_neq_0_compat; exact Nq]. rewrite Rmult_0_l. exact E. }
  destruct (div_ok x y a b Dx Dy Sx Sy N (Z _ _ N Lo) Hi) as (D1 & r & Hr & Q). destruct (div_ok x' y' a' b' Dx' Dy' Sx' Sy' N' (Z _ _ N' Lo') Hi') as (D2 & s & Hs & Q').
  split; [|split; assumption]. exists r, s. split; [exact Hr|]. split; [exact Hs|]. exact (rounded_mono _ _ _ _ L Q Q').
Qed.
Lemma tracks_value x n t : tracks x 0 n t -> double x /\ stands_for x t.
Proof. intros [(D & a & H & (g & [F1 F2] & E)) _]. cbn in F1, F2. assert (g = 1) by lra. subst g. rewrite E, Rmult_1_r in H. split; assumption. Qed.
Lemma geom_order x y s t : double x -> double y -> stands_for x s -> stands_for y t -> in_range s -> in_range t -> 0 <= s -> s <= t -> t <= 100000 ->
  at_most (fl_geop2geom x) (fl_geop2geom y).
Proof.
  intros Dx Dy Sx Sy Ix Iy P L B. destruct earth_exact as [De Se]. assert (P23 : 1000000000 < p2 1023). { apply Rlt_le_trans with (p2 30); [rewrite p2_Z by lia; change (2 ^ 30)%Z with 1073741824%Z; lra|apply p2_le; lia]. }
  assert (P40 : 1000000000000 < p2 1023). { apply Rlt_le_trans with (p2 40); [rewrite p2_Z by lia; change (2 ^ 40)%Z with 1099511627776%Z; lra|apply p2_le; lia]. }
  assert (Rs := rng_mul 23 800 6356766 s (rng_earth 6356766 ltac:(lra)) Ix). assert (Rt := rng_mul 23 800 6356766 t (rng_earth 6356766 ltac:(lra)) Iy).
  destruct (mul_ok _ _ _ _ De Dx Se Sx) as (D1 & p & Hp & Qp); [rewrite Rabs_right by lra; lra|]. destruct (mul_ok _ _ _ _ De Dy Se Sy) as (D2 & p' & Hp' & Qp'); [rewrite Rabs_right by lra; lra|].
  destruct (sub_ok _ _ _ _ De Dx Se Sx) as (D3 & q & Hq & Qq & Eq); [rewrite Rabs_right by lra; lra|]. destruct (sub_ok _ _ _ _ De Dy Se Sy) as (D4 & q' & Hq' & Qq' & Eq'); [rewrite Rabs_right by lra; lra|].
  assert (Lp : p <= p') by (apply (rounded_mono (6356766 * s) (6356766 * t)); [lra|exact Qp|exact Qp']). assert (Lq : q' <= q) by (apply (rounded_mono (6356766 - t) (6356766 - s)); [lra|exact Qq'|exact Qq]).
  assert (P0 : 0 <= p) by (apply (rounded_sign (6356766 * s)); [lra|exact Qp]).
  change (p2 (-53)) with u in *. pose proof u_pos. rewrite (Rabs_right (6356766 - s)) in Eq by lra. rewrite (Rabs_right (6356766 - t)) in Eq' by lra. apply abs_le_inv in Eq. apply abs_le_inv in Eq'.
  assert (B1 : u * (6356766 - s) <= 1/1000000000000000 * (6356766 - s)) by (apply Rmult_le_compat_r; lra). assert (B2 : u * (6356766 - t) <= 1/1000000000000000 * (6356766 - t)) by (apply Rmult_le_compat_r; lra).
  assert (Rp : rng 824 p). { apply (rng_round 823 (6356766 * s)); [|exact Rs]. apply (rounded_error _ _ Qp). destruct Rs as [->|[R1 _]]; [left; reflexivity|right]. apply Rle_trans with (2 := R1). apply p2_le. lia. }
  assert (Rp' : rng 824 p'). { apply (rng_round 823 (6356766 * t)); [|exact Rt]. apply (rounded_error _ _ Qp'). destruct Rt as [->|[R1 _]]; [left; reflexivity|right]. apply Rle_trans with (2 := R1). apply p2_le. lia. }
  assert (Rq : rng 23 q) by (apply rng_earth; lra). assert (Rq' : rng 23 q') by (apply rng_earth; lra).
  assert (M : forall a b, rng 824 a -> rng 23 b -> b <> 0 -> mid (a / b)). { intros a b Ra Rb Nb. apply (rng_mid (824 + 23)); [lia|]. apply rng_mul; [exact Ra|apply rng_inv; assumption]. }
  destruct (div_order _ _ _ _ p p' q q' D1 D2 D3 D4 Hp Hp' Hq Hq') as [R _]; [lra|lra|apply M; [assumption|assumption|lra]|apply M; [assumption|assumption|lra]| |exact R].
  assert (I : 0 < / q <= / q') by (split; [apply Rinv_0_lt_compat; lra|apply Rinv_le_contravar; lra]). apply Rmult_le_compat; lra.
Qed.

(** the gas law *)
Lemma lit_R : tracks fl_R 1 10 287.05287. Proof. literal. Qed.
Lemma rng_in_pow n t : powerRZ 2 (- n) <= t <= powerRZ 2 n -> rng n t /\ 0 < t.
Proof. intros [A B]. pose proof (p2_pos (- n)) as P. change (powerRZ 2 (- n)) with (p2 (- n)) in A. split; [right; rewrite Rabs_right by lra; split; assumption|lra]. Qed.
Lemma gas_density p P t T : double p -> stands_for p P -> in_range P -> double t -> stands_for t T -> powerRZ 2 (-60) <= T <= powerRZ 2 60 ->
  exists r, double (fl_idealgasdens p t) /\ stands_for (fl_idealgasdens p t) r /\ Rabs (r - P / 287.05287 / T) <= 3.003 * powerRZ 2 (-53) * Rabs (P / 287.05287 / T).
Proof.
  intros Dp Sp Ip Dt St Bt. destruct (rng_in_pow 60 T Bt) as [RT PT]. assert (Tp := tracks_exact p P 800 Dp Sp Ip). assert (Tt := tracks_exact t T 60 Dt St RT).
  assert (N : 287.05287 <> 0) by lra. assert (T1 := tracks_div _ _ _ _ _ _ _ _ Tp lit_R N ltac:(lia) ltac:(lia)). assert (NT : T <> 0) by lra. assert (T2 := tracks_div _ _ _ _ _ _ _ _ T1 Tt NT ltac:(lia) ltac:(lia)).
  destruct (tracks_error _ 3 _ _ ltac:(lia) T2) as (D & r & H & E). exists r. split; [exact D|]. split; [exact H|]. change (powerRZ 2 (-53)) with u. cbn [INR] in E. lra.
Qed.
Lemma gas_pressure d P t T : double d -> stands_for d P -> in_range P -> double t -> stands_for t T -> powerRZ 2 (-60) <= T <= powerRZ 2 60 ->
  exists r, double (fl_idealgaspress d t) /\ stands_for (fl_idealgaspress d t) r /\ Rabs (r - 287.05287 * P * T) <= 3.003 * powerRZ 2 (-53) * Rabs (287.05287 * P * T).
Proof.
  intros Dp Sp Ip Dt St Bt. destruct (rng_in_pow 60 T Bt) as [RT PT]. assert (Tp := tracks_exact d P 800 Dp Sp Ip). assert (Tt := tracks_exact t T 60 Dt St RT).
  assert (T1 := tracks_mul _ _ _ _ _ _ _ _ lit_R Tp ltac:(lia) ltac:(lia)). assert (T2 := tracks_mul _ _ _ _ _ _ _ _ T1 Tt ltac:(lia) ltac:(lia)).
  destruct (tracks_error _ 3 _ _ ltac:(lia) T2) as (D & r & H & E). exists r. split; [exact D|]. split; [exact H|]. change (powerRZ 2 (-53)) with u. cbn [INR] in E. lra.
Qed.
Lemma gas_back t T : double t -> stands_for t T -> powerRZ 2 (-60) <= T <= powerRZ 2 60 ->
  recovers (fun p => fl_idealgasdens p t) (fun d => fl_idealgaspress d t) 4.004 0 /\ recovers (fun d => fl_idealgaspress d t) (fun p => fl_idealgasdens p t) 4.004 0.
Proof.
  intros Dt St Bt. destruct (rng_in_pow 60 T Bt) as [RT PT]. assert (Tt := tracks_exact t T 60 Dt St RT). assert (NT : T <> 0) by lra.
  destruct (exact_value _ _ _ lit_R ltac:(lia) ltac:(lra)) as (b & Tb & Nb & _).
  split; intros x r D H I; assert (Tx := tracks_exact x r 800 D H I).
  - assert (T1 := tracks_div _ _ _ _ _ _ _ _ Tx Tb Nb ltac:(lia) ltac:(lia)). assert (T2 := tracks_div _ _ _ _ _ _ _ _ T1 Tt NT ltac:(lia) ltac:(lia)).
    assert (T3 := tracks_mul _ _ _ _ _ _ _ _ Tb T2 ltac:(lia) ltac:(lia)). assert (T4 := tracks_mul _ _ _ _ _ _ _ _ T3 Tt ltac:(lia) ltac:(lia)).
    destruct (tracks_error _ 4 _ _ ltac:(lia) T4) as (D' & a & Ha & E). exists a. split; [exact D'|]. split; [exact Ha|]. replace (b * (r / b / T) * T) with r in E by (field; lra).
    rewrite Rplus_0_r. change (powerRZ 2 (-53)) with u. cbn [INR] in E. lra.
  - assert (T1 := tracks_mul _ _ _ _ _ _ _ _ Tb Tx ltac:(lia) ltac:(lia)). assert (T2 := tracks_mul _ _ _ _ _ _ _ _ T1 Tt ltac:(lia) ltac:(lia)).
    assert (T3 := tracks_div _ _ _ _ _ _ _ _ T2 Tb Nb ltac:(lia) ltac:(lia)). assert (T4 := tracks_div _ _ _ _ _ _ _ _ T3 Tt NT ltac:(lia) ltac:(lia)).
    destruct (tracks_error _ 4 _ _ ltac:(lia) T4) as (D' & a & Ha & E). exists a. split; [exact D'|]. split; [exact Ha|]. replace (b * r * T / b / T) with r in E by (field; lra).
    rewrite Rplus_0_r. change (powerRZ 2 (-53)) with u. cbn [INR] in E. lra.
Qed.
(** more pressure is never less dense; more heat is never denser *)
Lemma density_order p p' t t' P P' T T' : double p -> double p' -> double t -> double t' -> stands_for p P -> stands_for p' P' -> stands_for t T -> stands_for t' T' ->
  in_range P -> in_range P' -> powerRZ 2 (-60) <= T <= powerRZ 2 60 -> powerRZ 2 (-60) <= T' <= powerRZ 2 60 -> 0 <= P -> P <= P' -> T' <= T ->
  at_most (fl_idealgasdens p t) (fl_idealgasdens p' t').
Proof.
  intros Dp Dp' Dt Dt' Sp Sp' St St' Ip Ip' Bt Bt' L0 LP LT. destruct (rng_in_pow 60 T Bt) as [RT PT]. destruct (rng_in_pow 60 T' Bt') as [RT' PT'].
  destruct (exact_value _ _ _ lit_R ltac:(lia) ltac:(lra)) as (b & Tb & Nb & Eb). destruct (tracks_value _ _ _ Tb) as [Db Sb]. destruct Tb as [_ Rb].
  assert (Pb : 0 < b). { cbn [INR] in Eb. rewrite (Rabs_right 287.05287) in Eb by lra. apply abs_le_inv in Eb. pose proof u_pos. lra. }
  assert (Rq : rng 811 (P / b)) by (apply (rng_mul 800 11); [exact Ip|apply rng_inv; assumption]). assert (Rq' : rng 811 (P' / b)) by (apply (rng_mul 800 11); [exact Ip'|apply rng_inv; assumption]).
  assert (Ib : 0 < / b) by (apply Rinv_0_lt_compat; exact Pb).
  destruct (div_order p p' fl_R fl_R P P' b b Dp Dp' Db Db Sp Sp' Sb Sb Nb Nb) as ((q & q' & Hq & Hq' & Lq) & D1 & D2); [apply (rng_mid 811); [lia|assumption]|apply (rng_mid 811); [lia|assumption]|apply Rmult_le_compat_r; lra|].
  assert (Back : forall x X y Y, double x -> stands_for x X -> 0 <= X -> rng 811 (X / b) -> stands_for (fdiv x fl_R) y -> y = Y -> 0 <= Y /\ rng 812 Y).
  { intros x X y Y Dx Sx Px Rx Hy <-. destruct (mid_low _ (rng_mid 811 _ ltac:(lia) Rx)) as [Lo Hi].
    assert (Lo' : X = 0 \/ p2 (-1022) <= Rabs (X / b)). { destruct Lo as [Z|Z]; [left|right; exact Z]. apply (Rmult_eq_reg_r (/ b)); [|lra]. rewrite Rmult_0_l. exact Z. }
    destruct (div_ok x fl_R X b Dx Db Sx Sb Nb Lo' Hi) as (_ & y' & Hy' & Q). rewrite (stands_unique _ _ _ Hy' Hy) in Q. split; [apply (rounded_sign (X / b)); [apply Rmult_le_pos; lra|exact Q]|].
    apply (rng_round 811 (X / b)); [|exact Rx]. apply (rounded_error _ _ Q). exact Lo. }
  destruct (Back p P q q Dp Sp L0 Rq Hq eq_refl) as [Pq R1]. destruct (Back p' P' q' q' Dp' Sp' ltac:(lra) Rq' Hq' eq_refl) as [Pq' R2].
  destruct (div_order _ _ t t' q q' T T' D1 D2 Dt Dt' Hq Hq' St St') as [R _]; [lra|lra|apply (rng_mid (812 + 60)); [lia|apply rng_mul; [exact R1|apply rng_inv; [lra|exact RT]]]|apply (rng_mid (812 + 60)); [lia|apply rng_mul; [exact R2|apply rng_inv; [lra|exact RT']]]| |exact R].
  assert (I1 : 0 < / T <= / T') by (split; [apply Rinv_0_lt_compat; lra|apply Rinv_le_contravar; lra]). apply Rmult_le_compat; lra.
Qed.

(** the speed of sound *)
Lemma half_factor g : factor 4 g -> factor 2 (sqrt g).
Proof.
  intros [A B]. pose proof (w_pos 2) as W. pose proof (w_pos 4) as W4. assert (E : (1 - u) ^ 4 = (1 - u) ^ 2 * (1 - u) ^ 2) by (cbn [pow]; ring). rewrite E in A, B, W4. unfold factor. set (w := (1 - u) ^ 2) in *.
  assert (I : 0 < / w) by (apply Rinv_0_lt_compat; exact W). rewrite Rinv_mult in B. split; [apply sqrt_above; lra|apply sqrt_below; lra].
Qed.
Lemma lit_14 : tracks (lit 14 1) 1 10 1.4. Proof. literal. Qed.
Lemma sound_speed t T : double t -> stands_for t T -> powerRZ 2 (-60) <= T <= powerRZ 2 60 ->
  exists r, double (fl_vsound t) /\ stands_for (fl_vsound t) r /\ Rabs (r - sqrt (1.4 * 287.05287 * T)) <= 3.003 * powerRZ 2 (-53) * sqrt (1.4 * 287.05287 * T).
Proof.
  intros Dt St Bt. destruct (rng_in_pow 60 T Bt) as [RT PT]. assert (Tt := tracks_exact t T 60 Dt St RT).
  assert (T1 := tracks_mul _ _ _ _ _ _ _ _ lit_14 lit_R ltac:(lia) ltac:(lia)). assert (T2 := tracks_mul _ _ _ _ _ _ _ _ T1 Tt ltac:(lia) ltac:(lia)). destruct T2 as [(D & a & Ha & (g & F & Ea)) Rg].
  cbn [Nat.add] in F. assert (Pt : 0 < 1.4 * 287.05287 * T) by lra. set (v := 1.4 * 287.05287 * T) in *. assert (G := factor_half 4 g ltac:(lia) F). assert (Pa : 0 < a) by (rewrite Ea; apply Rmult_lt_0_compat; lra).
  destruct (sqrt_ok _ a D Ha ltac:(lra)) as (D' & r & Hr & Q). exists r. unfold fl_vsound. split; [exact D'|]. split; [exact Hr|].
  assert (Ra : rng 81 a). { rewrite Ea. exact (rng_factor _ _ _ 4 ltac:(lia) F Rg). }
  assert (Rs : rng 41 (sqrt a)) by (apply (rng_sqrt 81); [lia|lra|exact Ra]).
  assert (E1 : Rabs (r - sqrt a) <= u * Rabs (sqrt a)). { apply (rounded_error _ _ Q). destruct Rs as [Z|[R1 _]]; [left; exact Z|right]. apply Rle_trans with (2 := R1). apply p2_le. lia. }
  assert (W : within (2 + 1) r (sqrt v)). { apply (within_trans _ _ _ (sqrt a)); [apply error_within; exact E1|]. exists (sqrt g). split; [apply half_factor; exact F|]. rewrite Ea. apply sqrt_mult; lra. }
  assert (E := within_error 3 _ _ ltac:(lia) W). cbn [Nat.add INR] in E. rewrite (Rabs_right (sqrt v)) in E by (apply Rle_ge, sqrt_pos). change (powerRZ 2 (-53)) with u. lra.
Qed.
Lemma sound_order t t' T T' : double t -> double t' -> stands_for t T -> stands_for t' T' -> powerRZ 2 (-60) <= T <= powerRZ 2 60 -> powerRZ 2 (-60) <= T' <= powerRZ 2 60 -> T <= T' -> at_most (fl_vsound t) (fl_vsound t').
Proof.
  intros Dt Dt' St St' Bt Bt' L. destruct (rng_in_pow 60 T Bt) as [RT PT]. destruct (rng_in_pow 60 T' Bt') as [RT' PT'].
  assert (T1 := tracks_mul _ _ _ _ _ _ _ _ lit_14 lit_R ltac:(lia) ltac:(lia)). destruct T1 as [(D & a & Ha & (g & F & Ea)) Rg]. assert (G := factor_half 3 g ltac:(lia) F). assert (Pa : 0 < a) by (rewrite Ea; lra).
  assert (Ra : rng 21 a). { rewrite Ea. exact (rng_factor 20 _ _ 3 ltac:(lia) F Rg). }
  assert (Hi : forall X, rng 60 X -> Rabs (a * X) < p2 1023). { intros X RX. apply (mid_low (a * X)), (rng_mid (21 + 60)); [lia|]. apply rng_mul; assumption. }
  destruct (mul_ok _ _ _ _ D Dt Ha St (Hi T RT)) as (D1 & p & Hp & Qp). destruct (mul_ok _ _ _ _ D Dt' Ha St' (Hi T' RT')) as (D2 & q & Hq & Qq).
  assert (0 <= a * (T' - T)) by (apply Rmult_le_pos; lra). assert (0 < a * T) by (apply Rmult_lt_0_compat; lra).
  assert (Lp : p <= q) by (apply (rounded_mono (a * T) (a * T')); [lra|exact Qp|exact Qq]). assert (Pp : 0 <= p) by (apply (rounded_sign (a * T)); [lra|exact Qp]).
  destruct (sqrt_ok _ p D1 Hp Pp) as (_ & r & Hr & Qr). destruct (sqrt_ok _ q D2 Hq ltac:(lra)) as (_ & s & Hs & Qs). exists r, s. split; [exact Hr|]. split; [exact Hs|].
  apply (rounded_mono (sqrt p) (sqrt q)); [apply sqrt_le_1; lra|exact Qr|exact Qs].
Qed.
