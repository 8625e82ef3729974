(** The statements of C87 and the cases beside them. *)
From Coq Require Import Reals ZArith List Lra Lia Bool.
From Coq.Floats Require Import SpecFloat.
From Verif Require Import Base BaseFacts AtmosSpec FloatSpec FloatModel FloatArith FloatProofs FloatProofs2 FloatProofs3 FloatProofs4 FloatAtmosModel FloatAtmosProofs FloatAtmosProofs2 FloatAtmosProofs3.
Open Scope R_scope.

Lemma comparison x y a b : double x -> double y -> stands_for x a -> stands_for y b -> (SFltb x y = true <-> a < b).
Proof. intros Dx Dy Hx Hy. rewrite (ltb_ok x y a b Dx Dy Hx Hy). destruct (Rlt_dec a b); split; intros; (assumption || reflexivity || discriminate || contradiction). Qed.
Lemma int_in_range z : (1 <= z <= 1000000)%Z -> double (of_int z) /\ stands_for (of_int z) (IZR z) /\ in_range (IZR z).
Proof.
  intros Hz. destruct (int_exact z ltac:(lia)) as [D S]. split; [exact D|]. split; [exact S|]. right. assert (1 <= IZR z <= 1000000) by (split; apply IZR_le; lia). rewrite Rabs_right by lra. split.
  - apply Rle_trans with (p2 0); [apply p2_le; lia|rewrite p2_0; lra].
  - apply Rle_trans with (p2 23); [rewrite p2_23; lra|apply p2_le; lia].
Qed.
Lemma tropopause_level : double (of_int 11000) /\ stands_for (of_int 11000) 11000 /\ SFltb (of_int 11000) (of_int 11000) = false.
Proof. destruct (int_in_range 11000 ltac:(lia)) as (D & S & _). split; [exact D|]. split; [exact S|vm_compute; reflexivity]. Qed.
Lemma altitudes x h : double x -> stands_for x h -> in_range h -> Rabs h <= 100000 ->
  (exists r, double (fl_geom2geop x) /\ stands_for (fl_geom2geop x) r /\
    Rabs (r - 6356766 * h / (6356766 + h)) <= 3.003 * powerRZ 2 (-53) * Rabs (6356766 * h / (6356766 + h))) /\
  (exists r, double (fl_geop2geom x) /\ stands_for (fl_geop2geom x) r /\
    Rabs (r - 6356766 * h / (6356766 - h)) <= 3.003 * powerRZ 2 (-53) * Rabs (6356766 * h / (6356766 - h))) /\
  (exists r, stands_for (fl_geop2geom (fl_geom2geop x)) r /\ Rabs (r - h) <= 6.1 * powerRZ 2 (-53) * Rabs h) /\
  (exists r, stands_for (fl_geom2geop (fl_geop2geom x)) r /\ Rabs (r - h) <= 6.1 * powerRZ 2 (-53) * Rabs h).
Proof.
  intros D H I B. split; [exact (to_geop x h D H I B)|]. split; [exact (to_geom x h D H I B)|]. destruct altitudes_return as [R1 R2].
  destruct (R1 x h D H I B) as (r & _ & Hr & Er). destruct (R2 x h D H I B) as (s & _ & Hs & Es). split; [exists r|exists s]; split; assumption.
Qed.
Lemma eleven_km : double (of_int 11000) /\ stands_for (of_int 11000) 11000 /\ in_range 11000 /\ Rabs 11000 <= 100000.
Proof. destruct (int_in_range 11000 ltac:(lia)) as (D & S & I). split; [exact D|]. split; [exact S|]. split; [exact I|]. apply Rabs_le. lra. Qed.
Lemma altitude_order x y a b : double x -> double y -> stands_for x a -> stands_for y b -> in_range a -> in_range b ->
  (0 <= a -> a <= b -> b <= 100000 -> exists r s, stands_for (fl_geop2geom x) r /\ stands_for (fl_geop2geom y) s /\ r <= s) /\
  (Rabs a <= 100000 -> Rabs b <= 100000 -> a + 0.0000000001 <= b -> exists r s, stands_for (fl_geom2geop x) r /\ stands_for (fl_geom2geop y) s /\ r < s).
Proof. intros Dx Dy Sx Sy Ix Iy. split; [exact (geom_order x y a b Dx Dy Sx Sy Ix Iy)|exact (geop_spaced x y a b Dx Dy Sx Sy Ix Iy)]. Qed.
Lemma temperature off alt o h : double off -> stands_for off o -> Rabs o <= 100 -> double alt -> stands_for alt h -> in_range h -> -10000 <= h <= 50000 ->
  exists t, double (fl_isatemp off alt) /\ stands_for (fl_isatemp off alt) t /\ Rabs (t - (std_temp h + o)) <= 0.0000000000002.
Proof. intros Do So Bo D S I B. destruct (temperature_near off o alt h Do So Bo D S I B) as (D' & t & Ht & E). exists t. split; [exact D'|]. split; assumption. Qed.
Lemma hot_day : double (of_int 20) /\ stands_for (of_int 20) 20 /\ Rabs 20 <= 100 /\ double (of_int 11000) /\ stands_for (of_int 11000) 11000 /\ in_range 11000 /\ -10000 <= 11000 <= 50000.
Proof.
  destruct (int_in_range 11000 ltac:(lia)) as (D & S & I). destruct (int_in_range 20 ltac:(lia)) as (D2 & S2 & _). split; [exact D2|]. split; [exact S2|]. split; [apply Rabs_le; lra|].
  split; [exact D|]. split; [exact S|]. split; [exact I|lra].
Qed.
Lemma temperature_order off x y o a b : double off -> stands_for off o -> Rabs o <= 1000 -> double x -> double y -> stands_for x a -> stands_for y b -> a <= b ->
  (-50000 <= a -> b < 11000 -> exists s t, stands_for (fl_isatemp off x) s /\ stands_for (fl_isatemp off y) t /\ t <= s) /\
  (11000 <= a -> b <= 50000 -> exists s t, stands_for (fl_isatemp off x) s /\ stands_for (fl_isatemp off y) t /\ s <= t).
Proof.
  intros Do So Bo Dx Dy Sx Sy L. split; intros L1 L2.
  - destruct (falling off o Do So Bo x y a b Dx Dy Sx Sy L1 L L2) as (t & s & Ht & Hs & E). exists s, t. split; [exact Hs|]. split; assumption.
  - exact (not_falling off o Do So Bo x y a b Dx Dy Sx Sy L1 L L2).
Qed.
Lemma gas_law x t v T : double x -> stands_for x v -> in_range v -> double t -> stands_for t T -> powerRZ 2 (-60) <= T <= powerRZ 2 60 ->
  (exists r, double (fl_idealgasdens x t) /\ stands_for (fl_idealgasdens x t) r /\ Rabs (r - v / (287.05287 * T)) <= 3.003 * powerRZ 2 (-53) * Rabs (v / (287.05287 * T))) /\
  (exists r, double (fl_idealgaspress x t) /\ stands_for (fl_idealgaspress x t) r /\ Rabs (r - 287.05287 * v * T) <= 3.003 * powerRZ 2 (-53) * Rabs (287.05287 * v * T)) /\
  (exists r, stands_for (fl_idealgaspress (fl_idealgasdens x t) t) r /\ Rabs (r - v) <= 4.004 * powerRZ 2 (-53) * Rabs v) /\
  (exists r, stands_for (fl_idealgasdens (fl_idealgaspress x t) t) r /\ Rabs (r - v) <= 4.004 * powerRZ 2 (-53) * Rabs v).
Proof.
  intros Dx Sx Ix Dt St Bt. destruct (rng_in_pow 60 T Bt) as [_ PT]. split; [|split; [exact (gas_pressure x v t T Dx Sx Ix Dt St Bt)|]].
  - replace (v / (287.05287 * T)) with (v / 287.05287 / T) by (field; lra). exact (gas_density x v t T Dx Sx Ix Dt St Bt).
  - destruct (gas_back t T Dt St Bt) as [R1 R2]. destruct (R1 x v Dx Sx Ix) as (r & _ & Hr & Er). destruct (R2 x v Dx Sx Ix) as (s & _ & Hs & Es). rewrite Rplus_0_r in Er, Es. split; [exists r|exists s]; split; assumption.
Qed.
Lemma room_temperature : double (of_int 288) /\ stands_for (of_int 288) 288 /\ powerRZ 2 (-60) <= 288 <= powerRZ 2 60.
Proof.
  destruct (int_in_range 288 ltac:(lia)) as (D & S & _). split; [exact D|]. split; [exact S|]. split.
  - apply Rle_trans with (p2 0); [apply p2_le; lia|rewrite p2_0; lra].
  - apply Rle_trans with (p2 23); [rewrite p2_23; lra|apply p2_le; lia].
Qed.
Lemma sea_level_air : double (of_int 101325) /\ stands_for (of_int 101325) 101325 /\ in_range 101325 /\ double (of_int 288) /\ stands_for (of_int 288) 288 /\ powerRZ 2 (-60) <= 288 <= powerRZ 2 60.
Proof. destruct (int_in_range 101325 ltac:(lia)) as (D & S & I). split; [exact D|]. split; [exact S|]. split; [exact I|]. exact room_temperature. Qed.
Lemma sound t t' T T' : double t -> double t' -> stands_for t T -> stands_for t' T' ->
  powerRZ 2 (-60) <= T <= powerRZ 2 60 -> powerRZ 2 (-60) <= T' <= powerRZ 2 60 -> T <= T' ->
  exists r r', double (fl_vsound t) /\ stands_for (fl_vsound t) r /\ stands_for (fl_vsound t') r' /\ r <= r' /\
  Rabs (r - sqrt (1.4 * 287.05287 * T)) <= 3.003 * powerRZ 2 (-53) * sqrt (1.4 * 287.05287 * T).
Proof.
  intros D D' S S' B B' L. destruct (sound_speed t T D S B) as (r & Dr & Hr & E). destruct (sound_order t t' T T' D D' S S' B B' L) as (r2 & r' & H2 & H' & L'). rewrite (stands_unique _ _ _ H2 Hr) in L'.
  exists r, r'. split; [exact Dr|]. split; [exact Hr|]. split; [exact H'|]. split; assumption.
Qed.
Lemma sound_at_288 : double (of_int 288) /\ stands_for (of_int 288) 288 /\ powerRZ 2 (-60) <= 288 <= powerRZ 2 60 /\ exists r, stands_for (fl_vsound (of_int 288)) r /\ 340 < r < 341.
Proof.
  destruct room_temperature as (D & S & B). split; [exact D|]. split; [exact S|]. split; [exact B|]. destruct (sound_speed _ 288 D S B) as (r & _ & Hr & E). exists r. split; [exact Hr|].
  assert (L1 : 340.1 <= sqrt (1.4 * 287.05287 * 288)) by (apply sqrt_above; lra). assert (L2 : sqrt (1.4 * 287.05287 * 288) <= 340.9) by (apply sqrt_below; lra). set (w := sqrt _) in *.
  change (powerRZ 2 (-53)) with u in E. pose proof u_pos as [U1 U2]. apply abs_le_inv in E. assert (u * w <= 1/1000000000000000 * w) by (apply Rmult_le_compat_r; lra). lra.
Qed.
