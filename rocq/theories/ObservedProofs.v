(** Atmospheres made from the readings of an ascent. *)
From Coq Require Import Permutation.
From Verif Require Import Base BaseFacts AtmosModel AtmosSpec AtmosProofs AtmosProofs3 RunwayProofs2 HandbookFacts ObservedSpec.
Open Scope R_scope.

Lemma fold_min_spec r : forall x, In (fold_left Rmin r x) (x :: r) /\ forall y, In y (x :: r) -> fold_left Rmin r x <= y.
Proof.
  induction r as [|z r IH]; intros x; [split; [left; reflexivity|intros y [<-|[]]; cbn; lra]|]. cbn [fold_left].
  destruct (IH (Rmin x z)) as (I & L). pose proof (L _ (or_introl eq_refl)) as M. pose proof (Rmin_l x z). pose proof (Rmin_r x z). split.
  - destruct I as [I|I]; [|right; right; exact I]. rewrite <- I. unfold Rmin at 1. destruct (Rle_dec x z); [left|right; left]; reflexivity.
  - intros y [<-|[<-|J]]; [lra..|apply L; right; exact J].
Qed.
Lemma fold_max_spec r : forall x, In (fold_left Rmax r x) (x :: r) /\ forall y, In y (x :: r) -> y <= fold_left Rmax r x.
Proof.
  induction r as [|z r IH]; intros x; [split; [left; reflexivity|intros y [<-|[]]; cbn; lra]|]. cbn [fold_left].
  destruct (IH (Rmax x z)) as (I & L). pose proof (L _ (or_introl eq_refl)) as M. pose proof (Rmax_l x z). pose proof (Rmax_r x z). split.
  - destruct I as [I|I]; [|right; right; exact I]. rewrite <- I. unfold Rmax at 1. destruct (Rle_dec x z); [right; left|left]; reflexivity.
  - intros y [<-|[<-|J]]; [lra..|apply L; right; exact J].
Qed.

Lemma combine_map {A} (f g : A -> R) l : combine (map f l) (map g l) = map (fun x => (f x, g x)) l.
Proof. induction l as [|x l IH]; [reflexivity|]. cbn. rewrite IH. reflexivity. Qed.
Lemma same_height obs a b : NoDup (map rd_h obs) -> In a obs -> In b obs -> rd_h a = rd_h b -> a = b.
Proof.
  induction obs as [|c obs IH]; intros N I J E; [destruct I|]. cbn in N. inversion N as [|? ? N1 N2]; subst.
  destruct I as [<-|I], J as [<-|J]; [reflexivity|exfalso; apply N1; rewrite E; apply in_map; exact J|exfalso; apply N1; rewrite <- E; apply in_map; exact I|apply IH; assumption].
Qed.

(** ** The columns *)
Lemma observed_columns a p obs : observed a p obs -> prof a = Some p /\ alt_m p = map rd_h obs /\ temp_k p = map rd_temp obs /\ rho_kgpm3 p = map rd_rho obs /\
  p_pa p = map rd_press obs.
Proof.
  intros (O & P). destruct (obs_columns _ _ _ _ O) as (A & T & R & Q); [rewrite !map_length; reflexivity..|]. split; [exact P|]. split; [exact A|]. split; [exact T|]. split; [exact R|].
  rewrite Q, combine_map, map_map. reflexivity.
Qed.
Lemma sound_column l : Forall (fun x => 0 < rd_temp x /\ 0 < rd_rho x) l -> mapM vs_of_temp (map rd_temp l) = Ok (map rd_sound l).
Proof.
  induction 1 as [|x l (T & _) F IH]; [reflexivity|]. cbn [map mapM]. rewrite IH. unfold vs_of_temp at 1, R_JPKGPK. rewrite !nmul_fin. unfold msqrt.
  rewrite Rltb_false by lra. reflexivity.
Qed.
Lemma observed_sound a p obs : ascent obs -> observed a p obs -> vs_mps p = map rd_sound obs.
Proof.
  intros (_ & _ & F) (O & _). unfold obsprofile in O. cbn [npsize] in O. rewrite !map_length, !Nat.eqb_refl in O. cbn [andb rbind] in O.
  rewrite (sound_column obs F) in O. cbn [rbind fst snd] in O. destruct (_ && _)%bool in O; [|discriminate]. injection O as <-. reflexivity.
Qed.
Lemma observed_exists obs : ascent obs -> exists a p, observed a p obs.
Proof.
  intros (N & _ & F). destruct (obs_total (map rd_h obs) (map rd_temp obs) (map rd_rho obs)) as (p & E & _).
  - destruct obs; [congruence|discriminate].
  - rewrite !map_length. reflexivity.
  - rewrite !map_length. reflexivity.
  - apply Forall_map. revert F. apply Forall_impl. intros ? (? & _). lra.
  - exists {| offset_deg := Fin 0; prof := Some p |}, p. split; [exact E|reflexivity].
Qed.

(** ** One column between two readings *)
Definition tab (f : reading -> R) (obs : list reading) : list (R * R) := map (fun l => (rd_h l, f l)) obs.
Lemma tab_nodup f obs : NoDup (map rd_h obs) -> NoDup (map fst (tab f obs)).
Proof. unfold tab. rewrite map_map. cbn. auto. Qed.
Lemma tab_in f obs l : In l obs -> In (rd_h l, f l) (tab f obs).
Proof. intros I. exact (in_map (fun l => (rd_h l, f l)) _ _ I). Qed.
Lemma tab_inv f obs q : In q (tab f obs) -> exists l, In l obs /\ q = (rd_h l, f l).
Proof. intros I. apply in_map_iff in I. destruct I as (l & E & I). exists l. auto. Qed.
Lemma column_layer f obs x lo hi s : NoDup (map rd_h obs) -> layer obs x lo hi s -> interp1d (tab f obs) (Fin x) = Ok (Fin (part_way s (f lo) (f hi))).
Proof.
  intros N (IL & IH & LE & G & S & X). pose proof (tab_nodup f obs N) as NT.
  destruct (Req_dec (rd_h lo) (rd_h hi)) as [E|E].
  { pose proof (same_height obs lo hi N IL IH E) as <-. replace x with (rd_h lo) by (rewrite X; ring). rewrite (interp1d_knot _ _ _ NT (tab_in f obs lo IL)).
    unfold part_way. do 2 f_equal. ring. }
  destruct (Req_dec x (rd_h lo)) as [E0|E0].
  { rewrite E0. rewrite (interp1d_knot _ _ _ NT (tab_in f obs lo IL)). assert (s = 0) as -> by nra. unfold part_way. do 2 f_equal. ring. }
  destruct (Req_dec x (rd_h hi)) as [E1|E1].
  { rewrite E1. rewrite (interp1d_knot _ _ _ NT (tab_in f obs hi IH)). assert (s = 1) as -> by nra. unfold part_way. do 2 f_equal. ring. }
  assert (B : rd_h lo <= x <= rd_h hi) by nra.
  destruct (interp1d_between (tab f obs) x _ _ NT (tab_in f obs lo IL) (tab_in f obs hi IH)) as (v & p & q & EV & IP & IQ & (XB & CH & _) & GB); [cbn; exact B|].
  destruct (tab_inv _ _ _ IP) as (l1 & I1 & ->). destruct (tab_inv _ _ _ IQ) as (l2 & I2 & ->). cbn [fst snd] in *.
  assert (l1 = lo) as ->.
  { apply (same_height obs); [assumption..|]. specialize (G l1 I1). pose proof (GB _ (tab_in f obs lo IL)) as H. cbn in H. lra. }
  assert (l2 = hi) as ->.
  { apply (same_height obs); [assumption..|]. specialize (G l2 I2). pose proof (GB _ (tab_in f obs hi IH)) as H. cbn in H. lra. }
  rewrite EV. do 2 f_equal. unfold part_way. apply (Rmult_eq_reg_r (rd_h hi - rd_h lo)); [|lra]. rewrite CH, X. ring.
Qed.
Lemma layer_exists obs x : NoDup (map rd_h obs) -> covered obs x -> exists lo hi s, layer obs x lo hi s.
Proof.
  intros N (l & h & IL & IH & B).
  destruct (interp1d_between (tab rd_temp obs) x _ _ (tab_nodup _ _ N) (tab_in rd_temp obs l IL) (tab_in rd_temp obs h IH) B) as (v & p & q & _ & IP & IQ & (XB & _) & GB).
  destruct (tab_inv _ _ _ IP) as (l1 & I1 & ->). destruct (tab_inv _ _ _ IQ) as (l2 & I2 & ->). cbn [fst snd] in *.
  assert (G : forall r, In r obs -> rd_h r <= rd_h l1 \/ rd_h l2 <= rd_h r) by (intros r J; exact (GB _ (tab_in rd_temp obs r J))).
  destruct (Req_dec (rd_h l1) (rd_h l2)) as [E|E].
  - exists l1, l2, 0. repeat split; try assumption; lra.
  - exists l1, l2, ((x - rd_h l1) / (rd_h l2 - rd_h l1)).
    assert (P : 0 < rd_h l2 - rd_h l1) by lra. pose proof (Rinv_0_lt_compat _ P). assert (M : (rd_h l2 - rd_h l1) * / (rd_h l2 - rd_h l1) = 1) by (apply Rinv_r; lra).
    repeat split; try assumption; try lra; [unfold Rdiv; nra|unfold Rdiv; nra|field; lra].
Qed.
Lemma layer_covered obs x lo hi s : layer obs x lo hi s -> covered obs x.
Proof. intros (IL & IH & LE & _ & S & X). exists lo, hi. repeat split; [assumption..| |]; nra. Qed.

(** ** Queries *)
Lemma limits a p obs : ascent obs -> observed a p obs -> exists lo hi, loalt p = Ok (rd_h lo) /\ hialt p = Ok (rd_h hi) /\ In lo obs /\ In hi obs /\
  forall l, In l obs -> rd_h lo <= rd_h l <= rd_h hi.
Proof.
  intros (NE & _) O. destruct (observed_columns _ _ _ O) as (_ & A & _). unfold loalt, hialt. rewrite A. destruct obs as [|o obs]; [congruence|]. cbn [map pymin pymax].
  destruct (fold_min_spec (map rd_h obs) (rd_h o)) as (I1 & L1). destruct (fold_max_spec (map rd_h obs) (rd_h o)) as (I2 & L2).
  change (rd_h o :: map rd_h obs) with (map rd_h (o :: obs)) in *. apply in_map_iff in I1, I2. destruct I1 as (lo & E1 & I1), I2 as (hi & E2 & I2).
  exists lo, hi. rewrite <- E1, <- E2. repeat (split; [solve [reflexivity|assumption]|]). intros l I. rewrite E1, E2. split; [apply L1|apply L2]; apply in_map; exact I.
Qed.
Lemma alttest_observed a p obs x : ascent obs -> observed a p obs ->
  (covered obs x -> alttest a (VNum (Fin x)) = Ok [Fin x]) /\ (~ covered obs x -> alttest a (VNum (Fin x)) = Err TypeError).
Proof.
  intros S O. destruct (limits a p obs S O) as (lo & hi & L & H & IL & IH & B). destruct (observed_columns _ _ _ O) as (P & _).
  unfold loalt in L. unfold hialt in H. unfold alttest. rewrite P, L, H. cbn [rbind recastasnpfloatarray existsb]. rewrite !nltb_fin, !Bool.orb_false_r. split; intros C.
  - destruct C as (l & h & J & K & X). pose proof (B l J). pose proof (B h K). rewrite !Rltb_false by lra. reflexivity.
  - destruct (Rltb_reflect x (rd_h lo)) as [X|X]; [reflexivity|]. destruct (Rltb_reflect (rd_h hi) x) as [Y|Y]; [reflexivity|]. exfalso. apply C. exists lo, hi. repeat split; [assumption..| |]; lra.
Qed.
Lemma part_pos s u v : 0 <= s <= 1 -> 0 < u -> 0 < v -> 0 < part_way s u v.
Proof. intros S U V. unfold part_way. destruct (Rle_dec u v); nra. Qed.
Lemma positive_reading obs l : ascent obs -> In l obs -> 0 < rd_temp l /\ 0 < rd_rho l.
Proof. intros (_ & _ & F) I. rewrite Forall_forall in F. exact (F l I). Qed.
Lemma layer_answers a p obs x lo hi s : ascent obs -> observed a p obs -> layer obs x lo hi s ->
  answers a x (part_way s (rd_temp lo) (rd_temp hi)) (part_way s (rd_rho lo) (rd_rho hi)) (part_way s (rd_press lo) (rd_press hi))
    (sqrt (1.4 * 287.05287 * part_way s (rd_temp lo) (rd_temp hi))).
Proof.
  intros S O L. destruct (alttest_observed a p obs x S O) as (A & _). specialize (A (layer_covered _ _ _ _ _ L)). destruct (observed_columns _ _ _ O) as (P & HA & HT & HR & HQ).
  pose proof S as (_ & N & _).
  assert (C : forall f, interp1d (combine (map rd_h obs) (map f obs)) (Fin x) = Ok (Fin (part_way s (f lo) (f hi)))) by (intros f; rewrite combine_map; apply column_layer; assumption).
  assert (T : airtemp_k a (VNum (Fin x)) = Ok (VNum (Fin (part_way s (rd_temp lo) (rd_temp hi))))).
  { unfold airtemp_k. rewrite A. cbn [rbind]. rewrite P. cbn [mapM]. unfold ftemp_k. rewrite HA, HT, C. reflexivity. }
  split; [exact T|]. split; [|split].
  - unfold airdens_kgpm3. rewrite A. cbn [rbind]. rewrite P. cbn [mapM]. unfold frho_kgpm3. rewrite HA, HR, C. reflexivity.
  - unfold airpress_pa. rewrite A. cbn [rbind]. rewrite P. cbn [mapM]. unfold fp_pa. rewrite HA, HQ, C. reflexivity.
  - unfold vsound_mps. rewrite A. cbn [rbind].
    assert (T2 : airtemp_k a (VList [Fin x]) = Ok (VNum (Fin (part_way s (rd_temp lo) (rd_temp hi))))) by exact T.
    rewrite T2. cbn [rbind vsound_of]. unfold vsound1, R_JPKGPK. rewrite !nmul_fin. unfold msqrt. destruct L as (IL & IH & _ & _ & SS & _).
    pose proof (part_pos s _ _ SS (proj1 (positive_reading _ _ S IL)) (proj1 (positive_reading _ _ S IH))). rewrite Rltb_false by lra. reflexivity.
Qed.
Lemma outside_refuses a p obs x : ascent obs -> observed a p obs -> ~ covered obs x -> refuses a x.
Proof.
  intros S O C. destruct (alttest_observed a p obs x S O) as (_ & A). specialize (A C). unfold refuses, airtemp_k, airdens_kgpm3, airpress_pa, vsound_mps. rewrite A. repeat split.
Qed.
Lemma sound_layer a p obs x lo hi s : ascent obs -> observed a p obs -> layer obs x lo hi s -> fvs_mps p (Fin x) = Ok (Fin (part_way s (rd_sound lo) (rd_sound hi))).
Proof.
  intros S O L. unfold fvs_mps. rewrite (observed_sound a p obs S O). destruct (observed_columns _ _ _ O) as (_ & -> & _). rewrite combine_map. apply column_layer; [apply S|exact L].
Qed.
Lemma covered_dec obs x : covered obs x \/ ~ covered obs x. Proof. apply Classical_Prop.classic. Qed.

(** ** The theorems *)
Lemma range a p obs : ascent obs -> observed a p obs -> exists lo hi, loalt p = Ok lo /\ hialt p = Ok hi /\ forall x,
  (lo <= x <= hi -> exists T rho q c, answers a x T rho q c /\ 0 < T /\ 0 < rho /\ 0 < q /\ 0 < c) /\ (x < lo \/ hi < x -> refuses a x).
Proof.
  intros S O. destruct (limits a p obs S O) as (lo & hi & L & H & IL & IH & B). exists (rd_h lo), (rd_h hi). split; [exact L|]. split; [exact H|]. intros x. split; intros X.
  - destruct (layer_exists obs x) as (l & h & s & LY); [apply S|exists lo, hi; auto|]. do 4 eexists. split; [exact (layer_answers a p obs x l h s S O LY)|].
    destruct LY as (I & J & _ & _ & SS & _). destruct (positive_reading _ _ S I), (positive_reading _ _ S J).
    assert (0 < part_way s (rd_temp l) (rd_temp h)) by (apply part_pos; assumption).
    split; [assumption|]. split; [apply part_pos; assumption|]. split; [apply part_pos; [assumption|unfold rd_press..]; (apply Rmult_lt_0_compat; [apply Rmult_lt_0_compat; lra|lra])|apply sqrt_lt_R0; lra].
  - apply (outside_refuses a p obs x S O). intros (l & h & J & K & Y). pose proof (B l J). pose proof (B h K). lra.
Qed.
Lemma between_readings a p obs x : ascent obs -> observed a p obs -> covered obs x -> exists lo hi s, layer obs x lo hi s /\
  answers a x (part_way s (rd_temp lo) (rd_temp hi)) (part_way s (rd_rho lo) (rd_rho hi)) (part_way s (rd_press lo) (rd_press hi))
    (sqrt (1.4 * 287.05287 * part_way s (rd_temp lo) (rd_temp hi))).
Proof.
  intros S O C. destruct (layer_exists obs x (proj1 (proj2 S)) C) as (lo & hi & s & L). exists lo, hi, s. split; [exact L|]. exact (layer_answers a p obs x lo hi s S O L).
Qed.
Lemma any_order a1 p1 a2 p2 obs1 obs2 x : ascent obs1 -> (forall l, In l obs1 <-> In l obs2) -> NoDup (map rd_h obs2) -> observed a1 p1 obs1 -> observed a2 p2 obs2 ->
  airtemp_k a1 (VNum (Fin x)) = airtemp_k a2 (VNum (Fin x)) /\ airdens_kgpm3 a1 (VNum (Fin x)) = airdens_kgpm3 a2 (VNum (Fin x)) /\
  airpress_pa a1 (VNum (Fin x)) = airpress_pa a2 (VNum (Fin x)) /\ vsound_mps a1 (VNum (Fin x)) = vsound_mps a2 (VNum (Fin x)).
Proof.
  intros S1 E N2 O1 O2.
  assert (S2 : ascent obs2).
  { destruct S1 as (NE & _ & F). split; [|split; [exact N2|]].
    - destruct obs1 as [|o obs1]; [congruence|]. intros ->. destruct (proj1 (E o) (or_introl eq_refl)).
    - rewrite Forall_forall in *. intros l I. apply F, E, I. }
  destruct (covered_dec obs1 x) as [C|C].
  - destruct (layer_exists obs1 x (proj1 (proj2 S1)) C) as (lo & hi & s & L).
    assert (L2 : layer obs2 x lo hi s).
    { destruct L as (I & J & LE & G & R). split; [apply E; exact I|]. split; [apply E; exact J|]. split; [exact LE|]. split; [|exact R]. intros r K. apply G, E, K. }
    destruct (layer_answers a1 p1 obs1 x lo hi s S1 O1 L) as (A1 & A2 & A3 & A4). destruct (layer_answers a2 p2 obs2 x lo hi s S2 O2 L2) as (B1 & B2 & B3 & B4).
    rewrite A1, A2, A3, A4, B1, B2, B3, B4. repeat split.
  - assert (C2 : ~ covered obs2 x) by (intros (l & h & I & J & B); apply C; exists l, h; repeat split; [apply E; exact I|apply E; exact J|lra..]).
    destruct (outside_refuses a1 p1 obs1 x S1 O1 C) as (A1 & A2 & A3 & A4). destruct (outside_refuses a2 p2 obs2 x S2 O2 C2) as (B1 & B2 & B3 & B4).
    rewrite A1, A2, A3, A4, B1, B2, B3, B4. repeat split.
Qed.

(** the gas law between two readings *)
Lemma gas_law_error a p obs x lo hi s T rho q c : ascent obs -> observed a p obs -> layer obs x lo hi s -> answers a x T rho q c ->
  q - 287.05287 * rho * T = 287.05287 * (s * (1 - s)) * (rd_temp hi - rd_temp lo) * (rd_rho hi - rd_rho lo).
Proof.
  intros S O L (A1 & A2 & A3 & _). destruct (layer_answers a p obs x lo hi s S O L) as (B1 & B2 & B3 & _).
  rewrite A1 in B1. rewrite A2 in B2. rewrite A3 in B3. injection B1 as ->. injection B2 as ->. injection B3 as ->. unfold part_way, rd_press. ring.
Qed.
Lemma gas_law_refuted a p obs x lo hi s : ascent obs -> observed a p obs -> layer obs x lo hi s -> 0 < s < 1 -> rd_temp hi < rd_temp lo -> rd_rho hi < rd_rho lo ->
  exists T rho q c, answers a x T rho q c /\ 287.05287 * rho * T < q.
Proof.
  intros S O L H HT HR. do 4 eexists. pose proof (layer_answers a p obs x lo hi s S O L) as A. split; [exact A|].
  pose proof (gas_law_error _ _ _ _ _ _ _ _ _ _ _ S O L A) as E. enough (0 < 287.05287 * (s * (1 - s)) * ((rd_temp lo - rd_temp hi) * (rd_rho lo - rd_rho hi))) by nra.
  assert (0 < s * (1 - s)) by nra. apply Rmult_lt_0_compat; [apply Rmult_lt_0_compat; lra|apply Rmult_lt_0_compat; lra].
Qed.

(** the two speeds of sound *)
Lemma sqrt_concave s u v : 0 <= s <= 1 -> 0 <= u -> 0 <= v -> part_way s (sqrt u) (sqrt v) <= sqrt (part_way s u v) /\
  (part_way s (sqrt u) (sqrt v) = sqrt (part_way s u v) <-> s = 0 \/ s = 1 \/ u = v).
Proof.
  intros S U V. set (x := sqrt u). set (y := sqrt v). assert (X : 0 <= x) by apply sqrt_pos. assert (Y : 0 <= y) by apply sqrt_pos.
  assert (EU : u = x * x) by (unfold x; rewrite sqrt_sqrt; auto). assert (EV : v = y * y) by (unfold y; rewrite sqrt_sqrt; auto).
  assert (P : 0 <= part_way s x y) by (unfold part_way; destruct (Rle_dec x y); nra).
  assert (K : part_way s u v = part_way s x y * part_way s x y + s * (1 - s) * ((y - x) * (y - x))) by (rewrite EU, EV; unfold part_way; ring).
  assert (D : 0 <= s * (1 - s) * ((y - x) * (y - x))) by (apply Rmult_le_pos; [nra|apply Rle_0_sqr]).
  rewrite K. split.
  - apply Rle_trans with (sqrt (part_way s x y * part_way s x y)); [rewrite sqrt_square by exact P; lra|apply sqrt_le_1; nra].
  - split.
    + intros E. assert (Q : part_way s x y * part_way s x y = part_way s x y * part_way s x y + s * (1 - s) * ((y - x) * (y - x))).
      { rewrite E at 1 2. apply sqrt_sqrt. nra. }
      assert (Z : s * (1 - s) * ((y - x) * (y - x)) = 0) by lra. apply Rmult_integral in Z. destruct Z as [Z|Z]; apply Rmult_integral in Z.
      * destruct Z; [left|right; left]; lra.
      * right; right. rewrite EU, EV. assert (x = y) as -> by (destruct Z; lra). reflexivity.
    + intros H. assert (Z : s * (1 - s) * ((y - x) * (y - x)) = 0).
      { destruct H as [->|[->|H]]; [ring..|]. assert (x = y) by (unfold x, y; rewrite H; reflexivity). rewrite H0. ring. }
      rewrite Z, Rplus_0_r, sqrt_square by exact P. reflexivity.
Qed.
Lemma scaled_part k s u v : k * part_way s u v = part_way s (k * u) (k * v). Proof. unfold part_way. ring. Qed.
Lemma slow_sound a p obs x lo hi s T rho q c : ascent obs -> observed a p obs -> layer obs x lo hi s -> answers a x T rho q c ->
  exists v, fvs_mps p (Fin x) = Ok (Fin v) /\ v <= c /\ (v = c <-> s = 0 \/ s = 1 \/ rd_temp lo = rd_temp hi).
Proof.
  intros S O L (_ & _ & _ & A4). destruct (layer_answers a p obs x lo hi s S O L) as (_ & _ & _ & B4). rewrite A4 in B4. injection B4 as ->.
  eexists. split; [exact (sound_layer a p obs x lo hi s S O L)|]. destruct L as (I & J & _ & _ & SS & _). destruct (positive_reading _ _ S I) as (T1 & _), (positive_reading _ _ S J) as (T2 & _).
  rewrite scaled_part. unfold rd_sound. destruct (sqrt_concave s (1.4 * 287.05287 * rd_temp lo) (1.4 * 287.05287 * rd_temp hi)) as (K1 & K2); [assumption|nra..|]. split; [exact K1|].
  rewrite K2. split; intros [H|[H|H]]; auto; right; right; nra.
Qed.

(** falling columns *)
Lemma falls (f : reading -> R) obs x y lo1 hi1 s1 lo2 hi2 s2 : NoDup (map rd_h obs) -> (forall l h, In l obs -> In h obs -> rd_h l < rd_h h -> f h < f l) -> x < y ->
  layer obs x lo1 hi1 s1 -> layer obs y lo2 hi2 s2 -> part_way s2 (f lo2) (f hi2) < part_way s1 (f lo1) (f hi1).
Proof.
  intros N M XY (A1 & A2 & A3 & A4 & A5 & A6) (B1 & B2 & B3 & B4 & B5 & B6).
  assert (W : forall l h, In l obs -> In h obs -> rd_h l <= rd_h h -> f h <= f l).
  { intros l h I J [H|H]; [left; apply M; assumption|]. rewrite (same_height obs l h N I J H). right. reflexivity. }
  pose proof (W _ _ A1 A2 A3) as W1. pose proof (W _ _ B1 B2 B3) as W2.
  assert (X1 : rd_h lo1 <= x <= rd_h hi1) by nra. assert (Y1 : rd_h lo2 <= y <= rd_h hi2) by nra.
  assert (P1 : f hi1 <= part_way s1 (f lo1) (f hi1)) by (unfold part_way; nra). assert (P2 : part_way s2 (f lo2) (f hi2) <= f lo2) by (unfold part_way; nra).
  destruct (Rle_dec (rd_h hi1) (rd_h lo2)) as [C|C].
  - pose proof (W _ _ A2 B1 C) as W3. destruct (Req_dec (rd_h hi1) (rd_h lo2)) as [E|E]; [|assert (f lo2 < f hi1) by (apply M; [assumption..|lra]); lra].
    destruct (Rle_dec (rd_h hi1) x) as [H|H].
    + assert (0 < s2 * (rd_h hi2 - rd_h lo2)) by lra. assert (0 < s2 /\ rd_h lo2 < rd_h hi2) as (H1 & H2) by (split; nra). pose proof (M _ _ B1 B2 H2).
      enough (part_way s2 (f lo2) (f hi2) < f lo2) by lra. unfold part_way. nra.
    + assert (0 < (1 - s1) * (rd_h hi1 - rd_h lo1)) by lra. assert (0 < 1 - s1 /\ rd_h lo1 < rd_h hi1) as (H1 & H2) by (split; nra). pose proof (M _ _ A1 A2 H2).
      enough (f hi1 < part_way s1 (f lo1) (f hi1)) by lra. unfold part_way. nra.
  - assert (E : rd_h lo1 = rd_h lo2) by (destruct (A4 lo2 B1), (B4 lo1 A1); lra). pose proof (same_height obs lo1 lo2 N A1 B1 E) as <-.
    assert (E2 : rd_h hi1 = rd_h hi2) by (destruct (A4 hi2 B2), (B4 hi1 A2); lra). pose proof (same_height obs hi1 hi2 N A2 B2 E2) as <-.
    assert (H2 : rd_h lo1 < rd_h hi1) by lra. pose proof (M _ _ A1 A2 H2). assert (s1 < s2) by nra. unfold part_way. nra.
Qed.
Lemma density_falls a p obs x y T rho q c T' rho' q' c' : ascent obs -> observed a p obs -> answers a x T rho q c -> answers a y T' rho' q' c' -> x < y ->
  ((forall l h, In l obs -> In h obs -> rd_h l < rd_h h -> rd_rho h < rd_rho l) -> rho' < rho) /\
  ((forall l h, In l obs -> In h obs -> rd_h l < rd_h h -> rd_press h < rd_press l) -> q' < q).
Proof.
  intros S O A B XY.
  assert (CX : forall z T rho q c, answers a z T rho q c -> covered obs z).
  { intros z t r u v (Z & _). destruct (covered_dec obs z) as [C|C]; [exact C|]. destruct (outside_refuses a p obs z S O C) as (Z' & _). rewrite Z in Z'. discriminate. }
  destruct (layer_exists obs x (proj1 (proj2 S)) (CX _ _ _ _ _ A)) as (l1 & h1 & s1 & L1). destruct (layer_exists obs y (proj1 (proj2 S)) (CX _ _ _ _ _ B)) as (l2 & h2 & s2 & L2).
  destruct (layer_answers a p obs x l1 h1 s1 S O L1) as (_ & A2 & A3 & _). destruct (layer_answers a p obs y l2 h2 s2 S O L2) as (_ & B2 & B3 & _).
  destruct A as (_ & A2' & A3' & _). destruct B as (_ & B2' & B3' & _). rewrite A2 in A2'. rewrite A3 in A3'. rewrite B2 in B2'. rewrite B3 in B3'.
  injection A2' as <-. injection A3' as <-. injection B2' as <-. injection B3' as <-.
  split; intros M; [apply (falls rd_rho obs x y)|apply (falls rd_press obs x y)]; try assumption; apply S.
Qed.

(** airspeeds need the density at sea level *)
Lemma no_sea_level a p obs : ascent obs -> observed a p obs -> ~ covered obs 0 -> forall x v,
  eas2tas_at a (VNum (Fin v)) (VNum (Fin x)) = Err TypeError /\ tas2eas_at a (VNum (Fin v)) (VNum (Fin x)) = Err TypeError.
Proof.
  intros S O C x v. destruct (outside_refuses a p obs 0 S O C) as (_ & D0 & _).
  assert (R : densratio a (VNum (Fin x)) = Err TypeError).
  { unfold densratio. destruct (covered_dec obs x) as [H|H].
    - destruct (between_readings a p obs x S O H) as (lo & hi & s & _ & (_ & E & _)). rewrite E. cbn [rbind]. rewrite D0. reflexivity.
    - destruct (outside_refuses a p obs x S O H) as (_ & E & _). rewrite E. reflexivity. }
  unfold eas2tas_at, tas2eas_at. rewrite R. split; reflexivity.
Qed.

Lemma ascent_case : exists obs lo hi a p, ascent obs /\ observed a p obs /\ layer obs 500 lo hi (1 / 2) /\ rd_temp hi < rd_temp lo /\ rd_rho hi < rd_rho lo /\
  (forall l h, In l obs -> In h obs -> rd_h l < rd_h h -> rd_rho h < rd_rho l).
Proof.
  set (lo := {| rd_h := 0; rd_temp := 288; rd_rho := 1.225 |}). set (hi := {| rd_h := 1000; rd_temp := 281; rd_rho := 1.112 |}). set (top := {| rd_h := 3000; rd_temp := 268; rd_rho := 0.909 |}).
  assert (S : ascent [top; lo; hi]).
  { split; [discriminate|]. split; [|repeat constructor; cbn; lra]. cbn. repeat constructor; cbn; intuition lra. }
  destruct (observed_exists _ S) as (a & p & O). exists [top; lo; hi], lo, hi, a, p. split; [exact S|]. split; [exact O|]. split.
  - split; [cbn; auto|]. split; [cbn; auto|]. split; [cbn; lra|]. split; [|split; [lra|cbn; lra]]. intros r [<-|[<-|[<-|[]]]]; cbn; lra.
  - split; [cbn; lra|]. split; [cbn; lra|]. intros l h [<-|[<-|[<-|[]]]] [<-|[<-|[<-|[]]]]; cbn; lra.
Qed.
Lemma mountain_case : exists obs a p, ascent obs /\ observed a p obs /\ ~ covered obs 0.
Proof.
  set (obs := [{| rd_h := 1500; rd_temp := 280; rd_rho := 1.06 |}; {| rd_h := 4500; rd_temp := 262; rd_rho := 0.77 |}]).
  assert (S : ascent obs).
  { split; [discriminate|]. split; [|repeat constructor; cbn; lra]. cbn. repeat constructor; cbn; intuition lra. }
  destruct (observed_exists _ S) as (a & p & O). exists obs, a, p. split; [exact S|]. split; [exact O|]. intros (l & h & I & J & B). destruct I as [<-|[<-|[]]]; cbn in B; lra.
Qed.

(** ** pressure readings *)
Lemma from_pressure obs : Forall (fun l => 0 < rd_temp l /\ 0 < rd_rho l) obs ->
  map (fun q => fst q / 287.05287 / snd q) (combine (map rd_press obs) (map rd_temp obs)) = map rd_rho obs.
Proof.
  intros F. rewrite combine_map, map_map. apply map_ext_in. intros l I. rewrite Forall_forall in F. destruct (F l I) as (P & _). cbn [fst snd]. unfold rd_press.
  set (k := 287.05287). assert (k <> 0) by (unfold k; lra). field. split; lra.
Qed.
Lemma by_pressure obs : ascent obs -> List.length obs <> 1%nat ->
  obsprofile (Some (map rd_h obs)) (Some (map rd_temp obs)) None (Some (map rd_press obs)) = obsprofile (Some (map rd_h obs)) (Some (map rd_temp obs)) (Some (map rd_rho obs)) None.
Proof.
  intros (NE & _ & F) L. unfold obsprofile. cbn [npsize]. rewrite !map_length, !Nat.eqb_refl. cbn [andb]. destruct (Nat.eqb_spec (List.length obs) 1) as [E|_]; [contradiction|].
  assert (Z : existsb (fun x => Reqb x 0) (map rd_temp obs) = false).
  { clear NE L. induction F as [|l obs (P & _) F IH]; [reflexivity|]. cbn [map existsb]. rewrite Reqb_false by lra. exact IH. }
  rewrite Z, (from_pressure obs F). cbn [rbind fst snd]. rewrite combine_map, map_map. unfold rd_press. cbn [fst snd]. reflexivity.
Qed.
Lemma one_pressure l : obsprofile (Some [rd_h l]) (Some [rd_temp l]) None (Some [rd_press l]) = Err TypeError.
Proof. reflexivity. Qed.
Lemma one_density l : ascent [l] -> exists p, obsprofile (Some [rd_h l]) (Some [rd_temp l]) (Some [rd_rho l]) None = Ok p.
Proof. intros A. destruct (observed_exists [l] A) as (a & p & O & _). exists p. exact O. Qed.
Lemma one_case : exists l, ascent [l] /\ rd_h l = 300.
Proof.
  exists {| rd_h := 300; rd_temp := 284; rd_rho := 1.19 |}. split; [|reflexivity]. split; [discriminate|]. split; [cbn; repeat constructor; cbn; tauto|repeat constructor; cbn; lra].
Qed.
