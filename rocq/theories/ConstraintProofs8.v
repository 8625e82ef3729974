(** powerrequired succeeds on complete briefs. *)
From Verif Require Import Base BaseFacts AnalysisFacts UnitsModel AtmosModel AtmosSpec AtmosProofs AtmosProofs2 AtmosProofs4
  ConceptModel ConceptProofs MethodsModel MethodsSpec MethodsProofs MethodsProofs2
  MethodsProofs3 MethodsProofs4 ConstraintSpec ConstraintProofs ConstraintProofs2 ConstraintProofs3 ConstraintProofs4
  ConstraintProofs5 ConstraintProofs6 ConstraintProofs7.
Open Scope R_scope.

Lemma vop2_arrays f a b : List.length a = List.length b -> exists r,
  vop2 f (reverttoscalar (VArr a)) (reverttoscalar (VArr b)) = Ok (reverttoscalar (VArr r)) /\ List.length r = List.length a.
Proof.
  intros L. destruct a as [|x [|x2 a]], b as [|y [|y2 b]]; try discriminate.
  - exists []. auto.
  - exists [f x y]. auto.
  - cbn [reverttoscalar vop2]. unfold broadcast. rewrite L, Nat.eqb_refl.
    exists (map (fun p => f (fst p) (snd p)) (combine (x :: x2 :: a) (y :: y2 :: b))). split; [reflexivity|].
    rewrite map_length, combine_length. lia.
Qed.
Lemma vop2_scalar f a y : vop2 f (reverttoscalar (VArr a)) (VNum y) = Ok (reverttoscalar (VArr (map (fun x => f x y) a))).
Proof. destruct a as [|x [|x2 a]]; reflexivity. Qed.
Lemma vop2_by_array f a b : List.length b = 1%nat \/ List.length b = List.length a -> exists r,
  vop2 f (reverttoscalar (VArr a)) (VArr b) = Ok (VArr r) /\ List.length r = List.length a.
Proof.
  intros L. destruct a as [|x [|x2 a]].
  - cbn [reverttoscalar vop2]. unfold broadcast. destruct b as [|y [|y2 b]]; cbn in L; try lia; exists []; auto.
  - assert (List.length b = 1%nat) as L1 by (cbn in L; lia). destruct b as [|y [|y2 b]]; try discriminate. exists [f x y]. auto.
  - cbn [reverttoscalar vop2]. unfold broadcast. destruct b as [|y [|y2 b]]; cbn [List.length] in L; try lia.
    + cbn [List.length Nat.eqb]. eexists. split; [reflexivity|]. rewrite map_length. reflexivity.
    + destruct L as [L|L]; [lia|]. change (List.length (x :: x2 :: a)) with (S (S (List.length a))).
      change (List.length (y :: y2 :: b)) with (S (S (List.length b))). rewrite L, Nat.eqb_refl.
      eexists. split; [reflexivity|]. rewrite map_length, combine_length. cbn. lia.
Qed.

Section Total.
  Variables (ext : externals) (c : concept) (m : num) (map2sl : bool).
  Hypothesis HW : wing_ok ext c.
  Hypothesis HE : engine_ok c.
  Hypothesis HB : brief_complete c.

  Lemma npmax5_arrays a b d e f : List.length b = List.length a -> List.length d = List.length a ->
    List.length e = List.length a -> List.length f = List.length a ->
    exists r, npmax5 (VArr a) (VArr b) (VArr d) (VArr e) (VArr f) = Ok (VArr r).
  Proof.
    intros L1 L2 L3 L4. unfold npmax5. cbn [vmax].
    destruct (arrmax_total a b) as (r1 & -> & M1); [congruence|]. cbn [rmap rbind vmax].
    destruct (arrmax_total r1 d) as (r2 & -> & M2); [congruence|]. cbn [rmap rbind vmax].
    destruct (arrmax_total r2 e) as (r3 & -> & M3); [congruence|]. cbn [rmap rbind vmax].
    destruct (arrmax_total r3 f) as (r4 & -> & M4); [congruence|]. cbn [rmap]. eauto.
  Qed.

  (** the shape of a corrected result *)
  Definition shaped (n : nat) (v : val) : Prop :=
    exists l, List.length l = n /\ v = if map2sl then VArr l else reverttoscalar (VArr l).
  Lemma corrected_shape a n corr : List.length a = n ->
    (map2sl = true -> exists l, corr = VArr l /\ (List.length l = 1%nat \/ List.length l = n)) ->
    exists v, corrected map2sl (reverttoscalar (VArr a)) corr = Ok v /\ shaped n v.
  Proof.
    intros L HC. unfold shaped. destruct map2sl; cbn [corrected].
    - destruct (HC eq_refl) as (l & -> & H). destruct (vop2_by_array ndiv a l) as (r & E & RL); [rewrite L; exact H|].
      exists (VArr r). split; [exact E|]. exists r. split; [congruence|reflexivity].
    - eexists. split; [reflexivity|]. exists a. auto.
  Qed.
  Lemma npmax5_shaped n a b d e f : shaped n a -> shaped n b -> shaped n d -> shaped n e -> shaped n f ->
    exists r, npmax5 a b d e f = Ok r.
  Proof.
    unfold shaped. intros (la & A & ->) (lb & B & ->) (ld & D & ->) (le & E & ->) (lf & F & ->). destruct map2sl.
    - destruct (npmax5_arrays la lb ld le lf) as (r & ->); try congruence. eauto.
    - destruct (npmax5_total la lb ld le lf n A B D E F) as (r & -> & _). eauto.
  Qed.

  Lemma pc_ok h s speed : air_at c h s -> exists k,
    (if map2sl then rmap snd (propulsion_slcorr ext c speed (Fin h)) else Ok (VNum #1)) = Ok k /\
    (map2sl = true -> exists l, k = VArr l /\ List.length l = List.length (elements speed)).
  Proof.
    intros HA. destruct map2sl.
    - destruct (engine_total ext c h s HE HA speed) as (ts & ks & -> & _ & L). cbn [rmap rbind snd].
      eexists. split; [reflexivity|]. intros _. eexists. split; [reflexivity|]. exact L.
    - eexists. split; [reflexivity|]. discriminate.
  Qed.

  Lemma powerrequired_ok v fo : exists r, powerrequired ext c v m fo map2sl = Ok r.
  Proof.
    pose proof HB as ((vc & rc & C1 & C2 & Hvc) & (vr & R1 & Hvr) & (vs & S1 & Hvs) & (vt & nt & T1 & T2 & Hvt) & _ & (s0 & H0) & FA).
    inversion FA as [|x1 l1 (h1 & s1 & EH1 & HA1) FB]; subst. inversion FB as [|x2 l2 (h2 & s2 & EH2 & HA2) FC]; subst.
    inversion FC as [|x3 l3 (h3 & s3 & EH3 & HA3) FD]; subst.
    inversion FD as [|x4 l4 (h4 & s4 & EH4 & HA4) FE]; subst. inversion FE as [|x5 l5 (h5 & s5 & EH5 & HA5) _]; subst.
    destruct (twrequired_ok ext c false HW HE HB v fo) as (tw & TW).
    unfold powerrequired. rewrite TW. cbn [rbind].
    apply twrequired_parts in TW. destruct TW as (P1 & P2 & P3 & P4 & P5 & _).
    set (ws := VArr (elements v)) in *. set (n := List.length (elements ws)).
    destruct (to_ok ext c false HE HB ws) as (T & L & A & E & LT & LL). rewrite E in P1.
    assert (Q1 : rq_takeoff tw = reverttoscalar (VArr T) /\ rq_liftoffspeed tw = reverttoscalar (VArr L)) by (split; congruence).
    destruct Q1 as (Q1 & Q1'). rewrite Q1, Q1'.
    destruct (trn_ok ext c false HW HE HB) as (F & G & EF). rewrite EF in P2.
    assert (Q2 : rq_turn tw = reverttoscalar (VArr (map F (elements ws))) /\
      rq_turnfeasible tw = reverttoscalar (VArr (map (fun w => feasible c (F w) (G w)) (elements ws)))) by (split; congruence).
    destruct Q2 as (Q2 & Q2'). rewrite Q2, Q2'.
    destruct (clm_ok ext c false HW HE HB) as (F2 & EF2). rewrite EF2 in P3.
    assert (Q3 : rq_climb tw = reverttoscalar (VArr (map F2 (elements ws)))) by congruence. rewrite Q3.
    destruct (crs_ok ext c false HW HE HB) as (F3 & EF3). rewrite EF3 in P4.
    assert (Q4 : rq_cruise tw = reverttoscalar (VArr (map F3 (elements ws)))) by congruence. rewrite Q4.
    destruct (sec_ok ext c false HW HE HB) as (F4 & EF4). rewrite EF4 in P5.
    assert (Q5 : rq_servceil tw = reverttoscalar (VArr (map F4 (elements ws)))) by congruence. rewrite Q5.
    unfold power_hp. match goal with |- context [vop2 ?f (reverttoscalar (VArr T)) _] => destruct (vop2_arrays f T L) as (p & -> & PL) end; [congruence|].
    cbn [rbind]. rewrite EH5. cbn [pval].
    destruct (pc_ok h5 s5 (reverttoscalar (VArr L)) HA5) as (k & -> & KL). cbn [rbind].
    destruct (corrected_shape p n k) as (p1 & -> & SH1).
    { rewrite PL. exact LT. } { intros M. destruct (KL M) as (l & -> & LK). exists l. split; [reflexivity|]. right.
      rewrite LK, elements_revert. exact LL. }
    cbn [rbind]. rewrite T1. cbn [pval]. rewrite !vop2_scalar. cbn [rbind]. rewrite EH4. cbn [pval].
    assert (N1 : forall K : num -> num, List.length (map K (elements ws)) = n) by (intros; apply map_length).
    assert (COR : forall h s V, air_at c h s -> forall k, (if map2sl then rmap snd (propulsion_slcorr ext c (VNum V) (Fin h)) else Ok (VNum #1)) = Ok k ->
      map2sl = true -> exists l, k = VArr l /\ (List.length l = 1%nat \/ List.length l = n)).
    { intros h s V HA k0 KE M. destruct (pc_ok h s (VNum V) HA) as (k' & E' & KL'). rewrite E' in KE. injection KE as <-.
      destruct (KL' M) as (l & -> & LK). exists l. split; [reflexivity|]. left. exact LK. }
    assert (PC : forall h s V, air_at c h s -> exists k, (if map2sl then rmap snd (propulsion_slcorr ext c (VNum V) (Fin h)) else Ok (VNum #1)) = Ok k).
    { intros h s V HA. destruct (pc_ok h s (VNum V) HA) as (k' & E' & _). eauto. }
    destruct (PC h4 s4 (kts2mps (Fin vt)) HA4) as (k4 & K4). rewrite K4. cbn [rbind]. rewrite !map_map.
    match goal with |- context [corrected map2sl (reverttoscalar (VArr ?a)) k4] =>
      destruct (corrected_shape a n k4 (N1 _) (COR h4 s4 _ HA4 _ K4)) as (p2 & -> & SH2) end. cbn [rbind].
    match goal with |- context [corrected map2sl (reverttoscalar (VArr ?a)) k4] =>
      destruct (corrected_shape a n k4 (N1 _) (COR h4 s4 _ HA4 _ K4)) as (p3 & -> & SH3) end. cbn [rbind].
    rewrite C1, EH1. cbn [pval]. rewrite (tas_air c h1 s1 HA1 s0 _ H0). cbn [rbind]. rewrite ?vop2_scalar. cbn [rbind].
    match goal with |- context [propulsion_slcorr ext c (VNum ?V) (Fin h1)] => destruct (PC h1 s1 V HA1) as (k1 & K1) end. rewrite K1. cbn [rbind].
    rewrite ?map_map. match goal with |- context [corrected map2sl (reverttoscalar (VArr ?a)) k1] =>
      destruct (corrected_shape a n k1 (N1 _) (COR h1 s1 _ HA1 _ K1)) as (p4 & -> & SH4) end. cbn [rbind].
    rewrite R1. cbn [pval]. rewrite ?vop2_scalar. cbn [rbind]. rewrite EH2. cbn [pval].
    match goal with |- context [propulsion_slcorr ext c (VNum ?V) (Fin h2)] => destruct (PC h2 s2 V HA2) as (k2 & K2) end. rewrite K2. cbn [rbind].
    rewrite ?map_map. match goal with |- context [corrected map2sl (reverttoscalar (VArr ?a)) k2] =>
      destruct (corrected_shape a n k2 (N1 _) (COR h2 s2 _ HA2 _ K2)) as (p5 & -> & SH5) end. cbn [rbind].
    rewrite S1, EH3. cbn [pval]. rewrite (tas_air c h3 s3 HA3 s0 _ H0). cbn [rbind]. rewrite ?vop2_scalar. cbn [rbind].
    match goal with |- context [propulsion_slcorr ext c (VNum ?V) (Fin h3)] => destruct (PC h3 s3 V HA3) as (k3 & K3) end. rewrite K3. cbn [rbind].
    rewrite ?map_map. match goal with |- context [corrected map2sl (reverttoscalar (VArr ?a)) k3] =>
      destruct (corrected_shape a n k3 (N1 _) (COR h3 s3 _ HA3 _ K3)) as (p6 & -> & SH6) end. cbn [rbind].
    destruct fo.
    - destruct (npmax5_shaped n p1 p2 p4 p5 p6) as (r & ->); try assumption. cbn [rbind]. eauto.
    - destruct (npmax5_shaped n p1 p3 p4 p5 p6) as (r & ->); try assumption. cbn [rbind]. eauto.
  Qed.
End Total.
