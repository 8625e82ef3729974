(** Power, stall speed, static thrust factor, ground effect, turn radius. *)
From Verif Require Import Base BaseFacts AnalysisFacts UnitsModel AtmosModel AtmosSpec AtmosProofs AtmosProofs2
  ConceptModel ConceptProofs MethodsModel MethodsSpec MethodsProofs MethodsProofs2
  MethodsProofs3 MethodsProofs4 ConstraintSpec ConstraintProofs ConstraintProofs2 ConstraintProofs3 ConstraintProofs4.
Open Scope R_scope.

(** ** broadcasting *)
Lemma nth_bc_some v i x : nth_error (elements v) i = Some x -> nth_bc v i = Some x.
Proof.
  unfold nth_bc. destruct (elements v) as [|y [|z l]]; [destruct i; discriminate| |auto].
  destruct i as [|[|i]]; cbn; [auto|discriminate|discriminate].
Qed.
Lemma nth_bc_single v y i : elements v = [y] -> nth_bc v i = Some y.
Proof. unfold nth_bc. intros ->. reflexivity. Qed.

Lemma broadcast_nth f a b r : broadcast f a b = Ok r -> forall va vb, elements va = a -> elements vb = b ->
  forall i x, nth_error r i = Some x -> exists p q, nth_bc va i = Some p /\ nth_bc vb i = Some q /\ x = f p q.
Proof.
  unfold broadcast. intros H va vb EA EB i x X.
  destruct (Nat.eqb_spec (List.length a) (List.length b)) as [L|L].
  - injection H as <-.
    assert (C : nth_error (combine a b) i <> None).
    { intros E. rewrite nth_error_map, E in X. discriminate. }
    destruct (nth_error (combine a b) i) as [[p q]|] eqn:E; [|contradiction].
    rewrite nth_error_map, E in X. injection X as <-. exists p, q. cbn.
    assert (G : nth_error a i = Some p /\ nth_error b i = Some q).
    { clear -E. revert b i E. induction a as [|y a IH]; intros [|z b] [|i] E; try discriminate.
      - injection E as <- <-. auto.
      - cbn in *. apply IH, E. }
    destruct G as (G1 & G2). repeat split; apply nth_bc_some; congruence.
  - destruct a as [|x0 [|x1 a]].
    + destruct b as [|y0 [|y1 b]]; try discriminate. injection H as <-. destruct i; discriminate.
    + assert (H' : r = map (f x0) b) by (destruct b as [|? [|? ?]]; congruence). clear H. subst r.
      rewrite nth_error_map in X. destruct (nth_error b i) as [q|] eqn:E; [|discriminate]. injection X as <-.
      exists x0, q. repeat split; [apply nth_bc_single; exact EA|apply nth_bc_some; congruence].
    + destruct b as [|y0 [|y1 b]]; try discriminate.
      assert (H' : r = map (fun x => f x y0) (x0 :: x1 :: a)) by congruence. clear H. subst r.
      rewrite nth_error_map in X. destruct (nth_error (x0 :: x1 :: a) i) as [p|] eqn:E; [|discriminate]. injection X as <-.
      exists p, y0. repeat split; [apply nth_bc_some; congruence|apply nth_bc_single; exact EB].
Qed.

Lemma broadcast_length f a b r : broadcast f a b = Ok r ->
  (List.length b = 1%nat \/ List.length b = List.length a) -> List.length r = List.length a.
Proof.
  unfold broadcast. intros H B. destruct (Nat.eqb_spec (List.length a) (List.length b)) as [L|L].
  - injection H as <-. rewrite map_length, combine_length. lia.
  - destruct B as [B|B]; [|lia]. destruct b as [|y [|z b]]; try discriminate.
    destruct a as [|x0 [|x1 a]]; cbn in *; try discriminate; try lia; injection H as <-; cbn; rewrite ?map_length; reflexivity.
Qed.

Lemma vop2_nth f a b r : vop2 f a b = Ok r ->
  (fits b (List.length (elements a)) -> List.length (elements r) = List.length (elements a)) /\
  forall i x, nth_error (elements r) i = Some x -> exists p q, nth_bc a i = Some p /\ nth_bc b i = Some q /\ x = f p q.
Proof.
  unfold fits. destruct a as [x|l|l], b as [y|m|m]; cbn [vop2]; intros H; try discriminate.
  - injection H as <-. split; [reflexivity|]. intros [|[|i]] z E; try discriminate. injection E as <-. exists x, y. auto.
  - injection H as <-. split.
    + cbn. rewrite map_length. lia.
    + cbn [elements]. intros i z E. rewrite nth_error_map in E. destruct (nth_error m i) as [q|] eqn:N; [|discriminate].
      injection E as <-. exists x, q. repeat split. apply (nth_bc_some (VArr m)), N.
  - destruct (broadcast f l m) as [l'|] eqn:B; [|discriminate]. injection H as <-. split.
    + intros F. apply (broadcast_length _ _ _ _ B F).
    + apply (broadcast_nth _ _ _ _ B (VList l) (VArr m) eq_refl eq_refl).
  - injection H as <-. split.
    + cbn. rewrite map_length. reflexivity.
    + cbn [elements]. intros i z E. rewrite nth_error_map in E. destruct (nth_error l i) as [q|] eqn:N; [|discriminate].
      injection E as <-. exists q, y. repeat split. apply (nth_bc_some (VArr l)), N.
  - destruct (broadcast f l m) as [l'|] eqn:B; [|discriminate]. injection H as <-. split.
    + intros F. apply (broadcast_length _ _ _ _ B F).
    + apply (broadcast_nth _ _ _ _ B (VArr l) (VList m) eq_refl eq_refl).
  - destruct (broadcast f l m) as [l'|] eqn:B; [|discriminate]. injection H as <-. split.
    + intros F. apply (broadcast_length _ _ _ _ B F).
    + apply (broadcast_nth _ _ _ _ B (VArr l) (VArr m) eq_refl eq_refl).
Qed.

(** ** power *)
Lemma power_fin m eta t V : eta <> 0 ->
  (wn2hpkg (tw2pw (Fin t) (Fin V) (Fin eta)) * Fin m)%num = Fin (shaft_power m eta t V 1).
Proof.
  intros He. unfold wn2hpkg, wn2kwkg, wn2wkg, tw2pw, shaft_power, gravity, hp_per_kw, sc_g.
  rewrite nmul_fin, ndiv_fin by exact He.
  repeat (rewrite ?nmul_fin; try rewrite ndiv_fin by lra). apply Fin_eq.
  set (g := 9.80665). set (u := 1.34102). field. exact He.
Qed.

Lemma powers_ok m eta tw speed corr P0 P (map2sl : bool) :
  eta <> 0 -> power_hp (Fin m) (Fin eta) tw speed = Ok P0 ->
  (map2sl = false -> corr = VNum (Fin 1)) -> corrected map2sl P0 corr = Ok P ->
  powers m eta tw speed corr P.
Proof.
  intros He H HC HP. destruct (vop2_nth _ _ _ _ H) as (L1 & N1).
  assert (Q : (fits corr (List.length (elements P0)) -> List.length (elements P) = List.length (elements P0)) /\
    forall i x, nth_error (elements P) i = Some x -> exists p q, nth_error (elements P0) i = Some p /\ nth_bc corr i = Some q /\ x = (p / q)%num
      \/ nth_bc P0 i = Some p /\ elements P0 = [p] /\ nth_bc corr i = Some q /\ x = (p / q)%num).
  { destruct map2sl.
    - destruct (vop2_nth _ _ _ _ HP) as (L2 & N2). split; [exact L2|]. intros i x X.
      destruct (N2 i x X) as (p & q & A & B & C). exists p, q. unfold nth_bc in A.
      destruct (elements P0) as [|y [|z l]] eqn:E; [left; auto| |left; auto].
      injection A as ->. right. unfold nth_bc. rewrite E. auto.
    - injection HP as <-. rewrite (HC eq_refl). split; [auto|]. intros i x X. exists x, (Fin 1). left.
      repeat split; auto. destruct x; cbn [ndiv]; [|reflexivity].
      rewrite ndiv_fin by lra. apply Fin_eq. field. }
  destruct Q as (L2 & N2). split.
  { intros F1 F2. rewrite <- (L1 F1). apply L2. unfold fits in *. rewrite (L1 F1). exact F2. }
  intros i p X. destruct (N2 i p X) as (p0 & k & G).
  assert (G' : exists t V, nth_bc tw i = Some t /\ nth_bc speed i = Some V /\
     p0 = (wn2hpkg (tw2pw t V (Fin eta)) * Fin m)%num /\ nth_bc corr i = Some k /\ p = (p0 / k)%num).
  { destruct G as [(A & B & C)|(A & E & B & C)].
    - destruct (N1 i p0 A) as (t & V & T1 & T2 & T3). exists t, V. auto.
    - assert (A0 : nth_error (elements P0) 0 = Some p0) by (rewrite E; reflexivity).
      destruct (N1 0%nat p0 A0) as (t & V & T1 & T2 & T3).
      (* one element: tw and speed have one element as well *)
      assert (TS : exists t' V', elements tw = [t'] /\ elements speed = [V']).
      { clear -H E. unfold power_hp in H. revert H. set (f := fun t v => _). clearbody f.
        destruct tw as [x|l|l], speed as [y|l2|l2]; cbn [vop2]; intros H; try discriminate.
        - exists x, y; auto.
        - injection H as <-. cbn in E. destruct l2 as [|b [|b2 l2]]; try discriminate. exists x, b; auto.
        - destruct (broadcast f l l2) as [r|] eqn:B; [|discriminate]. injection H as <-. cbn in E. subst r.
          unfold broadcast in B. destruct l as [|a [|a2 l]], l2 as [|b [|b2 l2]]; cbn in B; try discriminate; try (exists a, b; auto; fail).
          destruct (Nat.eqb (List.length l) (List.length l2)); discriminate.
        - injection H as <-. cbn in E. destruct l as [|b [|b2 l2]]; try discriminate. exists b, y; auto.
        - destruct (broadcast f l l2) as [r|] eqn:B; [|discriminate]. injection H as <-. cbn in E. subst r.
          unfold broadcast in B. destruct l as [|a [|a2 l]], l2 as [|b [|b2 l2]]; cbn in B; try discriminate; try (exists a, b; auto; fail).
          destruct (Nat.eqb (List.length l) (List.length l2)); discriminate.
        - destruct (broadcast f l l2) as [r|] eqn:B; [|discriminate]. injection H as <-. cbn in E. subst r.
          unfold broadcast in B. destruct l as [|a [|a2 l]], l2 as [|b [|b2 l2]]; cbn in B; try discriminate; try (exists a, b; auto; fail).
          destruct (Nat.eqb (List.length l) (List.length l2)); discriminate. }
      destruct TS as (t' & V' & E1 & E2). unfold nth_bc in T1, T2. rewrite E1 in T1. rewrite E2 in T2.
      injection T1 as ->. injection T2 as ->. exists t, V. repeat split; auto; unfold nth_bc; rewrite ?E1, ?E2; reflexivity. }
  destruct G' as (t & V & A & B & -> & C & ->). exists t, V, k. repeat split; auto.
  - intros [-> | [-> | ->]].
    + reflexivity.
    + destruct t; reflexivity.
    + destruct (_ * _)%num; reflexivity.
  - intros t' V' k' -> -> -> Hk. rewrite power_fin by exact He. rewrite ndiv_fin by exact Hk.
    apply Fin_eq. unfold shaft_power. set (u := hp_per_kw). set (g := gravity). field. repeat split; assumption.
Qed.

Lemma pc_corr ext c (map2sl : bool) speed alt corr :
  (if map2sl then rmap snd (propulsion_slcorr ext c speed alt) else Ok (VNum #1)) = Ok corr ->
  power_corr ext c map2sl speed alt corr /\ (map2sl = false -> corr = VNum (Fin 1)).
Proof.
  destruct map2sl; intros H.
  - split; [|discriminate]. destruct (propulsion_slcorr ext c speed alt) as [[tc pc]|] eqn:E; [|discriminate].
    injection H as <-. exists tc. exact E.
  - injection H as <-. split; [reflexivity|auto].
Qed.

Section Power.
  Variables (ext : externals) (c : concept) (v : val) (m : R) (fo map2sl : bool) (r : requirement).
  Variables (eto etn ecl ecr ese : R).
  Hypothesis HETA : etaprop_to c = Some (Fin eto) /\ etaprop_turn c = Some (Fin etn) /\
    etaprop_climb c = Some (Fin ecl) /\ etaprop_cruise c = Some (Fin ecr) /\ etaprop_sec c = Some (Fin ese).
  Hypothesis HNZ : eto <> 0 /\ etn <> 0 /\ ecl <> 0 /\ ecr <> 0 /\ ese <> 0.

  Lemma power_parts : powerrequired ext c v (Fin m) fo map2sl = Ok r ->
    exists tw vclm vsec kto ktrn kclm kcrs ksec,
    twrequired ext c v fo false = Ok tw /\
    rq_liftoffspeed r = rq_liftoffspeed tw /\ rq_avspeed r = rq_avspeed tw /\ rq_turncl r = rq_turncl tw /\
    tas_at c (pval (climbspeed_kias c)) (pval (climbalt_m c)) = Ok vclm /\
    tas_at c (pval (secclimbspd_kias c)) (pval (servceil_m c)) = Ok vsec /\
    let sto := rq_liftoffspeed tw in
    let strn := VNum (kts2mps (pval (turnspeed_ktas c))) in
    let sclm := VNum (kts2mps vclm) in
    let scrs := VNum (kts2mps (pval (cruisespeed_ktas c))) in
    let ssec := VNum (kts2mps vsec) in
    power_corr ext c map2sl sto (pval (rwyelevation_m c)) kto /\
    power_corr ext c map2sl strn (pval (turnalt_m c)) ktrn /\
    power_corr ext c map2sl sclm (pval (climbalt_m c)) kclm /\
    power_corr ext c map2sl scrs (pval (cruisealt_m c)) kcrs /\
    power_corr ext c map2sl ssec (pval (servceil_m c)) ksec /\
    powers m eto (rq_takeoff tw) sto kto (rq_takeoff r) /\
    powers m etn (rq_turn tw) strn ktrn (rq_turn r) /\
    powers m etn (rq_turnfeasible tw) strn ktrn (rq_turnfeasible r) /\
    powers m ecl (rq_climb tw) sclm kclm (rq_climb r) /\
    powers m ecr (rq_cruise tw) scrs kcrs (rq_cruise r) /\
    powers m ese (rq_servceil tw) ssec ksec (rq_servceil r) /\
    npmax5 (rq_takeoff r) (chosen_turn fo r) (rq_climb r) (rq_cruise r) (rq_servceil r) = Ok (rq_combined r).
  Proof.
    destruct HETA as (A1 & A2 & A3 & A4 & A5). destruct HNZ as (B1 & B2 & B3 & B4 & B5).
    unfold powerrequired. rewrite A1, A2, A3, A4, A5. cbn [pval]. intros H.
    apply rbind_ok in H. destruct H as (tw & TW & H).
    apply rbind_ok in H. destruct H as (p1 & P1 & H). apply rbind_ok in H. destruct H as (k1 & K1 & H).
    apply rbind_ok in H. destruct H as (q1 & Q1 & H).
    apply rbind_ok in H. destruct H as (p2 & P2 & H). apply rbind_ok in H. destruct H as (p3 & P3 & H).
    apply rbind_ok in H. destruct H as (k2 & K2 & H).
    apply rbind_ok in H. destruct H as (q2 & Q2 & H). apply rbind_ok in H. destruct H as (q3 & Q3 & H).
    apply rbind_ok in H. destruct H as (vc & VC & H).
    apply rbind_ok in H. destruct H as (p4 & P4 & H). apply rbind_ok in H. destruct H as (k4 & K4 & H).
    apply rbind_ok in H. destruct H as (q4 & Q4 & H).
    apply rbind_ok in H. destruct H as (p5 & P5 & H). apply rbind_ok in H. destruct H as (k5 & K5 & H).
    apply rbind_ok in H. destruct H as (q5 & Q5 & H).
    apply rbind_ok in H. destruct H as (vs & VS & H).
    apply rbind_ok in H. destruct H as (p6 & P6 & H). apply rbind_ok in H. destruct H as (k6 & K6 & H).
    apply rbind_ok in H. destruct H as (q6 & Q6 & H).
    apply rbind_ok in H. destruct H as (cb & CB & H). injection H as <-.
    destruct (pc_corr _ _ _ _ _ _ K1) as (C1 & D1). destruct (pc_corr _ _ _ _ _ _ K2) as (C2 & D2).
    destruct (pc_corr _ _ _ _ _ _ K4) as (C4 & D4). destruct (pc_corr _ _ _ _ _ _ K5) as (C5 & D5).
    destruct (pc_corr _ _ _ _ _ _ K6) as (C6 & D6).
    exists tw, vc, vs, k1, k2, k4, k5, k6. cbn [rq_liftoffspeed rq_avspeed rq_turncl rq_takeoff rq_turn rq_turnfeasible rq_climb rq_cruise rq_servceil rq_combined chosen_turn].
    split; [exact TW|]. split; [reflexivity|]. split; [reflexivity|]. split; [reflexivity|].
    split; [exact VC|]. split; [exact VS|]. cbv zeta.
    split; [exact C1|]. split; [exact C2|]. split; [exact C4|]. split; [exact C5|]. split; [exact C6|].
    split; [exact (powers_ok _ _ _ _ _ _ _ _ B1 P1 D1 Q1)|].
    split; [exact (powers_ok _ _ _ _ _ _ _ _ B2 P3 D2 Q3)|].
    split; [exact (powers_ok _ _ _ _ _ _ _ _ B2 P2 D2 Q2)|].
    split; [exact (powers_ok _ _ _ _ _ _ _ _ B3 P4 D4 Q4)|].
    split; [exact (powers_ok _ _ _ _ _ _ _ _ B4 P5 D5 Q5)|].
    split; [exact (powers_ok _ _ _ _ _ _ _ _ B5 P6 D6 Q6)|].
    unfold chosen_turn. cbn. destruct fo; exact CB.
  Qed.
End Power.
