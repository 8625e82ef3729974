(** Power mapping to sea level, stall speed, static thrust factor, ground effect, turn radius. *)
From Verif Require Import Base BaseFacts AnalysisFacts UnitsModel AtmosModel AtmosSpec IsaReal AtmosProofs AtmosProofs2 AtmosProofs4
  ConceptModel ConceptProofs MethodsModel MethodsSpec MethodsProofs MethodsProofs2
  MethodsProofs3 MethodsProofs4 ConstraintSpec ConstraintProofs ConstraintProofs2 ConstraintProofs3 ConstraintProofs4 ConstraintProofs5.
Open Scope R_scope.

(** ** no mapping of power to sea level for the generic engines *)
Lemma list_eq_nth {A} (a b : list A) : List.length a = List.length b ->
  (forall i x, nth_error a i = Some x -> nth_error b i = Some x) -> a = b.
Proof.
  revert b; induction a as [|x a IH]; intros [|y b] L H; try discriminate; [reflexivity|].
  pose proof (H 0%nat x eq_refl) as E. injection E as ->. f_equal. apply IH; [cbn in L; lia|].
  intros i z Z. apply (H (S i) z Z).
Qed.

Lemma corr_ones P0 pc P : (forall x, In x (elements pc) -> x = Fin 1) ->
  fits pc (List.length (elements P0)) -> vop2 ndiv P0 pc = Ok P -> elements P = elements P0.
Proof.
  intros O F H. destruct (vop2_nth _ _ _ _ H) as (L & N). specialize (L F).
  apply list_eq_nth; [exact L|]. intros i x X. destruct (N i x X) as (p & q & A & B & ->).
  assert (Q : q = Fin 1).
  { apply O. unfold nth_bc in B. destruct (elements pc) as [|y [|z l]]; [destruct i; discriminate| |].
    - injection B as ->. left; reflexivity.
    - apply nth_error_In in B. exact B. }
  subst q. assert (P1 : (p / Fin 1)%num = p).
  { destruct p; [|reflexivity]. rewrite ndiv_fin by lra. apply Fin_eq. field. }
  rewrite P1. unfold nth_bc in A. destruct (elements P0) as [|y [|z l]] eqn:E; auto.
  injection A as ->. destruct i as [|i]; [reflexivity|].
  exfalso. apply nth_error_Some in X; [|discriminate] || idtac.
  assert (HH : (S i < List.length (elements P))%nat) by (apply nth_error_Some; congruence).
  rewrite L in HH. cbn in HH. lia.
Qed.

Lemma mach_length atm v x m : mach atm v (VNum x) = Ok m ->
  List.length (elements m) = List.length (elements v).
Proof.
  unfold mach. intros H. apply rbind_ok in H. destruct H as (l & A & H).
  assert (l = [x]) as ->.
  { unfold alttest in A. cbn [recastasnpfloatarray] in A. destruct (prof atm) as [p|].
    - apply rbind_ok in A. destruct A as (lo & _ & A). apply rbind_ok in A. destruct A as (hi & _ & A).
      destruct (existsb _ _); [discriminate|]. destruct (existsb _ _); [discriminate|]. congruence.
    - destruct (existsb _ _); [discriminate|]. congruence. }
  apply rbind_ok in H. destruct H as (vs & V & H).
  pose proof (vsound_lifts atm (VList [x]) ltac:(discriminate)) as L. cbn [elements mapM] in L.
  destruct (do y <- altok atm x; _) as [z|e]; cbn [rbind] in L; [|destruct L; congruence].
  rewrite V in L. injection L as ->. cbn in H. injection H as <-. cbn. rewrite map_length. destruct v; reflexivity.
Qed.

Lemma generic_ones ext c speed alt tc pc :
  (propulsion c = PropFalse \/ exists s, propulsion c = PropStr s) ->
  propulsion_slcorr ext c speed alt = Ok (tc, pc) ->
  (forall x, In x (elements pc) -> x = Fin 1) /\ List.length (elements pc) = List.length (elements speed).
Proof.
  intros HP H. unfold propulsion_slcorr in H. apply rbind_ok in H. destruct H as (p & P & H).
  apply rbind_ok in H. destruct H as (mv & M & H). apply mach_length in M.
  assert (PP : p = PropFalse \/ exists s, p = PropStr s).
  { unfold sl_propulsion in P. destruct HP as [E | [s E]]; rewrite E in P.
    - repeat (match type of P with (if ?b then _ else _) = _ => destruct b end); try discriminate; injection P as <-; eauto.
    - injection P as <-. eauto. }
  assert (R1 : recastasnpfloatarray mv = elements mv) by (destruct mv; reflexivity). rewrite R1 in H.
  assert (E : pc = VArr (map (fun _ => Fin 1) (elements mv))).
  { destruct PP as [-> | [s ->]].
    - congruence.
    - repeat (apply rbind_ok in H; destruct H as (? & ? & H)). congruence. }
  subst pc. cbn [elements]. split; [|rewrite map_length; exact M].
  intros x I. apply in_map_iff in I. destruct I as (y & <- & _). reflexivity.
Qed.

Lemma vmax_elements a b v : vmax a b = Ok v -> arrmax (elements a) (elements b) = Ok (elements v).
Proof.
  destruct a as [x|l|l], b as [y|m|m]; intros H; try discriminate.
  - injection H as <-. reflexivity.
  - cbn [vmax elements] in *. destruct (arrmax l m); [|discriminate]. injection H as <-. reflexivity.
Qed.
Lemma npmax5_elements a b d e f v a' b' d' e' f' v' :
  npmax5 a b d e f = Ok v -> npmax5 a' b' d' e' f' = Ok v' ->
  elements a = elements a' -> elements b = elements b' -> elements d = elements d' -> elements e = elements e' ->
  elements f = elements f' -> elements v = elements v'.
Proof.
  unfold npmax5. intros H H' E1 E2 E3 E4 E5.
  apply rbind_ok in H. destruct H as (x & X & H). apply rbind_ok in H. destruct H as (y & Y & H).
  apply rbind_ok in H. destruct H as (z & Z & H).
  apply rbind_ok in H'. destruct H' as (x' & X' & H'). apply rbind_ok in H'. destruct H' as (y' & Y' & H').
  apply rbind_ok in H'. destruct H' as (z' & Z' & H').
  apply vmax_elements in X, Y, Z, H, X', Y', Z', H'.
  rewrite E1, E2, X' in X. injection X as X. rewrite <- X, E3, Y' in Y. injection Y as Y.
  rewrite <- Y, E4, Z' in Z. injection Z as Z. rewrite <- Z, E5, H' in H. injection H as H. congruence.
Qed.

Lemma takeoff_lengths ext c v map2sl t l a : twrequired_to ext c v map2sl = Ok (t, l, a) ->
  List.length (elements t) = List.length (elements v) /\ List.length (elements l) = List.length (elements v) /\
  List.length (elements a) = List.length (elements v).
Proof.
  unfold twrequired_to. intros H1.
  apply rbind_ok in H1. destruct H1 as (g & _ & H1).
  apply rbind_ok in H1. destruct H1 as (d & D & H1).
  apply rbind_ok in H1. destruct H1 as (tw1 & M1 & H1).
  assert (Q : forall A B C (a a' : A) (b b' : B) (c0 c' : C), Ok (a, b, c0) = Ok (a', b', c') -> a' = a /\ b' = b /\ c' = c0)
    by (intros * [= -> -> ->]; auto).
  apply Q in H1. destruct H1 as (-> & -> & ->). rewrite !elements_revert. apply mapM_length in M1.
  rewrite M1, !map_length. assert (R1 : recastasnpfloatarray v = elements v) by (destruct v; reflexivity).
  rewrite R1. auto.
Qed.

Lemma map2sl_no_effect ext c v m fo r r' :
  (propulsion c = PropFalse \/ exists s, propulsion c = PropStr s) ->
  powerrequired ext c v m fo false = Ok r -> powerrequired ext c v m fo true = Ok r' -> same_requirement r r'.
Proof.
  intros HP H H'. unfold powerrequired in H, H'.
  apply rbind_ok in H. destruct H as (tw & TW & H).
  apply rbind_ok in H. destruct H as (p1 & P1 & H). apply rbind_ok in H. destruct H as (k1 & K1 & H).
  apply rbind_ok in H. destruct H as (q1 & Q1 & H).
  apply rbind_ok in H. destruct H as (p2 & P2 & H). apply rbind_ok in H. destruct H as (p3 & P3 & H).
  apply rbind_ok in H. destruct H as (k2 & K2 & H).
  apply rbind_ok in H. destruct H as (q2 & Q2 & H). apply rbind_ok in H. destruct H as (q3 & Q3 & H).
  apply rbind_ok in H. destruct H as (vc & VC & H).
  apply rbind_ok in H. destruct H as (p4 & P4 & H). apply rbind_ok in H. destruct H as (k4 & K4 & H).
  apply rbind_ok in H. destruct H as (q4 & Q4 & H).
  apply rbind_ok in H. destruct H as (p5 & P5 & H). apply rbind_ok in H. destruct H as (k5 & K5 & H).
  apply rbind_ok in H. destruct H as (q5 & Q5 & H).
  apply rbind_ok in H. destruct H as (vs & VS & H).
  apply rbind_ok in H. destruct H as (p6 & P6 & H). apply rbind_ok in H. destruct H as (k6 & K6 & H).
  apply rbind_ok in H. destruct H as (q6 & Q6 & H).
  apply rbind_ok in H. destruct H as (cb & CB & H). injection H as <-.
  rewrite TW in H'. cbn [rbind] in H'. rewrite P1 in H'. cbn [rbind] in H'.
  apply rbind_ok in H'. destruct H' as (k1' & K1' & H).
  apply rbind_ok in H. destruct H as (q1' & Q1' & H).
  rewrite P2 in H. cbn [rbind] in H. rewrite P3 in H. cbn [rbind] in H.
  apply rbind_ok in H. destruct H as (k2' & K2' & H).
  apply rbind_ok in H. destruct H as (q2' & Q2' & H). apply rbind_ok in H. destruct H as (q3' & Q3' & H).
  rewrite VC in H. cbn [rbind] in H. rewrite P4 in H. cbn [rbind] in H.
  apply rbind_ok in H. destruct H as (k4' & K4' & H).
  apply rbind_ok in H. destruct H as (q4' & Q4' & H).
  rewrite P5 in H. cbn [rbind] in H. apply rbind_ok in H. destruct H as (k5' & K5' & H).
  apply rbind_ok in H. destruct H as (q5' & Q5' & H).
  rewrite VS in H. cbn [rbind] in H. rewrite P6 in H. cbn [rbind] in H.
  apply rbind_ok in H. destruct H as (k6' & K6' & H).
  apply rbind_ok in H. destruct H as (q6' & Q6' & H).
  apply rbind_ok in H. destruct H as (cb' & CB' & H). injection H as <-.
  cbn [corrected] in *. injection Q1 as ->. injection Q2 as ->. injection Q3 as ->. injection Q4 as ->.
  injection Q5 as ->. injection Q6 as ->.
  assert (C : forall speed alt k, rmap snd (propulsion_slcorr ext c speed alt) = Ok k ->
    (forall x, In x (elements k) -> x = Fin 1) /\ List.length (elements k) = List.length (elements speed)).
  { intros speed alt k K. destruct (propulsion_slcorr ext c speed alt) as [[tc pc]|] eqn:E; [|discriminate].
    injection K as <-. apply (generic_ones _ _ _ _ _ _ HP E). }
  assert (S : forall x alt k P P', rmap snd (propulsion_slcorr ext c (VNum x) alt) = Ok k -> vop2 ndiv P k = Ok P' ->
    elements P = elements P').
  { intros x alt k P P' K E. destruct (C _ _ _ K) as (O & L). symmetry. apply (corr_ones _ _ _ O); [|exact E].
    left. exact L. }
  pose proof (twrequired_parts _ _ _ _ _ _ TW) as (T1 & _).
  destruct (takeoff_lengths _ _ _ _ _ _ _ T1) as (L1 & L2 & _).
  assert (E1 : elements q1 = elements q1').
  { destruct (C _ _ _ K1') as (O & L). symmetry. apply (corr_ones _ _ _ O); [|exact Q1'].
    destruct (vop2_nth _ _ _ _ P1) as (F & _). right. rewrite F; [congruence|]. right. congruence. }
  pose proof (S _ _ _ _ _ K2' Q2') as E2. pose proof (S _ _ _ _ _ K2' Q3') as E3.
  pose proof (S _ _ _ _ _ K4' Q4') as E4. pose proof (S _ _ _ _ _ K5' Q5') as E5. pose proof (S _ _ _ _ _ K6' Q6') as E6.
  unfold same_requirement. cbn. repeat split; auto.
  refine (npmax5_elements _ _ _ _ _ _ _ _ _ _ _ _ CB CB' E1 _ E4 E5 E6). destruct fo; auto.
Qed.

(** ** stall *)
Definition rho_isa : R := exp (IsaReal.ld 0).
Lemma rho_isa_dens : airdens_kgpm3 (isa 0) (VNum (Fin 0)) = Ok (VNum (Fin rho_isa)).
Proof. apply airdens_isa0. lra. Qed.
Lemma rho_isa_pos : 0 < rho_isa.
Proof. apply exp_pos. Qed.

Lemma vstall_value c cl w : 0 < cl -> 0 <= w ->
  exists u, vstall_kias c (VNum (Fin w)) (ClNum (Fin cl)) = Ok (Fin (u * 1.9438445)) /\ 0 <= u /\
    1 / 2 * rho_isa * u ^ 2 * cl = w.
Proof.
  intros Hc Hw. pose proof rho_isa_pos as Hr. unfold vstall_kias. rewrite rho_isa_dens. cbn [rbind as1 recastasnpfloatarray map vmsqrt].
  rewrite !nmul_fin. rewrite ndiv_fin by nra.
  assert (P : 0 <= 2 * w / (rho_isa * cl)).
  { apply Rmult_le_pos; [lra|]. apply Rlt_le, Rinv_0_lt_compat. nra. }
  rewrite msqrt_fin by exact P. cbn [rbind]. unfold mps2kts. rewrite nmul_fin.
  eexists; split; [reflexivity|]. split; [apply sqrt_pos|].
  replace (sqrt (2 * w / (rho_isa * cl)) ^ 2) with (sqrt (2 * w / (rho_isa * cl)) * sqrt (2 * w / (rho_isa * cl))) by ring.
  rewrite sqrt_sqrt by exact P. field. split; lra.
Qed.

Lemma vstall_list c l clm : List.length (elements l) <> 1%nat -> vstall_kias c l clm = Err TypeError.
Proof.
  intros H. unfold vstall_kias. rewrite rho_isa_dens. cbn [rbind as1].
  assert (R1 : recastasnpfloatarray l = elements l) by (destruct l; reflexivity). rewrite R1.
  destruct (elements l) as [|x [|y t]]; [reflexivity|cbn in H; lia|reflexivity].
Qed.

Lemma stall_roundtrip c cl v s : clmaxclean c = Some (Fin cl) -> vstallclean_kcas c = Some (Fin v) ->
  0 < cl -> 0 < v -> air_at c 0 s ->
  exists W, wsmaxcleanstall_pa c = Ok (Fin W) /\ W = dyn_press (knots v) s * cl /\ 0 < W /\
    vstall_kias c (VNum (Fin W)) (ClNum (Fin cl)) =
      Ok (Fin (v * (0.5144444 * 1.9438445) * sqrt (a_rho s / rho_isa))) /\
    forall m, exists A, smincleanstall_m2 c (Fin m) = Ok (Fin A) /\ A * W = m * gravity.
Proof.
  intros E1 E2 Hc Hv HA. pose proof HA as (_ & _ & _ & RP & _). pose proof rho_isa_pos as Hr.
  assert (HK : 0 < knots v) by (unfold knots; lra).
  pose proof (q_pos (knots v) s RP HK) as Hq.
  set (W := dyn_press (knots v) s * cl). assert (HW : 0 < W) by (apply Rmult_lt_0_compat; assumption).
  assert (EW : wsmaxcleanstall_pa c = Ok (Fin W)).
  { unfold wsmaxcleanstall_pa. rewrite E1, E2. cbn [required rbind]. rewrite knots_fin, (q_air c 0 s HA). cbn [rbind].
    rewrite nmul_fin. reflexivity. }
  exists W. split; [exact EW|]. split; [reflexivity|]. split; [exact HW|]. split.
  - destruct (vstall_value c cl W Hc (Rlt_le _ _ HW)) as (u & U & U0 & UE). rewrite U. do 2 f_equal.
    assert (u = knots v * sqrt (a_rho s / rho_isa)) as ->.
    { assert (Q : u * u = (knots v * sqrt (a_rho s / rho_isa)) * (knots v * sqrt (a_rho s / rho_isa))).
      { assert (P : 0 <= a_rho s / rho_isa) by (apply Rlt_le, Rdiv_lt_0_compat; lra).
        replace ((knots v * sqrt (a_rho s / rho_isa)) * (knots v * sqrt (a_rho s / rho_isa)))
          with (knots v ^ 2 * (sqrt (a_rho s / rho_isa) * sqrt (a_rho s / rho_isa))) by ring.
        rewrite sqrt_sqrt by exact P. unfold W, dyn_press in UE.
        assert (G : 1 / 2 * rho_isa * u ^ 2 = 1 / 2 * a_rho s * knots v ^ 2) by (apply (Rmult_eq_reg_r cl); lra).
        apply (Rmult_eq_reg_l (1 / 2 * rho_isa)); [|lra].
        replace (1 / 2 * rho_isa * (u * u)) with (1 / 2 * rho_isa * u ^ 2) by ring. rewrite G. field. lra. }
      assert (0 <= knots v * sqrt (a_rho s / rho_isa)) by (apply Rmult_le_pos; [lra|apply sqrt_pos]).
      nra. }
    unfold knots. set (a := 0.5144444). set (b := 1.9438445). ring.
  - intros m. unfold smincleanstall_m2. rewrite EW. cbn [rbind]. unfold kg2n, sc_g. rewrite nmul_fin.
    rewrite ndiv_fin by lra. eexists; split; [reflexivity|]. unfold gravity. set (g := 9.80665). field. lra.
Qed.

Lemma vstall_monotone c cl w1 w2 : 0 < cl -> 0 <= w1 < w2 ->
  exists v1 v2, vstall_kias c (VNum (Fin w1)) (ClNum (Fin cl)) = Ok (Fin v1) /\
    vstall_kias c (VNum (Fin w2)) (ClNum (Fin cl)) = Ok (Fin v2) /\ v1 < v2.
Proof.
  intros Hc H. pose proof rho_isa_pos as Hr.
  destruct (vstall_value c cl w1 Hc) as (u1 & U1 & P1 & E1); [lra|].
  destruct (vstall_value c cl w2 Hc) as (u2 & U2 & P2 & E2); [lra|].
  eexists _, _. split; [exact U1|]. split; [exact U2|].
  assert (u1 < u2); [|lra]. apply Rnot_le_lt. intros L.
  assert (u2 ^ 2 <= u1 ^ 2) by (apply pow_incr; lra).
  assert (0 < 1 / 2 * rho_isa * cl) by nra. nra.
Qed.

(** ** ground effect, static factor, turn radius *)
Lemma wig_fin h : wig (Fin h) = Fin (1 - / (1 + (16 * h) ^ 2)).
Proof.
  unfold wig. rewrite nmul_fin, npown_fin, nadd_fin. assert (0 <= (16 * h) ^ 2) by apply pow2_ge_0.
  rewrite ndiv_fin by lra. apply Fin_eq. field. lra.
Qed.
Lemma wig_range h : 0 <= 1 - / (1 + (16 * h) ^ 2) < 1.
Proof.
  assert (0 <= (16 * h) ^ 2) by apply pow2_ge_0. split.
  - assert (/ (1 + (16 * h) ^ 2) <= / 1) by (apply Rinv_le_contravar; lra). lra.
  - assert (0 < / (1 + (16 * h) ^ 2)) by (apply Rinv_0_lt_compat; lra). lra.
Qed.
Lemma wig_increasing h h' : 0 <= h < h' -> 1 - / (1 + (16 * h) ^ 2) < 1 - / (1 + (16 * h') ^ 2).
Proof.
  intros H. assert (/ (1 + (16 * h') ^ 2) < / (1 + (16 * h) ^ 2)); [|lra]. apply Rinv_lt_contravar.
  - assert (0 <= (16 * h) ^ 2) by apply pow2_ge_0. assert (0 <= (16 * h') ^ 2) by apply pow2_ge_0. nra.
  - nra.
Qed.

Lemma static_range b : 1 < b -> 10 / 9 < static_factor b < 4 / 3.
Proof.
  intros H. unfold static_factor. destruct (Rlt_dec 1 b); [|contradiction].
  split; apply (Rmult_lt_reg_r (5 + b)); try lra.
  - replace (4 / 3 * (4 + b) / (5 + b) * (5 + b)) with (4 / 3 * (4 + b)) by (field; lra). lra.
  - replace (4 / 3 * (4 + b) / (5 + b) * (5 + b)) with (4 / 3 * (4 + b)) by (field; lra). lra.
Qed.
Lemma static_increasing b b' : 1 < b < b' -> static_factor b < static_factor b'.
Proof.
  intros H. unfold static_factor. destruct (Rlt_dec 1 b), (Rlt_dec 1 b'); try lra.
  apply (Rmult_lt_reg_r ((5 + b) * (5 + b'))); [nra|].
  replace (4 / 3 * (4 + b) / (5 + b) * ((5 + b) * (5 + b'))) with (4 / 3 * (4 + b) * (5 + b')) by (field; lra).
  replace (4 / 3 * (4 + b') / (5 + b') * ((5 + b) * (5 + b'))) with (4 / 3 * (4 + b') * (5 + b)) by (field; lra). nra.
Qed.

Lemma turn_radius c v deg : turnspeed_ktas c = Some (Fin v) -> 0 < deg < 90 ->
  let phi := deg * PI / 180 in
  bank2turnradius c (Fin deg) = Fin (knots v ^ 2 / (gravity * tan phi)) /\ 0 < tan phi /\ 0 < cos phi.
Proof.
  intros E H phi. pose proof PI_RGT_0 as HP.
  assert (P : 0 < phi < PI / 2) by (unfold phi; split; nra).
  assert (T : 0 < tan phi) by (apply tan_gt_0; lra).
  assert (C : 0 < cos phi) by (apply cos_gt_0; lra).
  split; [|split; assumption]. unfold bank2turnradius. rewrite E. cbn [pval]. rewrite knots_fin, npown_fin.
  assert (D : ndeg2rad (Fin deg) = Fin phi).
  { unfold ndeg2rad. nfin. all: try lra. all: try reflexivity. apply Fin_eq. unfold phi. lra. }
  rewrite D, ntan_fin by lra. unfold sc_g. rewrite nmul_fin. rewrite ndiv_fin; [reflexivity|].
  apply Rgt_not_eq. apply Rmult_lt_0_compat; lra.
Qed.
