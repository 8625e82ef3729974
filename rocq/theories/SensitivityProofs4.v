(** The sensitivity analysis: concrete cases. *)
From Verif Require Import Base BaseFacts AnalysisFacts UnitsModel AtmosModel AtmosSpec IsaReal IsaProofs AtmosProofs AtmosProofs2 AtmosProofs3 AtmosProofs4 ConceptModel MethodsModel SensitivityModel ConceptSpec MethodsSpec
  MethodsExamples ConstraintSpec SensitivitySpec ConceptProofs ConceptProofs2 ConceptProofs4 ConceptProofs5 ConceptProofs6 MethodsProofs MethodsProofs2
  ConstraintProofs ConstraintProofs2 ConstraintProofs3 ConstraintProofs4 ConstraintProofs7 ConstraintProofs8 ConstraintProofs10
  SensitivityProofs SensitivityProofs2 SensitivityProofs3.
Open Scope R_scope.
Open Scope string_scope.

Definition bare (g : R) : concept := with_run (example_aircraft 20 18 4 PropOther (isa 0)) (Fin g).
Lemma bare_ok g : wing_ok example_ext (bare g) /\ engine_ok (bare g) /\ brief_complete (bare g).
Proof.
  split; [exact (jet_wing 4 PropOther (isa 0))|]. split; [right; right; right; reflexivity|].
  destruct (std_brief 4 PropOther) as (B1 & B2 & B3 & B4 & B5 & B6 & B7).
  repeat split; try assumption. exists g. reflexivity.
Qed.
Lemma bare_lapse g V : 0 <= V -> lapse example_ext (bare g) true V 0 1.
Proof.
  intros HV. assert (A : air_at (bare g) 0 (std_air 0)) by (apply std_air_at; [reflexivity|lra]).
  unfold lapse. do 2 eexists. split.
  - unfold propulsion_slcorr. cbn [sl_propulsion bare with_run example_aircraft propulsion rbind].
    rewrite (mach1_air (bare g) 0 (std_air 0) A V). cbn [rbind recastasnpfloatarray map]. reflexivity.
  - cbv beta iota. split; [lra|]. right. reflexivity.
Qed.
Lemma jet_lapse_at V : 0 <= V -> 0 <= mach_no V (std_air 0) < 0.59 ->
  lapse example_ext jet true V 0 (delta0 (exp (lp 0)) (mach_no V (std_air 0))).
Proof.
  intros HV HM. pose proof (std_temp_low 0 ltac:(lra)) as T.
  assert (HA : air_at jet 0 (std_air 0)) by (apply std_air_at; [reflexivity|lra]).
  assert (G : generic_of 4 (propulsion jet) LowBypass) by (constructor; [left; reflexivity|lra]).
  pose proof (slcorr_generic jet 0 (std_air 0) HA example_ext 4 1.07 LowBypass eq_refl eq_refl G V HV) as E.
  cbn [engine_lapse] in E. unfold low_bypass_lapse in E. set (m := mach_no V (std_air 0)) in *.
  cbn [std_air a_temp a_press] in E. rewrite T in E.
  assert (TH : theta0 (288.15 - 0.0065 * 0 - 273.15) m - 1.07 <= 0).
  { unfold theta0. assert (0 <= m ^ 2 <= 0.3481) by (split; [apply pow2_ge_0|simpl; nra]). lra. }
  rewrite (excess_0 _ TH) in E.
  assert (P : 0 < delta0 (exp (lp 0)) m).
  { unfold delta0. apply Rmult_lt_0_compat; [apply Rdiv_lt_0_compat; [apply exp_pos|lra]|apply Rpower_pos]. }
  do 2 eexists. split; [exact E|]. cbv beta iota. split; [lra|]. right. do 2 f_equal. apply Fin_eq. unfold Rdiv. lra.
Qed.
Lemma delta0_incr p a b : 0 < p -> 0 <= a < b -> delta0 p a < delta0 p b.
Proof.
  intros HP H. unfold delta0. apply Rmult_lt_compat_l; [apply Rdiv_lt_0_compat; lra|]. unfold Rpower. apply exp_increasing.
  apply Rmult_lt_compat_l; [lra|]. assert (a ^ 2 < b ^ 2) by (simpl; nra). pose proof (pow2_ge_0 a). apply ln_increasing; lra.
Qed.
(** wing loadings for lift-off at 22 and 44 m/s *)
Definition load (vs : R) : R := 1 / 2 * exp (ld 0) * vs ^ 2 * 1.7.
Lemma load_pos vs : 0 < vs -> 0 < load vs.
Proof. intros H. unfold load. pose proof (exp_pos (ld 0)). assert (0 < vs ^ 2) by (apply pow_lt; exact H). apply Rmult_lt_0_compat; [|lra]. apply Rmult_lt_0_compat; lra. Qed.
Lemma load_speed vs L : 0 < vs -> liftoff_speed (load vs) (exp (ld 0)) 1.7 L -> L = 1.1 * vs.
Proof.
  intros HV (H0 & v & E1 & E2). unfold load in E2. pose proof (exp_pos (ld 0)).
  assert (v ^ 2 = vs ^ 2) by (apply (Rmult_eq_reg_l (1 / 2 * exp (ld 0) * 1.7)); lra). assert (v = vs) by nra. lra.
Qed.
Definition loads : val := VList [Fin (load 20); Fin (load 40)].
Definition tau_of (w : R) : R := delta0 (exp (lp 0)) (mach_no (1.1 * (if Req_EM_T w (load 20) then 20 else 40)) (std_air 0)).
Lemma loads_differ : load 20 <> load 40.
Proof. unfold load. pose proof (exp_pos (ld 0)). intros E. assert (40 ^ 2 = 20 ^ 2) by (apply (Rmult_eq_reg_l (1 / 2 * exp (ld 0) * 1.7)); lra). lra. Qed.

(** the concept whose ground run is given as a range, and its nominal jet *)
Lemma self0_amended g : rebuilt (self0 PropFalse) (set_parameter (designstate (self0 PropFalse)) Brief "groundrun_m" (Fin g)) = Ok (bare g).
Proof. reflexivity. Qed.
Lemma self0_nominal : rebuilt (self0 PropFalse) (designstate (self0 PropFalse)) = Ok (bare 1200).
Proof.
  assert (E : ((#0 + #1000 + #1400) / Fin (INR 2))%num = Fin 1200).
  { rewrite !nadd_fin, ndiv_fin by (simpl; lra). apply Fin_eq. simpl. field. }
  transitivity (Ok (with_run (example_aircraft 20 18 4 PropOther (isa 0)) ((#0 + #1000 + #1400) / Fin (INR 2))%num)); [reflexivity|].
  rewrite E. reflexivity.
Qed.
Lemma self0_space i k l : In (k, PList l) (part_of (designspace (self0 PropFalse)) i) -> i = Brief /\ k = "groundrun_m" /\ l = [Fin 1000; Fin 1400].
Proof.
  destruct i; cbn; intros H; repeat (destruct H as [H|H]; [first [discriminate H|injection H as <- <-; auto]|]); contradiction.
Qed.
Lemma self0_numeric : numeric_space (self0 PropFalse).
Proof. intros i k l I. destruct (self0_space i k l I) as (_ & _ & ->). exists [1000; 1400]. reflexivity. Qed.
Lemma self0_analysis ws : List.length (elements ws) <> 1%nat -> exists s med, sensitivity example_ext (self0 PropFalse) ws Ytw = Ok (s, med).
Proof.
  intros N. destruct (bare_ok 1200) as (HW & HE & HB).
  apply (sensitivity_total example_ext (self0 PropFalse) ws (Fin 100000) (bare 1200)); try assumption; try reflexivity.
  - intros i k l I. destruct (self0_space i k l I) as (-> & -> & ->). split; [discriminate|].
    intros x [<-|[<-|[]]]; [exists (bare 1000)|exists (bare 1400)]; (split; [apply self0_amended|apply bare_ok]).
  - exact self0_nominal.
  - cbn. lia.
Qed.
Lemma self0_weight : weight_n (obj (self0 PropFalse)) = Some (Fin 100000).
Proof. reflexivity. Qed.
Lemma self0_varies ws sel : List.length (elements ws) <> 1%nat -> exists rh rl,
  twrequired example_ext (bare 1400) ws true true = Ok rh /\ twrequired example_ext (bare 1000) ws true true = Ok rl /\
  varies example_ext (self0 PropFalse) ws Ytw "groundrun_m" sel (sel rh) (sel rl).
Proof.
  intros N. destruct (bare_ok 1400) as (W1 & E1 & B1). destruct (bare_ok 1000) as (W2 & E2 & B2).
  destruct (twrequired_ok example_ext (bare 1400) true W1 E1 B1 ws true) as (rh & TH).
  destruct (twrequired_ok example_ext (bare 1000) true W2 E2 B2 ws true) as (rl & TL).
  exists rh, rl. split; [exact TH|]. split; [exact TL|].
  exists Brief, [Fin 1000; Fin 1400], (Fin 1400), (Fin 1000), rh, rl.
  split; [cbn; repeat (first [left; reflexivity|right])|].
  split; [exists [1000; 1400], 1400; repeat split; [cbn; auto|intros r [<-|[<-|[]]]; lra]|].
  split; [exists [1000; 1400], 1000; repeat split; [cbn; auto|intros r [<-|[<-|[]]]; lra]|].
  split; [exists (Fin 100000), (bare 1400); split; [reflexivity|]; split; [apply self0_amended|apply requirement_elements; exact TH]|].
  split; [exists (Fin 100000), (bare 1000); split; [reflexivity|]; split; [apply self0_amended|apply requirement_elements; exact TL]|].
  auto.
Qed.

(** take-off requirement without an engine model *)
Definition run_tw (rho clmax g cd cl mu b w : R) : R :=
  static_factor b * ((1.1 * sqrt (2 * w / (rho * clmax))) ^ 2 / (2 * 9.80665 * g) + 0.5 * cd / cl + 0.5 * mu).
Lemma plain_takeoff ext c g h clmax cd cl mu b rho rs v : takeoff_data c g h clmax cd cl mu b -> 0 < g -> 0 < clmax -> cl <> 0 ->
  dens_at c (Fin h) = Ok (Fin rho) -> 0 < rho -> (forall V, 0 <= V -> lapse ext c true V h 1) ->
  elements v = map Fin rs -> (forall w, In w rs -> 0 <= w) ->
  exists L A, twrequired_to ext c v true = Ok (reverttoscalar (VArr (map (fun w => Fin (run_tw rho clmax g cd cl mu b w)) rs)), L, A).
Proof.
  intros (E1 & E2 & E3 & E4 & E5 & E6 & E7) G C N D P L EV W. unfold twrequired_to. rewrite E1. cbn [required rbind]. rewrite E2. cbn [pval].
  rewrite D. cbn [rbind]. change (recastasnpfloatarray v) with (elements v). rewrite EV. rewrite (map2static_fin c b E7).
  match goal with |- context [mapM ?F _] => set (GG := F) end.
  set (vl := fun w => 1.1 * sqrt (2 * w / (rho * clmax))).
  set (tw := fun w => vl w ^ 2 / (2 * 9.80665 * g) + 0.5 * cd / cl + 0.5 * mu).
  assert (K : forall w, In w rs -> takeoff1 c (Fin rho) (Fin w) = (Fin (tw w), Fin (vl w)) /\ 0 <= vl w).
  { intros w I. specialize (W w I). assert (Q : 0 <= 2 * w / (rho * clmax)).
    { apply Rdiv_le_0_compat; [lra|]. apply Rmult_lt_0_compat; assumption. }
    split; [|unfold vl; pose proof (sqrt_pos (2 * w / (rho * clmax))); lra].
    unfold takeoff1. rewrite E1, E3, E4, E5, E6. cbn [pval]. rewrite !nmul_fin. rewrite (ndiv_fin (2 * w)) by nra.
    rewrite nsqrt_fin by exact Q. unfold sc_g. rewrite !nmul_fin, npown_fin.
    rewrite (ndiv_fin _ (2 * 9.80665 * g)) by nra. rewrite (ndiv_fin _ cl) by exact N. rewrite !nadd_fin. reflexivity. }
  assert (MM : mapM GG (map (takeoff1 c (Fin rho)) (map Fin rs)) = Ok (map (fun w => Fin (run_tw rho clmax g cd cl mu b w)) rs)).
  { clear EV W. induction rs as [|w l IH]; cbn [map mapM]; [reflexivity|].
    destruct (K w (or_introl eq_refl)) as (KW & KV). rewrite KW.
    assert (GW : GG (Fin (tw w), Fin (vl w)) = Ok (Fin (run_tw rho clmax g cd cl mu b w))).
    { unfold GG. cbn [fst snd]. destruct (L (vl w) KV) as (tc & pc & E & _ & TC). rewrite E. cbn [rbind fst].
      assert (as1 tc = Ok (Fin 1)) as -> by (destruct TC as [-> | ->]; reflexivity). cbn [rbind].
      rewrite nmul_fin, ndiv_fin by lra. f_equal. apply Fin_eq. unfold run_tw. fold (vl w). fold (tw w). field. }
    rewrite GW. cbn [rbind]. rewrite IH; [reflexivity|]. intros x I. apply K. right. exact I. }
  rewrite MM. cbn [rbind]. eauto.
Qed.
Lemma bare_takeoff g rs v r : 0 < g -> elements v = map Fin rs -> (forall w, In w rs -> 0 <= w) ->
  twrequired example_ext (bare g) v true true = Ok r ->
  rq_takeoff r = reverttoscalar (VArr (map (fun w => Fin (run_tw (exp (ld 0)) 1.7 g 0.06 0.8 0.03 4 w)) rs)).
Proof.
  intros G EV W H. pose proof (exp_pos (ld 0)) as P.
  assert (A : air_at (bare g) 0 (std_air 0)) by (apply std_air_at; [reflexivity|lra]).
  destruct (twrequired_parts _ _ _ _ _ _ H) as (Q & _). cbv zeta in Q.
  destruct (plain_takeoff example_ext (bare g) g 0 1.7 0.06 0.8 0.03 4 (exp (ld 0)) rs (VArr (elements v))) as (L & AA & E);
    try assumption; try lra.
  - repeat split.
  - exact (dens_air (bare g) 0 (std_air 0) A).
  - intros V HV. apply bare_lapse, HV.
  - rewrite E in Q. congruence.
Qed.

Lemma effect_missed : exists s med, sensitivity example_ext (self0 PropFalse) (VList [Fin 0; Fin 2000]) Ytw = Ok (s, med) /\
  (exists a b i xa xb, varies example_ext (self0 PropFalse) (VList [Fin 0; Fin 2000]) Ytw "groundrun_m" rq_takeoff a b /\
     at_loading i (elements a) (Fin xa) /\ at_loading i (elements b) (Fin xb) /\ xa <> xb) /\
  ~ exists r, reported s "take-off" "groundrun_m" r.
Proof.
  set (ws := VList [Fin 0; Fin 2000]). pose proof (exp_pos (ld 0)) as P.
  destruct (self0_analysis ws ltac:(discriminate)) as (s & med & S). exists s, med. split; [exact S|].
  destruct (self0_varies ws rq_takeoff ltac:(discriminate)) as (rh & rl & TH & TL & V).
  pose proof (bare_takeoff 1400 [0; 2000] ws rh ltac:(lra) eq_refl ltac:(intros w [<-|[<-|[]]]; lra) TH) as QH.
  pose proof (bare_takeoff 1000 [0; 2000] ws rl ltac:(lra) eq_refl ltac:(intros w [<-|[<-|[]]]; lra) TL) as QL.
  cbn [map reverttoscalar] in QH, QL.
  assert (SF : 0 < static_factor 4) by (unfold static_factor; destruct (Rlt_dec 1 4); lra).
  split.
  - exists (rq_takeoff rh), (rq_takeoff rl), 1%nat, (run_tw (exp (ld 0)) 1.7 1400 0.06 0.8 0.03 4 2000), (run_tw (exp (ld 0)) 1.7 1000 0.06 0.8 0.03 4 2000). split; [exact V|]. rewrite QH, QL. cbn [elements].
    split; [right; reflexivity|]. split; [right; reflexivity|]. intros E. unfold run_tw in E.
    apply Rmult_eq_reg_l in E; [|lra].
    assert (X : 0 < 2 * 2000 / (exp (ld 0) * 1.7)) by (apply Rdiv_lt_0_compat; [lra|apply Rmult_lt_0_compat; lra]).
    assert (Y : 0 < (1.1 * sqrt (2 * 2000 / (exp (ld 0) * 1.7))) ^ 2).
    { apply pow_lt. apply Rmult_lt_0_compat; [lra|apply sqrt_lt_R0, X]. }
    set (q := (1.1 * sqrt (2 * 2000 / (exp (ld 0) * 1.7))) ^ 2) in *. unfold Rdiv in E. lra.
  - intros X. apply (reported_iff _ _ _ _ s med "take-off" rq_takeoff "groundrun_m" S self0_numeric ltac:(cbn; tauto)) in X.
    destruct X as (a & b & (i & l & hi & lo & rh' & rl' & I & LH & LL & WH & WL & -> & ->) & _ & _ & D).
    destruct (self0_space i _ l I) as (-> & _ & ->).
    assert (hi = Fin 1400) as -> by (eapply largest_unique; [exact LH|]; exists [1000; 1400], 1400; repeat split; [cbn; auto|intros r [<-|[<-|[]]]; lra]).
    assert (lo = Fin 1000) as -> by (eapply smallest_unique; [exact LL|]; exists [1000; 1400], 1000; repeat split; [cbn; auto|intros r [<-|[<-|[]]]; lra]).
    destruct WH as (w1 & a1 & _ & A1 & Y1). destruct WL as (w2 & a2 & _ & A2 & Y2). rewrite self0_amended in A1, A2.
    assert (a1 = bare 1400) as -> by congruence. assert (a2 = bare 1000) as -> by congruence.
    apply (proj1 (requirement_elements _ _ _ _ _ _)) in Y1, Y2. cbn [requirement_of] in Y1, Y2.
    assert (rh' = rh) as -> by congruence. assert (rl' = rl) as -> by congruence.
    rewrite QH, QL in D. cbn [elements] in D.
    apply (D 0%nat _ _ (or_intror eq_refl) (or_intror eq_refl)).
    exists (run_tw (exp (ld 0)) 1.7 1400 0.06 0.8 0.03 4 0). split; [reflexivity|]. apply Fin_eq. unfold run_tw.
    replace (2 * 0 / (exp (ld 0) * 1.7)) with 0 by (unfold Rdiv; ring). rewrite sqrt_0. unfold Rdiv. f_equal. ring_simplify. lra.
Qed.

(** with positive wing loadings the ground run is reported *)
Lemma effect_found : exists s med r, sensitivity example_ext (self0 PropFalse) (VList [Fin 1000; Fin 2000]) Ytw = Ok (s, med) /\
  reported s "take-off" "groundrun_m" r.
Proof.
  set (ws := VList [Fin 1000; Fin 2000]). pose proof (exp_pos (ld 0)) as P.
  destruct (self0_analysis ws ltac:(discriminate)) as (s & med & S). exists s, med.
  destruct (self0_varies ws rq_takeoff ltac:(discriminate)) as (rh & rl & TH & TL & V).
  pose proof (bare_takeoff 1400 [1000; 2000] ws rh ltac:(lra) eq_refl ltac:(intros w [<-|[<-|[]]]; lra) TH) as QH.
  pose proof (bare_takeoff 1000 [1000; 2000] ws rl ltac:(lra) eq_refl ltac:(intros w [<-|[<-|[]]]; lra) TL) as QL.
  cbn [map reverttoscalar] in QH, QL.
  assert (SF : 0 < static_factor 4) by (unfold static_factor; destruct (Rlt_dec 1 4); lra).
  assert (K : forall w, 0 < w -> run_tw (exp (ld 0)) 1.7 1400 0.06 0.8 0.03 4 w <> run_tw (exp (ld 0)) 1.7 1000 0.06 0.8 0.03 4 w).
  { intros w W E. unfold run_tw in E. apply Rmult_eq_reg_l in E; [|lra].
    assert (X : 0 < 2 * w / (exp (ld 0) * 1.7)) by (apply Rdiv_lt_0_compat; [lra|apply Rmult_lt_0_compat; lra]).
    assert (Y : 0 < (1.1 * sqrt (2 * w / (exp (ld 0) * 1.7))) ^ 2).
    { apply pow_lt. apply Rmult_lt_0_compat; [lra|apply sqrt_lt_R0, X]. }
    set (q := (1.1 * sqrt (2 * w / (exp (ld 0) * 1.7))) ^ 2) in *. unfold Rdiv in E. lra. }
  assert (X : exists r, reported s "take-off" "groundrun_m" r); [|destruct X as (r & X); exists r; auto].
  apply (reported_iff _ _ _ _ s med "take-off" rq_takeoff "groundrun_m" S self0_numeric ltac:(cbn; tauto)).
  exists (rq_takeoff rh), (rq_takeoff rl). split; [exact V|]. rewrite QH, QL. split; [discriminate|]. split; [discriminate|].
  intros i xa xb A B (v & -> & ->). cbn [elements] in A, B. destruct A as [A|A]; [discriminate|]. destruct B as [B|B]; [discriminate|].
  destruct i as [|[|i]]; cbn in A, B; [| |destruct i; discriminate].
  - apply (K 1000); [lra|congruence].
  - apply (K 2000); [lra|congruence].
Qed.

(** ** The engine that the bypass ratio stands for is dropped *)
Definition self1 : constructed := {|
  obj := jet;
  designspace := (brief_dict (pnum 1200), design_dict, performance_dict);
  designstate := (brief_dict (pnum 1200), design_dict, performance_dict);
  taperdefaultflag := false; etadefaultflag := 0%nat;
  callers := (brief_dict (pnum 1200), design_dict, performance_dict) |}.
Lemma self1_ok : construct (brief_dict (pnum 1200)) design_dict performance_dict (isa 0) PropFalse = Ok self1.
Proof. reflexivity. Qed.
Lemma engine_dropped : exists s med r,
  sensitivity example_ext self1 loads Ytw = Ok (s, med) /\ twrequired example_ext (obj self1) loads true true = Ok r /\
  elements (rq_takeoff med) <> elements (rq_takeoff r).
Proof.
  destruct (bare_ok 1200) as (HW & HE & HB).
  assert (S : exists s med, sensitivity example_ext self1 loads Ytw = Ok (s, med)).
  { apply (sensitivity_total example_ext self1 loads (Fin 100000) (bare 1200)); try assumption; try reflexivity; [discriminate| |cbn; lia].
    intros i k l I. exfalso. destruct i; cbn in I; repeat (destruct I as [I|I]; [discriminate I|]); contradiction. }
  destruct S as (s & med & S). destruct (requirement_example loads true true) as (r & R). exists s, med, r. split; [exact S|]. split; [exact R|].
  assert (PY : pyeta performance_dict).
  { intros e B. apply dget_binds in B. cbn in B. injection B as <-. repeat constructor; cbn; intros X; repeat (destruct X as [X|X]; [discriminate|]); contradiction. }
  destruct (nominal_requirement _ _ _ _ _ _ _ _ _ _ _ PY self1_ok S) as (w & _ & M). cbn [requirement_of] in M.
  change (with_engine (obj self1) PropOther) with (bare 1200) in M.
  destruct (twrequired_parts _ _ _ _ _ _ M) as (M1 & _). destruct (twrequired_parts _ _ _ _ _ _ R) as (R1 & _). cbv zeta in M1, R1.
  change (obj self1) with jet in R1. pose proof (load_pos 20 ltac:(lra)) as L20. pose proof (load_pos 40 ltac:(lra)) as L40. pose proof loads_differ as LD.
  assert (PW : forall w, In w [load 20; load 40] -> 0 < w) by (intros x [<-|[<-|[]]]; assumption).
  destruct (takeoff_balance example_ext (bare 1200) true (VArr (elements loads)) [load 20; load 40] 1200 0 1.7 0.06 0.8 0.03 4 (std_air 0) (fun _ => 1) eq_refl PW)
    as (T' & L' & E' & Q'); try lra; [repeat split|apply std_air_at; [reflexivity|lra]|intros x L _ (H0 & _); apply bare_lapse, H0|].
  destruct (takeoff_balance example_ext jet true (VArr (elements loads)) [load 20; load 40] 1200 0 1.7 0.06 0.8 0.03 4 (std_air 0) tau_of eq_refl PW)
    as (T & L & E & Q); try lra; [repeat split|apply std_air_at; [reflexivity|lra]| |].
  { intros x V I HL. unfold tau_of. destruct I as [<-|[<-|[]]].
    - destruct (Req_EM_T (load 20) (load 20)); [|congruence]. rewrite (load_speed 20 V ltac:(lra) HL). apply jet_lapse_at; [lra|apply mach_ub; lra].
    - destruct (Req_EM_T (load 40) (load 20)); [congruence|]. rewrite (load_speed 40 V ltac:(lra) HL). apply jet_lapse_at; [lra|apply mach_ub; lra]. }
  rewrite E in R1. rewrite E' in M1.
  assert (rq_takeoff r = results [load 20; load 40] T) as -> by congruence.
  assert (rq_takeoff med = results [load 20; load 40] T') as -> by congruence.
  unfold results. cbn [map reverttoscalar elements]. intros X. injection X as X1 X2.
  assert (SF : 0 < static_factor 4) by (unfold static_factor; destruct (Rlt_dec 1 4); lra).
  assert (K : forall vs, 0 < vs -> In (load vs) [load 20; load 40] -> T' (load vs) = T (load vs) -> tau_of (load vs) <> 0 -> tau_of (load vs) = 1).
  { intros vs V I EQ NZ. destruct (Q' _ I) as (A1 & t' & B1 & C1). destruct (Q _ I) as (A2 & t & B2 & C2). cbn [std_air a_rho] in A1, A2.
    pose proof (load_speed vs _ V A1) as LL1. pose proof (load_speed vs _ V A2) as LL2. rewrite LL1 in C1. rewrite LL2 in C2.
    unfold ground_run, gravity in C1, C2. assert (t' = t) as -> by lra.
    assert (TP : 0 < t). { assert (0 < (1.1 * vs) ^ 2) by (apply pow_lt; lra). lra. }
    rewrite B1, B2 in EQ. assert (static_factor 4 * t * tau_of (load vs) = static_factor 4 * t * 1).
    { replace (static_factor 4 * t * 1) with (static_factor 4 * t / tau_of (load vs) * tau_of (load vs)) by (field; exact NZ). rewrite <- EQ. field. }
    apply (Rmult_eq_reg_l (static_factor 4 * t)); [assumption|]. apply Rgt_not_eq. apply Rmult_lt_0_compat; assumption. }
  assert (DP : forall x, 0 < delta0 (exp (lp 0)) x).
  { intros x. unfold delta0. apply Rmult_lt_0_compat; [apply Rdiv_lt_0_compat; [apply exp_pos|lra]|apply Rpower_pos]. }
  assert (NZ : forall x, tau_of x <> 0) by (intros x; unfold tau_of; apply Rgt_not_eq, DP).
  pose proof (K 20 ltac:(lra) ltac:(cbn; auto) X1 (NZ _)) as K1. pose proof (K 40 ltac:(lra) ltac:(cbn; auto) X2 (NZ _)) as K2.
  unfold tau_of in K1, K2. destruct (Req_EM_T (load 20) (load 20)); [|congruence]. destruct (Req_EM_T (load 40) (load 20)); [congruence|].
  assert (SP : 0 < sound_speed (std_air 0)).
  { unfold sound_speed. cbn [std_air a_temp]. rewrite std_temp_low by lra. apply sqrt_lt_R0. lra. }
  pose proof (delta0_incr (exp (lp 0)) (mach_no (1.1 * 20) (std_air 0)) (mach_no (1.1 * 40) (std_air 0)) (exp_pos _)) as DI.
  assert (0 <= mach_no (1.1 * 20) (std_air 0) < mach_no (1.1 * 40) (std_air 0)); [|specialize (DI H); lra].
  unfold mach_no. split; [apply Rdiv_le_0_compat; lra|]. unfold Rdiv. apply Rmult_lt_compat_r; [apply Rinv_0_lt_compat, SP|lra].
Qed.

(** ** Shares can be computed *)
Lemma addinto_length acc v : List.length v = List.length acc -> exists r, addinto acc v = Ok r /\ List.length r = List.length acc.
Proof.
  intros L. unfold addinto. rewrite L, Nat.eqb_refl. eexists. split; [reflexivity|]. rewrite map_length, combine_length, L. apply Nat.min_id.
Qed.
Lemma shares_total n (prime : dict (list num)) : (forall k r, In (k, r) prime -> List.length r = n) -> exists out, shares n prime = Ok out.
Proof.
  intros H. unfold shares.
  assert (F : forall acc, List.length acc = n -> exists sum, foldM (fun acc kv => addinto acc (snd kv)) prime acc = Ok sum /\ List.length sum = n).
  { induction prime as [|[k r] prime IH]; intros acc L; cbn [foldM snd]; [eauto|].
    destruct (addinto_length acc r) as (a & A & LA); [rewrite (H k r (or_introl eq_refl)), L; reflexivity|].
    rewrite A. cbn [rbind]. apply IH; [|congruence]. intros k' r' I. apply (H k' r'). right. exact I. }
  destruct (F (repeat #0 n) (repeat_length _ _)) as (sum & E & L). rewrite E. cbn [rbind].
  assert (M : exists stack, mapM (fun kv : string * list num => do q <- broadcast ndiv (snd kv) sum; Ok (fst kv, q)) prime = Ok stack).
  { destruct (mapM_total (fun kv : string * list num => do q <- broadcast ndiv (snd kv) sum; Ok (fst kv, q)) prime) as (st & ST & _); [|exists st; exact ST].
    intros [k r] I. cbn [fst snd]. unfold broadcast. rewrite (H k r I), L, Nat.eqb_refl. cbn [rbind]. eauto. }
  destruct M as (stack & M). rewrite M. cbn [rbind]. destruct stack; eauto.
Qed.
Lemma shares_example : exists s med prime out,
  sensitivity example_ext (self0 PropFalse) (VList [Fin 1000; Fin 2000]) Ytw = Ok (s, med) /\ numeric_space (self0 PropFalse) /\
  binds (primes s) "take-off" prime /\ prime <> [] /\ shares 2 prime = Ok out /\
  forall k r, In (k, r) prime -> exists x, at_loading 0 r (Fin x).
Proof.
  destruct effect_found as (s & med & r & S & prime & B & I). set (ws := VList [Fin 1000; Fin 2000]) in *.
  assert (K : forall k r, In (k, r) prime -> List.length r = 2%nat /\ exists x, at_loading 0 r (Fin x)).
  { intros k r0 J. destruct (sensitivity_facts _ _ _ _ _ _ S) as ((_ & I2 & _) & _). apply dget_binds in B.
    destruct (I2 _ _ B k r0 J) as (i & l & hi & lo & rh & rl & sel & C1 & C2 & C3 & C4 & C5 & C6 & C7 & C8).
    assert (sel = rq_takeoff) as ->.
    { cbn in C1. repeat (destruct C1 as [C1|C1]; [try discriminate; congruence|]). contradiction. }
    destruct (self0_space i _ l C2) as (-> & -> & ->).
    destruct C5 as (w1 & a1 & _ & A1 & Y1). destruct C6 as (w2 & a2 & _ & A2 & Y2).
    cbn [pymaxn pyminn fold_left] in C3, C4. rewrite (nltb_fin 1000 1400) in C3. rewrite (nltb_fin 1400 1000) in C4. 
    rewrite Rltb_true in C3 by lra. rewrite Rltb_false in C4 by lra. injection C3 as <-. injection C4 as <-.
    rewrite self0_amended in A1, A2.
    assert (a1 = bare 1400) as -> by congruence. assert (a2 = bare 1000) as -> by congruence.
    apply (proj1 (requirement_elements _ _ _ _ _ _)) in Y1, Y2. cbn [requirement_of] in Y1, Y2.
    rewrite (bare_takeoff 1400 [1000; 2000] ws rh ltac:(lra) eq_refl ltac:(intros w [<-|[<-|[]]]; lra) Y1) in C7.
    rewrite (bare_takeoff 1000 [1000; 2000] ws rl ltac:(lra) eq_refl ltac:(intros w [<-|[<-|[]]]; lra) Y2) in C7.
    cbn in C7. injection C7 as <-. split; [reflexivity|]. eexists. right. reflexivity. }
  destruct (shares_total 2 prime) as (out & O); [intros k r0 J; apply (K k r0 J)|].
  exists s, med, prime, out. split; [exact S|]. split; [exact self0_numeric|]. split; [exact B|]. split; [intros ->; destruct I|].
  split; [exact O|]. intros k r0 J. apply (K k r0 J).
Qed.
Lemma single_example : construct (brief_dict (PList [Fin 1000; Fin 1400])) design_dict performance_dict (isa 0) PropFalse = Ok (self0 PropFalse) /\
  In ("groundrun_m", PList [Fin 1000; Fin 1400]) (part_of (designspace (self0 PropFalse)) Brief).
Proof. split; [reflexivity|]. cbn. repeat (first [left; reflexivity|right]). Qed.
Lemma nominal_example : pyeta performance_dict /\
  construct (brief_dict (PList [Fin 1000; Fin 1400])) design_dict performance_dict (isa 0) (PropJet (fun _ _ => Fin 0.7)) = Ok (self0 (PropJet (fun _ _ => Fin 0.7))) /\
  exists s med, sensitivity example_ext (self0 (PropJet (fun _ _ => Fin 0.7))) (VList [Fin 1000; Fin 2000]) Ytw = Ok (s, med).
Proof.
  split.
  { intros e B. apply dget_binds in B. cbn in B. injection B as <-. repeat constructor; cbn; intros X; repeat (destruct X as [X|X]; [discriminate|]); contradiction. }
  split; [reflexivity|]. set (p := PropJet (fun _ _ => Fin 0.7)).
  assert (OK : forall g, let ac := with_run (example_aircraft 20 18 4 p (isa 0)) (Fin g) in wing_ok example_ext ac /\ engine_ok ac /\ brief_complete ac).
  { intros g. cbv zeta. split; [exact (jet_wing 4 p (isa 0))|]. split; [right; left; eexists; reflexivity|].
    destruct (std_brief 4 p) as (B1 & B2 & B3 & B4 & B5 & B6 & B7). repeat split; try assumption. exists g. reflexivity. }
  destruct (OK 1200) as (HW & HE & HB).
  apply (sensitivity_total example_ext (self0 p) _ (Fin 100000) (with_run (example_aircraft 20 18 4 p (isa 0)) (Fin 1200))); try assumption; try reflexivity; [discriminate| | |cbn; lia].
  - intros i k l I. destruct (self0_space i k l I) as (-> & -> & ->). split; [discriminate|].
    intros x [<-|[<-|[]]]; [exists (with_run (example_aircraft 20 18 4 p (isa 0)) (Fin 1000))|exists (with_run (example_aircraft 20 18 4 p (isa 0)) (Fin 1400))];
      (split; [reflexivity|apply OK]).
  - assert (E : ((#0 + #1000 + #1400) / Fin (INR 2))%num = Fin 1200).
    { rewrite !nadd_fin, ndiv_fin by (simpl; lra). apply Fin_eq. simpl. field. }
    transitivity (Ok (with_run (example_aircraft 20 18 4 p (isa 0)) ((#0 + #1000 + #1400) / Fin (INR 2))%num)); [reflexivity|].
    rewrite E. reflexivity.
Qed.

Lemma effect_refutation : exists self s med,
  construct (brief_dict (PList [Fin 1000; Fin 1400])) design_dict performance_dict (isa 0) PropFalse = Ok self /\
  sensitivity example_ext self (VList [Fin 0; Fin 2000]) Ytw = Ok (s, med) /\
  (exists a b i xa xb, varies example_ext self (VList [Fin 0; Fin 2000]) Ytw "groundrun_m" rq_takeoff a b /\
     at_loading i (elements a) (Fin xa) /\ at_loading i (elements b) (Fin xb) /\ xa <> xb) /\
  ~ exists r, reported s "take-off" "groundrun_m" r.
Proof. exists (self0 PropFalse). destruct effect_missed as (s & med & H). exists s, med. split; [exact (self0_ok PropFalse)|exact H]. Qed.
Lemma engine_refutation : exists self s med r,
  construct (brief_dict (pnum 1200)) design_dict performance_dict (isa 0) PropFalse = Ok self /\
  sensitivity example_ext self loads Ytw = Ok (s, med) /\ twrequired example_ext (obj self) loads true true = Ok r /\
  elements (rq_takeoff med) <> elements (rq_takeoff r).
Proof. exists self1. destruct engine_dropped as (s & med & r & H). exists s, med, r. split; [exact self1_ok|exact H]. Qed.
