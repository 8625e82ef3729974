(** Proofs about the warnings: all constraints together, the options of the plots, examples. *)
From Coq Require Import Reals Lra Lia Psatz List String ZArith.
From Verif Require Import Base BaseFacts AnalysisFacts UnitsModel AtmosModel AtmosSpec ConceptModel ConceptProofs MethodsModel MethodsSpec
  MethodsProofs MethodsProofs2 MethodsProofs3 MethodsProofs4 MethodsExamples ConstraintSpec ConstraintProofs ConstraintProofs5 ConstraintProofs6
  SensitivityModel SensitivityPlotModel WarningsModel WarningsSpec WarningsProofs WarningsProofs2 WarningsProofs3 WarningsProofs4.
Import ListNotations.
Open Scope R_scope.

Lemma tw_provides ext c v fo b r : snd (twrequired_w ext c v fo b) = Ok r ->
  (exists ws, warnings_for c 1 ws) /\ cruisespeed_ktas c <> None /\ cruisealt_m c <> None.
Proof.
  unfold twrequired_w. intros H. cbv zeta in *.
  apply lbind_ok in H. destruct H as ([[t vl] va] & T & H & _).
  apply lbind_ok in H. destruct H as ([[t2 cl] fe] & T2 & H & _).
  apply lbind_ok in H. destruct H as (x3 & T3 & H & _).
  apply lbind_ok in H. destruct H as (x4 & T4 & H & _). clear H.
  split; [|split].
  - unfold twrequired_trn_w in T2. do 3 (apply lbind_ok in T2; destruct T2 as (? & ? & T2 & _)).
    apply lbind_ok in T2. destruct T2 as (co & CO & _). apply slcorr_warnings in CO. eauto.
  - unfold twrequired_crs_w in T4. intros E. rewrite E in T4. discriminate.
  - unfold twrequired_crs_w in T4. apply lbind_ok in T4. destruct T4 as (? & _ & T4 & _). cbv zeta in T4.
    intros E. rewrite E in T4. discriminate.
Qed.

Lemma tw_all ext c w v fo b r : has_wing c w -> usual w -> snd (twrequired_w ext c v fo b) = Ok r ->
  exists ws, warnings_for c 1 ws /\
  fst (twrequired_w ext c v fo b) = times ((if b then List.length (elements v) else 0) + 4) ws.
Proof.
  intros HW HU H. destruct (tw_provides _ _ _ _ _ _ H) as ((ws & WF) & HC & HA).
  exists ws. split; [exact WF|]. exact (tw_warnings ext c w ws HW HU HC HA WF v fo b r H).
Qed.

Lemma elements_revert_length l : List.length (elements (reverttoscalar (VArr l))) = List.length l.
Proof. destruct l as [|x [|y l]]; reflexivity. Qed.
Lemma liftoff_count ext c v fo b r : twrequired ext c v fo b = Ok r ->
  List.length (elements (rq_liftoffspeed r)) = List.length (elements v).
Proof.
  intros H. unfold twrequired in H. cbv zeta in H. apply rbind_ok in H. destruct H as ([[t vl] va] & T & H).
  apply rbind_ok in H. destruct H as ([[t2 cl] fe] & _ & H).
  do 4 (apply rbind_ok in H; destruct H as (? & _ & H)). injection H as <-. cbn [rq_liftoffspeed].
  unfold twrequired_to in T. do 3 (apply rbind_ok in T; destruct T as (? & _ & T)). 
  match type of T with Ok (_, ?a, _) = _ => assert (E : vl = a) by congruence end. rewrite E.
  rewrite elements_revert_length, !map_length. cbn [recastasnpfloatarray]. destruct v; reflexivity.
Qed.
Lemma turns_nan t v e p : vop2 (fun t v => tw2pw t v (Fin e)) t (VNum (Fin v)) = Ok p -> e <> 0 ->
  all_nan p = true <-> Forall (fun x => x = NonFin) (elements t).
Proof.
  intros H E.
  assert (X : forall x, tw2pw x (Fin v) (Fin e) = NonFin <-> x = NonFin).
  { intros [x|]; unfold tw2pw; [|split; reflexivity]. rewrite nmul_fin, ndiv_fin by exact E. split; discriminate. }
  unfold all_nan. destruct t as [x|l|l]; cbn [vop2] in H; [| discriminate |]; injection H as <-; cbn [recastasnpfloatarray elements].
  - cbn [forallb]. rewrite Bool.andb_true_r. specialize (X x). destruct (tw2pw x (Fin v) (Fin e)); split; intros A.
    + discriminate.
    + inversion A; subst. exfalso. destruct X as (_ & X). discriminate (X eq_refl).
    + constructor; [apply X; reflexivity|constructor].
    + reflexivity.
  - rewrite forallb_forall, Forall_forall. split.
    + intros A x I. apply X. specialize (A (tw2pw x (Fin v) (Fin e)) (in_map _ _ _ I)).
      destruct (tw2pw x (Fin v) (Fin e)); [discriminate|reflexivity].
    + intros A y I. apply in_map_iff in I. destruct I as (x & <- & I). apply A, X in I. rewrite I. reflexivity.
Qed.

Section Power.
  Variables (ext : externals) (c : concept) (w : wing).
  Hypothesis HW : has_wing c w.
  Hypothesis HU : usual w.

  Lemma pcorr_one b x h r ws : warnings_for c 1 ws -> snd (pcorr_w ext c b (VNum x) h) = Ok r ->
    fst (pcorr_w ext c b (VNum x) h) = if b then ws else [].
  Proof.
    unfold pcorr_w. intros WF H. destruct b; [|reflexivity]. apply lbind_ok in H. destruct H as (k & K & H & ->).
    rewrite (slcorr_one _ _ _ _ _ _ WF K). cbn [quiet fst]. apply app_nil_r.
  Qed.
  Lemma power_warnings n v m fo b r eta vt :
    etaprop_turn c = Some (Fin eta) -> eta <> 0 -> turnspeed_ktas c = Some (Fin vt) ->
    snd (powerrequired_w ext c n v m fo b) = Ok r ->
    exists ws wn t turns, warnings_for c 1 ws /\ warnings_for c (List.length (elements v)) wn /\
    twrequired ext c v fo false = Ok t /\
    (no_feasible_turn t -> turns = [WTurns]) /\ (~ no_feasible_turn t -> turns = []) /\
    fst (powerrequired_w ext c n v m fo b)
    = ((if Nat.ltb 0 n then [WEtas n] else []) ++ times 4 ws ++ (if b then wn else []) ++ turns
       ++ (if b then times 4 ws else []))%list.
  Proof.
    intros HE E0 HT H. unfold powerrequired_w in *. cbv zeta in *.
    rewrite (fst_lbind _ _ tt (outcome_etas n)). rewrite snd_lbind, outcome_etas in H. cbn [rbind] in H.
    replace (fst (if Nat.ltb 0 n then warn (WEtas n) else quiet (Ok tt))) with (if Nat.ltb 0 n then [WEtas n] else [])
      by (destruct (Nat.ltb 0 n); reflexivity).
    apply lbind_ok in H. destruct H as (t & T & H & ->).
    destruct (tw_all ext c w v fo false t HW HU T) as (ws & WF & ->). cbn [plus].
    destruct (tw_provides _ _ _ _ _ _ T) as (_ & HC & HA). rewrite outcome_tw in T.
    apply lbind_ok in H. destruct H as (p0 & _ & H & ->). cbn [quiet fst app].
    apply lbind_ok in H. destruct H as (pc & PC & H & ->).
    assert (WN : exists wn, warnings_for c (List.length (elements v)) wn /\
      fst (pcorr_w ext c b (rq_liftoffspeed t) (pval (rwyelevation_m c))) = if b then wn else []).
    { unfold pcorr_w in *. destruct b.
      - apply lbind_ok in PC. destruct PC as (k & K & _ & ->). apply slcorr_warnings in K.
        rewrite (liftoff_count _ _ _ _ _ _ T) in K. eexists. split; [exact K|]. cbn [quiet fst]. apply app_nil_r.
      - clear - WF. destruct WF as [b|b|s|s|]; eexists; (split; [|reflexivity]).
        + eapply For_bypass_ratio; eassumption.
        + eapply For_deprecated; eassumption.
        + eapply For_generic; eassumption.
        + eapply For_unknown; eassumption.
        + eapply For_deck; eassumption. }
    destruct WN as (wn & WN & ->).
    apply lbind_ok in H. destruct H as (p1 & _ & H & ->). cbn [quiet fst app].
    rewrite HT, HE in *. cbn [pval] in *.
    apply lbind_ok in H. destruct H as (pw & PW & H & ->). cbn [quiet fst app]. cbn [quiet snd] in PW.
    rewrite (fst_lbind _ _ tt (outcome_turns pw)). rewrite snd_lbind, outcome_turns in H. cbn [rbind] in H.
    exists ws, wn, t, (if all_nan pw then [WTurns] else []).
    split; [exact WF|]. split; [exact WN|]. split; [exact T|].
    pose proof (turns_nan _ _ _ _ PW E0) as TN.
    assert (NF : no_feasible_turn t <-> Forall (fun x => x = NonFin) (elements (rq_turnfeasible t))).
    { unfold no_feasible_turn. destruct (rq_turnfeasible t); reflexivity. }
    split; [intros F; apply NF, TN in F; rewrite F; reflexivity|].
    split. { intros F. destruct (all_nan pw); [|reflexivity]. exfalso. apply F, NF, TN. reflexivity. }
    replace (fst (if all_nan pw then warn WTurns else quiet (Ok tt))) with (if all_nan pw then [WTurns] else [])
      by (destruct (all_nan pw); reflexivity).
    do 3 f_equal. f_equal.
    repeat (apply lbind_ok in H; let Y := fresh in destruct H as (? & Y & H & ->); cbn [quiet fst app];
            try rewrite (pcorr_one _ _ _ _ _ WF Y)).
    cbn [quiet fst]. destruct b; unfold times; cbn [repeat List.concat app]; rewrite ?app_nil_r; reflexivity.
  Qed.
End Power.
