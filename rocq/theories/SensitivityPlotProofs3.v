(** The sensitivity diagrams: window, turn stall line, masks, the choice of diagrams. *)
From Coq Require Import Sorted.
From Verif Require Import Base BaseFacts UnitsModel AtmosModel AtmosSpec ConceptModel ConceptSpec MethodsModel MethodsSpec ConstraintSpec
  SensitivityModel SensitivitySpec SensitivityPlotModel SensitivityPlotSpec ConceptProofs ConceptProofs6 MethodsProofs
  ConstraintProofs4 SensitivityProofs SensitivityProofs2 SensitivityProofs3 SensitivityPlotProofs SensitivityPlotProofs2.
Open Scope R_scope.
Open Scope string_scope.

Lemma window ext self wl y x labels mask d s med :
  propulsionsensitivity_monothetic ext self wl y None x labels (ShowOne "combined") mask = Ok [DCombined d] ->
  sensitivity ext self wl y = Ok (s, med) ->
  (forall cn sel, In (cn, sel) analysed -> exists rs, elements (sel med) = map Fin rs) ->
  exists m, cd_top d = Fin (1.05 * m) /\ (exists cn sel, In (cn, sel) analysed /\ In (Fin m) (elements (sel med))) /\
  forall cn sel r, In (cn, sel) analysed -> In (Fin r) (elements (sel med)) -> r <= m.
Proof.
  intros H S FIN. destruct (combined_inv _ _ _ _ _ _ _ _ _ H) as (fg & F & P).
  destruct (figure_inv _ _ _ _ _ _ _ F) as (s' & med' & comb & fx & S' & _ & _ & M & _ & _ & Y & _).
  rewrite S in S'. injection S' as <- <-.
  assert (cd_top d = fg_top fg) as ->.
  { unfold combinedplot in P. apply rbind_ok in P as (lo & _ & P). apply rbind_ok in P as (hi & _ & P). cbv zeta in P.
    apply rbind_ok in P as (tl & _ & P). match type of P with (let '(_, _) := ?e in _) = _ => destruct e as [u v] end.
    apply rbind_ok in P as (xf & XF & P). apply rbind_ok in P as (yf & YF & P). injection P as <-. reflexivity. }
  unfold ylim_hi in Y. apply rbind_ok in Y as (tops & T & Y). apply rbind_ok in Y as (m & PM & Y). injection Y as Y.
  assert (TOP : forall cn sel r, In (cn, sel) analysed -> pymaxv (sel med) = Ok r -> largest (elements (sel med)) r).
  { intros cn sel r I E. destruct (FIN cn sel I) as (rs & ER). destruct (sel med) as [z|l|l]; cbn in E; [discriminate| |]; cbn [elements] in *;
      rewrite ER in E; rewrite ER; apply pymaxn_largest, E. }
  assert (TR : exists rs, tops = map Fin rs).
  { apply nsum_fin. intros z I. apply In_nth_error in I as (n & N). destruct (mapM_nth_inv _ _ _ _ _ T N) as ([cn sel] & J & Q).
    destruct (TOP cn sel z (nth_error_In _ _ J) Q) as (rs & w & _ & -> & _). eauto. }
  destruct TR as (rs & ->). destruct (pymaxn_largest rs m PM) as (rs' & mm & E1 & -> & I1 & L1). apply map_Fin_inj in E1. subst rs'.
  exists mm. split; [rewrite <- Y, nmul_fin; f_equal; lra|]. split.
  - apply (in_map Fin) in I1. apply In_nth_error in I1 as (n & N). destruct (mapM_nth_inv _ _ _ _ _ T N) as ([cn sel] & J & Q).
    destruct (TOP cn sel _ (nth_error_In _ _ J) Q) as (zs & w & EZ & [= ->] & IW & _). exists cn, sel.
    split; [exact (nth_error_In _ _ J)|]. rewrite EZ. apply in_map, IW.
  - intros cn sel r I IR. apply In_nth_error in I as (n & N). destruct (mapM_nth _ _ _ _ _ T N) as (z & J & Q). cbn [snd] in Q.
    destruct (TOP cn sel z (nth_error_In _ _ N) Q) as (zs & w & EZ & -> & IW & LW). rewrite EZ in IR.
    apply in_map_iff in IR as (r' & [= ->] & IR). specialize (LW r IR).
    apply nth_error_In in J. apply in_map_iff in J as (w' & [= ->] & J). specialize (L1 w J). lra.
Qed.

Lemma limits ext self wl y yl x labels mask d ws xs :
  propulsionsensitivity_monothetic ext self wl y yl x labels (ShowOne "combined") mask = Ok [DCombined d] ->
  axis self wl x ws xs -> exists a b, cd_xlim d = (Fin a, Fin b) /\ In a xs /\ In b xs /\ forall p, In p xs -> a <= p <= b.
Proof.
  intros H A. destruct (combined_inv _ _ _ _ _ _ _ _ _ H) as (fg & F & P).
  destruct (figure_inv _ _ _ _ _ _ _ F) as (s' & med' & comb & fx & _ & _ & _ & _ & X & _).
  rewrite (axis_x _ _ _ _ _ A) in X.
  unfold combinedplot in P. rewrite X in P. apply rbind_ok in P as (lo & LO & P). apply rbind_ok in P as (hi & HI & P). cbv zeta in P.
  apply rbind_ok in P as (tl & _ & P). match type of P with (let '(_, _) := ?e in _) = _ => destruct e as [u v] end.
  apply rbind_ok in P as (xf & XF & P). apply rbind_ok in P as (yf & YF & P). injection P as <-. cbn [cd_xlim].
  apply pymaxn_largest in HI as (rs & b & E1 & -> & I1 & L1). apply pyminn_smallest in LO as (rs' & a & E2 & -> & I2 & L2).
  apply map_Fin_inj in E1. apply map_Fin_inj in E2. subst rs rs'. exists a, b. repeat (split; [auto|]). auto.
Qed.

(** the curves drawn are the combined requirement and the five constraints *)
Lemma curves ext self wl y yl x labels mask d s med :
  propulsionsensitivity_monothetic ext self wl y yl x labels (ShowOne "combined") mask = Ok [DCombined d] ->
  sensitivity ext self wl y = Ok (s, med) ->
  cd_curves d = [("combined", rq_combined med); ("climb", rq_climb med); ("cruise", rq_cruise med);
                 ("servceil", rq_servceil med); ("take-off", rq_takeoff med); ("turn", rq_turn med)].
Proof.
  intros H S. destruct (combined_inv _ _ _ _ _ _ _ _ _ H) as (fg & F & P).
  destruct (figure_inv _ _ _ _ _ _ _ F) as (s' & med' & comb & fx & S' & _ & _ & M & _).
  rewrite S in S'. injection S' as <- <-.
  unfold combinedplot in P. apply rbind_ok in P as (lo & _ & P). apply rbind_ok in P as (hi & _ & P). cbv zeta in P.
  apply rbind_ok in P as (tl & _ & P). match type of P with (let '(_, _) := ?e in _) = _ => destruct e as [u v] end.
  apply rbind_ok in P as (xf & XF & P). apply rbind_ok in P as (yf & YF & P). injection P as <-. cbn. rewrite M. reflexivity.
Qed.

(** ** Turn stall line *)
Lemma turn_line ext self wl y yl x labels mask d s med ws xs :
  propulsionsensitivity_monothetic ext self wl y yl x labels (ShowOne "combined") mask = Ok [DCombined d] ->
  sensitivity ext self wl y = Ok (s, med) -> axis self wl x ws xs ->
  forall p, cd_turn d = Some p <->
  exists i r, p = Fin r /\ nth_error xs i = Some r /\ defined_at (rq_combined med) i /\
    (forall j, defined_at (rq_combined med) j -> (j <= i)%nat) /\ exists a b, In a xs /\ In b xs /\ a < r < b.
Proof.
  intros H S A p. destruct (combined_inv _ _ _ _ _ _ _ _ _ H) as (fg & F & P).
  destruct (figure_inv _ _ _ _ _ _ _ F) as (s' & med' & comb & fx & S' & CC & _ & M & X & _ & _ & FE & _).
  rewrite S in S'. injection S' as <- <-. rewrite (axis_x _ _ _ _ _ A) in X.
  unfold combinedplot in P. rewrite X in P. apply rbind_ok in P as (lo & LO & P). apply rbind_ok in P as (hi & HI & P). cbv zeta in P.
  apply rbind_ok in P as (tl & TL & P). match type of P with (let '(_, _) := ?e in _) = _ => destruct e as [u v] end.
  apply rbind_ok in P as (xf & XF & P). apply rbind_ok in P as (yf & YF & P). injection P as <-. cbn [cd_turn]. clear XF YF.
  apply pymaxn_largest in HI as (rs & b & E1 & -> & I1 & L1). apply pyminn_smallest in LO as (rs' & a & E2 & -> & I2 & L2).
  apply map_Fin_inj in E1. apply map_Fin_inj in E2. subst rs rs'.
  pose proof (where_sorted (map isfinite comb)) as SS. rewrite <- FE in SS.
  assert (DF : forall i, In i (fg_feas fg) <-> defined_at (rq_combined med) i) by (intros; rewrite FE, CC; apply where_finite).
  destruct (fg_feas fg) as [|f0 fs] eqn:EF.
  - injection TL as <-. split; [discriminate|]. intros (i & r & _ & _ & D & _). apply DF in D. contradiction.
  - rewrite <- EF in *. assert (TL' : (do x0 <- nth_num (map Fin xs) (last (fg_feas fg) O); Ok (if inside (Fin a) x0 (Fin b) then Some x0 else None)) = Ok tl).
    { rewrite EF in TL |- *. exact TL. }
    apply rbind_ok in TL' as (z & Z & TL'). injection TL' as <-. apply nth_num_ok in Z. rewrite nth_error_map in Z.
    destruct (nth_error xs (last (fg_feas fg) O)) as [r|] eqn:ER; [|discriminate]. cbn in Z. injection Z as <-.
    assert (NE : fg_feas fg <> []) by (rewrite EF; discriminate).
    pose proof (proj1 (DF _) (last_in _ O NE)) as DL.
    assert (MX : forall j, defined_at (rq_combined med) j -> (j <= last (fg_feas fg) O)%nat) by (intros j J; apply (sorted_last_max _ SS), DF, J).
    unfold inside. rewrite !nltb_fin. split.
    + destruct (Rltb_reflect a r) as [Q1|Q1]; [|discriminate]. destruct (Rltb_reflect r b) as [Q2|Q2]; [|discriminate].
      cbn. intros [= <-]. exists (last (fg_feas fg) O), r. repeat (split; [first [reflexivity|assumption]|]). exists a, b. auto.
    + intros (i & r' & -> & EI & DI & MI & a' & b' & IA & IB & Q).
      assert (i = last (fg_feas fg) O) as -> by (pose proof (MX _ DI); pose proof (MI _ DL); lia).
      assert (r' = r) as -> by congruence. specialize (L2 a' IA). specialize (L1 b' IB).
      rewrite (Rltb_true a r), (Rltb_true r b) by lra. reflexivity.
Qed.

(** the front is defined where the five constraints are and the turn does not stall *)
Lemma front_defined b d p atm prop self ext wl s med clm : pyeta p -> construct b d p atm prop = Ok self ->
  sensitivity ext self wl Ytw = Ok (s, med) -> clmaxclean (obj self) = Some (Fin clm) -> forall i,
  defined_at (rq_combined med) i <->
  (forall cn sel, In (cn, sel) analysed -> defined_at (sel med) i) /\
  ~ exists c, nth_error (elements (rq_turncl med)) i = Some (Fin c) /\ clm < c.
Proof.
  intros PY C S CL i. destruct (nominal_requirement _ _ _ _ _ _ _ _ _ _ _ PY C S) as (w & W & Y). cbn [requirement_of] in Y.
  set (c := match prop with PropFalse => _ | _ => _ end) in Y.
  assert (CLc : clmaxclean c = Some (Fin clm)) by (unfold c; destruct prop; exact CL). clearbody c.
  destruct (combined_envelope _ _ _ _ _ _ Y) as ((N1 & N2 & N3 & N4 & N5) & ENV). cbn [chosen_turn] in N2, ENV.
  assert (TF : forall i, nth_error (elements (rq_turnfeasible med)) i =
    match nth_error (elements (rq_turn med)) i, nth_error (elements (rq_turncl med)) i with
    | Some t, Some cl => Some (feasible c t cl) | _, _ => None end).
  { destruct (twrequired_parts _ _ _ _ _ _ Y) as (_ & T & _). cbv zeta in T. unfold twrequired_trn in T.
    apply rbind_ok in T as (z1 & _ & T). apply rbind_ok in T as (z2 & _ & T). cbv zeta in T. apply rbind_ok in T as (r & _ & T).
    apply rbind_ok in T as (co & _ & T). apply rbind_ok in T as (tws & _ & T). apply rbind_ok in T as (tw & _ & T).
    assert (E1 : rq_turn med = reverttoscalar tw) by congruence. assert (E2 : rq_turncl med = reverttoscalar (VArr (snd r))) by congruence.
    assert (E3 : rq_turnfeasible med = reverttoscalar (VArr (map (fun p => feasible c (fst p) (snd p)) (combine (elements tw) (snd r))))).
    { change (recastasnpfloatarray tw) with (elements tw) in T. congruence. }
    rewrite E1, E2, E3. assert (elements (reverttoscalar tw) = elements tw) as -> by (destruct tw as [|[|? [|? ?]]|[|? [|? ?]]]; reflexivity).
    rewrite !elements_revert. clear. generalize (elements tw) as l, (snd r) as m. intros l m i. revert m i.
    induction l as [|t l IH]; intros m i; cbn [combine map]; [destruct i; reflexivity|].
    destruct m as [|q m]; cbn [combine map]; [destruct i; cbn; [reflexivity|destruct (nth_error l i); reflexivity]|].
    destruct i as [|i]; cbn [nth_error]; [reflexivity|apply IH]. }
  split.
  - intros (v & V). destruct (ENV i _ V) as (t & u & cl & cr & se & E1 & E2 & E3 & E4 & E5 & [(I & Q)|(NI & IM & _)]); [discriminate|].
    assert (FINITE : forall z, In z [t; u; cl; cr; se] -> exists q, z = Fin q).
    { intros z I. destruct z as [q|]; [eauto|contradiction]. }
    rewrite TF in E2. destruct (nth_error (elements (rq_turn med)) i) as [tt|] eqn:ET; [|discriminate].
    destruct (nth_error (elements (rq_turncl med)) i) as [cc|] eqn:EC; [|discriminate]. injection E2 as <-.
    destruct (FINITE (feasible c tt cc) ltac:(cbn; auto)) as (q & Q). unfold feasible in Q. rewrite CLc in Q. cbn [pval] in Q.
    destruct (Fin clm <? cc)%num eqn:LT; [discriminate|]. split.
    + intros cn sel I. cbn in I. unfold defined_at.
      destruct I as [[= <- <-]|[[= <- <-]|[[= <- <-]|[[= <- <-]|[[= <- <-]|[]]]]]].
      * destruct (FINITE cl ltac:(cbn; auto)) as (z & ->). eauto.
      * destruct (FINITE cr ltac:(cbn; auto)) as (z & ->). eauto.
      * destruct (FINITE se ltac:(cbn; auto 6)) as (z & ->). eauto.
      * destruct (FINITE t ltac:(cbn; auto)) as (z & ->). eauto.
      * exists q. rewrite ET, Q. reflexivity.
    + intros (z & [= ->] & LZ). rewrite nltb_fin in LT. rewrite Rltb_true in LT by exact LZ. discriminate.
  - intros (ALL & NS). destruct (ALL "climb" rq_climb ltac:(cbn; auto)) as (cl & CLI).
    assert (LI : (i < List.length (elements (rq_combined med)))%nat).
    { rewrite N3. apply nth_error_Some. congruence. }
    destruct (nth_error (elements (rq_combined med)) i) as [v|] eqn:EV; [|apply nth_error_None in EV; lia].
    destruct (ENV i v EV) as (t & u & cl' & cr & se & E1 & E2 & E3 & E4 & E5 & EN).
    destruct (ALL "cruise" rq_cruise ltac:(cbn; auto)) as (z2 & Z2). destruct (ALL "servceil" rq_servceil ltac:(cbn; auto)) as (z3 & Z3).
    destruct (ALL "take-off" rq_takeoff ltac:(cbn; auto 6)) as (z4 & Z4). destruct (ALL "turn" rq_turn ltac:(cbn; auto 7)) as (z5 & Z5).
    assert (exists q, u = Fin q) as (q & ->).
    { rewrite TF, Z5 in E2. destruct (nth_error (elements (rq_turncl med)) i) as [cc|] eqn:EC; [|discriminate]. injection E2 as <-.
      unfold feasible. rewrite CLc. cbn [pval]. destruct (Fin clm <? cc)%num eqn:LT; [|eauto]. exfalso. apply NS.
      destruct cc as [cc|]; [|discriminate]. rewrite nltb_fin in LT. apply Rltb_iff in LT. eauto. }
    rewrite Z4 in E1. rewrite CLI in E3. rewrite Z2 in E4. rewrite Z3 in E5.
    injection E1 as <-. injection E3 as <-. injection E4 as <-. injection E5 as <-.
    destruct EN as [(I & _)|(_ & IM & _)].
    + cbn in I. repeat (destruct I as [I|I]; [discriminate|]). contradiction.
    + unfold defined_at. rewrite EV. cbn in IM. destruct IM as [<-|[<-|[<-|[<-|[<-|[]]]]]]; eauto.
Qed.
