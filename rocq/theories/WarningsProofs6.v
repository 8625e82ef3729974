(** Proofs about the warnings: where they are missing, the options of the plots, examples. *)
From Coq Require Import Reals Lra Lia Psatz List String ZArith.
From Verif Require Import Base BaseFacts AnalysisFacts UnitsModel AtmosModel AtmosSpec ConceptModel ConceptProofs MethodsModel MethodsSpec
  MethodsProofs MethodsProofs2 MethodsProofs3 MethodsProofs4 MethodsExamples ConstraintSpec ConstraintProofs ConstraintProofs5 ConstraintProofs6
  SensitivityModel SensitivityPlotModel CubicModel CubicProofs4 WarningsModel WarningsSpec WarningsProofs WarningsProofs2 WarningsProofs3
  WarningsProofs4 WarningsProofs5.
Import ListNotations.
Open Scope R_scope.

Lemma outcomes ext c :
  (forall mo, snd (oswaldspaneff4_w c mo) = Ok (oswaldspaneff4 c (match mo with Some m => m | None => Fin 0.3 end))) /\
  (forall sel mo, snd (induceddragfact_w c sel mo) = induceddragfact c sel mo) /\
  (forall mo, snd (liftslope_prad_w ext c mo) = liftslope_prad ext c (match mo with Some m => m | None => Fin 0.3 end)) /\
  (forall v mo, rmap (fun r => map (fun w => snd r w None) (fst r)) (snd (induceddragfact_lesm_w ext c v false mo))
                = induceddragfact_lesm ext c v mo) /\
  (forall v h, snd (propulsion_slcorr_w ext c v h) = propulsion_slcorr ext c v h) /\
  (forall v b, snd (twrequired_clm_w ext c v b) = twrequired_clm ext c v b) /\
  (forall v b, snd (twrequired_crs_w ext c v b) = twrequired_crs ext c v b) /\
  (forall v b, snd (twrequired_sec_w ext c v b) = twrequired_sec ext c v b) /\
  (forall v b, snd (twrequired_to_w ext c v b) = twrequired_to ext c v b) /\
  (forall v b, snd (twrequired_trn_w ext c v b) = twrequired_trn ext c v b) /\
  (forall v fo b, snd (twrequired_w ext c v fo b) = twrequired ext c v fo b) /\
  (forall n v m fo b, snd (powerrequired_w ext c n v m fo b) = powerrequired ext c v m fo b).
Proof.
  repeat split; intros.
  - apply outcome_eff4. - apply outcome_factor. - apply outcome_slope. - apply outcome_lesm_method.
  - apply outcome_slcorr. - apply outcome_clm. - apply outcome_crs. - apply outcome_sec. - apply outcome_to.
  - apply outcome_trn. - apply outcome_tw. - apply outcome_power.
Qed.

Lemma slope_warnings ext c mo : fst (liftslope_prad_w ext c mo) = if_left_out WMach mo.
Proof.
  unfold liftslope_prad_w. rewrite (fst_lbind _ _ _ (outcome_default _ _ _)). cbn [quiet fst].
  rewrite app_nil_r. destruct mo; reflexivity.
Qed.

Lemma complete_tw c w a0 b v fo :
  has_wing c w -> usual w -> half_ok w -> a_0i c = Some (Fin a0) -> 0 < a0 -> engine_ok c -> brief_complete c ->
  exists ws, warnings_for c 1 ws /\
  fst (twrequired_w interpolators c v fo b) = times ((if b then List.length (elements v) else 0) + 4) ws.
Proof.
  intros HW U HH A A0 HE HB. destruct (constraints_evaluate c w a0 b HW (proj1 U) HH A A0 HE HB v (Fin 1) fo) as ((r & R) & _).
  rewrite <- outcome_tw in R. exact (tw_all _ _ _ _ _ _ _ HW U R).
Qed.
Lemma complete_power c w a0 n b v m fo eta :
  has_wing c w -> usual w -> half_ok w -> a_0i c = Some (Fin a0) -> 0 < a0 -> engine_ok c -> brief_complete c ->
  etaprop_turn c = Some (Fin eta) -> eta <> 0 ->
  exists ws wn t turns, warnings_for c 1 ws /\ warnings_for c (List.length (elements v)) wn /\
    twrequired interpolators c v fo false = Ok t /\
    (no_feasible_turn t -> turns = [WTurns]) /\ (~ no_feasible_turn t -> turns = []) /\
    fst (powerrequired_w interpolators c n v m fo b)
    = ((if Nat.ltb 0 n then [WEtas n] else []) ++ times 4 ws ++ (if b then wn else []) ++ turns
       ++ (if b then times 4 ws else []))%list.
Proof.
  intros HW U HH A A0 HE HB E E0. pose proof HB as (_ & _ & _ & (vt & nt & HT & _) & _).
  destruct (constraints_evaluate c w a0 b HW (proj1 U) HH A A0 HE HB v m fo) as (_ & (r & R)).
  rewrite <- (outcome_power _ _ n) in R. exact (power_warnings _ _ w HW U n v m fo b r eta vt E E0 HT R).
Qed.

(* -------------------------------------------- where warnings are missing *)
Lemma lbind_in {A B} x (m : logged A) (f : A -> logged B) : In x (fst (lbind m f)) ->
  In x (fst m) \/ exists y, snd m = Ok y /\ In x (fst (f y)).
Proof.
  intros J. unfold lbind in J. destruct (snd m) as [y|e]; cbn [fst] in J; [|auto].
  apply in_app_or in J. destruct J; [auto|]. right. eauto.
Qed.
Lemma slcorr_after ext c v h x : In x (fst (propulsion_slcorr_w ext c v h)) ->
  In x (fst (sl_propulsion_w c)) \/ x = WIdentifier.
Proof.
  intros I. unfold propulsion_slcorr_w in I.
  apply lbind_in in I. destruct I as [I|(p & _ & I)]; [auto|]. right.
  apply lbind_in in I. destruct I as [[]|(mv & _ & I)]. cbv zeta in I.
  apply lbind_in in I. destruct I as [I|(k & K & I)].
  - destruct p as [|s|f|l g f| |f|]; try (exfalso; exact I).
    + do 5 (apply lbind_in in I; destruct I as [[]|(? & _ & I)]).
      apply lbind_in in I. destruct I as [I|(? & _ & [])].
      revert I. generalize (recastasnpfloatarray mv). induction l as [|y l IH]; [intros []|].
      cbn [lmapM]. intros I. apply lbind_in in I. destruct I as [I|(? & _ & I)].
      * rewrite generic_tcorr_warnings in I. destruct (_ || _)%bool; [contradiction|]. destruct I as [<-|[]]; auto.
      * apply lbind_in in I. destruct I as [I|(? & _ & [])]. apply IH, I.
    + apply lbind_in in I. destruct I as [[]|(? & _ & [])].
  - assert (KS : exists a b, k = (Some a, Some b)).
    { destruct p as [|s|f|l g f| |f|]; try (injection K as <-; eexists; eexists; reflexivity).
      - do 6 (apply lbind_ok in K; destruct K as (? & ? & K & _)). injection K as <-. eexists; eexists; reflexivity.
      - apply lbind_ok in K. destruct K as (? & ? & K & _). injection K as <-. eexists; eexists; reflexivity. }
    destruct KS as (a & b & ->). cbn in I. contradiction.
Qed.
Lemma slprop_only c x : In x (fst (sl_propulsion_w c)) -> x = WPropulsion \/ x = WDeprecated.
Proof.
  unfold sl_propulsion_w. intros I. destruct (propulsion c); try (exfalso; exact I).
  apply lbind_in in I. destruct I as [[<-|[]]|(y & _ & I)]; [auto|]. cbv zeta in I.
  repeat match type of I with In _ (fst (if ?b then _ else _)) => destruct b; try (exfalso; exact I) end.
  cbn in I. destruct I as [<-|[]]; auto.
Qed.
Lemma slcorr_never ext c v h x : In x (fst (propulsion_slcorr_w ext c v h)) ->
  x = WPropulsion \/ x = WDeprecated \/ x = WIdentifier.
Proof. intros I. apply slcorr_after in I. destruct I as [I| ->]; [|auto]. apply slprop_only in I. tauto. Qed.

Lemma no_engine_silent ext c v h r : propulsion c = PropOther ->
  propulsion_slcorr ext c v h = Ok r ->
  fst (propulsion_slcorr_w ext c v h) = [] /\
  r = (VArr (repeat (Fin 1) (List.length (elements v))), VArr (repeat (Fin 1) (List.length (elements v)))).
Proof.
  intros HP H. rewrite <- (outcome_slcorr ext c v h) in H. split.
  - apply slcorr_warnings in H. inversion H; try congruence.
  - rewrite outcome_slcorr in H. unfold propulsion_slcorr, sl_propulsion in H. rewrite HP in H. cbn [rbind] in H.
    apply rbind_ok in H. destruct H as (mv & M & H). apply mach_length in M. cbv zeta in H.
    replace (recastasnpfloatarray mv) with (elements mv) in H by (destruct mv; reflexivity).
    injection H as <-. rewrite <- M. replace (map (fun _ => #1) (elements mv)) with (repeat (Fin 1) (List.length (elements mv))); [reflexivity|].
    clear M. induction (elements mv) as [|x l IH]; [reflexivity|]. cbn. f_equal. exact IH.
Qed.

Lemma deprecated_iff ext c v h b : propulsion c = PropFalse -> pval (bpr c) = Fin b ->
  (In WDeprecated (fst (propulsion_slcorr_w ext c v h)) <-> -3 < b < 0 /\ b <> -1 /\ b <> -2) /\
  (forall r, -3 < b < 0 -> b <> -1 -> b <> -2 -> propulsion_slcorr ext c v h = Ok r ->
   r = (VArr (repeat (Fin 1) (List.length (elements v))), VArr (repeat (Fin 1) (List.length (elements v))))).
Proof.
  intros HP HB. split.
  - assert (P : In WDeprecated (fst (sl_propulsion_w c)) <-> -3 < b < 0 /\ b <> -1 /\ b <> -2).
    { unfold sl_propulsion_w. rewrite HP, HB, (fst_lbind _ _ tt) by reflexivity. cbn [warn fst app]. cbv zeta.
      rewrite !nleb_fin, ?nltb_fin. cbn [neqb].
      destruct (Rleb_reflect 0 b); [cbn; split; [intros [E|[]]; discriminate|lra]|].
      destruct (Reqb_reflect b (-1)); [cbn; split; [intros [E|[]]; discriminate|lra]|].
      destruct (Reqb_reflect b (-2)); [cbn; split; [intros [E|[]]; discriminate|lra]|].
      destruct (Reqb_reflect b (-3)); [cbn; split; [intros [E|[]]; discriminate|lra]|].
      destruct (Rleb_reflect (-3) b); [|cbn; split; [intros [E|[]]; discriminate|lra]].
      destruct (Rltb_reflect b 0); [|cbn; split; [intros [E|[]]; discriminate|lra]].
      cbn. split; [intros _; repeat split; lra|auto]. }
    rewrite <- P. split.
    + intros I. apply slcorr_after in I. destruct I as [I|I]; [exact I|discriminate].
    + intros I. unfold propulsion_slcorr_w, lbind at 1. destruct (snd (sl_propulsion_w c)); cbn [fst]; [|exact I].
      apply in_or_app. left. exact I.
  - intros r L N1 N2 H. unfold propulsion_slcorr, sl_propulsion in H. rewrite HP, HB in H.
    rewrite !nleb_fin, ?nltb_fin in H. cbn [neqb] in H.
    destruct (Rleb_reflect 0 b); [lra|]. destruct (Reqb_reflect b (-1)); [lra|]. destruct (Reqb_reflect b (-2)); [lra|].
    destruct (Reqb_reflect b (-3)); [lra|]. destruct (Rleb_reflect (-3) b); [|lra]. destruct (Rltb_reflect b 0); [|lra].
    cbn [andb rbind] in H.
    apply rbind_ok in H. destruct H as (mv & M & H). apply mach_length in M. cbv zeta in H.
    replace (recastasnpfloatarray mv) with (elements mv) in H by (destruct mv; reflexivity).
    injection H as <-. rewrite <- M. replace (map (fun _ => #1) (elements mv)) with (repeat (Fin 1) (List.length (elements mv))); [reflexivity|].
    clear M. induction (elements mv) as [|x l IH]; [reflexivity|]. cbn. f_equal. exact IH.
Qed.

(** a wing swept forward by 80 degrees *)
Definition forward_wing : wing := example_wing (-80) (-80).
Lemma forward_warns m : regular forward_wing /\ if_too_small forward_wing m = [WBounds].
Proof.
  split; [unfold regular, forward_wing; cbn; lra|].
  unfold if_too_small. destruct (Rlt_dec _ _) as [L|L]; [reflexivity|]. exfalso. apply L. clear L.
  unfold nita_raw, forward_wing, example_wing. cbn [w_taper w_25 w_ar].
  replace (-0.0375 * -80) with 3 by lra.
  assert (E : 16.5 <= exp 3).
  { assert (H : 1.125 <= exp 0.125) by (pose proof (exp_ineq1 0.125 ltac:(lra)); lra).
    assert (H2 : 1.265 <= exp 0.25).
    { replace 0.25 with (0.125 + 0.125) by lra. rewrite exp_plus. nra. }
    assert (H3 : 1.6 <= exp 0.5).
    { replace 0.5 with (0.25 + 0.25) by lra. rewrite exp_plus. nra. }
    assert (H4 : 2.56 <= exp 1).
    { replace 1 with (0.5 + 0.5) by lra. rewrite exp_plus. nra. }
    replace 3 with (1 + (1 + 1)) by lra. rewrite !exp_plus. set (e := exp 1) in *.
    assert (6.55 <= e * e) by nra. nra. }
  set (t := 0.4 + 0.357 - 0.45 * exp 3). assert (T : t <= -6.66) by (unfold t; lra).
  assert (HH : 150 <= hoerner t).
  { unfold hoerner. assert (44.3 <= t ^ 2) by nra. assert (t ^ 3 <= -295) by nra. assert (1962 <= t ^ 4) by nra. lra. }
  assert (C : compress m <= 1) by apply compress_le.
  apply Rmult_lt_reg_r with (1 + hoerner t * 8); [lra|].
  unfold Rdiv. rewrite Rmult_assoc, Rinv_l by lra. nra.
Qed.
Lemma forward_blames_mach c : has_wing c forward_wing ->
  fst (oswaldspaneff4_w c (Some (Fin 0))) = [WBounds] /\ fst (oswaldspaneff4_w c None) = [WMach; WBounds].
Proof.
  intros HW. split.
  - rewrite (eff4_warnings c forward_wing HW _ 0) by (try (left; reflexivity); cbn; lra). apply (forward_warns 0).
  - rewrite (eff4_warnings c forward_wing HW _ 0.3) by (try (right; split; reflexivity); cbn; lra).
    rewrite (proj2 (forward_warns 0.3)). reflexivity.
Qed.

(* ------------------------------------------------------------- options *)
Lemma options_y y l x d sh t f : let '(ws, o) := monothetic_options y l x d sh t f in
  (po_y o = Yhp <-> y = Some "p_hp"%string) /\ (In WYvar ws <-> ~ supported_y y).
Proof.
  unfold monothetic_options, supported_y. cbn [fst snd po_y].
  assert (N : forall l x f, ~ In WYvar (fst (y_lim_used l) ++ fst (x_var_used x) ++ fst (figsize_in_used f))).
  { intros l' x' f' I. apply in_app_or in I. destruct I as [I|I].
    - destruct l' as [| |[]]; cbn in I; try contradiction. destruct I as [I|[]]; discriminate.
    - apply in_app_or in I. destruct I as [I|I].
      + unfold x_var_used in I. destruct x' as [s|].
        * destruct (String.eqb _ _); [contradiction|]. destruct (String.eqb _ _); [contradiction|].
          destruct I as [I|[]]; discriminate.
        * destruct I as [I|[]]; discriminate.
      + destruct f'; cbn in I; try contradiction. destruct (Nat.eqb _ _); [contradiction|]. destruct I as [I|[]]; discriminate. }
  specialize (N l x f). unfold y_var_used. destruct y as [s|].
  - destruct (String.eqb_spec s "tw") as [->|N1]; [|destruct (String.eqb_spec s "p_hp") as [->|N2]]; cbn [fst snd app].
    + split; [split; discriminate|]. tauto.
    + split; [split; reflexivity|]. tauto.
    + split; [split; [discriminate|intros E; congruence]|]. split; [|intros _; left; reflexivity].
      intros _ [E|E]; congruence.
  - cbn [fst snd app]. split; [split; discriminate|]. split; [|intros _; left; reflexivity]. intros _ [E|E]; discriminate.
Qed.
Lemma options_x y l x d sh t f : let '(ws, o) := monothetic_options y l x d sh t f in
  (po_x o = Xarea <-> x = Some "s_m2"%string) /\ (In WXvar ws <-> ~ supported_x x).
Proof.
  unfold monothetic_options, supported_x. cbn [fst snd po_x].
  assert (N1 : ~ In WXvar (fst (y_var_used y))).
  { unfold y_var_used. destruct y as [s|]; [destruct (String.eqb _ _); [intros []|destruct (String.eqb _ _); [intros []|]]|];
      intros [E|[]]; discriminate. }
  assert (N2 : ~ In WXvar (fst (y_lim_used l))).
  { destruct l as [| |[]]; cbn; try tauto. intros [E|[]]; discriminate. }
  assert (N3 : ~ In WXvar (fst (figsize_in_used f))).
  { destruct f; cbn; try tauto. destruct (Nat.eqb _ _); [intros []|]. intros [E|[]]; discriminate. }
  assert (E : In WXvar (fst (y_var_used y) ++ fst (y_lim_used l) ++ fst (x_var_used x) ++ fst (figsize_in_used f))
              <-> In WXvar (fst (x_var_used x))) by (rewrite !in_app_iff; tauto).
  rewrite E. clear. unfold x_var_used. destruct x as [s|].
  - destruct (String.eqb_spec s "ws_pa") as [->|N1]; [|destruct (String.eqb_spec s "s_m2") as [->|N2]]; cbn [fst snd In].
    + split; [split; discriminate|]. tauto.
    + split; [split; reflexivity|]. tauto.
    + split; [split; [discriminate|intros E; congruence]|]. split; [|intros _; left; reflexivity].
      intros _ [E|E]; congruence.
  - cbn [fst snd In]. split; [split; discriminate|]. split; [|intros _; left; reflexivity]. intros _ [E|E]; discriminate.
Qed.
Lemma options_lim y l x d sh t f : let '(ws, o) := monothetic_options y l x d sh t f in
  (In WYlim ws -> ~ supported_lim l /\ po_ylim o = LimNone) /\
  (~ In WYlim ws -> po_ylim o = l) /\
  (l <> LimOther false -> ~ supported_lim l -> In WYlim ws).
Proof.
  unfold monothetic_options, supported_lim. cbn [fst snd po_ylim].
  assert (N1 : ~ In WYlim (fst (y_var_used y))).
  { unfold y_var_used. destruct y as [s|]; [destruct (String.eqb _ _); [intros []|destruct (String.eqb _ _); [intros []|]]|];
      intros [E|[]]; discriminate. }
  assert (N2 : ~ In WYlim (fst (x_var_used x))).
  { unfold x_var_used. destruct x as [s|]; [destruct (String.eqb _ _); [intros []|destruct (String.eqb _ _); [intros []|]]|];
      intros [E|[]]; discriminate. }
  assert (N3 : ~ In WYlim (fst (figsize_in_used f))).
  { destruct f; cbn; try tauto. destruct (Nat.eqb _ _); [intros []|]. intros [E|[]]; discriminate. }
  assert (E : In WYlim (fst (y_var_used y) ++ fst (y_lim_used l) ++ fst (x_var_used x) ++ fst (figsize_in_used f))
              <-> In WYlim (fst (y_lim_used l))) by (rewrite !in_app_iff; tauto).
  rewrite E. clear. destruct l as [|z|[]]; cbn [y_lim_used fst snd In].
  - split; [intros []|]. split; [reflexivity|]. intros _ N; exfalso; apply N; auto.
  - split; [intros []|]. split; [reflexivity|]. intros _ N; exfalso; apply N; eauto.
  - split; [intros _; split; [intros [A|(z & A)]; discriminate|reflexivity]|]. split; [intros N; exfalso; auto|]. auto.
  - split; [intros []|]. split; [reflexivity|]. intros N; exfalso; auto.
Qed.
Lemma options_fig y l x d sh t f : let '(ws, o) := monothetic_options y l x d sh t f in
  (forall n, In (WFigure n) ws <-> exists k, f = FigList k /\ List.length k = n /\ n <> 2%nat) /\
  (f = FigNone \/ (exists n, In (WFigure n) ws) -> po_figsize o = FigList [Fin 14.1; Fin 10]) /\
  (f <> FigNone -> (forall n, ~ In (WFigure n) ws) -> po_figsize o = f).
Proof.
  unfold monothetic_options. cbn [fst snd po_figsize].
  assert (E : forall n, In (WFigure n) (fst (y_var_used y) ++ fst (y_lim_used l) ++ fst (x_var_used x) ++ fst (figsize_in_used f))
              <-> In (WFigure n) (fst (figsize_in_used f))).
  { intros n.
    assert (N1 : ~ In (WFigure n) (fst (y_var_used y))).
    { unfold y_var_used. destruct y as [s|]; [destruct (String.eqb _ _); [intros []|destruct (String.eqb _ _); [intros []|]]|];
        intros [E|[]]; discriminate. }
    assert (N2 : ~ In (WFigure n) (fst (x_var_used x))).
    { unfold x_var_used. destruct x as [s|]; [destruct (String.eqb _ _); [intros []|destruct (String.eqb _ _); [intros []|]]|];
        intros [E|[]]; discriminate. }
    assert (N3 : ~ In (WFigure n) (fst (y_lim_used l))).
    { destruct l as [| |[]]; cbn; try tauto. intros [E|[]]; discriminate. }
    rewrite !in_app_iff; tauto. }
  split; [|split].
  - intros n. rewrite E. destruct f as [|k|k|]; cbn [figsize_in_used fst].
    + split; [intros []|intros (k & K & _); discriminate].
    + destruct (Nat.eqb_spec (List.length k) 2) as [Q|Q]; cbn [fst In].
      * split; [intros []|]. intros (k' & K & L & N). injection K as <-. congruence.
      * split.
        -- intros [K|[]]. injection K as <-. eauto.
        -- intros (k' & K & L & N). injection K as <-. left. congruence.
    + split; [intros []|intros (k' & K & _); discriminate].
    + split; [intros []|intros (k' & K & _); discriminate].
  - intros [-> | (n & I)]; [reflexivity|]. apply E in I. destruct f as [|k|k|]; try contradiction.
    cbn [figsize_in_used] in *. destruct (Nat.eqb _ _); [contradiction|reflexivity].
  - intros NF N. destruct f as [|k|k|]; [contradiction| |reflexivity|reflexivity].
    cbn [figsize_in_used]. destruct (Nat.eqb (List.length k) 2) eqn:Q; [reflexivity|].
    exfalso. apply (N (List.length k)), E. cbn [figsize_in_used]. rewrite Q. left; reflexivity.
Qed.
Lemma options_text y l x d sh t f : let '(ws, o) := monothetic_options y l x d sh t f in
  po_textsize o = (match t with Some s => s | None => if match sh with ShowAll => true | _ => false end then Fin 10 else Fin 14 end) /\
  (forall s, po_textsize o = Fin s -> 0 < s -> exists title label legend tick,
     fontsizes o = (Fin title, Fin label, Fin legend, Fin tick) /\ 0 < tick < legend /\ legend = s /\ legend < label < title).
Proof.
  unfold monothetic_options. cbn [po_textsize]. split; [destruct t, sh; reflexivity|].
  intros s E P. unfold fontsizes. cbn [po_textsize]. rewrite E. do 4 eexists. split; [reflexivity|].
  repeat split; lra.
Qed.
(** the outcome with options that are not supported is that with the defaults *)
Lemma options_default ext self v y l x d sh mb t f :
  (~ supported_y y -> snd (monothetic_with_options ext self v y l x d sh mb t f)
                      = snd (monothetic_with_options ext self v (Some "tw"%string) l x d sh mb t f)) /\
  (~ supported_x x -> snd (monothetic_with_options ext self v y l x d sh mb t f)
                      = snd (monothetic_with_options ext self v y l (Some "ws_pa"%string) d sh mb t f)) /\
  snd (monothetic_with_options ext self v y (LimOther true) x d sh mb t f)
  = snd (monothetic_with_options ext self v y LimNone x d sh mb t f) /\
  snd (monothetic_with_options ext self v y l x None sh mb t f)
  = snd (monothetic_with_options ext self v y l x (Some []) sh mb t f).
Proof.
  unfold monothetic_with_options, monothetic_options. cbn [fst snd po_y po_ylim po_x po_labels].
  split; [|split; [|split; reflexivity]].
  - intros N. assert (E : snd (y_var_used y) = Ytw); [|rewrite E; reflexivity].
    unfold y_var_used, supported_y in *. destruct y as [s|]; [|reflexivity].
    destruct (String.eqb_spec s "tw"); [reflexivity|]. destruct (String.eqb_spec s "p_hp"); [|reflexivity]. subst. tauto.
  - intros N. assert (E : snd (x_var_used x) = Xws); [|rewrite E; reflexivity].
    unfold x_var_used, supported_x in *. destruct x as [s|]; [|reflexivity].
    destruct (String.eqb_spec s "ws_pa"); [reflexivity|]. destruct (String.eqb_spec s "s_m2"); [|reflexivity]. subst. tauto.
Qed.
Lemma options_as_given ext self v y lim x d sh mb t f :
  snd (monothetic_with_options ext self v (Some (match y with Ytw => "tw" | Yhp => "p_hp" end)%string)
         (match lim with Some z => LimNum z | None => LimNone end)
         (Some (match x with Xws => "ws_pa" | Xarea => "s_m2" end)%string) (Some d) sh mb t f)
  = propulsionsensitivity_monothetic ext self v y lim x d sh mb.
Proof. destruct y, lim, x; reflexivity. Qed.
(** an empty list, False or '' as limit, and a tuple of any length as figure size *)
Lemma options_silent y x d sh t k :
  ~ supported_lim (LimOther false) /\ po_ylim (snd (monothetic_options y (LimOther false) x d sh t FigNone)) = LimOther false /\
  ~ In WYlim (fst (monothetic_options y (LimOther false) x d sh t FigNone)) /\
  po_figsize (snd (monothetic_options y LimNone x d sh t (FigTuple k))) = FigTuple k /\
  forall n, ~ In (WFigure n) (fst (monothetic_options y LimNone x d sh t (FigTuple k))).
Proof.
  split; [intros [E|(z & E)]; discriminate|]. split; [reflexivity|].
  split.
  - pose proof (options_lim y (LimOther false) x d sh t FigNone) as O.
    destruct (monothetic_options y (LimOther false) x d sh t FigNone) as [ws o] eqn:EO. cbn [fst].
    intros I. apply O in I. destruct I as (_ & I). assert (po_ylim o = LimOther false); [|congruence].
    unfold monothetic_options in EO. injection EO as _ <-. reflexivity.
  - split; [reflexivity|]. intros n I.
    pose proof (options_fig y LimNone x d sh t (FigTuple k)) as O.
    destruct (monothetic_options y LimNone x d sh t (FigTuple k)) as [ws o]. cbn [fst] in I.
    apply O in I. destruct I as (k' & K & _). discriminate.
Qed.

(** the example with other engines *)
Definition engine_example (byp : R) (p : propulsion_t) : concept := example_aircraft 20 18 byp p (isa 0).
Lemma warnings_examples :
  (has_wing (example_jet 20 18) (example_wing 20 18) /\ usual (example_wing 20 18) /\ half_ok (example_wing 20 18) /\
   a_0i (example_jet 20 18) = Some (Fin 6.28) /\ engine_ok (example_jet 20 18) /\ brief_complete (example_jet 20 18) /\
   etaprop_turn (example_jet 20 18) = Some (Fin 0.85) /\
   weight_n (example_jet 20 18) <> None /\ wingarea_m2 (example_jet 20 18) <> None) /\
  methods_named 4 [4%N] /\
  has_wing (example_jet (-80) (-80)) forward_wing /\
  warnings_for (engine_example 4 PropFalse) 3 [WPropulsion] /\
  warnings_for (engine_example (-1.5) PropFalse) 3 [WPropulsion; WDeprecated] /\
  warnings_for (engine_example 4 (PropStr "jet")) 3 [] /\
  warnings_for (engine_example 4 (PropStr "rocket")) 3 [WIdentifier; WIdentifier; WIdentifier] /\
  warnings_for (engine_example 4 PropOther) 3 [].
Proof.
  destruct cubic_examples as (_ & _ & _ & (A & B & C & D) & E & F).
  split; [repeat match goal with |- _ /\ _ => split | |- has_wing _ _ => exact A | |- half_ok _ => exact C | |- engine_ok _ => exact E | |- brief_complete _ => exact F end;
    try reflexivity; try discriminate; split; [exact B|]; cbn; lra|].
  split; [apply named_one; lia|]. split; [repeat split|].
  split; [apply For_bypass_ratio with 4; try reflexivity; left; lra|].
  split; [apply For_deprecated with (-1.5); try reflexivity; [lra|unfold stands_for_a_system; lra]|].
  split; [apply For_generic with "jet"%string; [reflexivity|unfold generic; auto]|].
  split.
  - apply (For_unknown _ 3 "rocket"%string); [reflexivity|]. intros [G|[G|[G|G]]]; discriminate.
  - apply For_deck; [discriminate|intros s; discriminate].
Qed.
Lemma never_missing ext c v h :
  ~ In WThrustMap (fst (propulsion_slcorr_w ext c v h)) /\ ~ In WPowerMap (fst (propulsion_slcorr_w ext c v h)) /\
  (forall r, propulsion c = PropOther -> propulsion_slcorr ext c v h = Ok r ->
   fst (propulsion_slcorr_w ext c v h) = [] /\
   r = (VArr (repeat (Fin 1) (List.length (elements v))), VArr (repeat (Fin 1) (List.length (elements v))))).
Proof.
  split; [|split].
  - intros I. apply slcorr_never in I. destruct I as [I|[I|I]]; discriminate.
  - intros I. apply slcorr_never in I. destruct I as [I|[I|I]]; discriminate.
  - intros r P H. exact (no_engine_silent ext c v h r P H).
Qed.
Lemma options_axes y l x d sh t f : let '(ws, o) := monothetic_options y l x d sh t f in
  ((po_y o = Yhp <-> y = Some "p_hp"%string) /\ (In WYvar ws <-> ~ supported_y y)) /\
  ((po_x o = Xarea <-> x = Some "s_m2"%string) /\ (In WXvar ws <-> ~ supported_x x)).
Proof. exact (conj (options_y y l x d sh t f) (options_x y l x d sh t f)). Qed.
Lemma options_once y l x d sh t f : let '(ws, o) := monothetic_options y l x d sh t f in
  NoDup ws /\ (forall w, In w ws -> w = WYvar \/ w = WYlim \/ w = WXvar \/ exists n, w = WFigure n) /\
  (forall n n', In (WFigure n) ws -> In (WFigure n') ws -> n = n').
Proof.
  pose proof (options_fig y l x d sh t f) as OF.
  assert (Y : fst (y_var_used y) = [] \/ fst (y_var_used y) = [WYvar]).
  { unfold y_var_used. destruct y as [s|]; [|auto]. destruct (String.eqb _ _); [auto|]. destruct (String.eqb _ _); auto. }
  assert (L : fst (y_lim_used l) = [] \/ fst (y_lim_used l) = [WYlim]) by (destruct l as [| |[]]; auto).
  assert (X : fst (x_var_used x) = [] \/ fst (x_var_used x) = [WXvar]).
  { unfold x_var_used. destruct x as [s|]; [|auto]. destruct (String.eqb _ _); [auto|]. destruct (String.eqb _ _); auto. }
  assert (F : fst (figsize_in_used f) = [] \/ exists n, fst (figsize_in_used f) = [WFigure n]).
  { unfold figsize_in_used. destruct f; auto. destruct (Nat.eqb _ _); [auto|]. right. eexists; reflexivity. }
  unfold monothetic_options in *. cbv zeta in *.
  split; [|split].
  - destruct Y as [-> | ->], L as [-> | ->], X as [-> | ->], F as [-> | (n & ->)]; cbn [app];
      repeat constructor; cbn; intuition discriminate.
  - intros w. destruct Y as [-> | ->], L as [-> | ->], X as [-> | ->], F as [-> | (n & ->)]; cbn [app In];
      intuition (subst; eauto).
  - intros n n' A B. apply OF in A. apply OF in B. destruct A as (k & K & A & _), B as (k' & K' & B & _). congruence.
Qed.
Lemma options_labels y l x d sh t f : let '(ws, o) := monothetic_options y l x d sh t f in
  y_labelling (po_y o) = (if match y with Some s => String.eqb s "p_hp" | None => false end
                          then "Power required [hp]" else "Thrust to weight ratio [-]")%string /\
  x_labelling (po_x o) = (if match x with Some s => String.eqb s "s_m2" | None => false end
                          then "Wing area [m$^2$]" else "Wing loading [Pa]")%string /\
  (d = None -> po_labels o = []) /\ (forall g, d = Some g -> po_labels o = g).
Proof.
  unfold monothetic_options. cbn [po_y po_x po_labels]. split; [|split; [|split]].
  - unfold y_var_used. destruct y as [s|]; [|reflexivity].
    destruct (String.eqb_spec s "tw") as [->|]; [reflexivity|]. destruct (String.eqb s "p_hp"); reflexivity.
  - unfold x_var_used. destruct x as [s|]; [|reflexivity].
    destruct (String.eqb_spec s "ws_pa") as [->|]; [reflexivity|]. destruct (String.eqb s "s_m2"); reflexivity.
  - intros ->; reflexivity.
  - intros g ->; reflexivity.
Qed.
