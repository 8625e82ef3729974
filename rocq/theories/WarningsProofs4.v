(** Proofs about the warnings: propulsion systems, all constraints together. *)
From Coq Require Import Reals Lra Lia Psatz List String ZArith.
From Verif Require Import Base BaseFacts AnalysisFacts UnitsModel AtmosModel AtmosSpec ConceptModel ConceptProofs MethodsModel MethodsSpec
  MethodsProofs MethodsProofs2 MethodsProofs3 MethodsProofs4 ConstraintSpec ConstraintProofs ConstraintProofs5 ConstraintProofs6
  SensitivityModel SensitivityPlotModel WarningsModel WarningsSpec WarningsProofs WarningsProofs2 WarningsProofs3.
Import ListNotations.
Open Scope R_scope.

Lemma warnings_for_fun c n a b : warnings_for c n a -> warnings_for c n b -> a = b.
Proof.
  intros H1 H2. inversion H1; inversion H2; subst; try congruence; try (exfalso; congruence).
Qed.

Lemma generic_dec s : generic s \/ ~ generic s.
Proof.
  unfold generic. destruct (string_dec s "turboprop"), (string_dec s "piston"), (string_dec s "electric"), (string_dec s "jet"); tauto.
Qed.
Lemma generic_bool s : generic s <-> (String.eqb s "turboprop" || String.eqb s "piston" || String.eqb s "electric" || String.eqb s "jet" = true)%bool.
Proof. unfold generic. rewrite !Bool.orb_true_iff, !String.eqb_eq. tauto. Qed.

Lemma generic_tcorr_warnings ext c s t p d m :
  fst (generic_tcorr_w ext c s t p d m)
  = if (String.eqb s "turboprop" || String.eqb s "piston" || String.eqb s "electric" || String.eqb s "jet")%bool
    then [] else [WIdentifier].
Proof.
  unfold generic_tcorr_w. cbv zeta.
  destruct (String.eqb s "turboprop"); [reflexivity|]. destruct (String.eqb s "piston"); [reflexivity|].
  destruct (String.eqb s "electric"); [reflexivity|]. destruct (String.eqb s "jet"); [|reflexivity].
  cbn [orb]. destruct (neqb _ _); [reflexivity|]. destruct (_ && _)%bool; [reflexivity|]. destruct (_ <=? _)%num; reflexivity.
Qed.
Lemma times_nil n : times n [] = [].
Proof. unfold times. induction n; [reflexivity|]. exact IHn. Qed.
Lemma times_one n x : times n [x] = repeat x n.
Proof. unfold times. induction n as [|n IH]; [reflexivity|]. cbn. f_equal. exact IH. Qed.
Lemma times_add a b ws : times (a + b) ws = (times a ws ++ times b ws)%list.
Proof. unfold times. rewrite repeat_app, concat_app. reflexivity. Qed.
Lemma times_S a ws : times (S a) ws = (ws ++ times a ws)%list. Proof. reflexivity. Qed.

Lemma sl_propulsion_warnings c p : snd (sl_propulsion_w c) = Ok p ->
  (propulsion c = PropFalse /\ exists b, pval (bpr c) = Fin b /\
     ((stands_for_a_system b /\ fst (sl_propulsion_w c) = [WPropulsion] /\ exists s, p = PropStr s /\ generic s) \/
      (-3 < b < 0 /\ ~ stands_for_a_system b /\ fst (sl_propulsion_w c) = [WPropulsion; WDeprecated] /\ p = PropFalse))) \/
  (propulsion c <> PropFalse /\ p = propulsion c /\ fst (sl_propulsion_w c) = []).
Proof.
  unfold sl_propulsion_w. destruct (propulsion c) eqn:E; intros H;
    try (right; split; [discriminate|]; injection H as <-; split; reflexivity).
  left. split; [reflexivity|]. rewrite snd_lbind in H. cbn [warn snd rbind] in H. cbv zeta in H |- *.
  rewrite (fst_lbind _ _ tt) by reflexivity. cbn [warn fst].
  destruct (pval (bpr c)) as [b|]; [|discriminate]. exists b. split; [reflexivity|].
  unfold stands_for_a_system, generic in *.
  rewrite !nleb_fin, ?nltb_fin in *. cbn [neqb] in *.
  destruct (Rleb_reflect 0 b) as [L|L]; [left; injection H as <-; split; [auto|split; [reflexivity|eexists; split; [reflexivity|tauto]]]|].
  destruct (Reqb_reflect b (-1)) as [E1|E1]; [left; injection H as <-; split; [auto|split; [reflexivity|eexists; split; [reflexivity|tauto]]]|].
  destruct (Reqb_reflect b (-2)) as [E2|E2]; [left; injection H as <-; split; [auto|split; [reflexivity|eexists; split; [reflexivity|tauto]]]|].
  destruct (Reqb_reflect b (-3)) as [E3|E3]; [left; injection H as <-; split; [auto|split; [reflexivity|eexists; split; [reflexivity|tauto]]]|].
  right. destruct (Rleb_reflect (-3) b) as [L1|L1]; cbn [andb] in *; [|discriminate].
  destruct (Rltb_reflect b 0) as [L2|L2]; [|discriminate].
  split; [lra|]. split; [lra|]. split; [reflexivity|]. injection H as <-. reflexivity.
Qed.

Lemma slcorr_warnings ext c v h r : snd (propulsion_slcorr_w ext c v h) = Ok r ->
  warnings_for c (List.length (elements v)) (fst (propulsion_slcorr_w ext c v h)).
Proof.
  intros H. unfold propulsion_slcorr_w in *.
  apply lbind_ok in H. destruct H as (p & P & H & ->).
  apply lbind_ok in H. destruct H as (mv & M & H & ->). cbn [quiet fst app]. cbv zeta in *.
  cbn [quiet snd] in M. apply mach_length in M.
  assert (R1 : recastasnpfloatarray mv = elements mv) by (destruct mv; reflexivity). rewrite R1 in *.
  apply lbind_ok in H. destruct H as (corr & C & H & ->).
  apply lbind_ok in H. destruct H as (tc & T & H & ->).
  apply lbind_ok in H. destruct H as (pc & Q & H & ->). cbn [quiet fst].
  set (K := match p with PropFalse => _ | _ => _ end) in *.
  assert (KW : (exists s, p = PropStr s /\ fst K = if (String.eqb s "turboprop" || String.eqb s "piston" || String.eqb s "electric" || String.eqb s "jet")%bool
                 then [] else repeat WIdentifier (List.length (elements v))) \/
               ((forall s, p <> PropStr s) /\ fst K = [])).
  { destruct p as [|s|f|l g f| |f|]; try (right; split; [discriminate|reflexivity]).
    - left. exists s. split; [reflexivity|]. unfold K in C |- *.
      do 5 (apply lbind_ok in C; destruct C as (? & ? & C & ->); cbn [quiet fst app]).
      apply lbind_ok in C. destruct C as (tl & TL & C & ->). cbn [quiet fst]. rewrite app_nil_r.
      rewrite (lmapM_ok _ _ _ _ TL (fun y z _ _ => generic_tcorr_warnings ext c s _ _ _ y)), M.
      destruct (_ || _)%bool; [apply times_nil|apply times_one].
    - right. split; [discriminate|]. unfold K in C |- *.
      apply lbind_ok in C. destruct C as (? & ? & C & ->). reflexivity. }
  assert (KS : exists a b, corr = (Some a, Some b)).
  { destruct p as [|s|f|l g f| |f|]; unfold K in C; try (injection C as <-; eexists; eexists; reflexivity).
    - do 6 (apply lbind_ok in C; destruct C as (? & ? & C & _)). injection C as <-. eexists; eexists; reflexivity.
    - apply lbind_ok in C. destruct C as (? & ? & C & _). injection C as <-. eexists; eexists; reflexivity. }
  destruct KS as (ta & pa & ->). cbn [unassigned_to fst snd quiet app]. rewrite !app_nil_r.
  destruct (sl_propulsion_warnings c p P) as [(F & b & B & [(S & W & s & -> & G) | (L & S & W & ->)]) | (F & -> & W)]; rewrite W.
  - destruct KW as [(s' & E & KW) | (N & _)]; [|exfalso; apply (N s); reflexivity]. injection E as <-.
    apply generic_bool in G. rewrite G in KW. rewrite KW. cbn [app]. apply (For_bypass_ratio c _ b); assumption.
  - destruct KW as [(s' & E & _) | (_ & KW)]; [discriminate|]. rewrite KW. apply (For_deprecated c _ b); assumption.
  - cbn [app]. destruct KW as [(s & E & KW) | (N & KW)]; rewrite KW.
    + destruct (generic_dec s) as [G|G].
      * pose proof G as G'. apply generic_bool in G'. rewrite G'. apply (For_generic c _ s); assumption.
      * destruct (_ || _)%bool eqn:Q1; [exfalso; apply G, generic_bool, Q1|]. apply (For_unknown c _ s); assumption.
    + apply For_deck; assumption.
Qed.

Lemma slcorr_one ext c x h r ws : warnings_for c 1 ws -> snd (propulsion_slcorr_w ext c (VNum x) h) = Ok r ->
  fst (propulsion_slcorr_w ext c (VNum x) h) = ws.
Proof. intros W H. apply slcorr_warnings in H. cbn [elements List.length] in H. exact (warnings_for_fun _ _ _ _ H W). Qed.

Section Methods.
  Variables (ext : externals) (c : concept) (w : wing) (ws : list warning).
  Hypothesis HW : has_wing c w.
  Hypothesis HU : usual w.
  Hypothesis HC : cruisespeed_ktas c <> None.
  Hypothesis HA : cruisealt_m c <> None.
  Hypothesis WF : warnings_for c 1 ws.

  Lemma lesm_silent v m : fst (induceddragfact_lesm_w ext c (Some v) true (Some m)) = [].
  Proof.
    rewrite (lesm_warnings ext c w _ _ _ HW HU) by discriminate. cbn [if_left_out app].
    destruct (cruisespeed_ktas c); [|contradiction]. destruct (cruisealt_m c); [reflexivity|contradiction].
  Qed.
  Ltac step H := apply lbind_ok in H; destruct H as (? & ? & H & ->); cbv zeta in *;
    cbn [quiet fst app];
    try (match goal with
         | K : snd (propulsion_slcorr_w _ _ (VNum _) _) = Ok _ |- _ => rewrite (slcorr_one _ _ _ _ _ _ WF K); clear K
         end);
    try rewrite lesm_silent; cbn [app].

  Lemma clm_warnings v b r : snd (twrequired_clm_w ext c v b) = Ok r -> fst (twrequired_clm_w ext c v b) = ws.
  Proof. unfold twrequired_clm_w. intros H. do 10 step H. cbn [quiet fst]. rewrite ?app_nil_r. reflexivity. Qed.
  Lemma crs_warnings v b r : snd (twrequired_crs_w ext c v b) = Ok r -> fst (twrequired_crs_w ext c v b) = ws.
  Proof. unfold twrequired_crs_w. intros H. do 8 step H. cbn [quiet fst]. rewrite ?app_nil_r. reflexivity. Qed.
  Lemma sec_warnings v b r : snd (twrequired_sec_w ext c v b) = Ok r -> fst (twrequired_sec_w ext c v b) = ws.
  Proof. unfold twrequired_sec_w. intros H. do 10 step H. cbn [quiet fst]. rewrite ?app_nil_r. reflexivity. Qed.
  Lemma turn_warnings l : fst (thrusttoweight_sustainedturn_w ext c l) = [].
  Proof.
    unfold thrusttoweight_sustainedturn_w. cbv zeta. apply lbind_silent; [reflexivity|]. intros m _.
    apply lbind_silent; [reflexivity|]. intros q _. apply lbind_silent; [apply lesm_silent|]. reflexivity.
  Qed.
  Lemma trn_warnings v b r : snd (twrequired_trn_w ext c v b) = Ok r -> fst (twrequired_trn_w ext c v b) = ws.
  Proof.
    unfold twrequired_trn_w. intros H. do 2 step H. step H. rewrite turn_warnings. cbn [app].
    do 3 step H. cbn [quiet fst]. rewrite ?app_nil_r. reflexivity.
  Qed.
  Lemma to_warnings v b r : snd (twrequired_to_w ext c v b) = Ok r ->
    fst (twrequired_to_w ext c v b) = times (if b then List.length (elements v) else 0) ws.
  Proof.
    unfold twrequired_to_w. intros H. do 2 step H.
    apply lbind_ok in H. destruct H as (tws & T & H & ->). cbn [quiet fst]. rewrite app_nil_r.
    assert (R1 : recastasnpfloatarray v = elements v) by (destruct v; reflexivity). rewrite R1 in *.
    destruct b.
    - rewrite (lmapM_ok _ ws _ _ T).
      + rewrite map_length. reflexivity.
      + intros q y _ Y. do 2 step Y. cbn [quiet fst]. rewrite app_nil_r. reflexivity.
    - rewrite (lmapM_ok _ [] _ _ T) by (intros; reflexivity). rewrite times_nil. reflexivity.
  Qed.

  Lemma tw_warnings v fo b r : snd (twrequired_w ext c v fo b) = Ok r ->
    fst (twrequired_w ext c v fo b) = times ((if b then List.length (elements v) else 0) + 4) ws.
  Proof.
    unfold twrequired_w. intros H. cbv zeta in *.
    apply lbind_ok in H. destruct H as ([[t vl] va] & T & H & ->). rewrite (to_warnings _ _ _ T).
    apply lbind_ok in H. destruct H as ([[t2 cl] fe] & T2 & H & ->). rewrite (trn_warnings _ _ _ T2).
    apply lbind_ok in H. destruct H as (x3 & T3 & H & ->). rewrite (clm_warnings _ _ _ T3).
    apply lbind_ok in H. destruct H as (x4 & T4 & H & ->). rewrite (crs_warnings _ _ _ T4).
    apply lbind_ok in H. destruct H as (x5 & T5 & H & ->). rewrite (sec_warnings _ _ _ T5).
    apply lbind_ok in H. destruct H as (x6 & T6 & H & ->). cbn [quiet fst].
    rewrite times_add. cbn [elements]. replace (recastasnpfloatarray v) with (elements v) by (destruct v; reflexivity).
    f_equal. 
  Qed.
End Methods.
