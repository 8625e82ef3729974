(** Proofs about the warnings of the constraint methods. *)
From Coq Require Import Reals Lra Lia Psatz List String ZArith Permutation.
From Verif Require Import Base BaseFacts AnalysisFacts UnitsModel AtmosModel AtmosSpec ConceptModel ConceptProofs MethodsModel MethodsSpec
  MethodsProofs MethodsProofs2 MethodsProofs3 MethodsProofs4 ConstraintSpec ConstraintProofs ConstraintProofs6
  SensitivityModel SensitivityPlotModel WarningsModel WarningsSpec WarningsProofs WarningsProofs2.
Import ListNotations.
Open Scope R_scope.

Section Wing.
  Variables (c : concept) (w : wing).
  Hypothesis HW : has_wing c w.
  Hypothesis HR : regular w.

  Lemma ar_pos : 0 < w_ar w. Proof. apply HR. Qed.
  Lemma eff2_ok : exists e, oswaldspaneff2 c = Ok e.
  Proof. destruct (regular_cos w HR) as (_ & _ & _ & Hm). eexists. apply (eff2_real c w HW). lra. Qed.

  Lemma list_warnings z l mo m : digits_of z = Ok l -> mach_used mo m ->
    fst (oswaldeff_list_w c (SelInt z) mo)
    = (if existsb (N.eqb 4) l then if_left_out WMach mo ++ if_too_small w m else [])%list.
  Proof.
    intros HL HM. unfold oswaldeff_list_w. rewrite (fst_quiet _ _ l HL). cbv zeta.
    destruct eff2_ok as (e2 & E2).
    assert (K : exists r, snd (if existsb (N.eqb 2) l
        then log e <- quiet (oswaldspaneff2 c); quiet (Ok [e]) else quiet (Ok [])) = Ok r /\
        fst (if existsb (N.eqb 2) l
        then log e <- quiet (oswaldspaneff2 c); quiet (Ok [e]) else quiet (Ok [])) = []).
    { destruct (existsb (N.eqb 2) l); [|eexists; split; reflexivity]. rewrite E2. eexists; split; reflexivity. }
    destruct K as (r & K1 & K2). rewrite (fst_lbind _ _ r K1), K2. cbn [app].
    destruct (existsb (N.eqb 4) l); [|reflexivity].
    destruct (default_to WMach #0.3 mo) as [wm rm] eqn:ED.
    assert (EM : rm = Ok (Fin m) /\ wm = if_left_out WMach mo).
    { destruct HM as [-> | (-> & ->)]; injection ED as <- <-; split; reflexivity. }
    destruct EM as (-> & ->).
    rewrite (fst_lbind _ _ [oswaldspaneff4 c (Fin m)]).
    - rewrite (fst_lbind _ _ (Fin m)) by reflexivity. cbn [fst].
      rewrite (fst_lbind _ _ (oswaldspaneff4 c (Fin m))) by apply outcome_eff4.
      rewrite (eff4_warnings_given c w HW m ar_pos). cbn [fst quiet]. rewrite !app_nil_r. reflexivity.
    - rewrite snd_lbind. cbn [snd rbind]. rewrite snd_lbind, outcome_eff4. reflexivity.
  Qed.

  Lemma factor_default_warnings mo : fst (induceddragfact_w c SelOther mo) = if_too_small w 0.3.
  Proof.
    unfold induceddragfact_w. cbn [oswaldeff_list_w]. rewrite (fst_quiet _ _ [] eq_refl).
    destruct eff2_ok as (e2 & E2).
    rewrite (fst_lbind _ _ (Fin 0.5 * (e2 + oswaldspaneff4 c (Fin 0.3)))%num).
    - rewrite E2, (fst_quiet _ _ e2 eq_refl).
      rewrite (fst_lbind _ _ (oswaldspaneff4 c (Fin 0.3))) by apply outcome_eff4.
      rewrite (eff4_warnings_given c w HW 0.3 ar_pos). cbn [fst quiet]. rewrite !app_nil_r. reflexivity.
    - rewrite snd_lbind, snd_quiet, E2. cbn [rbind]. rewrite snd_lbind, outcome_eff4. reflexivity.
  Qed.
  Lemma factor_digits_warnings z l mo m : digits_of z = Ok l -> mach_used mo m ->
    fst (induceddragfact_w c (SelInt z) mo)
    = (if existsb (N.eqb 4) l then if_left_out WMach mo ++ if_too_small w m
       else match pick (fun d => existsb (N.eqb d) l) with [] => if_too_small w 0.3 | _ => [] end)%list.
  Proof.
    intros HL HM. unfold induceddragfact_w.
    pose proof (outcome_list c (SelInt z) mo) as O. rewrite (selection c w HW z mo l HR HL) in O.
    rewrite (fst_lbind _ _ _ O), (list_warnings z l mo m HL HM).
    destruct (existsb (N.eqb 4) l) eqn:E4.
    - assert (NE : pick (fun d => existsb (N.eqb d) l) <> []).
      { unfold pick. cbn [filter]. rewrite E4. destruct (existsb (N.eqb 1) l), (existsb (N.eqb 2) l), (existsb (N.eqb 3) l); discriminate. }
      destruct (pick _) as [|d ds]; [contradiction|]. cbn [map].
      rewrite (fst_quiet _ _ _ eq_refl). cbn [fst quiet]. rewrite app_nil_r. reflexivity.
    - destruct (pick _) as [|d ds] eqn:P; [|reflexivity].
      cbn [map app]. pose proof (factor_default_warnings mo) as D. unfold induceddragfact_w in D.
      cbn [oswaldeff_list_w] in D. rewrite (fst_quiet _ _ [] eq_refl) in D. exact D.
  Qed.

  Lemma factor_warnings z mo m sel : (0 <= z)%Z -> mach_used mo m -> methods_named (Z.to_N z) sel ->
    (In 4%N sel -> fst (induceddragfact_w c (SelInt z) mo) = (if_left_out WMach mo ++ if_too_small w m)%list) /\
    (sel <> [] -> ~ In 4%N sel -> fst (induceddragfact_w c (SelInt z) mo) = []) /\
    (sel = [] -> fst (induceddragfact_w c (SelInt z) mo) = if_too_small w 0.3).
  Proof.
    intros Hz HM HS. destruct (digits_spec z Hz) as (l & HL & HD).
    pose proof (pick_perm z l sel HL HD HS) as P. destruct HS as (ND & HS).
    rewrite (factor_digits_warnings z l mo m HL HM). split; [|split].
    - intros I. apply HS in I. destruct I as (_ & I). apply HD in I. rewrite I. reflexivity.
    - intros NE NI. destruct (existsb (N.eqb 4) l) eqn:E4.
      + exfalso. apply NI, HS. split; [lia|]. apply HD, E4.
      + destruct (pick _) as [|d ds]; [|reflexivity]. exfalso. apply NE. apply Permutation_nil. exact P.
    - intros ->. apply Permutation_sym, Permutation_nil in P. destruct (existsb (N.eqb 4) l) eqn:E4; [|rewrite P; reflexivity].
      exfalso. apply HD in E4. destruct (HS 4%N) as (_ & H). apply H. split; [lia|exact E4].
  Qed.
End Wing.

(* ----------------------------------------------------------- lesm *)
Lemma nmin_low x : nmin x (Fin 0.6) = NonFin \/ exists m, nmin x (Fin 0.6) = Fin m /\ m <= 0.6.
Proof.
  unfold nmin. destruct x as [r|]; [|left; reflexivity]. right. rewrite nltb_fin.
  destruct (Rltb_reflect 0.6 r); eexists; (split; [reflexivity|lra]).
Qed.
Lemma usual_factor_silent c w x : has_wing c w -> usual w ->
  fst (induceddragfact_w c (SelInt 24) (Some (nmin x (Fin 0.6)))) = [].
Proof.
  intros HW U. pose proof (proj1 U) as HR. destruct (nmin_low x) as [-> | (m & -> & M)].
  - destruct (eff2_ok c w HW HR) as (e2 & E2).
    unfold induceddragfact_w. apply lbind_silent.
    + unfold oswaldeff_list_w. rewrite (fst_quiet _ _ [2; 4]%N eq_refl). cbv zeta.
      cbn [existsb N.eqb Pos.eqb orb]. rewrite E2. cbn [quiet].
      rewrite (fst_lbind _ _ [e2]) by reflexivity. 
      cbn [fst app lbind snd quiet]. 
      rewrite (fst_lbind _ _ [oswaldspaneff4 c NonFin]).
      * cbn [default_to]. rewrite (fst_quiet _ _ NonFin eq_refl).
        rewrite (fst_lbind _ _ (oswaldspaneff4 c NonFin)) by apply outcome_eff4.
        rewrite (eff4_warnings_nan c w HW (ar_pos w HR)), (usual_silent w 0.3 U) by lra. reflexivity.
      * cbn [default_to]. rewrite snd_lbind, snd_quiet. cbn [rbind]. rewrite snd_lbind, outcome_eff4. reflexivity.
    + intros l Hl. rewrite outcome_list in Hl. rewrite (selection c w HW 24 _ [2;4]%N HR eq_refl) in Hl.
      injection Hl as <-. reflexivity.
  - rewrite (factor_digits_warnings c w HW HR 24 [2;4]%N (Some (Fin m)) m eq_refl (or_introl eq_refl)).
    cbn [existsb N.eqb Pos.eqb orb if_left_out app]. apply usual_silent; [exact U|lra].
Qed.

Lemma lesm_warnings ext c w v cl mo : has_wing c w -> usual w ->
  (v = None -> weight_n c <> None /\ wingarea_m2 c <> None) ->
  fst (induceddragfact_lesm_w ext c v cl mo)
  = (if_left_out WMach mo ++ (if cl then [] else [WClReal])
     ++ (match cruisespeed_ktas c, cruisealt_m c with Some _, Some _ => [] | _, _ => [WClCruise] end))%list.
Proof.
  intros HW U HV. unfold induceddragfact_lesm_w.
  rewrite (fst_lbind _ _ _ (outcome_default WMach #0.3 mo)).
  replace (fst (default_to WMach #0.3 mo)) with (if_left_out WMach mo) by (destruct mo; reflexivity).
  f_equal. set (x := match mo with Some m => m | None => #0.3 end). clearbody x.
  rewrite (fst_lbind _ _ tt (outcome_cl cl)).
  replace (fst (if cl then quiet (Ok tt) else warn WClReal)) with (if cl then [] else [WClReal]) by (destruct cl; reflexivity).
  f_equal.
  assert (V : exists ws, snd (match v with
    | Some v => quiet (Ok (recastasnpfloatarray v))
    | None => log w <- quiet (required (weight_n c)); log s <- quiet (required (wingarea_m2 c)); quiet (Ok [(w / s)%num])
    end) = Ok ws /\ fst (match v with
    | Some v => quiet (Ok (recastasnpfloatarray v))
    | None => log w <- quiet (required (weight_n c)); log s <- quiet (required (wingarea_m2 c)); quiet (Ok [(w / s)%num])
    end) = []).
  { destruct v as [v|]; [eexists; split; reflexivity|]. destruct (HV eq_refl) as (A & B).
    destruct (weight_n c); [|contradiction]. destruct (wingarea_m2 c); [|contradiction].
    eexists; split; reflexivity. }
  destruct V as (ws & V1 & V2). rewrite (fst_lbind _ _ ws V1), V2. cbn [app].
  assert (T : forall clc : num -> num, fst (
     let machstar_le := (#1 / ncos (sweep_le_rad c))%num in
     log k_oswald <- induceddragfact_w c (SelInt 24) (Some (nmin x #0.6));
     log a <- liftslope_prad_w ext c (Some x);
     let k_0 := (#1 / a)%num in
     log k_100 <- quiet (k_full_suction ext c x machstar_le k_0);
     let weight := (npinterp2 x #0 machstar_le #1 #0 ** #0.2)%num in
     quiet (Ok (ws, fun w cl_real =>
        let clc := clc w in
        let cl_diff := (match cl_real with Some cl => cl - clc | None => #0 end)%num in
        let y_03 := y_suction cl_diff #0.3 #22.5 #1.95 #0 in
        let y_08 := y_suction cl_diff #0.8 #5.77 #1 #(-1.29) in
        let wcl := npinterp2 clc #0.3 #0.8 #1 #0 in
        let suctionfactor := (wcl * y_03 + (#1 - wcl) * y_08)%num in
        let k_suction := (suctionfactor * k_100 + (#1 - suctionfactor) * k_0)%num in
        (k_oswald * weight + k_suction * (#1 - weight))%num))) = []).
  { intros clc. cbv zeta. apply lbind_silent; [exact (usual_factor_silent c w x HW U)|]. intros k _.
    apply lbind_silent; [unfold liftslope_prad_w; cbn [default_to]; apply lbind_silent; reflexivity|]. intros a _.
    apply lbind_silent; reflexivity. }
  destruct (cruisespeed_ktas c) as [vc|]; [destruct (cruisealt_m c) as [h|]|].
  - apply lbind_silent; [apply lbind_silent; reflexivity|]. intros clc _. apply T.
  - rewrite (fst_lbind _ _ (fun _ => #0.6)) by reflexivity. rewrite T. reflexivity.
  - rewrite (fst_lbind _ _ (fun _ => #0.6)) by reflexivity. rewrite T. reflexivity.
Qed.
