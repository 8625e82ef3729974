(** Complete analyses with shipped engines. *)
From Coq Require Import String QArith Qreals Permutation.
From Verif Require Import Base BaseFacts AtmosModel AtmosSpec AtmosProofs2 ConceptModel MethodsModel MethodsSpec MethodsExamples MethodsProofs UnitsModel ConstraintSpec
  ConstraintProofs ConstraintProofs3 ConstraintProofs7 ConstraintProofs8 ConstraintProofs10 SensitivityProofs3
  PropulsionModel PropulsionSpec PropulsionProofs8 PropulsionProofs9 EngineObjectSpec EngineObjectProofs ShippedModel ShippedSpec ShippedDecks ShippedThrust ShippedFacts
  ShippedAnalysisSpec ShippedAnalysisProofs ShippedAnalysisFacts.
Open Scope R_scope.

(** a concept with another service ceiling *)
Definition with_ceiling (c : concept) (h : option num) : concept := {|
  climbalt_m := climbalt_m c; climbspeed_kias := climbspeed_kias c; climbrate_fpm := climbrate_fpm c;
  cruisealt_m := cruisealt_m c; cruisespeed_ktas := cruisespeed_ktas c; cruisethrustfact := cruisethrustfact c;
  servceil_m := h; secclimbspd_kias := secclimbspd_kias c; vstallclean_kcas := vstallclean_kcas c;
  groundrun_m := groundrun_m c; rwyelevation_m := rwyelevation_m c; to_headwind_kts := to_headwind_kts c;
  to_slope_perc := to_slope_perc c; turnalt_m := turnalt_m c; turnspeed_ktas := turnspeed_ktas c;
  stloadfactor := stloadfactor c;
  aspectratio := aspectratio c; sweep_le_deg := sweep_le_deg c; sweep_25_deg := sweep_25_deg c;
  sweep_mt_deg := sweep_mt_deg c; roottaperratio := roottaperratio c; wingarea_m2 := wingarea_m2 c;
  wingheightratio := wingheightratio c;
  bpr := bpr c; spooluptime_s := spooluptime_s c; totalstaticthrust_n := totalstaticthrust_n c;
  throttle_r := throttle_r c; weight_n := weight_n c;
  climb_weight_fraction := climb_weight_fraction c; cruise_weight_fraction := cruise_weight_fraction c;
  sec_weight_fraction := sec_weight_fraction c; turn_weight_fraction := turn_weight_fraction c;
  runwayalpha_deg := runwayalpha_deg c; runwayalpha_max_deg := runwayalpha_max_deg c;
  CD0TO := CD0TO c; cdto := cdto c; cdminclean := cdminclean c; mu_r := mu_r c;
  CL0TO := CL0TO c; clto := clto c; clmaxclean := clmaxclean c; clminclean := clminclean c; clmaxto := clmaxto c;
  a_0i := a_0i c;
  etaprop_climb := etaprop_climb c; etaprop_cruise := etaprop_cruise c; etaprop_sec := etaprop_sec c;
  etaprop_to := etaprop_to c; etaprop_turn := etaprop_turn c;
  designatm := designatm c; propulsion := propulsion c |}.
Lemma some_ratio grid t lo hi : spans t lo hi -> exists f, ratio_of grid t f.
Proof.
  intros ((N & _) & _). destruct (pymaxn_total (tz t) N) as (top & E & _).
  exists (fun x h => ndiv (grid (tx t) (ty t) (tz t) x h) top). exists top. split; [exact E|reflexivity].
Qed.
Lemma jet_case v fo : exists d t f r, shipped_jet "TFE731-5" d /\ jt_thr d = Some t /\ ratio_of exact_grid t f /\
  twrequired example_ext (example_aircraft 20 18 4 (PropJet f) (isa 0)) v fo true = Ok r.
Proof.
  destruct (jets_load "TFE731-5" jet_files) as (d & E); [cbn; intuition|apply Permutation_refl|].
  assert (S : shipped_jet "TFE731-5" d) by (exists jet_files; split; [apply Permutation_refl|exact E]).
  destruct (jet_spans "TFE731-5" 6096 12192 d) as (t & D & K); [do 9 right; left; reflexivity|exact S|].
  destruct (some_ratio exact_grid t _ _ K) as (f & F).
  destruct (twrequired_ok example_ext (example_aircraft 20 18 4 (PropJet f) (isa 0)) true) with (v := v) (fo := fo) as (r & R);
    [apply jet_wing|right; left; exists f; reflexivity|apply std_brief|].
  exists d, t, f, r. auto.
Qed.
Lemma high_brief b p h : 0 <= h <= 11000 -> brief_complete (with_ceiling (example_aircraft 20 18 b p (isa 0)) (Some (Fin h))).
Proof.
  intros H. assert (A : forall h, 0 <= h <= 11000 -> air_at (with_ceiling (example_aircraft 20 18 b p (isa 0)) (Some (Fin h))) h (std_air h))
    by (intros; apply std_air_at; [reflexivity|assumption]).
  destruct (std_brief b p) as (B1 & B2 & B3 & B4 & B5 & B6 & B7).
  split; [exact B1|]. split; [exact B2|]. split; [exact B3|]. split; [exact B4|]. split; [exact B5|]. split; [exact B6|].
  inversion B7 as [|x1 l1 C1 D1]; subst. inversion D1 as [|x2 l2 C2 D2]; subst. inversion D2 as [|x3 l3 C3 D3]; subst.
  constructor; [exact C1|]. constructor; [exact C2|]. constructor; [|exact D3]. exists h, (std_air h). split; [reflexivity|]. apply std_air_at; [reflexivity|exact H].
Qed.
Lemma turboprop_case v fo : exists d t f r, shipped_turboprop "Tyne_RTy11" d /\ tp_pwr d = Some t /\ ratio_of exact_grid t f /\
  powerrequired example_ext (with_ceiling (example_aircraft 20 18 4 (PropTurboprop f) (isa 0)) (Some (Fin 10800))) v (Fin 20000) fo true = Ok r.
Proof.
  destruct (turboprops_load "Tyne_RTy11" turboprop_files) as (d & E); [cbn; intuition|apply Permutation_refl|].
  assert (S : shipped_turboprop "Tyne_RTy11" d) by (exists turboprop_files; split; [apply Permutation_refl|exact E]).
  destruct (turboprop_spans "Tyne_RTy11" 0 10668 d) as (t & D & K); [right; left; reflexivity|exact S|].
  destruct (some_ratio exact_grid t _ _ K) as (f & F).
  destruct (powerrequired_ok example_ext (with_ceiling (example_aircraft 20 18 4 (PropTurboprop f) (isa 0)) (Some (Fin 10800))) (Fin 20000) true) with (v := v) (fo := fo) as (r & R);
    [exact (jet_wing 4 (PropTurboprop f) (isa 0))|right; right; left; exists f; reflexivity|apply high_brief; lra|].
  exists d, t, f, r. auto.
Qed.

(** ** A piston engine: with one wing loading it is corrected like a turboprop *)
Lemma rbind_cong {A B} (a b : res A) (f g : A -> res B) : a = b -> (forall x, f x = g x) -> rbind a f = rbind b g.
Proof. intros -> H. destruct b; [apply H|reflexivity]. Qed.
Lemma mapM_cong {A B} (f g : A -> res B) l : (forall x, f x = g x) -> mapM f l = mapM g l.
Proof. intros H. induction l as [|a l IH]; [reflexivity|]. cbn [mapM]. rewrite H, IH. reflexivity. Qed.
Lemma liftoff_number ext c w fo b r : twrequired ext c (VNum w) fo b = Ok r -> exists v, rq_liftoffspeed r = VNum v.
Proof.
  unfold twrequired. cbv zeta. intros H. step H. destruct x as ((tt & vl) & va). step H. destruct x as ((tu & cl) & fe).
  step H. step H. step H. step H. injection H as <-. cbn [rq_liftoffspeed].
  unfold twrequired_to in E. cbv zeta in E. repeat step E. apply ok_triple in E. destruct E as (_ & <- & _).
  cbn [recastasnpfloatarray map reverttoscalar]. eauto.
Qed.
Section Piston.
  Variables (ext : externals) (f g : num -> num -> num).
  Let c1 := example_aircraft 20 18 (-1) (PropPiston [2700] g f) (isa 0).
  Let c2 := example_aircraft 20 18 (-1) (PropTurboprop (fun _ h => f (Fin 2700) h)) (isa 0).
  Lemma same_corr x h : 0 <= h <= 11000 -> propulsion_slcorr ext c1 (VNum x) (Fin h) = propulsion_slcorr ext c2 (VNum x) (Fin h).
  Proof.
    intros H. unfold propulsion_slcorr.
    rewrite (mach_air c1 h (std_air h)) by (apply std_air_at; [reflexivity|exact H]).
    rewrite (mach_air c2 h (std_air h)) by (apply std_air_at; [reflexivity|exact H]).
    cbn [recastasnpfloatarray map rbind sl_propulsion propulsion example_aircraft c1 c2 AtmosModel.pymax fold_left filter].
    destruct (Reqb_reflect 2700 2700); [reflexivity|congruence].
  Qed.
  Lemma same_to ws b : twrequired_to ext c1 ws b = twrequired_to ext c2 ws b.
  Proof.
    unfold twrequired_to. cbv zeta. apply rbind_cong; [reflexivity|]. intros _. apply rbind_cong; [reflexivity|]. intros d. apply rbind_cong; [|reflexivity].
    apply mapM_cong. intros p. destruct b; [|reflexivity]. apply rbind_cong; [exact (same_corr _ 0 ltac:(lra))|reflexivity].
  Qed.
  Lemma same_trn ws b : twrequired_trn ext c1 ws b = twrequired_trn ext c2 ws b.
  Proof.
    unfold twrequired_trn. cbv zeta. do 3 (apply rbind_cong; [reflexivity|intros ?]). apply rbind_cong; [exact (same_corr _ 2000 ltac:(lra))|reflexivity].
  Qed.
  Lemma same_clm ws b : twrequired_clm ext c1 ws b = twrequired_clm ext c2 ws b.
  Proof.
    unfold twrequired_clm. cbv zeta. do 4 (apply rbind_cong; [reflexivity|intros ?]). apply rbind_cong; [exact (same_corr _ 1000 ltac:(lra))|reflexivity].
  Qed.
  Lemma same_crs ws b : twrequired_crs ext c1 ws b = twrequired_crs ext c2 ws b.
  Proof.
    unfold twrequired_crs. cbv zeta. apply rbind_cong; [reflexivity|intros ?].
    change (required (cruisealt_m c1)) with (@Ok num (Fin 6000)). change (required (cruisealt_m c2)) with (@Ok num (Fin 6000)). cbn [rbind].
    apply rbind_cong; [exact (same_corr _ 6000 ltac:(lra))|reflexivity].
  Qed.
  Lemma same_sec ws b : twrequired_sec ext c1 ws b = twrequired_sec ext c2 ws b.
  Proof.
    unfold twrequired_sec. cbv zeta.
    change (required (servceil_m c1)) with (@Ok num (Fin 9000)). change (required (servceil_m c2)) with (@Ok num (Fin 9000)). cbn [rbind].
    do 2 (apply rbind_cong; [reflexivity|intros ?]). apply rbind_cong; [exact (same_corr _ 9000 ltac:(lra))|reflexivity].
  Qed.
  Lemma same_tw ws fo b : twrequired ext c1 ws fo b = twrequired ext c2 ws fo b.
  Proof.
    unfold twrequired. cbv zeta. rewrite same_to. apply rbind_cong; [reflexivity|]. intros ((? & ?) & ?). rewrite same_trn.
    apply rbind_cong; [reflexivity|]. intros ((? & ?) & ?). rewrite same_clm, same_crs, same_sec. reflexivity.
  Qed.
  Lemma same_pc x h b : 0 <= h <= 11000 -> (if (b : bool) then rmap snd (propulsion_slcorr ext c1 (VNum x) (Fin h)) else Ok (VNum #1)) =
    if b then rmap snd (propulsion_slcorr ext c2 (VNum x) (Fin h)) else Ok (VNum #1).
  Proof. intros H. rewrite (same_corr x h H). reflexivity. Qed.
  Lemma same_power w m fo b : (exists r, twrequired ext c2 (VNum w) fo false = Ok r) -> powerrequired ext c1 (VNum w) m fo b = powerrequired ext c2 (VNum w) m fo b.
  Proof.
    intros (r & R). unfold powerrequired. cbv zeta. rewrite same_tw, R. cbn [rbind]. destruct (liftoff_number _ _ _ _ _ _ R) as (v & V). rewrite V.
    apply rbind_cong; [reflexivity|intros ?]. apply rbind_cong; [exact (same_pc _ 0 b ltac:(lra))|intros ?].
    do 3 (apply rbind_cong; [reflexivity|intros ?]). apply rbind_cong; [exact (same_pc _ 2000 b ltac:(lra))|intros ?].
    do 4 (apply rbind_cong; [reflexivity|intros ?]). apply rbind_cong; [exact (same_pc _ 1000 b ltac:(lra))|intros ?].
    do 2 (apply rbind_cong; [reflexivity|intros ?]). apply rbind_cong; [exact (same_pc _ 6000 b ltac:(lra))|intros ?].
    do 3 (apply rbind_cong; [reflexivity|intros ?]). apply rbind_cong; [exact (same_pc _ 9000 b ltac:(lra))|reflexivity].
  Qed.
End Piston.
Lemma piston_case w fo : exists d t f r, shipped_piston "Wasp_Major_B13" d /\ pi_pwr d = Some t /\ ratio_of exact_grid t f /\
  powerrequired example_ext (example_aircraft 20 18 (-1) (PropPiston [2700] f f) (isa 0)) (VNum w) (Fin 20000) fo true = Ok r.
Proof.
  destruct (wasp_loads piston_files) as (d & E); [apply Permutation_refl|].
  assert (S : shipped_piston "Wasp_Major_B13" d) by (exists piston_files; split; [apply Permutation_refl|exact E]).
  destruct (piston_spans "Wasp_Major_B13" 1.021268885 10303.80347 d) as (t & D & K); [right; left; reflexivity|exact S|].
  destruct (some_ratio exact_grid t _ _ K) as (f & F). exists d, t, f.
  assert (T : engine_ok (example_aircraft 20 18 (-1) (PropTurboprop (fun _ h => f (Fin 2700) h)) (isa 0))) by (right; right; left; eexists; reflexivity).
  rewrite same_power by (apply twrequired_ok; [apply jet_wing|exact T|apply std_brief]).
  destruct (powerrequired_ok example_ext (example_aircraft 20 18 (-1) (PropTurboprop (fun _ h => f (Fin 2700) h)) (isa 0)) (Fin 20000) true) with (v := VNum w) (fo := fo) as (r & R);
    [apply jet_wing|exact T|apply std_brief|].
  exists r. auto.
Qed.
