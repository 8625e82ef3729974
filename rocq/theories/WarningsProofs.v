(** Proofs about the warnings: outcomes are those of the methods without warnings. *)
From Coq Require Import Reals Lra Lia List String.
From Verif Require Import Base BaseFacts UnitsModel AtmosModel ConceptModel MethodsModel MethodsSpec
  MethodsProofs SensitivityModel SensitivityPlotModel WarningsModel WarningsSpec.
Import ListNotations.
Open Scope R_scope.

Lemma snd_lbind {A B} (m : logged A) (f : A -> logged B) :
  snd (lbind m f) = (do x <- snd m; snd (f x)).
Proof. unfold lbind. destruct (snd m); reflexivity. Qed.
Lemma snd_quiet {A} (r : res A) : snd (quiet r) = r. Proof. reflexivity. Qed.
Lemma rbind_ext {A B} (r r' : res A) (f g : A -> res B) :
  r = r' -> (forall x, f x = g x) -> rbind r f = rbind r' g.
Proof. intros -> H. destruct r'; cbn [rbind]; auto. Qed.
Lemma rbind_assoc {A B C} (r : res A) (f : A -> res B) (g : B -> res C) :
  rbind (rbind r f) g = rbind r (fun x => rbind (f x) g).
Proof. destruct r; reflexivity. Qed.
Lemma snd_if {A} (b : bool) (x y : logged A) : snd (if b then x else y) = if b then snd x else snd y.
Proof. destruct b; reflexivity. Qed.
Lemma snd_lmapM {A B} (f : A -> logged B) (g : A -> res B) l :
  (forall x, snd (f x) = g x) -> snd (lmapM f l) = mapM g l.
Proof.
  intros H. induction l as [|x r IH]; [reflexivity|].
  cbn [lmapM mapM]. rewrite snd_lbind, H. apply rbind_ext; [reflexivity|]. intros y.
  rewrite snd_lbind, IH. reflexivity.
Qed.

Ltac erase :=
  repeat first
    [ rewrite snd_lbind | rewrite snd_quiet
    | progress cbn [rbind] | rewrite rbind_assoc
    | reflexivity
    | apply rbind_ext; [|intro] ].

Lemma outcome_default w d mo : snd (default_to w d mo) = Ok (match mo with Some m => m | None => d end).
Proof. destruct mo; reflexivity. Qed.

Lemma outcome_eff4 c mo :
  snd (oswaldspaneff4_w c mo) = Ok (oswaldspaneff4 c (match mo with Some m => m | None => Fin 0.3 end)).
Proof.
  unfold oswaldspaneff4_w, oswaldspaneff4. rewrite snd_lbind, outcome_default. cbn [rbind].
  cbv zeta. destruct (_ <? Fin 1e-3)%num; reflexivity.
Qed.

Lemma outcome_list c sel mo : snd (oswaldeff_list_w c sel mo) = oswaldeff_list c sel mo.
Proof.
  unfold oswaldeff_list_w, oswaldeff_list. destruct sel as [z|]; [|reflexivity].
  rewrite snd_lbind, snd_quiet. apply rbind_ext; [reflexivity|intro l]. cbv zeta.
  rewrite snd_lbind. apply rbind_ext.
  - destruct (existsb _ l); [|reflexivity]. erase.
  - intros e2. rewrite snd_lbind.
    destruct (existsb (N.eqb 4) l).
    + rewrite snd_lbind, outcome_default. cbn [rbind].
      rewrite snd_lbind, outcome_eff4. reflexivity.
    + reflexivity.
Qed.
Lemma outcome_factor c sel mo : snd (induceddragfact_w c sel mo) = induceddragfact c sel mo.
Proof.
  unfold induceddragfact_w, induceddragfact. rewrite snd_lbind, outcome_list.
  apply rbind_ext; [reflexivity|intro l]. rewrite snd_lbind. apply rbind_ext; [|reflexivity].
  destruct l; [|reflexivity]. rewrite snd_lbind, snd_quiet. apply rbind_ext; [reflexivity|intro e2].
  rewrite snd_lbind, outcome_eff4. reflexivity.
Qed.
Lemma outcome_slope ext c mo :
  snd (liftslope_prad_w ext c mo) = liftslope_prad ext c (match mo with Some m => m | None => Fin 0.3 end).
Proof. unfold liftslope_prad_w. rewrite snd_lbind, outcome_default. reflexivity. Qed.

Lemma outcome_cl (cl : bool) : snd (if cl then quiet (Ok tt) else warn WClReal) = Ok tt.
Proof. destruct cl; reflexivity. Qed.
Lemma outcome_lesm ext c v cl mo :
  snd (induceddragfact_lesm_w ext c v cl mo)
  = (do ws <- match v with
              | Some v => Ok (recastasnpfloatarray v)
              | None => do w <- required (weight_n c); do s <- required (wingarea_m2 c); Ok [(w / s)%num]
              end;
     do k <- lesm ext c (match mo with Some m => m | None => Fin 0.3 end);
     Ok (ws, k)).
Proof.
  unfold induceddragfact_lesm_w, lesm. rewrite snd_lbind, outcome_default. cbn [rbind].
  rewrite snd_lbind, outcome_cl. cbn [rbind]. rewrite snd_lbind. apply rbind_ext.
  { destruct v; [reflexivity|]. erase. }
  intros ws. rewrite snd_lbind, rbind_assoc. apply rbind_ext.
  { destruct (cruisespeed_ktas c), (cruisealt_m c); try reflexivity. erase. }
  intros clc. cbv zeta. rewrite snd_lbind, outcome_factor, rbind_assoc.
  apply rbind_ext; [reflexivity|intro k]. rewrite snd_lbind, outcome_slope, rbind_assoc.
  apply rbind_ext; [reflexivity|intro a]. rewrite snd_lbind, snd_quiet, rbind_assoc.
  apply rbind_ext; [reflexivity|intro b]. reflexivity.
Qed.
Lemma outcome_lesm_given ext c ws m :
  snd (induceddragfact_lesm_w ext c (Some (VArr ws)) true (Some m))
  = (do k <- lesm ext c m; Ok (ws, k)).
Proof. rewrite outcome_lesm. reflexivity. Qed.
Lemma outcome_lesm_method ext c v mo :
  rmap (fun r => map (fun w => snd r w None) (fst r)) (snd (induceddragfact_lesm_w ext c v false mo))
  = induceddragfact_lesm ext c v mo.
Proof.
  rewrite outcome_lesm. unfold induceddragfact_lesm.
  destruct (match v with Some _ => _ | None => _ end) as [ws|e]; cbn [rbind rmap]; [|reflexivity].
  destruct (lesm _ _ _); reflexivity.
Qed.

Lemma outcome_slprop c : snd (sl_propulsion_w c) = sl_propulsion c.
Proof.
  unfold sl_propulsion_w, sl_propulsion. destruct (propulsion c); try reflexivity.
  rewrite snd_lbind. cbn [warn snd rbind]. cbv zeta.
  repeat match goal with |- snd (if ?b then _ else _) = _ => destruct b; [reflexivity|] end.
  reflexivity.
Qed.
Lemma outcome_generic ext c s t p d m :
  snd (generic_tcorr_w ext c s t p d m) = generic_tcorr ext c s t p d m.
Proof.
  unfold generic_tcorr_w, generic_tcorr. cbv zeta.
  repeat match goal with |- snd (if ?b then _ else _) = _ => destruct b; [try reflexivity|] end;
  try reflexivity;
  repeat match goal with |- snd (if ?b then _ else _) = _ => destruct b; [try reflexivity|] end;
  reflexivity.
Qed.
Lemma outcome_slcorr ext c v h : snd (propulsion_slcorr_w ext c v h) = propulsion_slcorr ext c v h.
Proof.
  unfold propulsion_slcorr_w, propulsion_slcorr. rewrite snd_lbind, outcome_slprop.
  apply rbind_ext; [reflexivity|intro p]. rewrite snd_lbind, snd_quiet.
  apply rbind_ext; [reflexivity|intro mv]. cbv zeta. rewrite snd_lbind.
  destruct p as [|s|f|l g f| |f|]; try reflexivity.
  - rewrite snd_lbind, snd_quiet, rbind_assoc. apply rbind_ext; [reflexivity|intro tv].
    rewrite snd_lbind, snd_quiet, rbind_assoc. apply rbind_ext; [reflexivity|intro temp].
    rewrite snd_lbind, snd_quiet, rbind_assoc. apply rbind_ext; [reflexivity|intro pv].
    rewrite snd_lbind, snd_quiet, rbind_assoc. apply rbind_ext; [reflexivity|intro pr].
    rewrite snd_lbind, snd_quiet, rbind_assoc. apply rbind_ext; [reflexivity|intro de].
    rewrite snd_lbind, rbind_assoc, (snd_lmapM _ (generic_tcorr ext c s temp pr de)) by (intro; apply outcome_generic).
    apply rbind_ext; [reflexivity|intro tc]. reflexivity.
  - rewrite snd_lbind, snd_quiet, rbind_assoc. apply rbind_ext; [reflexivity|intro mx]. reflexivity.
Qed.

Ltac erase_step :=
  rewrite snd_lbind;
  first [ rewrite outcome_slcorr | rewrite outcome_lesm_given, rbind_assoc | rewrite snd_quiet ];
  apply rbind_ext; [reflexivity|intro]; cbn [rbind snd]; cbv zeta.

Lemma outcome_clm ext c v b : snd (twrequired_clm_w ext c v b) = twrequired_clm ext c v b.
Proof. unfold twrequired_clm_w, twrequired_clm. repeat erase_step. reflexivity. Qed.
Lemma outcome_crs ext c v b : snd (twrequired_crs_w ext c v b) = twrequired_crs ext c v b.
Proof. unfold twrequired_crs_w, twrequired_crs. repeat erase_step. reflexivity. Qed.
Lemma outcome_sec ext c v b : snd (twrequired_sec_w ext c v b) = twrequired_sec ext c v b.
Proof. unfold twrequired_sec_w, twrequired_sec. repeat erase_step. reflexivity. Qed.
Lemma outcome_to ext c v b : snd (twrequired_to_w ext c v b) = twrequired_to ext c v b.
Proof.
  unfold twrequired_to_w, twrequired_to. do 2 erase_step. rewrite snd_lbind.
  apply rbind_ext; [|reflexivity]. apply snd_lmapM. intros q. destruct b; [|reflexivity].
  repeat erase_step. reflexivity.
Qed.
Lemma outcome_turn ext c ws :
  snd (thrusttoweight_sustainedturn_w ext c ws) = thrusttoweight_sustainedturn ext c ws.
Proof. unfold thrusttoweight_sustainedturn_w, thrusttoweight_sustainedturn. repeat erase_step. reflexivity. Qed.
Lemma outcome_trn ext c v b : snd (twrequired_trn_w ext c v b) = twrequired_trn ext c v b.
Proof.
  unfold twrequired_trn_w, twrequired_trn. do 2 erase_step. rewrite snd_lbind, outcome_turn.
  apply rbind_ext; [reflexivity|intro r]. repeat erase_step. reflexivity.
Qed.
Lemma outcome_tw ext c v f b : snd (twrequired_w ext c v f b) = twrequired ext c v f b.
Proof.
  unfold twrequired_w, twrequired. rewrite snd_lbind, outcome_to.
  apply rbind_ext; [reflexivity|intros [[t vl] va]]. rewrite snd_lbind, outcome_trn.
  apply rbind_ext; [reflexivity|intros [[tt cl] fe]]. rewrite snd_lbind, outcome_clm.
  apply rbind_ext; [reflexivity|intro x1]. rewrite snd_lbind, outcome_crs.
  apply rbind_ext; [reflexivity|intro x2]. rewrite snd_lbind, outcome_sec.
  apply rbind_ext; [reflexivity|intro x3]. repeat erase_step. reflexivity.
Qed.
Lemma outcome_pcorr ext c b v h :
  snd (pcorr_w ext c b v h) = if b then rmap snd (propulsion_slcorr ext c v h) else Ok (VNum (Fin 1)).
Proof.
  unfold pcorr_w. destruct b; [|reflexivity]. rewrite snd_lbind, outcome_slcorr.
  destruct (propulsion_slcorr ext c v h); reflexivity.
Qed.

(** the test of line 1771 raises only where the conversion of line 1774 does *)
Lemma vop2_first {B} (f g : num -> num -> num) a y (k : val -> res B) :
  (do _ <- vop2 f a (VNum y); do p <- vop2 g a (VNum y); k p) = (do p <- vop2 g a (VNum y); k p).
Proof. destruct a; reflexivity. Qed.
Lemma outcome_turns v : snd (if all_nan v then warn WTurns else quiet (Ok tt)) = Ok tt.
Proof. destruct (all_nan v); reflexivity. Qed.
Lemma outcome_etas n : snd (if Nat.ltb 0 n then warn (WEtas n) else quiet (Ok tt)) = Ok tt.
Proof. destruct (Nat.ltb 0 n); reflexivity. Qed.

Ltac erase_p :=
  rewrite snd_lbind;
  first [ rewrite outcome_pcorr | rewrite snd_quiet ];
  apply rbind_ext; [reflexivity|intro]; cbn [rbind snd]; cbv zeta.
Lemma outcome_power ext c n v m f b : snd (powerrequired_w ext c n v m f b) = powerrequired ext c v m f b.
Proof.
  unfold powerrequired_w, powerrequired. rewrite snd_lbind, outcome_etas. cbn [rbind].
  rewrite snd_lbind, outcome_tw. apply rbind_ext; [reflexivity|intro tw]. cbv zeta.
  do 3 erase_p. rewrite snd_lbind, snd_quiet.
  match goal with |- _ = rbind (power_hp ?t ?e ?a (VNum ?y)) ?k =>
    transitivity (do _ <- vop2 (fun t v => tw2pw t v e) a (VNum y); do p <- power_hp t e a (VNum y); k p);
    [|apply (vop2_first (fun t v => tw2pw t v e) (fun t' v => wn2hpkg (tw2pw t' v e) * t)%num)] end.
  apply rbind_ext; [reflexivity|intro pw].
  rewrite snd_lbind, outcome_turns. cbn [rbind].
  repeat erase_p. reflexivity.
Qed.
