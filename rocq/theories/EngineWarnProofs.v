(** Proofs about the warnings of the engine decks. *)
From Coq Require Import Reals Lra Lia List String.
From Verif Require Import Base BaseFacts AtmosModel ConceptModel PropulsionModel PropulsionSpec EngineWarnModel EngineWarnSpec.
Import ListNotations.
Open Scope R_scope.

Lemma snd_nbind {A B} (m : noted A) (f : A -> noted B) : snd (nbind m f) = rbind (snd m) (fun x => snd (f x)).
Proof. unfold nbind. destruct m as [w [x|e]]; reflexivity. Qed.
Lemma nbind_ok {A B} (m : noted A) (f : A -> noted B) r : snd (nbind m f) = Ok r ->
  exists x, snd m = Ok x /\ snd (f x) = Ok r /\ fst (nbind m f) = (fst m ++ fst (f x))%list.
Proof. unfold nbind. destruct m as [w [x|e]]; cbn; intros H; [eauto|discriminate]. Qed.
Lemma fst_nbind {A B} (m : noted A) (f : A -> noted B) x : snd m = Ok x -> fst (nbind m f) = (fst m ++ fst (f x))%list.
Proof. unfold nbind. intros ->. reflexivity. Qed.
Lemma fst_nbind_err {A B} (m : noted A) (f : A -> noted B) e : snd m = Err e -> nbind m f = (fst m, Err e).
Proof. unfold nbind. intros ->. reflexivity. Qed.
Lemma nbind_in {A B} w (m : noted A) (f : A -> noted B) : In w (fst (nbind m f)) ->
  In w (fst m) \/ exists x, snd m = Ok x /\ In w (fst (f x)).
Proof.
  unfold nbind. destruct (snd m) as [x|e]; cbn; [|auto]. intros I. apply in_app_or in I. destruct I; [auto|eauto].
Qed.

(* ------------------------------------------------------------ outcomes *)
Section Outcomes.
  Variable grid : list num -> list num -> list num -> num -> num -> num.
  Lemma out_query w t x y : snd (query_w grid w t x y) = query grid t x y.
  Proof. destruct t; reflexivity. Qed.
  Lemma out_prop ms hs rpm p w : snd (prop_efficiency_w ms hs rpm p w) = prop_efficiency ms hs rpm p w.
  Proof.
    unfold prop_efficiency_w, prop_efficiency. rewrite snd_nbind. unfold silent. destruct p as [|q|]; cbn [snd rbind].
    - rewrite snd_nbind. cbn [snd]. destruct (ansatzprop _ _ _ _ _) as [q|]; [|reflexivity]. cbn.
      destruct (entries w) as [l|]; [|reflexivity]. cbn. rewrite !snd_nbind. cbn [snd]. destruct (efficiency _ _ _ _ _); [|reflexivity].
      cbn [rbind]. rewrite !snd_nbind. cbn [snd]. destruct (vsound_mps _ _); [|reflexivity]. cbn [rbind]. rewrite snd_nbind. reflexivity.
    - rewrite snd_nbind. cbn [snd].
      destruct (entries w) as [l|]; [|reflexivity]. cbn [rbind]. rewrite !snd_nbind. cbn [snd]. destruct (efficiency _ _ _ _ _); [|reflexivity].
      cbn [rbind]. rewrite !snd_nbind. cbn [snd]. destruct (vsound_mps _ _); [|reflexivity]. cbn [rbind]. rewrite snd_nbind. reflexivity.
    - reflexivity.
  Qed.
  Lemma out_cold d m h rpm p : snd (tp_coldthrust_w grid d m h rpm p) = tp_coldthrust grid d m h rpm p.
  Proof.
    unfold tp_coldthrust_w, tp_coldthrust, tp_shaftpower_w, tp_shaftpower. cbv zeta. rewrite snd_nbind, out_query.
    destruct (query _ _ _ _) as [w|]; [|reflexivity]. cbn [rbind]. rewrite snd_nbind, out_prop. reflexivity.
  Qed.
  Lemma out_tpthrust d m h rpm p : snd (tp_thrust_w grid d m h rpm p) = tp_thrust grid d m h rpm p.
  Proof.
    unfold tp_thrust_w, tp_thrust, tp_hotthrust_w, tp_hotthrust. cbv zeta. rewrite snd_nbind, out_query.
    destruct (query _ _ _ _) as [w|]; [|reflexivity]. cbn [rbind]. rewrite snd_nbind, out_cold.
    destruct (tp_coldthrust _ _ _ _ _ _); [|reflexivity]. cbn [rbind]. rewrite snd_nbind. reflexivity.
  Qed.
  Lemma out_tpcorr d m h : snd (tp_sl_powercorr_w grid d m h) = tp_sl_powercorr grid d m h.
  Proof. unfold tp_sl_powercorr_w, tp_sl_powercorr, tp_shaftpower_w, tp_shaftpower. rewrite snd_nbind, out_query. reflexivity. Qed.
  Lemma out_tptsfc d m h rpm p : snd (tp_tsfc_w grid d m h rpm p) = tp_tsfc grid d m h rpm p.
  Proof.
    unfold tp_tsfc_w, tp_tsfc, tp_shaftpower_w, tp_shaftpower, tp_bsfc_at_w, tp_bsfc_at. cbv zeta. rewrite snd_nbind, out_query.
    destruct (query _ _ _ _) as [w|]; [|reflexivity]. cbn [rbind]. rewrite snd_nbind, out_prop.
    destruct (prop_efficiency _ _ _ _ _); [|reflexivity]. cbn [rbind]. rewrite snd_nbind, out_query. reflexivity.
  Qed.
  Lemma out_pibsfc d x y b : snd (pi_bsfc_at_w grid d x y b) = pi_bsfc_at grid d x y b.
  Proof. unfold pi_bsfc_at_w, pi_bsfc_at. destruct (String.eqb _ _); [apply out_query|]. destruct (String.eqb _ _); [apply out_query|reflexivity]. Qed.
  Lemma out_pithrust d m h rpm p : snd (pi_thrust_w grid d m h rpm p) = pi_thrust grid d m h rpm p.
  Proof.
    unfold pi_thrust_w, pi_thrust, pi_shaftpower_w, pi_shaftpower. cbv zeta. rewrite snd_nbind, out_query.
    destruct (query _ _ _ _) as [w|]; [|reflexivity]. cbn [rbind]. rewrite snd_nbind, out_prop. reflexivity.
  Qed.
  Lemma out_picorr d m h : snd (pi_sl_powercorr_w grid d m h) = pi_sl_powercorr grid d m h.
  Proof. unfold pi_sl_powercorr_w, pi_sl_powercorr, pi_shaftpower_w, pi_shaftpower. rewrite snd_nbind, out_query. reflexivity. Qed.
  Lemma out_pitsfc d m h rpm p b : snd (pi_tsfc_w grid d m h rpm p b) = pi_tsfc grid d m h rpm p b.
  Proof.
    unfold pi_tsfc_w, pi_tsfc, pi_shaftpower_w, pi_shaftpower. cbv zeta. rewrite snd_nbind, out_query.
    destruct (query _ _ _ _) as [w|]; [|reflexivity]. cbn [rbind]. rewrite snd_nbind, out_prop.
    destruct (prop_efficiency _ _ _ _ _); [|reflexivity]. cbn [rbind]. rewrite snd_nbind. cbn [silent snd].
    destruct (some_val w); [|reflexivity]. cbn [rbind]. rewrite snd_nbind, out_pibsfc. reflexivity.
  Qed.
  Lemma out_bsec d x y : snd (el_bsec_w grid d x y) = el_bsec grid d x y.
  Proof.
    unfold el_bsec_w, el_bsec, el_efficiency_w, el_efficiency. rewrite snd_nbind, out_query.
    destruct (query _ _ _ _); [|reflexivity]. cbn [rbind]. rewrite snd_nbind. reflexivity.
  Qed.
  Lemma out_elthrust w m h rpm p : snd (el_thrust_w w m h rpm p) = el_thrust w m h rpm p.
  Proof. unfold el_thrust_w, el_thrust. cbv zeta. rewrite snd_nbind, out_prop. reflexivity. Qed.
  Lemma out_jtcorr d m h : snd (jt_sl_thrustcorr_w grid d m h) = jt_sl_thrustcorr grid d m h.
  Proof. unfold jt_sl_thrustcorr_w, jt_sl_thrustcorr, jt_thrust_w, jt_thrust. rewrite snd_nbind, out_query. reflexivity. Qed.
  Lemma out_poly w d x : snd (poly_deck_w w d x) = poly_deck d x.
  Proof.
    unfold poly_deck_w, poly_deck. destruct d as [[p l]|]; [|reflexivity].
    rewrite snd_nbind. cbn [silent snd]. destruct (last_index l); [|reflexivity]. cbn [rbind].
    rewrite snd_nbind. cbn [silent snd]. destruct (index l 0) eqn:E0; [|reflexivity]. cbn [rbind].
    unfold poly_query_w, poly_query. rewrite snd_nbind. cbn [silent snd]. destruct (index l 1); [|reflexivity]. cbn [rbind].
    destruct (nltb _ _); [reflexivity|]. rewrite snd_nbind, E0. cbn [silent snd rbind]. destruct (nltb _ _); reflexivity.
  Qed.
End Outcomes.

Lemma engine_outcomes grid :
  (forall d m h, snd (tp_hotthrust_w grid d m h) = tp_hotthrust grid d m h) /\
  (forall d m h, snd (tp_shaftpower_w grid d m h) = tp_shaftpower grid d m h) /\
  (forall d m h, snd (tp_bsfc_at_w grid d m h) = tp_bsfc_at grid d m h) /\
  (forall d m h rpm p, snd (tp_coldthrust_w grid d m h rpm p) = tp_coldthrust grid d m h rpm p) /\
  (forall d m h rpm p, snd (tp_thrust_w grid d m h rpm p) = tp_thrust grid d m h rpm p) /\
  (forall d m h, snd (tp_sl_powercorr_w grid d m h) = tp_sl_powercorr grid d m h) /\
  (forall d m h rpm p, snd (tp_tsfc_w grid d m h rpm p) = tp_tsfc grid d m h rpm p) /\
  (forall d r h, snd (pi_shaftpower_w grid d r h) = pi_shaftpower grid d r h) /\
  (forall d r w b, snd (pi_bsfc_at_w grid d r w b) = pi_bsfc_at grid d r w b) /\
  (forall d m h rpm p, snd (pi_thrust_w grid d m h rpm p) = pi_thrust grid d m h rpm p) /\
  (forall d r h, snd (pi_sl_powercorr_w grid d r h) = pi_sl_powercorr grid d r h) /\
  (forall d m h rpm p b, snd (pi_tsfc_w grid d m h rpm p b) = pi_tsfc grid d m h rpm p b) /\
  (forall d r t, snd (el_efficiency_w grid d r t) = el_efficiency grid d r t) /\
  (forall d r t, snd (el_bsec_w grid d r t) = el_bsec grid d r t) /\
  (forall w m h rpm p, snd (el_thrust_w w m h rpm p) = el_thrust w m h rpm p) /\
  (forall d m h, snd (jt_thrust_w grid d m h) = jt_thrust grid d m h) /\
  (forall d m t, snd (jt_tsfc_at_w grid d m t) = jt_tsfc_at grid d m t) /\
  (forall d m h, snd (jt_sl_thrustcorr_w grid d m h) = jt_sl_thrustcorr grid d m h) /\
  (forall d m, snd (jet_sl_thrust_w d m) = jet_sl_thrust d m) /\
  (forall d m, snd (jet_sl_take_off_thrust_w d m) = jet_sl_take_off_thrust d m).
Proof.
  repeat split; intros; auto using out_query, out_cold, out_tpthrust, out_tpcorr, out_tptsfc, out_pibsfc, out_pithrust,
    out_picorr, out_pitsfc, out_bsec, out_elthrust, out_jtcorr, out_poly; try apply out_query; apply out_poly.
Qed.

(* ------------------------------------------------------------- queries *)
Lemma rb_ok {A B} (m : res A) (f : A -> res B) r : rbind m f = Ok r -> exists x, m = Ok x /\ f x = Ok r.
Proof. destruct m; cbn; [eauto|discriminate]. Qed.
Lemma query_answers grid w t x y : answers (t <> None) w (query_w grid w t x y).
Proof.
  destruct t as [t|]; split; intros H; try contradiction; cbn.
  - split; [reflexivity|]. destruct (grid_table grid t x y); discriminate.
  - exfalso. apply H. discriminate.
  - split; reflexivity.
Qed.
Lemma option_map_none {A B} (f : A -> B) o : option_map f o <> None <-> o <> None.
Proof. destruct o; cbn; split; intros; congruence. Qed.
Lemma answers_iff {A} P Q w (m : noted (option A)) : (P <-> Q) -> answers P w m -> answers Q w m.
Proof. unfold answers. tauto. Qed.
Lemma table_queries grid :
  (forall d m h, answers (tp_thr d <> None) (NoData "Hot thrust data" "turboprop") (tp_hotthrust_w grid d m h)) /\
  (forall d m h, answers (tp_pwr d <> None) (NoData "power data" "turboprop") (tp_shaftpower_w grid d m h)) /\
  (forall d r h, answers (pi_pwr d <> None) (NoData "power data" "piston") (pi_shaftpower_w grid d r h)) /\
  (forall d r w, answers (pi_bsfc d <> None) (NoData "BSFC for best economy condition" "piston")
                         (pi_bsfc_at_w grid d r w "economy")) /\
  (forall d r w, answers (pi_bsfc_pwr d <> None) (NoData "BSFC for best power condition" "piston")
                         (pi_bsfc_at_w grid d r w "power")) /\
  (forall d r w b, b <> "economy"%string -> b <> "power"%string ->
     answers False (UnknownBest b) (pi_bsfc_at_w grid d r w b)) /\
  (forall d r t, answers (d <> None) (NoData "efficiency data" "electric") (el_efficiency_w grid d r t)) /\
  (forall d m h, answers (jt_thr d <> None) (NoData "Thrust data" "jet") (jt_thrust_w grid d m h)) /\
  (forall d m t, answers (jt_tsfc d <> None) (NoData "TSFC" "jet") (jt_tsfc_at_w grid d m t)).
Proof.
  repeat match goal with |- _ /\ _ => split end; intros; try apply query_answers.
  - unfold pi_bsfc_at_w. destruct (String.eqb_spec b "economy"); [contradiction|]. destruct (String.eqb_spec b "power"); [contradiction|].
    split; [intros []|]. split; reflexivity.
  - refine (answers_iff _ _ _ _ _ (query_answers _ _ _ _ _)). apply option_map_none.
  - refine (answers_iff _ _ _ _ _ (query_answers _ _ _ _ _)). apply option_map_none.
Qed.
Lemma bsfc_named grid d m h : answers (tp_bsfc d <> None) (NoData "TSFC" "turboprop") (tp_bsfc_at_w grid d m h).
Proof. refine (answers_iff _ _ _ _ _ (query_answers _ _ _ _ _)). apply option_map_none. Qed.

(* ----------------------------------------------------------- combined *)
Lemma prop_ok ms hs rpm p w r : snd (prop_efficiency_w ms hs rpm p w) = Ok r ->
  fst (prop_efficiency_w ms hs rpm p w) = propeller_warning p /\ w <> None.
Proof.
  unfold prop_efficiency_w. intros H. apply nbind_ok in H. destruct H as (q & Q & H & ->).
  apply nbind_ok in H. destruct H as (l & L & H & ->). cbn [silent fst snd app] in *.
  apply nbind_ok in H. destruct H as (e & E & H & ->). apply nbind_ok in H. destruct H as (vs & V & H & ->).
  apply nbind_ok in H. destruct H as (a & A & H & ->). cbn [silent fst snd app].
  rewrite app_nil_r. split.
  - destruct p; try reflexivity. apply nbind_ok in Q. destruct Q as (q' & _ & _ & ->). reflexivity.
  - destruct w; [discriminate|]. discriminate L.
Qed.
Lemma query_some grid w t x y z : snd (query_w grid w t x y) = Ok (Some z) -> fst (query_w grid w t x y) = [].
Proof. destruct t; [reflexivity|discriminate]. Qed.
Lemma some_val_ok o z : some_val o = Ok z -> o = Some z.
Proof. destruct o as [v|]; cbn; [intros H; injection H as ->; reflexivity|discriminate]. Qed.
Lemma tsfc_some b v e r : tsfc_of b v e = Ok r -> b <> None.
Proof. unfold tsfc_of. destruct b; [discriminate|]. cbn. discriminate. Qed.

Section Success.
  Variable grid : list num -> list num -> list num -> num -> num -> num.
  Lemma cold_success d m h rpm p r : snd (tp_coldthrust_w grid d m h rpm p) = Ok r ->
    fst (tp_coldthrust_w grid d m h rpm p) = propeller_warning p.
  Proof.
    unfold tp_coldthrust_w. cbv zeta. intros H. apply nbind_ok in H. destruct H as (w & W & H & ->).
    apply nbind_ok in H. destruct H as (e & E & H & ->). apply prop_ok in E. destruct E as (-> & N).
    destruct w as [w|]; [|contradiction]. unfold tp_shaftpower_w in *. rewrite (query_some _ _ _ _ _ _ W).
    cbn. apply app_nil_r.
  Qed.
  Lemma tpthrust_success d m h rpm p r : snd (tp_thrust_w grid d m h rpm p) = Ok r ->
    fst (tp_thrust_w grid d m h rpm p) = propeller_warning p.
  Proof.
    unfold tp_thrust_w. cbv zeta. intros H. apply nbind_ok in H. destruct H as (w & W & H & ->).
    apply nbind_ok in H. destruct H as (c & C & H & ->). apply cold_success in C. rewrite C.
    apply nbind_ok in H. destruct H as (z & Z & H & ->). cbn [silent snd] in Z. apply some_val_ok in Z. subst w.
    unfold tp_hotthrust_w in *. rewrite (query_some _ _ _ _ _ _ W). cbn. apply app_nil_r.
  Qed.
  Lemma tptsfc_success d m h rpm p r : snd (tp_tsfc_w grid d m h rpm p) = Ok r ->
    fst (tp_tsfc_w grid d m h rpm p) = propeller_warning p.
  Proof.
    unfold tp_tsfc_w. cbv zeta. intros H. apply nbind_ok in H. destruct H as (w & W & H & ->).
    apply nbind_ok in H. destruct H as (e & E & H & ->). apply prop_ok in E. destruct E as (-> & N).
    destruct w as [w|]; [|contradiction]. unfold tp_shaftpower_w in *. rewrite (query_some _ _ _ _ _ _ W).
    apply nbind_ok in H. destruct H as (b & B & H & ->). cbn [silent snd] in H. apply tsfc_some in H.
    destruct b as [b|]; [|contradiction]. unfold tp_bsfc_at_w in *. rewrite (query_some _ _ _ _ _ _ B). cbn. apply app_nil_r.
  Qed.
  Lemma pithrust_success d m h rpm p r : snd (pi_thrust_w grid d m h rpm p) = Ok r ->
    fst (pi_thrust_w grid d m h rpm p) = propeller_warning p.
  Proof.
    unfold pi_thrust_w. cbv zeta. intros H. apply nbind_ok in H. destruct H as (w & W & H & ->).
    apply nbind_ok in H. destruct H as (e & E & H & ->). apply prop_ok in E. destruct E as (-> & N).
    destruct w as [w|]; [|contradiction]. unfold pi_shaftpower_w in *. rewrite (query_some _ _ _ _ _ _ W).
    cbn. apply app_nil_r.
  Qed.
  Lemma pibsfc_some d x y b z : snd (pi_bsfc_at_w grid d x y b) = Ok (Some z) -> fst (pi_bsfc_at_w grid d x y b) = [].
  Proof.
    unfold pi_bsfc_at_w. destruct (String.eqb _ _); [apply query_some|]. destruct (String.eqb _ _); [apply query_some|discriminate].
  Qed.
  Lemma pitsfc_success d m h rpm p b r : snd (pi_tsfc_w grid d m h rpm p b) = Ok r ->
    fst (pi_tsfc_w grid d m h rpm p b) = propeller_warning p.
  Proof.
    unfold pi_tsfc_w. cbv zeta. intros H. apply nbind_ok in H. destruct H as (w & W & H & ->).
    apply nbind_ok in H. destruct H as (e & E & H & ->). apply prop_ok in E. destruct E as (-> & N).
    destruct w as [w|]; [|contradiction]. unfold pi_shaftpower_w in *. rewrite (query_some _ _ _ _ _ _ W).
    apply nbind_ok in H. destruct H as (w' & W' & H & ->). cbn [silent snd fst] in *.
    apply nbind_ok in H. destruct H as (c & B & H & ->). cbn [silent snd] in H. apply tsfc_some in H.
    destruct c as [c|]; [|contradiction]. rewrite (pibsfc_some _ _ _ _ _ B). cbn. apply app_nil_r.
  Qed.
  Lemma elthrust_success w m h rpm p r : snd (el_thrust_w w m h rpm p) = Ok r -> fst (el_thrust_w w m h rpm p) = propeller_warning p.
  Proof.
    unfold el_thrust_w. cbv zeta. intros H. apply nbind_ok in H. destruct H as (e & E & H & ->).
    apply prop_ok in E. destruct E as (-> & _). cbn. apply app_nil_r.
  Qed.
  Lemma corr_success w t x y (t' : option table) r :
    snd (nbind (query_w grid w t x y) (fun v => silent (normalised v t'))) = Ok r ->
    fst (nbind (query_w grid w t x y) (fun v => silent (normalised v t'))) = [].
  Proof.
    intros H. apply nbind_ok in H. destruct H as (v & V & H & ->). cbn [silent snd fst] in *.
    unfold normalised in H. destruct t' as [t'|]; [|discriminate]. apply rb_ok in H. destruct H as (m & _ & H).
    apply rb_ok in H. destruct H as (z & Z & _). apply some_val_ok in Z. subst v.
    rewrite (query_some _ _ _ _ _ _ V). reflexivity.
  Qed.
  Lemma bsec_success d x y r : snd (el_bsec_w grid d x y) = Ok r -> fst (el_bsec_w grid d x y) = [].
  Proof.
    unfold el_bsec_w. intros H. apply nbind_ok in H. destruct H as (v & V & H & ->).
    apply nbind_ok in H. destruct H as (z & Z & H & ->). cbn [silent snd] in Z. apply some_val_ok in Z. subst v.
    unfold el_efficiency_w in *. rewrite (query_some _ _ _ _ _ _ V). reflexivity.
  Qed.
End Success.

Lemma success_warnings grid :
  (forall d m h rpm p r, tp_coldthrust grid d m h rpm p = Ok r -> fst (tp_coldthrust_w grid d m h rpm p) = propeller_warning p) /\
  (forall d m h rpm p r, tp_thrust grid d m h rpm p = Ok r -> fst (tp_thrust_w grid d m h rpm p) = propeller_warning p) /\
  (forall d m h rpm p r, tp_tsfc grid d m h rpm p = Ok r -> fst (tp_tsfc_w grid d m h rpm p) = propeller_warning p) /\
  (forall d m h rpm p r, pi_thrust grid d m h rpm p = Ok r -> fst (pi_thrust_w grid d m h rpm p) = propeller_warning p) /\
  (forall d m h rpm p b r, pi_tsfc grid d m h rpm p b = Ok r -> fst (pi_tsfc_w grid d m h rpm p b) = propeller_warning p) /\
  (forall w m h rpm p r, el_thrust w m h rpm p = Ok r -> fst (el_thrust_w w m h rpm p) = propeller_warning p) /\
  (forall d m h r, tp_sl_powercorr grid d m h = Ok r -> fst (tp_sl_powercorr_w grid d m h) = []) /\
  (forall d s h r, pi_sl_powercorr grid d s h = Ok r -> fst (pi_sl_powercorr_w grid d s h) = []) /\
  (forall d m h r, jt_sl_thrustcorr grid d m h = Ok r -> fst (jt_sl_thrustcorr_w grid d m h) = []) /\
  (forall d s t r, el_bsec grid d s t = Ok r -> fst (el_bsec_w grid d s t) = []).
Proof.
  repeat match goal with |- _ /\ _ => split end; intros.
  - eapply cold_success. rewrite out_cold. eassumption.
  - eapply tpthrust_success. rewrite out_tpthrust. eassumption.
  - eapply tptsfc_success. rewrite out_tptsfc. eassumption.
  - eapply pithrust_success. rewrite out_pithrust. eassumption.
  - eapply pitsfc_success. rewrite out_pitsfc. eassumption.
  - eapply elthrust_success. rewrite out_elthrust. eassumption.
  - eapply corr_success. rewrite <- H. apply out_tpcorr.
  - eapply corr_success. rewrite <- H. apply out_picorr.
  - eapply corr_success. rewrite <- H. apply out_jtcorr.
  - eapply bsec_success. rewrite out_bsec. eassumption.
Qed.

(* ---------------------------------------------------- missing data *)
Lemma prop_none ms hs rpm p : exists e, snd (prop_efficiency_w ms hs rpm p None) = Err e /\
  (fst (prop_efficiency_w ms hs rpm p None) = [] \/ fst (prop_efficiency_w ms hs rpm p None) = propeller_warning p).
Proof.
  unfold prop_efficiency_w. destruct p as [|q|]; cbn [silent].
  - destruct (ansatzprop _ _ _ _ _) as [q|e].
    + eexists. split; [reflexivity|]. right; reflexivity.
    + exists e. split; [reflexivity|]. left; reflexivity.
  - eexists. split; [reflexivity|]. left; reflexivity.
  - eexists. split; [reflexivity|]. left; reflexivity.
Qed.
Lemma missing_data grid :
  (forall d m h rpm p, tp_pwr d = None -> exists e ws, tp_coldthrust_w grid d m h rpm p = (NoData "power data" "turboprop" :: ws, Err e) /\
     (ws = [] \/ ws = propeller_warning p)) /\
  (forall d m h rpm p, tp_pwr d = None -> exists e ws, tp_tsfc_w grid d m h rpm p = (NoData "power data" "turboprop" :: ws, Err e) /\
     (ws = [] \/ ws = propeller_warning p)) /\
  (forall d m h rpm p, tp_thr d = None -> exists e ws, tp_thrust_w grid d m h rpm p = (NoData "Hot thrust data" "turboprop" :: ws, Err e)) /\
  (forall d m h rpm p, pi_pwr d = None -> exists e ws, pi_thrust_w grid d m h rpm p = (NoData "power data" "piston" :: ws, Err e) /\
     (ws = [] \/ ws = propeller_warning p)) /\
  (forall d m h rpm p b, pi_pwr d = None -> exists e ws, pi_tsfc_w grid d m h rpm p b = (NoData "power data" "piston" :: ws, Err e) /\
     (ws = [] \/ ws = propeller_warning p)) /\
  (forall d m h, tp_pwr d = None -> tp_sl_powercorr_w grid d m h = ([NoData "power data" "turboprop"], Err AttributeError)) /\
  (forall d s h, pi_pwr d = None -> pi_sl_powercorr_w grid d s h = ([NoData "power data" "piston"], Err AttributeError)) /\
  (forall d m h, jt_thr d = None -> jt_sl_thrustcorr_w grid d m h = ([NoData "Thrust data" "jet"], Err AttributeError)) /\
  (forall s t, el_bsec_w grid None s t = ([NoData "efficiency data" "electric"], Err TypeError)).
Proof.
  assert (X : forall {A} w (k : option val -> noted A) x y r,
    k None = r -> nbind (query_w grid w None x y) k = (w :: fst r, snd r)).
  { intros A w k x y r <-. cbn. unfold nbind. cbn. destruct (k None); reflexivity. }
  assert (Y : forall {A} ms hs rpm p (k : list num * val -> noted A), exists e ws,
     nbind (prop_efficiency_w ms hs rpm p None) k = (ws, Err e) /\ (ws = [] \/ ws = propeller_warning p)).
  { intros A ms hs rpm p k. destruct (prop_none ms hs rpm p) as (e & E & F). rewrite (fst_nbind_err _ _ _ E). eauto. }
  repeat match goal with |- _ /\ _ => split end; intros.
  - unfold tp_coldthrust_w, tp_shaftpower_w. cbv zeta. rewrite H, (X _ _ _ _ _ _ eq_refl).
    match goal with |- context [nbind (prop_efficiency_w ?a ?b ?c ?f None) ?k] => destruct (Y _ a b c f k) as (e & ws & -> & W) end. exists e, ws. split; [reflexivity|exact W].
  - unfold tp_tsfc_w, tp_shaftpower_w. cbv zeta. rewrite H, (X _ _ _ _ _ _ eq_refl).
    match goal with |- context [nbind (prop_efficiency_w ?a ?b ?c ?f None) ?k] => destruct (Y _ a b c f k) as (e & ws & -> & W) end. exists e, ws. split; [reflexivity|exact W].
  - unfold tp_thrust_w, tp_hotthrust_w. cbv zeta. rewrite H, (X _ _ _ _ _ _ eq_refl).
    match goal with |- context [nbind ?m ?k] => destruct m as [ws [c|e]] end; cbn; eauto.
  - unfold pi_thrust_w, pi_shaftpower_w. cbv zeta. rewrite H, (X _ _ _ _ _ _ eq_refl).
    match goal with |- context [nbind (prop_efficiency_w ?a ?b ?c ?f None) ?k] => destruct (Y _ a b c f k) as (e & ws & -> & W) end. exists e, ws. split; [reflexivity|exact W].
  - unfold pi_tsfc_w, pi_shaftpower_w. cbv zeta. rewrite H, (X _ _ _ _ _ _ eq_refl).
    match goal with |- context [nbind (prop_efficiency_w ?a ?b ?c ?f None) ?k] => destruct (Y _ a b c f k) as (e & ws & -> & W) end. exists e, ws. split; [reflexivity|exact W].
  - unfold tp_sl_powercorr_w, tp_shaftpower_w. rewrite H. reflexivity.
  - unfold pi_sl_powercorr_w, pi_shaftpower_w. rewrite H. reflexivity.
  - unfold jt_sl_thrustcorr_w, jt_thrust_w. rewrite H. reflexivity.
  - reflexivity.
Qed.

Lemma nbind_val {A B} (m : noted A) (f : A -> noted B) x : snd m = Ok x -> nbind m f = ((fst m ++ fst (f x))%list, snd (f x)).
Proof. unfold nbind. intros ->. reflexivity. Qed.
Lemma missing_consumption grid m h rpm p r :
  (forall d d', tp_tsfc grid d' m h rpm p = Ok r -> tp_pwr d = tp_pwr d' -> tp_bsfc d = None ->
     tp_tsfc_w grid d m h rpm p = ((propeller_warning p ++ [NoData "TSFC" "turboprop"])%list, Err TypeError)) /\
  (forall d d' b b', pi_tsfc grid d' m h rpm p b' = Ok r -> pi_pwr d = pi_pwr d' -> exists w,
     (b = "economy"%string -> w = NoData "BSFC for best economy condition" "piston") /\
     (b = "power"%string -> w = NoData "BSFC for best power condition" "piston") /\
     (b <> "economy"%string -> b <> "power"%string -> w = UnknownBest b) /\
     ((b = "economy"%string -> pi_bsfc d = None) -> (b = "power"%string -> pi_bsfc_pwr d = None) ->
      pi_tsfc_w grid d m h rpm p b = ((propeller_warning p ++ [w])%list, Err TypeError))).
Proof.
  split.
  - intros d d' H P B. rewrite <- out_tptsfc in H. unfold tp_tsfc_w in *. cbv zeta in *.
    apply nbind_ok in H. destruct H as (v & V & H & _). apply nbind_ok in H. destruct H as (e & E & _ & _).
    pose proof (prop_ok _ _ _ _ _ _ E) as (L & N). destruct v as [v|]; [|contradiction].
    unfold tp_shaftpower_w, tp_bsfc_at_w in *. rewrite P, B, (nbind_val _ _ _ V).
    pose proof (query_some _ _ _ _ _ _ V) as ->. rewrite (nbind_val _ _ _ E), L. reflexivity.
  - intros d d' b b' H P. rewrite <- out_pitsfc in H. unfold pi_tsfc_w in *. cbv zeta in *.
    apply nbind_ok in H. destruct H as (v & V & H & _). apply nbind_ok in H. destruct H as (e & E & _ & _).
    pose proof (prop_ok _ _ _ _ _ _ E) as (L & N). destruct v as [v|]; [|contradiction].
    exists (if String.eqb b "economy" then NoData "BSFC for best economy condition" "piston"
            else if String.eqb b "power" then NoData "BSFC for best power condition" "piston" else UnknownBest b).
    split; [intros ->; reflexivity|]. split; [intros ->; reflexivity|].
    split. { intros X Y. apply String.eqb_neq in X. apply String.eqb_neq in Y. rewrite X, Y. reflexivity. }
    intros X Y. unfold pi_shaftpower_w, pi_bsfc_at_w in *. rewrite P, (nbind_val _ _ _ V).
    pose proof (query_some _ _ _ _ _ _ V) as ->. rewrite (nbind_val _ _ _ E), L.
    destruct (String.eqb_spec b "economy") as [->|_]; [rewrite (X eq_refl); reflexivity|].
    destruct (String.eqb_spec b "power") as [->|_]; [rewrite (Y eq_refl); reflexivity|]. reflexivity.
Qed.

(* --------------------------------------------- nothing without a reason *)
Lemma prop_only ms hs rpm p w x : In x (fst (prop_efficiency_w ms hs rpm p w)) -> In x (propeller_warning p).
Proof.
  unfold prop_efficiency_w. intros I. apply nbind_in in I. destruct I as [I|(q & _ & I)].
  - destruct p; cbn [silent fst] in I; try contradiction. apply nbind_in in I. destruct I as [[]|(q & _ & I)].
    apply nbind_in in I. destruct I as [I|(u & _ & [])]. exact I.
  - repeat (apply nbind_in in I; destruct I as [[]|(? & _ & I)]). contradiction.
Qed.
Lemma query_only grid w t x y z : In z (fst (query_w grid w t x y)) -> z = w /\ t = None.
Proof. destruct t as [t|]; cbn; [intros []|]. intros [H|[]]. auto. Qed.
Lemma no_reason grid w :
  (forall d m h rpm p, In w (fst (tp_coldthrust_w grid d m h rpm p)) ->
     In w (propeller_warning p) \/ w = NoData "power data" "turboprop" /\ tp_pwr d = None) /\
  (forall sw m h rpm p, In w (fst (el_thrust_w sw m h rpm p)) -> In w (propeller_warning p)) /\
  (forall d m h, In w (fst (tp_sl_powercorr_w grid d m h)) -> w = NoData "power data" "turboprop" /\ tp_pwr d = None) /\
  (forall d r h, In w (fst (pi_sl_powercorr_w grid d r h)) -> w = NoData "power data" "piston" /\ pi_pwr d = None) /\
  (forall d m h, In w (fst (jt_sl_thrustcorr_w grid d m h)) -> w = NoData "Thrust data" "jet" /\ jt_thr d = None) /\
  (forall d r t, In w (fst (el_bsec_w grid d r t)) -> w = NoData "efficiency data" "electric" /\ d = None) /\
  (forall d m h rpm p, In w (fst (tp_thrust_w grid d m h rpm p)) ->
     In w (propeller_warning p) \/ w = NoData "Hot thrust data" "turboprop" /\ tp_thr d = None \/
     w = NoData "power data" "turboprop" /\ tp_pwr d = None) /\
  (forall d m h rpm p, In w (fst (tp_tsfc_w grid d m h rpm p)) ->
     In w (propeller_warning p) \/ w = NoData "power data" "turboprop" /\ tp_pwr d = None \/
     w = NoData "TSFC" "turboprop" /\ tp_bsfc d = None) /\
  (forall d m h rpm p, In w (fst (pi_thrust_w grid d m h rpm p)) ->
     In w (propeller_warning p) \/ w = NoData "power data" "piston" /\ pi_pwr d = None) /\
  (forall d m h rpm p b, In w (fst (pi_tsfc_w grid d m h rpm p b)) ->
     In w (propeller_warning p) \/ w = NoData "power data" "piston" /\ pi_pwr d = None \/
     b = "economy"%string /\ w = NoData "BSFC for best economy condition" "piston" /\ pi_bsfc d = None \/
     b = "power"%string /\ w = NoData "BSFC for best power condition" "piston" /\ pi_bsfc_pwr d = None \/
     b <> "economy"%string /\ b <> "power"%string /\ w = UnknownBest b).
Proof.
  assert (C : forall d m h rpm p, In w (fst (tp_coldthrust_w grid d m h rpm p)) ->
     In w (propeller_warning p) \/ w = NoData "power data" "turboprop" /\ tp_pwr d = None).
  { intros d m h rpm p I. unfold tp_coldthrust_w in I. cbv zeta in I. apply nbind_in in I. destruct I as [I|(v & _ & I)].
    - right. exact (query_only _ _ _ _ _ _ I).
    - apply nbind_in in I. destruct I as [I|(e & _ & [])]. left. exact (prop_only _ _ _ _ _ _ I). }
  repeat match goal with |- _ /\ _ => split end.
  - exact C.
  - intros sw m h rpm p I. unfold el_thrust_w in I. cbv zeta in I. apply nbind_in in I. destruct I as [I|(e & _ & [])].
    exact (prop_only _ _ _ _ _ _ I).
  - intros d m h I. unfold tp_sl_powercorr_w in I. apply nbind_in in I. destruct I as [I|(v & _ & [])]. exact (query_only _ _ _ _ _ _ I).
  - intros d m h I. unfold pi_sl_powercorr_w in I. apply nbind_in in I. destruct I as [I|(v & _ & [])]. exact (query_only _ _ _ _ _ _ I).
  - intros d m h I. unfold jt_sl_thrustcorr_w in I. apply nbind_in in I. destruct I as [I|(v & _ & [])]. exact (query_only _ _ _ _ _ _ I).
  - intros d r t I. unfold el_bsec_w in I. apply nbind_in in I. destruct I as [I|(v & _ & I)].
    + apply query_only in I. destruct I as (-> & N). split; [reflexivity|]. destruct d; [discriminate|reflexivity].
    + apply nbind_in in I. destruct I as [[]|(u & _ & [])].
  - intros d m h rpm p I. unfold tp_thrust_w in I. cbv zeta in I. apply nbind_in in I. destruct I as [I|(v & _ & I)].
    + right; left. exact (query_only _ _ _ _ _ _ I).
    + apply nbind_in in I. destruct I as [I|(e & _ & I)].
      * apply C in I. tauto.
      * apply nbind_in in I. destruct I as [[]|(? & _ & [])].
  - intros d m h rpm p I. unfold tp_tsfc_w in I. cbv zeta in I. apply nbind_in in I. destruct I as [I|(v & _ & I)].
    + right; left. exact (query_only _ _ _ _ _ _ I).
    + apply nbind_in in I. destruct I as [I|(e & _ & I)]; [left; exact (prop_only _ _ _ _ _ _ I)|].
      apply nbind_in in I. destruct I as [I|(? & _ & [])]. right; right. apply query_only in I. destruct I as (-> & N).
      split; [reflexivity|]. destruct (tp_bsfc d); [discriminate|reflexivity].
  - intros d m h rpm p I. unfold pi_thrust_w in I. cbv zeta in I. apply nbind_in in I. destruct I as [I|(v & _ & I)].
    + right. exact (query_only _ _ _ _ _ _ I).
    + apply nbind_in in I. destruct I as [I|(e & _ & [])]. left; exact (prop_only _ _ _ _ _ _ I).
  - intros d m h rpm p b I. unfold pi_tsfc_w in I. cbv zeta in I. apply nbind_in in I. destruct I as [I|(v & _ & I)].
    + right; left. exact (query_only _ _ _ _ _ _ I).
    + apply nbind_in in I. destruct I as [I|(e & _ & I)]; [left; exact (prop_only _ _ _ _ _ _ I)|].
      apply nbind_in in I. destruct I as [[]|(? & _ & I)].
      apply nbind_in in I. destruct I as [I|(? & _ & [])]. unfold pi_bsfc_at_w in I.
      destruct (String.eqb_spec b "economy"); [apply query_only in I; tauto|].
      destruct (String.eqb_spec b "power"); [apply query_only in I; tauto|].
      destruct I as [I|[]]. auto 10.
Qed.

(* ----------------------------------------------------- polynomials *)
Lemma poly_warnings w p lo hi x :
  let m := poly_deck_w w (Some (p, [Fin lo; Fin hi])) (Fin x) in
  (hi < x -> m = ([MachTooHigh (Fin hi)], Ok None)) /\
  (x <= hi -> x < lo -> m = ([MachTooLow (Fin lo)], Ok None)) /\
  (lo <= x <= hi -> exists y, m = ([], Ok (Some y))).
Proof.
  cbv zeta. cbn [poly_deck_w]. unfold last_index, poly_query_w, nbind. cbn [rev app silent fst snd index nth_error].
  unfold index. cbn [nth_error snd fst silent app].
  split; [|split].
  - intros H. rewrite nltb_fin. destruct (Rltb_reflect hi x); [|lra]. reflexivity.
  - intros H1 H2. rewrite !nltb_fin. destruct (Rltb_reflect hi x); [lra|]. cbn [snd fst silent app].
    destruct (Rltb_reflect x lo); [|lra]. reflexivity.
  - intros H. rewrite !nltb_fin. destruct (Rltb_reflect hi x); [lra|]. cbn [snd fst silent app].
    destruct (Rltb_reflect x lo); [lra|]. eexists; reflexivity.
Qed.
Lemma deck_polynomials d p lo hi x m :
  jt_sl d = Some (p, [Fin lo; Fin hi]) /\ m = jet_sl_thrust_w d (Fin x) \/
  jt_to d = Some (p, [Fin lo; Fin hi]) /\ m = jet_sl_take_off_thrust_w d (Fin x) ->
  (hi < x -> m = ([MachTooHigh (Fin hi)], Ok None)) /\
  (x <= hi -> x < lo -> m = ([MachTooLow (Fin lo)], Ok None)) /\
  (lo <= x <= hi -> exists y, m = ([], Ok (Some y))).
Proof.
  unfold jet_sl_thrust_w, jet_sl_take_off_thrust_w. intros [(E & ->)|(E & ->)]; rewrite E; apply poly_warnings.
Qed.
Lemma poly_missing d x : (jt_sl d = None -> jet_sl_thrust_w d x = ([NoData "sea level thrust data" "jet"], Ok None)) /\
  (jt_to d = None -> jet_sl_take_off_thrust_w d x = ([NoData "sea level take off thrust data" "jet"], Ok None)).
Proof. unfold jet_sl_thrust_w, jet_sl_take_off_thrust_w. split; intros ->; reflexivity. Qed.

(* ------------------------------------------------------------- examples *)
From Verif Require Import PropulsionProofs PropulsionProofs2 PropulsionProofs3 PropulsionProofs4 PropulsionProofs5
  PropulsionProofs6 PropulsionProofs7 PropulsionProofs8 PropulsionProofs9.
Lemma ansatz_thrust : exists P rpm r, 0 < P /\ el_thrust (VNum (Fin P)) (VNum (Fin 0.5)) (VNum (Fin 0)) (Fin rpm) PropellerNone = Ok r /\
  fst (el_thrust_w (VNum (Fin P)) (VNum (Fin 0.5)) (VNum (Fin 0)) (Fin rpm) PropellerNone) = [UsesAnsatz].
Proof.
  destruct ansatz_tip as (rho & a & P & rpm & q & D & A & HP & Q & _).
  assert (So : vsound_mps (isa 0) (VArr [Fin 0]) = Ok (VNum (Fin a))).
  { change [Fin 0] with (map Fin [0]). rewrite (sound_batch [0] [a]); [reflexivity|discriminate|]. constructor; [exists rho; exact A|constructor]. }
  destruct (efficiency_elementwise q [Fin 0.5] [0] [Fin P] (Fin rpm) eq_refl eq_refl ltac:(discriminate)) as (etas & E & L & _).
  { constructor; [lra|constructor]. }
  destruct etas as [|e [|? ?]]; try discriminate L.
  assert (T : exists r, el_thrust (VNum (Fin P)) (VNum (Fin 0.5)) (VNum (Fin 0)) (Fin rpm) PropellerNone = Ok r).
  { unfold el_thrust. cbn [recastasnpfloatarray]. unfold prop_efficiency. cbn [averaged recastasnpfloatarray]. rewrite Q. cbn [rbind].
    change (entries (Some (VArr [Fin P]))) with (@Ok (list num) [Fin P]). cbn [rbind]. change (map Fin [0]) with [Fin 0] in E. rewrite E. cbn [rbind].
    rewrite So. cbn [rbind vop2 rmap map]. eexists. cbn. reflexivity. }
  destruct T as (r & T). exists P, rpm, r. split; [exact HP|]. split; [exact T|].
  rewrite (elthrust_success _ _ _ _ _ r); [reflexivity|]. rewrite out_elthrust. exact T.
Qed.
Lemma engine_examples :
  (exists P rpm r, 0 < P /\ el_thrust (VNum (Fin P)) (VNum (Fin 0.5)) (VNum (Fin 0)) (Fin rpm) PropellerNone = Ok r) /\
  (exists d m rpm p r, pi_thrust exact_grid d m (VNum (Fin 0)) rpm (PropellerObj p) = Ok r) /\
  (exists d m rpm p s, tp_tsfc exact_grid d (VNum (Fin m)) (VNum (Fin 0)) rpm (PropellerObj p) = Ok s) /\
  (exists d m rpm p s, pi_tsfc exact_grid d (VNum (Fin m)) (VNum (Fin 0)) rpm (PropellerObj p) "economy" = Ok s) /\
  (jt_thr climbing_deck <> None /\ jt_tsfc climbing_deck = None /\
   exists r, jt_sl_thrustcorr exact_grid climbing_deck (VNum (Fin 0)) (VNum (Fin 0)) = Ok r).
Proof.
  split; [|split; [|split; [|split]]].
  - destruct ansatz_thrust as (P & rpm & r & A & B & _). eauto 6.
  - destruct piston_case as (d & m & rpm & p & r & e & P & _ & H & _). eauto 8.
  - destruct turboprop_case as (d & m & P & rpm & p & r & s & e & _ & _ & _ & _ & _ & _ & _ & (z & H) & _). exists d, m, rpm, p, z. exact H.
  - destruct piston_tsfc_case as (d & m & rpm & p & r & _ & _ & _ & _ & H). exists d, m, rpm, p, r. exact H.
  - split; [discriminate|]. split; [reflexivity|]. destruct not_sea_level as (_ & _ & c & H & _). eauto.
Qed.
