(** Engine decks: power balance, fuel consumption, normalisation, missing data. *)
From Verif Require Import Base BaseFacts AtmosModel AtmosSpec AtmosProofs ConceptModel ConceptProofs PropulsionModel PropulsionSpec PropulsionProofs PropulsionProofs5 PropulsionProofs6.
Open Scope R_scope.

Lemma Forall2_length {A B} (R : A -> B -> Prop) l m : Forall2 R l m -> List.length l = List.length m.
Proof. induction 1; cbn; congruence. Qed.
Definition map2 (f : num -> num -> num) (a b : list num) : list num := map (fun p => f (fst p) (snd p)) (combine a b).
Lemma map2_length f a b : List.length a = List.length b -> List.length (map2 f a b) = List.length b.
Proof. intros E. unfold map2. rewrite map_length, combine_length. lia. Qed.
Lemma map2_nth f : forall a b i x y, nth_error a i = Some x -> nth_error b i = Some y -> nth_error (map2 f a b) i = Some (f x y).
Proof. induction a as [|u a IH]; intros [|v b] [|i] x y; cbn; try discriminate; [intros [= <-] [= <-]; reflexivity|apply IH]. Qed.
Lemma vop2_arr f a b : List.length a = List.length b -> vop2 f (VArr a) (VArr b) = Ok (VArr (map2 f a b)).
Proof. intros E. cbn [vop2]. unfold broadcast. rewrite E, Nat.eqb_refl. reflexivity. Qed.
Lemma vop2_revert f a b : List.length a = List.length b -> vop2 f (VArr a) (reverttoscalar (VList b)) = Ok (VArr (map2 f a b)).
Proof.
  intros E. destruct b as [|y [|z b]]; cbn [reverttoscalar].
  - destruct a; [reflexivity|discriminate].
  - destruct a as [|x [|w a]]; try discriminate. reflexivity.
  - cbn [vop2]. unfold broadcast. rewrite E, Nat.eqb_refl. reflexivity.
Qed.
Lemma nmul_nan_r x : (x * NonFin)%num = NonFin. Proof. destruct x; reflexivity. Qed.
Lemma nadd_nan_r x : (x + NonFin)%num = NonFin. Proof. destruct x; reflexivity. Qed.

Section Decks.
Variable grid : list num -> list num -> list num -> num -> num -> num.
Lemma grid_arr t a b : List.length a = List.length b -> grid_table grid t (VArr a) (VArr b) = Ok (VArr (map2 (grid (tx t) (ty t) (tz t)) a b)).
Proof. intros E. unfold grid_table. cbn [toarr]. apply vop2_arr, E. Qed.

Lemma prop_efficiency_spec ms hs sounds rpm prop Ws : ms <> [] -> List.length ms = List.length hs -> List.length Ws = List.length hs ->
  Forall2 (fun h a => exists r, standard_air h r a) hs sounds -> forall r,
  prop_efficiency (map Fin ms) (map Fin hs) rpm prop (Some (VArr Ws)) = Ok r ->
  exists p q, uses prop (map Fin ms) (map Fin hs) rpm Ws p /\ efficiency p (map Fin ms) (map Fin hs) Ws rpm = Ok (q, fst r) /\
    snd r = VArr (map2 nmul (map Fin ms) (map Fin sounds)).
Proof.
  intros Ne L1 L2 F r. unfold prop_efficiency. cbn [entries averaged recastasnpfloatarray].
  assert (V : vsound_mps (isa 0) (VArr (map Fin hs)) = Ok (reverttoscalar (VList (map Fin sounds)))).
  { apply sound_batch; [|exact F]. destruct ms; [congruence|]. destruct hs; [discriminate|discriminate]. }
  assert (Ls : List.length (map Fin ms) = List.length (map Fin sounds)) by (rewrite !map_length, L1; apply (Forall2_length _ _ _ F)).
  assert (K : forall p, uses prop (map Fin ms) (map Fin hs) rpm Ws p ->
    (do e <- efficiency p (map Fin ms) (map Fin hs) Ws rpm; do vs <- vsound_mps (isa 0) (VArr (map Fin hs)); do airspeed <- vop2 nmul (VArr (map Fin ms)) vs; Ok (snd e, airspeed)) = Ok r ->
    exists p q, uses prop (map Fin ms) (map Fin hs) rpm Ws p /\ efficiency p (map Fin ms) (map Fin hs) Ws rpm = Ok (q, fst r) /\ snd r = VArr (map2 nmul (map Fin ms) (map Fin sounds))).
  { intros p U. destruct (efficiency p (map Fin ms) (map Fin hs) Ws rpm) as [[q etas]|] eqn:E; [|discriminate]. cbn [rbind].
    rewrite V. cbn [rbind]. rewrite vop2_revert by exact Ls. cbn [rbind]. intros [= <-]. exists p, q. cbn [fst snd]. split; [exact U|]. split; [exact E|reflexivity]. }
  destruct prop as [|p|].
  - destruct (ansatzprop _ _ _ _ _) as [p|] eqn:A; [|discriminate]. cbn [rbind]. apply K. right. split; [reflexivity|exact A].
  - cbn [rbind]. apply K. left. reflexivity.
  - discriminate.
Qed.
Lemma prop_efficiency_cases ms hs rpm prop Ws r : ms <> [] -> List.length ms = List.length hs -> List.length Ws = List.length hs ->
  Forall (fun h => h <= 50000) hs ->
  prop_efficiency (map Fin ms) (map Fin hs) rpm prop (Some (VArr Ws)) = Ok r ->
  exists p q sounds, uses prop (map Fin ms) (map Fin hs) rpm Ws p /\ efficiency p (map Fin ms) (map Fin hs) Ws rpm = Ok (q, fst r) /\
    List.length (fst r) = List.length hs /\
    Forall2 (fun h a => exists r, standard_air h r a) hs sounds /\ snd r = VArr (map2 nmul (map Fin ms) (map Fin sounds)).
Proof.
  intros Ne L1 L2 F E. destruct (airs_exist hs F) as (rs & ss & _ & A2).
  destruct (prop_efficiency_spec ms hs ss rpm prop Ws Ne L1 L2 A2 r E) as (p & q & U & Ef & S). exists p, q, ss.
  split; [exact U|]. split; [exact Ef|]. split; [|split; assumption]. destruct (efficiency_keeps _ _ _ _ _ _ _ Ef) as (_ & Le). lia.
Qed.
Lemma air_same h r a r' a' : standard_air h r a -> standard_air h r' a' -> a = a'.
Proof. intros (_ & A & _) (_ & B & _). congruence. Qed.
Lemma speed_nth ms hs sounds i m h rho a : Forall2 (fun h a => exists r, standard_air h r a) hs sounds ->
  nth_error ms i = Some m -> nth_error hs i = Some h -> standard_air h rho a ->
  nth_error (map2 nmul (map Fin ms) (map Fin sounds)) i = Some (Fin (m * a)).
Proof.
  intros F Hm Hh A. destruct (Forall2_nth' _ _ _ F i h Hh) as (a' & Ha & (r & A')). rewrite (air_same _ _ _ _ _ A A') in *.
  rewrite (map2_nth nmul _ _ i (Fin m) (Fin a')), nmul_fin; [reflexivity| |]; rewrite nth_error_map; [rewrite Hm|rewrite Ha]; reflexivity.
Qed.
Lemma cold_spec ms hs sounds Ws etas : List.length ms = List.length hs -> List.length Ws = List.length hs -> List.length etas = List.length hs ->
  Forall2 (fun h a => exists r, standard_air h r a) hs sounds ->
  exists ts, cold_thrust etas (Some (VArr Ws)) (VArr (map2 nmul (map Fin ms) (map Fin sounds))) = Ok (VArr ts) /\ thrust_balance ms hs Ws etas ts /\
    forall i, nth_error Ws i = Some NonFin -> nth_error ts i = Some NonFin.
Proof.
  intros L1 L2 L3 F. unfold cold_thrust. cbn [some_val rbind]. rewrite vop2_arr by lia. cbn [rbind].
  pose proof (Forall2_length _ _ _ F) as Lf.
  assert (Lv : List.length (map2 nmul (map Fin ms) (map Fin sounds)) = List.length hs) by (rewrite map2_length; rewrite !map_length; lia).
  assert (Lw : List.length (map2 nmul etas Ws) = List.length hs) by (rewrite map2_length; lia).
  rewrite vop2_arr by lia. eexists. split; [reflexivity|]. split; [split|].
  - rewrite map2_length; lia.
  - intros i m h rho a W eta Hm Hh A Nm HW He. pose proof (speed_nth ms hs sounds i m h rho a F Hm Hh A) as V.
    destruct A as (_ & _ & _ & Ha). assert (Nv : m * a <> 0) by (apply Rmult_integral_contrapositive_currified; lra).
    exists (eta * W / (m * a)). split; [|field; split; [lra|exact Nm]].
    rewrite (map2_nth ndiv _ _ i (Fin (eta * W)) (Fin (m * a))); [rewrite ndiv_fin by exact Nv; reflexivity| |exact V].
    rewrite (map2_nth nmul _ _ i (Fin eta) (Fin W) He HW), nmul_fin. reflexivity.
  - intros i HW. destruct (nth_error_same Ws etas i NonFin ltac:(lia) HW) as (e & He).
    pose proof (map2_nth nmul _ _ i e NonFin He HW) as Q. rewrite nmul_nan_r in Q.
    destruct (nth_error_same _ (map2 nmul (map Fin ms) (map Fin sounds)) i NonFin (eq_trans Lw (eq_sym Lv)) Q) as (v & Hv).
    rewrite (map2_nth ndiv _ _ i NonFin v Q Hv). reflexivity.
Qed.

(** ** Thrust *)
Lemma thrust_core ms hs rpm prop Ws r : ms <> [] -> List.length ms = List.length hs -> List.length Ws = List.length hs -> Forall (fun h => h <= 50000) hs ->
  (do ev <- prop_efficiency (map Fin ms) (map Fin hs) rpm prop (Some (VArr Ws)); cold_thrust (fst ev) (Some (VArr Ws)) (snd ev)) = Ok r ->
  exists p q etas ts, uses prop (map Fin ms) (map Fin hs) rpm Ws p /\ efficiency p (map Fin ms) (map Fin hs) Ws rpm = Ok (q, etas) /\
    r = VArr ts /\ thrust_balance ms hs Ws etas ts /\ forall i, nth_error Ws i = Some NonFin -> nth_error ts i = Some NonFin.
Proof.
  intros Ne L1 L2 F. destruct (prop_efficiency _ _ _ _ _) as [ev|] eqn:E; [|discriminate]. cbn [rbind].
  destruct (prop_efficiency_cases _ _ _ _ _ _ Ne L1 L2 F E) as (p & q & ss & U & Ef & Le & A2 & S). rewrite S.
  destruct (cold_spec ms hs ss Ws (fst ev) L1 L2 Le A2) as (ts & C & B & N). rewrite C. intros [= <-].
  exists p, q, (fst ev), ts. repeat split; try assumption; apply B.
Qed.
Lemma query_arr t a b : List.length a = List.length b -> query grid (Some t) (VArr a) (VArr b) = Ok (Some (VArr (map2 (grid (tx t) (ty t) (tz t)) a b))).
Proof. intros E. unfold query. rewrite grid_arr by exact E. reflexivity. Qed.
Lemma query_none r : query grid None (VArr r) (VArr r) = Ok None. Proof. reflexivity. Qed.

Lemma no_power ms hs rpm prop : exists e, prop_efficiency ms hs rpm prop None = Err e.
Proof.
  unfold prop_efficiency. cbn [entries averaged]. destruct prop; [|eexists; reflexivity|eexists; reflexivity].
  destruct (ansatzprop _ _ _ _ _); eexists; reflexivity.
Qed.
Lemma turboprop_cold d mach alt ms hs rpm prop r : conditions mach alt ms hs -> tp_coldthrust grid d mach alt rpm prop = Ok r ->
  exists Ws p q etas ts, tp_shaftpower grid d (VArr (map Fin ms)) (VArr (map Fin hs)) = Ok (Some (VArr Ws)) /\
    uses prop (map Fin ms) (map Fin hs) rpm Ws p /\ efficiency p (map Fin ms) (map Fin hs) Ws rpm = Ok (q, etas) /\
    r = VArr ts /\ thrust_balance ms hs Ws etas ts /\ forall i, nth_error Ws i = Some NonFin -> nth_error ts i = Some NonFin.
Proof.
  intros (Rm & Rh & Ne & L & F). unfold tp_coldthrust, tp_shaftpower. rewrite Rm, Rh. destruct (tp_pwr d) as [t|].
  - assert (L' : List.length (map Fin ms) = List.length (map Fin hs)) by (rewrite !map_length; exact L).
    rewrite query_arr by exact L'. cbn [rbind]. intros E.
    assert (LW : List.length (map2 (grid (tx t) (ty t) (tz t)) (map Fin ms) (map Fin hs)) = List.length hs) by (rewrite map2_length by exact L'; apply map_length).
    destruct (thrust_core ms hs rpm prop _ r Ne L LW F E) as (p & q & etas & ts & U & Ef & -> & B & N).
    exists (map2 (grid (tx t) (ty t) (tz t)) (map Fin ms) (map Fin hs)), p, q, etas, ts.
    split; [reflexivity|]. split; [exact U|]. split; [exact Ef|]. split; [reflexivity|]. split; assumption.
  - cbn [query rbind]. destruct (no_power (map Fin ms) (map Fin hs) rpm prop) as (e & ->). discriminate.
Qed.
Lemma piston_thrust d mach alt ms hs rpm prop r : conditions mach alt ms hs -> pi_thrust grid d mach alt rpm prop = Ok r ->
  exists Ws p q etas ts, pi_shaftpower grid d (VNum rpm) (VArr (map Fin hs)) = Ok (Some (VArr Ws)) /\
    uses prop (map Fin ms) (map Fin hs) rpm Ws p /\ efficiency p (map Fin ms) (map Fin hs) Ws rpm = Ok (q, etas) /\
    r = VArr ts /\ thrust_balance ms hs Ws etas ts /\ forall i, nth_error Ws i = Some NonFin -> nth_error ts i = Some NonFin.
Proof.
  intros (Rm & Rh & Ne & L & F). unfold pi_thrust, pi_shaftpower. rewrite Rm, Rh. destruct (pi_pwr d) as [t|].
  - cbn [query grid_table toarr vop2 rmap rbind]. intros E.
    assert (LW : List.length (map (grid (tx t) (ty t) (tz t) rpm) (map Fin hs)) = List.length hs) by (rewrite !map_length; reflexivity).
    destruct (thrust_core ms hs rpm prop _ r Ne L LW F E) as (p & q & etas & ts & U & Ef & -> & B & N).
    exists (map (grid (tx t) (ty t) (tz t) rpm) (map Fin hs)), p, q, etas, ts.
    split; [reflexivity|]. split; [exact U|]. split; [exact Ef|]. split; [reflexivity|]. split; assumption.
  - cbn [query rbind]. destruct (no_power (map Fin ms) (map Fin hs) rpm prop) as (e & ->). discriminate.
Qed.
Lemma electric_thrust power mach alt ms hs rpm prop r : conditions mach alt ms hs -> List.length (recastasnpfloatarray power) = List.length ms ->
  el_thrust power mach alt rpm prop = Ok r ->
  exists p q etas ts,
    uses prop (map Fin ms) (map Fin hs) rpm (recastasnpfloatarray power) p /\ efficiency p (map Fin ms) (map Fin hs) (recastasnpfloatarray power) rpm = Ok (q, etas) /\
    r = VArr ts /\ thrust_balance ms hs (recastasnpfloatarray power) etas ts /\ forall i, nth_error (recastasnpfloatarray power) i = Some NonFin -> nth_error ts i = Some NonFin.
Proof.
  intros (Rm & Rh & Ne & L & F) LW. unfold el_thrust. rewrite Rm, Rh. intros E.
  destruct (thrust_core ms hs rpm prop (recastasnpfloatarray power) r Ne L (eq_trans LW L) F E) as (p & q & etas & ts & U & Ef & -> & B & N). exists p, q, etas, ts.
  split; [exact U|]. split; [exact Ef|]. split; [reflexivity|]. split; assumption.
Qed.
(** hot and cold thrust add *)
Lemma turboprop_thrust d mach alt ms hs rpm prop r : conditions mach alt ms hs -> tp_thrust grid d mach alt rpm prop = Ok r ->
  exists hots ts us, tp_hotthrust grid d (VArr (map Fin ms)) (VArr (map Fin hs)) = Ok (Some (VArr hots)) /\
    tp_coldthrust grid d mach alt rpm prop = Ok (VArr ts) /\ r = VArr us /\ List.length us = List.length ms /\
    forall i x y, nth_error hots i = Some x -> nth_error ts i = Some y -> nth_error us i = Some (x + y)%num.
Proof.
  intros C. pose proof C as (Rm & Rh & Ne & L & F). unfold tp_thrust. rewrite Rm, Rh.
  assert (E0 : tp_coldthrust grid d (VArr (map Fin ms)) (VArr (map Fin hs)) rpm prop = tp_coldthrust grid d mach alt rpm prop)
    by (unfold tp_coldthrust; rewrite Rm, Rh; reflexivity).
  rewrite E0. assert (L' : List.length (map Fin ms) = List.length (map Fin hs)) by (rewrite !map_length; exact L).
  unfold tp_hotthrust. destruct (tp_thr d) as [t|].
  - rewrite query_arr by exact L'. cbn [rbind]. destruct (tp_coldthrust grid d mach alt rpm prop) as [cold|] eqn:Ec; [|discriminate]. cbn [rbind some_val].
    destruct (turboprop_cold d mach alt ms hs rpm prop cold C Ec) as (Ws & p & q & etas & ts & _ & _ & _ & -> & (Lt & B) & N).
    assert (Lh : List.length (map2 (grid (tx t) (ty t) (tz t)) (map Fin ms) (map Fin hs)) = List.length ts) by (rewrite map2_length by exact L'; rewrite map_length; lia).
    rewrite vop2_arr by exact Lh. intros [= <-].
    eexists _, ts, _. split; [reflexivity|]. split; [reflexivity|]. split; [reflexivity|].
    split; [rewrite map2_length by exact Lh; exact Lt|]. intros i x y Hx Hy. apply (map2_nth nadd); assumption.
  - cbn [query rbind]. destruct (tp_coldthrust grid d mach alt rpm prop); discriminate.
Qed.

(** ** Fuel consumption *)
Lemma tsfc_core ms hs rpm prop Ws bs r : ms <> [] -> List.length ms = List.length hs -> List.length Ws = List.length hs -> List.length bs = List.length hs -> Forall (fun h => h <= 50000) hs ->
  (do ev <- prop_efficiency (map Fin ms) (map Fin hs) rpm prop (Some (VArr Ws)); tsfc_of (Some (VArr bs)) (snd ev) (fst ev)) = Ok r ->
  exists p q etas ss, uses prop (map Fin ms) (map Fin hs) rpm Ws p /\ efficiency p (map Fin ms) (map Fin hs) Ws rpm = Ok (q, etas) /\
    r = VArr ss /\ List.length ss = List.length ms /\
    forall i m h rho a b eta, nth_error ms i = Some m -> nth_error hs i = Some h -> standard_air h rho a ->
      nth_error bs i = Some (Fin b) -> nth_error etas i = Some (Fin eta) -> eta <> 0 -> nth_error ss i = Some (Fin (b / 3600 * (m * a) / eta)).
Proof.
  intros Ne L1 L2 Lb F. destruct (prop_efficiency _ _ _ _ _) as [ev|] eqn:E; [|discriminate]. cbn [rbind].
  destruct (prop_efficiency_cases _ _ _ _ _ _ Ne L1 L2 F E) as (p & q & ss & U & Ef & Le & A2 & S). rewrite S.
  unfold tsfc_of. cbn [some_val rbind toarr vlit]. pose proof (Forall2_length _ _ _ A2) as Lf.
  assert (Lv : List.length (map2 nmul (map Fin ms) (map Fin ss)) = List.length hs) by (rewrite map2_length; rewrite !map_length; lia).
  rewrite vop2_arr by (rewrite map_length; lia). cbn [rbind].
  set (f := fun x : num => (x / #3600)%num).
  assert (Ln : List.length (map2 nmul (map f bs) (map2 nmul (map Fin ms) (map Fin ss))) = List.length hs) by (rewrite map2_length; [exact Lv|rewrite map_length; lia]).
  rewrite vop2_arr by lia. intros [= <-]. eexists p, q, (fst ev), _. split; [exact U|]. split; [exact Ef|]. split; [reflexivity|].
  split; [rewrite map2_length; lia|]. intros i m h rho a b eta Hm Hh A Hb He Ne0.
  pose proof (speed_nth ms hs ss i m h rho a A2 Hm Hh A) as V.
  rewrite (map2_nth ndiv _ _ i (Fin (b / 3600 * (m * a))) (Fin eta)); [rewrite ndiv_fin by exact Ne0; reflexivity| |exact He].
  rewrite (map2_nth nmul _ _ i (Fin (b / 3600)) (Fin (m * a))); [rewrite nmul_fin; reflexivity| |exact V].
  rewrite nth_error_map, Hb. cbn [option_map]. unfold f. rewrite ndiv_fin by lra. reflexivity.
Qed.
Lemma uses_same prop ms hs rpm Ws p p' : uses prop ms hs rpm Ws p -> uses prop ms hs rpm Ws p' -> p = p'.
Proof. intros [->|(-> & A)] [B|(B & C)]; congruence. Qed.
(** the power and fuel tables of a turboprop *)
Lemma turboprop_tsfc d mach alt ms hs rpm prop T S : conditions mach alt ms hs ->
  tp_coldthrust grid d mach alt rpm prop = Ok T -> tp_tsfc grid d mach alt rpm prop = Ok S ->
  exists Ws bs p q etas ts ss, tp_shaftpower grid d (VArr (map Fin ms)) (VArr (map Fin hs)) = Ok (Some (VArr Ws)) /\
    tp_bsfc_at grid d (VArr (map Fin ms)) (VArr (map Fin hs)) = Ok (Some (VArr bs)) /\
    uses prop (map Fin ms) (map Fin hs) rpm Ws p /\ efficiency p (map Fin ms) (map Fin hs) Ws rpm = Ok (q, etas) /\
    T = VArr ts /\ S = VArr ss /\
    forall i m h W b eta, nth_error ms i = Some m -> nth_error hs i = Some h -> m <> 0 ->
      nth_error Ws i = Some (Fin W) -> nth_error bs i = Some (Fin b) -> nth_error etas i = Some (Fin eta) -> eta <> 0 ->
      exists t s, nth_error ts i = Some (Fin t) /\ nth_error ss i = Some (Fin s) /\ s * t = b * W / 3600.
Proof.
  intros C ET ES. destruct (turboprop_cold d mach alt ms hs rpm prop T C ET) as (Ws & p & q & etas & ts & EW & U & Ef & -> & (Lt & B) & _).
  pose proof C as (Rm & Rh & Ne & L & F). assert (L' : List.length (map Fin ms) = List.length (map Fin hs)) by (rewrite !map_length; exact L).
  assert (LW : List.length Ws = List.length hs).
  { unfold tp_shaftpower in EW. destruct (tp_pwr d) as [t|]; [|discriminate]. rewrite query_arr in EW by exact L'. injection EW as <-. rewrite map2_length by exact L'. apply map_length. }
  unfold tp_tsfc in ES. rewrite Rm, Rh, EW in ES. cbn [rbind] in ES.
  destruct (tp_bsfc_at grid d (VArr (map Fin ms)) (VArr (map Fin hs))) as [[b|]|] eqn:Eb; cbn [rbind] in ES; try (destruct (prop_efficiency _ _ _ _ _); discriminate).
  assert (K : exists bs, b = VArr bs /\ List.length bs = List.length hs).
  { unfold tp_bsfc_at in Eb. destruct (option_map drop_nan (tp_bsfc d)) as [t|]; [|discriminate]. rewrite query_arr in Eb by exact L'. injection Eb as <-.
    eexists. split; [reflexivity|]. rewrite map2_length by exact L'. apply map_length. }
  destruct K as (bs & -> & Lb).
  destruct (tsfc_core ms hs rpm prop Ws bs S Ne L LW Lb F ES) as (p' & q' & etas' & ss & U' & Ef' & -> & _ & Q).
  rewrite <- (uses_same _ _ _ _ _ _ _ U U') in Ef'. rewrite Ef in Ef'. injection Ef' as <- <-.
  exists Ws, bs, p, q, etas, ts, ss. do 6 (split; [first [reflexivity|assumption]|]).
  intros i m h W b eta Hm Hh Nm HW Hb He Nt.
  assert (Hh' : h <= 50000) by (apply nth_error_In in Hh; rewrite Forall_forall in F; exact (F h Hh)).
  destruct (air_below h Hh') as (rho & a & A). destruct (B i m h rho a W eta Hm Hh A Nm HW He) as (t & Ht & V).
  exists t, (b / 3600 * (m * a) / eta). split; [exact Ht|]. split; [exact (Q i m h rho a b eta Hm Hh A Hb He Nt)|].
  replace (b / 3600 * (m * a) / eta * t) with (b / 3600 * (t * (m * a)) / eta) by (field; exact Nt). rewrite V. field. exact Nt.
Qed.

(** ** Outside the tables *)
Lemma fold_nan l : In NonFin l -> fold_right nadd #0%num l = NonFin.
Proof. induction l as [|x l IH]; [intros []|]. intros [->|H]; cbn [fold_right]; [reflexivity|]. rewrite (IH H). apply nadd_nan_r. Qed.
Lemma average_nan l : In NonFin l -> average l = NonFin.
Proof. intros H. unfold average. rewrite (fold_nan l H). reflexivity. Qed.
Lemma npow_nan y : npow NonFin y = NonFin. Proof. destruct y; reflexivity. Qed.
Lemma ansatz_nan p ms hs rpm Ws h : average hs = Fin h -> h <= 50000 -> In NonFin Ws -> ansatzprop p ms hs rpm Ws = Err ValueError.
Proof.
  intros Ha Hh Hw. destruct (air_below h Hh) as (rho & a & A). unfold ansatzprop. rewrite Ha, (average_nan Ws Hw).
  rewrite (vsound_at_air _ _ _ A). cbn [rbind]. rewrite (airdens_at_air _ _ _ A). cbn [rbind]. unfold ansatz_cpower.
  cbn [ndiv]. rewrite npow_nan, nmul_nan_r. reflexivity.
Qed.
Lemma average_fin l : l <> [] -> average (map Fin l) = Fin (mean l).
Proof.
  intros Ne. unfold average, mean. assert (E : forall l, fold_right nadd #0%num (map Fin l) = Fin (sum l)).
  { induction l0 as [|x l0 IH]; [reflexivity|]. cbn [map fold_right]. rewrite IH, nadd_fin. reflexivity. }
  rewrite E, map_length. apply ndiv_fin. apply not_0_INR. destruct l; [congruence|discriminate].
Qed.
Lemma mean_bound l c : l <> [] -> Forall (fun x => x <= c) l -> mean l <= c.
Proof.
  intros Ne F. unfold mean. assert (S : sum l <= c * INR (List.length l)).
  { clear Ne. induction F as [|x l H F IH]; [cbn; lra|]. cbn [sum fold_right]. change (List.length (x :: l)) with (S (List.length l)). rewrite S_INR. unfold sum in IH. lra. }
  assert (P : 0 < INR (List.length l)) by (apply lt_0_INR; destruct l; [congruence|cbn; lia]).
  apply Rmult_le_reg_r with (INR (List.length l)); [exact P|]. unfold Rdiv. rewrite Rmult_assoc, Rinv_l by lra. lra.
Qed.
End Decks.
