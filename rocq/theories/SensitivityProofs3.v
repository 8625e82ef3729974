(** The sensitivity analysis: the nominal design, and concrete cases. *)
From Verif Require Import Base BaseFacts UnitsModel AtmosModel AtmosSpec IsaReal AtmosProofs ConceptModel MethodsModel SensitivityModel ConceptSpec MethodsSpec
  MethodsExamples ConstraintSpec SensitivitySpec ConceptProofs ConceptProofs2 ConceptProofs4 ConceptProofs5 ConceptProofs6 MethodsProofs MethodsProofs2
  ConstraintProofs ConstraintProofs2 ConstraintProofs3 ConstraintProofs4 ConstraintProofs7 ConstraintProofs8 ConstraintProofs10 SensitivityProofs SensitivityProofs2.
Open Scope R_scope.
Open Scope string_scope.

Lemma rmap_bind {A B C} (f : B -> C) (x : res A) (k : A -> res B) : rmap f (rbind x k) = rbind x (fun v => rmap f (k v)).
Proof. destruct x; reflexivity. Qed.
Lemma rbind_ext {A B} (x : res A) (k k' : A -> res B) : (forall v, k v = k' v) -> rbind x k = rbind x k'.
Proof. intros E. destruct x; [apply E|reflexivity]. Qed.
Lemma rbind_const {A B C} (x : res A) (k : A -> res B) (f : B -> C) (v : C) :
  (forall a, rmap f (k a) = rbind (k a) (fun _ => Ok v)) -> rmap f (rbind x k) = rbind (rbind x k) (fun _ => Ok v).
Proof. intros E. destruct x; [apply E|reflexivity]. Qed.
Lemma attributes_with b d p atm e e' : attributes b d p atm e' = rmap (fun c => with_engine c e') (attributes b d p atm e).
Proof.
  unfold attributes. repeat (rewrite rmap_bind; apply rbind_ext; intro). reflexivity.
Qed.
Lemma attributes_fields b d p atm e : rmap (fun c => (propulsion c, designatm c)) (attributes b d p atm e) = rbind (attributes b d p atm e) (fun _ => Ok (e, atm)).
Proof. unfold attributes. repeat (apply rbind_const; intro). reflexivity. Qed.
Lemma attributes_engine b d p atm e c : attributes b d p atm e = Ok c ->
  propulsion c = e /\ designatm c = atm /\ forall e', attributes b d p atm e' = Ok (with_engine c e').
Proof.
  intros H. pose proof (attributes_fields b d p atm e) as F. rewrite H in F. cbn in F. injection F as F1 F2. split; [exact F1|]. split; [exact F2|].
  intros e'. rewrite (attributes_with b d p atm e e'), H. reflexivity.
Qed.
Lemma rebuilt_nominal b d p atm prop self : pyeta p -> construct b d p atm prop = Ok self ->
  rebuilt self (designstate self) = Ok (with_engine (obj self) (parse_propulsion (repackaged (propulsion (obj self))))).
Proof.
  intros Py H. apply construct_inv in H as (b1&d0&p0&d1&d2'&tf&p1&n&b'&d'&p'&o&H1&H2&H3&H4&H5&H6&H7&H8&H9&H10&->).
  unfold rebuilt. cbn [designstate obj].
  destruct (brief_settled _ _ _ H1 H7) as [B1 B2]. destruct (design_settled _ _ _ _ _ _ H2 H4 H5 H8) as (D1 & D2 & D3 & D4).
  destruct (performance_settled _ _ _ _ _ Py H3 H6 H9) as (P1 & P2 & P3 & _).
  destruct (attributes_engine _ _ _ _ _ _ H10) as (-> & -> & E).
  unfold construct. rewrite B1, D1, P1. cbn [rbind]. rewrite D2. cbn [rbind]. rewrite D3. cbn [rbind]. rewrite P2. cbn [rbind fst snd].
  cbv zeta. rewrite B2, D4, P3. cbn [rbind]. rewrite E. reflexivity.
Qed.
Lemma with_same_engine c : with_engine c (propulsion c) = c.
Proof. destruct c. reflexivity. Qed.
Lemma repackaged_same p : p <> PropFalse -> parse_propulsion (repackaged p) = p.
Proof. destruct p; intros N; try reflexivity. congruence. Qed.

Lemma y_function_elements ext c ws m y : y_function ext c (VArr (elements ws)) m y = y_function ext c ws m y.
Proof.
  assert (E : recastasnpfloatarray (VArr (elements ws)) = recastasnpfloatarray ws) by (destruct ws; reflexivity).
  destruct y; unfold y_function, powerrequired, twrequired; rewrite E; reflexivity.
Qed.
Lemma requirement_elements ext c ws m y req : requirement_of ext c (VArr (elements ws)) m y req <-> requirement_of ext c ws m y req.
Proof. rewrite <- !requirement_spec, y_function_elements. reflexivity. Qed.
(** the nominal requirement is that of the aircraft itself, if it has an engine *)
Lemma nominal_requirement b d p atm prop self ext ws y s med : pyeta p -> construct b d p atm prop = Ok self ->
  sensitivity ext self ws y = Ok (s, med) -> exists w, weight_n (obj self) = Some w /\
  requirement_of ext (match prop with PropFalse => with_engine (obj self) PropOther | _ => obj self end) ws (w / sc_g)%num y med.
Proof.
  intros Py C H. destruct (sensitivity_inv _ _ _ _ _ _ H) as (w & ac & W & _ & R & Y). exists w. split; [exact W|].
  rewrite (rebuilt_nominal _ _ _ _ _ _ Py C) in R. rewrite y_function_elements in Y. apply requirement_spec in Y.
  assert (E : propulsion (obj self) = prop).
  { apply construct_inv in C as (b1&d0&p0&d1&d2'&tf&p1&n&b'&d'&p'&o&H1&H2&H3&H4&H5&H6&H7&H8&H9&H10&->).
    exact (proj1 (attributes_engine _ _ _ _ _ _ H10)). }
  assert (ac = with_engine (obj self) (parse_propulsion (repackaged prop))) as -> by congruence.
  destruct prop; try exact Y; cbn [repackaged parse_propulsion] in Y; rewrite <- E, with_same_engine in Y; exact Y.
Qed.

(** ** A range over the ground run *)
Definition brief_dict (g : pv) : dict pv :=
  [ ("climbalt_m", pnum 1000); ("climbspeed_kias", pnum 250); ("climbrate_fpm", pnum 1000); ("cruisealt_m", pnum 6000);
    ("cruisespeed_ktas", pnum 300); ("cruisethrustfact", pnum 1); ("servceil_m", pnum 9000); ("secclimbspd_kias", pnum 180);
    ("vstallclean_kcas", pnum 110); ("groundrun_m", g); ("rwyelevation_m", pnum 0); ("to_headwind_kts", pnum 0);
    ("to_slope_perc", pnum 0); ("turnalt_m", pnum 2000); ("turnspeed_ktas", pnum 240); ("stloadfactor", pnum 1.5) ].
Definition design_dict : dict pv :=
  [ ("aspectratio", pnum 8); ("sweep_le_deg", pnum 20); ("sweep_25_deg", pnum 18); ("sweep_mt_deg", pnum 16);
    ("roottaperratio", pnum 0.4); ("wingarea_m2", pnum 30); ("wingheightratio", pnum 0.1); ("bpr", pnum 4);
    ("spooluptime_s", pnum 5); ("totalstaticthrust_n", pnum 40000); ("tr", pnum 1.07); ("weight_n", pnum 100000);
    ("weightfractions", PDict [("climb", SNum #0.95); ("cruise", SNum #0.9); ("servceil", SNum #0.85); ("turn", SNum #0.92)]);
    ("runwayalpha_deg", pnum 0); ("runwayalpha_max_deg", pnum 12) ].
Definition performance_dict : dict pv :=
  [ ("CD0TO", pnum 0.04); ("CDTO", pnum 0.06); ("CDminclean", pnum 0.02); ("mu_R", pnum 0.03); ("CL0TO", pnum 0.5);
    ("CLTO", pnum 0.8); ("CLmaxclean", pnum 1.5); ("CLminclean", pnum (-1)); ("CLmaxTO", pnum 1.7); ("CLslope", pnum 6.28);
    ("etaprop", PDict [("climb", SNum #0.75); ("cruise", SNum #0.85); ("servceil", SNum #0.65); ("take-off", SNum #0.45); ("turn", SNum #0.85)]) ].
Definition with_run (c : concept) (g : num) : concept := {|
  climbalt_m := climbalt_m c; climbspeed_kias := climbspeed_kias c; climbrate_fpm := climbrate_fpm c;
  cruisealt_m := cruisealt_m c; cruisespeed_ktas := cruisespeed_ktas c; cruisethrustfact := cruisethrustfact c;
  servceil_m := servceil_m c; secclimbspd_kias := secclimbspd_kias c; vstallclean_kcas := vstallclean_kcas c;
  groundrun_m := Some g; rwyelevation_m := rwyelevation_m c; to_headwind_kts := to_headwind_kts c;
  to_slope_perc := to_slope_perc c; turnalt_m := turnalt_m c; turnspeed_ktas := turnspeed_ktas c;
  stloadfactor := stloadfactor c;
  aspectratio := aspectratio c; sweep_le_deg := sweep_le_deg c; sweep_25_deg := sweep_25_deg c;
  sweep_mt_deg := sweep_mt_deg c; roottaperratio := roottaperratio c; wingarea_m2 := wingarea_m2 c;
  wingheightratio := wingheightratio c;
  bpr := bpr c; spooluptime_s := spooluptime_s c; totalstaticthrust_n := totalstaticthrust_n c;
  throttle_r := throttle_r c; weight_n := weight_n c;
  climb_weight_fraction := climb_weight_fraction c; cruise_weight_fraction := cruise_weight_fraction c;
  sec_weight_fraction := sec_weight_fraction c; turn_weight_fraction := turn_weight_fraction c;
  runwayalpha_deg := runwayalpha_deg c; runwayalpha_max_deg := runwayalpha_max_deg c;
  CD0TO := CD0TO c; cdto := cdto c; cdminclean := cdminclean c; mu_r := mu_r c;
  CL0TO := CL0TO c; clto := clto c; clmaxclean := clmaxclean c; clminclean := clminclean c; clmaxto := clmaxto c;
  a_0i := a_0i c;
  etaprop_climb := etaprop_climb c; etaprop_cruise := etaprop_cruise c; etaprop_sec := etaprop_sec c;
  etaprop_to := etaprop_to c; etaprop_turn := etaprop_turn c;
  designatm := designatm c; propulsion := propulsion c |}.
Definition self0 (p : propulsion_t) : constructed := {|
  obj := with_run (example_aircraft 20 18 4 p (isa 0)) ((#0 + #1000 + #1400) / Fin (INR 2))%num;
  designspace := (brief_dict (PList [Fin 1000; Fin 1400]), design_dict, performance_dict);
  designstate := (brief_dict (PScal (SNum ((#0 + #1000 + #1400) / Fin (INR 2))%num)), design_dict, performance_dict);
  taperdefaultflag := false; etadefaultflag := 0%nat;
  callers := (brief_dict (PScal (SNum ((#0 + #1000 + #1400) / Fin (INR 2))%num)), design_dict, performance_dict) |}.
Lemma self0_ok p : construct (brief_dict (PList [Fin 1000; Fin 1400])) design_dict performance_dict (isa 0) p = Ok (self0 p).
Proof. reflexivity. Qed.

(** ** When the analysis succeeds *)
Lemma entries_shape ext c ws r : wing_ok ext c -> engine_ok c -> brief_complete c -> List.length (elements ws) <> 1%nat ->
  twrequired ext c ws true true = Ok r ->
  forall cn sel, In (cn, sel) analysed -> exists l, sel r = VArr l /\ List.length l = List.length (elements ws).
Proof.
  intros HW HE HB N H cn sel I. destruct (twrequired_parts _ _ _ _ _ _ H) as (P1 & P2 & P3 & P4 & P5 & _).
  assert (RS : forall l, List.length l = List.length (elements ws) -> exists l', reverttoscalar (VArr l) = VArr l' /\ List.length l' = List.length (elements ws)).
  { intros l L. exists l. split; [|exact L]. destruct l as [|x [|x2 l]]; cbn in L; [reflexivity|congruence|reflexivity]. }
  assert (M : forall F, exists l', reverttoscalar (VArr (map F (elements (VArr (elements ws))))) = VArr l' /\ List.length l' = List.length (elements ws)).
  { intros F. apply RS. rewrite map_length. reflexivity. }
  cbn in I. destruct I as [I|[I|[I|[I|[I|[]]]]]]; injection I as <- <-.
  - destruct (clm_ok ext c true HW HE HB) as (F & E). rewrite E in P3. injection P3 as <-. apply M.
  - destruct (crs_ok ext c true HW HE HB) as (F & E). rewrite E in P4. injection P4 as <-. apply M.
  - destruct (sec_ok ext c true HW HE HB) as (F & E). rewrite E in P5. injection P5 as <-. apply M.
  - destruct (to_ok ext c true HE HB (VArr (elements ws))) as (T & L & A & E & LT & _). rewrite E in P1.
    assert (rq_takeoff r = reverttoscalar (VArr T)) as -> by congruence. apply RS, LT.
  - destruct (trn_ok ext c true HW HE HB) as (F & G & E). rewrite E in P2.
    assert (rq_turn r = reverttoscalar (VArr (map F (elements (VArr (elements ws)))))) as -> by congruence. apply M.
Qed.

Lemma record_total k mx mn : forall cs st, (forall c, In c cs -> exists r, reqrange (snd c mx) (snd c mn) = Ok r) ->
  (forall c, In c cs -> dget (fst c) (primes st) <> None) -> (In k (colours st) \/ (List.length (colours st) < 24)%nat) ->
  exists st', foldM (record1 k mx mn) cs st = Ok st' /\ (forall cn, dget cn (primes st) <> None -> dget cn (primes st') <> None) /\
    (List.length (colours st') <= S (List.length (colours st)))%nat /\ (In k (colours st) -> colours st' = colours st).
Proof.
  induction cs as [|c cs IH]; intros st R D C; cbn [foldM].
  - exists st. split; [reflexivity|]. split; [auto|]. split; [lia|auto].
  - destruct (R c (or_introl eq_refl)) as (r & E). destruct (dget (fst c) (primes st)) as [p|] eqn:G; [|destruct (D c (or_introl eq_refl) G)].
    assert (exists st1, record1 k mx mn st c = Ok st1 /\ (forall cn, dget cn (primes st) <> None -> dget cn (primes st1) <> None) /\
      (colours st1 = colours st \/ ~ In k (colours st) /\ colours st1 = (colours st ++ [k])%list)) as (st1 & S1 & M1 & C1).
    { unfold record1. rewrite E. cbn [rbind]. destruct (recorded r); [|exists st; auto].
      unfold dindex. rewrite G. cbn [rbind]. cbv zeta.
      assert (MM : forall cn, dget cn (primes st) <> None -> dget cn (dset (fst c) (dset k r p) (primes st)) <> None).
      { intros cn N. rewrite dget_set. destruct (String.eqb cn (fst c)); [discriminate|exact N]. }
      destruct (existsb (String.eqb k) (colours st)) eqn:X; [eexists; split; [reflexivity|]; split; [exact MM|left; reflexivity]|].
      assert (N : ~ In k (colours st)).
      { intros J. assert (existsb (String.eqb k) (colours st) = true); [|congruence]. apply existsb_exists. exists k. split; [exact J|apply String.eqb_refl]. }
      destruct C as [C|C]; [contradiction|]. assert (Nat.ltb (List.length (colours st)) ncolours = true) as -> by (apply Nat.ltb_lt; exact C).
      eexists. split; [reflexivity|]. split; [exact MM|right; split; [exact N|reflexivity]]. }
    rewrite S1. cbn [rbind].
    destruct (IH st1) as (st' & F & M2 & L2 & K2).
    + intros c' J. apply R. right. exact J.
    + intros c' J. apply M1, D. right. exact J.
    + destruct C1 as [C1|(_ & C1)]; rewrite C1; [exact C|]. left. apply in_or_app. right. left. reflexivity.
    + exists st'. split; [exact F|]. split; [auto|]. destruct C1 as [C1|(N & C1)].
      * rewrite C1 in L2, K2. auto.
      * split; [|contradiction]. rewrite (K2 ltac:(rewrite C1; apply in_or_app; right; left; reflexivity)), C1, app_length. cbn. lia.
Qed.

Definition is_list (ikv : chapter * (string * pv)) : bool := match snd (snd ikv) with PList _ => true | _ => false end.
Lemma fold_left_in {A} (f : A -> A -> A) : (forall a b, f a b = a \/ f a b = b) -> forall l a, In (fold_left f l a) (a :: l).
Proof.
  intros C. induction l as [|x l IH]; intros a; [left; reflexivity|]. cbn [fold_left].
  destruct (IH (f a x)) as [E|I]; [rewrite <- E; destruct (C a x) as [->| ->]; cbn; auto|]. right. right. exact I.
Qed.
Lemma pymaxn_total l : l <> [] -> exists hi, pymaxn l = Ok hi /\ In hi l.
Proof.
  destruct l as [|x l]; [congruence|]. intros _. eexists. split; [reflexivity|]. apply fold_left_in. intros a b. destruct (a <? b)%num; auto.
Qed.
Lemma pyminn_total l : l <> [] -> exists lo, pyminn l = Ok lo /\ In lo l.
Proof.
  destruct l as [|x l]; [congruence|]. intros _. eexists. split; [reflexivity|]. apply fold_left_in. intros a b. destruct (b <? a)%num; auto.
Qed.

Section Total.
  Variables (ext : externals) (self : constructed) (ws : val) (w : num).
  Hypothesis HN : List.length (elements ws) <> 1%nat.
  Hypothesis HS : forall i k l, In (k, PList l) (part_of (designspace self) i) -> l <> [] /\
    forall x, In x l -> exists ac, rebuilt self (set_parameter (designstate self) i k x) = Ok ac /\
      wing_ok ext ac /\ engine_ok ac /\ brief_complete ac.

  Lemma vary_total its : forall st, (forall x, In x its -> In x (items self)) ->
    (forall cn, In cn (map fst analysed) -> dget cn (primes st) <> None) ->
    (List.length (colours st) + List.length (filter is_list its) <= 24)%nat -> exists st',
    foldM (fun st ikv => vary1 ext self (VArr (elements ws)) w Ytw (fst ikv) st (snd ikv)) its st = Ok st'.
  Proof.
    induction its as [|[i [k v]] its IH]; intros st SUB D L; cbn [foldM]; [eauto|]. unfold vary1 at 1. cbn [fst snd].
    assert (SK : forall x, In x its -> In x (items self)) by (intros x X; apply SUB; right; exact X).
    destruct v as [sc|l|sub]; cbn [rbind filter is_list snd] in L |- *; [apply IH; assumption| |apply IH; assumption].
    assert (IK : In (k, PList l) (part_of (designspace self) i)) by (apply in_items, SUB; left; reflexivity).
    destruct (HS i k l IK) as (NE & A). destruct (pymaxn_total l NE) as (hi & HH & HI). destruct (pyminn_total l NE) as (lo & LL & LI).
    destruct (A hi HI) as (ah & RH & W1 & E1 & B1). destruct (A lo LI) as (al & RL & W2 & E2 & B2).
    rewrite HH, LL. cbn [rbind]. rewrite !amended_spec, RH, RL. cbn [rbind].
    destruct (twrequired_ok ext ah true W1 E1 B1 (VArr (elements ws)) true) as (rh & TH).
    destruct (twrequired_ok ext al true W2 E2 B2 (VArr (elements ws)) true) as (rl & TL).
    cbn [y_function]. rewrite TH, TL. cbn [rbind].
    destruct (record_total k rh rl sensitivityplots_list st) as (st1 & S1 & M1 & L1 & _).
    - intros [cn sel] I. destruct (entries_shape ext ah (VArr (elements ws)) rh W1 E1 B1 HN TH cn sel I) as (l1 & Q1 & N1).
      destruct (entries_shape ext al (VArr (elements ws)) rl W2 E2 B2 HN TL cn sel I) as (l2 & Q2 & N2).
      unfold reqrange. cbn [snd]. rewrite Q1, Q2. cbn [vop2]. unfold broadcast. rewrite N1, N2, Nat.eqb_refl. cbn [rmap rbind]. eauto.
    - intros c I. apply D. change analysed with sensitivityplots_list. apply in_map, I.
    - right. cbn [List.length] in L. lia.
    - rewrite S1. cbn [rbind]. apply IH; [exact SK| |cbn [List.length] in L; lia]. intros cn I. apply M1, D, I.
  Qed.
End Total.

Lemma ranges_count self : List.length (filter is_list (items self)) = List.length (ranges self).
Proof.
  unfold ranges, items. rewrite map_length, !filter_app, !app_length.
  assert (K : forall i (l : dict pv), List.length (filter is_list (map (pair i) l)) =
    List.length (filter (fun kv : string * pv => match snd kv with PList _ => true | _ => false end) l)).
  { intros i l. induction l as [|[k v] l IH]; [reflexivity|]. cbn [map filter]. destruct v; cbn [is_list snd List.length]; rewrite IH; reflexivity. }
  rewrite !K. reflexivity.
Qed.
Lemma sensitivity_total ext self ws w ac : weight_n (obj self) = Some w -> List.length (elements ws) <> 1%nat ->
  (forall i k l, In (k, PList l) (part_of (designspace self) i) -> l <> [] /\
    forall x, In x l -> exists ac, rebuilt self (set_parameter (designstate self) i k x) = Ok ac /\
      wing_ok ext ac /\ engine_ok ac /\ brief_complete ac) ->
  rebuilt self (designstate self) = Ok ac -> wing_ok ext ac -> engine_ok ac -> brief_complete ac ->
  (List.length (ranges self) <= 24)%nat ->
  exists s med, sensitivity ext self ws Ytw = Ok (s, med).
Proof.
  intros W N HS R HW HE HB L. rewrite <- ranges_count in L. unfold sensitivity. change (recastasnpfloatarray ws) with (elements ws). rewrite W. cbn [required rbind].
  destruct (vary_total ext self ws (w / sc_g)%num N HS (items self) sens0 (fun x X => X)) as (s & F).
  { intros cn I. apply (proj1 (inv0 ext self ws Ytw)). exact I. }
  { cbn [colours sens0 List.length]. lia. }
  destruct (twrequired_ok ext ac true HW HE HB (VArr (elements ws)) true) as (med & M).
  assert (X : forall i l a, foldM (fun st ikv => vary1 ext self (VArr (elements ws)) (w / sc_g)%num Ytw (fst ikv) st (snd ikv)) (map (pair i) l) a
    = foldM (vary1 ext self (VArr (elements ws)) (w / sc_g)%num Ytw i) l a) by (intros; rewrite foldM_map; reflexivity).
  unfold items in F. rewrite foldM_app, X in F. apply rbind_ok in F as (s1 & F1 & F). rewrite foldM_app, X in F.
  apply rbind_ok in F as (s2 & F2 & F). rewrite X in F.
  destruct (designspace self) as [[b d] p]. cbn [part_of fst snd] in *. cbv zeta. rewrite F1. cbn [rbind]. rewrite F2. cbn [rbind].
  rewrite F. cbn [rbind]. rewrite R. cbn [rbind y_function]. rewrite M. cbn [rbind]. eauto.
Qed.

(** a single wing loading *)
Lemma single_loading b d p atm prop self ext w y i k l : construct b d p atm prop = Ok self -> elements w = [y] ->
  In (k, PList l) (part_of (designspace self) i) -> forall r, sensitivity ext self w Ytw <> Ok r.
Proof.
  intros C E I [s med] H. destruct (sensitivity_facts _ _ _ _ _ _ H) as (_ & _ & F).
  destruct (F i k l I) as (hi & lo & rh & rl & _ & _ & (w1 & a1 & _ & _ & Y1) & (w2 & a2 & _ & _ & Y2) & R).
  cbn [requirement_of] in Y1, Y2. destruct (R "take-off" rq_takeoff ltac:(cbn; tauto)) as (r & Q).
  assert (K : forall c q, twrequired ext c (VArr (elements w)) true true = Ok q -> exists x, rq_takeoff q = VNum x).
  { intros c q T. destruct (twrequired_parts _ _ _ _ _ _ T) as (P & _). cbv zeta in P. cbn [elements] in P. rewrite E in P.
    unfold twrequired_to in P. apply rbind_ok in P as (g & _ & P). cbv zeta in P. apply rbind_ok in P as (dd & _ & P).
    apply rbind_ok in P as (tws & M & P). cbn [map recastasnpfloatarray] in M. cbn [mapM] in M.
    apply rbind_ok in M as (t & _ & M). cbn [rbind] in M. injection M as <-. exists t. cbn in P. congruence. }
  destruct (K _ _ Y1) as (x1 & X1). destruct (K _ _ Y2) as (x2 & X2). rewrite X1, X2 in Q. discriminate.
Qed.
