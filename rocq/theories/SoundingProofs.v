(** Analyses in an atmosphere that answers at some altitudes only. *)
From Verif Require Import Base BaseFacts AnalysisFacts UnitsModel AtmosModel AtmosSpec AtmosProofs AtmosProofs2 AtmosProofs4
  ConceptModel ConceptProofs MethodsModel MethodsSpec MethodsProofs MethodsProofs2 MethodsExamples
  MethodsProofs3 MethodsProofs4 ConstraintSpec ConstraintProofs ConstraintProofs2 ConstraintProofs3 ConstraintProofs4
  ConstraintProofs5 ConstraintProofs6 ConstraintProofs7 ConstraintProofs8 ConstraintProofs10 ObservedSpec ObservedProofs
  HandbookModel HandbookSpec HandbookProofs HandbookFacts HandbookCases IsaReal IsaProofs AirworthinessModel AirworthinessSpec SoundingSpec.
Open Scope R_scope.

Lemma sounding_answers a p obs : ascent obs -> observed a p obs -> answers_on a (covered obs).
Proof.
  intros S O x. split.
  - intros C. destruct (layer_exists obs x (proj1 (proj2 S)) C) as (lo & hi & s & L). destruct (layer_answers a p obs x lo hi s S O L) as (A1 & A2 & A3 & _).
    destruct L as (I1 & I2 & _ & _ & B & _). destruct (positive_reading obs lo S I1), (positive_reading obs hi S I2).
    do 3 eexists. split; [exact A2|]. split; [exact A1|]. split; [exact A3|]. split; apply part_pos; assumption.
  - intros C. destruct (outside_refuses a p obs x S O C) as (A1 & A2 & A3 & _). auto.
Qed.
Lemma handbook_answers hl td alt f a : handbook hl td alt f a -> ~ frozen hl td alt f -> answers_on a (fun x => 0 <= x <= 80000).
Proof.
  intros H F x. destruct (hb_range hl td alt f a x H) as (A & B). split.
  - intros R. destruct (A R) as (rho & T & p & D & E & G). exists rho, T, p. split; [exact D|]. split; [exact E|]. split; [exact G|].
    pose proof (hb_density hl td alt f a x rho H D). pose proof (hb_temperature hl td alt f a x T H F E). lra.
  - intros R. destruct (B ltac:(lra)) as (D & E & G). auto.
Qed.

Section Sounding.
  Variables (ext : externals) (c : concept) (S : R -> Prop) (h : flight_altitudes).
  Hypothesis HW : wing_ok ext c.
  Hypothesis HE : engine_ok c.
  Hypothesis HA : answers_on (designatm c) S.
  Hypothesis HB : briefed c h.

  Lemma inside x : S x -> exists s, air_at c x s.
  Proof. intros I. destruct (proj1 (HA x) I) as (rho & T & p & D & E & F & P). exists {| a_rho := rho; a_temp := T; a_press := p |}. unfold air_at. cbn. tauto. Qed.
  Lemma no_dens x : ~ S x -> dens_at c (Fin x) = Err TypeError.
  Proof. intros N. destruct (proj2 (HA x) N) as (D & _). unfold dens_at. rewrite D. reflexivity. Qed.
  Lemma no_q x v : ~ S x -> q_at c v (Fin x) = Err TypeError.
  Proof. intros N. destruct (proj2 (HA x) N) as (D & _). unfold q_at, dynamicpressure_pa. rewrite D. reflexivity. Qed.
  Lemma no_mach x v : ~ S x -> mach (designatm c) v (VNum (Fin x)) = Err TypeError.
  Proof.
    intros N. destruct (proj2 (HA x) N) as (_ & T & _). unfold mach. assert (AT : forall l, alttest (designatm c) (VNum (Fin x)) = Ok l -> l = [Fin x]).
    { intros l. unfold alttest. cbn [recastasnpfloatarray]. destruct (prof (designatm c)).
      - destruct (AtmosModel.pymin _); [|discriminate]. destruct (AtmosModel.pymax _); [|discriminate]. cbn [rbind]. destruct (existsb _ _); [discriminate|]. destruct (existsb _ _); [discriminate|]. congruence.
      - destruct (existsb _ _); [discriminate|]. congruence. }
    destruct (alttest (designatm c) (VNum (Fin x))) as [l|e] eqn:E.
    - rewrite (AT l eq_refl). cbn [rbind]. unfold vsound_mps. change (alttest (designatm c) (VList [Fin x])) with (alttest (designatm c) (VNum (Fin x))). rewrite E, (AT l eq_refl). cbn [rbind].
      change (airtemp_k (designatm c) (VList [Fin x])) with (airtemp_k (designatm c) (VNum (Fin x))). rewrite T. reflexivity.
    - cbn [rbind]. unfold airtemp_k in T. rewrite E in T. cbn [rbind] in T. exact T.
  Qed.
  Lemma no_mach_at x v : ~ S x -> mach_at c v (Fin x) = Err TypeError.
  Proof. intros N. unfold mach_at. rewrite (no_mach x _ N). reflexivity. Qed.
  Lemma no_tas x v : ~ S x \/ ~ S 0 -> tas_at c v (Fin x) = Err TypeError.
  Proof.
    intros N. unfold tas_at, eas2tas_at, densratio. destruct (Classical_Prop.classic (S x)) as [I|I].
    - destruct N as [N|N]; [contradiction|]. destruct (proj1 (HA x) I) as (rho & T & p & D & _). rewrite D. cbn [rbind]. destruct (proj2 (HA 0) N) as (D0 & _). rewrite D0. reflexivity.
    - destruct (proj2 (HA x) I) as (D & _). rewrite D. reflexivity.
  Qed.
  Lemma has_sl : exists p, sl_propulsion c = Ok p.
  Proof.
    destruct HE as [(b & tr & g & E1 & E2 & E3)|[(f & E)|[(f & E)|E]]]; unfold sl_propulsion; try (rewrite E; eauto).
    destruct (propulsion c) eqn:P; eauto. rewrite E1. cbn [pval].
    assert (B : -3 <= b) by (inversion E3 as [p0 D|p0 D|p0 D|p0 D|p0 D|p0 D|D]; subst; try lra; destruct D as [[_ D]|D]; congruence || lra).
    unfold nleb, neqb, nltb. destruct (Rleb_reflect 0 b); [eauto|]. destruct (Reqb_reflect b (-1)); [eauto|]. destruct (Reqb_reflect b (-2)); [eauto|]. destruct (Reqb_reflect b (-3)); [eauto|].
    rewrite Rleb_true by lra. rewrite Rltb_true by lra. cbn [andb]. eauto.
  Qed.
  Lemma no_corr x v : ~ S x -> propulsion_slcorr ext c v (Fin x) = Err TypeError.
  Proof. intros N. unfold propulsion_slcorr. destruct has_sl as (p & ->). cbn [rbind]. rewrite (no_mach x v N). reflexivity. Qed.
  Lemma no_lesm m : ~ S (cruise_at h) -> lesm ext c m = Err TypeError.
  Proof. intros N. destruct HB as (_ & (v & E & _) & _ & _ & _ & _ & EH & _). unfold lesm. rewrite E, EH, (no_q _ _ N). reflexivity. Qed.
  Lemma has_lesm m : S (cruise_at h) -> 0 <= m -> exists f, lesm ext c (Fin m) = Ok f.
  Proof.
    intros I. apply lesm_total; [exact HW|]. intros v k E1 E2. destruct HB as (_ & (v0 & E & _) & _ & _ & _ & _ & EH & _). rewrite EH in E2. injection E2 as <-. rewrite E in E1. injection E1 as <-.
    destruct (inside _ I) as (s & A). rewrite knots_fin, (q_air c _ s A). eauto.
  Qed.
  Lemma has_corr x s v : air_at c x s -> exists t k, propulsion_slcorr ext c (VNum (Fin v)) (Fin x) = Ok (VArr [t], k).
  Proof.
    intros A. destruct (engine_total ext c x s HE A (VNum (Fin v))) as (ts & ks & E & L & _).
    destruct ts as [|t [|y ts]]; try discriminate. exists t, (VArr ks). exact E.
  Qed.

  Lemma takeoff_needs v m : needs S [runway_at h] (twrequired_to ext c v m).
  Proof.
    destruct HB as (_ & _ & _ & _ & (d & E1) & _ & _ & _ & _ & EH). unfold twrequired_to. rewrite E1, EH. cbn [required pval rbind]. split.
    - intros I. destruct (inside (runway_at h) (I _ (or_introl eq_refl))) as (s & A). rewrite (dens_air c _ s A). cbn [rbind].
      match goal with |- context [mapM ?F ?L] => destruct (mapM_total F L) as (tws & TW & TL) end.
      { intros [t V] _. cbn [fst snd]. destruct m; [|eauto].
        destruct (engine_total ext c _ s HE A (VNum V)) as (ts & ks & E & LL & _). rewrite E. cbn [rbind fst].
        destruct ts as [|y [|z ts]]; try discriminate. cbn [as1 rbind]. eauto. }
      rewrite TW. cbn [rbind]. eauto.
    - intros x [<-|[]] N. rewrite (no_dens _ N). reflexivity.
  Qed.
  Lemma climb_needs v m : needs S [0; climb_at h; cruise_at h] (twrequired_clm ext c v m).
  Proof.
    destruct HB as ((u & r & E1 & E2 & Hu) & _ & _ & _ & _ & EH & _). unfold twrequired_clm. rewrite E1, E2, EH. cbn [required pval rbind]. rewrite knots_fin, fpm_fin. split.
    - intros I. destruct (inside 0 (I _ (or_introl eq_refl))) as (s0 & A0). destruct (inside (climb_at h) (I _ (or_intror (or_introl eq_refl)))) as (s & A).
      set (V := true_speed (knots u) s s0). assert (HV : 0 < V) by (apply true_pos; [apply A|apply A0|unfold knots; lra]).
      destruct (has_corr _ s V A) as (t & k & X). destruct (has_lesm (mach_no V s)) as (f & LF); [apply I; cbn; auto|apply (mach_no_nonneg c _ s A); lra|].
      rewrite !(tas_air c _ s A s0 _ A0). cbn [rbind]. fold V. rewrite X. cbn [rbind fst]. rewrite (q_air c _ s A). cbn [rbind].
      rewrite (mach_at_air c _ s A). cbn [rbind]. rewrite LF. cbn [rbind].
      match goal with |- context [corrected m (VArr ?L) (VArr [t])] => destruct (corrected_one m L t) as (F & ->) end. cbn [rbind vlit]. eauto.
    - intros x J N. destruct (Classical_Prop.classic (S 0)) as [I0|I0]; [|rewrite no_tas by (right; exact I0); reflexivity].
      destruct (Classical_Prop.classic (S (climb_at h))) as [I1|I1]; [|rewrite no_tas by (left; exact I1); reflexivity].
      destruct J as [<-|[<-|[<-|[]]]]; try contradiction. destruct (inside 0 I0) as (s0 & A0). destruct (inside _ I1) as (s & A).
      rewrite !(tas_air c _ s A s0 _ A0). cbn [rbind]. destruct (has_corr _ s (true_speed (knots u) s s0) A) as (t & k & ->). cbn [rbind fst]. rewrite (q_air c _ s A). cbn [rbind].
      rewrite (mach_at_air c _ s A). cbn [rbind]. rewrite (no_lesm _ N). reflexivity.
  Qed.
  Lemma ceiling_needs v m : needs S [0; ceiling_at h; cruise_at h] (twrequired_sec ext c v m).
  Proof.
    destruct HB as (_ & _ & (u & E1 & Hu) & _ & _ & _ & _ & EH & _). unfold twrequired_sec. rewrite E1, EH. cbn [required pval rbind]. rewrite knots_fin, fpm_fin. split.
    - intros I. destruct (inside 0 (I _ (or_introl eq_refl))) as (s0 & A0). destruct (inside (ceiling_at h) (I _ (or_intror (or_introl eq_refl)))) as (s & A).
      set (V := true_speed (knots u) s s0). assert (HV : 0 < V) by (apply true_pos; [apply A|apply A0|unfold knots; lra]).
      destruct (has_corr _ s V A) as (t & k & X). destruct (has_lesm (mach_no V s)) as (f & LF); [apply I; cbn; auto|apply (mach_no_nonneg c _ s A); lra|].
      rewrite !(tas_air c _ s A s0 _ A0). cbn [rbind]. fold V. rewrite X. cbn [rbind fst]. rewrite (q_air c _ s A). cbn [rbind].
      rewrite (mach_at_air c _ s A). cbn [rbind]. rewrite LF. cbn [rbind].
      match goal with |- context [corrected m (VArr ?L) (VArr [t])] => destruct (corrected_one m L t) as (F & ->) end. cbn [rbind vlit]. eauto.
    - intros x J N. destruct (Classical_Prop.classic (S 0)) as [I0|I0]; [|rewrite no_tas by (right; exact I0); reflexivity].
      destruct (Classical_Prop.classic (S (ceiling_at h))) as [I1|I1]; [|rewrite no_tas by (left; exact I1); reflexivity].
      destruct J as [<-|[<-|[<-|[]]]]; try contradiction. destruct (inside 0 I0) as (s0 & A0). destruct (inside _ I1) as (s & A).
      rewrite !(tas_air c _ s A s0 _ A0). cbn [rbind]. destruct (has_corr _ s (true_speed (knots u) s s0) A) as (t & k & ->). cbn [rbind fst]. rewrite (q_air c _ s A). cbn [rbind].
      rewrite (mach_at_air c _ s A). cbn [rbind]. rewrite (no_lesm _ N). reflexivity.
  Qed.
  Lemma cruise_needs v m : needs S [cruise_at h] (twrequired_crs ext c v m).
  Proof.
    pose proof HB as HB'. destruct HB' as (_ & (u & E1 & Hu) & _ & _ & _ & _ & EH & _). unfold twrequired_crs. rewrite E1, EH. cbn [required pval rbind]. rewrite knots_fin. split.
    - intros I. pose proof (I _ (or_introl eq_refl)) as I1. destruct (inside _ I1) as (s & A).
      set (V := knots u). assert (HV : 0 < V) by (unfold V, knots; lra).
      destruct (has_corr _ s V A) as (t & k & X). destruct (has_lesm (mach_no V s)) as (f & LF); [exact I1|apply (mach_no_nonneg c _ s A); lra|].
      rewrite X. cbn [rbind fst]. rewrite (q_air c _ s A). cbn [rbind]. rewrite (mach_at_air c _ s A). cbn [rbind]. rewrite LF. cbn [rbind].
      match goal with |- context [corrected m (VArr ?L) (VArr [t])] => destruct (corrected_one m L t) as (F & ->) end. cbn [rbind vlit]. eauto.
    - intros x [<-|[]] N. rewrite (no_corr _ _ N). reflexivity.
  Qed.
  Lemma turn_needs v m : needs S [turn_at h; cruise_at h] (twrequired_trn ext c v m).
  Proof.
    destruct HB as (_ & _ & _ & (u & n & E1 & E2 & Hu) & _ & _ & _ & _ & EH & _). unfold twrequired_trn, thrusttoweight_sustainedturn. rewrite E1, E2, EH. cbn [required pval rbind]. rewrite knots_fin. split.
    - intros I. destruct (inside (turn_at h) (I _ (or_introl eq_refl))) as (s & A).
      set (V := knots u). assert (HV : 0 < V) by (unfold V, knots; lra).
      destruct (has_corr _ s V A) as (t & k & X). destruct (has_lesm (mach_no V s)) as (f & LF); [apply I; cbn; auto|apply (mach_no_nonneg c _ s A); lra|].
      rewrite (mach_at_air c _ s A). cbn [rbind]. rewrite (q_air c _ s A). cbn [rbind]. rewrite LF. cbn [rbind fst snd]. rewrite X. cbn [rbind fst].
      match goal with |- context [corrected m (VArr ?L) (VArr [t])] => destruct (corrected_one m L t) as (F & ->) end. cbn [rbind vlit]. eauto.
    - intros x J N. destruct (Classical_Prop.classic (S (turn_at h))) as [I1|I1]; [|rewrite (no_mach_at _ _ I1); reflexivity].
      destruct J as [<-|[<-|[]]]; try contradiction. destruct (inside _ I1) as (s & A).
      rewrite (mach_at_air c _ s A). cbn [rbind]. rewrite (q_air c _ s A). cbn [rbind]. rewrite (no_lesm _ N). reflexivity.
  Qed.
  Lemma complete : (forall x, In x [0; climb_at h; cruise_at h; ceiling_at h; turn_at h; runway_at h] -> S x) -> brief_complete c.
  Proof.
    intros I. destruct HB as (B1 & B2 & B3 & B4 & B5 & E1 & E2 & E3 & E4 & E5). repeat (split; [assumption|]). split; [apply inside, I; cbn; auto|].
    repeat constructor; eexists; match goal with E : ?x = Some (Fin ?y) |- exists s, ?x = _ /\ _ => destruct (inside y) as (s & A); [apply I; cbn; tauto|exists s; split; [exact E|exact A]] end.
  Qed.
  Lemma step_needs {A B} (l l' : list R) (r : res A) (k : A -> res B) x : needs S l r -> (forall y, r = Ok y -> (forall z, In z l -> S z) -> In x l' -> ~ S x -> k y = Err TypeError) ->
    In x (l ++ l') -> ~ S x -> rbind r k = Err TypeError.
  Proof.
    intros (P & Q) K I N. destruct (Classical_Prop.classic (exists z, In z l /\ ~ S z)) as [(z & Z & NZ)|H]; [rewrite (Q z Z NZ); reflexivity|].
    assert (ALL : forall z, In z l -> S z) by (intros z Z; destruct (Classical_Prop.classic (S z)); [assumption|exfalso; eauto]).
    destruct (P ALL) as (y & E). rewrite E. cbn [rbind]. apply (K y E ALL); [|exact N]. apply in_app_or in I. destruct I as [I|I]; [exfalso; apply N, ALL, I|exact I].
  Qed.
  Definition all_of : list R := [0; climb_at h; cruise_at h; ceiling_at h; turn_at h; runway_at h].
  Lemma combined_raises v fo m x : In x all_of -> ~ S x -> twrequired ext c v fo m = Err TypeError.
  Proof.
    intros I N. unfold twrequired. cbn zeta. set (ws := VArr _).
    assert (J : In x ([runway_at h] ++ [turn_at h; cruise_at h] ++ [0; climb_at h; cruise_at h] ++ [cruise_at h] ++ [0; ceiling_at h; cruise_at h] ++ [])) by (unfold all_of in I; cbn in *; tauto).
    refine (step_needs _ _ _ _ x (takeoff_needs ws m) _ J N). intros [[t1 t2] t3] _ _ J1 _. cbn beta iota.
    refine (step_needs _ _ _ _ x (turn_needs ws m) _ J1 N). intros [[u1 u2] u3] _ _ J2 _. cbn beta iota.
    refine (step_needs _ _ _ _ x (climb_needs ws m) _ J2 N). intros r1 _ _ J3 _. cbn beta iota.
    refine (step_needs _ _ _ _ x (cruise_needs ws m) _ J3 N). intros r2 _ _ J4 _. cbn beta iota.
    refine (step_needs _ _ _ _ x (ceiling_needs ws m) _ J4 N). intros r3 _ _ [] _.
  Qed.
  Lemma combined_needs v fo m : needs S all_of (twrequired ext c v fo m).
  Proof. split; [intros I; apply twrequired_ok; [exact HW|exact HE|exact (complete I)]|apply combined_raises]. Qed.
  Lemma power_needs v kg fo m : needs S all_of (powerrequired ext c v kg fo m).
  Proof.
    split; [intros I; apply powerrequired_ok; [exact HW|exact HE|exact (complete I)]|]. intros x I N. unfold powerrequired. rewrite (combined_raises v fo false x I N). reflexivity.
  Qed.
End Sounding.

(** ** the standard atmosphere *)
Lemma coldest h : h <= 50000 -> 216.65 <= std_temp h.
Proof.
  intros H. rewrite <- tl_std by exact H. unfold tl, layer. repeat (destruct (Rlt_dec _ _); [lra|]). lra.
Qed.
Lemma standard_answers o : -216 < o -> answers_on (isa o) (fun x => x <= 50000).
Proof.
  intros O x. split.
  - intros H. pose proof (coldest x H) as C. exists (exp (ld x) * std_temp x / (std_temp x + o)), (std_temp x + o), (exp (lp x)).
    split; [apply airdens_isa; lra|]. split; [apply airtemp_isa, H|]. split; [apply airpress_isa, H|]. split; [|lra].
    apply Rdiv_lt_0_compat; [|lra]. apply Rmult_lt_0_compat; [apply exp_pos|lra].
  - intros H. destruct (above_limit o (VNum (Fin x))) as (A & B & C & _); [|auto]. apply Exists_cons_hd. exists x. split; [reflexivity|lra].
Qed.

(** ** certification *)
Section Certified.
  Variables (ext : externals) (s : cert) (S : R -> Prop).
  Hypothesis HA : answers_on (designatm (acobj s)) S.
  Lemma no_sea_dens : ~ S 0 -> dens_at (acobj s) (Fin 0) = Err TypeError.
  Proof. intros N. destruct (proj2 (HA 0) N) as (D & _). unfold dens_at. rewrite D. reflexivity. Qed.
  Lemma stall_needs W A cp cn n : weight_n (acobj s) = Some (Fin W) -> wingarea_m2 (acobj s) = Some (Fin A) -> clmaxclean (acobj s) = Some (Fin cp) -> clminclean (acobj s) = Some (Fin cn) ->
    0 < W -> 0 < A -> 0 < cp -> cn < 0 -> needs S [0] (vs_keas s (Fin n)).
  Proof.
    intros E1 E2 E3 E4 PW PA P3 P4. unfold vs_keas. rewrite E1, E2, E3, E4. cbn [required rbind].
    assert (E : exists cl, (if (Fin 0 <=? Fin n)%num then Ok (Fin cp) else Ok (Fin cn)) = Ok (Fin cl) /\ 0 <= n * cl /\ cl <> 0).
    { unfold nleb. destruct (Rleb_reflect 0 n); eexists; (split; [reflexivity|split; [nra|lra]]). }
    destruct E as (cl & -> & PC & PN). cbn [rbind]. split.
    - intros I. destruct (proj1 (HA 0) (I 0 (or_introl eq_refl))) as (rho & T & p & D & _ & _ & PR & _). unfold dens_at. rewrite D. cbn [rbind as1].
      assert (K : 0 < 0.5 * rho * A) by (apply Rmult_lt_0_compat; lra). assert (NZ : 0.5 * rho * A * cl <> 0) by (apply Rmult_integral_contrapositive_currified; lra).
      change (nmul (Fin n) (Fin W)) with (Fin (n * W)). change (nmul (nmul (nmul (Fin 0.5) (Fin rho)) (Fin A)) (Fin cl)) with (Fin (0.5 * rho * A * cl)). rewrite ndiv_fin by exact NZ. unfold msqrt.
      assert (Q : 0 <= n * W / (0.5 * rho * A * cl)).
      { replace (n * W / (0.5 * rho * A * cl)) with ((n * cl) * (W / (0.5 * rho * A * (cl * cl)))) by (field; repeat split; lra).
        apply Rmult_le_pos; [exact PC|]. left. apply Rdiv_lt_0_compat; [lra|]. apply Rmult_lt_0_compat; [lra|]. nra. }
      unfold nltb. rewrite Rltb_false by lra. cbn [rbind]. eauto.
    - intros x [<-|[]] N. rewrite (no_sea_dens N). reflexivity.
  Qed.
  Lemma envelope_raises k : category s = CStr (names k) -> ~ S 0 -> flightenvelope ext s = Err TypeError.
  Proof. intros C N. unfold flightenvelope. rewrite C. destruct k; cbn [check_category names cat_of_name String.eqb Ascii.eqb Bool.eqb rbind]; rewrite (no_sea_dens N); reflexivity. Qed.
  Lemma gusts_raise sp x : altitude_m s = Fin x -> ~ S x -> paragraph341 ext s sp = Err TypeError.
  Proof. intros E N. unfold paragraph341. destruct (proj2 (HA x) N) as (D & _). unfold dens_at at 1. rewrite E, D. reflexivity. Qed.
End Certified.

(** ** a mountain sounding *)
Definition with_runway (c : concept) (h : R) : concept := {|
  climbalt_m := climbalt_m c; climbspeed_kias := climbspeed_kias c; climbrate_fpm := climbrate_fpm c;
  cruisealt_m := cruisealt_m c; cruisespeed_ktas := cruisespeed_ktas c; cruisethrustfact := cruisethrustfact c;
  servceil_m := servceil_m c; secclimbspd_kias := secclimbspd_kias c; vstallclean_kcas := vstallclean_kcas c;
  groundrun_m := groundrun_m c; rwyelevation_m := Some (Fin h); to_headwind_kts := to_headwind_kts c;
  to_slope_perc := to_slope_perc c; turnalt_m := turnalt_m c; turnspeed_ktas := turnspeed_ktas c;
  stloadfactor := stloadfactor c;
  aspectratio := aspectratio c; sweep_le_deg := sweep_le_deg c; sweep_25_deg := sweep_25_deg c;
  sweep_mt_deg := sweep_mt_deg c; roottaperratio := roottaperratio c; wingarea_m2 := wingarea_m2 c;
  wingheightratio := wingheightratio c;
  bpr := bpr c; spooluptime_s := spooluptime_s c; totalstaticthrust_n := totalstaticthrust_n c;
  throttle_r := throttle_r c; weight_n := weight_n c;
  climb_weight_fraction := climb_weight_fraction c; cruise_weight_fraction := cruise_weight_fraction c;
  sec_weight_fraction := sec_weight_fraction c; turn_weight_fraction := turn_weight_fraction c;
  runwayalpha_deg := runwayalpha_deg c; runwayalpha_max_deg := runwayalpha_max_deg c;
  CD0TO := CD0TO c; cdto := cdto c; cdminclean := cdminclean c; mu_r := mu_r c;
  CL0TO := CL0TO c; clto := clto c; clmaxclean := clmaxclean c; clminclean := clminclean c; clmaxto := clmaxto c;
  a_0i := a_0i c;
  etaprop_climb := etaprop_climb c; etaprop_cruise := etaprop_cruise c; etaprop_sec := etaprop_sec c;
  etaprop_to := etaprop_to c; etaprop_turn := etaprop_turn c;
  designatm := designatm c; propulsion := propulsion c |}.
Lemma mountain_analysis : exists ext c h obs p, wing_ok ext c /\ engine_ok c /\ ascent obs /\ observed (designatm c) p obs /\ briefed c h /\
  (forall x, In x [climb_at h; cruise_at h; ceiling_at h; turn_at h; runway_at h] -> covered obs x) /\ forall v fo m, twrequired ext c v fo m = Err TypeError.
Proof.
  set (lo := {| rd_h := 300; rd_temp := 284; rd_rho := 1.19 |}). set (hi := {| rd_h := 12000; rd_temp := 218; rd_rho := 0.31 |}). set (obs := [lo; hi]).
  assert (A : ascent obs) by (split; [discriminate|split; [cbn; repeat constructor; cbn; intuition lra|repeat constructor; cbn; lra]]).
  destruct (observed_exists obs A) as (a & p & O). set (c := with_runway (example_aircraft 20 18 4 PropFalse a) 400).
  set (h := {| climb_at := 1000; cruise_at := 6000; ceiling_at := 9000; turn_at := 2000; runway_at := 400 |}).
  assert (W : wing_ok example_ext c) by exact (jet_wing 4 PropFalse a). assert (E : engine_ok c) by exact jet_engine.
  assert (B : briefed c h) by (repeat split; try reflexivity; repeat eexists; lra).
  assert (C : forall x, 300 <= x <= 12000 -> covered obs x) by (intros x X; exists lo, hi; cbn; split; [auto|split; [auto|exact X]]).
  exists example_ext, c, h, obs, p. repeat (split; [assumption|]). split.
  - intros x I. apply C. cbn in I. destruct I as [<-|[<-|[<-|[<-|[<-|[]]]]]]; lra.
  - intros v fo m. refine (combined_raises example_ext c (covered obs) h W E (sounding_answers a p obs A O) B v fo m 0 _ _); [left; reflexivity|].
    intros (l & k & [<-|[<-|[]]] & _ & X); cbn in X; lra.
Qed.
Lemma valley_analysis : exists ext c h obs p, wing_ok ext c /\ engine_ok c /\ ascent obs /\ observed (designatm c) p obs /\ briefed c h /\
  (forall x, In x [0; climb_at h; cruise_at h; ceiling_at h; turn_at h; runway_at h] -> covered obs x).
Proof.
  set (lo := {| rd_h := 0; rd_temp := 287; rd_rho := 1.22 |}). set (mid := {| rd_h := 5000; rd_temp := 256; rd_rho := 0.73 |}). set (hi := {| rd_h := 12000; rd_temp := 218; rd_rho := 0.31 |}). set (obs := [mid; lo; hi]).
  assert (A : ascent obs) by (split; [discriminate|split; [cbn; repeat constructor; cbn; intuition lra|repeat constructor; cbn; lra]]).
  destruct (observed_exists obs A) as (a & p & O). set (c := example_aircraft 20 18 4 PropFalse a).
  set (h := {| climb_at := 1000; cruise_at := 6000; ceiling_at := 9000; turn_at := 2000; runway_at := 0 |}).
  assert (W : wing_ok example_ext c) by exact (jet_wing 4 PropFalse a). assert (E : engine_ok c) by exact jet_engine.
  assert (B : briefed c h) by (repeat split; try reflexivity; repeat eexists; lra).
  exists example_ext, c, h, obs, p. repeat (split; [assumption|]).
  intros x I. exists lo, hi. cbn. split; [auto|]. split; [auto|]. cbn in I. destruct I as [<-|[<-|[<-|[<-|[<-|[<-|[]]]]]]]; lra.
Qed.
(** a runway below sea level *)
Lemma polder hl td alt f a ext c h : handbook hl td alt f a -> ~ frozen hl td alt f -> designatm c = a -> wing_ok ext c -> engine_ok c -> briefed c h -> runway_at h < 0 ->
  forall v fo m, twrequired_to ext c v m = Err TypeError /\ twrequired ext c v fo m = Err TypeError.
Proof.
  intros H F D W E B R v fo m. pose proof (handbook_answers hl td alt f a H F) as A. rewrite <- D in A. split.
  - apply (proj2 (takeoff_needs ext c _ h E A B v m) (runway_at h)); [left; reflexivity|lra].
  - apply (combined_raises ext c _ h W E A B v fo m (runway_at h)); [cbn; tauto|lra].
Qed.
Lemma polder_case : exists hl td alt f a ext c h, handbook hl td alt f a /\ ~ frozen hl td alt f /\ designatm c = a /\ wing_ok ext c /\ engine_ok c /\ briefed c h /\ runway_at h < 0.
Proof.
  destruct (hb_exists "high" "temp" "5" one) as (a & H); [cbn; auto..|].
  exists "high"%string, "temp"%string, "5"%string, one, a, example_ext, (with_runway (example_aircraft 20 18 4 PropFalse a) (-3)), {| climb_at := 1000; cruise_at := 6000; ceiling_at := 9000; turn_at := 2000; runway_at := -3 |}.
  split; [exact H|]. split; [intros (_ & X & _); discriminate|]. split; [reflexivity|]. split; [exact (jet_wing 4 PropFalse a)|]. split; [exact jet_engine|].
  split; [repeat split; try reflexivity; repeat eexists; lra|cbn; lra].
Qed.
Lemma mountain_certificate : exists s S k, answers_on (designatm (acobj s)) S /\ ~ S 0 /\ category s = CStr (names k) /\ altitude_m s = Fin 0 /\
  weight_n (acobj s) = Some (Fin 100000) /\ wingarea_m2 (acobj s) = Some (Fin 30) /\ clmaxclean (acobj s) = Some (Fin 1.5) /\ clminclean (acobj s) = Some (Fin (-1)).
Proof.
  destruct mountain_case as (obs & a & p & A & O & N).
  exists {| acobj := example_aircraft 20 18 4 PropFalse a; cruisespeed_keas := Some (Fin 200); category := CStr (names Norm); divespeed_keas := None; maxlevelspeed_keas := None;
            altitude_m := Fin 0; weightfraction := Fin 1 |}, (covered obs), Norm.
  split; [exact (sounding_answers a p obs A O)|]. split; [exact N|]. repeat split.
Qed.
