(** Atmosphere queries, sea level corrections and induced drag of a concept. *)
From Verif Require Import Base BaseFacts AnalysisFacts UnitsModel AtmosModel AtmosSpec AtmosProofs2
  AtmosProofs3 AtmosProofs4 ConceptModel ConceptProofs MethodsModel MethodsSpec MethodsProofs MethodsProofs2
  MethodsProofs3 MethodsProofs4 ConstraintSpec.
Open Scope R_scope.

Lemma alttest_ok atm h t : airtemp_k atm (VNum (Fin h)) = Ok t -> alttest atm (VNum (Fin h)) = Ok [Fin h].
Proof.
  unfold airtemp_k. intros H. apply rbind_ok in H. destruct H as (l & E & _). rewrite E. f_equal.
  unfold alttest in E. cbn [recastasnpfloatarray] in E. destruct (prof atm).
  - apply rbind_ok in E. destruct E as (mn & _ & E). apply rbind_ok in E. destruct E as (mx & _ & E).
    destruct (existsb _ _); [discriminate|]. destruct (existsb _ _); [discriminate|]. congruence.
  - destruct (existsb _ _); [discriminate|]. congruence.
Qed.

Section Air.
  Variables (c : concept) (h : R) (s : airstate).
  Hypothesis HA : air_at c h s.

  Lemma sound_pos : 0 < sound_speed s.
  Proof. destruct HA as (_ & _ & _ & _ & T). apply sqrt_lt_R0. lra. Qed.

  Lemma dens_air : dens_at c (Fin h) = Ok (Fin (a_rho s)).
  Proof. destruct HA as (D & _). unfold dens_at. rewrite D. reflexivity. Qed.

  Lemma q_air V : q_at c (Fin V) (Fin h) = Ok (Fin (dyn_press V s)).
  Proof.
    destruct HA as (D & _). unfold q_at, dynamicpressure_pa. rewrite D. cbn [rbind vlit as1].
    rewrite npown_fin, !nmul_fin. do 2 f_equal. unfold dyn_press. lra.
  Qed.

  Lemma temp_c_air : airtemp_c (designatm c) (VNum (Fin h)) = Ok (VNum (Fin (a_temp s - 273.15))).
  Proof.
    destruct HA as (_ & T & _). unfold airtemp_c. rewrite T. cbn [rbind vlit].
    unfold k2c. rewrite ?nadd_fin, ?nsub_fin. reflexivity.
  Qed.

  Lemma mach_air v : mach (designatm c) v (VNum (Fin h))
    = Ok (VArr (map (fun x => ndiv x (Fin (sound_speed s))) (recastasnpfloatarray v))).
  Proof.
    pose proof HA as (_ & T & _ & _ & TP). pose proof (alttest_ok _ _ _ T) as AT.
    unfold mach. rewrite AT. cbn [rbind]. unfold vsound_mps.
    change (alttest (designatm c) (VList [Fin h])) with (alttest (designatm c) (VNum (Fin h))).
    rewrite AT. cbn [rbind].
    change (airtemp_k (designatm c) (VList [Fin h])) with (airtemp_k (designatm c) (VNum (Fin h))).
    rewrite T. cbn [rbind vsound_of]. unfold vsound1, R_JPKGPK. rewrite !nmul_fin, msqrt_fin by lra.
    cbn [rmap rbind reverttoscalar vop2]. reflexivity.
  Qed.

  Lemma mach1_air V : mach (designatm c) (VNum (Fin V)) (VNum (Fin h)) = Ok (VArr [Fin (mach_no V s)]).
  Proof.
    rewrite mach_air. cbn [recastasnpfloatarray map]. pose proof sound_pos.
    rewrite ndiv_fin by lra. reflexivity.
  Qed.

  Lemma mach_at_air V : mach_at c (Fin V) (Fin h) = Ok (Fin (mach_no V s)).
  Proof. unfold mach_at. rewrite mach1_air. reflexivity. Qed.

  Lemma tas_air s0 e : air_at c 0 s0 -> tas_at c (Fin e) (Fin h) = Ok (Fin (true_speed e s s0)).
  Proof.
    intros (D0 & _ & _ & P0 & _). pose proof HA as (D & _ & _ & P & _).
    unfold tas_at. rewrite (proj1 (eas_tas_general (designatm c) h (a_rho s) (a_rho s0) P P0 D D0 e)).
    cbn [rbind as1]. do 2 f_equal. unfold true_speed, Rdiv at 1.
    f_equal. rewrite inv_sqrt_depr by (apply Rdiv_lt_0_compat; assumption).
    f_equal. field. lra.
  Qed.

  (** ** generic engines *)
  Lemma mach_no_nonneg V : 0 <= V -> 0 <= mach_no V s.
  Proof. intros HV. pose proof sound_pos. apply Rdiv_le_0_compat; assumption. Qed.

  Lemma slcorr_generic ext b tr g : bpr c = Some (Fin b) -> throttle_r c = Some (Fin tr) ->
    generic_of b (propulsion c) g ->
    forall V, 0 <= V ->
    propulsion_slcorr ext c (VNum (Fin V)) (Fin h)
    = Ok (VArr [engine_lapse ext g s (mach_no V s) tr], VArr [Fin 1]).
  Proof.
    intros HB HT HG V HV. pose proof HA as (D & T & P & RP & TP). pose proof (mach_no_nonneg V HV) as MN.
    assert (SL : forall x, sl_propulsion c = Ok (PropStr x) ->
      propulsion_slcorr ext c (VNum (Fin V)) (Fin h)
      = (do t <- generic_tcorr ext c x (Fin (a_temp s - 273.15)) (Fin (a_press s)) (Fin (a_rho s)) (Fin (mach_no V s));
         Ok (VArr [t], VArr [Fin 1]))).
    { intros x E. unfold propulsion_slcorr. rewrite E. cbn [rbind]. rewrite mach1_air. cbn [rbind recastasnpfloatarray map].
      rewrite temp_c_air. cbn [rbind as1]. rewrite P. cbn [rbind as1]. rewrite dens_air. cbn [rbind mapM].
      destruct (generic_tcorr _ _ _ _ _ _ _); reflexivity. }
    remember (propulsion c) as pp eqn:EP. destruct HG as [p PP B|p PP B|p PP B|p PP|p PP|p PP|B N1 N2].
    - rewrite (SL "jet"%string).
      2:{ unfold sl_propulsion. rewrite <- EP. destruct PP as [-> | ->]; [|reflexivity]. rewrite HB. cbn [pval].
          rewrite nleb_fin, (Rleb_true 0 b) by lra. reflexivity. }
      unfold generic_tcorr. cbn [String.eqb Ascii.eqb Bool.eqb]. rewrite HB, HT. cbn [pval neqb].
      rewrite (Reqb_true b 0) by exact B. rewrite jet_dry by lra. reflexivity.
    - rewrite (SL "jet"%string).
      2:{ unfold sl_propulsion. rewrite <- EP. destruct PP as [-> | ->]; [|reflexivity]. rewrite HB. cbn [pval].
          rewrite nleb_fin, (Rleb_true 0 b) by lra. reflexivity. }
      unfold generic_tcorr. cbn [String.eqb Ascii.eqb Bool.eqb]. rewrite HB, HT. cbn [pval neqb].
      rewrite (Reqb_false b 0) by lra. rewrite !nltb_fin, (Rltb_true 0 b), (Rltb_true b 5) by lra.
      cbn [andb]. rewrite fan_low by lra. reflexivity.
    - rewrite (SL "jet"%string).
      2:{ unfold sl_propulsion. rewrite <- EP. destruct PP as [-> | ->]; [|reflexivity]. rewrite HB. cbn [pval].
          rewrite nleb_fin, (Rleb_true 0 b) by lra. reflexivity. }
      unfold generic_tcorr. cbn [String.eqb Ascii.eqb Bool.eqb]. rewrite HB, HT. cbn [pval neqb].
      rewrite (Reqb_false b 0) by lra. rewrite !nltb_fin, (Rltb_false b 5) by lra.
      rewrite Bool.andb_false_r. rewrite nleb_fin, (Rleb_true 5 b) by lra. rewrite fan_high by lra. reflexivity.
    - rewrite (SL "piston"%string).
      2:{ unfold sl_propulsion. rewrite <- EP. destruct PP as [(-> & B) | ->]; [|reflexivity]. rewrite HB. cbn [pval neqb].
          rewrite nleb_fin, (Rleb_false 0 b), (Reqb_true b (-1)) by lra. reflexivity. }
      unfold generic_tcorr. cbn [String.eqb Ascii.eqb Bool.eqb]. rewrite piston_real. reflexivity.
    - rewrite (SL "turboprop"%string).
      2:{ unfold sl_propulsion. rewrite <- EP. destruct PP as [(-> & B) | ->]; [|reflexivity]. rewrite HB. cbn [pval neqb].
          rewrite nleb_fin, (Rleb_false 0 b), (Reqb_false b (-1)), (Reqb_true b (-2)) by lra. reflexivity. }
      unfold generic_tcorr. cbn [String.eqb Ascii.eqb Bool.eqb]. rewrite ndiv_fin by lra. reflexivity.
    - rewrite (SL "electric"%string).
      2:{ unfold sl_propulsion. rewrite <- EP. destruct PP as [(-> & B) | ->]; [|reflexivity]. rewrite HB. cbn [pval neqb].
          rewrite nleb_fin, (Rleb_false 0 b), (Reqb_false b (-1)), (Reqb_false b (-2)), (Reqb_true b (-3)) by lra. reflexivity. }
      reflexivity.
    - unfold propulsion_slcorr, sl_propulsion. rewrite <- EP, HB. cbn [pval neqb].
      rewrite nleb_fin, (Rleb_false 0 b), (Reqb_false b (-1)), (Reqb_false b (-2)), (Reqb_false b (-3)) by lra.
      rewrite nltb_fin, (nleb_fin (-3)), (Rleb_true (-3) b), (Rltb_true b 0) by lra. cbn [andb rbind].
      rewrite mach1_air. reflexivity.
  Qed.
End Air.
