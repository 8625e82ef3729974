(** The sensitivity diagrams: further concrete cases. *)
From Verif Require Import Base BaseFacts UnitsModel AtmosModel AtmosSpec ConceptModel ConceptSpec MethodsModel MethodsSpec MethodsExamples
  SensitivityModel SensitivitySpec SensitivityPlotModel SensitivityPlotSpec ConceptProofs ConceptProofs6 MethodsProofs SensitivityProofs SensitivityProofs2
  SensitivityProofs3 SensitivityProofs4 SensitivityPlotProofs
  SensitivityPlotProofs2 SensitivityPlotProofs3 SensitivityPlotProofs4 SensitivityPlotProofs5 SensitivityPlotProofs6.
Open Scope R_scope.
Open Scope string_scope.

Lemma combined_top fg d : combinedplot fg = Ok d -> cd_top d = fg_top fg.
Proof.
  intros P. unfold combinedplot in P. apply rbind_ok in P as (lo & _ & P). apply rbind_ok in P as (hi & _ & P). cbv zeta in P.
  apply rbind_ok in P as (tl & _ & P). match type of P with (let '(_, _) := ?e in _) = _ => destruct e as [u v] end.
  apply rbind_ok in P as (xf & XF & P). apply rbind_ok in P as (yf & YF & P). injection P as <-. reflexivity.
Qed.
Lemma limit_given ext self wl y t x labels mask d :
  propulsionsensitivity_monothetic ext self wl y (Some t) x labels (ShowOne "combined") mask = Ok [DCombined d] -> cd_top d = t.
Proof.
  intros H. destruct (combined_inv _ _ _ _ _ _ _ _ _ H) as (fg & F & P). rewrite (combined_top _ _ P).
  destruct (figure_inv _ _ _ _ _ _ _ F) as (s & med & comb & fx & _ & _ & _ & _ & _ & _ & Y & _). cbn in Y. congruence.
Qed.

Definition retop (t : num) (fg : figure_data) : figure_data :=
  {| fg_sens := fg_sens fg; fg_med := fg_med fg; fg_x := fg_x fg; fg_stall := fg_stall fg; fg_top := t;
     fg_feas := fg_feas fg; fg_infeas := fg_infeas fg; fg_x1 := fg_x1 fg; fg_x2 := fg_x2 fg |}.
Lemma figure_retop ext self wl y x t fg : figure ext self wl y x None = Ok fg -> figure ext self wl y x (Some t) = Ok (retop t fg).
Proof.
  unfold figure. intros H. apply rbind_ok in H as ((s & med) & S & H). rewrite S. cbn [rbind]. cbv zeta in *.
  apply rbind_ok in H as (st & ST & H). rewrite ST. cbn [rbind]. apply rbind_ok in H as (tp & TP & H). cbn [ylim_hi rbind].
  destruct (rq_combined med) as [|l|comb] eqn:C; try discriminate.
  apply rbind_ok in H as (fx & FX & H). rewrite FX. cbn [rbind]. apply rbind_ok in H as (x2 & X2 & H). rewrite X2. cbn [rbind].
  apply rbind_ok in H as (x1 & X1 & H). rewrite X1. cbn [rbind]. injection H as <-. reflexivity.
Qed.
Lemma combined_retop t fg d : combinedplot fg = Ok d -> exists d', combinedplot (retop t fg) = Ok d'.
Proof.
  intros P. unfold combinedplot in *. cbn [fg_sens fg_med fg_x fg_stall fg_top fg_feas fg_infeas fg_x1 fg_x2 retop] in *.
  apply rbind_ok in P as (lo & LO & P). rewrite LO. cbn [rbind]. apply rbind_ok in P as (hi & HI & P). rewrite HI. cbn [rbind]. cbv zeta in *.
  apply rbind_ok in P as (tl & TL & P). rewrite TL. cbn [rbind].
  match type of P with (let '(_, _) := ?e in _) = _ => destruct e as [u v] end.
  apply rbind_ok in P as (xf & XF & P). rewrite XF. cbn [rbind]. apply rbind_ok in P as (yf & YF & P). rewrite YF. cbn [rbind]. eauto.
Qed.
Lemma limit_given_case : exists d,
  propulsionsensitivity_monothetic example_ext self1 (loading_list feasible_loads) Ytw (Some (Fin 0.5)) Xws [] (ShowOne "combined") true = Ok [DCombined d].
Proof.
  destruct feasible_case as (med & d & _ & D & _). destruct (combined_inv _ _ _ _ _ _ _ _ _ D) as (fg & F & P).
  destruct (combined_retop (Fin 0.5) _ _ P) as (d' & P'). exists d'. unfold propulsionsensitivity_monothetic.
  rewrite (figure_retop _ _ _ _ _ (Fin 0.5) _ F). cbn [rbind].
  change (find (fun cn => String.eqb "combined" (fst cn)) sensitivityplots_list) with (@None (string * (requirement -> val))). cbn [String.eqb].
  rewrite P'. reflexivity.
Qed.

Lemma constructed_case : exists b d p atm prop, pyeta p /\ construct b d p atm prop = Ok self1.
Proof. do 5 eexists. split; [exact self1_pyeta|exact self1_ok]. Qed.
Lemma defined_case : exists b d p atm prop s med, pyeta p /\ construct b d p atm prop = Ok self1 /\
  sensitivity example_ext self1 (loading_list mixed_loads) Ytw = Ok (s, med) /\ clmaxclean (obj self1) = Some (Fin 1.5) /\
  defined_at (rq_combined med) 1 /\ ~ defined_at (rq_combined med) 2.
Proof.
  destruct mixed_case as (med & d & S & _ & _ & _ & _ & _ & FD & _). do 5 eexists. exists sens0, med.
  split; [exact self1_pyeta|]. split; [exact self1_ok|]. split; [exact S|]. split; [reflexivity|]. split; [apply FD; lia|intros Q; apply FD in Q; lia].
Qed.

Lemma show_all_case : exists ds, List.length ds = 6%nat /\
  propulsionsensitivity_monothetic example_ext self1 (loading_list feasible_loads) Ytw None Xws [] ShowAll false = Ok ds.
Proof.
  assert (ND : NoDup feasible_loads) by (apply monotone_nodup; left; apply feasible_ascending).
  assert (exists ds, propulsionsensitivity_monothetic example_ext self1 (loading_list feasible_loads) Ytw None Xws [] ShowAll false = Ok ds) as (ds & D).
  { destruct (self1_drawn feasible_loads [] false ND ltac:(cbn; lia)) as (d & D).
    assert (Q : forall cn sel, In (cn, sel) analysed -> exists d', propulsionsensitivity_monothetic example_ext self1 (loading_list feasible_loads) Ytw None Xws [] (ShowOne cn) false = Ok [d']).
    { intros cn sel I. apply (plain_total _ _ _ [] I ND). cbn. lia. }
    destruct (Q "climb" rq_climb) as (d1 & D1); [cbn; auto|]. destruct (Q "cruise" rq_cruise) as (d2 & D2); [cbn; auto|].
    destruct (Q "servceil" rq_servceil) as (d3 & D3); [cbn; auto|]. destruct (Q "take-off" rq_takeoff) as (d4 & D4); [cbn; auto 6|].
    destruct (Q "turn" rq_turn) as (d5 & D5); [cbn; auto 7|].
    exists [d1; d2; d3; d4; d5; DCombined d]. apply show_all. unfold diagram_names.
    assert (N : forall cn sel e, In (cn, sel) analysed ->
      propulsionsensitivity_monothetic example_ext self1 (loading_list feasible_loads) Ytw None Xws [] (ShowOne cn) false = Ok [e] -> diagram_name e = cn).
    { intros cn sel e I E. destruct (sens_diagram_inv _ _ _ _ _ _ _ _ _ _ _ I E) as (fg & e' & _ & P & [= <-]). exact (sens_name _ _ _ _ _ P). }
    repeat constructor; try assumption; (eapply N; [|eassumption]; cbn; auto 7). }
  exists ds. split; [|exact D]. apply show_all in D. unfold diagram_names in D.
  do 6 (inversion D as [|? ? ? ? _ D']; subst; clear D; rename D' into D). inversion D; subst. reflexivity.
Qed.

Lemma show_other_nothing ext self wl y yl x labels mask s : ~ In s diagram_names ->
  propulsionsensitivity_monothetic ext self wl y yl x labels (ShowOne s) mask =
  propulsionsensitivity_monothetic ext self wl y yl x labels ShowNone mask /\
  (forall ds, propulsionsensitivity_monothetic ext self wl y yl x labels (ShowOne s) mask = Ok ds -> ds = []).
Proof.
  intros N. rewrite (show_other _ _ _ _ _ _ _ _ _ N). split; [reflexivity|]. intros ds H.
  unfold propulsionsensitivity_monothetic in H. apply rbind_ok in H as (fg & _ & H). congruence.
Qed.

(** a diagram with a part: the ground run is given as a range *)
Lemma parts_case : exists s med prime ds, sensitivity example_ext (self0 PropFalse) (loading_list [1000; 2000]) Ytw = Ok (s, med) /\
  axis (self0 PropFalse) (loading_list [1000; 2000]) Xws [1000; 2000] [1000; 2000] /\ binds (primes s) "take-off" prime /\ prime <> [] /\
  propulsionsensitivity_monothetic example_ext (self0 PropFalse) (loading_list [1000; 2000]) Ytw None Xws [("groundrun_m", "Ground run")] (ShowOne "take-off") false = Ok ds.
Proof.
  destruct shares_example as (s & med & prime & out & S & _ & B & NE & SH & _). exists s, med, prime.
  change (VList [Fin 1000; Fin 2000]) with (loading_list [1000; 2000]) in S.
  assert (E : with_engine (obj (self0 PropFalse)) PropOther = bare 1200).
  { assert (E : ((#0 + #1000 + #1400) / Fin (INR 2))%num = Fin 1200) by (rewrite !nadd_fin, ndiv_fin by (simpl; lra); apply Fin_eq; simpl; field).
    transitivity (with_run (example_aircraft 20 18 4 PropOther (isa 0)) ((#0 + #1000 + #1400) / Fin (INR 2))%num); [reflexivity|]. rewrite E. reflexivity. }
  assert (ST : stall_position (self0 PropFalse) Xws (Some stall_load)).
  { destruct self1_stall as (P & ST & _). apply (a_stall _ _ 110 1.5 stall_load 100000); try reflexivity; try lra.
    transitivity (wsmaxcleanstall_pa (obj self1)); [reflexivity|]. inversion ST as [|? ? w ? ? _ _ _ _ W _ _ _ Q]; subst. rewrite W. congruence. }
  destruct (drawn (brief_dict (PList [Fin 1000; Fin 1400])) design_dict performance_dict (isa 0) PropFalse (self0 PropFalse) example_ext
              (loading_list [1000; 2000]) Xws [("groundrun_m", "Ground run")] false s med [1000; 2000] [1000; 2000] (Some stall_load)) as (d & D).
  - exact self1_pyeta.
  - apply self0_ok.
  - exact S.
  - cbv zeta. rewrite E. exact (bare_ok 1200).
  - split; reflexivity.
  - constructor; [intros [Q|[]]; lra|constructor; [tauto|constructor]].
  - cbn. lia.
  - exact ST.
  - destruct (combined_inv _ _ _ _ _ _ _ _ _ D) as (fg & F & _).
    destruct (figure_inv _ _ _ _ _ _ _ F) as (s' & med' & comb & fx & S' & _ & FS & M & X & _). rewrite S in S'. injection S' as <- <-.
    eexists. split; [exact S|]. split; [split; reflexivity|]. split; [exact B|]. split; [exact NE|].
    unfold propulsionsensitivity_monothetic. rewrite F. cbn [rbind].
    change (find (fun cn => String.eqb "take-off" (fst cn)) sensitivityplots_list) with (Some ("take-off", rq_takeoff)).
    unfold sensitivityplot. cbn [fst snd]. rewrite FS. apply dget_binds in B. unfold dindex. rewrite B. cbn [rbind].
    rewrite X. cbn [x_function]. change (elements (loading_list [1000; 2000])) with [Fin 1000; Fin 2000]. cbn [List.length]. rewrite SH. cbn [rbind pymaxn pyminn rmap]. reflexivity.
Qed.
