(** The diagrams of the sensitivity analysis: property theorems (C78 to C82). *)
From Coq Require Import Sorted.
From Verif Require Import Base UnitsModel AtmosModel AtmosSpec ConceptModel ConceptSpec MethodsModel MethodsSpec MethodsExamples
  SensitivityModel SensitivitySpec ConstraintSpec ConceptProofs6 SensitivityProofs3 SensitivityProofs4 SensitivityPlotModel SensitivityPlotSpec SensitivityPlotProofs SensitivityPlotProofs2
  SensitivityPlotProofs3 SensitivityPlotProofs4 SensitivityPlotProofs5 SensitivityPlotProofs6 SensitivityPlotProofs7 SensitivityPlotProofs8.
Open Scope R_scope.
Open Scope string_scope.

(** C78: unless the user sets the upper limit, the combined diagram ends 5% above the
    largest requirement of all the constraints and wing loadings. *)
Theorem C78_window : forall ext self wl y x labels mask d s med,
  propulsionsensitivity_monothetic ext self wl y None x labels (ShowOne "combined") mask = Ok [DCombined d] ->
  sensitivity ext self wl y = Ok (s, med) ->
  (forall cn sel, In (cn, sel) analysed -> exists rs, elements (sel med) = map Fin rs) ->
  exists m, cd_top d = Fin (1.05 * m) /\ (exists cn sel, In (cn, sel) analysed /\ In (Fin m) (elements (sel med))) /\
  forall cn sel r, In (cn, sel) analysed -> In (Fin r) (elements (sel med)) -> r <= m.
Proof. exact window. Qed.
Print Assumptions C78_window.
Example C78_window_nonvacuous : exists med d, sensitivity example_ext self1 (loading_list feasible_loads) Ytw = Ok (sens0, med) /\
  propulsionsensitivity_monothetic example_ext self1 (loading_list feasible_loads) Ytw None Xws [] (ShowOne "combined") true = Ok [DCombined d] /\
  axis self1 (loading_list feasible_loads) Xws feasible_loads feasible_loads /\
  forall cn sel, In (cn, sel) analysed -> exists rs, elements (sel med) = map Fin rs.
Proof. exact feasible_case. Qed.

(** the limit the user sets is used *)
Theorem C78_limit_given : forall ext self wl y t x labels mask d,
  propulsionsensitivity_monothetic ext self wl y (Some t) x labels (ShowOne "combined") mask = Ok [DCombined d] -> cd_top d = t.
Proof. exact limit_given. Qed.
Print Assumptions C78_limit_given.
Example C78_limit_given_nonvacuous : exists d,
  propulsionsensitivity_monothetic example_ext self1 (loading_list feasible_loads) Ytw (Some (Fin 0.5)) Xws [] (ShowOne "combined") true = Ok [DCombined d].
Proof. exact limit_given_case. Qed.

(** the horizontal axis spans the positions of the wing loadings (or wing areas) *)
Theorem C78_limits : forall ext self wl y yl x labels mask d ws xs,
  propulsionsensitivity_monothetic ext self wl y yl x labels (ShowOne "combined") mask = Ok [DCombined d] ->
  axis self wl x ws xs -> exists a b, cd_xlim d = (Fin a, Fin b) /\ In a xs /\ In b xs /\ forall p, In p xs -> a <= p <= b.
Proof. exact limits. Qed.
Print Assumptions C78_limits.

(** the curves are the combined front and the five constraints, at the medians *)
Theorem C78_curves : forall ext self wl y yl x labels mask d s med,
  propulsionsensitivity_monothetic ext self wl y yl x labels (ShowOne "combined") mask = Ok [DCombined d] ->
  sensitivity ext self wl y = Ok (s, med) ->
  cd_curves d = [("combined", rq_combined med); ("climb", rq_climb med); ("cruise", rq_cruise med);
                 ("servceil", rq_servceil med); ("take-off", rq_takeoff med); ("turn", rq_turn med)].
Proof. exact curves. Qed.
Print Assumptions C78_curves.
Example C78_curves_nonvacuous : exists med d, sensitivity example_ext self1 (loading_list feasible_loads) Ytw = Ok (sens0, med) /\
  propulsionsensitivity_monothetic example_ext self1 (loading_list feasible_loads) Ytw None Xws [] (ShowOne "combined") true = Ok [DCombined d] /\
  axis self1 (loading_list feasible_loads) Xws feasible_loads feasible_loads /\
  forall cn sel, In (cn, sel) analysed -> exists rs, elements (sel med) = map Fin rs.
Proof. exact feasible_case. Qed.

(** C79: the turn stall line is drawn at the last wing loading at which the front is
    defined, if that is strictly between the ends of the axis. *)
Theorem C79_turn_line : forall ext self wl y yl x labels mask d s med ws xs,
  propulsionsensitivity_monothetic ext self wl y yl x labels (ShowOne "combined") mask = Ok [DCombined d] ->
  sensitivity ext self wl y = Ok (s, med) -> axis self wl x ws xs ->
  forall p, cd_turn d = Some p <->
  exists i r, p = Fin r /\ nth_error xs i = Some r /\ defined_at (rq_combined med) i /\
    (forall j, defined_at (rq_combined med) j -> (j <= i)%nat) /\ exists a b, In a xs /\ In b xs /\ a < r < b.
Proof. exact turn_line. Qed.
Print Assumptions C79_turn_line.
Example C79_turn_line_nonvacuous : exists med d, sensitivity example_ext self1 (loading_list mixed_loads) Ytw = Ok (sens0, med) /\
  propulsionsensitivity_monothetic example_ext self1 (loading_list mixed_loads) Ytw None Xws [] (ShowOne "combined") true = Ok [DCombined d] /\
  axis self1 (loading_list mixed_loads) Xws mixed_loads mixed_loads /\ ascending mixed_loads /\ stall_position self1 Xws (Some stall_load) /\
  wB < stall_load /\ (forall i, defined_at (rq_combined med) i <-> (i < 2)%nat) /\
  ~ shaded d wA /\ shaded d wB /\ shaded d wC /\ cd_turn d = Some (Fin wB).
Proof. exact mixed_case. Qed.

(** the front is defined exactly where the five constraints are and the lift coefficient
    of the turn does not exceed the maximum *)
Theorem C79_defined_iff : forall b d p atm prop self ext wl s med clm, pyeta p -> construct b d p atm prop = Ok self ->
  sensitivity ext self wl Ytw = Ok (s, med) -> clmaxclean (obj self) = Some (Fin clm) -> forall i,
  defined_at (rq_combined med) i <->
  (forall cn sel, In (cn, sel) analysed -> defined_at (sel med) i) /\
  ~ exists c, nth_error (elements (rq_turncl med)) i = Some (Fin c) /\ clm < c.
Proof. exact front_defined. Qed.
Print Assumptions C79_defined_iff.
Example C79_defined_iff_nonvacuous : exists b d p atm prop s med, pyeta p /\ construct b d p atm prop = Ok self1 /\
  sensitivity example_ext self1 (loading_list mixed_loads) Ytw = Ok (s, med) /\ clmaxclean (obj self1) = Some (Fin 1.5) /\
  defined_at (rq_combined med) 1 /\ ~ defined_at (rq_combined med) 2.
Proof. exact defined_case. Qed.

(** the clean stall line is drawn at the stall wing loading (or area), if that is
    strictly between the ends of the axis *)
Theorem C79_stall_line : forall ext self wl y yl x labels mask d ws xs o,
  propulsionsensitivity_monothetic ext self wl y yl x labels (ShowOne "combined") mask = Ok [DCombined d] ->
  axis self wl x ws xs -> stall_position self x o ->
  forall p, cd_stall d = Some p <-> exists L a b, o = Some L /\ p = Fin L /\ In a xs /\ In b xs /\ a < L < b.
Proof. exact stall_line. Qed.
Print Assumptions C79_stall_line.

(** C80: the region marked as infeasible covers exactly the wing loadings with an
    undefined front or beyond the clean stall.  Proved with the last wing loading of the
    defined front added to the region, for ascending wing loadings whose front is defined
    up to a point; see the two refutations below for what is missing. *)
Theorem C80_shading_partial : forall ext self wl y yl x labels mask d s med ws xs o k,
  propulsionsensitivity_monothetic ext self wl y yl x labels (ShowOne "combined") mask = Ok [DCombined d] ->
  sensitivity ext self wl y = Ok (s, med) -> axis self wl x ws xs -> ascending ws -> stall_position self x o ->
  (0 < k <= List.length ws)%nat -> (forall i, defined_at (rq_combined med) i <-> (i < k)%nat) ->
  forall i p, nth_error xs i = Some p ->
  (shaded d p <-> (k <= i + 1)%nat \/ exists L, o = Some L /\ beyond x L p).
Proof. exact shading. Qed.
Print Assumptions C80_shading_partial.
Example C80_shading_nonvacuous : exists med d, sensitivity example_ext self1 (loading_list mixed_loads) Ytw = Ok (sens0, med) /\
  propulsionsensitivity_monothetic example_ext self1 (loading_list mixed_loads) Ytw None Xws [] (ShowOne "combined") true = Ok [DCombined d] /\
  axis self1 (loading_list mixed_loads) Xws mixed_loads mixed_loads /\ ascending mixed_loads /\ stall_position self1 Xws (Some stall_load) /\
  wB < stall_load /\ (forall i, defined_at (rq_combined med) i <-> (i < 2)%nat) /\
  ~ shaded d wA /\ shaded d wB /\ shaded d wC /\ cd_turn d = Some (Fin wB).
Proof. exact mixed_case. Qed.

(** the last wing loading with a defined front is shaded, always *)
Theorem C80_last_feasible_shaded : forall ext self wl y yl x labels mask d s med ws xs o i p,
  propulsionsensitivity_monothetic ext self wl y yl x labels (ShowOne "combined") mask = Ok [DCombined d] ->
  sensitivity ext self wl y = Ok (s, med) -> axis self wl x ws xs -> NoDup ws -> stall_position self x o ->
  defined_at (rq_combined med) i -> (forall j, defined_at (rq_combined med) j -> (j <= i)%nat) ->
  nth_error xs i = Some p -> shaded d p.
Proof. exact last_feasible_shaded. Qed.
Print Assumptions C80_last_feasible_shaded.

(** "only infeasible wing loadings are shaded" is false: this one satisfies every
    constraint and is below the clean stall *)
Theorem C80_last_feasible_refuted : exists self ws med d i w L,
  sensitivity example_ext self (loading_list ws) Ytw = Ok (sens0, med) /\
  propulsionsensitivity_monothetic example_ext self (loading_list ws) Ytw None Xws [] (ShowOne "combined") true = Ok [DCombined d] /\
  ascending ws /\ nth_error ws i = Some w /\ defined_at (rq_combined med) i /\
  stall_position self Xws (Some L) /\ w < L /\ shaded d w.
Proof. exact last_feasible_refuted. Qed.
Print Assumptions C80_last_feasible_refuted.

(** for wing loadings in descending order, all of them with a defined front, the region
    covers the wing loadings below the stall instead of those above *)
Theorem C80_descending : forall ext self wl y yl labels mask d s med ws L,
  propulsionsensitivity_monothetic ext self wl y yl Xws labels (ShowOne "combined") mask = Ok [DCombined d] ->
  sensitivity ext self wl y = Ok (s, med) -> elements wl = map Fin ws -> descending ws -> stall_position self Xws (Some L) ->
  (forall i, defined_at (rq_combined med) i <-> (i < List.length ws)%nat) -> ws <> [] -> last ws 0 < L ->
  forall w, In w ws -> (shaded d w <-> w <= L).
Proof. exact descending_shading. Qed.
Print Assumptions C80_descending.
Theorem C80_descending_refuted : exists med d, sensitivity example_ext self1 (loading_list falling_loads) Ytw = Ok (sens0, med) /\
  propulsionsensitivity_monothetic example_ext self1 (loading_list falling_loads) Ytw None Xws [] (ShowOne "combined") true = Ok [DCombined d] /\
  descending falling_loads /\ stall_position self1 Xws (Some stall_load) /\
  (forall i, defined_at (rq_combined med) i <-> (i < 2)%nat) /\ last falling_loads 0 < stall_load /\
  forall w, In w falling_loads -> w < stall_load /\ shaded d w.
Proof. exact falling_case. Qed.
Print Assumptions C80_descending_refuted.

(** the front that is drawn in bold consists of the wing loadings outside the region; if
    there is none, of the first wing loading *)
Theorem C80_front : forall ext self wl y yl x labels mask d s med ws xs o,
  propulsionsensitivity_monothetic ext self wl y yl x labels (ShowOne "combined") mask = Ok [DCombined d] ->
  sensitivity ext self wl y = Ok (s, med) -> axis self wl x ws xs -> NoDup xs -> stall_position self x o ->
  let entry i p q := nth_error xs i = Some p /\ nth_error (elements (rq_combined med)) i = Some q in
  ((exists p, In p xs /\ ~ shaded d p) ->
     forall p q, In (p, q) (cd_front d) <-> exists i r, p = Fin r /\ entry i r q /\ ~ shaded d r) /\
  ((forall p, In p xs -> shaded d p) -> exists p q, cd_front d = [(Fin p, q)] /\ entry 0%nat p q).
Proof. exact feasible_front. Qed.
Print Assumptions C80_front.

(** C81: the focus masks of a constraint's diagram are the longest stretches of wing
    loadings at which the constraint is below the combined front, from left to right. *)
Theorem C81_masks : forall ext self wl y yl x labels cn sel xlim parts masks s med ws xs, In (cn, sel) analysed ->
  propulsionsensitivity_monothetic ext self wl y yl x labels (ShowOne cn) true = Ok [DSensitivity cn xlim parts masks] ->
  sensitivity ext self wl y = Ok (s, med) -> axis self wl x ws xs -> NoDup xs ->
  List.length (elements (sel med)) = List.length (elements (rq_combined med)) ->
  exists ijs, Forall2 (mask_of xs (rq_combined med)) ijs masks /\ StronglySorted (fun p q => snd p < fst q)%nat ijs /\
  (forall ij, In ij ijs -> stretch (below_front (sel med) (rq_combined med)) (fst ij) (snd ij)) /\
  (forall i, below_front (sel med) (rq_combined med) i <-> exists ij, In ij ijs /\ (fst ij <= i <= snd ij)%nat).
Proof. exact masks_drawn. Qed.
Print Assumptions C81_masks.
Example C81_masks_nonvacuous : exists med xlim parts masks, sensitivity example_ext self1 (loading_list feasible_loads) Ytw = Ok (sens0, med) /\
  propulsionsensitivity_monothetic example_ext self1 (loading_list feasible_loads) Ytw None Xws [] (ShowOne "take-off") true =
    Ok [DSensitivity "take-off" xlim parts masks] /\
  axis self1 (loading_list feasible_loads) Xws feasible_loads feasible_loads /\ NoDup feasible_loads /\
  List.length (elements (rq_takeoff med)) = List.length (elements (rq_combined med)) /\
  masks = [(Fin wA, Fin wB)].
Proof. exact mask_case. Qed.

(** "the diagrams can be masked" is false for a constraint that is nowhere below the
    front: its diagram, and the call for all of the diagrams, raise a ValueError *)
Theorem C81_dominating : forall ext self wl y yl x labels cn sel s med, In (cn, sel) analysed -> sensitivity ext self wl y = Ok (s, med) ->
  List.length (elements (sel med)) = List.length (elements (rq_combined med)) ->
  (forall i, ~ below_front (sel med) (rq_combined med) i) ->
  (forall ds, propulsionsensitivity_monothetic ext self wl y yl x labels (ShowOne cn) false = Ok ds ->
   propulsionsensitivity_monothetic ext self wl y yl x labels (ShowOne cn) true = Err ValueError) /\
  (forall ds, propulsionsensitivity_monothetic ext self wl y yl x labels (ShowOne cn) true <> Ok ds) /\
  (forall ds, propulsionsensitivity_monothetic ext self wl y yl x labels ShowAll true <> Ok ds).
Proof. exact dominating. Qed.
Print Assumptions C81_dominating.
Theorem C81_dominating_refuted : exists med d, sensitivity example_ext self1 (loading_list heavy_loads) Ytw = Ok (sens0, med) /\
  List.length (elements (rq_takeoff med)) = List.length (elements (rq_combined med)) /\
  (forall i, ~ below_front (rq_takeoff med) (rq_combined med) i) /\
  propulsionsensitivity_monothetic example_ext self1 (loading_list heavy_loads) Ytw None Xws [] (ShowOne "take-off") false = Ok [d] /\
  propulsionsensitivity_monothetic example_ext self1 (loading_list heavy_loads) Ytw None Xws [] (ShowOne "take-off") true = Err ValueError.
Proof. exact heavy_case. Qed.
Print Assumptions C81_dominating_refuted.

(** C82: show=True draws the five constraints' diagrams and the combined one, each as it
    is drawn when asked for alone. *)
Theorem C82_show_all : forall ext self wl y yl x labels mask ds,
  propulsionsensitivity_monothetic ext self wl y yl x labels ShowAll mask = Ok ds <->
  Forall2 (fun n d => diagram_name d = n /\ propulsionsensitivity_monothetic ext self wl y yl x labels (ShowOne n) mask = Ok [d])
    ["climb"; "cruise"; "servceil"; "take-off"; "turn"; "combined"] ds.
Proof. exact show_all. Qed.
Print Assumptions C82_show_all.
Example C82_show_all_nonvacuous : exists ds, List.length ds = 6%nat /\
  propulsionsensitivity_monothetic example_ext self1 (loading_list feasible_loads) Ytw None Xws [] ShowAll false = Ok ds.
Proof. exact show_all_case. Qed.

(** any other string draws nothing *)
Theorem C82_show_other : forall ext self wl y yl x labels mask s,
  ~ In s ["climb"; "cruise"; "servceil"; "take-off"; "turn"; "combined"] ->
  propulsionsensitivity_monothetic ext self wl y yl x labels (ShowOne s) mask =
  propulsionsensitivity_monothetic ext self wl y yl x labels ShowNone mask /\
  (forall ds, propulsionsensitivity_monothetic ext self wl y yl x labels (ShowOne s) mask = Ok ds -> ds = []).
Proof. exact show_other_nothing. Qed.
Print Assumptions C82_show_other.

(** the combined diagram can be drawn for every complete concept and two or more
    different wing loadings *)
Theorem C82_drawn : forall b d p atm prop self ext wl x labels mask s med ws xs o, pyeta p -> construct b d p atm prop = Ok self ->
  sensitivity ext self wl Ytw = Ok (s, med) ->
  (let c := match prop with PropFalse => with_engine (obj self) PropOther | _ => obj self end in wing_ok ext c /\ engine_ok c /\ brief_complete c) ->
  axis self wl x ws xs -> NoDup xs -> (2 <= List.length xs)%nat -> stall_position self x o ->
  exists d, propulsionsensitivity_monothetic ext self wl Ytw None x labels (ShowOne "combined") mask = Ok [DCombined d].
Proof. exact drawn. Qed.
Print Assumptions C82_drawn.

(** "the diagrams can be drawn for any wing loadings" is false for a single one *)
Theorem C82_single_loading_refuted : forall b d p atm prop self ext wl x labels show mask w0, pyeta p -> construct b d p atm prop = Ok self ->
  elements wl = [w0] -> forall ds, propulsionsensitivity_monothetic ext self wl Ytw None x labels show mask <> Ok ds.
Proof. exact single_loading. Qed.
Print Assumptions C82_single_loading_refuted.
Example C82_single_loading_nonvacuous : exists b d p atm prop, pyeta p /\ construct b d p atm prop = Ok self1.
Proof. exact constructed_case. Qed.

(** the diagram of a constraint consists of the shares (see C43) of the parameters, in
    their order and under the user's labels; the axis spans the wing loadings *)
Theorem C82_parts : forall ext self wl y yl x labels mask cn sel ds s med ws xs, In (cn, sel) analysed ->
  propulsionsensitivity_monothetic ext self wl y yl x labels (ShowOne cn) mask = Ok ds ->
  sensitivity ext self wl y = Ok (s, med) -> axis self wl x ws xs ->
  exists a b parts masks prime out, ds = [DSensitivity cn (Fin a, Fin b) parts masks] /\
  In a xs /\ In b xs /\ (forall p, In p xs -> a <= p <= b) /\
  binds (primes s) cn prime /\ shares (List.length ws) prime = Ok out /\
  (prime <> [] -> Forall2 (fun kq part => label_of labels (fst kq) (fst part) /\ snd part = snd kq) out parts) /\
  (prime = [] -> parts = [("N/A", repeat (Fin 0) (List.length ws))]) /\ (mask = false -> masks = []).
Proof. exact diagram_contents. Qed.
Print Assumptions C82_parts.
Example C82_parts_nonvacuous : exists s med prime ds, sensitivity example_ext (self0 PropFalse) (loading_list [1000; 2000]) Ytw = Ok (s, med) /\
  axis (self0 PropFalse) (loading_list [1000; 2000]) Xws [1000; 2000] [1000; 2000] /\ binds (primes s) "take-off" prime /\ prime <> [] /\
  propulsionsensitivity_monothetic example_ext (self0 PropFalse) (loading_list [1000; 2000]) Ytw None Xws [("groundrun_m", "Ground run")] (ShowOne "take-off") false = Ok ds.
Proof. exact parts_case. Qed.
