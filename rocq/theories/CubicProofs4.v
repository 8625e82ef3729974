(** Cases that meet the hypotheses of C90, and the constraints with these interpolators. *)
From Coq Require Import Sorting.Sorted Sorting.Permutation.
From Verif Require Import Base BaseFacts AtmosModel ConceptModel MethodsModel MethodsSpec MethodsExamples
  ConstraintSpec ConstraintProofs7 ConstraintProofs8  ConstraintProofs10 TurbopropModel CubicModel CubicSpec CubicProofs CubicProofs2 CubicProofs3.
Open Scope R_scope.

Lemma constraints_evaluate c w a0 map2sl : has_wing c w -> regular w -> half_ok w -> a_0i c = Some (Fin a0) -> 0 < a0 ->
  engine_ok c -> brief_complete c -> forall v m fo,
  (exists r, twrequired interpolators c v fo map2sl = Ok r) /\ (exists r, powerrequired interpolators c v m fo map2sl = Ok r).
Proof.
  intros HW HR HH HA H0 E B v m fo. pose proof (wing_ok_interpolators c w a0 HW HR HH HA H0) as W.
  split; [apply twrequired_ok|apply powerrequired_ok]; assumption.
Qed.

Definition five_points : list (R * R) := [(0, 0); (1, 1); (2, 0); (3, 1); (4, 0)].
Lemma five_ltr : left_to_right five_points.
Proof.
  unfold left_to_right, five_points. cbn [map fst].
  repeat first [apply SSorted_nil | apply SSorted_cons];
    repeat first [apply Forall_nil | apply Forall_cons]; lra.
Qed.
Lemma cubic_examples :
  (4 <= List.length five_points)%nat /\ left_to_right five_points /\ Permutation [(3, 1); (0, 0); (4, 0); (1, 1); (2, 0)] five_points /\
  (has_wing (example_jet 20 18) (example_wing 20 18) /\ regular (example_wing 20 18) /\
   half_ok (example_wing 20 18) /\ a_0i (example_jet 20 18) = Some (Fin 6.28)) /\
  engine_ok (example_jet 20 18) /\ brief_complete (example_jet 20 18).
Proof.
  split; [simpl; lia|]. split; [exact five_ltr|]. split.
  - unfold five_points. 
    transitivity [(0, 0); (3, 1); (4, 0); (1, 1); (2, 0)]; [apply perm_swap|]. apply perm_skip.
    transitivity [(3, 1); (1, 1); (4, 0); (2, 0)]; [apply perm_skip, perm_swap|].
    transitivity [(1, 1); (3, 1); (4, 0); (2, 0)]; [apply perm_swap|]. apply perm_skip.
    transitivity [(3, 1); (2, 0); (4, 0)]; [apply perm_skip, perm_swap|]. apply perm_swap.
  - destruct example_regular as (A & B & _). split; [|exact (proj2 complete_example)].
    split; [apply example_has_wing|]. split; [exact A|]. split; [exact B|]. reflexivity.
Qed.
