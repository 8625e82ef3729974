(** interp1d on points in any order, its errors, and the table of liftslope_prad. *)
From Coq Require Import Sorting.Sorted Sorting.Permutation.
From Verif Require Import Base BaseFacts AtmosModel ConceptModel MethodsModel AtmosProofs3 MethodsSpec MethodsProofs3 MethodsProofs4
  CubicModel CubicSpec CubicProofs.
Open Scope R_scope.

(* ------------------------------------------------------------------------ *)
(** * Sorting *)

Lemma insert_perm p l : Permutation (p :: l) (insert_pt p l).
Proof.
  induction l as [|q l IH]; cbn [insert_pt]; [reflexivity|].
  destruct (Rleb (fst p) (fst q)); [reflexivity|].
  rewrite perm_swap. now constructor.
Qed.
Lemma sort_perm l : Permutation l (sort_pts l).
Proof.
  induction l as [|p l IH]; cbn [sort_pts]; [reflexivity|].
  rewrite <- insert_perm. now constructor.
Qed.

Lemma ltr_iff l : left_to_right l <-> StronglySorted ptlt l.
Proof.
  unfold left_to_right. induction l as [|p l IH]; cbn [map]; [split; constructor|].
  split; intros H; apply StronglySorted_inv in H as (H & F); constructor; try (apply IH; exact H).
  - apply Forall_forall. intros q Q. apply (proj1 (Forall_forall _ _) F). now apply in_map.
  - apply Forall_forall. intros x X. apply in_map_iff in X as (q & <- & Q). now apply (proj1 (Forall_forall _ _) F).
Qed.
Lemma ltr_nodup l : left_to_right l -> NoDup (map fst l).
Proof.
  unfold left_to_right. generalize (map fst l) as xs. induction xs as [|x xs IH]; intros H; constructor.
  - apply StronglySorted_inv in H as (_ & F). intros I. apply (proj1 (Forall_forall _ _) F) in I. lra.
  - apply StronglySorted_inv in H as (H & _). auto.
Qed.
Lemma sorted_perm_eq l l' : StronglySorted ptlt l -> StronglySorted ptlt l' -> Permutation l l' -> l = l'.
Proof.
  revert l'; induction l as [|p l IH]; intros l' S S' P.
  - apply Permutation_nil in P. auto.
  - destruct l' as [|q l']; [apply Permutation_sym, Permutation_nil in P; discriminate|].
    apply StronglySorted_inv in S as (S & F). apply StronglySorted_inv in S' as (S' & F').
    assert (p = q).
    { assert (In p (q :: l')) as [<-|A] by (apply (Permutation_in _ P); left; auto); [reflexivity|].
      assert (In q (p :: l)) as [<-|B] by (apply (Permutation_in _ (Permutation_sym P)); left; auto); [reflexivity|].
      apply (proj1 (Forall_forall _ _) F) in B. apply (proj1 (Forall_forall _ _) F') in A. unfold ptlt in *. lra. }
    subst q. f_equal. apply IH; auto. now apply Permutation_cons_inv in P.
Qed.
Lemma sort_is pts s : Permutation pts s -> left_to_right s -> sort_pts pts = s.
Proof.
  intros P S. apply sorted_perm_eq; [|apply ltr_iff; exact S|].
  - apply sort_sorted. apply (Permutation_NoDup (l := map fst s)); [apply Permutation_map, Permutation_sym, P|].
    now apply ltr_nodup.
  - rewrite <- (sort_perm pts). exact P.
Qed.

(** equal abscissae *)
Lemma dup_cons p q l : has_duplicates (p :: q :: l) = (Reqb (fst p) (fst q) || has_duplicates (q :: l))%bool.
Proof. reflexivity. Qed.
Lemma ltr_no_dup l : left_to_right l -> has_duplicates l = false.
Proof.
  intros H. apply ltr_iff in H. induction l as [|p l IH]; [reflexivity|].
  apply StronglySorted_inv in H as (H & F). destruct l as [|q l]; [reflexivity|].
  rewrite dup_cons, (IH H), orb_false_r. inversion F; subst. unfold ptlt in *.
  unfold Reqb. destruct (Req_EM_T (fst p) (fst q)); [lra|reflexivity].
Qed.
Definition ptle (p q : R * R) := fst p <= fst q.
Lemma sort_le l : StronglySorted ptle (sort_pts l).
Proof.
  induction l as [|p l IH]; cbn [sort_pts]; [constructor|]. revert IH. generalize (sort_pts l) as s.
  induction s as [|q s IS]; intros H; cbn [insert_pt]; [repeat constructor|].
  apply StronglySorted_inv in H as (H & F).
  destruct (Rleb_reflect (fst p) (fst q)) as [K|K].
  - constructor; [constructor; auto|]. constructor; [exact K|].
    eapply Forall_impl; [|exact F]. unfold ptle; intros; lra.
  - constructor; [now apply IS|]. apply Forall_forall. intros a A. apply insert_in in A as [->|A].
    + unfold ptle. lra.
    + now apply (proj1 (Forall_forall _ _) F).
Qed.
Lemma le_no_dup l : StronglySorted ptle l -> has_duplicates l = false -> left_to_right l.
Proof.
  intros H D. apply ltr_iff. induction l as [|p l IH]; [constructor|].
  apply StronglySorted_inv in H as (H & F). destruct l as [|q l]; [repeat constructor|].
  rewrite dup_cons in D. apply orb_false_iff in D as (D1 & D2). specialize (IH H D2).
  constructor; [exact IH|].
  assert (fst p < fst q).
  { inversion F; subst. unfold ptle in *. unfold Reqb in D1. destruct (Req_EM_T (fst p) (fst q)); [discriminate|lra]. }
  apply StronglySorted_inv in IH as (_ & IF). constructor; [exact H0|].
  eapply Forall_impl; [|exact IF]. unfold ptlt; intros; lra.
Qed.
Lemma sort_dup pts : has_duplicates (sort_pts pts) = false <-> NoDup (map fst pts).
Proof.
  split; intros H.
  - apply (Permutation_NoDup (l := map fst (sort_pts pts))); [apply Permutation_map, Permutation_sym, sort_perm|].
    apply ltr_nodup. apply le_no_dup; [apply sort_le|exact H].
  - apply ltr_no_dup. apply ltr_iff. now apply sort_sorted.
Qed.

(* ------------------------------------------------------------------------ *)
(** * interp1d *)

Lemma fin_pairs_points pts : fin_pairs (finite_points pts) = Some pts.
Proof.
  induction pts as [|[x y] pts IH]; [reflexivity|]. cbn [finite_points map fin_pairs fin_pair fst snd].
  unfold finite_points in IH. rewrite IH. reflexivity.
Qed.
Lemma last_map {A B} (f : A -> B) l d : last (map f l) (f d) = f (last l d).
Proof. induction l as [|a l IH]; [reflexivity|]. destruct l; [reflexivity|]. exact IH. Qed.
Lemma hd_map {A B} (f : A -> B) l d : hd (f d) (map f l) = f (hd d l).
Proof. destruct l; reflexivity. Qed.
Lemma ltr_last_max l p d : left_to_right l -> In p l -> fst p <= fst (last l d).
Proof.
  intros H. apply ltr_iff in H. induction l as [|q l IH]; [intros []|].
  apply StronglySorted_inv in H as (H & F). intros [<-|I].
  - destruct l as [|r l]; [simpl; lra|]. specialize (IH H).
    assert (fst q < fst r) by (inversion F; auto). 
    assert (E : forall r, In r (r :: l)) by (left; reflexivity).
    change (last (q :: r :: l) d) with (last (r :: l) d).
    apply Rle_trans with (fst r); [lra|].
    clear - H. revert r H; induction l as [|s l IH]; intros r H; [simpl; lra|].
    apply StronglySorted_inv in H as (H & F). specialize (IH s H).
    change (last (r :: s :: l) d) with (last (s :: l) d). assert (fst r < fst s) by (inversion F; auto). lra.
  - destruct l as [|r l]; [destruct I|]. exact (IH H I).
Qed.
Lemma last_in {A} (l : list A) d : l <> [] -> In (last l d) l.
Proof.
  induction l as [|a l IH]; [congruence|]. intros _. destruct l as [|b l]; [left; reflexivity|].
  right. apply IH. discriminate.
Qed.

Lemma interp1d_value pts s f v : (4 <= List.length pts)%nat -> Permutation pts s -> left_to_right s -> cubic_through s f ->
  (exists p, In p pts /\ fst p <= v) -> (exists p, In p pts /\ v <= fst p) ->
  interp1d_cubic (finite_points pts) (Fin v) = Ok (Fin (f v)).
Proof.
  intros L P S C (p & Pp & Vp) (q & Pq & Vq). unfold interp1d_cubic.
  unfold finite_points at 1. rewrite map_length, (proj2 (Nat.ltb_ge _ _) L), fin_pairs_points.
  cbv zeta. rewrite (sort_is pts s P S), (ltr_no_dup s S).
  assert (N : s <> []).
  { intros ->. apply Permutation_sym, Permutation_nil in P. subst. simpl in L. lia. }
  apply (Permutation_in _ P) in Pp. apply (Permutation_in _ P) in Pq.
  assert (F1 : fst (hd (0, 0) s) <= v).
  { pose proof (proj1 (ltr_iff s) S) as S'. destruct s as [|a s]; [congruence|]. cbn [hd].
    apply StronglySorted_inv in S' as (_ & F). destruct Pp as [->|Pp]; [exact Vp|].
    apply (proj1 (Forall_forall _ _) F) in Pp. unfold ptlt in Pp. lra. }
  assert (F2 : v <= fst (last s (0, 0))).
  { pose proof (ltr_last_max s q (0, 0) S Pq). lra. }
  rewrite (Rltb_false _ _ F1), (Rltb_false _ _ F2). cbn [orb]. do 2 f_equal. symmetry.
  apply cubic_unique; auto.
  - now rewrite <- (Permutation_length P).
  - change 0 with (fst (0, 0)) at 1 2. rewrite (hd_map fst s (0, 0)), (last_map fst s (0, 0)). auto.
Qed.

Lemma interp1d_raises pts v e : interp1d_cubic (finite_points pts) (Fin v) = Err e <->
  e = ValueError /\ ((List.length pts < 4)%nat \/ ~ NoDup (map fst pts) \/
    (forall p, In p pts -> v < fst p) \/ (forall p, In p pts -> fst p < v)).
Proof.
  unfold interp1d_cubic. unfold finite_points at 1. rewrite map_length.
  destruct (Nat.ltb_spec (List.length pts) 4) as [L|L].
  { split; [intros H; injection H as <-; auto|intros (-> & _); reflexivity]. }
  rewrite fin_pairs_points. cbv zeta. pose proof (sort_dup pts) as D.
  destruct (has_duplicates (sort_pts pts)) eqn:HD.
  { split; [|intros (-> & _); reflexivity]. intros H; injection H as <-. split; [reflexivity|].
    right; left. intros N. apply D in N. discriminate. }
  apply proj1 in D. specialize (D eq_refl).
  assert (S : left_to_right (sort_pts pts)) by (apply ltr_iff, sort_sorted; exact D).
  pose proof (sort_perm pts) as P. set (s := sort_pts pts) in *. clearbody s.
  assert (N : s <> []).
  { intros ->. apply Permutation_sym, Permutation_nil in P. subst. simpl in L. lia. }
  assert (I1 : In (hd (0, 0) s) s) by (destruct s; [congruence|left; reflexivity]).
  pose proof (last_in s (0, 0) N) as I2.
  assert (M1 : forall p, In p s -> fst (hd (0, 0) s) <= fst p).
  { intros p Pp. pose proof (proj1 (ltr_iff s) S) as S'. destruct s as [|a s]; [congruence|]. cbn [hd].
    apply StronglySorted_inv in S' as (_ & F). destruct Pp as [->|Pp]; [lra|].
    apply (proj1 (Forall_forall _ _) F) in Pp. unfold ptlt in Pp. lra. }
  assert (IP : forall p, In p pts <-> In p s).
  { intros p. split; apply Permutation_in; [exact P|apply Permutation_sym; exact P]. }
  destruct (Rltb_reflect v (fst (hd (0, 0) s))) as [A|A]; cbn [orb].
  { split; [|intros (-> & _); reflexivity]. intros H; injection H as <-. split; [reflexivity|]. do 2 right. left.
    intros p Pp. apply IP, M1 in Pp. lra. }
  destruct (Rltb_reflect (fst (last s (0, 0))) v) as [B|B].
  { split; [|intros (-> & _); reflexivity]. intros H; injection H as <-. split; [reflexivity|]. do 3 right.
    intros p Pp. apply IP in Pp. pose proof (ltr_last_max s p (0, 0) S Pp). lra. }
  split; [discriminate|]. intros (_ & [K|[K|[K|K]]]); [lia|tauto| |].
  - apply IP, K in I1. lra.
  - apply IP, K in I2. lra.
Qed.

Lemma splines_exist s : (4 <= List.length s)%nat -> left_to_right s -> exists f, cubic_through s f.
Proof. intros L S. exists (cubic_at s). now apply cubic_found. Qed.

(** two splines through the same points agree between the first and the last *)
Lemma splines_agree s f g v : (4 <= List.length s)%nat -> left_to_right s -> cubic_through s f -> cubic_through s g ->
  hd 0 (map fst s) <= v <= last (map fst s) 0 -> f v = g v.
Proof. intros L S F G V. rewrite (cubic_unique s f), (cubic_unique s g); auto. Qed.

(** a cubic through the points is its own spline *)
Lemma cubic_pieces_const brk p : brk <> [] -> exists ps, cubic_pieces brk ps (cval p).
Proof.
  induction brk as [|a brk IH]; [congruence|]. intros _. destruct brk as [|b brk]; [exists []; exact I|].
  assert (exists n, cubic_pieces (b :: brk) (repeat p n) (cval p)) as (n & H).
  { clear IH. revert b; induction brk as [|c brk IHb]; intros b; [exists O; exact I|].
    destruct (IHb c) as (n & H). exists (S n). cbn [repeat cubic_pieces]. split; [auto|]. split; [|exact H].
    destruct n; cbn [repeat]; auto. }
  exists (p :: repeat p n). split; [auto|]. split; [|exact H]. destruct n; cbn [repeat]; auto.
Qed.
Lemma interp1d_cubics p xs v : (4 <= List.length xs)%nat -> NoDup xs ->
  (exists x, In x xs /\ x <= v) -> (exists x, In x xs /\ v <= x) ->
  interp1d_cubic (finite_points (map (fun x => (x, cval p x)) xs)) (Fin v) = Ok (Fin (cval p v)).
Proof.
  intros L N (a & A & Va) (b & B & Vb). set (pts := map (fun x => (x, cval p x)) xs).
  assert (E : map fst pts = xs) by (unfold pts; rewrite map_map; apply map_id).
  assert (S : left_to_right (sort_pts pts)) by (apply ltr_iff, sort_sorted; rewrite E; exact N).
  assert (LP : List.length pts = List.length xs) by (unfold pts; apply map_length).
  apply (interp1d_value pts (sort_pts pts)); [lia|apply sort_perm|exact S| | |].
  - split.
    + assert (breaks_of (map fst (sort_pts pts)) <> []).
      { pose proof (Permutation_length (sort_perm pts)) as PL. destruct (sort_pts pts) as [|? [|? ?]]; simpl in *; try lia; discriminate. }
      unfold cubic_spline. now apply cubic_pieces_const.
    + intros q Q. apply (Permutation_in _ (Permutation_sym (sort_perm pts))) in Q.
      apply in_map_iff in Q as (x & <- & _). reflexivity.
  - exists (a, cval p a). split; [apply in_map_iff; eauto|exact Va].
  - exists (b, cval p b). split; [apply in_map_iff; eauto|exact Vb].
Qed.

(** a nan among the points, or as argument, gives nan *)
Lemma interp1d_nan tab x : (4 <= List.length tab)%nat -> Exists (fun p => fst p = NonFin \/ snd p = NonFin) tab ->
  interp1d_cubic tab x = Ok NonFin.
Proof.
  intros L E. unfold interp1d_cubic. rewrite (proj2 (Nat.ltb_ge _ _) L).
  assert (fin_pairs tab = None) as ->; [|reflexivity]. clear L.
  induction E as [[a b] l H|[a b] l H IH].
  - simpl in H. cbn [fin_pairs fin_pair]. destruct H as [->| ->]; [reflexivity|]. destruct a; reflexivity.
  - cbn [fin_pairs]. rewrite IH. destruct (fin_pair (a, b)); reflexivity.
Qed.

(* ------------------------------------------------------------------------ *)
(** * A spline is continuous *)

Lemma cval_continuous p : continuity (cval p).
Proof. unfold cval. reg. Qed.
Lemma pieces_continuous brk : forall ps f, cubic_pieces brk ps f -> increasing brk ->
  exists g, continuity g /\ forall x, hd 0 brk <= x <= last brk 0 -> f x = g x.
Proof.
  induction brk as [|a brk IH]; intros ps f P S; [simpl in P; tauto|].
  destruct brk as [|b brk].
  - exists (fun _ => f a). split; [reg|]. intros x X. simpl in X. f_equal. lra.
  - destruct ps as [|p ps]; [simpl in P; tauto|]. destruct P as (P1 & _ & P2).
    apply increasing_cons in S as (H & S). destruct (IH ps f P2 S) as (g & G & E).
    pose proof (increasing_le_last brk b S) as LB. cbn [hd] in E.
    exists (fun x => cval p (Rmin b x) - cval p b + g (Rmax b x)). split.
    + intros x. apply (continuity_pt_plus (fun x => cval p (Rmin b x) - cval p b) (fun x => g (Rmax b x))).
      * apply (continuity_pt_minus (fun x => cval p (Rmin b x)) (fun _ => cval p b)).
        -- apply (continuity_pt_comp (Rmin b) (cval p)); [apply c_min|apply cval_continuous].
        -- apply continuity_pt_const. intros ? ?. reflexivity.
      * apply (continuity_pt_comp (Rmax b) g); [apply c_max|apply G].
    + intros x X. cbn [hd] in X. change (last (a :: b :: brk) 0) with (last (b :: brk) 0) in X.
      destruct (Rle_dec x b) as [K|K].
      * rewrite Rmin_right, Rmax_left by lra. rewrite <- E by lra. rewrite !P1 by lra. ring.
      * rewrite Rmin_left, Rmax_right by lra. rewrite <- E by lra. ring.
Qed.
