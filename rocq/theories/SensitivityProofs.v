(** The sensitivity analysis: shares. *)
From Verif Require Import Base BaseFacts UnitsModel AtmosModel AtmosSpec ConceptModel MethodsModel SensitivityModel ConceptSpec SensitivitySpec ConceptProofs.
Open Scope R_scope.

(** ** The stack of shares *)
Lemma nsum_fin (l : list num) : (forall x, In x l -> exists r, x = Fin r) -> exists rs, l = map Fin rs.
Proof.
  induction l as [|x l IH]; intros H; [exists []; reflexivity|].
  destruct (H x (or_introl eq_refl)) as (r & ->). destruct IH as (rs & ->); [firstorder|]. exists (r :: rs). reflexivity.
Qed.

Lemma addinto_at acc v r i x y : addinto acc v = Ok r -> nth_error acc i = Some (Fin x) -> at_loading i v (Fin y) ->
  nth_error r i = Some (Fin (x + y)) /\ List.length r = List.length acc.
Proof.
  unfold addinto. intros H A V. destruct (Nat.eqb_spec (List.length acc) (List.length v)) as [L|L].
  - injection H as <-. split; [|rewrite map_length, combine_length; lia].
    assert (V' : nth_error v i = Some (Fin y)).
    { destruct V as [->|V]; [|exact V]. assert (i < List.length acc)%nat by (apply nth_error_Some; congruence).
      rewrite L in H. cbn in H. destruct i; [reflexivity|lia]. }
    clear L V. revert acc v A V'. induction i as [|i IH]; intros [|a acc] [|b v] A V; try discriminate.
    + cbn in *. injection A as ->. injection V as ->. reflexivity.
    + cbn in *. apply IH; assumption.
  - destruct v as [|b [|b2 v]]; try discriminate. injection H as <-. split; [|apply map_length].
    assert (b = Fin y) as -> by (destruct V as [V|V]; [congruence|destruct i as [|i]; [cbn in V; congruence|destruct i; discriminate]]).
    rewrite nth_error_map, A. reflexivity.
Qed.

Definition Rsum (l : list R) : R := fold_right Rplus 0 l.

Lemma fold_at (prime : dict (list num)) : forall acc sum i x (ys : list R),
  foldM (fun acc kv => addinto acc (snd kv)) prime acc = Ok sum -> nth_error acc i = Some (Fin x) ->
  Forall2 (fun kr y => at_loading i (snd kr) (Fin y)) prime ys ->
  nth_error sum i = Some (Fin (x + Rsum ys)) /\ List.length sum = List.length acc.
Proof.
  induction prime as [|[k r] prime IH]; intros acc sum i x ys H A F; inversion F as [|? y ? ys' HY F']; subst; cbn [foldM] in H.
  - injection H as <-. cbn. rewrite Rplus_0_r. auto.
  - cbn [snd] in *. apply rbind_ok in H as (acc' & H1 & H2). destruct (addinto_at _ _ _ _ _ _ H1 A HY) as (A' & L).
    destruct (IH _ _ _ _ _ H2 A' F') as (S & L'). cbn [Rsum fold_right]. fold (Rsum ys').
    split; [|congruence]. rewrite S. do 2 f_equal. ring.
Qed.

Lemma broadcast_at f a b r i x y : broadcast f a b = Ok r -> nth_error b i = Some y -> at_loading i a x ->
  nth_error r i = Some (f x y).
Proof.
  unfold broadcast. intros H B A. assert (IB : (i < List.length b)%nat) by (apply nth_error_Some; congruence).
  destruct (Nat.eqb_spec (List.length a) (List.length b)) as [L|L].
  - injection H as <-. assert (A' : nth_error a i = Some x).
    { destruct A as [->|A]; [|exact A]. cbn in L. destruct i; [reflexivity|lia]. }
    clear L A IB. revert a b A' B. induction i as [|i IH]; intros [|u a] [|v b] A B; try discriminate.
    + cbn in *. injection A as ->. injection B as ->. reflexivity.
    + cbn in *. apply IH; assumption.
  - destruct a as [|u [|u2 a]].
    + destruct A as [A|A]; [discriminate|destruct i; discriminate].
    + injection H as <-. assert (u = x) as -> by (destruct A as [A|A]; [congruence|destruct i as [|i]; [cbn in A; congruence|destruct i; discriminate]]).
      rewrite nth_error_map, B. reflexivity.
    + destruct b as [|v [|v2 b]]; [cbn in IB; lia| |discriminate].
      injection H as <-. cbn in IB. assert (i = 0%nat) as -> by lia. cbn in B. injection B as ->.
      destruct A as [A|A]; [discriminate|]. cbn in *. congruence.
Qed.

Lemma Rsum_pos ys : ys <> [] -> Forall (fun y => 0 < y) ys -> 0 < Rsum ys.
Proof.
  intros N F. induction F as [|y ys HY F IH]; [congruence|]. cbn. fold (Rsum ys).
  destruct ys; [cbn; lra|]. assert (0 < Rsum (r :: ys)) by (apply IH; discriminate). lra.
Qed.
Lemma Rsum_ge ys y : Forall (fun y => 0 < y) ys -> In y ys -> y <= Rsum ys.
Proof.
  intros F. induction F as [|z ys HZ F IH]; intros I; [contradiction|]. cbn. fold (Rsum ys).
  assert (0 <= Rsum ys).
  { clear -F. induction F; cbn; [lra|]. fold (Rsum l). lra. }
  destruct I as [->|I]; [lra|]. specialize (IH I). lra.
Qed.
Lemma Rsum_div ys s : Rsum (map (fun y => y / s) ys) = Rsum ys / s.
Proof. induction ys as [|y ys IH]; cbn; [lra|]. fold (Rsum ys). fold (Rsum (map (fun y => y / s) ys)). rewrite IH. lra. Qed.

Lemma shares_at n prime out i ys : shares n prime = Ok out -> prime <> [] -> (i < n)%nat ->
  Forall2 (fun kr y => at_loading i (snd kr) (Fin y)) prime ys -> Rsum ys <> 0 ->
  Forall2 (fun kq y => nth_error (snd kq) i = Some (Fin (y / Rsum ys))) out ys /\ map fst out = map fst prime.
Proof.
  unfold shares. intros H N I F NZ. apply rbind_ok in H as (sum & H1 & H). apply rbind_ok in H as (stack & H2 & H).
  assert (A0 : nth_error (repeat (Fin 0) n) i = Some (Fin 0)).
  { clear -I. revert i I. induction n as [|n IH]; intros i I; [lia|]. destruct i; [reflexivity|]. cbn. apply IH. lia. }
  destruct (fold_at _ _ _ _ _ _ H1 A0 F) as (S & _). rewrite Rplus_0_l in S. set (s := Rsum ys) in *. clearbody s.
  assert (X : Forall2 (fun kq y => nth_error (snd kq) i = Some (Fin (y / s))) stack ys /\ map fst stack = map fst prime).
  { clear H1 H N. revert stack H2. induction F as [|[k r] y prime ys HY F IH]; intros stack H2; cbn [mapM] in H2.
    - injection H2 as <-. split; constructor.
    - apply rbind_ok in H2 as (kq & HQ & H2). apply rbind_ok in H2 as (rest & HR & H2). injection H2 as <-.
      destruct (IH _ HR) as (E1 & E2). apply rbind_ok in HQ as (q & Q1 & Q2). injection Q2 as <-. cbn [snd fst map] in *.
      split; [|congruence]. constructor; [|exact E1]. cbn [snd]. rewrite (broadcast_at _ _ _ _ _ _ _ Q1 S HY).
      rewrite ndiv_fin by exact NZ. reflexivity. }
  destruct X as (X1 & X2). destruct stack as [|kq stack].
  - destruct prime; [congruence|discriminate].
  - injection H as <-. auto.
Qed.

(** shares of positive ranges: each in (0,1], one in total, in proportion to the ranges *)
Lemma shares_sum n prime out i : shares n prime = Ok out -> prime <> [] -> (i < n)%nat ->
  (forall k r, In (k, r) prime -> exists y, at_loading i r (Fin y) /\ 0 < y) ->
  map fst out = map fst prime /\ exists total qs, 0 < total /\
  Forall2 (fun kq q => nth_error (snd kq) i = Some (Fin q)) out qs /\
  Forall2 (fun kr q => exists y, at_loading i (snd kr) (Fin y) /\ y = q * total) prime qs /\
  Forall (fun q => 0 < q <= 1) qs /\ Rsum qs = 1.
Proof.
  intros H N I P.
  assert (exists ys, Forall2 (fun kr y => at_loading i (snd kr) (Fin y)) prime ys /\ Forall (fun y => 0 < y) ys) as (ys & F & Q).
  { clear H N. induction prime as [|[k r] prime IH]; [exists []; split; constructor|].
    destruct (P k r (or_introl eq_refl)) as (y & Y1 & Y2). destruct IH as (ys & A & B); [intros k' r' J; apply (P k' r'); right; exact J|].
    exists (y :: ys). split; constructor; assumption. }
  assert (NY : ys <> []) by (intros ->; inversion F; subst; congruence).
  pose proof (Rsum_pos ys NY Q) as S.
  destruct (shares_at _ _ _ _ _ H N I F ltac:(lra)) as (G1 & G2). split; [exact G2|].
  exists (Rsum ys), (map (fun y => y / Rsum ys) ys). split; [exact S|]. split; [|split; [|split]].
  - clear -G1. set (s := Rsum ys) in *. clearbody s. induction G1; cbn; constructor; assumption.
  - clear -F S. set (s := Rsum ys) in *. clearbody s. induction F as [|kr y prime ys HY F IH]; cbn; constructor; [|exact IH].
    exists y. split; [exact HY|]. field. lra.
  - apply Forall_forall. intros q J. apply in_map_iff in J. destruct J as (y & <- & J).
    pose proof (Rsum_ge ys y Q J). rewrite Forall_forall in Q. pose proof (Q y J). split; [apply Rdiv_lt_0_compat; lra|].
    apply (Rmult_le_reg_r (Rsum ys)); [lra|]. unfold Rdiv. rewrite Rmult_assoc, Rinv_l; lra.
  - rewrite Rsum_div. field. lra.
Qed.

(** ** What is recorded *)
Lemma foldM_inv {A B} (f : A -> B -> res A) (I : A -> Prop) l : (forall a x a', In x l -> f a x = Ok a' -> I a -> I a') ->
  forall a a', foldM f l a = Ok a' -> I a -> I a'.
Proof.
  induction l as [|x l IH]; intros S a a' H HI; cbn [foldM] in H; [congruence|].
  apply rbind_ok in H as (b & H1 & H2). eapply IH; [|exact H2|].
  - intros a0 y a0' J. apply S. right. exact J.
  - eapply S; [left; reflexivity|exact H1|exact HI].
Qed.

Lemma pymaxn_largest rs hi : pymaxn (map Fin rs) = Ok hi -> largest (map Fin rs) hi.
Proof.
  destruct rs as [|x rs]; [discriminate|]. cbn [map pymaxn]. intros H. injection H as <-.
  assert (K : forall l m, exists t, fold_left (fun m y => if m <? y then y else m)%num (map Fin l) (Fin m) = Fin t /\
    (t = m \/ In t l) /\ m <= t /\ forall r, In r l -> r <= t).
  { induction l as [|a l IH]; intros m; cbn [map fold_left].
    - exists m. split; [reflexivity|]. split; [auto|]. split; [lra|]. intros r [].
    - rewrite nltb_fin. destruct (Rltb_reflect m a) as [L|L].
      + destruct (IH a) as (t & T1 & T2 & T3 & T4). exists t. split; [exact T1|]. split; [|split; [lra|]].
        * destruct T2 as [->|T2]; right; [left; reflexivity|right; exact T2].
        * intros r [->|J]; [exact T3|auto].
      + destruct (IH m) as (t & T1 & T2 & T3 & T4). exists t. split; [exact T1|]. split; [|split; [lra|]].
        * destruct T2 as [->|T2]; [left; reflexivity|right; right; exact T2].
        * intros r [->|J]; [lra|auto]. }
  destruct (K rs x) as (t & T1 & T2 & T3 & T4). exists (x :: rs), t. split; [reflexivity|]. split; [exact T1|].
  split; [destruct T2 as [->|T2]; [left; reflexivity|right; exact T2]|]. intros r [->|J]; auto.
Qed.
Lemma pyminn_smallest rs lo : pyminn (map Fin rs) = Ok lo -> smallest (map Fin rs) lo.
Proof.
  destruct rs as [|x rs]; [discriminate|]. cbn [map pyminn]. intros H. injection H as <-.
  assert (K : forall l m, exists t, fold_left (fun m y => if y <? m then y else m)%num (map Fin l) (Fin m) = Fin t /\
    (t = m \/ In t l) /\ t <= m /\ forall r, In r l -> t <= r).
  { induction l as [|a l IH]; intros m; cbn [map fold_left].
    - exists m. split; [reflexivity|]. split; [auto|]. split; [lra|]. intros r [].
    - rewrite nltb_fin. destruct (Rltb_reflect a m) as [L|L].
      + destruct (IH a) as (t & T1 & T2 & T3 & T4). exists t. split; [exact T1|]. split; [|split; [lra|]].
        * destruct T2 as [->|T2]; right; [left; reflexivity|right; exact T2].
        * intros r [->|J]; [exact T3|auto].
      + destruct (IH m) as (t & T1 & T2 & T3 & T4). exists t. split; [exact T1|]. split; [|split; [lra|]].
        * destruct T2 as [->|T2]; [left; reflexivity|right; right; exact T2].
        * intros r [->|J]; [lra|auto]. }
  destruct (K rs x) as (t & T1 & T2 & T3 & T4). exists (x :: rs), t. split; [reflexivity|]. split; [exact T1|].
  split; [destruct T2 as [->|T2]; [left; reflexivity|right; exact T2]|]. intros r [->|J]; auto.
Qed.
Lemma map_Fin_inj (a b : list R) : map Fin a = map Fin b -> a = b.
Proof.
  revert b. induction a as [|x a IH]; intros [|y b] E; try discriminate; [reflexivity|].
  cbn in E. injection E as -> E. f_equal. auto.
Qed.
Lemma largest_unique l a b : largest l a -> largest l b -> a = b.
Proof.
  intros (rs & m & -> & -> & I & M) (rs' & m' & E & -> & I' & M'). apply map_Fin_inj in E. subst rs'.
  f_equal. apply Rle_antisym; auto.
Qed.
Lemma smallest_unique l a b : smallest l a -> smallest l b -> a = b.
Proof.
  intros (rs & m & -> & -> & I & M) (rs' & m' & E & -> & I' & M'). apply map_Fin_inj in E. subst rs'.
  f_equal. apply Rle_antisym; auto.
Qed.

Definition absn (x : num) : num := match x with Fin r => Fin (Rabs r) | NonFin => NonFin end.

Lemma broadcast_any f a b r i z : broadcast f a b = Ok r -> nth_error r i = Some z ->
  exists x y, at_loading i a x /\ at_loading i b y /\ z = f x y.
Proof.
  unfold broadcast. intros H Z. destruct (Nat.eqb_spec (List.length a) (List.length b)) as [L|L].
  - injection H as <-. clear L. rewrite nth_error_map in Z. destruct (nth_error (combine a b) i) as [[x y]|] eqn:E; [|discriminate].
    injection Z as <-. exists x, y. cbn. split; [|split; [|reflexivity]]; right.
    + revert a b E. induction i as [|i IH]; intros [|u a] [|v b] E; try discriminate; cbn in *; [congruence|eauto].
    + revert a b E. induction i as [|i IH]; intros [|u a] [|v b] E; try discriminate; cbn in *; [congruence|eauto].
  - destruct a as [|u [|u2 a]].
    + destruct b as [|v [|v2 b]]; try discriminate. injection H as <-. destruct i; discriminate.
    + injection H as <-. rewrite nth_error_map in Z. destruct (nth_error b i) as [y|] eqn:E; [|discriminate].
      injection Z as <-. exists u, y. split; [left; reflexivity|]. split; [right; exact E|reflexivity].
    + destruct b as [|v [|v2 b]]; try discriminate.
      assert (r = map (fun x => f x v) (u :: u2 :: a)) as -> by congruence. rewrite nth_error_map in Z.
      destruct (nth_error (u :: u2 :: a) i) as [x|] eqn:E; [|discriminate].
      injection Z as <-. exists x, v. split; [right; exact E|]. split; [left; reflexivity|reflexivity].
Qed.

(** the recorded range is the distance *)
Lemma reqrange_any a b r i z : reqrange a b = Ok r -> nth_error r i = Some z ->
  exists x y, at_loading i (elements a) x /\ at_loading i (elements b) y /\ z = absn (nsub x y).
Proof.
  unfold reqrange. intros H Z. apply rbind_ok in H as (d & D & H). destruct d as [d|d|d]; try discriminate.
  injection H as <-. rewrite nth_error_map in Z. destruct (nth_error d i) as [w|] eqn:E; [|discriminate]. injection Z as <-.
  assert (B : forall la lb, broadcast nsub la lb = Ok d -> exists x y, at_loading i la x /\ at_loading i lb y /\ absn w = absn (nsub x y)).
  { intros la lb B. destruct (broadcast_any _ _ _ _ _ _ B E) as (x & y & X & Y & ->). eauto. }
  destruct a as [x|la|la], b as [y|lb|lb]; cbn [vop2 elements] in D; try discriminate.
  - injection D as <-. rewrite nth_error_map in E. destruct (nth_error lb i) as [y|] eqn:E'; [|discriminate].
    injection E as <-. exists x, y. split; [left; reflexivity|]. split; [right; exact E'|reflexivity].
  - destruct (broadcast nsub la lb) as [d'|] eqn:EB; [|discriminate]. cbn in D. injection D as ->. exact (B la lb EB).
  - injection D as <-. rewrite nth_error_map in E. destruct (nth_error la i) as [x|] eqn:E'; [|discriminate].
    injection E as <-. exists x, y. split; [right; exact E'|]. split; [left; reflexivity|reflexivity].
  - destruct (broadcast nsub la lb) as [d'|] eqn:EB; [|discriminate]. cbn in D. injection D as ->. exact (B la lb EB).
  - destruct (broadcast nsub la lb) as [d'|] eqn:EB; [|discriminate]. cbn in D. injection D as ->. exact (B la lb EB).
Qed.
Lemma reqrange_at a b r i x y : reqrange a b = Ok r -> at_loading i (elements a) x -> at_loading i (elements b) y ->
  at_loading i r (absn (nsub x y)).
Proof.
  unfold reqrange. intros R A1 A2. apply rbind_ok in R as (d & D & R). destruct d as [d|d|d]; try discriminate. injection R as <-.
  assert (Q : forall w, at_loading i d w -> at_loading i (map absn d) (absn w)).
  { intros w [->|E]; [left; reflexivity|]. right. rewrite nth_error_map, E. reflexivity. }
  apply Q. clear Q.
  assert (ON : forall (u : num) x, at_loading i [u] x -> u = x).
  { intros u x' [E|E]; [congruence|]. destruct i as [|[|j]]; cbn in E; congruence. }
  assert (B : forall la lb, broadcast nsub la lb = Ok d -> at_loading i la x -> at_loading i lb y -> at_loading i d (nsub x y)).
  { intros la lb B B1 B2. destruct lb as [|v [|v2 lb]].
    - destruct B2 as [B2|B2]; [discriminate|destruct i; discriminate].
    - apply ON in B2. subst v. unfold broadcast in B. destruct la as [|u [|u2 la]].
      + destruct B1 as [B1|B1]; [discriminate|destruct i; discriminate].
      + apply ON in B1. subst u. cbn in B. injection B as <-. left. reflexivity.
      + cbn [List.length Nat.eqb] in B. assert (d = map (fun x => nsub x y) (u :: u2 :: la)) as -> by congruence.
        destruct B1 as [B1|B1]; [discriminate|]. right. rewrite nth_error_map, B1. reflexivity.
    - destruct B2 as [B2|B2]; [discriminate|]. right. exact (broadcast_at _ _ _ _ _ _ _ B B2 B1). }
  destruct a as [u|la|la], b as [v|lb|lb]; cbn [vop2 elements] in D, A1, A2; try discriminate;
    try (destruct (broadcast nsub la lb) as [d'|] eqn:EB; [|discriminate]; cbn in D; injection D as ->; exact (B la lb EB A1 A2)).
  - injection D as <-. apply ON in A1. subst u. destruct A2 as [->|A2]; [left; reflexivity|]. right. rewrite nth_error_map, A2. reflexivity.
  - injection D as <-. apply ON in A2. subst v. destruct A1 as [->|A1]; [left; reflexivity|]. right. rewrite nth_error_map, A1. reflexivity.
Qed.
Lemma absn_distance x y : distance x y (absn (nsub x y)).
Proof. destruct x as [p|], y as [q|]; cbn [nsub absn]; [left; exists p, q; auto|right; auto..]. Qed.
Lemma reqrange_distances a b r : reqrange a b = Ok r -> distances a b r.
Proof.
  intros H. split.
  - intros i z Z. destruct (reqrange_any _ _ _ _ _ H Z) as (x & y & X & Y & ->). exists x, y. split; [exact X|]. split; [exact Y|].
    apply absn_distance.
  - intros i x y X Y. exists (absn (nsub x y)). split; [exact (reqrange_at _ _ _ _ _ _ H X Y)|apply absn_distance].
Qed.

Lemma truthy_false x : truthy x = false <-> x = Fin 0.
Proof.
  destruct x as [r|]; cbn; [|split; discriminate]. destruct (Req_dec r 0) as [->|N].
  - rewrite Reqb_true by reflexivity. split; reflexivity.
  - rewrite Reqb_false by exact N. split; [discriminate|congruence].
Qed.
Lemma recorded_iff r : recorded r = true <-> r <> [] /\ forall x, In x r -> x <> Fin 0.
Proof.
  unfold recorded. destruct r as [|a r].
  - cbn. split; [discriminate|]. intros (N & _). congruence.
  - assert (E : forallb truthy (map (fun _ => Fin 0) (a :: r)) = false).
    { cbn [map forallb]. assert (truthy (Fin 0) = false) as -> by (apply truthy_false; reflexivity). reflexivity. }
    rewrite E. transitivity (forallb truthy (a :: r) = true).
    { destruct (forallb truthy (a :: r)); cbn; split; congruence. }
    rewrite forallb_forall. split.
    + intros H. split; [discriminate|]. intros x I X. specialize (H x I). apply truthy_false in X. congruence.
    + intros (_ & H) x I. destruct (truthy x) eqn:T; [reflexivity|]. apply truthy_false in T. destruct (H x I T).
Qed.
