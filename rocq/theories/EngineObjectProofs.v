(** Proofs about the propulsion argument and the engine decks behind it. *)
From Coq Require Import Reals Lra Lia List String ZArith.
From Verif Require Import Base BaseFacts AtmosModel ConceptModel MethodsModel PropulsionModel PropulsionSpec DemoModel
  EngineObjectModel EngineObjectSpec.
Import ListNotations.
Open Scope R_scope.

(* ------------------------------------------------------- the argument *)
Lemma argument_kept a s : meant a s -> (forall e, a <> ArgTuple [e]) -> stored_propulsion a = s.
Proof. intros [t|e p|e|e] N; try reflexivity. elim (N e). reflexivity. Qed.
Lemma argument_other a : (forall s, ~ meant a s) -> stored_propulsion a = SFalse.
Proof.
  intros N. destruct a as [|s|[|e [|p [|q l]]]|[|] e]; try reflexivity.
  - elim (N _ (meant_text s)).
  - elim (N _ (meant_pair e p)).
  - elim (N _ (meant_object e)).
Qed.
Lemma lone_engine e : meant (ArgTuple [e]) (SPair e OfOther) /\
  forall grid ext b d p atm v h, slcorr_of grid ext b d p atm (ArgTuple [e]) v h = slcorr_of grid ext b d p atm ArgNothing v h.
Proof. split; [constructor|]. intros. reflexivity. Qed.

(* ------------------------------------------------------------- arange *)
Lemma arange_spec lo hi x : In x (map (fun k => lo + INR k) (seq 0 (Z.to_nat (- Int_part (- (hi - lo)))))) <->
  exists k, x = lo + INR k /\ x < hi.
Proof.
  rewrite in_map_iff.
  assert (C : forall k, (k < Z.to_nat (- Int_part (- (hi - lo))))%nat <-> lo + INR k < hi).
  { intros k. destruct (base_Int_part (- (hi - lo))) as (B1 & B2). set (z := Int_part (- (hi - lo))) in *.
    rewrite INR_IZR_INZ. split.
    - intros K. assert (Z.of_nat k < - z)%Z by lia. assert (Z.of_nat k + 1 <= - z)%Z as Q by lia. apply IZR_le in Q.
      rewrite plus_IZR, opp_IZR in Q. lra.
    - intros K. assert (Q : IZR (Z.of_nat k) < IZR (- z)) by (rewrite opp_IZR; lra). apply lt_IZR in Q. lia. }
  split.
  - intros (k & <- & I). apply in_seq in I. exists k. split; [reflexivity|]. apply C. lia.
  - intros (k & -> & L). exists k. split; [reflexivity|]. apply in_seq. apply C in L. lia.
Qed.
Lemma arange_empty lo hi : hi <= lo -> map (fun k => lo + INR k) (seq 0 (Z.to_nat (- Int_part (- (hi - lo))))) = [].
Proof.
  intros L. destruct (map _ _) as [|x l] eqn:E; [reflexivity|]. exfalso.
  assert (I : In x (x :: l)) by (left; reflexivity). rewrite <- E in I. apply arange_spec in I.
  destruct I as (k & -> & H). pose proof (pos_INR k). lra.
Qed.
Lemma pymax_largest l : l <> [] -> exists top, AtmosModel.pymax l = Ok top /\ largest top l.
Proof.
  destruct l as [|a l]; [contradiction|]. intros _. cbn [AtmosModel.pymax]. eexists; split; [reflexivity|].
  revert a. induction l as [|b l IH]; intros a; cbn [fold_left].
  - split; [left; reflexivity|]. intros x [<-|[]]. lra.
  - destruct (IH (Rmax a b)) as (A & B). split.
    + destruct A as [A|A]; [|right; right; exact A]. rewrite <- A. unfold Rmax. destruct (Rle_dec a b); [right; left|left]; reflexivity.
    + pose proof (B (Rmax a b) (or_introl eq_refl)). pose proof (Rmax_l a b). pose proof (Rmax_r a b).
      intros x [<-|[<-|I]]; [lra|lra|]. apply B. right; exact I.
Qed.

(* ---------------------------------------------------------- decks *)
Lemma table_row (grid : list num -> list num -> list num -> num -> num -> num) t l h top : pymaxn (tz t) = Ok top ->
  normalised (Some (VArr (map (fun x => grid (tx t) (ty t) (tz t) x h) l))) (Some t)
  = Ok (VArr (map (fun x => ndiv (grid (tx t) (ty t) (tz t) x h) top) l)).
Proof. intros E. cbn [normalised]. rewrite E. cbn [rbind some_val toarr vlit]. rewrite map_map. reflexivity. Qed.
Lemma broadcast_one f l y : broadcast f l [y] = Ok (map (fun x => f x y) l).
Proof.
  unfold broadcast. destruct l as [|a [|b l]]; try reflexivity.
Qed.
Lemma mach_array atm v h m : mach atm v h = Ok m -> exists l, m = VArr l.
Proof.
  unfold mach. destruct (alttest atm h) as [a|]; [|discriminate]. cbn [rbind].
  destruct (vsound_mps atm (VList a)) as [s|]; [|discriminate]. cbn [rbind]. destruct s as [x|x|x]; cbn [vop2]; intros H.
  - injection H as <-. eauto.
  - destruct (broadcast _ _ _); [|discriminate]. injection H as <-. eauto.
  - destruct (broadcast _ _ _); [|discriminate]. injection H as <-. eauto.
Qed.
Lemma filter_eq_sym x l : filter (fun r => Reqb r x) l = filter (Reqb x) l.
Proof.
  induction l as [|a l IH]; [reflexivity|]. cbn. rewrite IH.
  destruct (Reqb_reflect a x), (Reqb_reflect x a); try reflexivity; congruence.
Qed.

Section Deck.
  Variables (grid : list num -> list num -> list num -> num -> num -> num) (ext : externals) (c : concept).
  Lemma jet_function d t f v h : jt_thr d = Some t -> ratio_of grid t f -> propulsion c = PropJet f ->
    propulsion_slcorr ext c v h = deck_slcorr grid (OfJet d) (designatm c) v h.
  Proof.
    intros T (top & E & F) P. unfold propulsion_slcorr, deck_slcorr, sl_propulsion. rewrite P. cbn [rbind].
    destruct (mach (designatm c) v (VNum h)) as [m|] eqn:M; [|reflexivity]. destruct (mach_array _ _ _ _ M) as (l & ->).
    cbn [rbind recastasnpfloatarray]. unfold jt_sl_thrustcorr, jt_thrust, query, grid_table. rewrite T. cbn [toarr vop2 rmap rbind].
    rewrite (table_row _ _ _ _ _ E). cbn [rbind]. do 3 f_equal. apply map_ext. intros x. apply F.
  Qed.
  Lemma turboprop_function d t f v h : tp_pwr d = Some t -> ratio_of grid t f -> propulsion c = PropTurboprop f ->
    propulsion_slcorr ext c v h = deck_slcorr grid (OfTurboprop d) (designatm c) v h.
  Proof.
    intros T (top & E & F) P. unfold propulsion_slcorr, deck_slcorr, sl_propulsion. rewrite P. cbn [rbind].
    destruct (mach (designatm c) v (VNum h)) as [m|] eqn:M; [|reflexivity]. destruct (mach_array _ _ _ _ M) as (l & ->).
    cbn [rbind recastasnpfloatarray]. unfold tp_sl_powercorr, tp_shaftpower, query, grid_table. rewrite T.
    cbn [recastasnpfloatarray toarr vop2]. rewrite broadcast_one. cbn [rmap rbind].
    rewrite (table_row _ _ _ _ _ E). cbn [rbind]. do 3 f_equal. apply map_ext. intros x. apply F.
  Qed.
  Lemma electric_function d v h : propulsion c = PropElectric ->
    propulsion_slcorr ext c v h = deck_slcorr grid (OfElectric d) (designatm c) v h.
  Proof. intros P. unfold propulsion_slcorr, deck_slcorr, sl_propulsion. rewrite P. reflexivity. Qed.
  Lemma other_function v h : propulsion c = PropOther ->
    propulsion_slcorr ext c v h = deck_slcorr grid OfOther (designatm c) v h.
  Proof. intros P. unfold propulsion_slcorr, deck_slcorr, sl_propulsion. rewrite P. reflexivity. Qed.
  Lemma piston_function d t f g rpms lo hi v h : pi_pwr d = Some t -> ratio_of grid t f ->
    pyminn (tx t) = Ok lo -> pymaxn (tx t) = Ok hi -> arange lo hi = Ok rpms -> propulsion c = PropPiston rpms g f ->
    propulsion_slcorr ext c v h = deck_slcorr grid (OfPiston d) (designatm c) v h.
  Proof.
    intros T (top & E & F) LO HI A P. unfold propulsion_slcorr, deck_slcorr, sl_propulsion. rewrite P. cbn [rbind].
    destruct (mach (designatm c) v (VNum h)) as [m|] eqn:M; [|reflexivity]. destruct (mach_array _ _ _ _ M) as (l & ->).
    cbn [rbind recastasnpfloatarray]. rewrite T. cbn [rbind]. rewrite LO. cbn [rbind]. rewrite HI. cbn [rbind]. rewrite A. cbn [rbind].
    unfold pi_shaftpower, query, grid_table. rewrite T. cbn [toarr vop2 rmap rbind].
    destruct (AtmosModel.pymax rpms) as [fast|]; [|reflexivity]. cbn [rbind]. rewrite filter_eq_sym.
    unfold pi_sl_powercorr, pi_shaftpower, query, grid_table. rewrite T. cbn [recastasnpfloatarray toarr vop2]. rewrite broadcast_one.
    cbn [rmap rbind]. rewrite (table_row _ _ _ _ _ E). cbn [rbind]. rewrite map_map. do 3 f_equal. apply map_ext. intros x.
    symmetry. rewrite F. reflexivity.
  Qed.
End Deck.

Lemma decks_as_functions grid ext c v h :
  (forall d t f, jt_thr d = Some t -> ratio_of grid t f -> propulsion c = PropJet f ->
     deck_slcorr grid (OfJet d) (designatm c) v h = propulsion_slcorr ext c v h) /\
  (forall d t f, tp_pwr d = Some t -> ratio_of grid t f -> propulsion c = PropTurboprop f ->
     deck_slcorr grid (OfTurboprop d) (designatm c) v h = propulsion_slcorr ext c v h) /\
  (forall d, propulsion c = PropElectric ->
     deck_slcorr grid (OfElectric d) (designatm c) v h = propulsion_slcorr ext c v h) /\
  (forall d t f g rpms lo hi, pi_pwr d = Some t -> ratio_of grid t f ->
     pyminn (tx t) = Ok lo -> pymaxn (tx t) = Ok hi -> arange lo hi = Ok rpms -> propulsion c = PropPiston rpms g f ->
     deck_slcorr grid (OfPiston d) (designatm c) v h = propulsion_slcorr ext c v h).
Proof.
  repeat split; intros; symmetry.
  - eapply jet_function; eassumption.
  - eapply turboprop_function; eassumption.
  - apply electric_function; assumption.
  - eapply piston_function; eassumption.
Qed.

(* ------------------------------------------------------- missing tables *)
Lemma decks_without_data grid atm v h m : mach atm v (VNum h) = Ok m ->
  (forall d, jt_thr d = None -> deck_slcorr grid (OfJet d) atm v h = Err AttributeError) /\
  (forall d, tp_pwr d = None -> deck_slcorr grid (OfTurboprop d) atm v h = Err AttributeError) /\
  (forall d, pi_pwr d = None -> deck_slcorr grid (OfPiston d) atm v h = Err AttributeError).
Proof.
  intros M. destruct (mach_array _ _ _ _ M) as (l & ->). unfold deck_slcorr. rewrite M. cbn [rbind].
  repeat split; intros d E.
  - unfold jt_sl_thrustcorr, jt_thrust, query. rewrite E. reflexivity.
  - unfold tp_sl_powercorr, tp_shaftpower, query. rewrite E. reflexivity.
  - rewrite E. reflexivity.
Qed.

(* -------------------------------------------------------------- pistons *)
Lemma min_fin z r : exists M, pyminn (map Fin (z :: r)) = Ok (Fin M) /\ smallest M (z :: r).
Proof.
  cbn [map pyminn]. revert z. induction r as [|y r IH]; intros z; cbn [map fold_left].
  - exists z. split; [reflexivity|]. split; [left; reflexivity|]. intros x [<-|[]]. lra.
  - rewrite nltb_fin. destruct (Rltb_reflect y z).
    + destruct (IH y) as (M & -> & A & B). exists M. split; [reflexivity|]. split; [right; exact A|].
      intros x [<-|I]; [|apply B; exact I]. pose proof (B y (or_introl eq_refl)). lra.
    + destruct (IH z) as (M & -> & A & B). exists M. split; [reflexivity|]. split.
      * destruct A as [A|A]; [left; exact A|right; right; exact A].
      * intros x [<-|[<-|I]]; [apply B; left; reflexivity| |apply B; right; exact I].
        pose proof (B z (or_introl eq_refl)). lra.
Qed.
Lemma max_fin z r : exists M, pymaxn (map Fin (z :: r)) = Ok (Fin M) /\ largest M (z :: r).
Proof.
  cbn [map pymaxn]. revert z. induction r as [|y r IH]; intros z; cbn [map fold_left].
  - exists z. split; [reflexivity|]. split; [left; reflexivity|]. intros x [<-|[]]. lra.
  - rewrite nltb_fin. destruct (Rltb_reflect z y).
    + destruct (IH y) as (M & -> & A & B). exists M. split; [reflexivity|]. split; [right; exact A|].
      intros x [<-|I]; [|apply B; exact I]. pose proof (B y (or_introl eq_refl)). lra.
    + destruct (IH z) as (M & -> & A & B). exists M. split; [reflexivity|]. split.
      * destruct A as [A|A]; [left; exact A|right; right; exact A].
      * intros x [<-|[<-|I]]; [apply B; left; reflexivity| |apply B; right; exact I].
        pose proof (B z (or_introl eq_refl)). lra.
Qed.
Lemma filter_one x l : NoDup l -> In x l -> filter (fun r => Reqb r x) l = [x].
Proof.
  intros N. induction N as [|a l A N IH]; [intros []|]. intros I. cbn.
  destruct (Reqb_reflect a x) as [->|D].
  - f_equal. destruct (filter _ l) as [|b k] eqn:E; [reflexivity|]. exfalso.
    assert (J : In b (b :: k)) by (left; reflexivity). rewrite <- E in J. apply filter_In in J. destruct J as (J & Q).
    destruct (Reqb_reflect b x); [subst b; contradiction|discriminate].
  - destruct I as [I|I]; [contradiction|]. apply IH. exact I.
Qed.
Lemma arange_nodup lo n : NoDup (map (fun k => lo + INR k) (seq 0 n)).
Proof.
  apply FinFun.Injective_map_NoDup; [|apply seq_NoDup]. intros i j E. apply INR_eq. lra.
Qed.
Lemma piston_speed grid d t speeds lo hi top atm v h l :
  pi_pwr d = Some t -> tx t = map Fin speeds -> smallest lo speeds -> largest hi speeds -> lo < hi ->
  pymaxn (tz t) = Ok top -> mach atm v (VNum h) = Ok (VArr l) ->
  exists r k, r = lo + INR k /\ r < hi <= r + 1 /\
    deck_slcorr grid (OfPiston d) atm v h
    = Ok (VArr (map (fun _ => Fin 1) l), VArr [ndiv (grid (tx t) (ty t) (tz t) (Fin r) h) top]).
Proof.
  intros T X LO HI L E M.
  destruct speeds as [|z r]; [destruct LO as ([] & _)|].
  destruct (min_fin z r) as (lo' & ML & SM). destruct (max_fin z r) as (hi' & MH & G).
  assert (lo' = lo) as -> by (destruct LO as (A & B), SM as (A' & B'); apply Rle_antisym; auto).
  assert (hi' = hi) as -> by (destruct HI as (A & B), G as (A' & B'); apply Rle_antisym; auto).
  rewrite <- X in ML, MH.
  unfold deck_slcorr. rewrite M. cbn [rbind recastasnpfloatarray]. rewrite T. cbn [rbind]. rewrite ML. cbn [rbind]. rewrite MH.
  cbn [rbind arange]. set (n := Z.to_nat _). set (rs := map (fun k => lo + INR k) (seq 0 n)).
  assert (IN : forall x, In x rs <-> exists k, x = lo + INR k /\ x < hi) by (intros x; apply arange_spec).
  assert (NE : rs <> []). { intros Z. assert (I : In lo rs) by (apply IN; exists 0%nat; cbn; split; lra). rewrite Z in I. exact I. }
  destruct (pymax_largest rs NE) as (fast & PM & FI & FM).
  unfold pi_shaftpower at 1. unfold query, grid_table. rewrite T. cbn [toarr vop2 rmap rbind]. rewrite PM. cbn [rbind].
  assert (FO : filter (fun r0 => Reqb r0 fast) rs = [fast]) by (apply filter_one; [apply arange_nodup|exact FI]). rewrite FO.
  pose proof (proj1 (IN fast) FI) as (k & K & FL). exists fast, k. split; [exact K|]. split.
  - split; [exact FL|]. apply Rnot_lt_le. intros Q.
    assert (I : In (fast + 1) rs). { apply IN. exists (S k). rewrite S_INR. split; lra. }
    apply FM in I. lra.
  - unfold pi_sl_powercorr, pi_shaftpower, query, grid_table. rewrite T. cbn [map recastasnpfloatarray toarr vop2]. rewrite broadcast_one.
    cbn [rmap rbind map]. change [grid (tx t) (ty t) (tz t) (Fin fast) h] with (map (fun x => grid (tx t) (ty t) (tz t) x h) [Fin fast]).
    rewrite (table_row _ _ _ _ _ E). cbn [rbind map]. reflexivity.
Qed.
Lemma piston_one_speed grid d t speeds rpm atm v h m :
  pi_pwr d = Some t -> tx t = map Fin speeds -> speeds <> [] -> (forall x, In x speeds -> x = rpm) ->
  mach atm v (VNum h) = Ok m ->
  deck_slcorr grid (OfPiston d) atm v h = Err ValueError.
Proof.
  intros T X N A M. destruct speeds as [|z r]; [contradiction|].
  destruct (min_fin z r) as (lo & ML & S & _). destruct (max_fin z r) as (hi & MH & G & _).
  unfold deck_slcorr. rewrite M. cbn [rbind]. rewrite T. cbn [rbind]. rewrite X, ML. cbn [rbind]. rewrite MH. cbn [rbind arange].
  rewrite arange_empty by (rewrite (A _ S), (A _ G); lra).
  unfold pi_shaftpower at 1. unfold query, grid_table. rewrite T. reflexivity.
Qed.

(* ------------------------------------------------- consequences for the analysis *)
From Verif Require Import AtmosSpec MethodsExamples ConstraintSpec ConstraintProofs ConstraintProofs9 ConstraintProofs10 SensitivityProofs3
  PropulsionProofs9.
Open Scope R_scope.

Lemma node_value grid t i x y z : interpolates grid t -> nth_error (tx t) i = Some (Fin x) -> nth_error (ty t) i = Some (Fin y) ->
  nth_error (tz t) i = Some (Fin z) -> grid (tx t) (ty t) (tz t) (Fin x) (Fin y) = Fin z.
Proof. intros I. apply I. Qed.
Lemma jet_lapse grid ext c d t f zs i V h s T M : air_at c h s -> jt_thr d = Some t -> ratio_of grid t f -> propulsion c = PropJet f ->
  tz t = map Fin zs -> largest M zs -> 0 < M -> interpolates grid t ->
  nth_error (tx t) i = Some (Fin (mach_no V s)) -> nth_error (ty t) i = Some (Fin h) -> nth_error (tz t) i = Some (Fin T) -> T <> 0 ->
  lapse ext c true V h (T / M).
Proof.
  intros HA D (top & E & F) P Z L MP I X Y W N. destruct zs as [|z r]; [destruct L as ([] & _)|].
  destruct (max_fin z r) as (M' & MM & L'). assert (M' = M) as -> by (destruct L as (A & B), L' as (A' & B'); apply Rle_antisym; auto).
  rewrite Z, MM in E. injection E as <-. destruct (slcorr_decks ext c h s V HA) as (J & _). 
  exists (VArr [f (Fin (mach_no V s)) (Fin h)]), (VArr [Fin 1]). split; [apply J; exact P|].
  rewrite F, (node_value _ _ _ _ _ _ I X Y W), ndiv_fin by lra. split; [|right; reflexivity].
  intros Q. apply N. replace T with (T / M * M) by (field; lra). rewrite Q. ring.
Qed.
Lemma turboprop_power grid ext c d t f zs i V h s P M : air_at c h s -> tp_pwr d = Some t -> ratio_of grid t f -> propulsion c = PropTurboprop f ->
  tz t = map Fin zs -> largest M zs -> 0 < M -> interpolates grid t ->
  nth_error (tx t) i = Some (Fin (mach_no V s)) -> nth_error (ty t) i = Some (Fin h) -> nth_error (tz t) i = Some (Fin P) ->
  power_corr ext c true (VNum (Fin V)) (Fin h) (VArr [Fin (P / M)]).
Proof.
  intros HA D (top & E & F) HP Z L MP I X Y W. destruct zs as [|z r]; [destruct L as ([] & _)|].
  destruct (max_fin z r) as (M' & MM & L'). assert (M' = M) as -> by (destruct L as (A & B), L' as (A' & B'); apply Rle_antisym; auto).
  rewrite Z, MM in E. injection E as <-. destruct (slcorr_decks ext c h s V HA) as (_ & J & _).
  exists (VArr [Fin 1]). rewrite (J f HP), F, (node_value _ _ _ _ _ _ I X Y W), ndiv_fin by lra. reflexivity.
Qed.

Lemma piston_not_best grid d t speeds lo hi zs M atm v h l i j r k P r' P' :
  pi_pwr d = Some t -> tx t = map Fin speeds -> smallest lo speeds -> largest hi speeds ->
  tz t = map Fin zs -> largest M zs -> 0 < M -> interpolates grid t -> mach atm v (VNum (Fin h)) = Ok (VArr l) ->
  r = lo + INR k -> r < hi <= r + 1 ->
  nth_error (tx t) i = Some (Fin r) -> nth_error (ty t) i = Some (Fin h) -> nth_error (tz t) i = Some (Fin P) ->
  nth_error (tx t) j = Some (Fin r') -> nth_error (ty t) j = Some (Fin h) -> nth_error (tz t) j = Some (Fin P') -> P < P' ->
  pi_shaftpower grid d (VNum (Fin r')) (VNum (Fin h)) = Ok (Some (VNum (Fin P'))) /\
  exists tc q, deck_slcorr grid (OfPiston d) atm v (Fin h) = Ok (tc, VArr [Fin q]) /\ q = P / M /\ q < P' / M.
Proof.
  intros D X LO HI Z L MP I MA R0 RB Xi Yi Zi Xj Yj Zj LT.
  assert (BIG : lo < hi) by (pose proof (pos_INR k); lra).
  destruct zs as [|z q]; [destruct L as ([] & _)|]. destruct (max_fin z q) as (M' & MM & L').
  assert (M' = M) as -> by (destruct L as (A & B), L' as (A' & B'); apply Rle_antisym; auto). rewrite <- Z in MM.
  split.
  - unfold pi_shaftpower, query, grid_table. rewrite D. cbn [toarr vop2 rmap]. rewrite (node_value _ _ _ _ _ _ I Xj Yj Zj). reflexivity.
  - destruct (piston_speed grid d t speeds lo hi (Fin M) atm v (Fin h) l D X LO HI BIG MM MA) as (r2 & k2 & R2 & B2 & ->).
    assert (r2 = r) as ->.
    { assert (A : INR k2 < INR k + 1) by lra. assert (B : INR k < INR k2 + 1) by lra. rewrite <- S_INR in A, B.
      apply INR_lt in A. apply INR_lt in B. assert (k2 = k) as -> by lia. congruence. }
    eexists. exists (P / M). rewrite (node_value _ _ _ _ _ _ I Xi Yi Zi), ndiv_fin by lra. split; [reflexivity|]. split; [reflexivity|].
    unfold Rdiv. apply Rmult_lt_compat_r; [apply Rinv_0_lt_compat; lra|exact LT].
Qed.

(* ------------------------------------------------------------ examples *)
Definition half_deck (T : R) : PropulsionModel.jet :=
  {| jt_thr := Some {| tx := map Fin [0; 0.8]; ty := map Fin [0; 1000]; tz := map Fin [T; 20000] |}; jt_tsfc := None; jt_sl := None; jt_to := None |}.
Lemma exact_interpolates xs ys zs : NoDup (combine xs ys) -> interpolates exact_grid {| tx := map Fin xs; ty := map Fin ys; tz := map Fin zs |}.
Proof.
  intros N i x y z. cbn [tx ty tz]. revert ys zs N i. unfold exact_grid.
  induction xs as [|a xs IH]; intros ys zs N i X Y Z; [destruct i; discriminate|].
  destruct ys as [|b ys]; [destruct i; discriminate|]. destruct zs as [|c zs]; [destruct i; discriminate|].
  cbn [combine] in N. inversion N as [|? ? NI N']; subst. cbn [map combine exact neqb]. destruct i as [|i].
  - cbn in X, Y, Z. injection X as ->. injection Y as ->. injection Z as ->.
    destruct (Reqb_reflect x x); [|congruence]. destruct (Reqb_reflect y y); [|congruence]. reflexivity.
  - cbn in X, Y, Z. assert (Q : (Reqb a x && Reqb b y)%bool = false).
    { destruct (Reqb_reflect a x) as [->|]; [|reflexivity]. destruct (Reqb_reflect b y) as [->|]; [|reflexivity]. exfalso. apply NI.
      clear - X Y. revert xs ys X Y. induction i as [|i IH]; intros [|u xs] [|w ys] X Y; try discriminate; cbn in *.
      - left. congruence.
      - right. apply IH; assumption. }
    rewrite Q. exact (IH ys zs N' i X Y Z).
Qed.
Lemma half_deck_mach V : 0 <= V -> exists x, mach (isa 0) (VNum (Fin V)) (VNum (Fin 0)) = Ok (VArr [Fin x]) /\ x = mach_no V (std_air 0).
Proof.
  intros HV. eexists. split; [|reflexivity].
  exact (mach1_air (example_aircraft 20 18 4 PropFalse (isa 0)) 0 (std_air 0) ltac:(apply std_air_at; [reflexivity|lra]) V).
Qed.
Lemma half_slcorr T : 0 < T <= 20000 -> deck_slcorr exact_grid (OfJet (half_deck T)) (isa 0) (VNum (Fin 0)) (Fin 0)
  = Ok (VArr [Fin (T / 20000)], VArr [Fin 1]).
Proof.
  intros HT. destruct (half_deck_mach 0 (Rle_refl 0)) as (x & M & ->). unfold deck_slcorr. rewrite M. cbn [rbind recastasnpfloatarray map].
  assert (mach_no 0 (std_air 0) = 0) as -> by (unfold mach_no; field; apply Rgt_not_eq, (sound_pos (example_aircraft 20 18 4 PropFalse (isa 0)) 0), std_air_at; [reflexivity|lra]).
  unfold jt_sl_thrustcorr, jt_thrust, half_deck, query, grid_table. cbn [jt_thr toarr vop2 map rmap rbind].
  rewrite (exact_interpolates [0; 0.8] [0; 1000] [T; 20000]) with (i := 0%nat) (z := T); try reflexivity.
  - cbn [normalised tz map pymaxn fold_left]. rewrite nltb_fin. destruct (Rltb_reflect T 20000); cbn [rbind some_val toarr vlit map].
    + rewrite ndiv_fin by lra. reflexivity.
    + assert (T = 20000) as -> by lra. rewrite ndiv_fin by lra. reflexivity.
  - constructor; [|constructor; [intros []|constructor]]. intros [Q|[]]. injection Q as Q _. lra.
Qed.
Lemma lone_engine_differs : exists d b de p t t' q q',
  slcorr_of exact_grid example_ext b de p (isa 0) (ArgObject false (OfJet d)) (VNum (Fin 0)) (Fin 0) = Ok (t, q) /\
  slcorr_of exact_grid example_ext b de p (isa 0) (ArgTuple [OfJet d]) (VNum (Fin 0)) (Fin 0) = Ok (t', q') /\ t <> t'.
Proof.
  set (b := brief_dict (PList [Fin 1000; Fin 1400])).
  assert (G : exists x, slcorr_of exact_grid example_ext b design_dict performance_dict (isa 0) ArgNothing (VNum (Fin 0)) (Fin 0)
    = Ok (VArr [x], VArr [Fin 1])).
  { unfold slcorr_of. cbn [stored_propulsion iterable]. unfold b. rewrite self0_ok. cbn [rbind]. eexists.
    refine (slcorr_generic (obj (self0 PropFalse)) 0 (std_air 0) _ example_ext 4 1.07 LowBypass eq_refl eq_refl _ 0 (Rle_refl 0)).
    - apply std_air_at; [reflexivity|lra].
    - constructor; [left; reflexivity|lra]. }
  destruct G as (x & G).
  assert (S : forall T, 0 < T <= 20000 -> slcorr_of exact_grid example_ext b design_dict performance_dict (isa 0) (ArgObject false (OfJet (half_deck T))) (VNum (Fin 0)) (Fin 0)
     = Ok (VArr [Fin (T / 20000)], VArr [Fin 1])).
  { intros T HT. unfold slcorr_of. cbn [stored_propulsion iterable]. unfold b. rewrite self0_ok. cbn [rbind]. exact (half_slcorr T HT). }
  assert (K : exists T, 0 < T <= 20000 /\ Fin (T / 20000) <> x).
  { destruct x as [x|]; [|exists 1; split; [lra|discriminate]]. destruct (Req_dec x 0.5) as [->|N].
    - exists 5000. split; [lra|]. intros Q. injection Q as Q. lra.
    - exists 10000. split; [lra|]. intros Q. injection Q as Q. apply N. lra. }
  destruct K as (T & HT & N). exists (half_deck T), b, design_dict, performance_dict, (VArr [Fin (T / 20000)]), (VArr [x]), (VArr [Fin 1]), (VArr [Fin 1]).
  split; [exact (S T HT)|]. split; [exact G|]. intros Q. injection Q as Q. exact (N Q).
Qed.
(** a table in which the power falls as the engine goes faster *)
Definition slow_piston : piston :=
  {| pi_pwr := Some {| tx := map Fin [2000; 2001; 2002]; ty := map Fin [0; 0; 0]; tz := map Fin [150; 75; 60] |}; pi_bsfc := None; pi_bsfc_pwr := None |}.
Lemma slow_piston_case : exists t, pi_pwr slow_piston = Some t /\ interpolates exact_grid t /\
  smallest 2000 [2000; 2001; 2002] /\ largest 2002 [2000; 2001; 2002] /\ largest 150 [150; 75; 60] /\
  tx t = map Fin [2000; 2001; 2002] /\ tz t = map Fin [150; 75; 60] /\
  2001 = 2000 + INR 1 /\ 2001 < 2002 <= 2001 + 1 /\ 75 < 150 /\
  exists l, mach (isa 0) (VNum (Fin 50)) (VNum (Fin 0)) = Ok (VArr l).
Proof.
  eexists. split; [reflexivity|]. split.
  - apply exact_interpolates. repeat constructor; cbn; intros H; decompose [or] H; try contradiction;
      match goal with Q : (_, _) = (_, _) |- _ => injection Q as Q; lra end.
  - unfold smallest, largest. cbn [In INR].
    repeat split; try lra; auto; try (intros y [<-|[<-|[<-|[]]]]; lra).
    destruct (half_deck_mach 50 ltac:(lra)) as (x & M & _). exists [Fin x]. exact M.
Qed.
Lemma half_deck_case : exists t, jt_thr (half_deck 10000) = Some t /\ interpolates exact_grid t /\
  tz t = map Fin [10000; 20000] /\ largest 20000 [10000; 20000] /\
  nth_error (tx t) 0 = Some (Fin (mach_no 0 (std_air 0))) /\ nth_error (ty t) 0 = Some (Fin 0) /\ nth_error (tz t) 0 = Some (Fin 10000) /\
  exists f, ratio_of exact_grid t f.
Proof.
  eexists. split; [reflexivity|]. split.
  - apply exact_interpolates. constructor; [|constructor; [intros []|constructor]]. intros [Q|[]]. injection Q as Q _. lra.
  - split; [reflexivity|]. split; [split; [right; left; reflexivity|intros y [<-|[<-|[]]]; lra]|]. split; [|split; [reflexivity|split; [reflexivity|]]].
    + cbn. do 2 f_equal. unfold mach_no. field. apply Rgt_not_eq, (sound_pos (example_aircraft 20 18 4 PropFalse (isa 0)) 0), std_air_at; [reflexivity|lra].
    + eexists. eexists. split; [reflexivity|]. intros. reflexivity.
Qed.
From Verif Require Import ConceptProofs ConceptProofs2.
Lemma construct_atm b d p atm prop o : construct b d p atm prop = Ok o -> designatm (obj o) = atm.
Proof.
  intros H. apply construct_inv in H as (b1&d0&p0&d1&d2'&tf&p1&n&b'&d'&p'&c&H1&H2&H3&H4&H5&H6&H7&H8&H9&H10&->).
  cbn [obj]. exact (proj1 (proj2 (attributes_engine _ _ _ _ _ _ H10))).
Qed.
Lemma constructed_engine grid ext b d p atm a v h :
  (forall e q o, meant a (SPair e q) -> (forall e', a <> ArgTuple [e']) -> construct b d p atm PropOther = Ok o ->
     slcorr_of grid ext b d p atm a v h = deck_slcorr grid e atm v h) /\
  (forall t o, a = ArgText t -> construct b d p atm (PropStr t) = Ok o ->
     slcorr_of grid ext b d p atm a v h = propulsion_slcorr ext (obj o) v h).
Proof.
  split.
  - intros e q o M N C. unfold slcorr_of. rewrite (argument_kept _ _ M N), C. cbn [rbind]. rewrite (construct_atm _ _ _ _ _ _ C). reflexivity.
  - intros t o -> C. unfold slcorr_of. cbn [stored_propulsion iterable]. rewrite C. reflexivity.
Qed.

Lemma iterable_iff a : iterable a = true <-> iterates a.
Proof. split; [destruct a as [| | |[] ]; cbn; intros H; try discriminate; constructor|intros []; reflexivity]. Qed.
Lemma nan_speed grid d t r atm v h m : mach atm v (VNum h) = Ok m -> pi_pwr d = Some t -> tx t = NonFin :: r ->
  deck_slcorr grid (OfPiston d) atm v h = Err ValueError.
Proof.
  intros E P T. unfold deck_slcorr. rewrite E. cbn [rbind]. rewrite P. cbn [rbind]. rewrite T.
  assert (A : pyminn (NonFin :: r) = Ok NonFin).
  { unfold pyminn. f_equal. clear. induction r as [|y r IH]; [reflexivity|]. destruct y; exact IH. }
  rewrite A. cbn [rbind]. destruct (pymaxn (NonFin :: r)) eqn:M; [reflexivity|discriminate].
Qed.
Lemma other_object grid atm v h l : mach atm v (VNum h) = Ok (VArr l) ->
  deck_slcorr grid OfOther atm v h = Ok (VArr (map (fun _ => Fin 1) l), VArr (map (fun _ => Fin 1) l)).
Proof. intros E. unfold deck_slcorr. rewrite E. reflexivity. Qed.
