(** Polynomial decks, interpolated decks, electric power. *)
From Coq Require Import Permutation Ascii.
From Verif Require Import Base BaseFacts AtmosModel ConceptModel ConceptProofs PropulsionModel PropulsionSpec PropulsionProofs PropulsionProofs2 PropulsionProofs3.
Open Scope R_scope.

(** ** Polynomials *)
Lemma fold_scale (x : R) (c : list R) : forall k, fold_right Rplus 0 (map (fun p => snd p * x ^ fst p) (combine (seq (S k) (List.length c)) c)) =
  x * fold_right Rplus 0 (map (fun p => snd p * x ^ fst p) (combine (seq k (List.length c)) c)).
Proof.
  induction c as [|a c IH]; intros k; cbn [List.length seq combine map fold_right fst snd]; [ring|]. rewrite IH. cbn [pow]. ring.
Qed.
Lemma poly_sum_cons a c x : poly_sum (a :: c) x = a + x * poly_sum c x.
Proof. unfold poly_sum. cbn [List.length seq combine map fold_right fst snd pow]. rewrite fold_scale. ring. Qed.
Lemma polyval_fin c x : polyval (map Fin c) (Fin x) = Fin (poly_sum c x).
Proof. induction c as [|a c IH]; [reflexivity|]. cbn [map polyval]. rewrite IH, nmul_fin, nadd_fin, poly_sum_cons. reflexivity. Qed.
Lemma poly_query_fin c lo hi rest x :
  poly_query (Fin x) (map Fin c) (Fin lo :: Fin hi :: rest) =
  Ok (if Rle_dec lo x then if Rle_dec x hi then Some (Fin (poly_sum c x)) else None else None).
Proof.
  unfold poly_query, index. cbn [nth_error rbind]. rewrite nltb_fin. destruct (Rltb_reflect hi x) as [H|H].
  - destruct (Rle_dec lo x); [|reflexivity]. destruct (Rle_dec x hi); [lra|reflexivity].
  - rewrite nltb_fin. destruct (Rltb_reflect x lo) as [G|G].
    + destruct (Rle_dec lo x); [lra|reflexivity].
    + destruct (Rle_dec lo x); [|lra]. destruct (Rle_dec x hi); [|lra]. rewrite polyval_fin. reflexivity.
Qed.
Lemma last_index_some {A} (l : list A) : l <> [] -> exists x, last_index l = Ok x.
Proof.
  intros H. unfold last_index. destruct (rev l) as [|x r] eqn:E; [|exists x; reflexivity].
  exfalso. apply H. rewrite <- (rev_involutive l), E. reflexivity.
Qed.
Lemma poly_deck_fin c lo hi rest x : poly_deck (Some (map Fin c, Fin lo :: Fin hi :: rest)) (Fin x) =
  Ok (if Rle_dec lo x then if Rle_dec x hi then Some (Fin (poly_sum c x)) else None else None).
Proof.
  unfold poly_deck. destruct (last_index_some (Fin lo :: Fin hi :: rest)) as (z & ->); [discriminate|]. cbn [rbind].
  change (index (Fin lo :: Fin hi :: rest) 0) with (Ok (Fin lo)). cbn [rbind]. apply poly_query_fin.
Qed.
Lemma jet_poly_range : forall d c lo hi rest x,
  (jt_sl d = Some (map Fin c, Fin lo :: Fin hi :: rest) ->
     (lo <= x <= hi -> jet_sl_thrust d (Fin x) = Ok (Some (Fin (poly_sum c x)))) /\ (x < lo \/ hi < x -> jet_sl_thrust d (Fin x) = Ok None)) /\
  (jt_to d = Some (map Fin c, Fin lo :: Fin hi :: rest) ->
     (lo <= x <= hi -> jet_sl_take_off_thrust d (Fin x) = Ok (Some (Fin (poly_sum c x)))) /\ (x < lo \/ hi < x -> jet_sl_take_off_thrust d (Fin x) = Ok None)).
Proof.
  intros d c lo hi rest x. unfold jet_sl_thrust, jet_sl_take_off_thrust.
  split; intros ->; rewrite poly_deck_fin; (split; intros H; [destruct (Rle_dec lo x); [|lra]; destruct (Rle_dec x hi); [|lra]; reflexivity|]);
    destruct (Rle_dec lo x); try reflexivity; destruct (Rle_dec x hi); try reflexivity; lra.
Qed.

(** ** Reading polynomial files *)
Lemma split_plain sep s : ~ occurs (String sep "") s -> split_on sep s = [s].
Proof.
  induction s as [|c s IH]; intros H; [reflexivity|]. cbn [split_on]. destruct (Ascii.eqb_spec c sep) as [->|N].
  - exfalso. apply H. exists ""%string, s. reflexivity.
  - rewrite IH; [reflexivity|]. intros (l & r & E). apply H. exists (String c l), r. now rewrite E.
Qed.
Lemma split_app sep : forall s t, ~ occurs (String sep "") s -> split_on sep (s ++ String sep t) = s :: split_on sep t.
Proof.
  induction s as [|c s IH]; intros t H; cbn [append split_on].
  - rewrite Ascii.eqb_refl. reflexivity.
  - destruct (Ascii.eqb_spec c sep) as [->|N]; [exfalso; apply H; exists ""%string, s; reflexivity|].
    rewrite IH; [reflexivity|]. intros (l & r & E). apply H. exists (String c l), r. now rewrite E.
Qed.
Lemma split_joined sep : forall l, l <> [] -> (forall s, In s l -> ~ occurs (String sep "") s) ->
  split_on sep (joined (String sep "") l) = l.
Proof.
  induction l as [|x l IH]; intros N H; [congruence|]. destruct l as [|y l].
  - cbn [joined]. apply split_plain. apply H. left. reflexivity.
  - change (joined (String sep "") (x :: y :: l)) with (x ++ String sep (joined (String sep "") (y :: l)))%string.
    rewrite split_app by (apply H; left; reflexivity). f_equal. apply IH; [discriminate|]. intros s I. apply H. right. exact I.
Qed.
Lemma occurs_char_app c a b : occurs (String c "") (a ++ b) <-> occurs (String c "") a \/ occurs (String c "") b.
Proof.
  split.
  - intros (l & r & E). revert l E. induction a as [|x a IH]; intros l E; [right; exists l, r; exact E|].
    destruct l as [|y l]; cbn in E; injection E as -> E.
    + left. exists ""%string, a. reflexivity.
    + destruct (IH l E) as [(l' & r' & ->)|H]; [left; exists (String y l'), r'; reflexivity|right; exact H].
  - intros [(l & r & ->)|(l & r & ->)]; [exists l, (r ++ b)%string|exists (a ++ l)%string, r]; rewrite !append_assoc; reflexivity.
Qed.
Lemma occurs_joined c : c <> ","%char -> forall l, (forall s, In s l -> ~ occurs (String c "") s) -> ~ occurs (String c "") (joined "," l).
Proof.
  intros N. induction l as [|x l IH]; intros H.
  - intros (a & b & E). destruct a; discriminate.
  - destruct l as [|y l]; [apply H; left; reflexivity|].
    change (joined "," (x :: y :: l)) with (x ++ "," ++ joined "," (y :: l))%string. rewrite !occurs_char_app. intros [K|[K|K]].
    + revert K. apply H. left. reflexivity.
    + destruct K as (a & b & E). destruct a as [|z a]; cbn in E; [injection E as E _; congruence|injection E as _ E; destruct a; discriminate].
    + revert K. apply IH. intros s I. apply H. right. exact I.
Qed.
Lemma mapM_ok {A B} (f : A -> res B) : forall l m, Forall2 (fun a b => f a = Ok b) l m -> mapM f l = Ok m.
Proof. intros l m F. induction F as [|a b l m H F IH]; [reflexivity|]. cbn. rewrite H. cbn. rewrite IH. reflexivity. Qed.
Lemma poly_file rt ps file cs ls vs ws blanks tail :
  rt file = Ok (joined "," cs ++ String "010" (joined "," (ls ++ blanks) ++ tail))%string ->
  (tail = ""%string \/ exists t, tail = String "010" t) ->
  cs <> [] -> (ls ++ blanks)%list <> [] ->
  (forall s, In s cs \/ In s ls -> plain s) -> (forall s, In s ls -> s <> ""%string) -> (forall s, In s blanks -> s = ""%string) ->
  Forall2 (fun s v => ps s = Some v) cs vs -> Forall2 (fun s v => ps s = Some v) ls ws ->
  poly_process rt ps file = Ok (vs, ws).
Proof.
  intros E T Nc Nl Pl Ne Bl Fc Fl. unfold poly_process. rewrite E. cbn [rbind]. cbv zeta.
  assert (PB : forall s, In s (ls ++ blanks) -> plain s).
  { intros s I. apply in_app_or in I. destruct I as [I|I]; [apply Pl; right; exact I|]. apply Bl in I. subst s.
    split; intros (a & b & K); destruct a; discriminate. }
  assert (NLc : ~ occurs (String "010" "") (joined "," cs)).
  { apply occurs_joined; [discriminate|]. intros s I. apply (Pl s (or_introl I)). }
  assert (NLl : ~ occurs (String "010" "") (joined "," (ls ++ blanks))).
  { apply occurs_joined; [discriminate|]. intros s I. apply (PB s I). }
  rewrite split_app by exact NLc.
  assert (L : exists r, split_on "010" (joined "," (ls ++ blanks) ++ tail) = joined "," (ls ++ blanks) :: r).
  { destruct T as [->|(t & ->)]; [rewrite append_nil, split_plain by exact NLl; exists []; reflexivity|rewrite split_app by exact NLl; eexists; reflexivity]. }
  destruct L as (r & ->). unfold index. cbn [nth_error rbind].
  change ","%string with (String "," "")%string. rewrite !split_joined; [|exact Nl|intros s I; apply (PB s I)|exact Nc|intros s I; apply (Pl s (or_introl I))].
  rewrite (mapM_ok _ _ vs) by (clear -Fc; induction Fc as [|a b l m H F IH]; constructor; [unfold to_float; rewrite H; reflexivity|exact IH]).
  cbn [rbind].
  assert (F : filter (fun s => negb (Nat.eqb (String.length s) 0)) (ls ++ blanks) = ls).
  { rewrite filter_app. replace (filter _ blanks) with (@nil string).
    - rewrite app_nil_r. clear -Ne. induction ls as [|x l IH]; [reflexivity|]. cbn. destruct x as [|c x]; [destruct (Ne ""%string (or_introl eq_refl)); reflexivity|].
      cbn. f_equal. apply IH. intros s I. apply Ne. right. exact I.
    - clear -Bl. induction blanks as [|x l IH]; [reflexivity|]. cbn. rewrite (Bl x (or_introl eq_refl)). cbn. apply IH. intros s I. apply Bl. right. exact I. }
  rewrite F.
  rewrite (mapM_ok _ _ ws) by (clear -Fl; induction Fl as [|a b l m H F IH]; constructor; [unfold to_float; rewrite H; reflexivity|exact IH]).
  reflexivity.
Qed.

(** ** Electric power *)
Lemma el_shaftpower_scalar rpm torque : el_shaftpower (VNum (Fin rpm)) (VNum (Fin torque)) = Ok (VArr [Fin (PI * rpm / 60 * torque)]).
Proof.
  unfold el_shaftpower. cbn [recastasnpfloatarray map vop2]. rewrite ndiv_fin by lra. rewrite nmul_fin. unfold broadcast. cbn. do 4 f_equal. field.
Qed.
Lemma el_shaftpower_arrays rpms torques : List.length rpms = List.length torques ->
  el_shaftpower (VArr (map Fin rpms)) (VArr (map Fin torques)) =
  Ok (VArr (map (fun p => Fin (PI * fst p / 60 * snd p)) (combine rpms torques))).
Proof.
  intros L. unfold el_shaftpower. cbn [recastasnpfloatarray vop2]. unfold broadcast. rewrite !map_length, L, Nat.eqb_refl. cbn [rmap]. do 2 f_equal.
  revert torques L. induction rpms as [|r rpms IH]; intros [|t torques] L; try discriminate; [reflexivity|]. cbn [map combine fst snd].
  rewrite ndiv_fin by lra. rewrite !nmul_fin. f_equal; [f_equal; field|]. apply IH. now injection L.
Qed.
(** the deck's own table uses twice that power *)
Lemma el_table rc rt ps e listing d : electric_deck rc rt ps e listing = Ok (Some d) ->
  forall i rpm torque eta, nth_error (tx (el_tab d)) i = Some (Fin rpm) -> nth_error (ty (el_tab d)) i = Some (Fin torque) ->
    nth_error (tz (el_tab d)) i = Some (Fin eta) -> eta <> 0 ->
    nth_error (el_shaft d) i = Some (Fin (torque * (2 * PI * (rpm / 60)))) /\
    nth_error (el_elec d) i = Some (Fin (torque * (2 * PI * (rpm / 60)) / eta)).
Proof.
  unfold electric_deck. intros H. apply rbind_inv in H. destruct H as (st & S & H). apply rbind_inv in H. destruct H as (t & T & H).
  destruct t as [t|]; [|discriminate]. injection H as <-. cbn [el_tab el_shaft el_elec]. intros i rpm torque eta E1 E2 E3 N.
  assert (C : forall A B (l : list A) (m : list B) i x y, nth_error l i = Some x -> nth_error m i = Some y -> nth_error (combine l m) i = Some (x, y)).
  { clear. induction l as [|a l IH]; intros [|b m] [|i] x y; cbn; try discriminate; [intros A1 A2; injection A1 as ->; injection A2 as ->; reflexivity|apply IH]. }
  set (g := fun p : num * num => (fst p * snd p * # (2 * PI) / # 60)%num). set (h := fun p : num * num => (fst p / snd p)%num).
  assert (V : g (Fin torque, Fin rpm) = Fin (torque * (2 * PI * (rpm / 60)))).
  { unfold g. cbn [fst snd]. rewrite !nmul_fin, ndiv_fin by lra. f_equal. field. }
  assert (SH : nth_error (map g (combine (ty t) (tx t))) i = Some (Fin (torque * (2 * PI * (rpm / 60))))).
  { rewrite (map_nth_error g _ _ (C _ _ _ _ _ _ _ E2 E1)), V. reflexivity. }
  split; [exact SH|]. rewrite (map_nth_error h _ _ (C _ _ _ _ _ _ _ SH E3)). unfold h. cbn [fst snd]. rewrite ndiv_fin by exact N. reflexivity.
Qed.
Lemma el_bsec_efficiency grid t rpm torque eta : grid (tx (el_tab t)) (ty (el_tab t)) (tz (el_tab t)) (Fin rpm) (Fin torque) = Fin eta -> eta <> 0 ->
  exists b, el_bsec grid (Some t) (VNum (Fin rpm)) (VNum (Fin torque)) = Ok (VNum (Fin b)) /\
    el_efficiency grid (Some t) (VNum (Fin rpm)) (VNum (Fin torque)) = Ok (Some (VNum (Fin eta))) /\ b * eta = 1.
Proof.
  intros E N. exists (1 / eta). unfold el_bsec, el_efficiency, query, grid_table. cbn [option_map toarr vop2 rmap rbind some_val vlit].
  rewrite E. cbn [rmap rbind some_val vlit]. rewrite ndiv_fin by exact N. split; [reflexivity|]. split; [reflexivity|]. field. exact N.
Qed.
