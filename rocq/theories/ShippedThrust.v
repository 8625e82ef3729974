(** The sea level polynomials of the shipped jet engines. *)
From Coq Require Import QArith Qreals Ascii Permutation.
From Verif Require Import Base BaseFacts AtmosModel ConceptModel ConceptProofs PropulsionModel PropulsionSpec PropulsionProofs PropulsionProofs2 PropulsionProofs3 PropulsionProofs4
  ShippedText ShippedModel ShippedSpec ShippedProofs ShippedDecks.
Open Scope R_scope.

Lemma Qeqb_R a b : Qeq_bool a b = true -> Q2R a = Q2R b.
Proof. intros H. apply Qeq_eqR, Qeq_bool_eq, H. Qed.
(** the answer of a deck whose polynomial comes from a file *)
Definition poly_of (p : list Q * list Q) : poly * list num := (map to_num (fst p), map to_num (snd p)).
Lemma query_file c lo hi x : poly_deck (Some (poly_of (c, [lo; hi]))) (Fin x) =
  Ok (if Rle_dec (Q2R lo) x then if Rle_dec x (Q2R hi) then Some (Fin (ev c x)) else None else None).
Proof.
  unfold poly_of, to_num. cbn [fst snd map]. replace (map (fun q => Fin (Q2R q)) c) with (map Fin (map Q2R c)) by (rewrite map_map; reflexivity).
  rewrite poly_deck_fin, ev_sum. reflexivity.
Qed.
Lemma file_query f a : poly_process shipped_text parse_float f = Ok a -> exists p, qpoly f = Ok p /\ a = poly_of p.
Proof. rewrite poly_file. destruct (qpoly f) as [p|]; [|discriminate]. intros H. injection H as <-. exists p. auto. Qed.
Lemma query_some c lo hi x t : poly_deck (Some (poly_of (c, [lo; hi]))) (Fin x) = Ok (Some (Fin t)) -> Q2R lo <= x <= Q2R hi /\ t = ev c x.
Proof.
  rewrite query_file. destruct (Rle_dec (Q2R lo) x); [|discriminate]. destruct (Rle_dec x (Q2R hi)); [|discriminate]. intros H. injection H as <-. auto.
Qed.

(** ** Range and bounds *)
Lemma within_spec n f range bounds a x : within n f range bounds = true -> poly_process shipped_text parse_float f = Ok a ->
  (Q2R (fst range) <= x <= Q2R (snd range) -> exists t, poly_deck (Some a) (Fin x) = Ok (Some (Fin t)) /\ Q2R (fst bounds) < t < Q2R (snd bounds)) /\
  (x < Q2R (fst range) \/ Q2R (snd range) < x -> poly_deck (Some a) (Fin x) = Ok None).
Proof.
  unfold within. intros W E. apply file_query in E. destruct E as ((c, l) & E & ->). rewrite E in W.
  destruct l as [|lo [|hi [|]]]; try discriminate. apply andb_prop in W. destruct W as (W & W4). apply andb_prop in W. destruct W as (W & W3).
  apply andb_prop in W. destruct W as (W1 & W2). apply Qeqb_R in W1. apply Qeqb_R in W2. rewrite query_file, W1, W2. split.
  - intros H. exists (ev c x). destruct (Rle_dec (Q2R (fst range)) x); [|lra]. destruct (Rle_dec x (Q2R (snd range))); [|lra]. split; [reflexivity|].
    rewrite <- W1, <- W2 in H. pose proof (pos_on_spec _ _ _ _ W3 x H) as P1. pose proof (pos_on_spec _ _ _ _ W4 x H) as P2.
    rewrite ev_add in P1, P2. cbn [ev] in P1, P2. rewrite ev_scale in P2. rewrite Q2R_opp in P1.
    replace (Q2R (-(1))) with (-1) in P2 by (unfold Q2R; cbn; lra). lra.
  - intros H. destruct (Rle_dec (Q2R (fst range)) x); [|reflexivity]. destruct (Rle_dec x (Q2R (snd range))); [lra|reflexivity].
Qed.
Lemma thrust_bounds e lo hi a b d m : In (e, (lo, hi), (a, b)) thrust_ranges -> shipped_jet e d ->
  (Q2R lo <= m <= Q2R hi -> exists t, jet_sl_thrust d (Fin m) = Ok (Some (Fin t)) /\ Q2R a < t < Q2R b) /\
  (m < Q2R lo \/ Q2R hi < m -> jet_sl_thrust d (Fin m) = Ok None).
Proof.
  intros I S. assert (Ie : In e sl_engines) by (apply in_map_iff; exists (e, (lo, hi), (a, b)); auto).
  destruct (jet_sl_poly e d Ie S) as (p & E & D). unfold jet_sl_thrust. rewrite D.
  apply (within_spec 12 (thrust_file e) (lo, hi) (a, b) p m); [|exact E].
  assert (B : forallb (fun x => within 12 (thrust_file (fst (fst x))) (snd (fst x)) (snd x)) thrust_ranges = true) by (vm_compute; reflexivity).
  exact (forallb_In _ _ B _ I).
Qed.
Lemma take_off_bounds e lo hi a b d m : In (e, (lo, hi), (a, b)) take_off_ranges -> shipped_jet e d ->
  (Q2R lo <= m <= Q2R hi -> exists t, jet_sl_take_off_thrust d (Fin m) = Ok (Some (Fin t)) /\ Q2R a < t < Q2R b) /\
  (m < Q2R lo \/ Q2R hi < m -> jet_sl_take_off_thrust d (Fin m) = Ok None).
Proof.
  intros I S. assert (Ie : In e to_engines) by (apply in_map_iff; exists (e, (lo, hi), (a, b)); auto).
  destruct (jet_to_poly e d Ie S) as (p & E & D). unfold jet_sl_take_off_thrust. rewrite D.
  apply (within_spec 12 (take_off_file e) (lo, hi) (a, b) p m); [|exact E].
  assert (B : forallb (fun x => within 12 (take_off_file (fst (fst x))) (snd (fst x)) (snd x)) take_off_ranges = true) by (vm_compute; reflexivity).
  exact (forallb_In _ _ B _ I).
Qed.
(** no polynomial for the others *)
Lemma no_polynomial e d m : In e jet_engines -> shipped_jet e d ->
  (~ In e sl_engines -> jet_sl_thrust d (Fin m) = Ok None) /\ (~ In e to_engines -> jet_sl_take_off_thrust d (Fin m) = Ok None).
Proof.
  intros I (l & P & E). apply jet_contents in E. destruct E as (_ & _ & N1 & N2).
  assert (A : forall (known : list string) k, forallb (fun e => (existsb (String.eqb e) known || nothingb [e] k jet_files)%bool) jet_engines = true ->
    ~ In e known -> filter (servesb e k) jet_files = []).
  { intros known k B N. pose proof (forallb_In _ _ B e I) as X. cbv beta in X. apply orb_prop in X. destruct X as [X|X].
    - apply existsb_exists in X. destruct X as (y & Y & Z). apply String.eqb_eq in Z. subst y. destruct (N Y).
    - apply (nothingb_spec [e]); [exact X|left; reflexivity]. }
  unfold jet_sl_thrust, jet_sl_take_off_thrust. split; intros N.
  - rewrite (newest_nothing _ _ _ _ _ _ N1 P); [reflexivity|]. apply (A sl_engines); [vm_compute; reflexivity|exact N].
  - rewrite (newest_nothing _ _ _ _ _ _ N2 P); [reflexivity|]. apply (A to_engines); [vm_compute; reflexivity|exact N].
Qed.

(** ** Falling with the Mach number *)
Lemma falls_spec n f a x y t u : falls n f = true -> poly_process shipped_text parse_float f = Ok a -> x < y ->
  poly_deck (Some a) (Fin x) = Ok (Some (Fin t)) -> poly_deck (Some a) (Fin y) = Ok (Some (Fin u)) -> u < t.
Proof.
  unfold falls. intros W E L. apply file_query in E. destruct E as ((c, l) & E & ->). rewrite E in W.
  destruct l as [|lo [|hi [|]]]; try discriminate. intros X Y. apply query_some in X. apply query_some in Y. destruct X as (X & ->). destruct Y as (Y & ->).
  apply (falling_spec _ _ _ _ W); lra.
Qed.
Lemma thrust_falls e d m m' t t' : In e ["ATF3-6A"; "FJ-44"; "JT8D-9"; "JT9D-3"; "TF30"; "TFE731-2"]%string -> shipped_jet e d -> m < m' ->
  jet_sl_thrust d (Fin m) = Ok (Some (Fin t)) -> jet_sl_thrust d (Fin m') = Ok (Some (Fin t')) -> t' < t.
Proof.
  intros I S L. assert (Ie : In e sl_engines) by (cbn in I |- *; intuition).
  destruct (jet_sl_poly e d Ie S) as (p & E & D). unfold jet_sl_thrust. rewrite D. apply (falls_spec 12 (thrust_file e)); [|exact E|exact L].
  clear - I. revert I. apply (forallb_In (fun e => falls 12 (thrust_file e))). vm_compute. reflexivity.
Qed.
Lemma take_off_falls e d m m' t t' : In e ["JT8D-9"; "JT9D-3"; "TFE731-5"]%string -> shipped_jet e d -> m < m' ->
  jet_sl_take_off_thrust d (Fin m) = Ok (Some (Fin t)) -> jet_sl_take_off_thrust d (Fin m') = Ok (Some (Fin t')) -> t' < t.
Proof.
  intros I S L. assert (Ie : In e to_engines) by (cbn in I |- *; intuition).
  destruct (jet_to_poly e d Ie S) as (p & E & D). unfold jet_sl_take_off_thrust. rewrite D. apply (falls_spec 12 (take_off_file e)); [|exact E|exact L].
  clear - I. revert I. apply (forallb_In (fun e => falls 12 (take_off_file e))). vm_compute. reflexivity.
Qed.
Fixpoint qev (c : list Q) (x : Q) : Q := match c with [] => 0%Q | a :: r => (a + x * qev r x)%Q end.
Lemma qev_ev c x : Q2R (qev c x) = ev c (Q2R x).
Proof. induction c as [|a r IH]; [apply Q2R_z|]. cbn [qev ev]. rewrite Q2R_plus, Q2R_mult, IH. reflexivity. Qed.
Definition rises (f : string) (x y : Q) : bool :=
  match qpoly f with Ok (c, [lo; hi]) => (Qle_bool lo x && Qltb x y && Qle_bool y hi && Qltb (qev c x) (qev c y))%bool | _ => false end.
Lemma Qleb_R a b : Qle_bool a b = true -> Q2R a <= Q2R b.
Proof. intros H. apply Qle_Rle, Qle_bool_iff, H. Qed.
Lemma rises_spec f x y a : rises f x y = true -> poly_process shipped_text parse_float f = Ok a -> Q2R x < Q2R y /\ exists t u,
  poly_deck (Some a) (Fin (Q2R x)) = Ok (Some (Fin t)) /\ poly_deck (Some a) (Fin (Q2R y)) = Ok (Some (Fin u)) /\ t < u.
Proof.
  unfold rises. intros W E. apply file_query in E. destruct E as ((c, l) & E & ->). rewrite E in W.
  destruct l as [|lo [|hi [|]]]; try discriminate. apply andb_prop in W. destruct W as (W & W4). apply andb_prop in W. destruct W as (W & W3).
  apply andb_prop in W. destruct W as (W1 & W2). apply Qleb_R in W1. apply Qleb_R in W3. apply Qltb_lt in W2. apply Qltb_lt in W4. rewrite !qev_ev in W4.
  split; [exact W2|]. exists (ev c (Q2R x)), (ev c (Q2R y)). rewrite !query_file.
  destruct (Rle_dec (Q2R lo) (Q2R x)); [|lra]. destruct (Rle_dec (Q2R x) (Q2R hi)); [|lra]. destruct (Rle_dec (Q2R lo) (Q2R y)); [|lra]. destruct (Rle_dec (Q2R y) (Q2R hi)); [|lra]. auto.
Qed.
Lemma thrust_rises e d : In e ["J52"; "J60"; "F404-400"]%string -> shipped_jet e d -> exists m m' t t', m < m' /\
  jet_sl_thrust d (Fin m) = Ok (Some (Fin t)) /\ jet_sl_thrust d (Fin m') = Ok (Some (Fin t')) /\ t < t'.
Proof.
  intros I S. assert (Ie : In e sl_engines) by (cbn in I |- *; intuition).
  destruct (jet_sl_poly e d Ie S) as (p & E & D). unfold jet_sl_thrust. rewrite D.
  assert (B : exists x y, rises (thrust_file e) x y = true).
  { clear - I. destruct I as [<-|[<-|[<-|[]]]]; [exists 0.5%Q, 0.7%Q|exists 0.65%Q, 0.84%Q|exists 0.5%Q, 0.9%Q]; vm_compute; reflexivity. }
  destruct B as (x & y & B). destruct (rises_spec _ _ _ _ B E) as (L & t & u & T & U & V). exists (Q2R x), (Q2R y), t, u. auto.
Qed.

(** ** Take-off thrust and normal thrust *)
Definition Qmax2 (a b : Q) : Q := if Qle_bool a b then b else a.
Definition Qmin2 (a b : Q) : Q := if Qle_bool a b then a else b.
Lemma Qmax2_R a b x : Q2R a <= x -> Q2R b <= x -> Q2R (Qmax2 a b) <= x.
Proof. unfold Qmax2. destruct (Qle_bool a b); auto. Qed.
Lemma Qmin2_R a b x : x <= Q2R a -> x <= Q2R b -> x <= Q2R (Qmin2 a b).
Proof. unfold Qmin2. destruct (Qle_bool a b); auto. Qed.
Definition above (n : nat) (f g : string) (k : Q) : bool :=
  match qpoly f, qpoly g with
  | Ok (c, [lo; hi]), Ok (c', [lo'; hi']) => pos_on n (padd [- k]%Q (padd c' (pscale (-(1)) c))) (Qmax2 lo lo') (Qmin2 hi hi')
  | _, _ => false
  end.
Lemma above_spec n f g k a b x t u : above n f g k = true -> poly_process shipped_text parse_float f = Ok a -> poly_process shipped_text parse_float g = Ok b ->
  poly_deck (Some a) (Fin x) = Ok (Some (Fin t)) -> poly_deck (Some b) (Fin x) = Ok (Some (Fin u)) -> t + Q2R k < u.
Proof.
  unfold above. intros W E F. apply file_query in E. destruct E as ((c, l) & E & ->). apply file_query in F. destruct F as ((c', l') & F & ->). rewrite E, F in W.
  destruct l as [|lo [|hi [|]]]; try discriminate. destruct l' as [|lo' [|hi' [|]]]; try discriminate.
  intros X Y. apply query_some in X. apply query_some in Y. destruct X as ((X1 & X2) & ->). destruct Y as ((Y1 & Y2) & ->).
  pose proof (pos_on_spec _ _ _ _ W x (conj (Qmax2_R _ _ _ X1 Y1) (Qmin2_R _ _ _ X2 Y2))) as P. rewrite !ev_add, ev_scale in P. cbn [ev] in P. rewrite Q2R_opp in P.
  replace (Q2R (-(1))) with (-1) in P by (unfold Q2R; cbn; lra). lra.
Qed.
Lemma take_off_above e k d m t u : In (e, k) [("JT8D-9"%string, 13000%Z); ("JT9D-3"%string, 44000%Z)] -> shipped_jet e d ->
  jet_sl_thrust d (Fin m) = Ok (Some (Fin t)) -> jet_sl_take_off_thrust d (Fin m) = Ok (Some (Fin u)) -> t + IZR k < u.
Proof.
  intros I S. assert (Ie : In e sl_engines /\ In e to_engines) by (destruct I as [I|[I|[]]]; injection I as <- <-; cbn; intuition). destruct Ie as (I1 & I2).
  destruct (jet_sl_poly e d I1 S) as (p & E & D). destruct (jet_to_poly e d I2 S) as (q & F & G). unfold jet_sl_thrust, jet_sl_take_off_thrust. rewrite D, G.
  replace (IZR k) with (Q2R (inject_Z k)) by (unfold Q2R; cbn; field).
  apply (above_spec 12 (thrust_file e) (take_off_file e)); [|exact E|exact F].
  clear - I. destruct I as [I|[I|[]]]; injection I as <- <-; vm_compute; reflexivity.
Qed.

(** ** Polynomial and table *)
Definition fits (c : list Q) (lo hi : Q) (m h z : Q) : bool :=
  if Qeq_bool h 0 then if Qle_bool lo m then if Qle_bool m hi then
    let p := qev c m in (Qltb 0 z && Qle_bool (p - z) (z * 0.005) && Qle_bool (z - p) (z * 0.005))%bool
  else true else true else true.
Definition table_fits (e : string) : bool :=
  match qpoly (thrust_file e) with
  | Ok (c, [lo; hi]) => table_ok (fits c lo hi) (thrust_table e) "Mach Number" "Altitude (m)" "Thrust (N)"
  | _ => false
  end.
Lemma Rle_Qleb a b : Q2R a <= Q2R b -> Qle_bool a b = true.
Proof. intros H. apply Qle_bool_iff, Rle_Qle, H. Qed.
Lemma all_fit e : In e sl_engines -> table_fits e = true.
Proof. intros I. apply (forallb_In table_fits sl_engines); [|exact I]. vm_compute. reflexivity. Qed.
Lemma fit_spec e d t i m z p : In e sl_engines -> shipped_jet e d -> jt_thr d = Some t -> row t i m 0 z ->
  jet_sl_thrust d (Fin m) = Ok (Some (Fin p)) -> Rabs (p - z) <= 0.005 * z.
Proof.
  intros I S T Rw Q. destruct (jet_sl_poly e d I S) as (a & E & D). unfold jet_sl_thrust in Q. rewrite D in Q.
  apply file_query in E. destruct E as ((c, l) & E & ->).
  pose proof (all_fit e I) as W.
  unfold table_fits in W. rewrite E in W. destruct l as [|lo [|hi [|]]]; try discriminate W. apply query_some in Q. destruct Q as (X & ->).
  assert (Ij : In e jet_engines) by (cbn in I |- *; intuition).
  destruct (jet_thrust_table e d Ij S) as (t' & F & D'). rewrite T in D'. injection D' as <-.
  destruct (table_ok_spec _ _ _ _ _ _ (fun m h z => h = 0 -> Q2R lo <= m <= Q2R hi -> Rabs (ev c m - z) <= 0.005 * z) W F) as (_ & _ & _ & K).
  { intros x y w P Y (L & H). unfold fits in P. assert (Y' : Qeq_bool y 0 = true) by (apply Qeq_eq_bool; apply eqR_Qeq; rewrite Y, Q2R_z; reflexivity).
    rewrite Y', (Rle_Qleb _ _ L), (Rle_Qleb _ _ H) in P. cbv zeta in P. apply andb_prop in P. destruct P as (P & P3). apply andb_prop in P. destruct P as (P1 & P2).
    apply Qleb_R in P2. apply Qleb_R in P3. rewrite Q2R_minus, Q2R_mult, qev_ev in P2, P3. apply Rabs_le. lra. }
  destruct Rw as (R1 & R2 & R3). destruct (K i) as (x & y & w & (E1 & E2 & E3) & Hr); [apply nth_error_Some; congruence|].
  rewrite R1 in E1. rewrite R2 in E2. rewrite R3 in E3. injection E1 as <-. injection E2 as <-. injection E3 as <-. apply Hr; [reflexivity|exact X].
Qed.
Definition mid (m h z : Q) : bool := (Qeq_bool h 0 && Qle_bool 0.5 m && Qle_bool m 1)%bool.
Lemma f404_mid : table_has mid (thrust_table "F404-400") "Mach Number" "Altitude (m)" "Thrust (N)" = true.
Proof. vm_compute. reflexivity. Qed.
Lemma some_fit : exists d t i m z p, shipped_jet "F404-400" d /\ jt_thr d = Some t /\ row t i m 0 z /\ jet_sl_thrust d (Fin m) = Ok (Some (Fin p)) /\ Rabs (p - z) <= 0.005 * z.
Proof.
  destruct (jets_load "F404-400" jet_files) as (d & E); [cbn; intuition|apply Permutation_refl|].
  assert (S : shipped_jet "F404-400" d) by (exists jet_files; split; [apply Permutation_refl|exact E]). exists d.
  assert (Ij : In "F404-400"%string jet_engines) by (cbn; intuition).
  destruct (jet_thrust_table _ _ Ij S) as (t & F & D). exists t.
  destruct (table_has_spec _ _ _ _ _ _ f404_mid F) as (i & x & y & z & Rw & P). unfold mid in P. clear F E.
  apply andb_prop in P. destruct P as (P & P3). apply andb_prop in P. destruct P as (P1 & P2). apply Qeqb_R in P1. apply Qleb_R in P2. apply Qleb_R in P3.
  rewrite P1, Q2R_z in Rw.
  destruct (thrust_bounds "F404-400" 0 1.220319573 60000 75000 d (Q2R x)) as (G & _); [cbn; intuition|exact S|]. destruct G as (p & G & _).
  { unfold Q2R in *. cbn [Qnum Qden] in *. lra. }
  exists i, (Q2R x), (Q2R z), p. split; [exact S|]. split; [exact D|]. split; [exact Rw|]. split; [exact G|].
  apply (fit_spec "F404-400" d t i (Q2R x) (Q2R z) p); try assumption. vm_compute; intuition.
Qed.

(** ** Static take-off thrust *)
Lemma static_take_off d : shipped_jet "JT8D-9" d -> jet_sl_take_off_thrust d (Fin 0) = Ok None.
Proof.
  intros S. destruct (take_off_bounds "JT8D-9" 0.000272148 0.467408107 52000 68000 d 0) as (_ & H); [left; reflexivity|exact S|].
  apply H. left. unfold Q2R. cbn. lra.
Qed.
