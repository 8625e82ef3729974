(** The atmospheres of the handbook files. *)
From Coq Require Import QArith Qreals Sorted.
From Verif Require Import Base BaseFacts AtmosModel AtmosSpec AtmosProofs AtmosProofs3 ConceptModel RunwayModel RunwaySpec RunwayProofs2
  ShippedModel ShippedSpec ShippedCsv HandbookText HandbookModel HandbookSpec HandbookProofs.
Open Scope R_scope.

(** ** The columns as rational numbers *)
Definition qcolumns (hl td alt : string) : res (list (list Q)) :=
  match dget (m310name hl td alt) handbook_lines with Some l => loadtxt l | None => Err ValueError end.
Definition qpart (td : string) (f : frequency) (cols : list (list Q)) : list Q * list Q * list Q :=
  let c := fun i => nth i cols [] in
  let e := match f with one => 1%nat | ten => 3%nat end in
  if String.eqb td "temp" then (c 0%nat, c e, c (S e)) else (c 0%nat, c (S e), c e).
Fixpoint qfalls (l : list Q) : bool :=
  match l with x :: ((y :: _) as r) => (negb (Qle_bool x y) && qfalls r)%bool | _ => true end.
Definition qwithin (lo hi : Q) (l : list Q) : bool := forallb (fun x => negb (Qle_bool x lo) && negb (Qle_bool hi x))%bool l.
Definition qproduct (t r : list Q) : list Q := map (fun p => fst p * snd p)%Q (combine r t).
Definition invertedb (hl td alt : string) (f : frequency) : bool :=
  match f with
  | one => (String.eqb td "dens" && String.eqb alt "5")%bool
  | ten => (String.eqb hl "high" && String.eqb td "temp" && String.eqb alt "20")%bool
  end.
Definition frozenb (hl td alt : string) (f : frequency) : bool :=
  match f with one => false | ten => (String.eqb hl "high" && String.eqb td "dens" && String.eqb alt "10")%bool end.
(** the value at the altitude in the name: at a level, or half way between two *)
Definition qnamed (alt : string) (l : list Q) : Q :=
  if String.eqb alt "5" then ((nth 2 l 0 + nth 3 l 0) / 2)%Q else if String.eqb alt "10" then nth 5 l 0%Q else nth 10 l 0%Q.
Definition more (hl : string) (x y : Q) : bool := if String.eqb hl "high" then negb (Qle_bool x y) else negb (Qle_bool y x).
Definition qcheck (hl td alt : string) : bool :=
  match qcolumns hl td alt with
  | Ok cols =>
      (Nat.eqb (List.length cols) 5 &&
       forallb (fun c => Nat.eqb (List.length c) 41) cols &&
       forallb (fun p => Qeq_bool (fst p) (inject_Z (2 * Z.of_nat (snd p)))) (combine (nth 0 cols []) (seq 0 41)) &&
       forallb (fun f => let '(_, t, r) := qpart td f cols in
         qwithin 0 1.7 r && (frozenb hl td alt f || qwithin 163 302 t) && forallb (Qle_bool 0) t &&
         (invertedb hl td alt f || qfalls r) && (invertedb hl td alt f || frozenb hl td alt f || qfalls (qproduct t r)))%bool [one; ten] &&
       let x := fun f => let '(_, t, r) := qpart td f cols in qnamed alt (if String.eqb td "temp" then t else r) in
       (if String.eqb hl "high" && String.eqb td "dens" && String.eqb alt "5" then negb (Qle_bool (x ten) (x one)) else more hl (x one) (x ten)))%bool
  | Err _ => false
  end.
Definition qall : bool := forallb (fun hl => forallb (fun td => forallb (qcheck hl td) altitudes) quantities) highs_lows.
Lemma qall_true : qall = true.
Proof. vm_compute. reflexivity. Qed.
Lemma qcheck_in hl td alt : In hl highs_lows -> In td quantities -> In alt altitudes -> qcheck hl td alt = true.
Proof.
  intros H T A. pose proof qall_true as Q. unfold qall in Q. rewrite forallb_forall in Q. specialize (Q hl H). rewrite forallb_forall in Q. specialize (Q td T).
  rewrite forallb_forall in Q. exact (Q alt A).
Qed.

(** ** From rational to real columns *)
Lemma qle_r x y : Qle_bool x y = true -> Q2R x <= Q2R y.
Proof. intros H. apply Qle_Rle. apply Qle_bool_iff. exact H. Qed.
Lemma qgt_r x y : negb (Qle_bool x y) = true -> Q2R y < Q2R x.
Proof.
  intros H. apply Qlt_Rlt. apply Qnot_le_lt. intros K. apply Qle_bool_iff in K. rewrite K in H. discriminate.
Qed.
Lemma qfalls_r l : qfalls l = true -> StronglySorted Rgt (map Q2R l).
Proof.
  intros H. apply Sorted_StronglySorted; [intros x y z; unfold Rgt; lra|]. induction l as [|x [|y r] IH]; [constructor|repeat constructor|].
  change (qfalls (x :: y :: r)) with (negb (Qle_bool x y) && qfalls (y :: r))%bool in H. apply andb_true_iff in H. destruct H as [G H].
  cbn [map]. constructor; [exact (IH H)|]. constructor. apply qgt_r in G. exact G.
Qed.
Lemma qwithin_r lo hi l : qwithin lo hi l = true -> Forall (fun x => Q2R lo < x < Q2R hi) (map Q2R l).
Proof.
  intros H. unfold qwithin in H. rewrite forallb_forall in H. apply Forall_forall. intros x I. apply in_map_iff in I. destruct I as (q & <- & I).
  specialize (H q I). apply andb_true_iff in H. destruct H as [A B]. split; apply qgt_r; assumption.
Qed.
Lemma product_r t r : map (fun q => 287.05287 * fst q * snd q) (combine (map Q2R r) (map Q2R t)) = map (Rmult 287.05287) (map Q2R (qproduct t r)).
Proof.
  unfold qproduct. revert t. induction r as [|x r IH]; intros [|y t]; try reflexivity. cbn [map combine fst snd]. rewrite IH, Q2R_mult. f_equal. ring.
Qed.
Lemma scaled_falls l : StronglySorted Rgt l -> StronglySorted Rgt (map (Rmult 287.05287) l).
Proof.
  induction 1 as [|x l S IH F]; [constructor|]. cbn [map]. constructor; [exact IH|]. apply Forall_forall. intros y I. apply in_map_iff in I. destruct I as (z & <- & I).
  rewrite Forall_forall in F. specialize (F z I). unfold Rgt in *. lra.
Qed.

(** ** The profile of a file *)
Lemma obs_columns a t r pr : obsprofile (Some a) (Some t) (Some r) None = Ok pr -> List.length t = List.length a -> List.length r = List.length a ->
  alt_m pr = a /\ temp_k pr = t /\ rho_kgpm3 pr = r /\ p_pa pr = map (fun q => 287.05287 * fst q * snd q) (combine r t).
Proof.
  intros H Lt Lr. unfold obsprofile in H. cbn [npsize] in H. rewrite Lt, Lr, !Nat.eqb_refl in H. cbn [andb rbind] in H.
  destruct (mapM vs_of_temp t) as [vs|e]; cbn [rbind fst snd] in H; [|discriminate].
  destruct (_ && _)%bool in H; [|discriminate]. injection H as <-. repeat split.
Qed.
Definition levels : list R := map (fun k => 2000 * INR k) (seq 0 41).
Record handbook_columns (p : profile) (t r : list Q) : Prop := {
  hc_alt : alt_m p = levels; hc_temp : temp_k p = map Q2R t; hc_rho : rho_kgpm3 p = map Q2R r;
  hc_p : p_pa p = map (Rmult 287.05287) (map Q2R (qproduct t r)); hc_lt : List.length t = 41%nat; hc_lr : List.length r = 41%nat }.
Lemma levels_from n : forall c s, List.length c = n -> forallb (fun p => Qeq_bool (fst p) (inject_Z (2 * Z.of_nat (snd p)))) (combine c (seq s n)) = true ->
  map (fun k => k * 1000) (map Q2R c) = map (fun k => 2000 * INR k) (seq s n).
Proof.
  induction n as [|n IH]; intros [|x c] s L H; try discriminate; [reflexivity|].
  cbn [seq combine forallb fst snd] in H. apply andb_true_iff in H. destruct H as [E H]. apply Qeq_bool_iff in E. apply Qeq_eqR in E.
  cbn [map seq]. f_equal; [|apply (IH c (S s)); [cbn in L; lia|exact H]]. rewrite E. unfold inject_Z, Q2R. cbn [Qnum Qden]. rewrite mult_IZR, <- INR_IZR_INZ. field.
Qed.
Lemma levels_of c : List.length c = 41%nat -> forallb (fun p => Qeq_bool (fst p) (inject_Z (2 * Z.of_nat (snd p)))) (combine c (seq 0 41)) = true ->
  map (fun k => k * 1000) (map Q2R c) = levels.
Proof. apply levels_from. Qed.
Lemma five_columns {A} (l : list (list A)) : List.length l = 5%nat -> exists a b c d e, l = [a; b; c; d; e].
Proof. intros H. do 5 (destruct l as [|? l]; [discriminate|]). destruct l; [|discriminate]. repeat eexists. Qed.
Lemma file_columns hl td alt cols : qcolumns hl td alt = Ok cols -> handbook_dir (m310name hl td alt) = Some (map (map Q2R) cols).
Proof. unfold qcolumns, handbook_dir. destruct (dget (m310name hl td alt) handbook_lines) as [l|]; [|discriminate]. intros ->. reflexivity. Qed.
Lemma shipped_profile hl td alt cols c0 t1 r1 t10 r10 : qcolumns hl td alt = Ok cols -> List.length cols = 5%nat ->
  Forall (fun c => List.length c = 41%nat) cols -> forallb (fun p => Qeq_bool (fst p) (inject_Z (2 * Z.of_nat (snd p)))) (combine (nth 0 cols []) (seq 0 41)) = true ->
  qpart td one cols = (c0, t1, r1) -> qpart td ten cols = (c0, t10, r10) ->
  forall cwd p1 p10, mil_hdbk_310 handbook_dir cwd hl td alt = Ok (Some (p1, p10)) -> handbook_columns p1 t1 r1 /\ handbook_columns p10 t10 r10.
Proof.
  intros Q L F E P1 P10 cwd p1 p10 H. unfold mil_hdbk_310 in H. rewrite (file_columns _ _ _ _ Q) in H.
  destruct (five_columns cols L) as (a & b & c & d & e & ->). clear L Q. cbn [nth] in E.
  inversion F as [|? ? La F1]; subst. inversion F1 as [|? ? Lb F2]; subst. inversion F2 as [|? ? Lc F3]; subst. inversion F3 as [|? ? Ld F4]; subst. inversion F4 as [|? ? Le _]; subst.
  clear F F1 F2 F3 F4. unfold qpart in P1, P10. cbn [nth] in P1, P10. cbn [map] in H.
  pose proof (levels_of a La E) as A.
  assert (G : forall t r p, List.length t = 41%nat -> List.length r = 41%nat ->
    obsprofile (Some (map (fun k => k * 1000) (map Q2R a))) (Some (map Q2R t)) (Some (map Q2R r)) None = Ok p -> handbook_columns p t r).
  { intros t r p Lt Lr O. destruct (obs_columns _ _ _ _ O) as (O1 & O2 & O3 & O4); [rewrite !map_length; congruence..|].
    constructor; [rewrite O1; exact A|exact O2|exact O3|rewrite O4; apply product_r|exact Lt|exact Lr]. }
  destruct (String.eqb td "temp"); injection P1 as <- <- <-; injection P10 as <- <-;
  (match type of H with rbind ?x _ = _ => destruct x as [q1|] eqn:E1 end; cbn [rbind] in H; [|discriminate H];
   match type of H with rbind ?x _ = _ => destruct x as [q10|] eqn:E10 end; cbn [rbind] in H; [|discriminate H]; injection H as <- <-;
   split; [refine (G _ _ _ _ _ E1); assumption|refine (G _ _ _ _ _ E10); assumption]).
Qed.

(** ** What the checks say of each atmosphere *)
Record facts (hl td alt : string) (f : frequency) (t r : list Q) : Prop := {
  fa_rho : qwithin 0 1.7 r = true; fa_temp : frozenb hl td alt f = false -> qwithin 163 302 t = true; fa_nonneg : forallb (Qle_bool 0) t = true;
  fa_falls : invertedb hl td alt f = false -> qfalls r = true;
  fa_pfalls : invertedb hl td alt f = false -> frozenb hl td alt f = false -> qfalls (qproduct t r) = true }.
Lemma orb_split a b : (a || b)%bool = true -> a = false -> b = true.
Proof. intros H ->. exact H. Qed.
Lemma columns_facts hl td alt : In hl highs_lows -> In td quantities -> In alt altitudes -> exists cols c0,
  qcolumns hl td alt = Ok cols /\ List.length cols = 5%nat /\ Forall (fun c => List.length c = 41%nat) cols /\
  forallb (fun p => Qeq_bool (fst p) (inject_Z (2 * Z.of_nat (snd p)))) (combine (nth 0 cols []) (seq 0 41)) = true /\
  (forall f, exists t r, qpart td f cols = (c0, t, r) /\ facts hl td alt f t r) /\
  let x := fun f => let '(_, t, r) := qpart td f cols in qnamed alt (if String.eqb td "temp" then t else r) in
  (if String.eqb hl "high" && String.eqb td "dens" && String.eqb alt "5" then negb (Qle_bool (x ten) (x one)) else more hl (x one) (x ten))%bool = true.
Proof.
  intros H T A. pose proof (qcheck_in hl td alt H T A) as Q. unfold qcheck in Q. destruct (qcolumns hl td alt) as [cols|]; [|discriminate Q].
  apply andb_true_iff in Q. destruct Q as [Q X]. apply andb_true_iff in Q. destruct Q as [Q Fs]. apply andb_true_iff in Q. destruct Q as [Q E]. apply andb_true_iff in Q. destruct Q as [L F].
  exists cols, (nth 0 cols []). split; [reflexivity|]. split; [apply Nat.eqb_eq; exact L|]. split.
  { apply Forall_forall. intros c I. rewrite forallb_forall in F. apply Nat.eqb_eq. exact (F c I). }
  split; [exact E|]. split; [|exact X]. clear X E F L. intros f.
  assert (K : In f [one; ten]) by (destruct f; cbn; auto). rewrite forallb_forall in Fs. specialize (Fs f K). clear K.
  destruct (qpart td f cols) as [[c t] r] eqn:P. exists t, r. split.
  - f_equal. f_equal. unfold qpart in P. destruct (String.eqb td "temp"); injection P as <- _ _; reflexivity.
  - repeat (apply andb_true_iff in Fs; destruct Fs as [Fs ?]). constructor; [assumption|..|assumption|apply orb_split; assumption|].
    + apply orb_split; assumption.
    + intros I1 I2. match goal with K : (_ || _ || _)%bool = true |- _ => rewrite I1, I2 in K; exact K end.
Qed.
Lemma handbook_facts hl td alt f a : handbook hl td alt f a -> exists p t r cols c0, prof a = Some p /\ handbook_columns p t r /\ facts hl td alt f t r /\
  qcolumns hl td alt = Ok cols /\ qpart td f cols = (c0, t, r).
Proof.
  intros (H & T & A & cwd & (p1, p10) & M & P). destruct (columns_facts hl td alt H T A) as (cols & c0 & Q & L & F & E & Fs & _).
  destruct (Fs one) as (t1 & r1 & P1 & F1). destruct (Fs ten) as (t10 & r10 & P10 & F10).
  destruct (shipped_profile hl td alt cols c0 t1 r1 t10 r10 Q L F E P1 P10 cwd p1 p10 M) as [S1 S10].
  destruct f; cbn [of_frequency fst snd] in P; [exists p1, t1, r1, cols, c0|exists p10, t10, r10, cols, c0]; auto.
Qed.
Lemma sorted_from n : forall s, StronglySorted Rlt (map (fun k => 2000 * INR k) (seq s n)).
Proof.
  induction n as [|n IH]; intros s; cbn [seq map]; constructor; [apply IH|].
  apply Forall_forall. intros x I. apply in_map_iff in I. destruct I as (k & <- & I). apply in_seq in I. assert (INR s < INR k) by (apply lt_INR; lia). lra.
Qed.
Lemma levels_sorted : StronglySorted Rlt levels.
Proof. apply sorted_from. Qed.
Definition rest_levels : list R := map (fun k => 2000 * INR k) (seq 1 40).
Lemma levels_cons : levels = 0 :: rest_levels.
Proof. unfold levels, rest_levels. change (seq 0 41) with (0%nat :: seq 1 40). cbn [map]. f_equal. cbn. ring. Qed.
Lemma levels_top : last rest_levels 0 = 80000.
Proof. unfold rest_levels. change (seq 1 40) with (seq 1 39 ++ [40%nat])%list. rewrite map_app. cbn [map]. rewrite last_last. cbn [INR]. ring. Qed.
Lemma rest_sorted : StronglySorted Rlt (0 :: rest_levels).
Proof. rewrite <- levels_cons. apply levels_sorted. Qed.
Lemma hb_query hl td alt f a : handbook hl td alt f a -> exists p t r, handbook_columns p t r /\ facts hl td alt f t r /\
  (forall h, h < 0 \/ 80000 < h -> airdens_kgpm3 a (VNum (Fin h)) = Err TypeError /\ airtemp_k a (VNum (Fin h)) = Err TypeError /\ airpress_pa a (VNum (Fin h)) = Err TypeError) /\
  forall h, 0 <= h <= 80000 -> airdens_kgpm3 a (VNum (Fin h)) = rmap VNum (column 0 rest_levels (map Q2R r) h) /\
    airtemp_k a (VNum (Fin h)) = rmap VNum (column 0 rest_levels (map Q2R t) h) /\
    airpress_pa a (VNum (Fin h)) = rmap VNum (column 0 rest_levels (p_pa p) h).
Proof.
  intros H. destruct (handbook_facts hl td alt f a H) as (p & t & r & cols & c0 & P & C & F & _). exists p, t, r. split; [exact C|]. split; [exact F|].
  assert (A : alt_m p = 0 :: rest_levels) by (rewrite (hc_alt _ _ _ C); exact levels_cons). split.
  - intros h O. apply (query_outside a p 0 rest_levels P A rest_sorted). rewrite levels_top. exact O.
  - intros h I. rewrite <- (hc_rho _ _ _ C), <- (hc_temp _ _ _ C). apply (query_inside a p 0 rest_levels P A rest_sorted). unfold inside. rewrite levels_top. exact I.
Qed.
Lemma rmap_inv (x : res num) v : rmap VNum x = Ok (VNum (Fin v)) -> x = Ok (Fin v).
Proof. destruct x; cbn; [intros H; injection H as ->; reflexivity|discriminate]. Qed.
Lemma hb_length p t r : handbook_columns p t r -> List.length (map Q2R t) = List.length (0 :: rest_levels) /\ List.length (map Q2R r) = List.length (0 :: rest_levels) /\
  List.length (p_pa p) = List.length (0 :: rest_levels).
Proof.
  intros C. rewrite (hc_p _ _ _ C). unfold qproduct. rewrite !map_length, combine_length, (hc_lt _ _ _ C), (hc_lr _ _ _ C). unfold rest_levels. cbn [List.length]. rewrite map_length, seq_length. auto.
Qed.

(** ** The statements *)
Lemma hb_range hl td alt f a h : handbook hl td alt f a ->
  (0 <= h <= 80000 -> exists rho T p, density a h rho /\ temperature a h T /\ pressure a h p) /\
  (h < 0 \/ 80000 < h -> airdens_kgpm3 a (VNum (Fin h)) = Err TypeError /\ airtemp_k a (VNum (Fin h)) = Err TypeError /\ airpress_pa a (VNum (Fin h)) = Err TypeError).
Proof.
  intros H. destruct (hb_query _ _ _ _ _ H) as (p & t & r & C & _ & O & I). split; [|apply O]. intros B. destruct (I h B) as (E1 & E2 & E3).
  destruct (hb_length _ _ _ C) as (L1 & L2 & L3). assert (B' : inside 0 rest_levels h) by (unfold inside; rewrite levels_top; exact B).
  destruct (column_inside 0 rest_levels rest_sorted (map Q2R r) h L2 B') as (v1 & V1). destruct (column_inside 0 rest_levels rest_sorted (map Q2R t) h L1 B') as (v2 & V2).
  destruct (column_inside 0 rest_levels rest_sorted (p_pa p) h L3 B') as (v3 & V3). exists v1, v2, v3. unfold density, temperature, pressure. rewrite E1, E2, E3, V1, V2, V3. repeat split.
Qed.
Lemma in_range hl td alt f a h (q : atmosphere -> R -> R -> Prop) v : handbook hl td alt f a ->
  q = density \/ q = temperature \/ q = pressure -> q a h v -> 0 <= h <= 80000.
Proof.
  intros H Q V. destruct (Rlt_le_dec h 0) as [L|L]; [|destruct (Rlt_le_dec 80000 h) as [L'|L']; [|lra]]; exfalso;
  destruct (hb_range hl td alt f a h H) as (_ & O); (destruct O as (O1 & O2 & O3); [auto|]);
  destruct Q as [-> | [-> | ->]]; unfold density, temperature, pressure in V; congruence.
Qed.
Lemma hb_density hl td alt f a h rho : handbook hl td alt f a -> density a h rho -> 0 < rho < 1.7.
Proof.
  intros H V. pose proof (in_range hl td alt f a h density _ H (or_introl eq_refl) V) as B. destruct (hb_query _ _ _ _ _ H) as (p & t & r & C & F & _ & I).
  destruct (I h B) as (E & _). unfold density in V. rewrite E in V. apply rmap_inv in V. pose proof (qwithin_r _ _ _ (fa_rho _ _ _ _ _ _ F)) as W.
  pose proof (column_within 0 rest_levels rest_sorted _ h rho _ _ W V) as K. lra.
Qed.
Lemma frozenb_spec hl td alt f : ~ frozen hl td alt f -> frozenb hl td alt f = false.
Proof.
  intros N. destruct f; [reflexivity|]. cbn. destruct (String.eqb_spec hl "high"), (String.eqb_spec td "dens"), (String.eqb_spec alt "10"); try reflexivity. destruct N. repeat split; assumption.
Qed.
Lemma invertedb_spec hl td alt f : In hl highs_lows -> ~ inverted hl td alt f -> invertedb hl td alt f = false.
Proof.
  intros H N. destruct f; cbn.
  - destruct (String.eqb_spec td "dens") as [->|], (String.eqb_spec alt "5") as [->|]; try reflexivity. destruct N. destruct H as [<-|[<-|[]]]; eexists; cbn; eauto 10.
  - destruct (String.eqb_spec hl "high") as [->|], (String.eqb_spec td "temp") as [->|], (String.eqb_spec alt "20") as [->|]; try reflexivity. destruct N. eexists; cbn; eauto 10.
Qed.
Lemma hb_temperature hl td alt f a h T : handbook hl td alt f a -> ~ frozen hl td alt f -> temperature a h T -> 163 < T < 302.
Proof.
  intros H N V. pose proof (in_range hl td alt f a h temperature _ H (or_intror (or_introl eq_refl)) V) as B. destruct (hb_query _ _ _ _ _ H) as (p & t & r & C & F & _ & I).
  destruct (I h B) as (_ & E & _). unfold temperature in V. rewrite E in V. apply rmap_inv in V. pose proof (qwithin_r _ _ _ (fa_temp _ _ _ _ _ _ F (frozenb_spec _ _ _ _ N))) as W.
  pose proof (column_within 0 rest_levels rest_sorted _ h T _ _ W V) as K. lra.
Qed.
Lemma hb_density_falls hl td alt f a h h' x x' : handbook hl td alt f a -> ~ inverted hl td alt f -> h < h' -> density a h x -> density a h' x' -> x' < x.
Proof.
  intros H N L V V'. pose proof (in_range hl td alt f a h density _ H (or_introl eq_refl) V) as B. pose proof (in_range hl td alt f a h' density _ H (or_introl eq_refl) V') as B'.
  destruct (hb_query _ _ _ _ _ H) as (p & t & r & C & F & _ & I). destruct (I h B) as (E & _). destruct (I h' B') as (E' & _).
  unfold density in V, V'. rewrite E in V. rewrite E' in V'. apply rmap_inv in V. apply rmap_inv in V'.
  refine (column_falls 0 rest_levels rest_sorted _ h h' x x' _ L V V'). apply qfalls_r. apply (fa_falls _ _ _ _ _ _ F). apply invertedb_spec; [apply H|exact N].
Qed.
Lemma hb_pressure_falls hl td alt f a h h' x x' : handbook hl td alt f a -> ~ inverted hl td alt f -> ~ frozen hl td alt f -> h < h' -> pressure a h x -> pressure a h' x' -> x' < x.
Proof.
  intros H N Nf L V V'. pose proof (in_range hl td alt f a h pressure _ H (or_intror (or_intror eq_refl)) V) as B. pose proof (in_range hl td alt f a h' pressure _ H (or_intror (or_intror eq_refl)) V') as B'.
  destruct (hb_query _ _ _ _ _ H) as (p & t & r & C & F & _ & I). destruct (I h B) as (_ & _ & E). destruct (I h' B') as (_ & _ & E').
  unfold pressure in V, V'. rewrite E in V. rewrite E' in V'. apply rmap_inv in V. apply rmap_inv in V'.
  refine (column_falls 0 rest_levels rest_sorted _ h h' x x' _ L V V'). rewrite (hc_p _ _ _ C). apply scaled_falls, qfalls_r. apply (fa_pfalls _ _ _ _ _ _ F); [apply invertedb_spec; [apply H|exact N]|apply frozenb_spec; exact Nf].
Qed.
