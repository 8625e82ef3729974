(** The atmospheres of the handbook files: loading, exceptions, extremes. *)
From Coq Require Import QArith Qreals Sorted.
From Verif Require Import Base BaseFacts AtmosModel AtmosSpec AtmosProofs AtmosProofs3 ConceptModel RunwayModel RunwaySpec RunwayProofs2
  ShippedModel ShippedSpec ShippedCsv HandbookText HandbookModel HandbookSpec HandbookProofs HandbookFacts.
Open Scope R_scope.

(** ** Loading *)
Lemma qnonneg_r t : forallb (Qle_bool 0) t = true -> Forall (fun x => 0 <= x) (map Q2R t).
Proof.
  intros H. rewrite forallb_forall in H. apply Forall_forall. intros x I. apply in_map_iff in I. destruct I as (q & <- & I). apply H in I. apply qle_r in I. unfold Q2R in I at 1. cbn in I. lra.
Qed.
Lemma hb_loads hl td alt cwd : In hl highs_lows -> In td quantities -> In alt altitudes ->
  exists p1 p10, mil_hdbk_310 handbook_dir cwd hl td alt = Ok (Some (p1, p10)) /\
    alt_m p1 = map (fun k => 2000 * INR k) (seq 0 41) /\ alt_m p10 = map (fun k => 2000 * INR k) (seq 0 41).
Proof.
  intros H T A. destruct (columns_facts hl td alt H T A) as (cols & c0 & Q & L & F & E & Fs & _).
  destruct (Fs one) as (t1 & r1 & P1 & F1). destruct (Fs ten) as (t10 & r10 & P10 & F10).
  assert (K : exists p1 p10, mil_hdbk_310 handbook_dir cwd hl td alt = Ok (Some (p1, p10))).
  { unfold mil_hdbk_310. rewrite (file_columns _ _ _ _ Q). destruct (five_columns cols L) as (a & b & c & d & e & ->). clear L Q E.
    inversion F as [|? ? La F2]; subst. inversion F2 as [|? ? Lb F3]; subst. inversion F3 as [|? ? Lc F4]; subst. inversion F4 as [|? ? Ld F5]; subst. inversion F5 as [|? ? Le _]; subst.
    clear F F2 F3 F4 F5. unfold qpart in P1, P10. cbn [nth] in P1, P10. cbn [map].
    pose proof (qnonneg_r _ (fa_nonneg _ _ _ _ _ _ F1)) as N1. pose proof (qnonneg_r _ (fa_nonneg _ _ _ _ _ _ F10)) as N10.
    assert (G : forall t r, List.length t = 41%nat -> List.length r = 41%nat -> Forall (fun x => 0 <= x) (map Q2R t) ->
      exists p, obsprofile (Some (map (fun k => k * 1000) (map Q2R a))) (Some (map Q2R t)) (Some (map Q2R r)) None = Ok p).
    { intros t r Lt Lr N. destruct (obs_total (map (fun k => k * 1000) (map Q2R a)) (map Q2R t) (map Q2R r)) as (p & O & _); [|rewrite !map_length; congruence..|exact N|exists p; exact O].
      destruct a; discriminate. }
    destruct (String.eqb td "temp"); injection P1 as <- <- <-; injection P10 as <- <-.
    - destruct (G b c Lb Lc N1) as (p1 & O1). destruct (G d e Ld Le N10) as (p10 & O10). rewrite O1. cbn [rbind]. rewrite O10. cbn [rbind]. eauto.
    - destruct (G c b Lc Lb N1) as (p1 & O1). destruct (G e d Le Ld N10) as (p10 & O10). rewrite O1. cbn [rbind]. rewrite O10. cbn [rbind]. eauto. }
  destruct K as (p1 & p10 & M). exists p1, p10. split; [exact M|].
  destruct (shipped_profile hl td alt cols c0 t1 r1 t10 r10 Q L F E P1 P10 cwd p1 p10 M) as [S1 S10]. split; [exact (hc_alt _ _ _ S1)|exact (hc_alt _ _ _ S10)].
Qed.
Lemma dget_key {V} k (d : dict V) v : dget k d = Some v -> In k (map fst d).
Proof. induction d as [|(k', v') d IH]; [discriminate|]. cbn [dget map fst]. destruct (String.eqb_spec k k') as [->|]; [left; reflexivity|right; apply IH; assumption]. Qed.
Definition names : list (string * string * string) := flat_map (fun hl => flat_map (fun td => map (fun alt => (hl, td, alt)) altitudes) quantities) highs_lows.
Lemma keys_names : forallb (fun k => existsb (fun n => String.eqb k (m310name (fst (fst n)) (snd (fst n)) (snd n))) names) (map fst handbook_lines) = true.
Proof. vm_compute. reflexivity. Qed.
Lemma names_in hl td alt : In (hl, td, alt) names -> In hl highs_lows /\ In td quantities /\ In alt altitudes.
Proof.
  intros I. unfold names in I. apply in_flat_map in I. destruct I as (h & Ih & I). apply in_flat_map in I. destruct I as (t & It & I). apply in_map_iff in I. destruct I as (a & E & Ia).
  injection E as -> -> ->. auto.
Qed.
Lemma hb_others hl td alt : In hl highs_lows -> In td quantities -> handbook_dir (m310file hl td alt) = None <-> ~ In alt altitudes.
Proof.
  intros H T. change (m310file hl td alt) with (m310name hl td alt). split.
  - intros E A. destruct (columns_facts hl td alt H T A) as (cols & c0 & Q & _). rewrite (file_columns _ _ _ _ Q) in E. discriminate E.
  - intros N. unfold handbook_dir. destruct (dget (m310name hl td alt) handbook_lines) as [l|] eqn:E; [|reflexivity]. exfalso. apply N.
    apply dget_key in E. pose proof keys_names as K. rewrite forallb_forall in K. specialize (K _ E). apply existsb_exists in K. destruct K as (((hl', td'), alt') & I & M).
    apply String.eqb_eq in M. cbn [fst snd] in M. apply names_in in I. destruct I as (H' & T' & A'). apply m310name_inj in M; try assumption. destruct M as (_ & _ & ->). exact A'.
Qed.
Lemma hb_decimal_altitude hl td cwd : In hl highs_lows -> In td quantities -> cwd (m310file hl td "5.0") = None -> mil_hdbk_310 handbook_dir cwd hl td "5.0" = Ok None.
Proof.
  intros H T C. apply m310_missing; [|exact C]. apply (hb_others hl td "5.0" H T). cbn. intuition discriminate.
Qed.

(** ** Values at the levels of the files *)
Lemma knot_in y k : List.length y = 41%nat -> (k < 41)%nat -> In (2000 * INR k, nth k y 0) (combine (0 :: rest_levels) y).
Proof.
  intros L K. rewrite <- levels_cons. assert (E : nth k (combine levels y) (2000 * INR 0, 0) = (2000 * INR k, nth k y 0)).
  { rewrite List.combine_nth by (unfold levels; rewrite map_length, seq_length; symmetry; exact L). f_equal. unfold levels. rewrite (map_nth (fun k => 2000 * INR k)). rewrite seq_nth by exact K. reflexivity. }
  rewrite <- E. apply nth_In. rewrite combine_length. unfold levels. rewrite map_length, seq_length, L. exact K.
Qed.
Lemma nth_q2r l k : nth k (map Q2R l) 0 = Q2R (nth k l 0%Q).
Proof. replace 0 with (Q2R 0%Q) at 1 by (unfold Q2R; cbn; lra). apply map_nth. Qed.
Lemma level_in k : (k < 41)%nat -> 0 <= 2000 * INR k <= 80000.
Proof. intros K. assert (INR k <= 40) by (replace 40 with (INR 40) by (cbn; lra); apply le_INR; lia). pose proof (pos_INR k). lra. Qed.
Lemma product_nth t r k : List.length t = List.length r -> nth k (map (Rmult 287.05287) (map Q2R (qproduct t r))) 0 = 287.05287 * (Q2R (nth k r 0%Q) * Q2R (nth k t 0%Q)).
Proof.
  intros L. replace 0 with (287.05287 * 0) at 1 by ring. rewrite (map_nth (Rmult 287.05287)). rewrite nth_q2r. f_equal. unfold qproduct. change 0%Q with ((fun p : Q * Q => fst p * snd p)%Q (0%Q, 0%Q)) at 1.
  rewrite map_nth, List.combine_nth by (symmetry; exact L). cbn [fst snd]. apply Q2R_mult.
Qed.
Lemma at_level hl td alt f a : handbook hl td alt f a -> exists t r cols c0, qcolumns hl td alt = Ok cols /\ qpart td f cols = (c0, t, r) /\
  List.length t = 41%nat /\ List.length r = 41%nat /\
  (forall h, 0 <= h <= 80000 -> airdens_kgpm3 a (VNum (Fin h)) = rmap VNum (column 0 rest_levels (map Q2R r) h) /\ airtemp_k a (VNum (Fin h)) = rmap VNum (column 0 rest_levels (map Q2R t) h)) /\
  forall k, (k < 41)%nat ->
  density a (2000 * INR k) (Q2R (nth k r 0%Q)) /\ temperature a (2000 * INR k) (Q2R (nth k t 0%Q)) /\ pressure a (2000 * INR k) (287.05287 * (Q2R (nth k r 0%Q) * Q2R (nth k t 0%Q))).
Proof.
  intros H. destruct (handbook_facts hl td alt f a H) as (p & t & r & cols & c0 & P & C & F & Q & W). exists t, r, cols, c0. split; [exact Q|]. split; [exact W|].
  split; [exact (hc_lt _ _ _ C)|]. split; [exact (hc_lr _ _ _ C)|]. assert (A : alt_m p = 0 :: rest_levels) by (rewrite (hc_alt _ _ _ C); exact levels_cons).
  assert (I : forall h, 0 <= h <= 80000 -> inside 0 rest_levels h) by (intros h B; unfold inside; rewrite levels_top; exact B). split.
  { intros h B. destruct (query_inside a p 0 rest_levels P A rest_sorted h (I h B)) as (E1 & E2 & _). rewrite (hc_rho _ _ _ C) in E1. rewrite (hc_temp _ _ _ C) in E2. auto. }
  intros k K. destruct (query_inside a p 0 rest_levels P A rest_sorted _ (I _ (level_in k K))) as (E1 & E2 & E3). unfold density, temperature, pressure. rewrite E1, E2, E3.
  rewrite (hc_rho _ _ _ C), (hc_temp _ _ _ C), (hc_p _ _ _ C).
  assert (G : forall y, List.length y = 41%nat -> rmap VNum (column 0 rest_levels y (2000 * INR k)) = Ok (VNum (Fin (nth k y 0)))).
  { intros y L. rewrite (column_knot 0 rest_levels rest_sorted y _ _ (knot_in y k L K)). reflexivity. }
  rewrite !G by (unfold qproduct; rewrite !map_length, ?combine_length, ?(hc_lt _ _ _ C), ?(hc_lr _ _ _ C); reflexivity).
  rewrite !nth_q2r, product_nth by (rewrite (hc_lt _ _ _ C), (hc_lr _ _ _ C); reflexivity). repeat split.
Qed.

(** ** Density and pressure that rise *)
Definition qrises (hl td alt : string) (f : frequency) (k : nat) : bool :=
  match qcolumns hl td alt with
  | Ok cols => let '(_, t, r) := qpart td f cols in
      (negb (Qle_bool (nth (S k) r 0) (nth k r 0)) && negb (Qle_bool (nth (S k) r 0 * nth (S k) t 0) (nth k r 0 * nth k t 0)))%Q%bool
  | Err _ => false
  end.
Lemma rise hl td alt f a k h h' : handbook hl td alt f a -> (S k < 41)%nat -> qrises hl td alt f k = true -> h = 2000 * INR k -> h' = 2000 * INR (S k) ->
  exists x x' p p', density a h x /\ density a h' x' /\ x < x' /\ pressure a h p /\ pressure a h' p' /\ p < p'.
Proof.
  intros H K R -> ->. destruct (at_level hl td alt f a H) as (t & r & cols & c0 & Q & W & _ & _ & _ & V). unfold qrises in R. rewrite Q, W in R. apply andb_true_iff in R. destruct R as [R1 R2].
  apply qgt_r in R1. apply qgt_r in R2. rewrite !Q2R_mult in R2. destruct (V k ltac:(lia)) as (D1 & _ & P1). destruct (V (S k) K) as (D2 & _ & P2).
  do 4 eexists. split; [exact D1|]. split; [exact D2|]. split; [exact R1|]. split; [exact P1|]. split; [exact P2|]. lra.
Qed.
Lemma hb_rises hl td alt f a h h' : In (hl, td, alt, f, (h, h')) inversions -> handbook hl td alt f a ->
  exists x x' p p', density a h x /\ density a h' x' /\ x < x' /\ pressure a h p /\ pressure a h' p' /\ p < p'.
Proof.
  intros I H. destruct I as [I|[I|[I|[I|[I|[]]]]]]; injection I as <- <- <- <- <- <-.
  - apply (rise _ _ _ _ a 19 _ _ H); [lia|vm_compute; reflexivity|cbn [INR]; lra..].
  - apply (rise _ _ _ _ a 28 _ _ H); [lia|vm_compute; reflexivity|cbn [INR]; lra..].
  - apply (rise _ _ _ _ a 38 _ _ H); [lia|vm_compute; reflexivity|cbn [INR]; lra..].
  - apply (rise _ _ _ _ a 10 _ _ H); [lia|vm_compute; reflexivity|cbn [INR]; lra..].
  - apply (rise _ _ _ _ a 15 _ _ H); [lia|vm_compute; reflexivity|cbn [INR]; lra..].
Qed.

(** ** A temperature of nearly zero: 263e-650 *)
Definition qzero : bool :=
  match qcolumns "high" "dens" "10" with
  | Ok cols => let '(_, t, r) := qpart "dens" ten cols in
      (negb (Qle_bool (nth 25 t 0) 0) && negb (Qle_bool 0.000000001 (nth 25 t 0)) && negb (Qle_bool 0.000000001 (nth 25 r 0 * nth 25 t 0 * 287.05287)) && negb (Qle_bool (nth 26 r 0 * nth 26 t 0 * 287.05287) 50))%Q%bool
  | Err _ => false
  end.
Lemma qzero_true : qzero = true.
Proof. vm_compute. reflexivity. Qed.
Lemma hb_frozen a : handbook "high" "dens" "10" ten a -> exists T p p', temperature a 50000 T /\ 0 < T < 0.000000001 /\
  pressure a 50000 p /\ p < 0.000000001 /\ pressure a 52000 p' /\ 50 < p'.
Proof.
  intros H. destruct (at_level _ _ _ _ a H) as (t & r & cols & c0 & Q & W & _ & _ & _ & V). pose proof qzero_true as Z. unfold qzero in Z. rewrite Q, W in Z.
  apply andb_true_iff in Z. destruct Z as [Z Z4]. apply andb_true_iff in Z. destruct Z as [Z Z3]. apply andb_true_iff in Z. destruct Z as [Z1 Z2].
  apply qgt_r in Z1. apply qgt_r in Z2. apply qgt_r in Z3. apply qgt_r in Z4. rewrite !Q2R_mult in Z3, Z4.
  assert (Z0 : Q2R 0 = 0) by (unfold Q2R; cbn; lra). rewrite Z0 in Z1.
  assert (Z50 : Q2R 50 = 50) by (unfold Q2R; cbn; lra). rewrite Z50 in Z4.
  destruct (V 25%nat ltac:(lia)) as (_ & T1 & P1). destruct (V 26%nat ltac:(lia)) as (_ & _ & P2).
  replace (2000 * INR 25) with 50000 in * by (cbn [INR]; lra). replace (2000 * INR 26) with 52000 in * by (cbn [INR]; lra).
  do 3 eexists. split; [exact T1|]. split; [lra|]. split; [exact P1|]. split; [lra|]. split; [exact P2|]. lra.
Qed.

(** ** Extremes *)
Lemma column_mid y : (4 <= List.length y)%nat -> column 0 rest_levels y 5000 = Ok (Fin ((nth 2 y 0 + nth 3 y 0) / 2)).
Proof.
  intros L. destruct y as [|y0 [|y1 [|y2 [|y3 y]]]]; try (cbn in L; lia). unfold column, rest_levels.
  change (seq 1 40) with ([1; 2; 3] ++ seq 4 37)%nat%list. cbn [app map combine interp_sorted nth].
  rewrite !(Rltb_false 5000) by (cbn [INR]; lra). rewrite (Rleb_false 5000 (2000 * INR 1)), (Rleb_false 5000 (2000 * INR 2)), (Rleb_true 5000 (2000 * INR 3)) by (cbn [INR]; lra).
  rewrite interp_seg by (cbn [INR]; lra). do 2 f_equal. cbn [INR]. field.
Qed.
Lemma named_value alt h : In alt altitudes -> named_altitude alt h -> h = 5000 /\ alt = "5"%string \/ h = 10000 /\ alt = "10"%string \/ h = 20000 /\ alt = "20"%string.
Proof.
  intros I (r & N & ->). apply number_decimal in N. destruct N as (q & D & <-).
  destruct I as [<-|[<-|[<-|[]]]]; vm_compute in D; injection D as <-; [left|right; left|right; right]; split; try reflexivity; unfold Q2R; cbn; lra.
Qed.
Lemma named_query hl td alt f a h x : handbook hl td alt f a -> named_altitude alt h -> quantity td a h x -> exists cols, qcolumns hl td alt = Ok cols /\
  x = Q2R (let '(_, t, r) := qpart td f cols in qnamed alt (if String.eqb td "temp" then t else r)).
Proof.
  intros H N V. destruct (at_level hl td alt f a H) as (t & r & cols & c0 & Q & W & Lt & Lr & M & K). exists cols. split; [exact Q|]. rewrite W. unfold quantity in V.
  assert (S : forall y z (q : atmosphere -> R -> val) (Lz : List.length z = 41%nat), y = column 0 rest_levels (map Q2R z) h -> y = Ok (Fin x) ->
    h = 5000 /\ alt = "5"%string \/ h = 10000 /\ alt = "10"%string \/ h = 20000 /\ alt = "20"%string -> x = Q2R (qnamed alt z)).
  { intros y z _ Lz -> E [(-> & ->)|[(-> & ->)|(-> & ->)]].
    - rewrite column_mid in E by (rewrite map_length; lia). injection E as <-. cbn. rewrite !nth_q2r. unfold Qdiv. rewrite Q2R_mult, Q2R_plus. unfold Rdiv. f_equal. unfold Q2R. cbn. lra.
    - replace 10000 with (2000 * INR 5) in E by (cbn [INR]; lra). rewrite (column_knot 0 rest_levels rest_sorted (map Q2R z) _ _ (knot_in (map Q2R z) 5 ltac:(rewrite map_length; exact Lz) ltac:(lia))) in E.
      injection E as <-. rewrite nth_q2r. reflexivity.
    - replace 20000 with (2000 * INR 10) in E by (cbn [INR]; lra). rewrite (column_knot 0 rest_levels rest_sorted (map Q2R z) _ _ (knot_in (map Q2R z) 10 ltac:(rewrite map_length; exact Lz) ltac:(lia))) in E.
      injection E as <-. rewrite nth_q2r. reflexivity. }
  pose proof (named_value alt h (proj1 (proj2 (proj2 H))) N) as C.
  assert (B : 0 <= h <= 80000) by (destruct C as [(-> & _)|[(-> & _)|(-> & _)]]; lra). destruct (M h B) as (E1 & E2).
  destruct (String.eqb td "temp").
  - unfold temperature in V. rewrite E2 in V. apply rmap_inv in V. exact (S _ t (fun _ _ => VList []) Lt eq_refl V C).
  - unfold density in V. rewrite E1 in V. apply rmap_inv in V. exact (S _ r (fun _ _ => VList []) Lr eq_refl V C).
Qed.
Lemma hb_extreme hl td alt a b h x y : handbook hl td alt one a -> handbook hl td alt ten b -> named_altitude alt h -> quantity td a h x -> quantity td b h y ->
  (hl, td, alt) <> ("high", "dens", "5")%string -> (hl = "high"%string -> y < x) /\ (hl = "low"%string -> x < y).
Proof.
  intros Ha Hb N Va Vb Ne. destruct Ha as (I1 & I2 & I3 & Ha'). assert (Ha : handbook hl td alt one a) by (repeat split; assumption).
  destruct (columns_facts hl td alt I1 I2 I3) as (cols & c0 & Q & _ & _ & _ & _ & X). cbv zeta in X.
  destruct (named_query _ _ _ _ _ _ _ Ha N Va) as (cols1 & Q1 & ->). destruct (named_query _ _ _ _ _ _ _ Hb N Vb) as (cols2 & Q2 & ->).
  rewrite Q in Q1, Q2. injection Q1 as <-. injection Q2 as <-.
  assert (E : (String.eqb hl "high" && String.eqb td "dens" && String.eqb alt "5")%bool = false).
  { destruct (String.eqb_spec hl "high") as [->|], (String.eqb_spec td "dens") as [->|], (String.eqb_spec alt "5") as [->|]; try reflexivity. now destruct Ne. }
  rewrite E in X. unfold more in X. split; intros ->; cbn [String.eqb] in X; apply qgt_r in X; exact X.
Qed.
Lemma hb_extreme_not a b x y : handbook "high" "dens" "5" one a -> handbook "high" "dens" "5" ten b -> density a 5000 x -> density b 5000 y -> x < y.
Proof.
  intros Ha Hb Va Vb. destruct (columns_facts "high" "dens" "5" (proj1 Ha) (proj1 (proj2 Ha)) (proj1 (proj2 (proj2 Ha)))) as (cols & c0 & Q & _ & _ & _ & _ & X).
  assert (N : named_altitude "5" 5000).
  { exists 5. split; [|lra]. replace 5 with (Q2R 5) by (unfold Q2R; cbn; lra). apply decimal_number. reflexivity. }
  destruct (named_query _ _ _ _ _ _ _ Ha N Va) as (cols1 & Q1 & ->). destruct (named_query _ _ _ _ _ _ _ Hb N Vb) as (cols2 & Q2 & ->).
  rewrite Q in Q1, Q2. injection Q1 as <-. injection Q2 as <-. cbv zeta in X. cbn [String.eqb andb] in X. apply qgt_r in X. exact X.
Qed.

(** ** A case *)
Lemma hb_exists hl td alt f : In hl highs_lows -> In td quantities -> In alt altitudes -> exists a, handbook hl td alt f a.
Proof.
  intros H T A. destruct (hb_loads hl td alt (fun _ => None) H T A) as (p1 & p10 & M & _). exists {| offset_deg := Fin 0; prof := Some (of_frequency f (p1, p10)) |}.
  repeat split; try assumption. exists (fun _ => None), (p1, p10). auto.
Qed.
Lemma hb_case : exists a x, handbook "high" "dens" "10" one a /\ density a 10000 x /\ x = 0.4342 /\ named_altitude "10" 10000.
Proof.
  destruct (hb_exists "high" "dens" "10" one) as (a & H); [cbn; auto..|]. exists a. destruct (at_level _ _ _ _ a H) as (t & r & cols & c0 & Q & W & _ & _ & _ & V).
  destruct (V 5%nat ltac:(lia)) as (D & _). replace (2000 * INR 5) with 10000 in D by (cbn [INR]; lra). eexists. split; [exact H|]. split; [exact D|]. split.
  - assert (E : (let '(_, _, r) := qpart "dens" one cols in Qeq_bool (nth 5 r 0%Q) 0.4342) = true).
    { assert (C : match qcolumns "high" "dens" "10" with Ok cols => let '(_, _, r) := qpart "dens" one cols in Qeq_bool (nth 5 r 0%Q) 0.4342 | Err _ => false end = true) by (vm_compute; reflexivity).
      rewrite Q in C. exact C. }
    rewrite W in E. apply Qeq_bool_iff, Qeq_eqR in E. exact E.
  - exists 10. split; [|lra]. replace 10 with (Q2R 10) by (unfold Q2R; cbn; lra). apply decimal_number. reflexivity.
Qed.
