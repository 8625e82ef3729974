(** Proofs about the shipped runway database: lookups. *)
From Coq Require Import Ascii QArith Qreals.
From Verif Require Import Base BaseFacts AtmosModel ConceptModel PropulsionModel RunwayModel RunwaySpec RunwayProofs ShippedModel RunwayText RunwayDbSpec RunwayDbFacts RunwayDbProofs.
Open Scope R_scope.

Lemma rows_of_app a b code : rows_of (a ++ b) code = (rows_of a code ++ rows_of b code)%list.
Proof.
  induction a as [|r a IH]; [reflexivity|]. cbn [rows_of app]. destruct (nth_error r 2) as [f|]; [|exact IH]. destruct (String.eqb f code); [cbn; f_equal; exact IH|exact IH].
Qed.
Lemma rows_of_none l code : Forall (fun r => (3 <= List.length r)%nat /\ ~ of_airport code r) l -> rows_of l code = [].
Proof.
  induction 1 as [|r l (_ & N) F IH]; [reflexivity|]. cbn [rows_of]. unfold of_airport in N. destruct (nth_error r 2) as [f|]; [|exact IH].
  destruct (String.eqb_spec f code); [congruence|exact IH].
Qed.
Lemma rows_of_all l code : Forall (of_airport code) l -> rows_of l code = l.
Proof. induction 1 as [|r l A F IH]; [reflexivity|]. cbn [rows_of]. unfold of_airport in A. rewrite A, String.eqb_refl. f_equal. exact IH. Qed.
Lemma rows_of_consecutive db code pre mid post : consecutive db code pre mid post -> rows_of db code = mid.
Proof.
  intros (-> & M & F). apply Forall_app in F as (F & G). rewrite !rows_of_app, (rows_of_none pre), (rows_of_none post), (rows_of_all mid), app_nil_r by assumption. reflexivity.
Qed.

Lemma db_lookup db code n row : shipped_database db -> airport db code -> nth_error (rows_of db code) n = Some row ->
  runway_lookup parse_float db code (Z.of_nat n) = rmap (fun rw => (Z.of_nat (List.length (rows_of db code)), rw)) (runway_of_row parse_float row).
Proof.
  intros D A E. apply (airport_group db code D) in A as (ss & I & _). apply in_split in I as (X & Y & S). destruct (group _ _ _ _ _ D S) as (ra & mid & rb & C & _).
  pose proof (rows_of_consecutive _ _ _ _ _ C) as R. rewrite R in *.
  destruct (lookup_consecutive parse_float _ _ _ _ _ n C) as (row' & E' & L); [apply nth_error_Some; congruence|]. rewrite E in E'. injection E' as <-. exact L.
Qed.

(** every lookup with a natural number comes from one of the texts *)
Lemma db_long db : shipped_database db -> Forall (fun r => (3 <= List.length r)%nat) db.
Proof.
  intros (rows & -> & F). constructor; [cbn; lia|]. induction F as [|r d rows ds (L & _) F IH]; constructor; [lia|exact IH].
Qed.
Lemma rows_of_group db code ss : shipped_database db -> In (code, ss) shipped_airports -> List.length (rows_of db code) = List.length ss.
Proof.
  intros D I. apply in_split in I as (X & Y & S). destruct (group _ _ _ _ _ D S) as (ra & mid & rb & C & _ & M). rewrite (rows_of_consecutive _ _ _ _ _ C).
  pose proof (forall2_length _ _ _ M) as L. rewrite map_length in L. exact L.
Qed.
Lemma header_refused db n rw : shipped_database db -> (0 <= n)%Z -> ~ gives db "airport_ident" n rw.
Proof.
  intros (rows & -> & F) N (k & E).
  assert (consecutive ((header ++ [""%string])%list :: rows) "airport_ident" [] [(header ++ [""%string])%list] rows) as C.
  { split; [reflexivity|]. split; [constructor; [reflexivity|constructor]|]. cbn [app]. apply (rows_not shipped_airports _ _ F).
    intros I. exact (not_header _ I eq_refl). }
  destruct (Z.eq_dec n 0) as [-> |Z].
  - destruct (lookup_consecutive parse_float _ _ _ _ _ 0%nat C) as (row & ER & EL); [cbn; lia|]. injection ER as <-. change (Z.of_nat 0) with 0%Z in EL. rewrite EL in E.
    replace (runway_of_row parse_float (header ++ [""%string])%list) with (@Err runway ValueError) in E by reflexivity. discriminate.
  - rewrite lookup_too_large in E; [discriminate|apply db_long; exists rows; auto|]. rewrite (rows_of_consecutive _ _ _ _ _ C). cbn [List.length]. lia.
Qed.
Lemma gives_text db code n rw : shipped_database db -> (0 <= n)%Z -> gives db code n rw ->
  exists ss s v, In (code, ss) shipped_airports /\ nth_error ss (Z.to_nat n) = Some s /\ six s = Some v /\ reads rw code v.
Proof.
  intros D N G. destruct (String.eqb_spec code "airport_ident") as [-> |NH]; [exfalso; exact (header_refused _ _ _ D N G)|].
  destruct (in_dec string_dec code (map fst shipped_airports)) as [I|I].
  - apply in_map_iff in I as ((c & ss) & <- & I). cbn [fst] in *. destruct G as (k & E).
    destruct (nth_error ss (Z.to_nat n)) as [s|] eqn:ES.
    + pose proof (look _ _ _ _ _ D I ES) as L. rewrite Z2Nat.id in L by assumption. destruct (six s) as [v|] eqn:E6; [|congruence].
      destruct L as (rw' & L & R). rewrite E in L. injection L as _ <-. exists ss, s, v. auto.
    + exfalso. apply nth_error_None in ES. rewrite lookup_too_large in E; [discriminate|apply db_long; assumption|].
      rewrite (rows_of_group _ _ _ D I). lia.
  - exfalso. destruct G as (k & E). refine (lookup_unknown parse_float db code n _ _ E). destruct D as (rows & -> & F).
    intros r [<- |J]; [unfold of_airport; cbn; congruence|]. pose proof (rows_not shipped_airports _ _ F I) as W. rewrite Forall_forall in W. exact (proj2 (W _ J)).
Qed.
Lemma db_ident db code n rw : shipped_database db -> (0 <= n)%Z -> gives db code n rw -> airport_ident rw = code.
Proof. intros D N G. destruct (gives_text _ _ _ _ D N G) as (ss & s & v & _ & _ & _ & R & _). exact R. Qed.

(** ** Plausibility *)
Lemma survey_means l a b c d : survey l 0 0 0 0 true = (a, b, c, d, true) ->
  N.of_nat (List.length (texts l)) = a /\ N.of_nat (List.length (filter (fun d => ok6 (snd d)) (texts l))) = b /\
  N.of_nat (List.length l) = c /\ N.of_nat (List.length (filter empty_group l)) = d /\ forallb fine_group l = true.
Proof. rewrite survey_spec, !N.add_0_l. cbn [andb]. intros E. injection E as <- <- <- <- E. repeat split. exact E. Qed.
Lemma all_fine : forallb fine_group shipped_airports = true.
Proof. exact (proj2 (proj2 (proj2 (proj2 (survey_means _ _ _ _ _ surveyed))))). Qed.
Lemma gives_plausible db code n rw : shipped_database db -> (0 <= n)%Z -> gives db code n rw ->
  exists v, reads rw code v /\ plausible code v = true.
Proof.
  intros D N G. destruct (gives_text _ _ _ _ D N G) as (ss & s & v & I & E & E6 & R). exists v. split; [exact R|].
  pose proof all_fine as A. rewrite forallb_forall in A. specialize (A _ I). unfold fine_group in A. cbn [fst snd] in A. rewrite forallb_forall in A.
  specialize (A _ (nth_error_In _ _ E)). rewrite E6 in A. exact A.
Qed.
Lemma Qle_R a b : Qle_bool a b = true -> Q2R a <= Q2R b.
Proof. intros H. apply Qle_Rle. apply Qle_bool_iff. exact H. Qed.
Lemma Qlt_R a b : Qle_bool a b = false -> Q2R b < Q2R a.
Proof. intros H. apply Qlt_Rlt. apply Qnot_le_lt. intros L. apply Qle_bool_iff in L. congruence. Qed.
Lemma Q2R_qabs q : Q2R (qabs q) = Rabs (Q2R q).
Proof.
  unfold Q2R, qabs. cbn [Qnum Qden]. rewrite Rabs_mult, abs_IZR. f_equal. symmetry. apply Rabs_pos_eq. left. apply Rinv_0_lt_compat. apply IZR_lt. reflexivity.
Qed.
Lemma Q2R_off a b : Q2R (qabs (qabs (a - b) - 180)) = Rabs (Rabs (Q2R a - Q2R b) - 180).
Proof. rewrite Q2R_qabs, Q2R_minus, Q2R_qabs, Q2R_minus. do 2 f_equal. unfold Q2R. cbn. lra. Qed.
Lemma listed_in c l : listed c l = true -> In c l.
Proof. intros H. apply existsb_exists in H as (x & I & E). apply String.eqb_eq in E. subst. exact I. Qed.
Lemma db_numbers db code n rw : shipped_database db -> (0 <= n)%Z -> gives db code n rw ->
  exists l w e1 h1 e2 h2, length_ft rw = Fin l /\ width_ft rw = Fin w /\ le_elevation_ft rw = Fin e1 /\ le_heading_degt rw = Fin h1 /\
    he_elevation_ft rw = Fin e2 /\ he_heading_degt rw = Fin h2 /\
    23 <= l <= 16404 /\ 20 <= w <= 5000 /\ -1246 <= e1 <= 13202 /\ -1266 <= e2 <= 13314 /\ 0 <= h1 <= 360 /\ 0 <= h2 <= 363 /\
    (~ In code ["EGCL"; "EGED"]%string -> h2 <= 360) /\ (~ In code ["CPC7"; "EINN"]%string -> w < l) /\
    (~ In code crooked -> Rabs (Rabs (h1 - h2) - 180) <= 10).
Proof.
  intros D N G. destruct (gives_plausible _ _ _ _ D N G) as (v & (_ & R) & P). clear D N G.
  destruct v as [|l [|w [|e1 [|h1 [|e2 [|h2 [|]]]]]]]; try discriminate. injection R as R0 R1 R2 R3 R4 R5.
  exists (Q2R l), (Q2R w), (Q2R e1), (Q2R h1), (Q2R e2), (Q2R h2). unfold plausible in P.
  repeat match goal with H : andb _ _ = true |- _ => apply andb_prop in H as (H & ?) end.
  repeat match goal with H : Qle_bool ?a ?b = true |- _ => apply Qle_R in H end.
  rewrite <- R0, <- R1, <- R2, <- R3, <- R4, <- R5.
  assert (forall z, Q2R (Qmake z 1) = IZR z) as QZ by (intros z; unfold Q2R; cbn; lra).
  change (-1246)%Q with (Qmake (-1246) 1) in *. change (-1266)%Q with (Qmake (-1266) 1) in *. rewrite !QZ in *.
  do 6 (split; [reflexivity|]). do 6 (split; [lra|]). split; [|split].
  - intros X. destruct (Qle_bool h2 360) eqn:E; [apply Qle_R in E; rewrite QZ in E; lra|]. exfalso. apply X. apply listed_in. assumption.
  - intros X. destruct (Qle_bool w l) eqn:E; [|exfalso; apply X; apply listed_in; assumption].
    destruct (Qle_bool l w) eqn:E'; [discriminate|]. apply Qlt_R in E'. exact E'.
  - intros X. destruct (Qle_bool (qabs (qabs (h1 - h2) - 180)) 10) eqn:E; [|exfalso; apply X; apply listed_in; assumption].
    apply Qle_R in E. rewrite Q2R_off, QZ in E. exact E.
Qed.
