(** Reading numbers with an exponent and tables separated by blanks. *)
From Coq Require Import QArith Qreals Ascii.
From Verif Require Import Base BaseFacts AtmosModel ConceptModel PropulsionModel PropulsionSpec PropulsionProofs PropulsionProofs4
  ShippedModel ShippedSpec ShippedNumbers ShippedCsv HandbookModel HandbookSpec.
Open Scope R_scope.

Lemma whole_digits s z : whole s = Some z <-> exists n, digits s (S n) (IZR z).
Proof.
  unfold whole. split.
  - destruct (read_digits s 0 false (Some 1%positive)) as [q|] eqn:E; [|discriminate]. intros H. injection H as <-.
    apply read_fraction in E. destruct E as (n & v & L & [S|S] & N & _); [discriminate|]. destruct n as [|n]; [lia|]. exists n.
    rewrite N, Z.mul_0_l, Z.add_0_l. apply left_digits_of. exact L.
  - intros (n & D). apply digits_left in D. destruct D as (v & E & L). apply eq_IZR in E. subst v.
    assert (P : (0 < 10 ^ Z.of_nat (S n))%Z) by (apply Z.pow_pos_nonneg; lia).
    assert (R : read_digits s 0 false (Some 1%positive) = Some (Qmake z (Z.to_pos (10 ^ Z.of_nat (S n))))).
    { apply read_fraction. exists (S n), z. split; [exact L|]. split; [right; lia|]. cbn [Qnum Qden]. split; [ring|]. rewrite Z2Pos.id by exact P. ring. }
    rewrite R. reflexivity.
Qed.
Lemma whole_signed c t z : digit c = None -> whole (String c t) <> Some z.
Proof.
  intros D H. unfold whole in H. cbn [read_digits] in H. rewrite D in H. destruct (Ascii.eqb c "."); discriminate.
Qed.
Lemma exponent_integer s z : exponent s = Some z <-> integer s z.
Proof.
  assert (G : exponent s = whole s -> (forall t, s <> ("+" ++ t)%string /\ s <> ("-" ++ t)%string) -> exponent s = Some z <-> integer s z).
  { intros -> N. rewrite whole_digits. split; [intros H; left; exact H|]. intros [H|(t & n & [(E & _)|(E & _)])]; [exact H|destruct (N t) as [K _]; destruct (K E)|destruct (N t) as [_ K]; destruct (K E)]. }
  destruct s as [|c s]; [apply G; [reflexivity|split; discriminate]|].
  destruct (Ascii.ascii_dec c "+") as [->|N1]; [|destruct (Ascii.ascii_dec c "-") as [->|N2]].
  - clear G. change (exponent (String "+" s)) with (whole s). split.
    + intros H. right. apply whole_digits in H. destruct H as (n & D). exists s, n. left. auto.
    + intros [(n & D)|(t & n & [(E & D)|(E & D)])]; [|injection E as <-|discriminate].
      * exfalso. apply (whole_signed "+" s z eq_refl). apply whole_digits. exists n. exact D.
      * apply whole_digits. exists n. exact D.
  - clear G. change (exponent (String "-" s)) with (option_map Z.opp (whole s)). split.
    + destruct (whole s) as [y|] eqn:E; [|discriminate]. cbn [option_map]. intros H. injection H as <-. right. apply whole_digits in E. destruct E as (n & D).
      exists s, n. right. rewrite Z.opp_involutive. auto.
    + intros [(n & D)|(t & n & [(E & D)|(E & D)])]; [|discriminate|injection E as <-].
      * exfalso. apply (whole_signed "-" s z eq_refl). apply whole_digits. exists n. exact D.
      * assert (W : whole s = Some (- z)%Z) by (apply whole_digits; exists n; exact D). rewrite W. cbn. rewrite Z.opp_involutive. reflexivity.
  - apply G.
    + destruct c as [[] [] [] [] [] [] [] []]; try reflexivity; [now destruct N1|now destruct N2].
    + intros t. split; intros E; injection E as -> _; [now destruct N1|now destruct N2].
Qed.
Lemma times_ten_value q z : Q2R (times_ten q z) = Q2R q * powerRZ 10 z.
Proof.
  unfold times_ten. destruct (Z.leb_spec 0 z) as [H|H].
  - destruct (Z_of_nat_complete z H) as (n & ->). unfold Q2R. cbn [Qnum Qden]. rewrite mult_IZR, <- pow_IZR, <- pow_powerRZ. ring.
  - destruct (Z_of_nat_complete (- z) ltac:(lia)) as (n & E). assert (Ez : z = (- Z.of_nat n)%Z) by lia. subst z. rewrite Z.opp_involutive.
    assert (P : (0 < 10 ^ Z.of_nat n)%Z) by (apply Z.pow_pos_nonneg; lia).
    unfold Q2R. cbn [Qnum Qden]. rewrite Pos2Z.inj_mul, Z2Pos.id by exact P. rewrite mult_IZR, <- pow_IZR, powerRZ_neg', <- pow_powerRZ.
    field. split; [apply pow_nonzero; lra|]. apply not_0_IZR. lia.
Qed.
(** numbers have no "e" *)
Lemma read_no_e : forall s acc seen sc q, read_digits s acc seen sc = Some q -> ~ occurs "e" s.
Proof.
  induction s as [|c s IH]; intros acc seen sc q H (l & r & E).
  - destruct l; discriminate.
  - cbn [read_digits] in H. assert (K : c <> "e"%char /\ ~ occurs "e" s).
    { destruct (digit c) as [d|] eqn:D.
      - split; [intros ->; discriminate|]. exact (IH _ _ _ _ H).
      - destruct (Ascii.eqb_spec c ".") as [->|]; [|discriminate]. split; [discriminate|]. destruct sc; [discriminate|]. cbn [andb] in H. exact (IH _ _ _ _ H). }
    destruct K as [K1 K2]. destruct l as [|c' l]; injection E as -> E; [now destruct K1|]. apply K2. exists l, r. exact E.
Qed.
Lemma decimal_no_e s q : decimal s = Some q -> ~ occurs "e" s.
Proof.
  intros H. destruct s as [|c s]; [discriminate|]. destruct (Ascii.ascii_dec c "-") as [->|N].
  - change (decimal (String "-" s)) with (option_map Qopp (read_digits s 0 false None)) in H.
    destruct (read_digits s 0 false None) as [q'|] eqn:E; [|discriminate]. apply read_no_e in E. intros ([|c l] & r & K); [discriminate|]. injection K as _ K. apply E. exists l, r. exact K.
  - rewrite decimal_other in H by exact N. exact (read_no_e _ _ _ _ _ H).
Qed.
Lemma whole_no_e s z : whole s = Some z -> ~ occurs "e" s.
Proof. unfold whole. destruct (read_digits s 0 false (Some 1%positive)) as [q|] eqn:E; [|discriminate]. intros _. exact (read_no_e _ _ _ _ _ E). Qed.
Lemma exponent_no_e s z : exponent s = Some z -> ~ occurs "e" s.
Proof.
  intros H. assert (G : forall c t y, c <> "e"%char -> whole t = Some y -> ~ occurs "e" (String c t)).
  { intros c t y N W ([|c' l] & r & K); [injection K as K _; congruence|]. injection K as _ K. apply (whole_no_e t y W). exists l, r. exact K. }
  apply exponent_integer in H. destruct H as [D|(t & n & [(-> & D)|(-> & D)])].
  - apply (whole_no_e s z). apply whole_digits. exact D.
  - apply (G "+"%char t z); [discriminate|]. apply whole_digits. exists n. exact D.
  - apply (G "-"%char t (- z)%Z); [discriminate|]. apply whole_digits. exists n. exact D.
Qed.
Lemma split_parts sep : forall s, s = joined (String sep "") (split_on sep s).
Proof.
  induction s as [|c s IH]; [reflexivity|]. cbn [split_on]. destruct (Ascii.eqb_spec c sep) as [->|N].
  - destruct (split_on sep s) as [|x r] eqn:E; [destruct s; cbn in E; [discriminate|]; destruct (Ascii.eqb _ sep); [discriminate|]; destruct (split_on sep s); discriminate|].
    cbn [joined append]. f_equal. exact IH.
  - destruct (split_on sep s) as [|x r]; [cbn in *; f_equal; exact IH|]. destruct r as [|y r]; cbn [joined append] in *; f_equal; exact IH.
Qed.
Lemma sci_scientific s r : (exists q, sci s = Some q /\ Q2R q = r) <-> scientific s r.
Proof.
  split.
  - intros (q & E & <-). pose proof (split_parts "e" s) as J. unfold sci in E. destruct (split_on "e" s) as [|m [|x [|]]]; try discriminate.
    + left. cbn [joined] in J. subst m. apply decimal_number. exact E.
    + destruct (decimal m) as [q0|] eqn:D; [|discriminate]. destruct (exponent x) as [z|] eqn:X; [|discriminate]. injection E as <-.
      right. exists m, x, (Q2R q0), z. cbn [joined] in J. split; [exact J|]. split; [apply decimal_number; exact D|]. split; [apply exponent_integer; exact X|]. apply times_ten_value.
  - intros [N|(m & x & a & z & -> & N & I & ->)].
    + apply number_decimal in N. destruct N as (q & D & Q). exists q. split; [|exact Q]. unfold sci. rewrite split_plain by exact (decimal_no_e _ _ D). exact D.
    + apply number_decimal in N. destruct N as (q & D & <-). apply exponent_integer in I. exists (times_ten q z). split; [|apply times_ten_value].
      unfold sci. change ("e" ++ x)%string with (String "e" x). rewrite split_app by exact (decimal_no_e _ _ D). rewrite split_plain by exact (exponent_no_e _ _ I). rewrite D, I. reflexivity.
Qed.

(** ** Tables *)
Lemma scientific_nonempty r : ~ scientific "" r.
Proof. intros H. apply sci_scientific in H. destruct H as (q & E & _). discriminate. Qed.
Lemma fields_of row vs : row <> [] -> Forall2 scientific row vs -> (forall s, In s row -> ~ occurs " " s) -> blank_fields (joined " " row) = row.
Proof.
  intros N F H. unfold blank_fields. change " "%string with (String " " "") . rewrite split_joined by (exact N || exact H). apply filter_all.
  intros s I. apply negb_true_iff, String.eqb_neq. intros ->. clear - F I. induction F as [|x y l l' S F IH]; [destruct I|]. destruct I as [->|I]; [exact (scientific_nonempty _ S)|exact (IH I)].
Qed.
Lemma read_row row vs : Forall2 scientific row vs -> exists qs, mapM to_sci row = Ok qs /\ map Q2R qs = vs.
Proof.
  induction 1 as [|s v row vs S F (qs & E & M)]; [exists []; split; reflexivity|]. apply sci_scientific in S. destruct S as (q & Q & <-).
  exists (q :: qs). cbn [mapM map]. unfold to_sci at 1. rewrite Q, E, M. split; reflexivity.
Qed.
Lemma loadtxt_table rows vals n : rows <> [] -> (0 < n)%nat -> (forall row, In row rows -> List.length row = n) ->
  Forall2 (Forall2 scientific) rows vals -> (forall row s, In row rows -> In s row -> ~ occurs " " s) ->
  exists cols, loadtxt (map (joined " ") rows) = Ok cols /\ List.length cols = n /\
    forall i j v, (exists r, nth_error vals i = Some r /\ nth_error r j = Some v) <-> exists c, nth_error (map (map Q2R) cols) j = Some c /\ nth_error c i = Some v.
Proof.
  intros Hr Hn Hl F Hb. unfold loadtxt.
  assert (A : map blank_fields (map (joined " ") rows) = rows).
  { clear Hr. induction F as [|row v rows vals R F IH]; [reflexivity|]. cbn [map]. rewrite (fields_of row v); [|intros ->; specialize (Hl [] (or_introl eq_refl)); cbn in Hl; lia|exact R|intros s I; exact (Hb row s (or_introl eq_refl) I)].
    f_equal. apply IH; [intros r I; apply Hl; right; exact I|intros r s I; apply Hb; right; exact I]. }
  rewrite A. rewrite (filter_all _ rows) by (intros r I; rewrite (Hl r I); destruct n; [lia|reflexivity]).
  assert (B : exists qss, mapM (mapM to_sci) rows = Ok qss /\ map (map Q2R) qss = vals).
  { clear - F. induction F as [|row v rows vals R F (qss & E & M)]; [exists []; split; reflexivity|]. destruct (read_row row v R) as (qs & E1 & M1). exists (qs :: qss). cbn [mapM map].
    rewrite E1, E, M1, M. split; reflexivity. }
  destruct B as (qss & E & <-). rewrite E. cbn [rbind].
  assert (L : forall r, In r qss -> List.length r = n).
  { assert (F' : Forall2 (fun (row : list string) r => List.length row = List.length r) rows qss).
    { clear - F. remember (map (map Q2R) qss) as vals eqn:V. revert qss V. induction F as [|row v rows vals R F IH]; intros [|r qss] V; try discriminate; constructor; injection V as -> ->.
      - rewrite <- (map_length Q2R r). clear - R. induction R; cbn; auto.
      - apply IH. reflexivity. }
    clear - F' Hl. induction F' as [|row r rows qss H F' IH]; [intros r []|]. intros r' [<-|I]; [rewrite <- H; apply Hl; left; reflexivity|]. apply IH; [intros x J; apply Hl; right; exact J|exact I]. }
  destruct qss as [|r0 qss]; [destruct rows; [now destruct Hr|]; cbn in F; inversion F|].
  rewrite (proj2 (forallb_forall _ _)) by (intros r I; apply Nat.eqb_eq; rewrite (L r I), (L r0 (or_introl eq_refl)); reflexivity).
  set (all := r0 :: qss) in *. eexists. split; [reflexivity|]. rewrite map_length, seq_length. split; [apply L; left; reflexivity|].
  rewrite (L r0 (or_introl eq_refl)). intros i j v.
  assert (C : forall j, nth_error (map (map Q2R) (map (fun k => map (fun r => nth k r 0%Q) all) (seq 0 n))) j = if Nat.ltb j n then Some (map (fun r => Q2R (nth j r 0%Q)) all) else None).
  { intros k. rewrite map_map. destruct (Nat.ltb_spec k n) as [K|K].
    - rewrite (map_nth_error _ k (seq 0 n) (d := k)); [rewrite map_map; reflexivity|]. rewrite (nth_error_nth' _ 0%nat) by (rewrite seq_length; exact K). rewrite seq_nth by exact K. reflexivity.
    - apply nth_error_None. rewrite map_length, seq_length. exact K. }
  rewrite C. split.
  - intros (r & I & J). rewrite nth_error_map in I. destruct (nth_error all i) as [q|] eqn:Q; [|discriminate]. injection I as <-.
    assert (K : (j < n)%nat). { rewrite <- (L q (nth_error_In _ _ Q)). rewrite <- (map_length Q2R q). apply nth_error_Some. rewrite J. discriminate. }
    rewrite (proj2 (Nat.ltb_lt j n) K). eexists. split; [reflexivity|]. rewrite nth_error_map, Q. cbn [option_map]. f_equal.
    rewrite nth_error_map in J. destruct (nth_error q j) as [x|] eqn:X; [|discriminate]. injection J as <-. rewrite (nth_error_nth _ _ _ X). reflexivity.
  - intros (c & I & J). destruct (Nat.ltb_spec j n) as [K|K]; [|discriminate]. assert (I' : c = map (fun r => Q2R (nth j r 0%Q)) all) by congruence. subst c. rewrite nth_error_map in J. destruct (nth_error all i) as [q|] eqn:Q; [|discriminate]. injection J as <-.
    exists (map Q2R q). rewrite nth_error_map, Q. split; [reflexivity|]. rewrite nth_error_map. rewrite (nth_error_nth' _ 0%Q); [reflexivity|]. rewrite (L q (nth_error_In _ _ Q)). exact K.
Qed.
