(** Reading a table of comma separated values. *)
From Coq Require Import QArith Qreals Ascii.
From Verif Require Import Base BaseFacts AtmosModel ConceptModel ConceptSpec ConceptProofs PropulsionModel PropulsionSpec PropulsionProofs PropulsionProofs3 PropulsionProofs4
  ShippedModel ShippedSpec ShippedNumbers.
Open Scope R_scope.

Lemma filter_all {A} (p : A -> bool) l : (forall x, In x l -> p x = true) -> filter p l = l.
Proof. induction l as [|a l IH]; intros H; [reflexivity|]. cbn. rewrite (H a (or_introl eq_refl)), IH; [reflexivity|]. intros x I. apply H. right. exact I. Qed.
Lemma dget_map {A B} (g : A -> B) k d : dget k (map (fun p => (fst p, g (snd p))) d) = option_map g (dget k d).
Proof. induction d as [|(k', v) d IH]; [reflexivity|]. cbn [map fst snd dget]. destruct (String.eqb k k'); [reflexivity|exact IH]. Qed.
Lemma decimal_number s q : decimal s = Some q -> number s (Q2R q).
Proof.
  intros E. assert (H : parse_float s = Some (Fin (Q2R q))) by (unfold parse_float; rewrite E; reflexivity).
  apply parse_number in H. destruct H as (r & H & N). injection H as ->. exact N.
Qed.
Lemma number_decimal s r : number s r -> exists q, decimal s = Some q /\ Q2R q = r.
Proof.
  intros N. assert (H : parse_float s = Some (Fin r)) by (apply parse_number; exists r; auto). unfold parse_float in H.
  destruct (decimal s) as [q|]; [|discriminate]. injection H as H. exists q. auto.
Qed.
Lemma number_not_empty r : ~ number "" r.
Proof. intros N. apply number_decimal in N. destruct N as (q & E & _). discriminate. Qed.
Lemma field_cell i row : (nth i row ""%string = ""%string \/ exists r, number (nth i row ""%string) r) ->
  exists x, field i row = Ok x /\ cell (nth i row ""%string) (entry_num x).
Proof.
  unfold field. intros [E|(r & N)].
  - rewrite E. exists None. split; [reflexivity|]. left. auto.
  - destruct (nth i row ""%string) as [|c s] eqn:E; [destruct (number_not_empty r N)|]. destruct (number_decimal _ _ N) as (q & D & Q). rewrite D. exists (Some q).
    split; [reflexivity|]. right. exists r. split; [exact N|]. cbn. unfold to_num. rewrite Q. reflexivity.
Qed.
Lemma column_cells rows i name : (forall row, In row rows -> nth i row ""%string = ""%string \/ exists r, number (nth i row ""%string) r) ->
  exists c, column rows (i, name) = Ok (name, c) /\ Forall2 (fun row x => cell (nth i row ""%string) x) rows (map entry_num c).
Proof.
  intros H. unfold column. cbn [fst snd].
  assert (K : exists c, mapM (field i) rows = Ok c /\ Forall2 (fun row x => cell (nth i row ""%string) x) rows (map entry_num c)).
  { induction rows as [|row rows IH]; [exists []; split; [reflexivity|constructor]|].
    destruct (field_cell i row (H row (or_introl eq_refl))) as (x & E & C). destruct IH as (c & Ec & Cs); [intros r I; apply H; right; exact I|].
    exists (x :: c). cbn [mapM map]. rewrite E, Ec. split; [reflexivity|]. constructor; assumption. }
  destruct K as (c & E & K). rewrite E. exists c. auto.
Qed.
Lemma columns_cells rows : forall names k, NoDup names -> (forall row i, In row rows -> nth i row ""%string = ""%string \/ exists r, number (nth i row ""%string) r) ->
  exists d, mapM (column rows) (combine (seq k (List.length names)) names) = Ok d /\
    (forall name, ~ In name names -> dget name d = None) /\
    forall j name, nth_error names j = Some name -> exists c, dget name d = Some c /\ Forall2 (fun row x => cell (nth (k + j) row ""%string) x) rows (map entry_num c).
Proof.
  induction names as [|n names IH]; intros k U H.
  - exists []. split; [reflexivity|]. split; [reflexivity|]. intros [|j] name E; discriminate.
  - inversion U as [|? ? Nn U']; subst. destruct (column_cells rows k n) as (c & Ec & Cs); [intros row I; apply H; exact I|].
    destruct (IH (S k) U' H) as (d & Ed & Nd & K). exists ((n, c) :: d). cbn [List.length seq combine mapM]. rewrite Ec, Ed. split; [reflexivity|]. split.
    + intros name N. cbn [dget]. destruct (String.eqb_spec name n) as [->|]; [destruct N; left; reflexivity|]. apply Nd. intros I. apply N. right. exact I.
    + intros [|j] name E.
      * injection E as <-. exists c. cbn [dget]. rewrite String.eqb_refl, Nat.add_0_r. auto.
      * destruct (K j name E) as (c' & D & F). exists c'. cbn [dget]. destruct (String.eqb_spec name n) as [->|]; [destruct Nn; exact (nth_error_In names j E)|].
        rewrite Nat.add_succ_r. auto.
Qed.
Lemma csv_read header rows : header <> [] -> NoDup header -> joined "," header <> ""%string ->
  (forall s, In s header \/ (exists row, In row rows /\ In s row) -> ~ occurs "," s) ->
  (forall row, In row rows -> joined "," row <> ""%string) ->
  (forall row s, In row rows -> In s row -> s = ""%string \/ exists r, number s r) ->
  exists fr, rmap num_frame (csv_columns (joined "," header :: map (joined ",") rows)) = Ok fr /\
    forall j name, nth_error header j = Some name -> exists c, binds fr name c /\ Forall2 (fun row x => cell (nth j row ""%string) x) rows c.
Proof.
  intros Hh U He Hc Hr Hn. unfold csv_columns.
  assert (F : filter (fun l => negb (String.eqb l "")) (joined "," header :: map (joined ",") rows) = joined "," header :: map (joined ",") rows).
  { apply filter_all. intros l [<-|I]; [apply negb_true_iff, String.eqb_neq; exact He|]. apply in_map_iff in I. destruct I as (row & <- & I). apply negb_true_iff, String.eqb_neq. apply Hr. exact I. }
  rewrite F. rewrite (split_joined ","%char header Hh) by (intros s I; apply Hc; left; exact I).
  assert (Sr : map (split_on ","%char) (map (joined ",") rows) = rows).
  { rewrite map_map. rewrite <- (map_id rows) at 2. apply map_ext_in. intros row I. apply (split_joined ","%char).
    - intros ->. apply (Hr [] I). reflexivity.
    - intros s J. apply Hc. right. exists row. auto. }
  rewrite Sr. unfold enumerate.
  destruct (columns_cells rows header 0 U) as (d & E & _ & K).
  { intros row i I. destruct (nth_in_or_default i row ""%string) as [J|J]; [exact (Hn row _ I J)|left; exact J]. }
  rewrite E. exists (num_frame d). split; [reflexivity|]. intros j name N. destruct (K j name N) as (c & D & Fo). exists (map entry_num c). split; [|exact Fo].
  apply dget_binds. unfold num_frame. rewrite dget_map. rewrite D. reflexivity.
Qed.
