(** The decks of the shipped engines: which file each table and polynomial comes from. *)
From Coq Require Import QArith Qreals Ascii Permutation.
From Verif Require Import Base BaseFacts AtmosModel ConceptModel ConceptProofs PropulsionModel PropulsionSpec PropulsionProofs PropulsionProofs2 PropulsionProofs3 PropulsionProofs4
  ShippedText ShippedModel ShippedSpec ShippedProofs.
Open Scope R_scope.

(** ** One file serves *)
Lemma newest_only {A} e k (read : string -> res A) l l' f d : newest (serves e k) read l' d -> Permutation l l' ->
  filter (servesb e k) l = [f] -> exists a, read f = Ok a /\ d = Some a.
Proof.
  intros (on & [(-> & _ & N)|(pre & g & post & a & -> & H & _ & R & -> & _)]) P F.
  - exfalso. assert (I : In f (filter (servesb e k) l)) by (rewrite F; left; reflexivity). apply filter_In in I. destruct I as (I & S).
    apply (N f); [exact (Permutation_in _ P I)|apply servesb_spec; exact S].
  - assert (I : In g (filter (servesb e k) l)).
    { apply filter_In. split; [|apply servesb_spec; exact H]. apply (Permutation_in _ (Permutation_sym P)). apply in_or_app. right. left. reflexivity. }
    rewrite F in I. destruct I as [->|[]]. exists a. auto.
Qed.
Lemma newest_nothing {A} e k (read : string -> res A) l l' d : newest (serves e k) read l' d -> Permutation l l' ->
  filter (servesb e k) l = [] -> d = None.
Proof.
  intros (on & [(-> & _ & N)|(pre & g & post & a & -> & H & _ & R & -> & _)]) P F; [reflexivity|]. exfalso.
  assert (I : In g (filter (servesb e k) l)).
  { apply filter_In. split; [|apply servesb_spec; exact H]. apply (Permutation_in _ (Permutation_sym P)). apply in_or_app. right. left. reflexivity. }
  rewrite F in I. destruct I.
Qed.

(** ** The decks exist *)
Definition okb {A} (x : res A) : bool := match x with Ok _ => true | Err _ => false end.
Lemma okb_spec {A} (x : res A) : okb x = true -> exists a, x = Ok a.
Proof. destruct x; [|discriminate]. eauto. Qed.
Lemma jets_load e l : In e jet_engines -> Permutation jet_files l -> exists d, jet_deck shipped_csv shipped_text parse_float e l = Ok d.
Proof.
  intros I P. assert (B : forallb (fun e => okb (jet_deck shipped_csv shipped_text parse_float e jet_files)) jet_engines = true) by (vm_compute; reflexivity).
  pose proof (forallb_In _ _ B e I) as E. apply okb_spec in E. destruct E as (d & E). exists d. destruct (shipped_decks shipped_csv shipped_text parse_float) as (J & _).
  exact (J e l d I P E).
Qed.
Lemma turboprops_load e l : In e turboprop_engines -> Permutation turboprop_files l -> exists d, turboprop_deck shipped_csv shipped_text parse_float e l = Ok d.
Proof.
  intros I P. assert (B : forallb (fun e => okb (turboprop_deck shipped_csv shipped_text parse_float e turboprop_files)) turboprop_engines = true) by (vm_compute; reflexivity).
  pose proof (forallb_In _ _ B e I) as E. apply okb_spec in E. destruct E as (d & E). exists d. destruct (shipped_decks shipped_csv shipped_text parse_float) as (_ & J & _).
  exact (J e l d I P E).
Qed.
Lemma wasp_loads l : Permutation piston_files l -> exists d, piston_deck shipped_csv shipped_text parse_float "Wasp_Major_B13" l = Ok d.
Proof.
  intros P. assert (B : okb (piston_deck shipped_csv shipped_text parse_float "Wasp_Major_B13" piston_files) = true) by (vm_compute; reflexivity).
  apply okb_spec in B. destruct B as (d & E). exists d. destruct (shipped_decks shipped_csv shipped_text parse_float) as (_ & _ & _ & J). exact (J l d P E).
Qed.
Definition someb {A} (x : res (option A)) : bool := match x with Ok (Some _) => true | _ => false end.
Lemma someb_spec {A} (x : res (option A)) : someb x = true -> exists a, x = Ok (Some a).
Proof. destruct x as [[a|]|]; [|discriminate..]. eauto. Qed.
Lemma electrics_load e l : In e electric_engines -> Permutation electric_files l -> exists d, electric_deck shipped_csv shipped_text parse_float e l = Ok (Some d).
Proof.
  intros I P. assert (B : forallb (fun e => someb (electric_deck shipped_csv shipped_text parse_float e electric_files)) electric_engines = true) by (vm_compute; reflexivity).
  pose proof (forallb_In _ _ B e I) as E. apply someb_spec in E. destruct E as (d & D).
  exists d. destruct (shipped_decks shipped_csv shipped_text parse_float) as (_ & _ & J & _). exact (J e l (Some d) I P D).
Qed.

(** ** Tables with rational entries *)
Definition qrows (f a b c : string) : res (list (option Q) * list (option Q) * list (option Q)) :=
  match file_lines f with
  | Some l => do d <- csv_columns l; do x <- dindex d a; do y <- dindex d b; do z <- dindex d c; Ok (x, y, z)
  | None => Err FileNotFoundError
  end.
Lemma dget_map {A B} (g : A -> B) k d : dget k (map (fun p => (fst p, g (snd p))) d) = option_map g (dget k d).
Proof. induction d as [|(k', v) d IH]; [reflexivity|]. cbn [map fst snd dget]. destruct (String.eqb k k'); [reflexivity|exact IH]. Qed.
Lemma dindex_map {A B} (g : A -> B) k d : dindex (map (fun p => (fst p, g (snd p))) d) k = rmap g (dindex d k).
Proof. unfold dindex. rewrite dget_map. destruct (dget k d); reflexivity. Qed.
Lemma table_file f a b c : read_table shipped_csv a b c f =
  rmap (fun q => {| tx := map entry_num (fst (fst q)); ty := map entry_num (snd (fst q)); tz := map entry_num (snd q) |}) (qrows f a b c).
Proof.
  unfold read_table, shipped_csv, qrows. destruct (file_lines f) as [l|]; [|reflexivity]. destruct (csv_columns l) as [d|]; [|reflexivity].
  cbn [rbind rmap]. unfold columns, num_frame. rewrite !dindex_map. destruct (dindex d a); [|reflexivity]. cbn [rbind rmap].
  destruct (dindex d b); [|reflexivity]. cbn [rbind rmap]. destruct (dindex d c); reflexivity.
Qed.
(** every row of numbers, and in P *)
Fixpoint rows_ok (P : Q -> Q -> Q -> bool) (x y z : list (option Q)) : bool :=
  match x, y, z with
  | [], [], [] => true
  | Some a :: x, Some b :: y, Some c :: z => if P a b c then rows_ok P x y z else false
  | _, _, _ => false
  end.
Definition table_ok (P : Q -> Q -> Q -> bool) (f a b c : string) : bool :=
  match qrows f a b c with
  | Ok (x, y, z) => match z with [] => false | _ => rows_ok P x y z end
  | Err _ => false
  end.
Lemma rows_ok_spec P : forall x y z, rows_ok P x y z = true ->
  List.length x = List.length z /\ List.length y = List.length z /\
  forall i, (i < List.length z)%nat -> exists a b c, nth_error x i = Some (Some a) /\ nth_error y i = Some (Some b) /\ nth_error z i = Some (Some c) /\ P a b c = true.
Proof.
  induction x as [|[a|] x IH]; intros [|[b|] y] [|[c|] z] H; try discriminate.
  - split; [reflexivity|]. split; [reflexivity|]. intros i L. cbn in L. lia.
  - cbn [rows_ok] in H. destruct (P a b c) eqn:E; [|discriminate]. destruct (IH y z H) as (L1 & L2 & K). cbn [List.length]. split; [lia|]. split; [lia|].
    intros [|i] L; [exists a, b, c; cbn; auto|]. apply K. lia.
Qed.
Lemma table_ok_spec P f a b c t (R : R -> R -> R -> Prop) : table_ok P f a b c = true -> read_table shipped_csv a b c f = Ok t ->
  (forall x y z, P x y z = true -> R (Q2R x) (Q2R y) (Q2R z)) -> rows_in t R.
Proof.
  unfold table_ok. rewrite table_file. destruct (qrows f a b c) as [((x, y), z)|]; [|discriminate]. cbn [rmap]. intros B E H. injection E as <-.
  unfold rows_in, row. cbn [tx ty tz fst snd]. destruct z as [|z0 z]; [discriminate|]. apply rows_ok_spec in B. destruct B as (L1 & L2 & K).
  rewrite !map_length. split; [discriminate|]. split; [exact L1|]. split; [exact L2|]. intros i L. destruct (K i L) as (p & q & r & E1 & E2 & E3 & O).
  exists (Q2R p), (Q2R q), (Q2R r). rewrite !nth_error_map, E1, E2, E3. cbn [option_map entry_num]. unfold to_num. split; [auto|]. apply H. exact O.
Qed.
(** some row *)
Definition table_has (P : Q -> Q -> Q -> bool) (f a b c : string) : bool :=
  match qrows f a b c with
  | Ok (x, y, z) => existsb (fun r => match r with (Some p, Some q, Some r) => P p q r | _ => false end) (combine (combine x y) z)
  | Err _ => false
  end.
Lemma nth_combine {A B} : forall (l : list A) (m : list B) i a b, nth_error l i = Some a -> nth_error m i = Some b -> nth_error (combine l m) i = Some (a, b).
Proof. induction l as [|x l IH]; intros [|y m] [|i] a b H K; try discriminate; [injection H as <-; injection K as <-; reflexivity|]. cbn in *. auto. Qed.
Lemma combine_nth_inv {A B} : forall (l : list A) (m : list B) i p, nth_error (combine l m) i = Some p -> nth_error l i = Some (fst p) /\ nth_error m i = Some (snd p).
Proof. induction l as [|x l IH]; intros [|y m] [|i] p H; try discriminate; [injection H as <-; auto|]. cbn in *. auto. Qed.
Lemma table_has_spec P f a b c t : table_has P f a b c = true -> read_table shipped_csv a b c f = Ok t ->
  exists i x y z, row t i (Q2R x) (Q2R y) (Q2R z) /\ P x y z = true.
Proof.
  unfold table_has. rewrite table_file. destruct (qrows f a b c) as [((x, y), z)|]; [|discriminate]. cbn [rmap]. intros B E. injection E as <-.
  apply existsb_exists in B. destruct B as (((p, q), r) & I & B). destruct p as [p|]; [|discriminate]. destruct q as [q|]; [|discriminate]. destruct r as [r|]; [|discriminate].
  apply In_nth_error in I. destruct I as (i & I). apply combine_nth_inv in I. destruct I as (I & Ez). apply combine_nth_inv in I. destruct I as (Ex & Ey). cbn [fst snd] in *.
  exists i, p, q, r. split; [|exact B]. unfold row. cbn [tx ty tz fst snd]. rewrite !nth_error_map, Ex, Ey, Ez. cbn. auto.
Qed.

(** ** The contents of the decks *)
Definition thrust_table (e : string) : string := (e ++ "_Thrust_data.csv")%string.
Definition tsfc_table (e : string) : string := (e ++ "_TSFC_data.csv")%string.
Definition power_table (e : string) : string := (e ++ "_Power_data.csv")%string.
Definition bsfc_table (e : string) : string := (e ++ "_BSFC_data.csv")%string.
Definition efficiency_table (e : string) : string := (e ++ "_Efficiency_data.csv")%string.
Definition onlyb (engines : list string) (k : string) (file : string -> string) (files : list string) : bool :=
  forallb (fun e => match filter (servesb e k) files with [f] => String.eqb f (file e) | _ => false end) engines.
Lemma onlyb_spec engines k file files e : onlyb engines k file files = true -> In e engines -> filter (servesb e k) files = [file e].
Proof.
  intros B I. pose proof (forallb_In _ _ B e I) as E. cbv beta in E. destruct (filter (servesb e k) files) as [|f [|]]; try discriminate.
  apply String.eqb_eq in E. rewrite E. reflexivity.
Qed.
Definition nothingb (engines : list string) (k : string) (files : list string) : bool :=
  forallb (fun e => match filter (servesb e k) files with [] => true | _ => false end) engines.
Lemma nothingb_spec engines k files e : nothingb engines k files = true -> In e engines -> filter (servesb e k) files = [].
Proof. intros B I. pose proof (forallb_In _ _ B e I) as E. cbv beta in E. destruct (filter (servesb e k) files); [reflexivity|discriminate]. Qed.

Definition sl_engines : list string := map (fun x => fst (fst x)) thrust_ranges.
Definition to_engines : list string := map (fun x => fst (fst x)) take_off_ranges.
Lemma jet_thrust_table e d : In e jet_engines -> shipped_jet e d -> exists t,
  read_table shipped_csv "Mach Number" "Altitude (m)" "Thrust (N)" (thrust_table e) = Ok t /\ jt_thr d = Some t.
Proof.
  intros I (l & P & E). apply jet_contents in E. destruct E as (N & _). apply (newest_only _ _ _ _ _ _ _ N P).
  apply onlyb_spec with (engines := jet_engines); [vm_compute; reflexivity|exact I].
Qed.
Lemma jet_sl_poly e d : In e sl_engines -> shipped_jet e d -> exists a, poly_process shipped_text parse_float (thrust_file e) = Ok a /\ jt_sl d = Some a.
Proof.
  intros I (l & P & E). apply jet_contents in E. destruct E as (_ & _ & N & _). apply (newest_only _ _ _ _ _ _ _ N P).
  apply onlyb_spec with (engines := sl_engines); [vm_compute; reflexivity|exact I].
Qed.
Lemma jet_to_poly e d : In e to_engines -> shipped_jet e d -> exists a, poly_process shipped_text parse_float (take_off_file e) = Ok a /\ jt_to d = Some a.
Proof.
  intros I (l & P & E). apply jet_contents in E. destruct E as (_ & _ & _ & N). apply (newest_only _ _ _ _ _ _ _ N P).
  apply onlyb_spec with (engines := to_engines); [vm_compute; reflexivity|exact I].
Qed.
Lemma turboprop_power_table e d : In e turboprop_engines -> shipped_turboprop e d -> exists t,
  read_table shipped_csv "Mach Number" "Altitude (m)" "Power (W)" (power_table e) = Ok t /\ tp_pwr d = Some t.
Proof.
  intros I (l & P & E). apply turboprop_contents in E. destruct E as (_ & N & _). apply (newest_only _ _ _ _ _ _ _ N P).
  apply onlyb_spec with (engines := turboprop_engines); [vm_compute; reflexivity|exact I].
Qed.
Lemma turboprop_thrust_table e d : In e turboprop_engines -> shipped_turboprop e d -> exists t,
  read_table shipped_csv "Mach Number" "Altitude (m)" "Thrust (N)" (thrust_table e) = Ok t /\ tp_thr d = Some t.
Proof.
  intros I (l & P & E). apply turboprop_contents in E. destruct E as (N & _ & _). apply (newest_only _ _ _ _ _ _ _ N P).
  apply onlyb_spec with (engines := turboprop_engines); [vm_compute; reflexivity|exact I].
Qed.
Lemma turboprop_bsfc_table e d : In e turboprop_engines -> shipped_turboprop e d -> exists t,
  read_table shipped_csv "Mach Number" "Altitude (m)" "BSFC (g/(kWh))" (bsfc_table e) = Ok t /\ tp_bsfc d = Some t.
Proof.
  intros I (l & P & E). apply turboprop_contents in E. destruct E as (_ & _ & N). apply (newest_only _ _ _ _ _ _ _ N P).
  apply onlyb_spec with (engines := turboprop_engines); [vm_compute; reflexivity|exact I].
Qed.
Lemma wasp_power_table d : shipped_piston "Wasp_Major_B13" d -> exists t,
  read_table shipped_csv "Speed (RPM)" "Altitude (m)" "Power (W)" (power_table "Wasp_Major_B13") = Ok t /\ pi_pwr d = Some t.
Proof.
  intros (l & P & E). apply piston_contents in E. destruct E as (N & _). apply (newest_only _ _ _ _ _ _ _ N P). vm_compute. reflexivity.
Qed.
Lemma piston_bsfc_table e d : In e piston_engines -> shipped_piston e d -> exists t,
  read_table shipped_csv "Speed (RPM)" "Power (W)" "BSFC (g/(kWh))" (bsfc_table e) = Ok t /\ pi_bsfc d = Some t.
Proof.
  intros I (l & P & E). apply piston_contents in E. destruct E as (_ & N & _). apply (newest_only _ _ _ _ _ _ _ N P).
  apply onlyb_spec with (engines := piston_engines); [vm_compute; reflexivity|exact I].
Qed.
Lemma electric_table e d : In e electric_engines -> shipped_electric e d -> exists t,
  read_table shipped_csv "Speed (RPM)" "Torque (Nm)" "Efficiency" (efficiency_table e) = Ok t /\ el_tab d = t.
Proof.
  intros I (l & P & E). apply electric_contents in E. destruct (newest_only _ _ _ electric_files _ (efficiency_table e) _ E P) as (t & R & H).
  - apply onlyb_spec with (engines := electric_engines); [vm_compute; reflexivity|exact I].
  - exists t. split; [exact R|]. cbn in H. now injection H.
Qed.
(** the power table of the IO-540: only if its file is listed behind the one for best power *)
Lemma io540_table d : shipped_piston "IO-540" d -> exists t,
  read_table shipped_csv "Speed (RPM)" "Altitude (m)" "Power (W)" (power_table "IO-540") = Ok t /\ pi_pwr d = Some t.
Proof.
  intros (l & P & E). apply piston_contents in E. destruct E as (N & _). destruct N as (on & [(-> & _ & N)|(pre & g & post & a & -> & H & _ & R & -> & _)]).
  - exfalso. apply (N (power_table "IO-540")); [apply (Permutation_in _ P); vm_compute; tauto|]. apply servesb_spec. vm_compute. reflexivity.
  - assert (I : In g (filter (servesb "IO-540" "power_data.csv") piston_files)).
    { apply filter_In. split; [|apply servesb_spec; exact H]. apply (Permutation_in _ (Permutation_sym P)). apply in_or_app. right. left. reflexivity. }
    assert (F : filter (servesb "IO-540" "power_data.csv") piston_files = ["IO-540_BSFC_best_power_data.csv"; "IO-540_Power_data.csv"]%string) by (vm_compute; reflexivity).
    rewrite F in I. destruct I as [<-|[<-|[]]]; [|exists a; auto]. exfalso.
    rewrite table_file in R. assert (Q : qrows "IO-540_BSFC_best_power_data.csv" "Speed (RPM)" "Altitude (m)" "Power (W)" = Err KeyError) by (vm_compute; reflexivity).
    rewrite Q in R. cbn [rmap] in R. discriminate R.
Qed.
