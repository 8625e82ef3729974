(** Decks: contents, ownership, order of the listing; the catalogue; polynomial files. *)
From Coq Require Import Permutation Ascii.
From Verif Require Import Base BaseFacts AtmosModel ConceptModel ConceptSpec ConceptProofs PropulsionModel PropulsionSpec PropulsionProofs PropulsionProofs2.
Open Scope R_scope.

Section Decks.
Variable read_csv : string -> res frame.
Variable read_text : string -> res string.
Variable parse : string -> option num.
Notation proc := (poly_process read_text parse).

Lemma attribute_newest hit listing avail data i a b c d on t :
  nth_error data i = Some d -> nth_error avail i = Some on -> slot hit read_csv listing d on ->
  attribute avail data i a b c = Ok t -> newest hit (read_table read_csv a b c) listing t.
Proof.
  intros E1 E2 S. unfold attribute, index. rewrite E2. cbn [rbind]. destruct S as [(-> & -> & N)|(pre & f & post & x & -> & H & N & R & -> & ->)].
  - intros K. injection K as <-. exists false. left. auto.
  - rewrite E1. cbn [rbind]. destruct (columns x a b c) as [y|] eqn:C; cbn [rmap]; [|discriminate]. intros K. injection K as <-.
    exists true. right. exists pre, f, post, y. split; [reflexivity|]. split; [exact H|]. split; [exact N|]. split; [|auto].
    unfold read_table. rewrite R. exact C.
Qed.
Lemma newest_poly (P Q : string -> Prop) listing d on : (forall f, P f <-> Q f) -> slot P proc listing d on -> newest Q proc listing d.
Proof. intros E S. exists on. exact (slot_ext _ _ _ _ _ _ E S). Qed.
Lemma one_kind (g : string -> string) e k f : (exists o, In o [k] /\ serves e (g o) f) <-> serves e (g k) f.
Proof. split; [intros (o & [<-|[]] & H); exact H|intros H; exists k; cbn; auto]. Qed.

Lemma jet_contents e listing d : jet_deck read_csv read_text parse e listing = Ok d ->
  newest (serves e "thrust_data.csv") (read_table read_csv "Mach Number" "Altitude (m)" "Thrust (N)") listing (jt_thr d) /\
  newest (serves e "tsfc_data.csv") (read_table read_csv "Mach Number" "Thrust (N)" "TSFC (g/(kNs))") listing (jt_tsfc d) /\
  newest (serves e "sea_level_thrust_polynomial.csv") proc listing (jt_sl d) /\
  newest (serves e "sea_level_take_off_thrust_polynomial.csv") proc listing (jt_to d).
Proof.
  unfold jet_deck. intros H. apply rbind_inv in H. destruct H as (st & S & H). apply rbind_inv in H. destruct H as (t & T & H).
  apply rbind_inv in H. destruct H as (s & U & H). injection H as <-. cbn.
  apply setup_holds in S. destruct S as (_ & _ & _ & _ & A & B & C & D).
  destruct (A 0%nat _ eq_refl) as (x & on & E1 & E2 & X). destruct (B 0%nat _ eq_refl) as (y & on' & F1 & F2 & Y).
  split; [exact (attribute_newest _ _ _ _ _ _ _ _ _ _ _ E1 E2 X T)|]. split; [exact (attribute_newest _ _ _ _ _ _ _ _ _ _ _ F1 F2 Y U)|].
  split; [exact (newest_poly _ _ _ _ _ (one_kind slfile e "thrust") C)|exact (newest_poly _ _ _ _ _ (one_kind tofile e "thrust") D)].
Qed.
Lemma turboprop_contents e listing d : turboprop_deck read_csv read_text parse e listing = Ok d ->
  newest (serves e "thrust_data.csv") (read_table read_csv "Mach Number" "Altitude (m)" "Thrust (N)") listing (tp_thr d) /\
  newest (serves e "power_data.csv") (read_table read_csv "Mach Number" "Altitude (m)" "Power (W)") listing (tp_pwr d) /\
  newest (serves e "bsfc_data.csv") (read_table read_csv "Mach Number" "Altitude (m)" "BSFC (g/(kWh))") listing (tp_bsfc d).
Proof.
  unfold turboprop_deck. intros H. apply rbind_inv in H. destruct H as (st & S & H). apply rbind_inv in H. destruct H as (t & T & H).
  apply rbind_inv in H. destruct H as (s & U & H). apply rbind_inv in H. destruct H as (r & V & H). injection H as <-. cbn.
  apply setup_holds in S. destruct S as (_ & _ & _ & _ & A & B & _ & _).
  destruct (A 0%nat _ eq_refl) as (x & on & E1 & E2 & X). destruct (A 1%nat _ eq_refl) as (z & on2 & G1 & G2 & Z).
  destruct (B 0%nat _ eq_refl) as (y & on' & F1 & F2 & Y).
  split; [exact (attribute_newest _ _ _ _ _ _ _ _ _ _ _ E1 E2 X T)|]. split; [exact (attribute_newest _ _ _ _ _ _ _ _ _ _ _ G1 G2 Z U)|].
  exact (attribute_newest _ _ _ _ _ _ _ _ _ _ _ F1 F2 Y V).
Qed.
Lemma piston_contents e listing d : piston_deck read_csv read_text parse e listing = Ok d ->
  newest (serves e "power_data.csv") (read_table read_csv "Speed (RPM)" "Altitude (m)" "Power (W)") listing (pi_pwr d) /\
  newest (serves e "bsfc_data.csv") (read_table read_csv "Speed (RPM)" "Power (W)" "BSFC (g/(kWh))") listing (pi_bsfc d) /\
  newest (serves e "bsfc_best_power_data.csv") (read_table read_csv "Speed (RPM)" "Power (W)" "BSFC (g/(kWh))") listing (pi_bsfc_pwr d).
Proof.
  unfold piston_deck. intros H. apply rbind_inv in H. destruct H as (st & S & H). apply rbind_inv in H. destruct H as (t & T & H).
  apply rbind_inv in H. destruct H as (s & U & H). apply rbind_inv in H. destruct H as (r & V & H). injection H as <-. cbn.
  apply setup_holds in S. destruct S as (_ & _ & _ & _ & A & B & _ & _).
  destruct (A 0%nat _ eq_refl) as (x & on & E1 & E2 & X). destruct (B 1%nat _ eq_refl) as (z & on2 & G1 & G2 & Z).
  destruct (B 0%nat _ eq_refl) as (y & on' & F1 & F2 & Y).
  split; [exact (attribute_newest _ _ _ _ _ _ _ _ _ _ _ E1 E2 X T)|]. split; [exact (attribute_newest _ _ _ _ _ _ _ _ _ _ _ F1 F2 Y U)|].
  exact (attribute_newest _ _ _ _ _ _ _ _ _ _ _ G1 G2 Z V).
Qed.
Lemma electric_contents e listing d : electric_deck read_csv read_text parse e listing = Ok d ->
  newest (serves e "efficiency_data.csv") (read_table read_csv "Speed (RPM)" "Torque (Nm)" "Efficiency") listing (option_map el_tab d).
Proof.
  unfold electric_deck. intros H. apply rbind_inv in H. destruct H as (st & S & H). apply rbind_inv in H. destruct H as (t & T & H).
  apply setup_holds in S. destruct S as (_ & _ & _ & _ & A & B & _ & _).
  destruct (A 0%nat _ eq_refl) as (x & on & E1 & E2 & X).
  pose proof (attribute_newest _ _ _ _ _ _ _ _ _ _ _ E1 E2 X T) as N.
  destruct t as [t|]; injection H as <-; exact N.
Qed.

(** ** Order of the listing *)
Lemma slot_readable {A} hit (read : string -> res A) l d on : at_most_one hit l -> slot hit read l d on ->
  forall f, In f l -> hit f -> exists a, read f = Ok a.
Proof.
  intros U [(_ & _ & N)|(pre & g & post & a & -> & H & _ & R & _)] f I Hf; [destruct (N f I Hf)|].
  exists a. rewrite (U f g); auto. apply in_elt.
Qed.
Lemma holds_readable e outs effs l st : setup read_csv read_text parse e l outs effs = Ok st ->
  (forall o, In o outs \/ In o effs -> at_most_one (serves e (dfile o)) l) ->
  at_most_one (fun f => exists o, In o outs /\ serves e (slfile o) f) l ->
  at_most_one (fun f => exists o, In o outs /\ serves e (tofile o) f) l ->
  readable read_csv read_text parse e outs effs l.
Proof.
  intros S U1 U2 U3. apply setup_holds in S. destruct S as (_ & _ & _ & _ & A & B & C & D). split.
  - intros f o I [J|J] V; apply In_nth_error in J as K; destruct K as (j & K).
    + destruct (A j o K) as (d & on & _ & _ & T). exact (slot_readable _ _ _ _ _ (U1 o (or_introl J)) T f I V).
    + destruct (B j o K) as (d & on & _ & _ & T). exact (slot_readable _ _ _ _ _ (U1 o (or_intror J)) T f I V).
  - intros f o I J [V|V].
    + apply (slot_readable _ _ _ _ _ U2 C f I). exists o. auto.
    + apply (slot_readable _ _ _ _ _ U3 D f I). exists o. auto.
Qed.
Lemma setup_permuted e outs effs l l' st : Permutation l l' ->
  (forall o, In o outs \/ In o effs -> at_most_one (serves e (dfile o)) l) ->
  at_most_one (fun f => exists o, In o outs /\ serves e (slfile o) f) l ->
  at_most_one (fun f => exists o, In o outs /\ serves e (tofile o) f) l ->
  setup read_csv read_text parse e l outs effs = Ok st -> setup read_csv read_text parse e l' outs effs = Ok st.
Proof.
  intros P U1 U2 U3 H. refine (setup_order _ _ _ _ _ _ _ _ _ P _ U1 U2 U3 H). exact (holds_readable _ _ _ _ _ H U1 U2 U3).
Qed.
Lemma at_most_one_ext (P Q : string -> Prop) l : (forall f, P f <-> Q f) -> at_most_one P l -> at_most_one Q l.
Proof. intros E U f g I J Hf Hg. apply U; auto; apply E; assumption. Qed.
(** the kinds of file a deck looks for *)
Definition jet_kinds : list string := ["thrust_data.csv"; "tsfc_data.csv"; "sea_level_thrust_polynomial.csv"; "sea_level_take_off_thrust_polynomial.csv"]%string.
Lemma jet_order e l l' d : Permutation l l' -> (forall k, In k jet_kinds -> at_most_one (serves e k) l) ->
  jet_deck read_csv read_text parse e l = Ok d -> jet_deck read_csv read_text parse e l' = Ok d.
Proof.
  intros P U. unfold jet_deck. intros H. apply rbind_inv in H. destruct H as (st & S & H).
  rewrite (setup_permuted e _ _ l l' st P); [exact H| | | |exact S].
  - intros o [[<-|[]]|[<-|[]]]; apply U; cbn; auto 10.
  - apply (at_most_one_ext _ _ _ (fun f => iff_sym (one_kind slfile e "thrust" f))). apply U. cbn. auto 10.
  - apply (at_most_one_ext _ _ _ (fun f => iff_sym (one_kind tofile e "thrust" f))). apply U. cbn. auto 10.
Qed.
(** polynomials a deck ignores must still be readable: none of the names asks for them *)
Lemma no_poly (g : string -> string) ks e l : (forall f, In f l -> ~ (exists o, In o ks /\ serves e (g o) f)) ->
  at_most_one (fun f => exists o, In o ks /\ serves e (g o) f) l.
Proof. intros N f f' I _ H. destruct (N f I H). Qed.
Lemma turboprop_order e l l' d : Permutation l l' ->
  (forall k, In k ["thrust_data.csv"; "power_data.csv"; "bsfc_data.csv"]%string -> at_most_one (serves e k) l) ->
  (forall f, In f l -> ~ occurs "polynomial" (lowercase f)) ->
  turboprop_deck read_csv read_text parse e l = Ok d -> turboprop_deck read_csv read_text parse e l' = Ok d.
Proof.
  intros P U N. unfold turboprop_deck. intros H. apply rbind_inv in H. destruct H as (st & S & H).
  rewrite (setup_permuted e _ _ l l' st P); [exact H| | | |exact S].
  - intros o [[<-|[<-|[]]]|[<-|[]]]; apply U; cbn; auto 10.
  - apply no_poly. intros f I (o & [<-|[<-|[]]] & (_ & a & b & E)); apply (N f I).
    + exists (a ++ "sea_level_thrust_")%string, (".csv" ++ b)%string. rewrite E, append_assoc. reflexivity.
    + exists (a ++ "sea_level_power_")%string, (".csv" ++ b)%string. rewrite E, append_assoc. reflexivity.
  - apply no_poly. intros f I (o & [<-|[<-|[]]] & (_ & a & b & E)); apply (N f I).
    + exists (a ++ "sea_level_take_off_thrust_")%string, (".csv" ++ b)%string. rewrite E, append_assoc. reflexivity.
    + exists (a ++ "sea_level_take_off_power_")%string, (".csv" ++ b)%string. rewrite E, append_assoc. reflexivity.
Qed.
Lemma piston_order e l l' d : Permutation l l' ->
  (forall k, In k ["power_data.csv"; "bsfc_data.csv"; "bsfc_best_power_data.csv"]%string -> at_most_one (serves e k) l) ->
  (forall f, In f l -> ~ occurs "polynomial" (lowercase f)) ->
  piston_deck read_csv read_text parse e l = Ok d -> piston_deck read_csv read_text parse e l' = Ok d.
Proof.
  intros P U N. unfold piston_deck. intros H. apply rbind_inv in H. destruct H as (st & S & H).
  rewrite (setup_permuted e _ _ l l' st P); [exact H| | | |exact S].
  - intros o [[<-|[]]|[<-|[<-|[]]]]; apply U; cbn; auto 10.
  - apply no_poly. intros f I (o & [<-|[]] & (_ & a & b & E)); apply (N f I).
    exists (a ++ "sea_level_power_")%string, (".csv" ++ b)%string. rewrite E, append_assoc. reflexivity.
  - apply no_poly. intros f I (o & [<-|[]] & (_ & a & b & E)); apply (N f I).
    exists (a ++ "sea_level_take_off_power_")%string, (".csv" ++ b)%string. rewrite E, append_assoc. reflexivity.
Qed.
Lemma electric_order e l l' d : Permutation l l' ->
  (forall k, In k ["efficiency_data.csv"; "_data.csv"]%string -> at_most_one (serves e k) l) ->
  (forall f, In f l -> ~ occurs "polynomial" (lowercase f)) ->
  electric_deck read_csv read_text parse e l = Ok d -> electric_deck read_csv read_text parse e l' = Ok d.
Proof.
  intros P U N. unfold electric_deck. intros H. apply rbind_inv in H. destruct H as (st & S & H).
  rewrite (setup_permuted e _ _ l l' st P); [exact H| | | |exact S].
  - intros o [[<-|[]]|[<-|[]]]; apply U; cbn; auto 10.
  - apply no_poly. intros f I (o & [<-|[]] & (_ & a & b & E)); apply (N f I).
    exists (a ++ "sea_level_efficiency_")%string, (".csv" ++ b)%string. rewrite E, append_assoc. reflexivity.
  - apply no_poly. intros f I (o & [<-|[]] & (_ & a & b & E)); apply (N f I).
    exists (a ++ "sea_level_take_off_efficiency_")%string, (".csv" ++ b)%string. rewrite E, append_assoc. reflexivity.
Qed.
End Decks.

(** ** The shipped directories *)
Definition servesb (e k f : string) : bool := (contains e f && contains k (lower f))%bool.
Lemma servesb_spec e k f : servesb e k f = true <-> serves e k f.
Proof. unfold servesb, serves. rewrite <- lower_is, andb_true_iff, !contains_spec. tauto. Qed.
Lemma at_most_one_check e k l : Nat.leb (List.length (filter (servesb e k) l)) 1 = true -> at_most_one (serves e k) l.
Proof.
  intros H f g I J Hf Hg. apply Nat.leb_le in H.
  assert (F : In f (filter (servesb e k) l)) by (apply filter_In; split; [exact I|apply servesb_spec; exact Hf]).
  assert (G : In g (filter (servesb e k) l)) by (apply filter_In; split; [exact J|apply servesb_spec; exact Hg]).
  destruct (filter (servesb e k) l) as [|x [|y r]]; [destruct F| |cbn in H; lia].
  destruct F as [<-|[]]. destruct G as [<-|[]]. reflexivity.
Qed.
Lemma forallb_In {A} (p : A -> bool) l : forallb p l = true -> forall x, In x l -> p x = true.
Proof. intros H x I. rewrite forallb_forall in H. auto. Qed.
Lemma shipped_unique engines kinds files :
  forallb (fun e => forallb (fun k => Nat.leb (List.length (filter (servesb e k) files)) 1) kinds) engines = true ->
  forall e k, In e engines -> In k kinds -> at_most_one (serves e k) files.
Proof. intros H e k I J. apply at_most_one_check. exact (forallb_In _ _ (forallb_In _ _ H e I) k J). Qed.
Lemma shipped_owned engines files :
  forallb (fun e => forallb (fun f => implb (contains e f) (prefix (e ++ "_") f)) files) engines = true ->
  forall e f, In e engines -> In f files -> occurs e f -> belongs e f.
Proof.
  intros H e f I J O. apply contains_spec in O. pose proof (forallb_In _ _ (forallb_In _ _ H e I) f J) as K. cbn in K.
  rewrite O in K. cbn in K. apply prefix_spec in K. destruct K as (r & ->). exists r. apply append_assoc.
Qed.
Lemma no_polynomials files : forallb (fun f => negb (contains "polynomial" (lower f))) files = true ->
  forall f, In f files -> ~ occurs "polynomial" (lowercase f).
Proof. intros H f I. rewrite <- lower_is. apply contains_false. pose proof (forallb_In _ _ H f I) as K. cbn in K. now apply negb_true_iff in K. Qed.

Lemma shipped_decks : forall read_csv read_text parse,
  (forall e l d, In e jet_engines -> Permutation jet_files l -> jet_deck read_csv read_text parse e jet_files = Ok d ->
     jet_deck read_csv read_text parse e l = Ok d) /\
  (forall e l d, In e turboprop_engines -> Permutation turboprop_files l -> turboprop_deck read_csv read_text parse e turboprop_files = Ok d ->
     turboprop_deck read_csv read_text parse e l = Ok d) /\
  (forall e l d, In e electric_engines -> Permutation electric_files l -> electric_deck read_csv read_text parse e electric_files = Ok d ->
     electric_deck read_csv read_text parse e l = Ok d) /\
  (forall l d, Permutation piston_files l -> piston_deck read_csv read_text parse "Wasp_Major_B13" piston_files = Ok d ->
     piston_deck read_csv read_text parse "Wasp_Major_B13" l = Ok d).
Proof.
  intros rc rt ps. split; [|split; [|split]].
  - intros e l d I P. apply (jet_order _ _ _ _ _ _ _ P). intros k J. revert I J. apply shipped_unique. vm_compute. reflexivity.
  - intros e l d I P. apply (turboprop_order _ _ _ _ _ _ _ P); [|apply no_polynomials; vm_compute; reflexivity].
    intros k J. revert I J. apply shipped_unique. vm_compute. reflexivity.
  - intros e l d I P. apply (electric_order _ _ _ _ _ _ _ P); [|apply no_polynomials; vm_compute; reflexivity].
    intros k J. revert I J. apply shipped_unique. vm_compute. reflexivity.
  - intros l d P. apply (piston_order _ _ _ _ _ _ _ P); [|apply no_polynomials; vm_compute; reflexivity].
    intros k J. revert J. apply (shipped_unique ["Wasp_Major_B13"%string]); [vm_compute; reflexivity|left; reflexivity].
Qed.
Lemma shipped_ownership :
  (forall e f, In e jet_engines -> In f jet_files -> occurs e f -> belongs e f) /\
  (forall e f, In e turboprop_engines -> In f turboprop_files -> occurs e f -> belongs e f) /\
  (forall e f, In e piston_engines -> In f piston_files -> occurs e f -> belongs e f) /\
  (forall e f, In e electric_engines -> In f electric_files -> occurs e f -> belongs e f).
Proof. repeat split; apply shipped_owned; vm_compute; reflexivity. Qed.

(** the piston deck of the IO-540 depends on the order *)
Definition io540_frames (f : string) : res frame :=
  if String.eqb f "IO-540_Power_data.csv" then Ok [("Speed (RPM)"%string, [#2000%num]); ("Altitude (m)"%string, [#0%num]); ("Power (W)"%string, [#140000%num])]
  else Ok [("Speed (RPM)"%string, [#2000%num]); ("Power (W)"%string, [#100000%num]); ("BSFC (g/(kWh))"%string, [#300%num])].
Definition piston_files' : list string := [
  "IO-540_Power_data.csv"; "IO-540_BSFC_best_power_data.csv"; "IO-540_BSFC_data.csv";
  "Wasp_Major_B13_BSFC_data.csv"; "Wasp_Major_B13_Power_data.csv"; "_piston_metadata.csv"]%string.
Lemma io540_order : exists rt ps d, piston_deck io540_frames rt ps "IO-540" piston_files = Ok d /\ pi_pwr d <> None /\
  Permutation piston_files piston_files' /\ piston_deck io540_frames rt ps "IO-540" piston_files' = Err KeyError.
Proof.
  exists (fun _ => Err FileNotFoundError), (fun _ => None). eexists. split; [vm_compute; reflexivity|]. split; [discriminate|]. split; [|vm_compute; reflexivity].
  unfold piston_files, piston_files'.
  eapply perm_trans; [apply perm_skip; apply perm_swap|]. apply perm_swap.
Qed.
(** a deck takes the data of another engine *)
Lemma other_engine : exists rc rt ps d t, jet_deck rc rt ps "TF30" ["TF30_Thrust_data.csv"; "STF30_Thrust_data.csv"]%string = Ok d /\
  jt_thr d = Some t /\ read_table rc "Mach Number" "Altitude (m)" "Thrust (N)" "STF30_Thrust_data.csv" = Ok t /\
  read_table rc "Mach Number" "Altitude (m)" "Thrust (N)" "TF30_Thrust_data.csv" <> Ok t.
Proof.
  exists (fun f => Ok [("Mach Number"%string, [#0%num]); ("Altitude (m)"%string, [#0%num]);
    ("Thrust (N)"%string, [if String.eqb f "TF30_Thrust_data.csv" then NonFin else #1%num])]), (fun _ => Err FileNotFoundError), (fun _ => None).
  eexists. eexists. split; [vm_compute; reflexivity|]. split; [reflexivity|]. split; [vm_compute; reflexivity|]. vm_compute. discriminate.
Qed.
Lemma prefix_of_engine : exists rc rt ps d t, jet_deck rc rt ps "J5" jet_files = Ok d /\ jt_thr d = Some t /\
  ~ (exists f, In f jet_files /\ belongs "J5" f).
Proof.
  exists (fun f => Ok [("Mach Number"%string, []); ("Altitude (m)"%string, []); ("Thrust (N)"%string, []); ("TSFC (g/(kNs))"%string, [])]),
    (fun _ => Ok (String "010" ""%string)), (fun _ => Some #0%num).
  eexists. eexists. split; [vm_compute; reflexivity|]. split; [reflexivity|].
  intros (f & I & k & E). assert (C : prefix "J5_" f = true) by (apply prefix_spec; exists k; exact E).
  assert (K : forallb (fun f => negb (prefix "J5_" f)) jet_files = true) by (vm_compute; reflexivity).
  pose proof (forallb_In _ _ K f I) as K2. cbn beta in K2. rewrite C in K2. discriminate.
Qed.

(** ** The catalogue *)
Lemma local_data_unknown ld md t : ~ In (lowercase t) ["turboprop"; "jet"; "electric"; "piston"]%string -> local_data ld md t = Err LookupError.
Proof.
  rewrite <- lower_is. intros H. unfold local_data. destruct (existsb (String.eqb (lower t)) enginetypes) eqn:E; [|reflexivity].
  apply existsb_exists in E. destruct E as (x & I & E). apply String.eqb_eq in E. subst x. destruct (H I).
Qed.
Definition row_entry (listing : list string) (rows : list (list string)) (name : string) (x : engine_entry) : Prop :=
  exists pre post, rows = (pre ++ [name; engine_notes x; reference x] :: post)%list /\
    (forall n a b, In [n; a; b] post -> n <> name) /\ available_data x = filter (contains name) listing.
Lemma local_rows listing : forall rows, (forall r, In r rows -> List.length r = 3%nat) ->
  exists d, foldM (local_entry listing) [] rows = Ok d /\ forall name x, dget name d = Some x <-> row_entry listing rows name x.
Proof.
  induction rows as [|r rows IH] using rev_ind; intros H.
  - exists []. split; [reflexivity|]. intros name x. cbn. split; [discriminate|]. intros (pre & post & E & _). destruct pre; discriminate.
  - destruct IH as (d & E & K); [intros q I; apply H; apply in_or_app; left; exact I|].
    assert (L : List.length r = 3%nat) by (apply H; apply in_or_app; right; left; reflexivity).
    destruct r as [|n [|a [|b [|z r]]]]; cbn in L; try lia. rewrite foldM_app, E. cbn [rbind foldM local_entry]. eexists. split; [reflexivity|].
    intros name x. rewrite dget_set. destruct (String.eqb_spec name n) as [->|N].
    + split.
      * intros J. injection J as <-. exists rows, []. cbn. split; [reflexivity|]. split; [intros ? ? ? []|reflexivity].
      * intros (pre & post & J & M & V). f_equal. destruct post as [|q post] using rev_ind.
        -- apply app_inj_tail in J. destruct J as (-> & J). injection J as -> ->. destruct x; cbn in *. now rewrite V.
        -- clear IHpost. exfalso. assert (J2 : (rows ++ [[n; a; b]])%list = ((pre ++ [n; engine_notes x; reference x] :: post) ++ [q])%list)
             by (rewrite J, <- app_assoc; reflexivity). apply app_inj_tail in J2. destruct J2 as (_ & <-).
           apply (M n a b); [apply in_or_app; right; left; reflexivity|reflexivity].
    + rewrite K. unfold row_entry. split.
      * intros (pre & post & -> & M & V). exists pre, (post ++ [[n; a; b]])%list. split; [rewrite <- app_assoc; reflexivity|]. split; [|exact V].
        intros n' a' b' I. apply in_app_or in I. destruct I as [I|[I|[]]]; [exact (M _ _ _ I)|]. injection I as <- _ _. congruence.
      * intros (pre & post & J & M & V). destruct post as [|q post] using rev_ind.
        -- apply app_inj_tail in J. destruct J as (_ & J). injection J as J _ _. congruence.
        -- clear IHpost. assert (J2 : (rows ++ [[n; a; b]])%list = ((pre ++ [name; engine_notes x; reference x] :: post) ++ [q])%list)
             by (rewrite J, <- app_assoc; reflexivity). apply app_inj_tail in J2. destruct J2 as (-> & <-).
           exists pre, post. split; [reflexivity|]. split; [|exact V]. intros n' a' b' I. apply (M n' a' b'). apply in_or_app. left. exact I.
Qed.
Lemma local_data_known ld md t : In (lowercase t) ["turboprop"; "jet"; "electric"; "piston"]%string ->
  (forall r, In r (md (lowercase t)) -> List.length r = 3%nat) ->
  exists d, local_data ld md t = Ok d /\ forall name x, binds d name x <->
    exists pre post, md (lowercase t) = (pre ++ [name; engine_notes x; reference x] :: post)%list /\
      (forall n a b, In [n; a; b] post -> n <> name) /\
      exists keep, (forall f, keep f = true <-> occurs name f) /\ available_data x = filter keep (ld (lowercase t)).
Proof.
  rewrite <- lower_is. intros I H. unfold local_data. destruct (existsb (String.eqb (lower t)) enginetypes) eqn:E.
  - destruct (local_rows (ld (lower t)) _ H) as (d & Ed & K). exists d. split; [exact Ed|]. intros name x. rewrite <- dget_binds, K. unfold row_entry.
    split; intros (pre & post & A & B & C); exists pre, post; split; try exact A; split; try exact B.
    + exists (contains name). split; [intros f; apply contains_spec|exact C].
    + destruct C as (keep & C & ->). apply filter_ext. intros f. specialize (C f). rewrite <- contains_spec in C.
      destruct (keep f), (contains name f); try reflexivity; [symmetry; apply C; reflexivity|apply C; reflexivity].
  - exfalso. assert (existsb (String.eqb (lower t)) enginetypes = true); [|congruence]. apply existsb_exists. exists (lower t). split; [exact I|apply String.eqb_refl].
Qed.
