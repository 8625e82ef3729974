From Coq Require Import Ascii.
From Verif Require Import Base BaseFacts AtmosModel ConceptModel ConceptSpec ConceptProofs PropulsionModel PropulsionSpec PropulsionProofs PropulsionProofs2 PropulsionProofs3
  CatalogueModel CatalogueSpec.

(** ** Text *)
Lemma text_app a : forall b, text_of (a ++ b)%list = (text_of a ++ text_of b)%string.
Proof. induction a as [|x a IH]; intros b; cbn [text_of app]; [reflexivity|]. rewrite IH, append_assoc. reflexivity. Qed.
Lemma item_text items rest :
  ((" >" ++ " " ++ String.concat (lf ++ " > ") items ++ lf) ++ rest =
   text_of (map (fun i => " > " ++ i) match items with [] => [""] | _ => items end) ++ rest)%string.
Proof.
  f_equal. destruct items as [|x r]; [reflexivity|]. revert x. induction r as [|y r IH]; intros x; [reflexivity|].
  specialize (IH y). remember (String.concat (lf ++ " > ") (y :: r)) as rest0.
  assert (E : String.concat (lf ++ " > ") (x :: y :: r) = (x ++ (lf ++ " > ") ++ rest0)%string) by (rewrite Heqrest0; reflexivity).
  rewrite E. cbn [map text_of]. cbn [map text_of] in IH. rewrite <- IH. rewrite !append_assoc. reflexivity.
Qed.
Lemma dash s : exists s', or_dash s s' /\ (if negb (Nat.eqb (String.length s) 0) then s else "-"%string) = s'.
Proof.
  destruct s as [|c r].
  - exists "-"%string. split; [left; now split|reflexivity].
  - eexists. split; [right; split; [discriminate|reflexivity]|reflexivity].
Qed.

(** ** Categories *)
Lemma category_title c : In c ["turboprop"; "jet"; "electric"; "piston"]%string -> titled c (capitalize c).
Proof. cbn. intros [<-|[<-|[<-|[<-|[]]]]]; cbn; constructor. Qed.
Lemma category_kinds c : In c ["turboprop"; "jet"; "electric"; "piston"]%string -> described c (file_name_replace c).
Proof. cbn. intros [<-|[<-|[<-|[<-|[]]]]]; cbn; constructor. Qed.
Lemma plain_texts c : map (fun kv : string * string => without_csv (snd kv)) (file_name_replace c) = map snd (file_name_replace c).
Proof.
  unfold file_name_replace. destruct (String.eqb c "turboprop"); [reflexivity|]. destruct (String.eqb c "jet"); [reflexivity|].
  destruct (String.eqb c "electric"); [reflexivity|]. destruct (String.eqb c "piston"); reflexivity.
Qed.

(** ** Items *)
Lemma one_kind k v e : forall listing, exists n, this_many e k listing n /\
  flat_map (fun f => if contains k f then [v : string] else []) (filter (contains e) listing) = repeat v n.
Proof.
  intros listing. exists (List.length (filter (fun f => contains e f && contains k f)%bool listing)). split.
  - exists (fun f => contains e f && contains k f)%bool. split; [|reflexivity].
    intros f. rewrite andb_true_iff, !contains_spec. tauto.
  - induction listing as [|f l IH]; [reflexivity|]. cbn [filter]. destruct (contains e f) eqn:E; cbn [andb]; [|exact IH].
    cbn [flat_map]. rewrite IH. destruct (contains k f); reflexivity.
Qed.
Lemma kind_items e listing kinds : listed e listing kinds
  (flat_map (fun kv => flat_map (fun f => if contains (fst kv) f then [snd kv] else []) (filter (contains e) listing)) kinds).
Proof.
  induction kinds as [|[k v] kinds IH]; [constructor|]. cbn [flat_map fst snd].
  destruct (one_kind k v e listing) as (n & C & ->). constructor; assumption.
Qed.
Lemma map_flat {A B C} (f : B -> C) (g : A -> list B) l : map f (flat_map g l) = flat_map (fun x => map f (g x)) l.
Proof. induction l as [|x l IH]; [reflexivity|]. cbn. now rewrite map_app, IH. Qed.
Lemma parsed_items e listing c : listed e listing (file_name_replace c) (available_data_parsed c (filter (contains e) listing)).
Proof.
  unfold available_data_parsed. rewrite map_flat.
  assert (K : forall kinds, map (fun kv : string * string => without_csv (snd kv)) kinds = map snd kinds ->
    flat_map (fun kv : string * string => map without_csv (flat_map (fun f => if contains (fst kv) f then [snd kv] else []) (filter (contains e) listing))) kinds
    = flat_map (fun kv => flat_map (fun f => if contains (fst kv) f then [snd kv] else []) (filter (contains e) listing)) kinds).
  { induction kinds as [|[k v] kinds IH]; intros M; [reflexivity|]. cbn [map] in M. cbn [flat_map fst snd] in *. injection M as M M2.
    f_equal; [|exact (IH M2)]. rewrite map_flat. f_equal.
    apply FunctionalExtensionality.functional_extensionality. intros f. destruct (contains k f); cbn; [now rewrite M|reflexivity]. }
  rewrite K by apply plain_texts. apply kind_items.
Qed.

(** ** Pages *)
Lemma page_right c listing e n r : In c ["turboprop"; "jet"; "electric"; "piston"]%string ->
  page c listing [e; n; r] (engine_page c e n r (filter (contains e) listing)).
Proof.
  intros I. destruct (dash n) as (n' & Dn & En). destruct (dash r) as (r' & Dr & Er).
  pose proof (page_of c listing e n r _ _ _ _ n' r' (category_title c I) (category_kinds c I) (parsed_items e listing c) Dn Dr eq_refl) as P.
  unfold engine_page. rewrite En, Er. rewrite text_app, (text_app (map _ _)) in P.
  replace ((e ++ " (" ++ capitalize c ++ " Deck)" ++ lf) ++
   ("Ground-Truth Data Available:" ++ lf ++ " >" ++ " " ++
      String.concat (lf ++ " > ") (available_data_parsed c (filter (contains e) listing)) ++ lf) ++
   ("Engine Notes:" ++ lf ++ " " ++ n' ++ lf) ++ ("Reference:" ++ lf ++ " " ++ r' ++ " " ++ (lf ++ lf) ++ lf))%string
    with (text_of ([e ++ " (" ++ capitalize c ++ " Deck)"; "Ground-Truth Data Available:"])%string ++
   (text_of (map (fun i => " > " ++ i) match available_data_parsed c (filter (contains e) listing) with
                               | [] => [""]
                               | _ => available_data_parsed c (filter (contains e) listing)
                               end) ++ text_of ["Engine Notes:"; " " ++ n'; "Reference:"; " " ++ r' ++ " "; ""; ""]))%string; [exact P|].
  rewrite <- item_text. cbn [text_of]. unfold lf. cbn [append]. rewrite ?append_assoc. cbn [append]. rewrite ?append_assoc. cbn [append]. rewrite ?append_assoc. reflexivity.
Qed.

(** ** The loop *)
Lemma loop_result b c listing : forall rows d, snd (metadata_loop b c listing d rows) = foldM (local_entry listing) d rows.
Proof.
  induction rows as [|row rows IH]; intros d; [reflexivity|].
  destruct row as [|e [|n [|r [|z q]]]]; try reflexivity. cbn [metadata_loop foldM local_entry rbind].
  specialize (IH (dset e {| available_data := filter (contains e) listing; engine_notes := n; reference := r |} d)).
  destruct (metadata_loop _ _ _ _ _) as (t, o). exact IH.
Qed.
Lemma loop_silent c listing : forall rows d, fst (metadata_loop false c listing d rows) = ""%string.
Proof.
  induction rows as [|row rows IH]; intros d; [reflexivity|].
  destruct row as [|e [|n [|r [|z q]]]]; try reflexivity. cbn [metadata_loop].
  specialize (IH (dset e {| available_data := filter (contains e) listing; engine_notes := n; reference := r |} d)).
  destruct (metadata_loop _ _ _ _ _) as (t, o). exact IH.
Qed.
Definition stops (rest : list (list string)) : Prop :=
  match rest with [] => True | bad :: _ => List.length bad <> 3%nat end.
Lemma loop_pages c listing rest : In c ["turboprop"; "jet"; "electric"; "piston"]%string -> stops rest ->
  forall rows d, (forall r, In r rows -> List.length r = 3%nat) -> pages c listing rows (fst (metadata_loop true c listing d (rows ++ rest))).
Proof.
  intros I S. induction rows as [|row rows IH]; intros d L.
  - cbn [app]. destruct rest as [|bad rest]; [constructor|]. cbn in S.
    destruct bad as [|e [|n [|r [|z q]]]]; cbn in *; try constructor; try congruence.
  - assert (L1 : List.length row = 3%nat) by (apply L; left; reflexivity).
    destruct row as [|e [|n [|r [|z q]]]]; cbn in L1; try lia. cbn [metadata_loop app].
    specialize (IH (dset e {| available_data := filter (contains e) listing; engine_notes := n; reference := r |} d) (fun x J => L x (or_intror J))).
    destruct (metadata_loop _ _ _ _ _) as (t, o). cbn [fst] in *. constructor; [|exact IH]. now apply page_right.
Qed.

Lemma known_category t : In (lowercase t) ["turboprop"; "jet"; "electric"; "piston"]%string -> negb (existsb (String.eqb (lower t)) enginetypes) = false.
Proof.
  rewrite <- lower_is. intros I. apply negb_false_iff, existsb_exists. exists (lower t). split; [exact I|apply String.eqb_refl].
Qed.

Lemma printed_result ld md t p : snd (local_data_printed ld md t p) = local_data ld md t.
Proof.
  unfold local_data_printed, local_data. destruct (existsb (String.eqb (lower t)) enginetypes); [|reflexivity]. apply loop_result.
Qed.
Lemma printed_silent ld md t p : p <> PrintTrue -> fst (local_data_printed ld md t p) = ""%string.
Proof.
  intros N. unfold local_data_printed. destruct (negb _); [reflexivity|]. destruct p; [congruence| |]; apply loop_silent.
Qed.
Lemma printed_unknown ld md t p : ~ In (lowercase t) ["turboprop"; "jet"; "electric"; "piston"]%string ->
  local_data_printed ld md t p = (""%string, Err LookupError).
Proof.
  intros N. pose proof (printed_result ld md t p) as R. rewrite (local_data_unknown ld md t N) in R.
  unfold local_data_printed in *. destruct (existsb (String.eqb (lower t)) enginetypes) eqn:E; [|reflexivity]. exfalso. apply N.
  rewrite <- lower_is. apply existsb_exists in E. destruct E as (x & I & E). apply String.eqb_eq in E. subst x. exact I.
Qed.
Lemma printed_pages ld md t : In (lowercase t) ["turboprop"; "jet"; "electric"; "piston"]%string ->
  (forall r, In r (md (lowercase t)) -> List.length r = 3%nat) ->
  exists text d, local_data_printed ld md t PrintTrue = (text, Ok d) /\ local_data ld md t = Ok d /\
    pages (lowercase t) (ld (lowercase t)) (md (lowercase t)) text.
Proof.
  intros I L. destruct (local_data_known ld md t I L) as (d & E & _).
  exists (fst (local_data_printed ld md t PrintTrue)), d. split; [|split; [exact E|]].
  - rewrite <- E, <- (printed_result ld md t PrintTrue). apply surjective_pairing.
  - unfold local_data_printed. rewrite known_category by exact I. rewrite lower_is.
    pose proof (loop_pages (lowercase t) (ld (lowercase t)) [] I Logic.I (md (lowercase t)) [] L) as P. rewrite app_nil_r in P. exact P.
Qed.
Lemma printed_bad_row ld md t good bad rest : In (lowercase t) ["turboprop"; "jet"; "electric"; "piston"]%string ->
  md (lowercase t) = (good ++ bad :: rest)%list -> (forall r, In r good -> List.length r = 3%nat) -> List.length bad <> 3%nat ->
  exists text, local_data_printed ld md t PrintTrue = (text, Err ValueError) /\ pages (lowercase t) (ld (lowercase t)) good text.
Proof.
  intros I M L B. exists (fst (local_data_printed ld md t PrintTrue)). split.
  - rewrite (surjective_pairing (local_data_printed ld md t PrintTrue)) at 1. f_equal. rewrite printed_result. unfold local_data.
    pose proof (known_category t I) as K. apply negb_false_iff in K. rewrite K, lower_is, M, foldM_app.
    destruct (local_rows (ld (lowercase t)) good L) as (d & -> & _). cbn [rbind foldM].
    destruct bad as [|e [|n [|r [|z q]]]]; cbn in *; try reflexivity; try congruence.
  - unfold local_data_printed. rewrite known_category by exact I. rewrite lower_is, M. now apply loop_pages.
Qed.

(** the specification leaves no choice *)
Lemma count_unique e k listing n m : this_many e k listing n -> this_many e k listing m -> n = m.
Proof.
  intros (f & F & ->) (g & G & ->). f_equal. apply filter_ext. intros x. specialize (F x). specialize (G x).
  destruct (f x), (g x); try reflexivity; exfalso; [destruct F as [F _], G as [_ G]|destruct F as [_ F], G as [G _]]; intuition discriminate.
Qed.
Lemma listed_unique e listing kinds : forall a b, listed e listing kinds a -> listed e listing kinds b -> a = b.
Proof.
  induction kinds as [|[k v] kinds IH]; intros a b A B; inversion A; inversion B; subst; [reflexivity|].
  f_equal; [f_equal; eapply count_unique; eassumption|now apply IH].
Qed.
Lemma page_unique c listing row t t' : page c listing row t -> page c listing row t' -> t = t'.
Proof.
  intros A B. inversion A as [e n r k ti it li n' r' T D L N R Li]; subst. inversion B as [e2 n2 r2 k2 ti2 it2 li2 n2' r2' T2 D2 L2 N2 R2 Li2]; subst.
  assert (k = k2) by (destruct D; inversion D2; reflexivity). subst k2.
  assert (ti = ti2) by (destruct T; inversion T2; reflexivity). subst ti2.
  assert (it = it2) by (eapply listed_unique; eassumption). subst it2.
  assert (n' = n2') by (destruct N as [[? ?]|[? ?]], N2 as [[? ?]|[? ?]]; congruence).
  assert (r' = r2') by (destruct R as [[? ?]|[? ?]], R2 as [[? ?]|[? ?]]; congruence). subst. reflexivity.
Qed.
Lemma pages_unique c listing rows : forall t t', pages c listing rows t -> pages c listing rows t' -> t = t'.
Proof.
  induction rows as [|row rows IH]; intros t t' A B; inversion A; inversion B; subst; [reflexivity|].
  f_equal; [eapply page_unique; eassumption|now apply IH].
Qed.

(** ** What is listed and what is loaded *)
Lemma occurs_lower a s : occurs a s -> occurs (lowercase a) (lowercase s).
Proof.
  intros (l & r & ->). exists (lowercase l), (lowercase r).
  assert (K : forall x y, lowercase (x ++ y)%string = (lowercase x ++ lowercase y)%string).
  { induction x as [|c x IH]; intros y; cbn [append lowercase]; [reflexivity|]. now rewrite IH. }
  now rewrite !K.
Qed.
Lemma served_slot {A} hit (read : string -> res A) listing d f : newest hit read listing d -> In f listing -> hit f -> d <> None.
Proof. intros (on & [(_ & _ & N)|(pre & g & post & a & _ & _ & _ & _ & -> & _)]) I H; [destruct (N f I H)|discriminate]. Qed.
Lemma named_slot {A} e kind low (read : string -> res A) listing d : named e kind listing -> lowercase (kind ++ ".csv") = low ->
  newest (serves e low) read listing d -> d <> None.
Proof. intros (f & I & O & K) <- N. apply (served_slot _ _ _ _ f N I). split; [exact O|now apply occurs_lower]. Qed.
Lemma listed_loaded rc rt ps e listing :
  (forall d, jet_deck rc rt ps e listing = Ok d ->
    (named e "Thrust_data" listing -> jt_thr d <> None) /\ (named e "TSFC_data" listing -> jt_tsfc d <> None)) /\
  (forall d, turboprop_deck rc rt ps e listing = Ok d ->
    (named e "Thrust_data" listing -> tp_thr d <> None) /\ (named e "Power_data" listing -> tp_pwr d <> None) /\
    (named e "BSFC_data" listing -> tp_bsfc d <> None)) /\
  (forall d, piston_deck rc rt ps e listing = Ok d ->
    (named e "Power_data" listing -> pi_pwr d <> None) /\ (named e "BSFC_data" listing -> pi_bsfc d <> None)) /\
  (forall d, electric_deck rc rt ps e listing = Ok d -> named e "Efficiency_data" listing -> d <> None).
Proof.
  split; [|split; [|split]]; intros d E.
  - destruct (jet_contents _ _ _ _ _ _ E) as (A & B & _). split; intros N; [eapply named_slot; [exact N| |exact A]|eapply named_slot; [exact N| |exact B]]; reflexivity.
  - destruct (turboprop_contents _ _ _ _ _ _ E) as (A & B & C).
    split; [|split]; intros N; [eapply named_slot; [exact N| |exact A]|eapply named_slot; [exact N| |exact B]|eapply named_slot; [exact N| |exact C]]; reflexivity.
  - destruct (piston_contents _ _ _ _ _ _ E) as (A & B & _). split; intros N; [eapply named_slot; [exact N| |exact A]|eapply named_slot; [exact N| |exact B]]; reflexivity.
  - intros N. pose proof (named_slot _ _ _ _ _ _ N (eq_refl _) (electric_contents _ _ _ _ _ _ E)) as K. destruct d; [discriminate|destruct (K eq_refl)].
Qed.
Lemma items_of c e listing kinds items : file_name_replace c = kinds -> listed e listing kinds items ->
  items = available_data_parsed c (filter (contains e) listing).
Proof. intros <- L. eapply listed_unique; [exact L|]. apply parsed_items. Qed.
Lemma take_off_unread : forall rc rt ps,
  (forall kinds items, described "jet" kinds -> listed "JT8D-9" jet_files kinds items ->
     In "Take-off thrust (N) versus Mach number at SL"%string items) /\
  jet_deck rc rt ps "JT8D-9" jet_files =
  jet_deck rc rt ps "JT8D-9" (filter (fun f => negb (String.eqb f "JT8D-9_Thrust_SL_TO_data.csv")) jet_files).
Proof.
  intros rc rt ps. split; [|vm_compute; reflexivity].
  intros kinds items D L. inversion D; subst. rewrite (items_of "jet" _ _ _ _ eq_refl L). vm_compute. tauto.
Qed.
Lemma best_power_unlisted : 
  (forall kinds items, described "piston" kinds -> listed "IO-540" piston_files kinds items ->
     items = ["Shaft power (W) versus Engine Speed (RPM) and altitude (m)"; "BSFC (g/(kWh)) Engine Speed (RPM) and shaft power (W)"]%string) /\
  (forall kinds items, described "piston" kinds ->
     listed "IO-540" (filter (fun f => negb (String.eqb f "IO-540_BSFC_best_power_data.csv")) piston_files) kinds items ->
     items = ["Shaft power (W) versus Engine Speed (RPM) and altitude (m)"; "BSFC (g/(kWh)) Engine Speed (RPM) and shaft power (W)"]%string) /\
  forall rc rt ps d, piston_deck rc rt ps "IO-540" piston_files = Ok d -> pi_bsfc_pwr d <> None.
Proof.
  split; [|split]; [intros kinds items D L; inversion D; subst; rewrite (items_of "piston" _ _ _ _ eq_refl L); vm_compute; reflexivity..|].
  intros rc rt ps d E. destruct (piston_contents _ _ _ _ _ _ E) as (_ & _ & C).
  apply (served_slot _ _ _ _ "IO-540_BSFC_best_power_data.csv"%string C); [cbn; tauto|]. split.
  - exists ""%string, "_BSFC_best_power_data.csv"%string. reflexivity.
  - exists "io-540_"%string, ""%string. reflexivity.
Qed.
Lemma lower_case_unlisted :
  (forall kinds items, described "jet" kinds -> listed "X1" ["X1_thrust_data.csv"]%string kinds items -> items = []) /\
  forall rc rt ps d, jet_deck rc rt ps "X1" ["X1_thrust_data.csv"]%string = Ok d -> jt_thr d <> None.
Proof.
  split.
  - intros kinds items D L. inversion D; subst. rewrite (items_of "jet" _ _ _ _ eq_refl L). vm_compute. reflexivity.
  - intros rc rt ps d E. destruct (jet_contents _ _ _ _ _ _ E) as (A & _).
    apply (served_slot _ _ _ _ "X1_thrust_data.csv"%string A); [cbn; tauto|]. split.
    + exists ""%string, "_thrust_data.csv"%string. reflexivity.
    + exists "x1_"%string, ""%string. reflexivity.
Qed.

(** ** Propellers *)
Lemma entry_dget {V} (d : dict V) k : entry d k (dget k d).
Proof.
  unfold entry. destruct (dget k d) as [v|] eqn:E; [now apply dget_binds|]. intros x B. apply dget_binds in B. congruence.
Qed.
Lemma propeller_attributes d dp mi : exists p, propeller_init (PropellerDict d dp mi) = Ok p /\
  entry d "diameter_m" (diameter_m p) /\ entry d "bladecount" (bladecount p) /\ entry d "bladeactivityfact" (bladeactivityfact p) /\
  entry d "solidity" (solidity p) /\ entry d "idesign_cl" (idesign_cl p) /\
  (forall n, dp = Some n -> solve_dp p = n) /\ (dp = None -> solve_dp p = 6%nat) /\
  (forall n, mi = Some n -> solve_maxiter p = n) /\ (mi = None -> solve_maxiter p = 30%Z).
Proof.
  eexists. split; [reflexivity|]. unfold propeller_of. cbn [diameter_m bladecount bladeactivityfact solidity idesign_cl solve_dp solve_maxiter].
  repeat split; try apply entry_dget; try (intros n ->; reflexivity); try (intros ->; reflexivity).
Qed.
Lemma dget_other {V} (k k' : string) (v : V) : k <> k' -> forall l r, dget k (l ++ (k', v) :: r)%list = dget k (l ++ r)%list.
Proof.
  intros N. induction l as [|[k2 v2] l IH]; intros r; cbn [app dget].
  - destruct (String.eqb_spec k k'); [contradiction|reflexivity].
  - destruct (String.eqb k k2); [reflexivity|apply IH].
Qed.
Lemma unknown_ignored k v l r dp mi : ~ In k ["diameter_m"; "bladecount"; "bladeactivityfact"; "solidity"; "idesign_cl"]%string ->
  propeller_init (PropellerDict (l ++ (k, v) :: r)%list dp mi) = propeller_init (PropellerDict (l ++ r)%list dp mi).
Proof.
  intros N. cbn in N. unfold propeller_init, propeller_of. do 2 f_equal; apply dget_other; intros E; apply N; rewrite E; tauto.
Qed.
Lemma nan_pass cp adv sol cd e1 : cp = NonFin -> exists a b c, eta_pass cp adv sol cd e1 = (a, b, c) /\ nmul (nmul a b) c = NonFin.
Proof.
  intros ->. unfold eta_pass.
  assert (B : (#1 - interp01 ((#4 * e1 * NonFin) / (Fin PI ^ 3 * adv)))%num = NonFin).
  { replace (#4 * e1 * NonFin)%num with NonFin by (destruct e1; reflexivity). destruct (Fin PI ^ 3 * adv)%num; reflexivity. }
  rewrite B. do 3 eexists. split; [reflexivity|].
  match goal with |- nmul (nmul ?a NonFin) ?c = _ => destruct a, c; reflexivity end.
Qed.
Lemma nan_loop dp cp adv sol cd : cp = NonFin -> forall n e1 e, e = NonFin \/ n <> O -> eta_loop n dp cp adv sol cd e1 e = NonFin.
Proof.
  intros C. induction n as [|n IH]; intros e1 e H; cbn [eta_loop]; [destruct H; [assumption|congruence]|].
  destruct (nan_pass cp adv sol cd e1 C) as (a & b & c & -> & N). rewrite N.
  replace (round_eqb dp e NonFin) with false by (destruct e; reflexivity). apply IH. left. reflexivity.
Qed.
Lemma mapM_Forall {A B} (f : A -> res B) (P : B -> Prop) : (forall x y, f x = Ok y -> P y) -> forall l r, mapM f l = Ok r -> Forall P r.
Proof.
  intros H. induction l as [|x l IH]; intros r E; cbn [mapM] in E.
  - injection E as <-. constructor.
  - apply rbind_ok in E. destruct E as (y & E1 & E). apply rbind_ok in E. destruct E as (ys & E2 & E). injection E as <-. constructor; [eapply H; eassumption|now apply IH].
Qed.
Lemma no_diameter p ms hs Ps rpm q etas : diameter_m p = None -> (0 < solve_maxiter p)%Z ->
  efficiency p ms hs Ps rpm = Ok (q, etas) -> Forall (fun e => e = NonFin) etas.
Proof.
  intros D M E. unfold efficiency in E. apply rbind_ok in E. destruct E as (rho & _ & E). cbv zeta in E.
  apply rbind_ok in E. destruct E as (es & E & F). injection F as _ <-. revert E. apply mapM_Forall. intros iw y E.
  apply rbind_ok in E. destruct E as (r & _ & E). apply rbind_ok in E. destruct E as (a & _ & E). apply rbind_ok in E. destruct E as (m & _ & E).
  unfold efficiency_at in E. cbv zeta in E. apply rbind_ok in E. destruct E as (s & _ & E). injection E as <-.
  assert (D2 : diameter_m (with_solidity p) = None) by (unfold with_solidity; destruct (solidity p); exact D).
  assert (M2 : solve_maxiter (with_solidity p) = solve_maxiter p) by (unfold with_solidity; destruct (solidity p); reflexivity).
  rewrite D2, M2. cbn [attr0]. apply nan_loop.
  - assert (Z : forall x y, nmul y (npown (#0)%num 5) = NonFin \/ nmul y (npown (#0)%num 5) = Fin 0 -> ndiv x (nmul y (npown (#0)%num 5)) = NonFin).
    { intros x y [->| ->]; destruct x as [x|]; try reflexivity. unfold ndiv, lift2. destruct (Reqb_reflect 0 0); [reflexivity|congruence]. }
    apply Z. destruct (nmul r _) as [y|]; [right|left]; [|reflexivity]. cbn. f_equal. ring.
  - right. lia.
Qed.
