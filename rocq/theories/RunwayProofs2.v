(** Proofs about handbook profiles and METAR files. *)
From Coq Require Import Ascii.
From Verif Require Import Base BaseFacts UnitsModel AtmosModel RunwayModel RunwaySpec RunwayProofs AtmosProofs3.
Open Scope R_scope.

(** ** C57 *)
Lemma sapp_inj_l a b c : (a ++ b = a ++ c)%string -> b = c.
Proof. induction a; simpl; [auto|]. intros H. injection H. auto. Qed.
Lemma sapp_inj_r (a b c : string) : (a ++ c = b ++ c)%string -> a = b.
Proof.
  intros H. 
  assert (L : forall x y, String.length (x ++ y) = (String.length x + String.length y)%nat)
    by (induction x; simpl; auto).
  assert (E : String.length a = String.length b).
  { pose proof (f_equal String.length H) as K. rewrite !L in K. lia. }
  revert b E H. induction a as [|x a IH]; intros [|y b] E H; try discriminate; [reflexivity|].
  simpl in *. injection H as -> H. f_equal. apply IH; [lia|exact H].
Qed.

Lemma m310name_inj hl td a hl' td' a' :
  In hl ["high"; "low"]%string -> In hl' ["high"; "low"]%string ->
  In td ["temp"; "dens"]%string -> In td' ["temp"; "dens"]%string ->
  m310name hl td a = m310name hl' td' a' -> hl = hl' /\ td = td' /\ a = a'.
Proof.
  intros H1 H2 H3 H4. unfold m310name. simpl in H1, H2, H3, H4.
  destruct H1 as [<-|[<-|[]]]; destruct H2 as [<-|[<-|[]]];
  destruct H3 as [<-|[<-|[]]]; destruct H4 as [<-|[<-|[]]]; simpl; intros E;
  try discriminate E;
  repeat match type of E with String _ _ = String _ _ => injection E as E end;
  try (apply sapp_inj_r in E; auto); discriminate.
Qed.

Lemma vs_total t : Forall (fun x => 0 <= x) t -> exists vs, mapM vs_of_temp t = Ok vs.
Proof.
  induction 1 as [|x t H F [vs IH]]; [eexists; reflexivity|].
  cbn [mapM]. unfold vs_of_temp at 1, msqrt. cbn. unfold Rltb.
  destruct (Rlt_dec (1.4 * 287.05287 * x) 0); [lra|]. cbn [rbind]. rewrite IH. eexists; reflexivity.
Qed.

Lemma obs_total a t r : a <> [] -> List.length t = List.length a -> List.length r = List.length a ->
  Forall (fun x => 0 <= x) t -> exists pr, obsprofile (Some a) (Some t) (Some r) None = Ok pr /\
  alt_m pr = a /\ temp_k pr = t /\ rho_kgpm3 pr = r.
Proof.
  intros N Lt Lr F. destruct (vs_total t F) as [vs E].
  unfold obsprofile. cbn [npsize]. rewrite Lt, Lr, !Nat.eqb_refl. cbn [andb rbind].
  rewrite E. cbn [rbind fst snd]. rewrite map_length, combine_length, Lt, Lr, Nat.min_id, !Nat.eqb_refl.
  destruct a; [congruence|]. cbn. eexists. split; [reflexivity|]. auto.
Qed.

Lemma m310_profiles datadir cwd hl td alt tb :
  (datadir (m310name hl td alt) = Some (columns_of tb) \/
   (datadir (m310name hl td alt) = None /\ cwd (m310name hl td alt) = Some (columns_of tb))) ->
  rectangular tb ->
  (td = "temp"%string -> Forall (fun x => 0 <= x) (extreme1 tb ++ extreme10 tb) ->
   exists p1 p10, mil_hdbk_310 datadir cwd hl td alt = Ok (Some (p1, p10)) /\
     alt_m p1 = map (fun k => k * 1000) (km tb) /\ alt_m p10 = map (fun k => k * 1000) (km tb) /\
     temp_k p1 = extreme1 tb /\ rho_kgpm3 p1 = associated1 tb /\
     temp_k p10 = extreme10 tb /\ rho_kgpm3 p10 = associated10 tb) /\
  (td <> "temp"%string -> Forall (fun x => 0 <= x) (associated1 tb ++ associated10 tb) ->
   exists p1 p10, mil_hdbk_310 datadir cwd hl td alt = Ok (Some (p1, p10)) /\
     alt_m p1 = map (fun k => k * 1000) (km tb) /\ alt_m p10 = map (fun k => k * 1000) (km tb) /\
     rho_kgpm3 p1 = extreme1 tb /\ temp_k p1 = associated1 tb /\
     rho_kgpm3 p10 = extreme10 tb /\ temp_k p10 = associated10 tb).
Proof.
  intros D (N & L1 & L2 & L3 & L4).
  assert (F : match datadir (m310name hl td alt) with Some c => Some c | None => cwd (m310name hl td alt) end
              = Some (columns_of tb)) by (destruct D as [-> | [-> ->]]; reflexivity).
  assert (N' : map (fun k => k * 1000) (km tb) <> []) by (destruct (km tb); [congruence|discriminate]).
  assert (ML := map_length (fun k => k * 1000) (km tb)).
  assert (G : mil_hdbk_310 datadir cwd hl td alt =
    mil_hdbk_310 (fun _ => Some (columns_of tb)) cwd hl td alt).
  { unfold mil_hdbk_310. cbv zeta. destruct D as [-> | [-> ->]]; reflexivity. }
  rewrite G. clear F G. unfold mil_hdbk_310, columns_of.
  split; intros Ht P; apply Forall_app in P as [P1 P10].
  - subst td. rewrite String.eqb_refl.
    destruct (obs_total _ (extreme1 tb) (associated1 tb) N' ltac:(lia) ltac:(lia) P1) as (p1 & E1 & A1 & B1 & C1).
    destruct (obs_total _ (extreme10 tb) (associated10 tb) N' ltac:(lia) ltac:(lia) P10) as (p10 & E2 & A2 & B2 & C2).
    rewrite E1, E2. cbn [rbind]. exists p1, p10. auto 10.
  - apply String.eqb_neq in Ht. rewrite Ht.
    destruct (obs_total _ (associated1 tb) (extreme1 tb) N' ltac:(lia) ltac:(lia) P1) as (p1 & E1 & A1 & B1 & C1).
    destruct (obs_total _ (associated10 tb) (extreme10 tb) N' ltac:(lia) ltac:(lia) P10) as (p10 & E2 & A2 & B2 & C2).
    rewrite E1, E2. cbn [rbind]. exists p1, p10. auto 10.
Qed.

Lemma m310_missing datadir cwd hl td alt :
  datadir (m310name hl td alt) = None -> cwd (m310name hl td alt) = None ->
  mil_hdbk_310 datadir cwd hl td alt = Ok None.
Proof. intros A B. unfold mil_hdbk_310. rewrite A, B. reflexivity. Qed.

Lemma m310_wrong_columns datadir cwd hl td alt cols :
  datadir (m310name hl td alt) = Some cols -> List.length cols <> 5%nat ->
  mil_hdbk_310 datadir cwd hl td alt = Err ValueError.
Proof.
  intros A B. unfold mil_hdbk_310. rewrite A.
  do 5 (destruct cols as [|? cols]; [reflexivity|]). destruct cols; [simpl in B; lia|reflexivity].
Qed.

(** ** C55 *)
Lemma readlines_line r s cur : ~ In newline r ->
  readlines (r ++ newline :: s) cur = (rev cur ++ r ++ [newline]) :: readlines s [].
Proof.
  revert cur. induction r as [|c r IH]; intros cur H; simpl.
  - reflexivity.
  - destruct (Ascii.eqb_spec c newline) as [->|N]; [exfalso; apply H; left; reflexivity|].
    rewrite IH by (intros I; apply H; right; exact I). simpl. rewrite <- app_assoc. reflexivity.
Qed.
Lemma readlines_file tail rs : ~ In newline tail -> Forall plain rs -> forall s,
  readlines (file_of tail rs ++ s) [] = map (fun r => r ++ tail ++ [newline]) rs ++ readlines s [].
Proof.
  intros T F. induction F as [|r rs H F IH]; intros s; [reflexivity|].
  unfold file_of in *. cbn [map List.concat app].
  rewrite <- !app_assoc. cbn [app].
  replace (r ++ tail ++ newline :: List.concat (map (fun r0 => r0 ++ tail ++ [newline]) rs) ++ s)
    with ((r ++ tail) ++ newline :: List.concat (map (fun r0 => r0 ++ tail ++ [newline]) rs) ++ s)
    by (rewrite <- app_assoc; reflexivity).
  rewrite readlines_line.
  - rewrite IH. cbn [rev app]. rewrite <- app_assoc. reflexivity.
  - intros I. apply in_app_iff in I as [I|I]; [exact (H I)|exact (T I)].
Qed.
Lemma readlines_last r : r <> [] -> ~ In newline r -> readlines r [] = [r].
Proof.
  intros N H. assert (G : forall cur, ~ In newline r -> (r ++ cur <> [] \/ cur <> []) ->
    readlines r cur = match r, cur with [], [] => [] | _, _ => [rev cur ++ r] end).
  { clear. induction r as [|c r IH]; intros cur H K; simpl.
    - destruct cur; [reflexivity|]. rewrite app_nil_r. reflexivity.
    - destruct (Ascii.eqb_spec c newline) as [->|N]; [exfalso; apply H; left; reflexivity|].
      rewrite IH; [|intros I; apply H; right; exact I|right; discriminate].
      destruct r; simpl; rewrite <- ?app_assoc; reflexivity. }
  rewrite G; [|exact H|left; rewrite app_nil_r; exact N]. destruct r; [congruence|reflexivity].
Qed.
Lemma dropend_app {A} (a b : list A) : dropend (List.length b) (a ++ b) = a.
Proof.
  unfold dropend. rewrite app_length, Nat.add_sub. rewrite firstn_app, Nat.sub_diag, firstn_O, app_nil_r.
  apply firstn_all.
Qed.
Lemma dropend_map {A} tail (rs : list (list A)) : 
  map (dropend (List.length tail)) (map (fun r => r ++ tail) rs) = rs.
Proof. rewrite map_map. rewrite <- (map_id rs) at 2. apply map_ext. intros. apply dropend_app. Qed.

Lemma last_but_one (r : list ascii) c d : pyindex (r ++ [c; d]) (-2) = Ok c.
Proof.
  change (-2)%Z with (- Z.of_nat 2)%Z. rewrite pyindex_neg by lia.
  rewrite app_length. simpl List.length.
  destruct (Nat.ltb_spec (List.length r + 2) 2); [lia|].
  replace (List.length r + 2 - 2)%nat with (List.length r) by lia.
  rewrite nth_error_app2 by lia. rewrite Nat.sub_diag. reflexivity.
Qed.

Lemma read_equals rs : rs <> [] -> Forall plain rs ->
  readmethistfile (Some (file_of ["="%char] rs)) = Ok (Some rs).
Proof.
  intros N F. unfold readmethistfile.
  pose proof (readlines_file ["="%char] rs ltac:(intros [H|[]]; discriminate) F []) as E.
  rewrite app_nil_r in E. rewrite E. cbn [readlines]. rewrite app_nil_r.
  destruct rs as [|r rs]; [congruence|]. cbn [map]. rewrite pyi_0. cbn [nth_error rbind].
  change (r ++ ["="%char] ++ [newline]) with (r ++ ["="%char; newline]).
  rewrite last_but_one. cbn [rbind]. rewrite Ascii.eqb_refl.
  pose proof (dropend_map ["="%char; newline] (r :: rs)) as D. cbn [List.length] in D.
  cbn [map] in *. exact (f_equal (fun x => Ok (Some x)) D).
Qed.

Lemma read_plain rs c r0 rest : rs = (r0 ++ [c]) :: rest -> c <> "="%char -> Forall plain rs ->
  readmethistfile (Some (file_of [] rs)) = Ok (Some rs).
Proof.
  intros E0 N F. unfold readmethistfile.
  pose proof (readlines_file [] rs ltac:(intros []) F []) as E.
  rewrite app_nil_r in E. rewrite E. cbn [readlines]. rewrite app_nil_r. subst rs.
  cbn [map]. rewrite pyi_0. cbn [nth_error rbind app].
  rewrite <- app_assoc. cbn [app]. rewrite last_but_one. cbn [rbind].
  destruct (Ascii.eqb_spec c "="%char); [congruence|].
  pose proof (dropend_map [newline] ((r0 ++ [c]) :: rest)) as D. cbn [List.length] in D.
  cbn [map app] in *. rewrite <- app_assoc in D. cbn [app] in D. exact (f_equal (fun x => Ok (Some x)) D).
Qed.

(** the last report loses a character when the file does not end with a newline *)
Lemma read_unterminated rs c r0 rest last d : rs = (r0 ++ [c]) :: rest -> c <> "="%char -> Forall plain rs ->
  plain (last ++ [d]) ->
  readmethistfile (Some (file_of [] rs ++ last ++ [d])) = Ok (Some (rs ++ [last])).
Proof.
  intros E0 N F P. unfold readmethistfile.
  pose proof (readlines_file [] rs ltac:(intros []) F (last ++ [d])) as E.
  rewrite E. rewrite readlines_last; [|destruct last; discriminate|exact P]. subst rs.
  cbn [map app]. rewrite pyi_0. cbn [nth_error rbind].
  rewrite <- app_assoc. cbn [app]. rewrite last_but_one. cbn [rbind].
  destruct (Ascii.eqb_spec c "="%char); [congruence|].
  rewrite map_app. pose proof (dropend_map [newline] ((r0 ++ [c]) :: rest)) as D. cbn [List.length] in D.
  cbn [map app] in *. rewrite <- app_assoc in D. cbn [app] in D. pose proof (dropend_app last [d]) as L. cbn [List.length] in L. rewrite L.
  exact (f_equal (fun x => Ok (Some (x ++ [last]))) D).
Qed.

(** mixed terminators: the decision is taken on the first line only *)
Lemma read_mixed_loses r0 last d : plain r0 -> plain (last ++ [d]) ->
  readmethistfile (Some (file_of ["="%char] [r0] ++ file_of [] [last ++ [d]])) = Ok (Some [r0; last]).
Proof.
  intros P Q. unfold readmethistfile.
  pose proof (readlines_file ["="%char] [r0] ltac:(intros [H|[]]; discriminate) ltac:(repeat constructor; exact P) (file_of [] [last ++ [d]])) as E.
  rewrite E. pose proof (readlines_file [] [last ++ [d]] ltac:(intros []) ltac:(repeat constructor; exact Q) []) as E2.
  rewrite app_nil_r in E2. rewrite E2. cbn [readlines map app]. rewrite pyi_0. cbn [nth_error rbind].
  rewrite last_but_one. cbn [rbind]. rewrite Ascii.eqb_refl. rewrite <- app_assoc. cbn [app].
  pose proof (dropend_app r0 ["="%char; newline]) as D1. pose proof (dropend_app last [d; newline]) as D2.
  cbn [List.length] in *. rewrite D1, D2. reflexivity.
Qed.

Lemma read_empty : readmethistfile (Some []) = Err IndexError /\ readmethistfile None = Ok None.
Proof. split; reflexivity. Qed.

(** ** METAR decoding *)
Lemma decode_ok {M} (parse : list ascii -> option M) s m : parse s = Some m -> decodemetar parse s = Some m.
Proof. intros H. unfold decodemetar. rewrite H. reflexivity. Qed.
Lemma decode_retry {M} (parse : list ascii -> option M) a b c d x y rest :
  parse ([a; b; c; d; " "%char; x; y] ++ rest) = None ->
  decodemetar parse ([a; b; c; d; " "%char; x; y] ++ rest) =
  parse ([a; b; c; d; " "; "2"; "8"]%char ++ rest).
Proof. intros H. unfold decodemetar. rewrite H. reflexivity. Qed.

Lemma decode_cases {M} (parse : list ascii -> option M) a b c d x y rest m :
  decodemetar parse ([a; b; c; d; " "%char; x; y] ++ rest) = Some m ->
  parse ([a; b; c; d; " "%char; x; y] ++ rest) = Some m \/
  parse ([a; b; c; d; " "; "2"; "8"]%char ++ rest) = Some m.
Proof.
  intros H. destruct (parse ([a; b; c; d; " "%char; x; y] ++ rest)) eqn:E.
  - left. unfold decodemetar in H. rewrite E in H. exact H.
  - right. rewrite decode_retry in H by exact E. exact H.
Qed.

Lemma decode_prefixed {M} (parse : list ascii -> option M) e g rest :
  parse (text "METAR " ++ e :: g :: rest) = None ->
  decodemetar parse (text "METAR " ++ e :: g :: rest) = parse (text "META 28" ++ g :: rest).
Proof. intros H. unfold decodemetar. rewrite H. reflexivity. Qed.
Definition only_28 (s : list ascii) : option unit :=
  if list_eq_dec ascii_dec s (text "METAR EGLL 281320Z") then Some tt else None.
Lemma decode_prefix_fails : only_28 (text "METAR EGLL 281320Z") = Some tt /\
  decodemetar only_28 (text "METAR EGLL 311320Z") = None.
Proof. split; reflexivity. Qed.
Definition sample_table : table := {| km := [0; 4]; extreme1 := [310; 280]; associated1 := [1.1; 0.8];
  extreme10 := [305; 275]; associated10 := [1.12; 0.82] |}.
Lemma sample_rect : rectangular sample_table /\ Forall (fun x => 0 <= x) (extreme1 sample_table ++ extreme10 sample_table).
Proof. split; [repeat split; discriminate|]. repeat constructor; simpl; lra. Qed.
