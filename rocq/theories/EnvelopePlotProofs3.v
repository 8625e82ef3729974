(** The V-n diagram: the properties. *)
From Verif Require Import Base BaseFacts AnalysisFacts UnitsModel AtmosModel AtmosSpec ConceptModel
  ConceptProofs MethodsModel MethodsSpec MethodsProofs2 ConstraintSpec ConstraintProofs SensitivityProofs3 PropulsionModel
  AirworthinessModel AirworthinessSpec AirworthinessProofs AirworthinessProofs2 AirworthinessProofs3 AirworthinessProofs4
  AirworthinessProofs5 AirworthinessProofs6 MethodsExamples AirworthinessExamples ConstraintProofs10 EnvelopePlotModel EnvelopePlotSpec EnvelopePlotProofs EnvelopePlotProofs2.
Open Scope R_scope.

Lemma envelope_error ext s t figs sh x : flightenvelope ext s = Err x -> vndiagram ext s t figs sh = Err x.
Proof.
  intros E. unfold vndiagram. rewrite E. destruct (figsize_used figs) as (fg, w).
  unfold flightenvelope in E. destruct (check_category (category s)) as [c|y]; cbn [rbind] in *; [reflexivity|congruence].
Qed.

Lemma forall2_length {A B} (P : A -> B -> Prop) l m : Forall2 P l m -> List.length l = List.length m.
Proof. induction 1; cbn; congruence. Qed.

Section Properties.
  Variables (ext : externals) (s : cert) (f : flight).
  Hypothesis HD : describes ext s f.
  Variables (c : cat) (vd : R).
  Hypothesis HC : category s = CStr (names c).
  Hypothesis HV : dive s c f vd.
  Variables (t : option num) (figs : option (list num)) (sh : vnshow).

  Let vc := design_cruise c f.
  Let vb := vb_speed c f.

  Lemma returned : exists e w dg, flightenvelope ext s = Ok e /\ vndiagram ext s t figs sh = Ok (w, dg, poi e) /\ (dg <> None <-> wanted sh).
  Proof.
    destruct (diagram_spec ext s f HD c vd HC HV t figs sh) as (E1 & E2). do 3 eexists. split; [exact E1|]. split; [exact E2|].
    unfold wanted. destruct sh as [| |[|o l]]; cbn [options option_map]; split; intros H; try congruence; try (split; congruence).
    - destruct H as (H & _). congruence.
    - destruct H as (_ & H). congruence.
  Qed.

  Variables (w : list vnwarning) (d : diagram) (ps : dict point).
  Lemma diagram_inv : vndiagram ext s t figs sh = Ok (w, Some d, ps) ->
    w = warned s f c vd figs /\ ps = poi (env f c vd) /\ exists o, options sh = Some o /\ d = diag f c vd t figs o.
  Proof.
    intros E. destruct (diagram_spec ext s f HD c vd HC HV t figs sh) as (_ & E2). rewrite E2 in E.
    destruct (options sh) as [o|]; cbn [option_map] in E; [|discriminate]. inversion E; subst.
    split; [reflexivity|]. split; [reflexivity|]. exists o. split; reflexivity.
  Qed.
  Hypothesis HG : vndiagram ext s t figs sh = Ok (w, Some d, ps).

  Lemma vb_rough : rough_speed c f vb.
  Proof. split; [apply (vb_pos _ _ _ HD)|]. apply (vb_meets _ _ _ HD). Qed.
  Lemma vb_shown p : dget "B" ps = Some p -> fst p = Fin vb.
  Proof.
    destruct (diagram_inv HG) as (_ & -> & _). unfold env. cbn [poi]. destruct (Rlt_dec _ _).
    - rewrite dget_filter_same. discriminate.
    - cbn. intros E. inversion E. reflexivity.
  Qed.
  Lemma factor_scaled b u v k : gust_factor f b u (k * v) = 1 + (gust_factor f b u v - 1) * k.
  Proof. unfold gust_factor. rewrite (coded_linear f u (k * v)), (coded_linear f u v). destruct b; ring. Qed.

  Definition on_ray (r : R * R * bool) (g : gustline) : Prop :=
    let '(u, v, b) := r in gl_from g = (#0, #1) /\ exists y, gl_to g = (Fin (5 * v), Fin y) /\
      forall x, 1 + (y - 1) * (x / (5 * v)) = gust_factor f b u x.
  Lemma lines_forall l i : (forall r, In r l -> snd (fst r) <> 0) -> Forall2 on_ray l (gust_lines i (map (ray f) l)).
  Proof.
    revert i. induction l as [|[[u v] b] l IH]; intros i H; [constructor|]. cbn [map gust_lines]. constructor.
    - cbn [gust_line ray on_ray gl_from gl_to]. split; [reflexivity|].
      exists ((gust_factor f b u v - 1) * 5 + 1). split; [unfold ray, gust_line; cbn [gl_to]; rewrite !nsub_fin, !nmul_fin, nadd_fin; do 2 f_equal; ring|].
      intros x. pose proof (H _ (or_introl eq_refl)) as N. cbn [fst snd] in N.
      replace x with (x / v * v) at 2 by (field; exact N). rewrite factor_scaled. field. exact N.
    - apply IH. intros r Hr. apply H. right. exact Hr.
  Qed.
  Lemma lines_labels l i : map gl_label (gust_lines (S i) l) = repeat None (List.length l).
  Proof. revert i. induction l as [|[[u v] b] l IH]; intros i; [reflexivity|]. cbn [gust_lines map repeat List.length]. rewrite IH. reflexivity. Qed.
  Lemma rays_pos r : In r (gust_rays (gusts_of c f vb vc vd)) -> 0 < snd (fst r) /\ 0 < fst (fst r).
  Proof.
    pose proof (vb_pos _ _ _ HD c) as P1. pose proof (vc_pos _ _ _ HD c) as P2. pose proof (vd_big _ _ _ HD c vd HV) as P3.
    fold vb in P1. change (vc_used c f) with vc in *.
    pose proof (gust_b_pos f). pose proof (gust_c_pos f). pose proof (gust_d_pos f).
    destruct c; cbn; intros HI; repeat (destruct HI as [<-|HI]); try contradiction; cbn [fst snd]; split; lra.
  Qed.
  Theorem gust_lines_drawn : exists vb, rough_speed c f vb /\ (forall p, dget "B" ps = Some p -> fst p = Fin vb) /\
    Forall2 (fun r g => let '(u, v, b) := r in gl_from g = (#0, #1) /\ exists y, gl_to g = (Fin (5 * v), Fin y) /\
      forall x, 1 + (y - 1) * (x / (5 * v)) = gust_factor f b u x)
      (gust_rays (gusts_of c f vb (design_cruise c f) vd)) (dg_gustlines d) /\
    map gl_label (dg_gustlines d) = Some "Gust Lines"%string :: repeat None (List.length (dg_gustlines d) - 1).
  Proof.
    exists vb. split; [apply vb_rough|]. split; [apply vb_shown|].
    destruct (diagram_inv HG) as (_ & _ & o & _ & ->). cbn [diag dg_gustlines]. fold vb.
    change (vc_used c f) with (design_cruise c f). fold vc. split.
    - apply lines_forall. intros r Hr. pose proof (rays_pos r Hr). lra.
    - destruct c; reflexivity.
  Qed.

  Lemma options_reduced o : options sh = Some o -> (existsb (String.eqb "reducedannotations") o = true <-> without_notes sh).
  Proof.
    unfold without_notes. rewrite existsb_exists. intros E. split.
    - intros (x & I & Q). apply String.eqb_eq in Q. subst x. exists o. split; [|exact I].
      destruct sh as [| |[|a l]]; inversion E; subst; [destruct I|reflexivity].
    - intros (l & -> & I). exists "reducedannotations"%string. split; [|apply String.eqb_refl].
      destruct l as [|a l]; [destruct I|]. inversion E; subst. exact I.
  Qed.
  Lemma note_up i u v : 0 < u -> 0 < v -> gust_note false i (ray f (u, v, true)) =
    [ {| gn_shown := roundto 2 (Fin u); gn_at := (Fin (0.15 * v), Fin (gust_factor f true u (0.15 * v)));
         gn_offset := ((#4 * (#15.24 - roundto 2 (Fin u))) / #4, Fin (IZR ((4 - Z.of_nat i + 1) * 3 * 10)) ** #0.93)%num |} ].
  Proof.
    intros Hu Hv. pose proof (coded_pos _ _ _ HD u v Hu Hv) as Q. unfold gust_note, ray.
    rewrite nleb_fin, Rleb_true by (unfold gust_factor; lra). rewrite nltb_fin, Rltb_false by (unfold gust_factor; lra).
    do 2 f_equal. rewrite !nsub_fin, !nmul_fin, nadd_fin, factor_scaled. do 2 f_equal. ring.
  Qed.
  Lemma note_down r i u v : 0 < u -> 0 < v -> gust_note r i (ray f (u, v, false)) = [].
  Proof.
    intros Hu Hv. pose proof (coded_pos _ _ _ HD u v Hu Hv) as Q. unfold gust_note, ray.
    rewrite nleb_fin, Rleb_false by (unfold gust_factor; lra). reflexivity.
  Qed.
  Lemma notes_reduced l : forall i, gust_notes true i l = [].
  Proof.
    induction l as [|[[u v] b] l IH]; intros i; [reflexivity|]. cbn [gust_notes]. rewrite IH. unfold gust_note.
    destruct (_ <=? _)%num; reflexivity.
  Qed.
  Definition noted (uv : R * R) (n : gustnote) : Prop :=
    gn_at n = (Fin (0.15 * snd uv), Fin (gust_factor f true (fst uv) (0.15 * snd uv))) /\
    exists u, gn_shown n = Fin u /\ rounds 2 (fst uv) u /\ fst (gn_offset n) = Fin (15.24 - u).
  Lemma notes_spec l : forall i, (forall uv, In uv l -> 0 < fst uv /\ 0 < snd uv) ->
    Forall2 noted l (gust_notes false i (map (ray f) (gust_rays l))) /\
    map (fun n => snd (gn_offset n)) (gust_notes false i (map (ray f) (gust_rays l)))
      = map (fun k => Fin (IZR ((4 - Z.of_nat (i + 2 * k) + 1) * 3 * 10)) ** #0.93)%num (seq 0 (List.length l)).
  Proof.
    induction l as [|[u v] l IH]; intros i H; [split; [constructor|reflexivity]|].
    destruct (H _ (or_introl eq_refl)) as (Hu & Hv). cbn [fst snd] in *.
    unfold gust_rays. cbn [flat_map app map fst snd]. cbn [gust_notes].
    rewrite note_up, note_down by assumption. cbn [app]. fold (gust_rays l).
    destruct (IH (S (S i)) (fun uv I => H uv (or_intror I))) as (F & M). split.
    - constructor; [|exact F]. split; [reflexivity|]. cbn [gn_shown gn_offset fst snd].
      destruct (roundto_rounds 2 u) as (y & E & R). exists y. rewrite E. split; [reflexivity|]. split; [exact R|].
      rewrite nsub_fin, nmul_fin, ndiv_fin by lra. f_equal. lra.
    - cbn [map List.length seq gn_offset snd]. f_equal; [do 6 f_equal; lia|]. rewrite M.
      rewrite <- seq_shift, map_map. apply map_ext. intros k. do 6 f_equal. lia.
  Qed.
  Theorem notes_drawn : exists vb, rough_speed c f vb /\ (forall p, dget "B" ps = Some p -> fst p = Fin vb) /\
    (without_notes sh -> dg_notes d = []) /\
    (~ without_notes sh ->
      Forall2 (fun uv n => gn_at n = (Fin (0.15 * snd uv), Fin (gust_factor f true (fst uv) (0.15 * snd uv))) /\
          exists u, gn_shown n = Fin u /\ rounds 2 (fst uv) u /\ fst (gn_offset n) = Fin (15.24 - u))
        (gusts_of c f vb (design_cruise c f) vd) (dg_notes d) /\
      map (fun n => snd (gn_offset n)) (dg_notes d) =
        map (fun k => Fin (Rpower (150 - 60 * INR k) 0.93)) (seq 0 (List.length (dg_notes d)))).
  Proof.
    exists vb. split; [apply vb_rough|]. split; [apply vb_shown|].
    destruct (diagram_inv HG) as (_ & _ & o & EO & ED). rewrite ED. cbn [diag dg_notes]. fold vb.
    change (vc_used c f) with (design_cruise c f). fold vc. pose proof (options_reduced o EO) as OR.
    assert (P : forall uv, In uv (gusts_of c f vb vc vd) -> 0 < fst uv /\ 0 < snd uv).
    { intros uv I. pose proof (rays_pos (fst uv, snd uv, true)) as Q. cbn [fst snd] in Q.
      destruct Q as (A & B); [|split; assumption]. unfold gust_rays. apply in_flat_map. exists uv. split; [exact I|left; reflexivity]. }
    split; intros HR.
    - apply OR in HR. rewrite HR. apply notes_reduced.
    - destruct (existsb _ o); [destruct HR; apply OR; reflexivity|].
      destruct (notes_spec _ 0 P) as (F & M). split; [exact F|]. rewrite M.
      pose proof (forall2_length _ _ _ F) as L. rewrite <- L. apply map_ext_in. intros k I. apply in_seq in I.
      assert (K : (k <= 2)%nat). { assert (List.length (gusts_of c f vb vc vd) <= 3)%nat by (destruct c; cbn; lia). lia. }
      replace (IZR ((4 - Z.of_nat (0 + 2 * k) + 1) * 3 * 10)) with (150 - 60 * INR k).
      2:{ rewrite INR_IZR_INZ, <- mult_IZR, <- minus_IZR. f_equal. lia. }
      assert (KP : 0 < 150 - 60 * INR k). { assert (INR k <= 2) by (replace 2 with (INR 2) by (simpl; lra); apply le_INR, K). lra. }
      unfold npow, lift2. rewrite Rltb_true by exact KP. reflexivity.
  Qed.

  Theorem lines_drawn : exists e os sc cd pe ef fs iso oa md me mf go vs,
    flightenvelope ext s = Ok e /\
    dget "OS" (outline e) = Some os /\ dget "SC" (outline e) = Some sc /\ dget "CD" (outline e) = Some cd /\
    dget "E" (outline e) = Some pe /\ dget "EF" (outline e) = Some ef /\ dget "FS" (outline e) = Some fs /\
    dget "iSO" (outline e) = Some iso /\
    dg_envelope d = (os ++ sc ++ cd ++ pe ++ ef ++ fs ++ iso)%list /\
    dget "OA" (manoeuvre_outline e) = Some oa /\ dget "D" (manoeuvre_outline e) = Some md /\
    dget "E" (manoeuvre_outline e) = Some me /\ dget "F" (manoeuvre_outline e) = Some mf /\
    dget "GO" (manoeuvre_outline e) = Some go /\
    dg_manoeuvre d = (oa ++ md ++ me ++ mf ++ go)%list /\
    vs_keas s (weightfraction s) = Ok (Fin vs) /\
    starts (dg_envelope d) (Fin vs, #0) /\ ends (dg_envelope d) (Fin vs, #0) /\
    starts (dg_manoeuvre d) (#0, #0) /\ ends (dg_manoeuvre d) (#0, #0).
  Proof.
    destruct (diagram_inv HG) as (_ & _ & o & EO & ->). destruct (diagram_spec ext s f HD c vd HC HV t figs sh) as (E1 & _).
    do 14 eexists. split; [exact E1|]. do 7 (split; [reflexivity|]).
    split. { cbn [diag dg_envelope]. unfold polyline, env. cbn [outline flat_map snd]. rewrite app_nil_r. reflexivity. }
    do 5 (split; [reflexivity|]).
    split. { cbn [diag dg_manoeuvre]. unfold polyline, env. cbn [manoeuvre_outline flat_map snd]. rewrite app_nil_r. reflexivity. }
    split. { rewrite (d_wf _ _ _ HD). rewrite <- (Rmult_1_l (f_wf f)). apply (vs_up _ _ _ HD). pose proof (p_wf _ _ _ HD). lra. }
    cbn [diag dg_envelope dg_manoeuvre]. split; [reflexivity|].
    assert (L : forall (a b : list point) p, ends b p -> ends (a ++ b)%list p).
    { intros a b p (N & Q). split; [intros H; apply app_eq_nil in H; destruct H; contradiction|].
      destruct (exists_last N) as (b' & z & ->). rewrite last_last in Q. subst z. rewrite app_assoc, last_last. reflexivity. }
    split.
    { unfold polyline, env. cbn [outline flat_map snd]. rewrite app_nil_r. do 6 apply L. split; [discriminate|reflexivity]. }
    assert (Z : forall cl, stall_line f cl 0 = 0).
    { intros cl. unfold stall_line, knots. replace ((0 * 0.5144444) ^ 2) with 0 by ring.
      pose proof (p_loading _ _ _ HD). pose proof (p_wf _ _ _ HD). field. split; lra. }
    split.
    - unfold polyline, env. cbn [manoeuvre_outline flat_map snd].
      pose proof (curve_starts 0 (va_speed c f) (stall_line f (f_clmax f))) as S0. rewrite Z in S0. unfold starts in *.
      rewrite nth_error_app1; [exact S0|]. apply nth_error_Some. rewrite S0. discriminate.
    - unfold polyline, env. cbn [manoeuvre_outline flat_map snd]. rewrite app_nil_r. do 4 apply L.
      pose proof (curve_ends (via_speed c f) 0 (stall_line f (f_clmin f))) as S0. rewrite Z in S0. exact S0.
  Qed.

  Theorem frame : exists x1 y0 y1, dg_xlim d = (#0, Fin x1) /\ x1 = 1.1 * vd /\ dg_ylim d = (Fin y0, Fin y1) /\ y0 < 0 < y1 /\
    (forall p, drawn d p -> exists v n, p = (Fin v, Fin n) /\ 0 <= v /\ y0 <= n <= y1) /\
    forall vs vis va na via ng, vs_keas s (weightfraction s) = Ok (Fin vs) -> vs_keas s (#(-1) * weightfraction s)%num = Ok (Fin vis) ->
      dget "A" ps = Some (Fin va, na) -> dget "G" ps = Some (Fin via, ng) ->
      vs <= x1 -> vis <= x1 -> va <= x1 -> via <= x1 ->
      forall p, drawn d p -> exists v n, p = (Fin v, Fin n) /\ 0 <= v <= x1.
  Proof.
    destruct (diagram_inv HG) as (_ & EP & o & EO & ED).
    exists (1.1 * vd), (1.3 * yneg f c vd), (1.3 * ypos f c vd). rewrite ED at 1 2.
    split; [reflexivity|]. split; [reflexivity|]. split; [reflexivity|].
    split. { pose proof (y0_neg _ _ _ HD c vd HC HV). pose proof (y1_pos _ _ _ HD c vd HV). lra. }
    assert (PL : forall p, drawn d p -> placed f c vd p).
    { rewrite ED. intros p [H|[H|(m & I & <-)]].
      - apply (envelope_placed _ _ _ HD c vd HC HV). exact H.
      - apply (manoeuvre_placed _ _ _ HD c vd HC HV). exact H.
      - cbn [diag dg_markers] in I. apply in_map_iff in I. destruct I as ((k & q) & <- & I).
        apply (poi_placed _ _ _ HD c vd HC HV k q I). }
    split.
    - intros p H. destruct (PL p H) as (v & n & -> & (V & _) & N). exists v, n. split; [reflexivity|]. split; assumption.
    - intros vs vis va na via ng E1 E2 E3 E4 H1 H2 H3 H4 p H. destruct (PL p H) as (v & n & -> & V & _). exists v, n.
      split; [reflexivity|]. split; [apply V|]. eapply Rle_trans; [apply V|].
      pose proof (p_wf _ _ _ HD) as PW.
      rewrite (d_wf _ _ _ HD) in E1, E2. rewrite nmul_fin in E2. rewrite (vs_up _ _ _ HD) in E1 by lra. rewrite (vs_down _ _ _ HD) in E2 by lra.
      rewrite EP in E3, E4. rewrite (poi_get f c vd) in E3, E4 by discriminate.
      cbn in E3, E4. inversion E1 as [Q1]. inversion E2 as [Q2]. inversion E3 as [Q3]. inversion E4 as [Q4].
      pose proof (vd_big _ _ _ HD c vd HV). pose proof (vc_pos _ _ _ HD c).
      unfold rightmost. rewrite Rmult_1_l. apply Rmax_lub; [apply Rmax_lub; [lra|apply Rmax_lub]|apply Rmax_lub]; lra.
  Qed.

  Theorem markers_drawn : exists vb, rough_speed c f vb /\ (forall p, dget "B" ps = Some p -> fst p = Fin vb) /\
    Forall2 (fun kv m => mk_name m = fst kv /\ mk_at m = snd kv /\ exists v n v' n', snd kv = (Fin v, Fin n) /\
        mk_legend m = (Fin v', Fin n') /\ rounds 1 v v' /\ rounds 2 n n' /\
        mk_colour m = (if Rlt_dec 0 n then "green" else "red")%string /\
        forall T, t = Some (Fin T) \/ t = None /\ T = 10 -> mk_offset m =
          (if Rlt_dec (match c with
                       | Comm => if Rlt_dec (gust_factor f true (gust_b f) vb) (gust_factor f true (gust_c f) (design_cruise c f))
                                 then design_cruise c f else vb
                       | _ => vb end) v then Fin (T / 2) else Fin (- T),
           if Rlt_dec 0 n then Fin (T / 10) else Fin (- T)))
      ps (dg_markers d).
  Proof.
    exists vb. split; [apply vb_rough|]. split; [apply vb_shown|].
    destruct (diagram_inv HG) as (_ & EP & o & _ & ED). rewrite ED, EP. cbn [diag dg_markers].
    assert (P : forall kv, In kv (poi (env f c vd)) -> exists v n, snd kv = (Fin v, Fin n) /\ sign_of (fst kv) n).
    { intros (k & p) I. apply (poi_placed _ _ _ HD c vd HC HV k p I). }
    clear EP. induction (poi (env f c vd)) as [|kv l IH]; [constructor|]. cbn [map]. constructor; [|apply IH; intros q I; apply P; right; exact I].
    destruct (P kv (or_introl eq_refl)) as (v & n & E & SG). destruct kv as (k & p). cbn [fst snd] in *. subst p.
    split; [reflexivity|]. split; [reflexivity|].
    destruct (roundto_rounds 1 v) as (v' & E1 & R1). destruct (roundto_rounds 2 n) as (n' & E2 & R2).
    exists v, n, v', n'. split; [reflexivity|]. unfold poi_marker. cbn [mk_legend mk_colour mk_offset fst snd]. rewrite E1, E2.
    split; [reflexivity|]. split; [exact R1|]. split; [exact R2|]. unfold sign_of in SG.
    split. { destruct (existsb _ _); destruct (Rlt_dec 0 n); try reflexivity; lra. }
    intros T HT. assert (ES : size t = Fin T) by (destruct HT as [->|(-> & ->)]; reflexivity). rewrite ES.
    rewrite !nltb_fin, !nsub_fin, !ndiv_fin by lra. unfold Rltb.
    replace (match c with
             | Comm => if Rlt_dec (gust_factor f true (gust_b f) vb) (gust_factor f true (gust_c f) (design_cruise c f))
                       then design_cruise c f else vb
             | _ => vb end) with (offs f c).
    { rewrite !Rminus_0_l. destruct (Rlt_dec (offs f c) v), (Rlt_dec 0 n); reflexivity. }
    unfold offs, maxg, gust_factor. fold vb. change (vc_used c f) with (design_cruise c f).
    destruct c; cbn [rough_gust]; destruct (Rlt_dec _ _); try reflexivity; lra.
  Qed.

  Theorem presentation : dg_figsize d = (match figs with Some [x; y] => [x; y] | _ => [#12; #7.5] end) /\
    dg_title d = ("EASA CS-23 Amendment 4 - Flight Envelope (" ++
      match c with Norm => "Normal" | Util => "Utility" | Comm => "Commuter" | Aero => "Aerobatic" end ++ " Category)")%string /\
    forall T, t = Some (Fin T) \/ t = None /\ T = 10 -> dg_fonts d = (Fin (1.2 * T), Fin (1.05 * T), Fin T, Fin (0.9 * T)).
  Proof.
    destruct (diagram_inv HG) as (_ & _ & o & _ & ->). cbn [diag dg_figsize dg_title dg_fonts].
    split. { destruct figs as [[|x [|y [|z l]]]|]; reflexivity. }
    split; [reflexivity|]. intros T HT. assert (ES : size t = Fin T) by (destruct HT as [->|(-> & ->)]; reflexivity). rewrite ES.
    rewrite !nmul_fin. rewrite Rmult_1_l. reflexivity.
  Qed.

  (** ** warnings *)
  Lemma if_in (b : bool) (x y : vnwarning) : In x (if b then [y] else []) <-> b = true /\ x = y.
  Proof. destruct b; cbn; split; try tauto; [intros [->|[]]; auto|intros (_ & ->); auto|intros (H & _); discriminate]. Qed.
  Lemma inverted_iff : in_knots (stall_mps f (-1 * f_wf f) (f_clmin f)) < in_knots (stall_mps f (1 * f_wf f) (f_clmax f)) <->
    f_clmax f < - f_clmin f.
  Proof.
    pose proof (p_weight _ _ _ HD) as PW. pose proof (p_wf _ _ _ HD) as PF. pose proof (p_area _ _ _ HD) as PA.
    pose proof (p_sl _ _ _ HD) as PR. pose proof (p_clmax _ _ _ HD) as P1. pose proof (p_clmin _ _ _ HD) as P2.
    set (q := f_wf f * f_weight f / (0.5 * a_rho (f_sl f) * f_area f)).
    assert (Q : 0 < q).
    { unfold q. apply Rdiv_lt_0_compat; [apply Rmult_lt_0_compat; assumption|]. apply Rmult_lt_0_compat; [lra|assumption]. }
    assert (E1 : stall_mps f (1 * f_wf f) (f_clmax f) = sqrt (q / f_clmax f)).
    { unfold stall_mps, q. f_equal. replace 0.5 with (/ 2) by lra. field. repeat split; lra. }
    assert (E2 : stall_mps f (-1 * f_wf f) (f_clmin f) = sqrt (q / - f_clmin f)).
    { unfold stall_mps, q. f_equal. replace 0.5 with (/ 2) by lra. field. repeat split; lra. }
    rewrite E1, E2. unfold in_knots. split; intros H.
    - apply Rmult_lt_reg_r in H; [|lra]. apply sqrt_lt_0_alt in H. unfold Rdiv in H. apply Rmult_lt_reg_l in H; [|exact Q].
      destruct (Rlt_dec (f_clmax f) (- f_clmin f)) as [|N]; [assumption|]. exfalso.
      assert (/ f_clmax f <= / - f_clmin f) by (apply Rinv_le_contravar; lra). lra.
    - apply Rmult_lt_compat_r; [lra|]. apply sqrt_lt_1.
      + left. apply Rdiv_lt_0_compat; lra.
      + left. apply Rdiv_lt_0_compat; lra.
      + unfold Rdiv. apply Rmult_lt_compat_l; [exact Q|]. apply Rinv_lt_contravar; [apply Rmult_lt_0_compat; lra|exact H].
  Qed.
End Properties.

Lemma warnings_given ext s f : describes ext s f -> forall c vd, category s = CStr (names c) -> dive s c f vd ->
  forall t figs sh w dg ps, vndiagram ext s t figs sh = Ok (w, dg, ps) ->
  (In WFigsize w <-> exists l, figs = Some l /\ List.length l <> 2%nat) /\
  (In WDive w <-> divespeed_keas s = None) /\
  (forall vh, maxlevelspeed_keas s = Some (Fin vh) -> (In WCruise w <-> 0.9 * vh < design_cruise c f)) /\
  (maxlevelspeed_keas s = None -> ~ In WCruise w) /\
  (forall va na, dget "A" ps = Some (Fin va, na) -> (In WManoeuvring w <-> design_cruise c f < va)) /\
  (In WInverted w <-> f_clmax f < - f_clmin f).
Proof.
  intros HD c vd HC HV t figs sh w dg ps E.
  destruct (diagram_spec ext s f HD c vd HC HV t figs sh) as (_ & E2). rewrite E2 in E. inversion E; subst w dg ps. clear E E2.
  assert (F : forall x, In x (snd (figsize_used figs)) <-> x = WFigsize /\ exists l, figs = Some l /\ List.length l <> 2%nat).
  { intros x. unfold figsize_used. destruct figs as [l|]; [destruct (Nat.eqb_spec (List.length l) 2) as [L|L]|]; cbn; split.
    - intros [].
    - intros (_ & l' & Q & N). inversion Q; subst. contradiction.
    - intros [<-|[]]. split; [reflexivity|]. exists l. auto.
    - intros (-> & _). auto.
    - intros [].
    - intros (_ & l' & Q & _). discriminate. }
  assert (D : forall x, In x (match divespeed_keas s with None => [WDive] | Some _ => [] end) <-> x = WDive /\ divespeed_keas s = None).
  { intros x. destruct (divespeed_keas s); cbn; split; try tauto; [intros (_ & Q); discriminate|intros [<-|[]]; auto|intros (-> & _); auto]. }
  set (vcm := match maxlevelspeed_keas s with None => None | Some vh => Some (#0.9 * vh)%num end).
  assert (C : forall x, In x (match vcm with None => [] | Some m => if (m <? Fin (vc_used c f))%num then [WCruise] else [] end) <->
    x = WCruise /\ exists vh, maxlevelspeed_keas s = Some vh /\ (#0.9 * vh <? Fin (vc_used c f))%num = true).
  { intros x. unfold vcm. destruct (maxlevelspeed_keas s) as [vh|]; [rewrite if_in|cbn]; split.
    - intros (A & ->). eauto.
    - intros (-> & vh' & Q & A). inversion Q; subst. auto.
    - intros [].
    - intros (_ & vh & Q & _). discriminate. }
  assert (I : forall x, In x (warned s f c vd figs)
    <-> (x = WFigsize /\ exists l, figs = Some l /\ List.length l <> 2%nat) \/ (x = WDive /\ divespeed_keas s = None) \/
        (x = WCruise /\ exists vh, maxlevelspeed_keas s = Some vh /\ (#0.9 * vh <? Fin (vc_used c f))%num = true) \/
        (vc_used c f < va_speed c f /\ x = WManoeuvring) \/
        (f_clmax f < - f_clmin f /\ x = WInverted)).
  { intros x. unfold warned, vn_warnings. change (loc_vcmax (loc s f c vd)) with vcm. cbn [loc loc_vs loc_vis loc_va loc_vc].
    rewrite !in_app_iff, F, D, C, !if_in, !nltb_fin.
    assert (R : forall a b, Rltb a b = true <-> a < b) by (intros a b; destruct (Rltb_reflect a b); split; intros Q; try discriminate Q; try reflexivity; try assumption; lra).
    rewrite !R, (inverted_iff ext s f HD). tauto. }
  rewrite !I. clear F D C.
  split; [split; [intros [(_ & H)|[(H & _)|[(H & _)|[(_ & H)|(_ & H)]]]]; try discriminate; exact H|auto]|].
  split; [split; [intros [(H & _)|[(_ & H)|[(H & _)|[(_ & H)|(_ & H)]]]]; try discriminate; exact H|auto]|].
  split.
  { intros vh EH. rewrite I, EH. change (design_cruise c f) with (vc_used c f). split.
    - intros [(H & _)|[(H & _)|[(_ & v & Q & H)|[(_ & H)|(_ & H)]]]]; try discriminate. inversion Q; subst.
      rewrite nmul_fin, nltb_fin in H. destruct (Rltb_reflect (0.9 * vh) (vc_used c f)); [assumption|discriminate].
    - intros H. right. right. left. split; [reflexivity|]. exists (Fin vh). split; [reflexivity|].
      rewrite nmul_fin, nltb_fin. apply Rltb_true, H. }
  split.
  { intros EH. rewrite EH. intros [(H & _)|[(H & _)|[(_ & v & Q & H)|[(_ & H)|(_ & H)]]]]; discriminate. }
  split.
  { intros va na EA. rewrite (poi_get f c vd) in EA by discriminate. cbn in EA. inversion EA; subst. rewrite I.
    change (design_cruise c f) with (vc_used c f).
    split; [intros [(H & _)|[(H & _)|[(H & _)|[(H & _)|(_ & H)]]]]; try discriminate; exact H|tauto]. }
  rewrite ?I. split; [intros [(H & _)|[(H & _)|[(H & _)|[(_ & H)|(H & _)]]]]; try discriminate; exact H|tauto].
Qed.

(** ** a point outside the diagram *)
Lemma frame_witness : exists s f vd w d ps m v n x1,
  describes example_ext s f /\ category s = CStr (names Aero) /\ dive s Aero f vd /\
  vndiagram example_ext s None None VnTrue = Ok (w, Some d, ps) /\
  In m (dg_markers d) /\ mk_name m = "A"%string /\ mk_at m = (Fin v, Fin n) /\ dg_xlim d = (#0, Fin x1) /\ x1 < v.
Proof.
  set (f := example_flight 30 0.65 100 1). set (s := example_cert 30 0.65 100 1 Aero). set (vd := vd_minimum Aero f).
  assert (HD : describes example_ext s f) by (apply example_describes; lra).
  assert (HC : category s = CStr (names Aero)) by reflexivity.
  assert (HV : dive s Aero f vd) by (left; split; reflexivity).
  destruct (diagram_spec example_ext s f HD Aero vd HC HV None None VnTrue) as (_ & E).
  exists s, f, vd. do 7 eexists. split; [exact HD|]. split; [exact HC|]. split; [exact HV|]. split; [exact E|].
  split. { cbn [diag dg_markers]. apply in_map with (x := ("A"%string, (Fin (va_speed Aero f), Fin (limit_positive Aero (pounds (f_weight f)) / f_wf f)))).
    unfold env. cbn [poi]. destruct (Rlt_dec _ _); left; reflexivity. }
  split; [reflexivity|]. split; [reflexivity|]. split; [reflexivity|].
  destruct (va_sq _ _ _ HD Aero) as (EA & PA). cbn [limit_positive] in EA. change (f_wf f) with 1 in EA. change (f_clmax f) with 0.65 in EA.
  change (wing_loading f) with (100000 / 30) in EA. change (f_sl f) with (std_air 0) in EA. pose proof sea_density as D.
  set (r := a_rho (std_air 0)) in *.
  assert (A : 430 <= va_speed Aero f).
  { apply Rsqr_incr_0_var; [|exact PA]. rewrite !Rsqr_pow2, EA.
    apply Rle_trans with (1.9438445 ^ 2 * 6 * (2 * 1 * (100000 / 30) / (1.226 * 0.65))); [simpl; lra|].
    apply Rmult_le_compat_l; [simpl; lra|]. unfold Rdiv at 1 3. apply Rmult_le_compat_l; [lra|]. apply Rinv_le_contravar; lra. }
  eapply Rlt_le_trans; [|exact A]. unfold vd, vd_minimum. change (f_vc f) with 100. change (wing_loading f) with (100000 / 30).
  assert (B : vd_coefficient Aero (pounds_per_ft2 (100000 / 30)) * vc_minimum Aero f <= 380).
  { unfold vc_minimum. change (wing_loading f) with (100000 / 30). unfold vd_coefficient, vc_coefficient, by_loading.
    set (wl := pounds_per_ft2 (100000 / 30)). assert (W : 69.6 <= wl <= 69.62) by (unfold wl, pounds_per_ft2; lra).
    rewrite clamp01_mid by lra.
    assert (S : sqrt wl <= 8.35) by (rewrite <- (sqrt_pow2 8.35) by lra; apply sqrt_le_1; simpl; lra).
    pose proof (sqrt_pos wl) as S0.
    assert (V : (36 + (28.6 - 36) * ((wl - 20) / 80)) * sqrt wl <= 31.42 * 8.35) by (apply Rmult_le_compat; lra).
    assert (V0 : 0 <= (36 + (28.6 - 36) * ((wl - 20) / 80)) * sqrt wl) by (apply Rmult_le_pos; lra).
    apply Rle_trans with (1.43 * (31.42 * 8.35)); [apply Rmult_le_compat; lra|lra]. }
  assert (Rmax (1.25 * 100) (vd_coefficient Aero (pounds_per_ft2 (100000 / 30)) * vc_minimum Aero f) <= 380) by (apply Rmax_lub; lra).
  lra.
Qed.

(** ** examples *)
Lemma envelope_plot_example k : exists s f vd w d ps, describes example_ext s f /\ category s = CStr (names k) /\ dive s k f vd /\
  vndiagram example_ext s None None VnTrue = Ok (w, Some d, ps) /\ (4 <= List.length (dg_gustlines d))%nat /\ dg_notes d <> [] /\
  (200 <= List.length (dg_envelope d))%nat /\ (6 <= List.length (dg_markers d))%nat.
Proof.
  set (f := example_flight 30 1.5 250 0.9). set (s := example_cert 30 1.5 250 0.9 k). set (vd := vd_minimum k f).
  assert (HD : describes example_ext s f) by (apply example_describes; lra).
  assert (HC : category s = CStr (names k)) by reflexivity.
  assert (HV : dive s k f vd) by (left; split; reflexivity).
  destruct (diagram_spec example_ext s f HD k vd HC HV None None VnTrue) as (_ & E).
  exists s, f, vd. do 3 eexists. split; [exact HD|]. split; [exact HC|]. split; [exact HV|]. split; [exact E|].
  split. { cbn [diag dg_gustlines]. destruct k; cbn; lia. }
  split.
  { destruct (notes_drawn example_ext s f HD k vd HC HV None None VnTrue _ _ _ E) as (vb & _ & _ & _ & H).
    destruct H as (H & _). { intros (l & Q & _). discriminate. }
    intros Q. rewrite Q in H. destruct k; inversion H. }
  split. { cbn [diag dg_envelope]. unfold polyline, env. cbn [outline flat_map snd]. unfold curve. rewrite !app_length, !map_length, !seq_length. cbn [List.length]. lia. }
  cbn [diag dg_markers]. rewrite map_length. unfold env. cbn [poi]. destruct (Rlt_dec _ _); cbn; lia.
Qed.
