(** Proofs about the V-n diagram: closed form of what is drawn. *)
From Verif Require Import Base BaseFacts AnalysisFacts UnitsModel AtmosModel AtmosSpec ConceptModel
  ConceptProofs MethodsModel MethodsSpec MethodsProofs2 ConstraintSpec ConstraintProofs SensitivityProofs3 PropulsionModel
  AirworthinessModel AirworthinessSpec AirworthinessProofs AirworthinessProofs2 AirworthinessProofs3 AirworthinessProofs4
  AirworthinessProofs5 AirworthinessProofs6 EnvelopePlotModel EnvelopePlotSpec.
Open Scope R_scope.

Lemma nearest_close x : Rabs (IZR (nearest x) - x) <= 1 / 2.
Proof.
  unfold nearest. pose proof (archimed x) as (A & B). set (k := (up x - 1)%Z).
  assert (K : IZR k = IZR (up x) - 1) by (unfold k; rewrite minus_IZR; reflexivity).
  destruct (Rltb_reflect (x - IZR k) (1/2)); [apply Rabs_le; lra|].
  destruct (Rltb_reflect (1/2) (x - IZR k)); [rewrite plus_IZR; apply Rabs_le; lra|].
  destruct (Z.even k); [|rewrite plus_IZR]; apply Rabs_le; lra.
Qed.
Lemma roundto_rounds dp x : exists y, roundto dp (Fin x) = Fin y /\ rounds dp x y.
Proof.
  eexists. split; [reflexivity|]. eexists. split; [reflexivity|].
  assert (P : 0 < 10 ^ dp) by (apply pow_lt; lra).
  pose proof (nearest_close (x * 10 ^ dp)) as N. set (z := IZR (nearest (x * 10 ^ dp))) in *. set (t := 10 ^ dp) in *.
  replace (z / t - x) with ((z - x * t) * / t) by (field; lra).
  rewrite Rabs_mult, (Rabs_right (/ t)) by (left; apply Rinv_0_lt_compat, P).
  unfold Rdiv. apply Rmult_le_compat_r; [left; apply Rinv_0_lt_compat, P|lra].
Qed.
Lemma curve_any a b g x y : In (x, y) (curve a b g) -> exists v, Rmin a b <= v <= Rmax a b /\ x = Fin v /\ y = Fin (g v).
Proof.
  intros H. unfold curve in H. apply in_map_iff in H. destruct H as (i & E & I). apply in_seq in I. inversion E; subst.
  exists (step a b i). split; [|split; reflexivity].
  destruct (Rle_dec a b) as [L|L].
  - rewrite Rmin_left, Rmax_right by lra. apply step_range; [lia|exact L].
  - rewrite Rmin_right, Rmax_left by lra. unfold step.
    assert (T : 0 <= INR i / 99 <= 1).
    { split; [apply Rdiv_le_0_compat; [apply pos_INR|lra]|]. assert (INR i <= 99); [|lra].
      replace 99 with (INR 99) by (simpl; lra). apply le_INR. lia. }
    replace (a + INR i * ((b - a) / 99)) with (a + INR i / 99 * (b - a)) by field. nra.
Qed.

Section Diagram.
  Variables (ext : externals) (s : cert) (f : flight).
  Hypothesis HD : describes ext s f.
  Variables (c : cat) (vd : R).
  Hypothesis HC : category s = CStr (names c).
  Hypothesis HV : dive s c f vd.

  Let vc := vc_used c f.
  Let va := va_speed c f.
  Let vb := vb_speed c f.
  Let vs := in_knots (stall_mps f (1 * f_wf f) (f_clmax f)).
  Let vis := in_knots (stall_mps f (-1 * f_wf f) (f_clmin f)).
  Let via := via_speed c f.
  Let e := env f c vd.

  Definition ray (r : R * R * bool) : num * num * num :=
    let '(u, v, b) := r in (Fin v, Fin u, Fin (gust_factor f b u v)).
  Definition loc : vnlocals := {|
    loc_vs := Fin vs; loc_vis := Fin vis; loc_va := Fin va; loc_vb := Fin vb; loc_vc := Fin vc; loc_vd := Fin vd;
    loc_vcmax := match maxlevelspeed_keas s with None => None | Some vh => Some (#0.9 * vh)%num end;
    loc_cgust := Fin (1 + coded_increment f (gust_c f) vc);
    loc_gusts := map ray (gust_rays (gusts_of c f vb vc vd)) |}.

  Lemma locals_spec : vn_locals ext s = Ok loc.
  Proof.
    pose proof (p_wf _ _ _ HD) as PW.
    destruct (gusts_spec s _ _ _ (d_weight _ _ _ HD) (d_area _ _ _ HD) (Rlt_le _ _ (p_weight _ _ _ HD)) (d_alt _ _ _ HD))
      as (m & g & E3 & G). destruct (G c) as (G1 & G2 & G3 & G4 & G5 & G6).
    destruct (speeds_spec _ _ _ HD) as (p & E5 & P).
    unfold vn_locals. rewrite HC. replace (check_category (CStr (names c))) with (Ok c) by (destruct c; reflexivity).
    cbn [rbind]. rewrite (d_vc _ _ _ HD). cbn [required rbind]. rewrite E5. cbn [rbind]. rewrite E3. cbn [rbind fst snd].
    rewrite P. cbn [design_speeds vcmin_keas vdmin_keas vamin_keas vbmin1_keas vcsoftmax_keas].
    rewrite (d_wf _ _ _ HD), (pymax_fin (f_vc f)). fold (vc_used c f). fold vc va vb.
    assert (EV : match divespeed_keas s with None => Fin (vd_minimum c f) | Some v => pymax v (Fin (vd_minimum c f)) end = Fin vd).
    { destruct HV as [(-> & ->)|(v & -> & ->)]; [reflexivity|apply pymax_fin]. }
    rewrite EV. rewrite !nmul_fin, (vs_up _ _ _ HD) by lra. cbn [rbind]. rewrite (vs_down _ _ _ HD) by lra. cbn [rbind].
    destruct (gust_load_spec _ _ _ HD {| at_Ub := Some (Fin vb); at_Uc := Some (Fin vc); at_Ud := Some (Fin vd) |})
      as (L & E1 & HUc & HUd & HUb & _ & _ & HNb).
    rewrite E1. cbn [rbind]. rewrite (HUc c vc eq_refl), (HUd c vd eq_refl). cbn [entry rbind load_pair fst snd].
    f_equal. unfold loc. f_equal.
    rewrite G4, G5, G6. destruct c; [rewrite (HNb Norm)|rewrite (HNb Util)|rewrite (HUb vb eq_refl)|rewrite (HNb Aero)];
      try (right; discriminate); reflexivity.
  Qed.

  (** load factor of the first gust *)
  Definition maxg : R := 1 + coded_increment f (rough_gust c f) (match c with Comm => vb | _ => vc end).
  Definition ypos : R := Rmax (Rmax maxg (sc_load f c vc)) (cd_load f c vd vd).
  Definition yneg : R := Rmin (Rmin (Rmin (1 - coded_increment f (gust_d f) vd) (limit_negative_dive c / f_wf f)) (ef_load f c vd vc))
                              (stall_line f (f_clmin f) via).
  Definition offs : R := if Rlt_dec maxg (1 + coded_increment f (gust_c f) vc) then vc else vb.
  Definition size (t : option num) : num := match t with None => #10 | Some t => t end.
  Definition diag (t : option num) (figs : option (list num)) (options : list string) : diagram := {|
    dg_figsize := fst (figsize_used figs);
    dg_title := ("EASA CS-23 Amendment 4 - Flight Envelope (" ++ catg_name c ++ " Category)")%string;
    dg_fonts := (#1.2 * size t, #1.05 * size t, #1 * size t, #0.9 * size t)%num;
    dg_notes := gust_notes (existsb (String.eqb "reducedannotations") options) 0 (map ray (gust_rays (gusts_of c f vb vc vd)));
    dg_gustlines := gust_lines 0 (map ray (gust_rays (gusts_of c f vb vc vd)));
    dg_envelope := polyline (outline e);
    dg_manoeuvre := polyline (manoeuvre_outline e);
    dg_markers := map (poi_marker (size t) (Fin offs)) (poi e);
    dg_xlim := (#0, Fin (1.1 * vd));
    dg_ylim := (Fin (1.3 * yneg), Fin (1.3 * ypos)) |}.
  Definition options (sh : vnshow) : option (list string) :=
    match sh with VnTrue => Some [] | VnFalse => None | VnList [] => None | VnList l => Some l end.
  Definition warned (figs : option (list num)) : list vnwarning := (snd (figsize_used figs) ++ vn_warnings s loc)%list.

  Lemma poi_get k : k <> "B"%string -> dget k (poi e) = dget k (all_points f c vd).
  Proof. intros Hk. unfold e, env. cbn [poi]. destruct (Rlt_dec _ _); [|reflexivity]. apply dget_filter, Hk. Qed.

  Theorem diagram_spec t figs sh : flightenvelope ext s = Ok e /\
    vndiagram ext s t figs sh = Ok (warned figs, option_map (diag t figs) (options sh), poi e).
  Proof.
    assert (EE : flightenvelope ext s = Ok e) by (apply (envelope_spec ext s f HD c vd HC HV)).
    split; [exact EE|]. unfold vndiagram. rewrite EE, locals_spec, HC.
    replace (check_category (CStr (names c))) with (Ok c) by (destruct c; reflexivity). cbn [rbind].
    destruct (figsize_used figs) as (fg, w) eqn:EF. cbn [rbind loc loc_gusts].
    assert (EM : match map ray (gust_rays (gusts_of c f vb vc vd)) with (_, _, n) :: _ => Ok n | [] => Err IndexError end = Ok (Fin maxg))
      by (unfold maxg; destruct c; reflexivity).
    rewrite EM. cbn [rbind]. rewrite !poi_get by discriminate. cbn [all_points dget String.eqb Ascii.eqb Bool.eqb entry rbind fst snd].
    cbn [loc loc_cgust loc_vc loc_vb loc_vd]. rewrite !pymax_fin, !pymin_fin, !nmul_fin, !nltb_fin.
    assert (EO : (if Rltb maxg (1 + coded_increment f (gust_c f) vc) then Fin vc else Fin vb) = Fin offs).
    { unfold offs, Rltb. destruct (Rlt_dec _ _); reflexivity. }
    rewrite EO. unfold warned. rewrite EF. cbn [snd].
    destruct sh as [| |[|o l]]; cbn [options option_map]; unfold diag; rewrite ?EF; reflexivity.
  Qed.
End Diagram.
