(** The flight envelope of a described aircraft. *)
From Verif Require Import Base BaseFacts AnalysisFacts UnitsModel AtmosModel AtmosSpec ConceptModel
  ConceptProofs MethodsModel MethodsSpec MethodsProofs2 ConstraintSpec ConstraintProofs AirworthinessModel
  AirworthinessSpec AirworthinessProofs AirworthinessProofs2.
Open Scope R_scope.

(** ** lists of speeds *)
Definition step (a b : R) (i : nat) : R := a + INR i * ((b - a) / 99).
Definition curve (a b : R) (g : R -> R) : list point :=
  map (fun i => (Fin (step a b i), Fin (g (step a b i)))) (seq 0 100).
Lemma linspace_fin a b : linspace100 (Fin a) (Fin b) = map (fun i => Fin (step a b i)) (seq 0 100).
Proof.
  unfold linspace100. apply map_ext. intros i. rewrite nsub_fin, ndiv_fin, nmul_fin, nadd_fin by lra. reflexivity.
Qed.
Lemma step_first a b : step a b 0 = a.
Proof. unfold step. simpl. ring. Qed.
Lemma step_last a b : step a b 99 = b.
Proof. unfold step. rewrite INR_IZR_INZ. simpl. field. Qed.
Lemma step_range a b i : (i < 100)%nat -> a <= b -> a <= step a b i <= b.
Proof.
  intros Hi H. unfold step. assert (0 <= INR i <= 99).
  { split; [apply pos_INR|]. replace 99 with (INR 99) by (rewrite INR_IZR_INZ; reflexivity). apply le_INR. lia. }
  split; [|]; nra.
Qed.
Lemma seq100 : seq 0 100 = (seq 0 99 ++ [99%nat])%list.
Proof. reflexivity. Qed.
Lemma combine_maps {A B C} (f : A -> B) (g : A -> C) l : combine (map f l) (map g l) = map (fun x => (f x, g x)) l.
Proof. induction l; cbn; congruence. Qed.
Lemma curve_fin a b G g : (forall v, G (Fin v) = Fin (g v)) ->
  combine (linspace100 (Fin a) (Fin b)) (map G (linspace100 (Fin a) (Fin b))) = curve a b g.
Proof.
  intros H. rewrite linspace_fin, map_map, combine_maps. apply map_ext. intros i. rewrite H. reflexivity.
Qed.
Lemma last_fin a b G g : (forall v, G (Fin v) = Fin (g v)) ->
  lastn (map G (linspace100 (Fin a) (Fin b))) = Ok (Fin (g b)).
Proof.
  intros H. rewrite linspace_fin, map_map, seq100, map_app. unfold lastn. rewrite rev_app_distr.
  cbn [map rev app]. rewrite H, step_last. reflexivity.
Qed.
Lemma first_fin a b G g : (forall v, G (Fin v) = Fin (g v)) ->
  firstn' (map G (linspace100 (Fin a) (Fin b))) = Ok (Fin (g a)).
Proof.
  intros H. rewrite linspace_fin, map_map. change (seq 0 100) with (0%nat :: seq 1 99). cbn [map firstn'].
  rewrite H, step_first. reflexivity.
Qed.
Lemma curve_starts a b g : starts (curve a b g) (Fin a, Fin (g a)).
Proof.
  unfold starts, curve. change (seq 0 100) with (0%nat :: seq 1 99). cbn [map nth_error]. rewrite step_first. reflexivity.
Qed.
Lemma curve_ends a b g : ends (curve a b g) (Fin b, Fin (g b)).
Proof.
  unfold ends, curve. rewrite seq100, map_app. cbn [map]. split; [intros E; apply app_eq_nil in E; destruct E; discriminate|].
  rewrite last_last, step_last. reflexivity.
Qed.
Lemma curve_in a b g x y : a <= b -> In (x, y) (curve a b g) -> exists v, a <= v <= b /\ x = Fin v /\ y = Fin (g v).
Proof.
  intros H E. apply in_map_iff in E. destruct E as (i & E & Hi). apply in_seq in Hi. injection E as <- <-.
  exists (step a b i). split; [apply step_range; [lia|exact H]|auto].
Qed.

(** ** interpolation between two points, as coded *)
Definition lin (v x0 x1 y0 y1 : R) : R :=
  if Rlt_dec x1 v then y1 else if Rlt_dec v x0 then y0
  else if Req_EM_T v x1 then y1 else if Req_EM_T v x0 then y0
  else (y1 - y0) / (x1 - x0) * (v - x0) + y0.
Lemma npinterp_fin v x0 x1 y0 y1 :
  npinterp (Fin v) (Fin x0) (Fin x1) (Fin y0) (Fin y1) = Fin (lin v x0 x1 y0 y1).
Proof.
  unfold npinterp, lin. rewrite !nltb_fin. unfold neqb, Reqb.
  destruct (Rltb_reflect x1 v), (Rlt_dec x1 v); try lra; [reflexivity|].
  destruct (Rltb_reflect v x0), (Rlt_dec v x0); try lra; [reflexivity|].
  destruct (Req_EM_T v x1); [reflexivity|]. destruct (Req_EM_T v x0); [reflexivity|].
  rewrite !nsub_fin, ndiv_fin, nmul_fin, nadd_fin by lra. reflexivity.
Qed.
Lemma lin_right v x0 y0 y1 : x0 <= v -> lin v x0 v y0 y1 = y1.
Proof. intros H. unfold lin. destruct (Rlt_dec v v); [lra|]. destruct (Rlt_dec v x0); [lra|]. destruct (Req_EM_T v v); [reflexivity|lra]. Qed.
Lemma lin_left v x1 y0 y1 : v < x1 -> lin v v x1 y0 y1 = y0.
Proof.
  intros H. unfold lin. destruct (Rlt_dec x1 v); [lra|]. destruct (Rlt_dec v v); [lra|].
  destruct (Req_EM_T v x1); [lra|]. destruct (Req_EM_T v v); [reflexivity|lra].
Qed.
Lemma lin_between v x0 x1 y0 y1 : x0 <= v <= x1 -> Rmin y0 y1 <= lin v x0 x1 y0 y1 <= Rmax y0 y1.
Proof.
  intros H. pose proof (Rmin_l y0 y1). pose proof (Rmin_r y0 y1). pose proof (Rmax_l y0 y1). pose proof (Rmax_r y0 y1).
  unfold lin. destruct (Rlt_dec x1 v); [lra|]. destruct (Rlt_dec v x0); [lra|].
  destruct (Req_EM_T v x1); [lra|]. destruct (Req_EM_T v x0); [lra|].
  assert (P : 0 < x1 - x0) by lra. set (t := (v - x0) / (x1 - x0)).
  assert (T : 0 <= t <= 1).
  { unfold t. split; [apply Rdiv_le_0_compat; lra|]. apply (Rmult_le_reg_r (x1 - x0)); [lra|].
    unfold Rdiv. rewrite Rmult_assoc, Rinv_l by lra. lra. }
  replace ((y1 - y0) / (x1 - x0) * (v - x0) + y0) with (y0 + t * (y1 - y0)) by (unfold t; field; lra).
  unfold Rmin, Rmax. destruct (Rle_dec y0 y1); nra.
Qed.

Definition vc_used (c : cat) (f : flight) : R := Rmax (f_vc f) (vc_minimum c f).
Definition via_speed (c : cat) (f : flight) : R :=
  in_knots (stall_mps f (-1 * f_wf f) (f_clmin f)) * sqrt (Rabs (coded_negative c (pounds (f_weight f)))).

Section Envelope.
  Variables (ext : externals) (s : cert) (f : flight).
  Hypothesis HD : describes ext s f.
  Variables (c : cat) (vd : R).
  Hypothesis HC : category s = CStr (names c).
  Hypothesis HV : dive s c f vd.

  Let vc := vc_used c f.
  Let va := va_speed c f.
  Let vb := vb_speed c f.
  Let vs := in_knots (stall_mps f (1 * f_wf f) (f_clmax f)).
  Let vis := in_knots (stall_mps f (-1 * f_wf f) (f_clmin f)).
  Let via := via_speed c f.
  Let npos := limit_positive c (pounds (f_weight f)) / f_wf f.
  Let nneg_c := coded_negative c (pounds (f_weight f)) / f_wf f.
  Let nneg_d := limit_negative_dive c / f_wf f.
  Let qc := coded_increment f (gust_c f) vc.
  Let qd := coded_increment f (gust_d f) vd.
  Let up := stall_line f (f_clmax f).
  Let down := stall_line f (f_clmin f).

  Definition sc_load (v : R) : R :=
    if Rle_dec v va then up v else if Rle_dec v vb then up v else Rmax (lin v vb vc (up vb) (1 + qc)) npos.
  Definition cd_load (v : R) : R := Rmax (lin v vc vd (sc_load vc) (1 + qd)) npos.
  Definition ef_load (v : R) : R := Rmin (lin v vc vd (Rmax (1 - qc) (down vc)) (1 - qd)) nneg_d.
  Definition fs_load (v : R) : R :=
    if Rlt_dec v via then down v else Rmax (Rmin (lin v 0 vc 1 (1 - qc)) nneg_c) (down v).

  Definition all_points : dict point :=
    [ ("A", (Fin va, Fin npos)); ("B", (Fin vb, Fin (up vb))); ("C", (Fin vc, Fin (sc_load vc)));
      ("D", (Fin vd, Fin (cd_load vd))); ("E", (Fin vd, Fin (Rmin (1 - qd) nneg_d)));
      ("F", (Fin vc, Fin (ef_load vc))); ("G", (Fin via, Fin (down via))) ]%string.
  Definition env : envelope :=
    {| poi := if Rlt_dec vc vb then filter (fun kv => negb (String.eqb (fst kv) "B")) all_points else all_points;
       outline := [ ("OS", [(Fin vs, #0); (Fin vs, Fin (1 / f_wf f))]); ("SC", curve vs vc sc_load);
                    ("CD", curve vc vd cd_load); ("E", [(Fin vd, Fin (Rmin (1 - qd) nneg_d))]);
                    ("EF", curve vd vc ef_load); ("FS", curve vc vis fs_load);
                    ("iSO", [(Fin vis, Fin (Rmax (-1) (down via))); (Fin vis, #0); (Fin vs, #0)]) ]%string;
       manoeuvre_outline := [ ("OA", curve 0 va up);
         ("D", [(Fin vd, Fin npos)]); ("E", [(Fin vd, Fin nneg_d)]); ("F", [(Fin vc, Fin nneg_c)]);
         ("GO", curve via 0 down) ]%string |}.

  Theorem envelope_spec : flightenvelope ext s = Ok env.
  Proof.
    pose proof (p_loading _ _ _ HD) as PL. pose proof (p_wf _ _ _ HD) as PW. pose proof (p_area _ _ _ HD) as PA.
    pose proof (p_sl _ _ _ HD) as PR.
    assert (TL : 0 < wing_loading f * f_wf f) by (apply Rmult_lt_0_compat; assumption).
    destruct (gusts_spec s _ _ _ (d_weight _ _ _ HD) (d_area _ _ _ HD) (Rlt_le _ _ (p_weight _ _ _ HD)) (d_alt _ _ _ HD))
      as (m & g & E3 & G). destruct (G c) as (G1 & G2 & G3 & _).
    destruct (speeds_spec _ _ _ HD) as (p & E5 & P).
    unfold flightenvelope. rewrite HC. replace (check_category (CStr (names c))) with (Ok c) by (destruct c; reflexivity).
    cbn [rbind]. rewrite (dens_air _ _ _ (d_sl _ _ _ HD)). cbn [rbind].
    rewrite (d_vc _ _ _ HD), (d_clmax _ _ _ HD), (d_clmin _ _ _ HD), (d_weight _ _ _ HD), (d_area _ _ _ HD).
    cbn [required rbind]. rewrite E5. cbn [rbind]. rewrite E3. cbn [rbind fst snd]. rewrite P.
    cbn [design_speeds vcmin_keas vdmin_keas vamin_keas vbmin1_keas].
    rewrite (ndiv_fin (f_weight f)) by lra. fold (wing_loading f). rewrite (d_wf _ _ _ HD).
    rewrite (pymax_fin (f_vc f)). fold (vc_used c f). fold vc. fold va vb.
    assert (EV : match divespeed_keas s with None => Fin (vd_minimum c f) | Some v => pymax v (Fin (vd_minimum c f)) end = Fin vd).
    { destruct HV as [(-> & ->)|(v & -> & ->)]; [reflexivity|apply pymax_fin]. }
    rewrite EV. rewrite !nmul_fin, (vs_up _ _ _ HD) by lra. cbn [rbind]. rewrite (vs_down _ _ _ HD) by lra. cbn [rbind].
    fold vs vis. rewrite G2. change (nabs (Fin ?x)) with (Fin (Rabs x)). rewrite msqrt_fin by apply Rabs_pos. cbn [rbind].
    rewrite nmul_fin. fold (via_speed c f). fold via.
    destruct (gust_load_spec _ _ _ HD {| at_Ub := Some (Fin vb); at_Uc := Some (Fin vc); at_Ud := Some (Fin vd) |})
      as (L & E1 & HUc & HUd & _).
    rewrite E1. cbn [rbind]. rewrite (HUc c vc eq_refl), (HUd c vd eq_refl). cbn [entry rbind load_pair fst snd].
    fold qc qd. rewrite G1, G3. rewrite !(ndiv_fin _ (f_wf f)) by lra. fold npos nneg_c nneg_d.
    assert (UP : forall v, (Fin (a_rho (f_sl f)) * kts2mps (Fin v) ^ 2 * Fin (f_clmax f) / Fin (wing_loading f * f_wf f) / #2 / Fin (f_wf f))%num
                 = Fin (up v)).
    { intros v. unfold kts2mps. rewrite !nmul_fin, npown_fin, !nmul_fin, !ndiv_fin by lra. apply Fin_eq.
      unfold up, stall_line, knots. field. lra. }
    assert (DN : forall v, (Fin (a_rho (f_sl f)) * kts2mps (Fin v) ^ 2 * Fin (f_clmin f) / Fin (wing_loading f * f_wf f) / #2 / Fin (f_wf f))%num
                 = Fin (down v)).
    { intros v. unfold kts2mps. rewrite !nmul_fin, npown_fin, !nmul_fin, !ndiv_fin by lra. apply Fin_eq.
      unfold down, stall_line, knots. field. lra. }
    assert (DG : forall v, (Fin (0.5 * a_rho (f_sl f)) * kts2mps (Fin v) ^ 2 * Fin (f_clmin f) / Fin (wing_loading f * f_wf f) / Fin (f_wf f))%num
                 = Fin (down v)).
    { intros v. unfold kts2mps. rewrite !nmul_fin, npown_fin, !nmul_fin, !ndiv_fin by lra. apply Fin_eq.
      unfold down, stall_line, knots. replace 0.5 with (1 / 2) by lra. field. lra. }
    assert (SC : forall v, (fun speed => if ((speed <=? Fin va) || (speed <=? Fin vb))%bool%num
        then (Fin (a_rho (f_sl f)) * kts2mps speed ^ 2 * Fin (f_clmax f) / Fin (wing_loading f * f_wf f) / #2 / Fin (f_wf f))%num
        else pymax (npinterp speed (Fin vb) (Fin vc) (Fin (a_rho (f_sl f)) * kts2mps (Fin vb) ^ 2 * Fin (f_clmax f) / Fin (wing_loading f * f_wf f) / #2 / Fin (f_wf f))%num
            (Fin (1 + qc))) (Fin npos)) (Fin v) = Fin (sc_load v)).
    { intros v. cbv beta. rewrite !UP, npinterp_fin, pymax_fin, !nleb_fin. unfold sc_load.
      destruct (Rleb_reflect v va), (Rle_dec v va); try lra; [reflexivity|].
      destruct (Rleb_reflect v vb), (Rle_dec v vb); try lra; reflexivity. }
    rewrite (last_fin _ _ _ _ SC). cbn [rbind].
    assert (CD : forall v, (fun speed => pymax (npinterp speed (Fin vc) (Fin vd) (Fin (sc_load vc)) (Fin (1 + qd))) (Fin npos)) (Fin v) = Fin (cd_load v)).
    { intros v. cbv beta. rewrite npinterp_fin, pymax_fin. reflexivity. }
    rewrite (last_fin _ _ _ _ CD). cbn [rbind].
    assert (EF : forall v, (fun speed => pymin (npinterp speed (Fin vc) (Fin vd) (pymax (Fin (1 - qc)) 
       (Fin (a_rho (f_sl f)) * kts2mps (Fin vc) ^ 2 * Fin (f_clmin f) / Fin (wing_loading f * f_wf f) / #2 / Fin (f_wf f))%num) (Fin (1 - qd))) (Fin nneg_d)) (Fin v) = Fin (ef_load v)).
    { intros v. cbv beta. rewrite DN, pymax_fin, npinterp_fin, pymin_fin. reflexivity. }
    rewrite (last_fin _ _ _ _ EF). cbn [rbind].
    assert (FS : forall v, (fun speed => if (speed <? Fin via)%num
        then (Fin (a_rho (f_sl f)) * kts2mps speed ^ 2 * Fin (f_clmin f) / Fin (wing_loading f * f_wf f) / #2 / Fin (f_wf f))%num
        else pymax (pymin (npinterp speed #0 (Fin vc) #1 (Fin (1 - qc))) (Fin nneg_c))
          (Fin (a_rho (f_sl f)) * kts2mps speed ^ 2 * Fin (f_clmin f) / Fin (wing_loading f * f_wf f) / #2 / Fin (f_wf f))%num) (Fin v) = Fin (fs_load v)).
    { intros v. cbv beta. rewrite !DN, npinterp_fin, pymin_fin, pymax_fin, nltb_fin. unfold fs_load.
      destruct (Rltb_reflect v via), (Rlt_dec v via); try lra; reflexivity. }
    rewrite (first_fin _ _ _ _ DG). cbn [rbind].
    rewrite (curve_fin _ _ _ _ SC), (curve_fin _ _ _ _ CD), (curve_fin _ _ _ _ EF), (curve_fin _ _ _ _ FS), (curve_fin _ _ _ _ DG).
    rewrite UP, !pymin_fin, !pymax_fin, nltb_fin, !(ndiv_fin _ (wing_loading f * f_wf f)) by lra. rewrite !nmul_fin.
    assert (EW : forall x, x * (wing_loading f / (wing_loading f * f_wf f)) = x / f_wf f) by (intros; field; lra).
    rewrite !EW. fold npos nneg_c nneg_d. f_equal. unfold env. f_equal.
    - unfold all_points. destruct (Rltb_reflect vc vb), (Rlt_dec vc vb); try lra; reflexivity.
    - rewrite linspace_fin, map_map. unfold curve. do 2 f_equal. apply map_ext. intros i. rewrite UP. reflexivity.
  Qed.
End Envelope.
