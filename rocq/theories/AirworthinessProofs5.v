(** Design speeds against each other, coverage of the negative limit, the outline, and
    the construction of a CertificationSpecifications object. *)
From Verif Require Import Base BaseFacts AnalysisFacts UnitsModel AtmosModel AtmosSpec ConceptModel
  ConceptProofs MethodsModel MethodsSpec MethodsProofs2 ConstraintSpec ConstraintProofs SensitivityProofs3
  AirworthinessModel AirworthinessSpec AirworthinessProofs AirworthinessProofs2 AirworthinessProofs3 AirworthinessProofs4.
Open Scope R_scope.

Section Speeds.
  Variables (ext : externals) (s : cert) (f : flight).
  Hypothesis HD : describes ext s f.

  Lemma va_sq c : va_speed c f ^ 2 = 1.9438445 ^ 2 * limit_positive c (pounds (f_weight f)) *
    (2 * f_wf f * wing_loading f / (a_rho (f_sl f) * f_clmax f)) /\ 0 <= va_speed c f.
  Proof.
    pose proof (p_weight _ _ _ HD). pose proof (p_area _ _ _ HD). pose proof (p_clmax _ _ _ HD). pose proof (p_sl _ _ _ HD).
    pose proof (p_wf _ _ _ HD). pose proof (p_limit _ _ _ HD c).
    destruct (stall_carries _ _ _ HD (f_wf f) (f_clmax f)) as (P & E); [apply Rmult_le_pos; lra|lra|].
    unfold va_speed, in_knots. set (x := stall_mps f (f_wf f) (f_clmax f)) in *.
    split; [|apply Rmult_le_pos; [lra|apply sqrt_pos]].
    rewrite !Rpow_mult_distr, pow2_sqrt by lra.
    replace (x ^ 2) with (2 * f_wf f * wing_loading f / (a_rho (f_sl f) * f_clmax f)); [ring|].
    unfold wing_loading. apply (Rmult_eq_reg_l (1 / 2 * a_rho (f_sl f) * f_area f * f_clmax f)).
    - replace (1 / 2 * a_rho (f_sl f) * f_area f * f_clmax f * x ^ 2) with (1 / 2 * a_rho (f_sl f) * x ^ 2 * f_area f * f_clmax f) by ring.
      rewrite E. field. repeat split; lra.
    - apply Rgt_not_eq. apply Rmult_lt_0_compat; [|assumption]. apply Rmult_lt_0_compat; [|assumption]. lra.
  Qed.
  Lemma vc_minimum_sq c : vc_minimum c f ^ 2 = vc_coefficient c (pounds_per_ft2 (wing_loading f)) ^ 2 * (wing_loading f * 0.020885434273039).
  Proof.
    unfold vc_minimum. rewrite Rpow_mult_distr, pow2_sqrt by (left; apply (wl_pos _ _ _ HD)). reflexivity.
  Qed.
  (** aerobatic aircraft with a moderate lift coefficient: VA exceeds VC *)
  Lemma va_exceeds : a_rho (f_sl f) * f_clmax f <= 1.67 * f_wf f -> f_vc f <= vc_minimum Aero f ->
    vc_used Aero f < va_speed Aero f.
  Proof.
    intros HR HV. unfold vc_used. rewrite Rmax_right by exact HV.
    destruct (va_sq Aero) as (E & P). pose proof (vc_minimum_sq Aero) as EC. pose proof (vc_minimum_pos _ _ _ HD Aero) as PC.
    pose proof (p_loading _ _ _ HD) as PL. pose proof (p_clmax _ _ _ HD). pose proof (p_sl _ _ _ HD). pose proof (p_wf _ _ _ HD) as PW.
    pose proof (vc_coefficient_range Aero (pounds_per_ft2 (wing_loading f))) as K.
    set (k := vc_coefficient Aero _) in *. set (W := wing_loading f) in *. set (d := a_rho (f_sl f) * f_clmax f) in *.
    assert (D : 0 < d) by (apply Rmult_lt_0_compat; assumption).
    assert (L : vc_minimum Aero f ^ 2 < va_speed Aero f ^ 2).
    { rewrite E, EC. cbn [limit_positive]. assert (K2 : k ^ 2 <= 1296) by (simpl; nra).
      assert (Q : 2 * W / 1.67 <= 2 * f_wf f * W / d).
      { replace (2 * f_wf f * W / d) with (2 * W * (f_wf f / d)) by (field; lra). unfold Rdiv at 1.
        apply Rmult_le_compat_l; [lra|]. apply (Rmult_le_reg_r d); [exact D|]. unfold Rdiv. rewrite Rmult_assoc, Rinv_l by lra. lra. }
      apply Rle_lt_trans with (1296 * (W * 0.020885434273039)); [apply Rmult_le_compat_r; lra|].
      eapply Rlt_le_trans; [|apply Rmult_le_compat_l; [|exact Q]]; [simpl; lra|simpl; lra]. }
    apply Rsqr_incrst_0; [rewrite !Rsqr_pow2; exact L|lra|exact P].
  Qed.
  (** normal and commuter aircraft with a large enough lift coefficient: VA stays below VC *)
  Lemma va_below c : c = Norm \/ c = Comm -> 1.69 * f_wf f <= a_rho (f_sl f) * f_clmax f -> va_speed c f <= vc_used c f.
  Proof.
    intros HN HR. apply Rle_trans with (vc_minimum c f); [|apply Rmax_r].
    destruct (va_sq c) as (E & P). pose proof (vc_minimum_sq c) as EC. pose proof (vc_minimum_pos _ _ _ HD c) as PC.
    pose proof (p_loading _ _ _ HD) as PL. pose proof (p_clmax _ _ _ HD). pose proof (p_sl _ _ _ HD). pose proof (p_wf _ _ _ HD) as PW.
    pose proof (vc_coefficient_range c (pounds_per_ft2 (wing_loading f))) as K.
    assert (N : 2.1 < limit_positive c (pounds (f_weight f)) <= 3.8).
    { destruct HN as [-> | ->]; apply (limit_positive_norm _ (Rlt_le _ _ (p_pounds _ _ _ HD))). }
    set (n := limit_positive c _) in *.
    set (k := vc_coefficient c _) in *. set (W := wing_loading f) in *. set (d := a_rho (f_sl f) * f_clmax f) in *.
    assert (D : 0 < d) by (apply Rmult_lt_0_compat; assumption).
    assert (L : va_speed c f ^ 2 <= vc_minimum c f ^ 2).
    { rewrite E, EC. assert (K2 : 28.6 ^ 2 <= k ^ 2) by (simpl; nra).
      assert (Q : 2 * f_wf f * W / d <= 2 * W / 1.69).
      { replace (2 * f_wf f * W / d) with (2 * W * (f_wf f / d)) by (field; lra). unfold Rdiv at 2.
        apply Rmult_le_compat_l; [lra|]. apply (Rmult_le_reg_r d); [exact D|]. unfold Rdiv. rewrite Rmult_assoc, Rinv_l by lra. lra. }
      apply Rle_trans with (28.6 ^ 2 * (W * 0.020885434273039)); [|apply Rmult_le_compat_r; lra].
      apply Rle_trans with (1.9438445 ^ 2 * 3.8 * (2 * W / 1.69)); [|simpl; lra].
      apply Rmult_le_compat; [simpl; lra|apply Rdiv_le_0_compat; [apply Rmult_le_pos; lra|lra]| |exact Q].
      apply Rmult_le_compat_l; [simpl; lra|lra]. }
    apply Rsqr_incr_0; [rewrite !Rsqr_pow2; exact L|exact P|lra].
  Qed.

  Variables (c : cat) (vd : R).
  Hypothesis HC : category s = CStr (names c).
  Hypothesis HV : dive s c f vd.

  Lemma down_sq v : stall_line f (f_clmin f) v = - ((knots v) ^ 2 * (1 / 2 * a_rho (f_sl f) * - f_clmin f / (wing_loading f * f_wf f) / f_wf f))
    /\ 0 < 1 / 2 * a_rho (f_sl f) * - f_clmin f / (wing_loading f * f_wf f) / f_wf f.
  Proof.
    pose proof (p_loading _ _ _ HD). pose proof (p_wf _ _ _ HD). pose proof (p_clmin _ _ _ HD). pose proof (p_sl _ _ _ HD).
    assert (0 < wing_loading f * f_wf f) by (apply Rmult_lt_0_compat; assumption).
    split; [unfold stall_line; field; split; lra|].
    apply Rdiv_lt_0_compat; [|assumption]. apply Rdiv_lt_0_compat; [|assumption]. apply Rmult_lt_0_compat; lra.
  Qed.
  (** the negative manoeuvring limit is not covered at point F *)
  Lemma f_uncovered : c = Norm \/ c = Comm ->
    limit_negative c (pounds (f_weight f)) / f_wf f < 1 - coded_increment f (gust_c f) (vc_used c f) ->
    stall_line f (f_clmin f) (vc_used c f) <= limit_negative c (pounds (f_weight f)) / f_wf f ->
    exists e nf l n, flightenvelope ext s = Ok e /\ dget "F" (poi e) = Some (Fin (vc_used c f), Fin nf) /\
      limit_negative c (pounds (f_weight f)) / f_wf f < nf /\
      dget "FS" (outline e) = Some l /\ starts l (Fin (vc_used c f), Fin n) /\ n = limit_negative c (pounds (f_weight f)) / f_wf f.
  Proof.
    intros HN HG HS. exists (env f c vd), (ef_load f c vd (vc_used c f)), (curve (vc_used c f) (in_knots (stall_mps f (-1 * f_wf f) (f_clmin f))) (fs_load f c)).
    eexists. split; [apply (envelope_spec ext s f HD c vd HC HV)|].
    assert (EN : coded_negative c (pounds (f_weight f)) = limit_negative c (pounds (f_weight f))) by (destruct HN as [->| ->]; reflexivity).
    pose proof (coded_negative_neg _ _ _ HD c) as NN. rewrite EN in NN. pose proof (p_wf _ _ _ HD) as PW.
    assert (NW : limit_negative c (pounds (f_weight f)) / f_wf f < 0).
    { unfold Rdiv. assert (0 < / f_wf f) by (apply Rinv_0_lt_compat; assumption). nra. }
    set (N := limit_negative c (pounds (f_weight f)) / f_wf f) in *.
    split.
    { unfold env. cbn [poi]. destruct (Rlt_dec _ _); [rewrite dget_filter by discriminate|]; reflexivity. }
    split.
    { rewrite (ef_end _ _ _ HD c vd HV). apply Rmin_glb_lt.
      - eapply Rlt_le_trans; [exact HG|apply Rmax_l].
      - replace (limit_negative_dive c) with 0 by (destruct HN as [->| ->]; reflexivity). unfold Rdiv. rewrite Rmult_0_l. exact NW. }
    split; [reflexivity|]. split; [apply curve_starts|].
    rewrite (fs_start _ _ _ HD).
    - rewrite EN. fold N. rewrite Rmin_right by lra. apply Rmax_left. exact HS.
    - pose proof (via_on_stall _ _ _ HD c) as EV. rewrite EN in EV. fold N in EV. pose proof kappa_sq as KS.
      destruct (Rle_dec (via_speed c f) (vc_used c f)) as [Q|Q]; [exact Q|exfalso].
      destruct (down_sq (via_speed c f)) as (E1 & K). destruct (down_sq (vc_used c f)) as (E2 & _).
      set (k := 1 / 2 * a_rho (f_sl f) * - f_clmin f / (wing_loading f * f_wf f) / f_wf f) in *.
      pose proof (vc_used_pos _ _ _ HD c) as VP.
      assert (L : knots (vc_used c f) ^ 2 < knots (via_speed c f) ^ 2) by (unfold knots; simpl; nra).
      assert (stall_line f (f_clmin f) (via_speed c f) < stall_line f (f_clmin f) (vc_used c f)) by nra.
      nra.
  Qed.

  (** the pieces of the outline *)
  Theorem outline_joins : exists e sc cd pe ef C D E F,
    flightenvelope ext s = Ok e /\
    dget "SC" (outline e) = Some sc /\ dget "CD" (outline e) = Some cd /\ dget "E" (outline e) = Some pe /\
    dget "EF" (outline e) = Some ef /\
    dget "C" (poi e) = Some C /\ dget "D" (poi e) = Some D /\ dget "E" (poi e) = Some E /\ dget "F" (poi e) = Some F /\
    ends sc C /\ ends cd D /\ pe = [E] /\ starts ef E /\ ends ef F /\
    (limit_positive c (pounds (f_weight f)) / f_wf f <= stall_line f (f_clmax f) (vc_used c f) -> starts cd C).
  Proof.
    exists (env f c vd). do 4 eexists.
    exists (Fin (vc_used c f), Fin (sc_load f c (vc_used c f))), (Fin vd, Fin (cd_load f c vd vd)),
      (Fin vd, Fin (Rmin (1 - coded_increment f (gust_d f) vd) (limit_negative_dive c / f_wf f))), (Fin (vc_used c f), Fin (ef_load f c vd (vc_used c f))).
    split; [apply (envelope_spec ext s f HD c vd HC HV)|]. do 4 (split; [reflexivity|]).
    assert (K : forall k, k <> "B"%string -> dget k (poi (env f c vd)) = dget k (all_points f c vd)).
    { intros k Hk. unfold env. cbn [poi]. destruct (Rlt_dec _ _); [|reflexivity]. apply dget_filter, Hk. }
    do 4 (split; [rewrite K by discriminate; reflexivity|]).
    split; [apply curve_ends|]. split; [apply curve_ends|]. split; [reflexivity|].
    split; [rewrite <- (ef_start _ _ _ HD c vd HV); apply curve_starts|]. split; [apply curve_ends|].
    intros H. assert (EQ : cd_load f c vd (vc_used c f) = sc_load f c (vc_used c f)).
    { rewrite (cd_start _ _ _ HD c vd HV). apply Rmax_left. rewrite sc_end.
      destruct (Rle_dec _ _); [exact H|apply Rmax_r]. }
    rewrite <- EQ. apply curve_starts.
  Qed.

  (** the outline against the stall line and the limits *)
  Theorem outline_bounds : exists e sc cd ef fs, flightenvelope ext s = Ok e /\
    dget "SC" (outline e) = Some sc /\ dget "CD" (outline e) = Some cd /\ dget "EF" (outline e) = Some ef /\
    dget "FS" (outline e) = Some fs /\
    (in_knots (stall_mps f (1 * f_wf f) (f_clmax f)) <= vc_used c f ->
     forall x y, In (x, y) sc -> exists v n, x = Fin v /\ y = Fin n /\
       n <= (1 + 2e-7) * stall_line f (f_clmax f) v /\
       (va_speed c f <= v -> (1 - 2e-7) * (limit_positive c (pounds (f_weight f)) / f_wf f) <= n)) /\
    (forall x y, In (x, y) cd -> exists v n, x = Fin v /\ y = Fin n /\ limit_positive c (pounds (f_weight f)) / f_wf f <= n) /\
    (forall x y, In (x, y) ef -> exists v n, x = Fin v /\ y = Fin n /\ n <= limit_negative_dive c / f_wf f) /\
    (forall x y, In (x, y) fs -> exists v n, x = Fin v /\ y = Fin n /\ stall_line f (f_clmin f) v <= n /\
       (c = Norm \/ c = Comm -> n <= Rmax (limit_negative c (pounds (f_weight f)) / f_wf f) (stall_line f (f_clmin f) v))).
  Proof.
    exists (env f c vd). do 4 eexists. split; [apply (envelope_spec ext s f HD c vd HC HV)|]. do 4 (split; [reflexivity|]).
    assert (G : forall a b g x y, In (x, y) (curve a b g) -> exists v, x = Fin v /\ y = Fin (g v)).
    { intros a b g x y H. apply in_map_iff in H. destruct H as (i & H & _). injection H as <- <-. eauto. }
    pose proof (p_limit _ _ _ HD c) as PL. pose proof (p_wf _ _ _ HD) as PW. pose proof kappa_sq as KS.
    assert (N : 0 < limit_positive c (pounds (f_weight f)) / f_wf f) by (apply Rdiv_lt_0_compat; lra).
    split; [|split; [|split]].
    - intros HS x y H. apply curve_in in H; [|exact HS]. destruct H as (v & RG & -> & ->). do 2 eexists. do 2 (split; [reflexivity|]).
      split; [apply (sc_below_stall _ _ _ HD c vd HC HV v (proj2 RG))|]. intros HA. pose proof (sc_covers _ _ _ HD c v HA) as Q.
      eapply Rle_trans; [|exact Q]. apply Rmult_le_compat_r; lra.
    - intros x y H. apply G in H. destruct H as (v & -> & ->). do 2 eexists. do 2 (split; [reflexivity|]). apply cd_covers.
    - intros x y H. apply G in H. destruct H as (v & -> & ->). do 2 eexists. do 2 (split; [reflexivity|]). apply ef_covers.
    - intros x y H. apply G in H. destruct H as (v & -> & ->). do 2 eexists. do 2 (split; [reflexivity|]).
      split; [apply fs_above_stall|]. intros HN. replace (limit_negative c (pounds (f_weight f))) with (coded_negative c (pounds (f_weight f)))
        by (destruct HN as [->| ->]; reflexivity).
      unfold fs_load. destruct (Rlt_dec _ _); [apply Rmax_r|]. apply Rmax_lub; [|apply Rmax_r].
      eapply Rle_trans; [apply Rmin_r|apply Rmax_l].
  Qed.
End Speeds.

(** ** construction *)
Lemma fill_get l cs k : dget k (fold_left (fun d kv => match dget (fst kv) d with Some _ => d | None => dset (fst kv) (snd kv) d end) l cs : dict csv)
  = match dget k cs with Some v => Some v | None => dget k l end.
Proof.
  revert cs. induction l as [|[a v] l IH]; intros cs; cbn [fold_left fst snd].
  - destruct (dget k cs); reflexivity.
  - rewrite IH. cbn [dget]. destruct (dget a cs) eqn:E.
    + destruct (String.eqb_spec k a) as [->|N]; [rewrite E; reflexivity|reflexivity].
    + rewrite dget_set. destruct (String.eqb_spec k a) as [->|N]; [rewrite E|]; reflexivity.
Qed.
Lemma csfill_get cs k : dget k (csfill cs) = match dget k cs with Some v => Some v | None => dget k default_csbrief end.
Proof. apply fill_get. Qed.

Lemma certification_inv b d p atm prop cs s cs' : certification b d p atm prop cs = Ok (s, cs') ->
  exists o, construct b d p atm PropFalse = Ok o /\ acobj s = obj o /\
    cs' = csfill (match cs with None => [] | Some x => x end) /\ cert_of (obj o) cs' = Ok s.
Proof.
  unfold certification. intros H. apply rbind_ok in H. destruct H as (o & E & H). cbv zeta in H.
  apply rbind_ok in H. destruct H as (s1 & E1 & H). assert (s1 = s) as -> by congruence. assert (cs' = csfill match cs with None => [] | Some x => x end) as -> by congruence.
  exists o. split; [exact E|]. split; [|split; [reflexivity|exact E1]].
  unfold cert_of in E1. repeat (apply rbind_ok in E1; destruct E1 as (? & ? & E1)). injection E1 as <-. reflexivity.
Qed.
Lemma construct_engine b d p atm e o : construct b d p atm e = Ok o -> propulsion (obj o) = e.
Proof.
  unfold construct. intros H. repeat (apply rbind_ok in H; destruct H as (? & ? & H)). injection H as <-. cbn [obj].
  match goal with HA : attributes _ _ _ _ _ = Ok _ |- _ => exact (proj1 (attributes_engine _ _ _ _ _ _ HA)) end.
Qed.
