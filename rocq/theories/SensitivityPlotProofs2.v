(** The combined diagram of the sensitivity analysis. *)
From Coq Require Import Sorted.
From Verif Require Import Base BaseFacts UnitsModel AtmosModel AtmosSpec ConceptModel MethodsModel SensitivityModel SensitivitySpec
  SensitivityPlotModel SensitivityPlotSpec ConceptProofs MethodsProofs SensitivityProofs SensitivityProofs2 SensitivityPlotProofs.
Open Scope R_scope.
Open Scope string_scope.

Lemma combined_inv ext self wl y yl x labels mask d :
  propulsionsensitivity_monothetic ext self wl y yl x labels (ShowOne "combined") mask = Ok [DCombined d] ->
  exists fg, figure ext self wl y x yl = Ok fg /\ combinedplot fg = Ok d.
Proof.
  unfold propulsionsensitivity_monothetic. intros H. apply rbind_ok in H as (fg & F & H). cbn in H.
  exists fg. split; [exact F|]. destruct (combinedplot fg); cbn in H; congruence.
Qed.

Lemma stall_fg self x o m : stall_position self x o -> weight_n (obj self) = Some m ->
  xcrit_stall (obj self) (m / sc_g)%num x = Ok (match o with Some L => Some (Fin L) | None => None end) /\
  forall L, o = Some L -> 0 < L.
Proof.
  intros [N|v cl w W L V C PV PC WS PW EW HW EL] Em.
  - split; [|discriminate]. unfold xcrit_stall. destruct N as [-> | ->]; [reflexivity|]. cbn [attr_true].
    rewrite Bool.andb_false_r. reflexivity.
  - assert (m = Fin W) as -> by congruence. split.
    + unfold xcrit_stall. rewrite V, C. cbn [attr_true truthy]. rewrite (Reqb_false v 0), (Reqb_false cl 0) by lra. cbn [negb andb].
      destruct x; unfold smincleanstall_m2; rewrite WS; cbn [rmap rbind]; [rewrite EL; reflexivity|].
      unfold kg2n, sc_g. rewrite ndiv_fin by lra. rewrite nmul_fin, ndiv_fin by lra. rewrite EL. do 3 f_equal. field. lra.
    + intros L' [= <-]. rewrite EL. destruct x; [exact PW|]. apply Rdiv_lt_0_compat; assumption.
Qed.

(** the part of the combined diagram that depends on the stall *)
Lemma shade_extent fg d a b o : combinedplot fg = Ok d -> fg_x1 fg = Fin a -> fg_x2 fg = Fin b ->
  fg_stall fg = match o with Some L => Some (Fin L) | None => None end -> (forall L, o = Some L -> 0 < L) ->
  cd_shade d = match o with Some L => (Fin (Rmin a L), Fin (Rmax b L)) | None => (Fin a, Fin b) end.
Proof.
  intros H Ea Eb Es Hp. unfold combinedplot in H. apply rbind_ok in H as (lo & _ & H). apply rbind_ok in H as (hi & _ & H).
  cbv zeta in H. apply rbind_ok in H as (tl & _ & H). rewrite Es, Ea, Eb in H. destruct o as [L|].
  - specialize (Hp L eq_refl). cbn [truthy] in H. rewrite (Reqb_false L 0) in H by lra. cbn [negb andb] in H.
    rewrite !nltb_fin in H. apply rbind_ok in H as (xf & _ & H). apply rbind_ok in H as (yf & _ & H). injection H as <-. cbn [cd_shade].
    f_equal.
    + destruct (Rltb_reflect a L) as [Q|Q]; f_equal; unfold Rmin; destruct (Rle_dec a L); lra.
    + destruct (Rltb_reflect L b) as [Q|Q]; f_equal; unfold Rmax; destruct (Rle_dec b L); lra.
  - apply rbind_ok in H as (xf & _ & H). apply rbind_ok in H as (yf & _ & H). injection H as <-. reflexivity.
Qed.

Lemma shaded_iff d a b p : cd_shade d = (Fin a, Fin b) -> (shaded d p <-> a <= p <= b).
Proof.
  intros E. unfold shaded. split; [intros (a' & b' & E' & H); rewrite E in E'; injection E' as <- <-; exact H|intros H; eauto].
Qed.

(** C80: everything about the combined diagram's region *)
Lemma diagram_region ext self wl y yl x labels mask d s med ws xs o :
  propulsionsensitivity_monothetic ext self wl y yl x labels (ShowOne "combined") mask = Ok [DCombined d] ->
  sensitivity ext self wl y = Ok (s, med) -> axis self wl x ws xs -> NoDup xs -> stall_position self x o ->
  exists a b, (exists i, nth_error xs i = Some a /\ outside (rq_combined med) i) /\
  (exists i, nth_error xs i = Some b /\ outside (rq_combined med) i) /\
  (forall i p, nth_error xs i = Some p -> outside (rq_combined med) i -> a <= p <= b) /\
  cd_shade d = match o with Some L => (Fin (Rmin a L), Fin (Rmax b L)) | None => (Fin a, Fin b) end.
Proof.
  intros H S A ND ST. destruct (combined_inv _ _ _ _ _ _ _ _ _ H) as (fg & F & P).
  destruct (figure_bounds _ _ _ _ _ _ _ _ _ F A ND) as (a & b & Ea & Eb & I1 & I2 & I3).
  destruct (figure_inv _ _ _ _ _ _ _ F) as (s' & med' & comb & fx & S' & _ & _ & M & _ & XS & _).
  rewrite S in S'. injection S' as <- <-. rewrite M in *. exists a, b. repeat (split; [assumption|]).
  destruct (sensitivity_inv _ _ _ _ _ _ S) as (w & _ & W & _).
  destruct (stall_fg self x o w ST W) as (E & Q). rewrite W in XS. cbn [pval] in XS. rewrite E in XS. injection XS as XS.
  exact (shade_extent _ _ _ _ _ P Ea Eb (eq_sym XS) Q).
Qed.

Lemma monotone_nodup l : ascending l \/ descending l -> NoDup l.
Proof.
  intros H. apply NoDup_nth_error. intros i j L E. destruct (nth_error l i) as [v|] eqn:V; [|apply nth_error_None in V; lia].
  symmetry in E. destruct (lt_eq_lt_dec i j) as [[Q|Q]|Q]; [|exact Q|]; exfalso; destruct H as [H|H].
  - pose proof (H i j v v Q V E). lra.
  - pose proof (H i j v v Q V E). lra.
  - pose proof (H j i v v Q E V). lra.
  - pose proof (H j i v v Q E V). lra.
Qed.
Lemma area_descending W ws : 0 < W -> (forall w, In w ws -> 0 < w) -> ascending ws -> descending (map (fun w => W / w) ws).
Proof.
  intros HW P A i j a b L. rewrite !nth_error_map. destruct (nth_error ws i) as [u|] eqn:U; [|discriminate].
  destruct (nth_error ws j) as [v|] eqn:V; [|discriminate]. cbn. intros [= <-] [= <-].
  pose proof (A i j u v L U V) as Q. pose proof (P u (nth_error_In _ _ U)). apply Rmult_lt_compat_l; [exact HW|].
  apply Rinv_lt_contravar; [nra|exact Q].
Qed.

Lemma shading ext self wl y yl x labels mask d s med ws xs o k :
  propulsionsensitivity_monothetic ext self wl y yl x labels (ShowOne "combined") mask = Ok [DCombined d] ->
  sensitivity ext self wl y = Ok (s, med) -> axis self wl x ws xs -> ascending ws -> stall_position self x o ->
  (0 < k <= List.length ws)%nat -> (forall i, defined_at (rq_combined med) i <-> (i < k)%nat) ->
  forall i p, nth_error xs i = Some p ->
  (shaded d p <-> (k <= i + 1)%nat \/ exists L, o = Some L /\ beyond x L p).
Proof.
  intros H S A AS ST K0 D i p EP.
  assert (M : match x with Xws => ascending xs | Xarea => descending xs end /\ List.length xs = List.length ws).
  { destruct A as (_ & A). destruct x.
    - rewrite A. auto.
    - destruct A as (W & _ & HW & P & ->). split; [apply area_descending; assumption|apply map_length]. }
  destruct M as (M & LEN).
  assert (ND : NoDup xs) by (apply monotone_nodup; destruct x; auto).
  destruct (diagram_region _ _ _ _ _ _ _ _ _ _ _ _ _ _ H S A ND ST) as (a & b & (ia & Ia & Oa) & (ib & Ib & Ob) & B & E).
  assert (IL : forall j q, nth_error xs j = Some q -> (j < List.length ws)%nat).
  { intros j q Q. rewrite <- LEN. apply nth_error_Some. congruence. }
  assert (OUT : forall j q, nth_error xs j = Some q -> (outside (rq_combined med) j <-> (k <= j + 1)%nat)).
  { intros j q J. apply IL in J. unfold outside. rewrite (D j). split.
    - intros Q. destruct (le_lt_dec k (j + 1)) as [L|L]; [exact L|]. exfalso. pose proof (Q ltac:(lia) _ (proj2 (D (j + 1)%nat) L)). lia.
    - intros L JK j' DJ. apply D in DJ. lia. }
  rewrite (OUT _ _ Ia) in Oa. rewrite (OUT _ _ Ib) in Ob.
  (* the position of the last loading that is met, and that of the last one *)
  destruct (nth_error xs (k - 1)) as [pk|] eqn:EK; [|apply nth_error_None in EK; lia].
  destruct (nth_error xs (List.length ws - 1)) as [pe|] eqn:EE; [|apply nth_error_None in EE; lia].
  pose proof (B _ _ EK (proj2 (OUT _ _ EK) ltac:(lia))) as BK. pose proof (B _ _ EE (proj2 (OUT _ _ EE) ltac:(lia))) as BE.
  pose proof (IL _ _ Ia) as La. pose proof (IL _ _ Ib) as Lb. pose proof (IL _ _ EP) as Li.
  assert (MON : forall j j' q q', (j <= j')%nat -> nth_error xs j = Some q -> nth_error xs j' = Some q' ->
            match x with Xws => q <= q' | Xarea => q' <= q end).
  { intros j j' q q' L Q Q'. destruct (Nat.eq_dec j j') as [<-|N].
    - rewrite Q in Q'. injection Q' as <-. destruct x; lra.
    - destruct x; pose proof (M j j' q q' ltac:(lia) Q Q'); lra. }
  assert (STR : forall j j' q q', (j < j')%nat -> nth_error xs j = Some q -> nth_error xs j' = Some q' ->
            match x with Xws => q < q' | Xarea => q' < q end).
  { intros j j' q q' L Q Q'. destruct x; exact (M j j' q q' L Q Q'). }
  assert (KEY : match x with Xws => a = pk /\ p <= b | Xarea => b = pk /\ a <= p end).
  { pose proof (MON (k - 1)%nat ia pk a ltac:(lia) EK Ia) as M1. pose proof (MON (k - 1)%nat ib pk b ltac:(lia) EK Ib) as M2.
    pose proof (MON i (List.length ws - 1)%nat p pe ltac:(lia) EP EE) as M3. destruct x; lra. }
  assert (IFF : (k <= i + 1)%nat <-> match x with Xws => pk <= p | Xarea => p <= pk end).
  { split.
    - intros L. pose proof (MON (k - 1)%nat i pk p ltac:(lia) EK EP) as Q. destruct x; exact Q.
    - intros Q. destruct (le_lt_dec k (i + 1)) as [L|L]; [exact L|]. exfalso.
      pose proof (STR i (k - 1)%nat p pk ltac:(lia) EP EK) as Z. destruct x; lra. }
  rewrite IFF. destruct o as [L|].
  - rewrite (shaded_iff _ _ _ _ E). unfold Rmin, Rmax. destruct (Rle_dec a L), (Rle_dec b L); destruct x; cbn [beyond] in *; destruct KEY as (KE & KB); subst pk;
      (split; [intros Q; first [left; lra|right; exists L; split; [reflexivity|lra]]
              |intros [Q|(L' & [= <-] & Q)]; lra]).
  - rewrite (shaded_iff _ _ _ _ E). destruct x; destruct KEY as (KE & KB); subst pk;
      (split; [intros Q; left; lra|intros [Q|(L' & Z & _)]; [lra|discriminate]]).
Qed.

(** the last loading that meets every constraint is covered, in whatever order they come *)
Lemma last_feasible_shaded ext self wl y yl x labels mask d s med ws xs o i p :
  propulsionsensitivity_monothetic ext self wl y yl x labels (ShowOne "combined") mask = Ok [DCombined d] ->
  sensitivity ext self wl y = Ok (s, med) -> axis self wl x ws xs -> NoDup ws -> stall_position self x o ->
  defined_at (rq_combined med) i -> (forall j, defined_at (rq_combined med) j -> (j <= i)%nat) ->
  nth_error xs i = Some p -> shaded d p.
Proof.
  intros H S A ND ST D DM EP.
  assert (ND' : NoDup xs).
  { destruct A as (_ & A). destruct x; [rewrite A; exact ND|]. destruct A as (W & _ & HW & P & ->).
    clear -HW P ND. induction ND as [|w l NI ND IH]; cbn [map]; constructor.
    - intros I. apply in_map_iff in I as (w' & E & I). assert (w' = w) as ->; [|contradiction].
      pose proof (P w (or_introl eq_refl)). pose proof (P w' (or_intror I)).
      assert (W / w' * (w' * w) = W / w * (w' * w)) as E2 by (rewrite E; reflexivity).
      replace (W / w' * (w' * w)) with (W * w) in E2 by (field; lra). replace (W / w * (w' * w)) with (W * w') in E2 by (field; lra).
      apply (Rmult_eq_reg_l W); lra.
    - apply IH. intros w' I. apply P. right. exact I. }
  destruct (diagram_region _ _ _ _ _ _ _ _ _ _ _ _ _ _ H S A ND' ST) as (a & b & _ & _ & B & E).
  pose proof (B i p EP (fun _ => DM)) as Q. destruct o as [L|].
  - exists (Rmin a L), (Rmax b L). split; [exact E|]. pose proof (Rmin_l a L). pose proof (Rmax_l b L). lra.
  - exists a, b. auto.
Qed.

(** wing loadings in descending order: the region below the stall limit is covered, the
    region beyond it is not *)
Lemma descending_shading ext self wl y yl labels mask d s med ws L :
  propulsionsensitivity_monothetic ext self wl y yl Xws labels (ShowOne "combined") mask = Ok [DCombined d] ->
  sensitivity ext self wl y = Ok (s, med) -> elements wl = map Fin ws -> descending ws -> stall_position self Xws (Some L) ->
  (forall i, defined_at (rq_combined med) i <-> (i < List.length ws)%nat) -> ws <> [] -> last ws 0 < L ->
  forall w, In w ws -> (shaded d w <-> w <= L).
Proof.
  intros H S E DS ST D NE LL w IW.
  assert (A : axis self wl Xws ws ws) by (split; [exact E|reflexivity]).
  destruct (diagram_region _ _ _ _ _ _ _ _ _ _ _ _ _ _ H S A (monotone_nodup _ (or_intror DS)) ST) as (a & b & (ia & Ia & Oa) & (ib & Ib & Ob) & _ & SH).
  assert (LST : forall i v, nth_error ws i = Some v -> outside (rq_combined med) i -> v = last ws 0).
  { intros i v EV O. assert (LI : (i < List.length ws)%nat) by (apply nth_error_Some; congruence).
    assert (DD : defined_at (rq_combined med) (List.length ws - 1)) by (apply D; lia).
    pose proof (O (proj2 (D i) LI) _ DD). assert (i = (List.length ws - 1)%nat) as -> by lia. 
    clear -EV. revert EV. generalize (0) as dflt. induction ws as [|u l IH]; [discriminate|]. intros dflt.
    destruct l as [|u' l]; [cbn; congruence|]. intros EV. change (last (u :: u' :: l) dflt) with (last (u' :: l) dflt). apply IH.
    cbn [List.length] in *. replace (S (S (List.length l)) - 1)%nat with (S (S (List.length l) - 1)) in EV by lia. exact EV. }
  assert (a = last ws 0) as -> by (eapply LST; eassumption). assert (b = last ws 0) as -> by (eapply LST; eassumption).
  assert (W0 : last ws 0 <= w).
  { apply In_nth_error in IW as (i & EV). assert (LI : (i < List.length ws)%nat) by (apply nth_error_Some; congruence).
    destruct (Nat.eq_dec i (List.length ws - 1)) as [Q|Q].
    - assert (w = last ws 0); [|lra]. apply (LST i w EV). intros _ j DJ. apply D in DJ. lia.
    - destruct (nth_error ws (List.length ws - 1)) as [v|] eqn:V; [|apply nth_error_None in V; lia].
      pose proof (DS i (List.length ws - 1)%nat w v ltac:(lia) EV V). assert (v = last ws 0); [|lra].
      apply (LST _ _ V). intros _ j DJ. apply D in DJ. lia. }
  rewrite (shaded_iff _ _ _ _ SH). rewrite (Rmin_left (last ws 0) L), (Rmax_right (last ws 0) L) by lra. lra.
Qed.

(** the front that is returned: the loadings that are not covered, with their combined
    requirement; if all are covered, the first one *)
Lemma feasible_front ext self wl y yl x labels mask d s med ws xs o :
  propulsionsensitivity_monothetic ext self wl y yl x labels (ShowOne "combined") mask = Ok [DCombined d] ->
  sensitivity ext self wl y = Ok (s, med) -> axis self wl x ws xs -> NoDup xs -> stall_position self x o ->
  let entry i p q := nth_error xs i = Some p /\ nth_error (elements (rq_combined med)) i = Some q in
  ((exists p, In p xs /\ ~ shaded d p) ->
     forall p q, In (p, q) (cd_front d) <-> exists i r, p = Fin r /\ entry i r q /\ ~ shaded d r) /\
  ((forall p, In p xs -> shaded d p) -> exists p q, cd_front d = [(Fin p, q)] /\ entry 0%nat p q).
Proof.
  intros H S A ND ST entry. destruct (diagram_region _ _ _ _ _ _ _ _ _ _ _ _ _ _ H S A ND ST) as (a0 & b0 & _ & _ & _ & SH).
  destruct (combined_inv _ _ _ _ _ _ _ _ _ H) as (fg & F & P).
  destruct (figure_inv _ _ _ _ _ _ _ F) as (s' & med' & comb & fx & S' & CC & _ & M & X & _).
  rewrite S in S'. injection S' as <- <-. rewrite (axis_x _ _ _ _ _ A) in X.
  assert (exists a b, cd_shade d = (Fin a, Fin b)) as (a & b & E) by (destruct o; eauto). clear SH a0 b0.
  unfold combinedplot in P. apply rbind_ok in P as (lo & _ & P). apply rbind_ok in P as (hi & _ & P). cbv zeta in P.
  apply rbind_ok in P as (tl & _ & P).
  match type of P with (let '(_, _) := ?e in _) = _ => destruct e as [u v] eqn:UV end.
  apply rbind_ok in P as (xf & XF & P). apply rbind_ok in P as (yf & YF & P). injection P as <-. cbn [cd_shade cd_front] in *.
  injection E as -> ->. rewrite X in XF. rewrite M, CC in YF. cbn [recastasnpfloatarray] in YF. rewrite M in *.
  set (d := {| cd_curves := _ |}) in *.
  set (idx := (where_true (map (fun z => Fin b <? z)%num (map Fin xs)) ++ where_true (map (fun z => z <? Fin a)%num (map Fin xs)))%list).
  rewrite X in YF. fold idx in XF, YF.
  assert (SHD : forall p, shaded d p <-> a <= p <= b) by (intros p; apply shaded_iff; reflexivity).
  assert (IDX : forall i, In i idx <-> exists r, nth_error xs i = Some r /\ ~ shaded d r).
  { intros i. unfold idx. rewrite in_app_iff, !where_map. split.
    - intros [(z & EZ & Q)|(z & EZ & Q)]; rewrite nth_error_map in EZ; destruct (nth_error xs i) as [r|] eqn:ER; try discriminate;
        cbn in EZ; injection EZ as <-; rewrite nltb_fin in Q; apply Rltb_iff in Q; exists r; (split; [reflexivity|]); rewrite SHD; lra.
    - intros (r & ER & NS). rewrite SHD in NS. destruct (Rlt_dec b r) as [Q|Q].
      + left. exists (Fin r). split; [apply nth_map_Fin, ER|]. rewrite nltb_fin. apply Rltb_iff, Q.
      + right. exists (Fin r). split; [apply nth_map_Fin, ER|]. rewrite nltb_fin. apply Rltb_iff.
        destruct (Rlt_dec r a) as [Q2|Q2]; [exact Q2|]. exfalso. apply NS. lra. }
  assert (FR : forall l, mapM (nth_num (map Fin xs)) l = Ok xf -> mapM (nth_num comb) l = Ok yf ->
    forall p q, In (p, q) (combine xf yf) <-> exists i, In i l /\ nth_error (map Fin xs) i = Some p /\ nth_error comb i = Some q).
  { intros l. clear. revert xf yf. induction l as [|i l IH]; intros xf yf; cbn [mapM].
    - intros [= <-] [= <-] p q. cbn. split; [contradiction|intros (i & [] & _)].
    - destruct (nth_num (map Fin xs) i) as [x0|] eqn:X0; [|discriminate]. destruct (nth_num comb i) as [y0|] eqn:Y0; [|discriminate].
      cbn [rbind]. destruct (mapM (nth_num (map Fin xs)) l) as [xs'|] eqn:XS; [|discriminate].
      destruct (mapM (nth_num comb) l) as [ys'|] eqn:YS; [|discriminate]. cbn [rbind]. intros [= <-] [= <-] p q. cbn [combine In].
      apply nth_num_ok in X0, Y0. rewrite (IH _ _ eq_refl eq_refl). split.
      + intros [[= <- <-]|(j & J & Q)]; [exists i; auto|exists j; auto].
      + intros (j & [<-|J] & Q1 & Q2); [left; congruence|right; eauto]. }
  split.
  - intros (p0 & I0 & N0) p q. assert (NI : idx <> []).
    { apply In_nth_error in I0 as (i & EI). intros Z. assert (In i idx) by (apply IDX; eauto). rewrite Z in *. contradiction. }
    destruct idx as [|i0 l0] eqn:EI; [congruence|]. rewrite <- EI in *. rewrite (FR _ XF YF). split.
    + intros (i & I & E1 & E2). apply IDX in I as (r & ER & NS). exists i, r. rewrite (proj2 (nth_map_Fin xs i r) ER) in E1.
      split; [congruence|]. unfold entry. rewrite CC. cbn [elements]. auto.
    + intros (i & r & -> & (E1 & E2) & NS). exists i. split; [apply IDX; eauto|]. rewrite CC in E2. split; [apply nth_map_Fin, E1|exact E2].
  - intros ALL. assert (idx = []) as Z.
    { destruct idx as [|i l] eqn:EI; [reflexivity|]. exfalso. destruct (proj1 (IDX i) (or_introl eq_refl)) as (r & ER & NS).
      apply NS, ALL. eapply nth_error_In, ER. }
    rewrite Z in XF, YF. cbn [mapM] in XF, YF. apply rbind_ok in XF as (x0 & X0 & XF). apply rbind_ok in YF as (y0 & Y0 & YF).
    cbn [rbind] in XF, YF. injection XF as <-. injection YF as <-. apply nth_num_ok in X0, Y0. rewrite nth_error_map in X0.
    destruct (nth_error xs 0) as [r|] eqn:R0; [|discriminate]. cbn in X0. injection X0 as <-. exists r, y0.
    split; [reflexivity|]. unfold entry. rewrite CC. split; [exact R0|exact Y0].
Qed.
