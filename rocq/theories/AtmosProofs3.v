(** Proofs: geopotential altitude, headings, observed profiles, thrust lapse,
    blending, rotation (C05, C17-C22). *)
From Coq Require Import Sorting.Sorted.
From Verif Require Import Base BaseFacts AnalysisFacts UnitsModel AtmosModel AtmosSpec.
Open Scope R_scope.

(** ** C05 *)
Definition rE : R := 6356766.
Lemma geop_fin h : h <> rE -> geop2geom45m (Fin h) = Fin (rE * h / (rE - h)).
Proof. intros H. unfold geop2geom45m, R_EARTH_M, rE in *. rewrite nmul_fin, nsub_fin, ndiv_fin by lra. reflexivity. Qed.
Lemma geom_fin z : z <> - rE -> geom2geop45m (Fin z) = Fin (rE * z / (rE + z)).
Proof. intros H. unfold geom2geop45m, R_EARTH_M, rE in *. rewrite nmul_fin, nadd_fin, ndiv_fin by lra. reflexivity. Qed.
Lemma geo_inverse1 h : h <> rE -> geom2geop45m (geop2geom45m (Fin h)) = Fin h.
Proof.
  intros H. rewrite geop_fin by exact H. unfold rE in *.
  assert (6356766 + 6356766 * h / (6356766 - h) = 6356766 * 6356766 / (6356766 - h)) as E by (field; lra).
  rewrite geom_fin.
  - apply Fin_eq. unfold rE. rewrite E. field. lra.
  - unfold rE. intros K.
    assert (6356766 * 6356766 / (6356766 - h) = 0) as E2 by lra.
    assert (6356766 * 6356766 = 0); [|lra].
    replace (6356766 * 6356766) with (6356766 * 6356766 / (6356766 - h) * (6356766 - h)) by (field; lra).
    rewrite E2. ring.
Qed.
Lemma geo_inverse2 z : z <> - rE -> geop2geom45m (geom2geop45m (Fin z)) = Fin z.
Proof.
  intros H. rewrite geom_fin by exact H. unfold rE in *.
  assert (6356766 - 6356766 * z / (6356766 + z) = 6356766 * 6356766 / (6356766 + z)) as E by (field; lra).
  rewrite geop_fin.
  - apply Fin_eq. unfold rE. rewrite E. field. lra.
  - unfold rE. intros K.
    assert (6356766 * 6356766 / (6356766 + z) = 0) as E2 by lra.
    assert (6356766 * 6356766 = 0); [|lra].
    replace (6356766 * 6356766) with (6356766 * 6356766 / (6356766 + z) * (6356766 + z)) by (field; lra).
    rewrite E2. ring.
Qed.
Lemma div_lt_div a b c d : 0 < b -> 0 < d -> a * d < c * b -> a / b < c / d.
Proof.
  intros Hb Hd H. apply Rmult_lt_reg_r with (b * d); [apply Rmult_lt_0_compat; assumption|].
  replace (a / b * (b * d)) with (a * d) by (field; lra).
  replace (c / d * (b * d)) with (c * b) by (field; lra). exact H.
Qed.
Lemma geom_increasing z1 z2 : - rE < z1 -> z1 < z2 ->
  exists h1 h2, geom2geop45m (Fin z1) = Fin h1 /\ geom2geop45m (Fin z2) = Fin h2 /\ h1 < h2 < rE.
Proof.
  intros H1 H2. unfold rE in *. do 2 eexists. rewrite !geom_fin by (unfold rE; lra).
  split; [reflexivity|]. split; [reflexivity|]. unfold rE. split.
  - apply div_lt_div; nra.
  - apply Rmult_lt_reg_r with (6356766 + z2); [lra|].
    replace (6356766 * z2 / (6356766 + z2) * (6356766 + z2)) with (6356766 * z2) by (field; lra). nra.
Qed.
Lemma geop_increasing h1 h2 : h1 < h2 -> h2 < rE ->
  exists z1 z2, geop2geom45m (Fin h1) = Fin z1 /\ geop2geom45m (Fin h2) = Fin z2 /\ - rE < z1 < z2.
Proof.
  intros H1 H2. unfold rE in *. do 2 eexists. rewrite !geop_fin by (unfold rE; lra).
  split; [reflexivity|]. split; [reflexivity|]. unfold rE. split.
  - apply Rmult_lt_reg_r with (6356766 - h1); [lra|].
    replace (6356766 * h1 / (6356766 - h1) * (6356766 - h1)) with (6356766 * h1) by (field; lra). nra.
  - apply div_lt_div; nra.
Qed.
Lemma geom_below z : - rE < z -> exists h, geom2geop45m (Fin z) = Fin h /\ h <= z /\ (z <> 0 -> h < z).
Proof.
  intros H. unfold rE in *. eexists. rewrite geom_fin by (unfold rE; lra). split; [reflexivity|].
  unfold rE.
  assert (z - 6356766 * z / (6356766 + z) = z * z / (6356766 + z)) as E by (field; lra).
  assert (0 <= z * z / (6356766 + z)) by (apply Rdiv_le_0_compat; nra).
  split; [lra|]. intros Hz. assert (0 < z * z / (6356766 + z)); [|lra].
  apply Rdiv_lt_0_compat; nra.
Qed.

(** ** C17 *)
Lemma recip_spec h : 0 < h <= 360 -> exists r, reciprocalhdg (Fin h) = Fin r /\
  0 < r <= 360 /\ (r = h + 180 \/ r = h - 180) /\ reciprocalhdg (Fin r) = Fin h.
Proof.
  intros H. unfold reciprocalhdg. rewrite !nadd_fin, nltb_fin.
  destruct (Rltb_reflect 360 (h + 180)).
  - exists (h - 180). rewrite nsub_fin. split; [reflexivity|]. split; [lra|]. split; [right; reflexivity|].
    rewrite nadd_fin, nltb_fin, Rltb_false by lra. apply Fin_eq; lra.
  - exists (h + 180). split; [reflexivity|]. split; [lra|]. split; [left; reflexivity|].
    rewrite nadd_fin, nltb_fin. rewrite nsub_fin.
    rewrite Rltb_true by lra. apply Fin_eq; lra.
Qed.
(** north given as 0 is not restored *)
Lemma recip_zero : reciprocalhdg (Fin 0) = Fin 180 /\ reciprocalhdg (Fin 180) = Fin 360.
Proof.
  unfold reciprocalhdg. rewrite !nadd_fin, !nltb_fin. rewrite !Rltb_false by lra.
  split; apply Fin_eq; lra.
Qed.

(** ** C18: interpolation *)
Definition ptlt (p q : R * R) := fst p < fst q.

Lemma insert_in p l q : In q (insert_pt p l) <-> q = p \/ In q l.
Proof.
  induction l as [|a t IH]; cbn [insert_pt]; [simpl; intuition congruence|].
  destruct (Rleb (fst p) (fst a)); simpl; [intuition congruence|]. rewrite IH. intuition congruence.
Qed.
Lemma sort_in l q : In q (sort_pts l) <-> In q l.
Proof.
  induction l as [|a t IH]; [reflexivity|]. cbn [sort_pts]. rewrite insert_in, IH.
  simpl; intuition congruence.
Qed.
Lemma insert_sorted p l : StronglySorted ptlt l -> (forall q, In q l -> fst q <> fst p) ->
  StronglySorted ptlt (insert_pt p l).
Proof.
  induction l as [|a t IH]; intros Hs Hn; cbn [insert_pt].
  - constructor; constructor.
  - apply StronglySorted_inv in Hs. destruct Hs as [Ht Ha].
    destruct (Rleb_reflect (fst p) (fst a)) as [H|H].
    + assert (fst p < fst a) by (specialize (Hn a (or_introl eq_refl)); lra).
      constructor; [constructor; assumption|]. constructor; [assumption|].
      eapply Forall_impl; [|exact Ha]. unfold ptlt; intros; lra.
    + constructor.
      * apply IH; [exact Ht|]. intros q Hq. apply Hn; right; exact Hq.
      * apply Forall_forall. intros q Hq. apply insert_in in Hq. destruct Hq as [->|Hq].
        -- exact H.
        -- rewrite Forall_forall in Ha. apply Ha; exact Hq.
Qed.
Lemma sort_sorted l : NoDup (map fst l) -> StronglySorted ptlt (sort_pts l).
Proof.
  induction l as [|a t IH]; intros H; cbn [sort_pts]; [constructor|].
  cbn [map] in H. inversion_clear H. apply insert_sorted; [apply IH; assumption|].
  intros q Hq E. rewrite sort_in in Hq. apply H0. rewrite <- E. apply in_map; exact Hq.
Qed.

Lemma chord_value x0 y0 x1 y1 x : x0 < x1 -> x0 <= x <= x1 ->
  on_chord (x0, y0) (x1, y1) x ((y1 - y0) / (x1 - x0) * (x - x0) + y0).
Proof.
  intros H Hx. unfold on_chord; cbn [fst snd]. split; [exact Hx|]. split; [field; lra|].
  set (s := (x - x0) / (x1 - x0)).
  assert (0 <= s <= 1) as Hs.
  { unfold s. split; [apply Rdiv_le_0_compat; lra|].
    apply Rmult_le_reg_r with (x1 - x0); [lra|].
    replace ((x - x0) / (x1 - x0) * (x1 - x0)) with (x - x0) by (field; lra). lra. }
  replace ((y1 - y0) / (x1 - x0) * (x - x0) + y0) with (y0 + (y1 - y0) * s) by (unfold s; field; lra).
  unfold Rmin, Rmax. destruct (Rle_dec y0 y1); nra.
Qed.
Lemma interp_seg x0 y0 x1 y1 x : x0 <> x1 ->
  ((#(y1 - y0) / #(x1 - x0)) * #(x - x0) + #y0)%num = Fin ((y1 - y0) / (x1 - x0) * (x - x0) + y0).
Proof. intros H. rewrite ndiv_fin by lra. rewrite nmul_fin, nadd_fin. reflexivity. Qed.

Lemma interp_sorted_knot l x y : StronglySorted ptlt l -> In (x, y) l -> interp_sorted x l = Ok (Fin y).
Proof.
  induction l as [|[x0 y0] t IH]; intros Hs Hin; [destruct Hin|].
  apply StronglySorted_inv in Hs. destruct Hs as [Ht Ha]. rewrite Forall_forall in Ha.
  destruct t as [|[x1 y1] r].
  - cbn [interp_sorted]. destruct Hin as [[= -> ->]|[]]. rewrite Reqb_true by reflexivity. reflexivity.
  - pose proof (Ha _ (or_introl eq_refl)) as H01. unfold ptlt in H01; cbn [fst] in H01.
    cbn [interp_sorted]. destruct Hin as [[= -> ->]|Hin].
    + rewrite Rltb_false by lra. rewrite Rleb_true by lra. rewrite interp_seg by lra.
      do 2 f_equal. field; lra.
    + pose proof (Ha _ Hin) as Hx. unfold ptlt in Hx; cbn [fst] in Hx.
      rewrite Rltb_false by lra. destruct (Rleb_reflect x x1) as [Hle|Hgt].
      * assert ((x, y) = (x1, y1)) as E.
        { destruct Hin as [E|Hin]; [congruence|]. exfalso.
          apply StronglySorted_inv in Ht. destruct Ht as [_ Ha']. rewrite Forall_forall in Ha'.
          specialize (Ha' _ Hin). unfold ptlt in Ha'; cbn [fst] in Ha'. lra. }
        injection E as -> ->. rewrite interp_seg by lra. do 2 f_equal. field; lra.
      * apply IH; assumption.
Qed.
Lemma interp_sorted_between l x lo hi : StronglySorted ptlt l -> In lo l -> In hi l ->
  fst lo <= x <= fst hi ->
  exists v p q, interp_sorted x l = Ok (Fin v) /\ In p l /\ In q l /\ on_chord p q x v /\
    (forall r, In r l -> fst r <= fst p \/ fst q <= fst r).
Proof.
  revert lo. induction l as [|[x0 y0] t IH]; intros lo Hs Hlo Hhi Hx; [destruct Hlo|].
  pose proof Hs as Hs0. apply StronglySorted_inv in Hs. destruct Hs as [Ht Ha]. rewrite Forall_forall in Ha.
  assert (x0 <= x) as Hx0.
  { destruct Hlo as [<-|Hlo]; [cbn [fst] in Hx; lra|].
    specialize (Ha _ Hlo). unfold ptlt in Ha; cbn [fst] in Ha. lra. }
  destruct t as [|[x1 y1] r].
  - destruct Hhi as [<-|[]]. cbn [fst] in Hx. assert (x = x0) by lra. subst x.
    exists y0, (x0, y0), (x0, y0). cbn [interp_sorted]. rewrite Reqb_true by reflexivity.
    split; [reflexivity|]. split; [left; reflexivity|]. split; [left; reflexivity|]. split.
    + unfold on_chord; cbn [fst snd]. split; [lra|]. split; [ring|].
      unfold Rmin, Rmax; destruct (Rle_dec y0 y0); lra.
    + intros z [<-|[]]. left; lra.
  - pose proof (Ha _ (or_introl eq_refl)) as H01. unfold ptlt in H01; cbn [fst] in H01.
    cbn [interp_sorted]. rewrite Rltb_false by exact Hx0.
    destruct (Rleb_reflect x x1) as [Hle|Hgt].
    + exists ((y1 - y0) / (x1 - x0) * (x - x0) + y0), (x0, y0), (x1, y1).
      rewrite interp_seg by lra. split; [reflexivity|]. split; [left; reflexivity|].
      split; [right; left; reflexivity|]. split; [apply chord_value; lra|].
      intros z [<-|[<-|Hz]]; [left; lra|right; lra|].
      right. apply StronglySorted_inv in Ht. destruct Ht as [_ Ha']. rewrite Forall_forall in Ha'.
      specialize (Ha' _ Hz). unfold ptlt in Ha'. cbn [fst] in *. lra.
    + destruct (IH (x1, y1) Ht (or_introl eq_refl)) as [v [p [q [E [Hp [Hq [Hc Hb]]]]]]].
      * destruct Hhi as [<-|Hhi]; [cbn [fst] in Hx; lra|exact Hhi].
      * cbn [fst]. lra.
      * exists v, p, q. split; [exact E|]. split; [right; exact Hp|]. split; [right; exact Hq|].
        split; [exact Hc|]. intros z [<-|Hz]; [|apply Hb; exact Hz].
        left. specialize (Ha _ Hp). unfold ptlt in Ha; cbn [fst] in *. lra.
Qed.
Lemma interp_sorted_outside l x : StronglySorted ptlt l ->
  (forall p, In p l -> x < fst p) \/ (forall p, In p l -> fst p < x) -> interp_sorted x l = Err ValueError.
Proof.
  induction l as [|[x0 y0] t IH]; intros Hs H; [reflexivity|].
  apply StronglySorted_inv in Hs. destruct Hs as [Ht Ha].
  destruct t as [|[x1 y1] r].
  - cbn [interp_sorted]. rewrite Reqb_false; [reflexivity|].
    destruct H as [H|H]; specialize (H _ (or_introl eq_refl)); cbn [fst] in H; lra.
  - cbn [interp_sorted]. destruct H as [H|H].
    + specialize (H _ (or_introl eq_refl)); cbn [fst] in H. rewrite Rltb_true by exact H. reflexivity.
    + pose proof (H _ (or_introl eq_refl)) as H0. pose proof (H _ (or_intror (or_introl eq_refl))) as H1.
      cbn [fst] in H0, H1. rewrite Rltb_false by lra. rewrite Rleb_false by exact H1.
      apply IH; [exact Ht|]. right. intros p Hp. apply H; right; exact Hp.
Qed.

Lemma interp1d_knot tab x y : NoDup (map fst tab) -> In (x, y) tab -> interp1d tab (Fin x) = Ok (Fin y).
Proof. intros H Hi. apply interp_sorted_knot; [apply sort_sorted; exact H|apply sort_in; exact Hi]. Qed.
Lemma interp1d_between tab x lo hi : NoDup (map fst tab) -> In lo tab -> In hi tab ->
  fst lo <= x <= fst hi ->
  exists v p q, interp1d tab (Fin x) = Ok (Fin v) /\ In p tab /\ In q tab /\ on_chord p q x v /\
    (forall r, In r tab -> fst r <= fst p \/ fst q <= fst r).
Proof.
  intros H Hlo Hhi Hx.
  destruct (interp_sorted_between (sort_pts tab) x lo hi (sort_sorted _ H)) as [v [p [q [E [Hp [Hq [Hc Hb]]]]]]];
    try (apply sort_in; assumption); try assumption.
  exists v, p, q. split; [exact E|]. split; [apply sort_in; exact Hp|]. split; [apply sort_in; exact Hq|].
  split; [exact Hc|]. intros r Hr. apply Hb, sort_in; exact Hr.
Qed.
Lemma interp1d_outside tab x : NoDup (map fst tab) ->
  (forall p, In p tab -> x < fst p) \/ (forall p, In p tab -> fst p < x) ->
  interp1d tab (Fin x) = Err ValueError.
Proof.
  intros H Ho. apply interp_sorted_outside; [apply sort_sorted; exact H|].
  destruct Ho as [Ho|Ho]; [left|right]; intros p Hp; apply Ho, sort_in; exact Hp.
Qed.

(** construction *)
Lemma combine_nth {A B} (l : list A) (m : list B) n a b :
  nth_error l n = Some a -> nth_error m n = Some b -> nth_error (combine l m) n = Some (a, b).
Proof.
  revert l m; induction n as [|n IH]; intros [|x l] [|y m]; simpl; try discriminate.
  - intros [= ->] [= ->]; reflexivity.
  - apply IH.
Qed.
Lemma vs_mapM t vs : mapM vs_of_temp t = Ok vs ->
  forall n a, nth_error t n = Some a -> exists v, nth_error vs n = Some v /\ 0 <= v /\ v * v = 1.4 * 287.05287 * a.
Proof.
  intros H n a Ha. destruct (mapM_nth _ _ _ _ _ H Ha) as [v [Hv E]]. exists v. split; [exact Hv|].
  unfold vs_of_temp, R_JPKGPK in E. rewrite !nmul_fin in E. unfold msqrt in E.
  destruct (Rltb_reflect (1.4 * 287.05287 * a) 0); [discriminate|].
  injection E as <-. split; [apply sqrt_pos|apply sqrt_sqrt; assumption].
Qed.

Lemma obsprofile_rho alt temp rho p pr :
  obsprofile (Some alt) (Some temp) (Some rho) p = Ok pr ->
  List.length temp = List.length alt -> List.length rho = List.length alt ->
  alt_m pr = alt /\ temp_k pr = temp /\ rho_kgpm3 pr = rho /\
  List.length (p_pa pr) = List.length alt /\
  (forall n t r q, nth_error temp n = Some t -> nth_error rho n = Some r ->
      nth_error (p_pa pr) n = Some q -> q = r * 287.05287 * t) /\
  (forall n t, nth_error temp n = Some t ->
      exists v, nth_error (vs_mps pr) n = Some v /\ 0 <= v /\ v * v = 1.4 * 287.05287 * t).
Proof.
  intros H Ht Hr. unfold obsprofile in H. cbn [npsize] in H. rewrite Ht, Hr, !Nat.eqb_refl in H.
  cbn [andb rbind] in H.
  destruct (mapM vs_of_temp temp) as [vs|e] eqn:Ev; cbn [rbind fst snd] in H; [|discriminate].
  match type of H with (if ?c then _ else _) = _ => destruct c; [|discriminate] end. injection H as <-. cbn.
  repeat split; try reflexivity.
  - rewrite map_length, combine_length. lia.
  - intros n t r q Hn Hm Hq. rewrite nth_error_map, (combine_nth _ _ _ _ _ Hm Hn) in Hq.
    injection Hq as <-. cbn. lra.
  - exact (vs_mapM _ _ Ev).
Qed.
Lemma obsprofile_p alt temp q pr :
  List.length alt <> 1%nat ->
  obsprofile (Some alt) (Some temp) None (Some q) = Ok pr ->
  List.length temp = List.length alt -> List.length q = List.length alt ->
  alt_m pr = alt /\ temp_k pr = temp /\ p_pa pr = q /\
  List.length (rho_kgpm3 pr) = List.length alt /\
  (forall n t r pp, nth_error temp n = Some t -> nth_error q n = Some pp ->
      nth_error (rho_kgpm3 pr) n = Some r -> t <> 0 /\ pp = r * 287.05287 * t) /\
  (forall n t, nth_error temp n = Some t ->
      exists v, nth_error (vs_mps pr) n = Some v /\ 0 <= v /\ v * v = 1.4 * 287.05287 * t).
Proof.
  intros H1 H Ht Hq. unfold obsprofile in H. cbn [npsize] in H. rewrite Ht, Hq, !Nat.eqb_refl in H.
  apply Nat.eqb_neq in H1. rewrite H1 in H. cbn [andb rbind] in H.
  destruct (existsb (fun x => Reqb x 0) temp) eqn:Ez; cbn [rbind] in H; [discriminate|].
  destruct (mapM vs_of_temp temp) as [vs|e] eqn:Ev; cbn [rbind fst snd] in H; [|discriminate].
  match type of H with (if ?c then _ else _) = _ => destruct c; [|discriminate] end. injection H as <-. cbn.
  split; [reflexivity|]. split; [reflexivity|]. split; [reflexivity|].
  split; [rewrite map_length, combine_length; lia|]. split.
  - intros n t r pp Hn Hm Hr. rewrite nth_error_map, (combine_nth _ _ _ _ _ Hm Hn) in Hr.
    injection Hr as <-. cbn.
    assert (t <> 0) as Hz.
    { intros ->. assert (existsb (fun x => Reqb x 0) temp = true); [|congruence].
      apply existsb_exists. exists 0. split; [apply nth_error_In with n; exact Hn|apply Reqb_true; reflexivity]. }
    split; [exact Hz|]. field. split; lra.
  - exact (vs_mapM _ _ Ev).
Qed.
(** a single observation with pressure but no density never gets its density *)
Lemma obsprofile_single_p a t q : 0 <= t -> obsprofile (Some [a]) (Some [t]) None (Some [q]) = Err TypeError.
Proof. intros H. reflexivity. Qed.

(** ** C19: thrust lapse *)
Lemma tempratio_real tc m : tempratio (Fin tc) (Fin m) = Fin (theta0 tc m).
Proof.
  unfold tempratio, c2k, GAMMA_DRY_AIR. rewrite !nadd_fin, npown_fin, nsub_fin, nmul_fin.
  rewrite !ndiv_fin by lra. rewrite nadd_fin, nmul_fin. apply Fin_eq. unfold theta0. lra.
Qed.
Lemma sq_nonneg m : 0 <= m ^ 2. Proof. simpl; nra. Qed.
Lemma pressratio_real p m : pressratio (Fin p) (Fin m) = Fin (delta0 p m).
Proof.
  pose proof (sq_nonneg m).
  unfold pressratio, GAMMA_DRY_AIR. rewrite npown_fin, nsub_fin, nmul_fin.
  rewrite !ndiv_fin by lra. rewrite nadd_fin.
  assert (1 + m ^ 2 * (1.401 - 1) / 2 = 1 + 0.2005 * m ^ 2) as E by lra. rewrite E.
  rewrite npow_fin by lra. rewrite nmul_fin. apply Fin_eq. unfold delta0. do 2 f_equal. lra.
Qed.
Lemma delta0_nonneg p m : 0 <= p -> 0 <= delta0 p m.
Proof.
  intros H. unfold delta0. apply Rmult_le_pos; [apply Rdiv_le_0_compat; lra|left; apply Rpower_pos].
Qed.
Lemma theta0_pos tc m : -273.15 < tc -> 0 < theta0 tc m.
Proof.
  intros H. unfold theta0. pose proof (sq_nonneg m).
  apply Rmult_lt_0_compat; [apply Rdiv_lt_0_compat; lra|lra].
Qed.

Lemma excess_nonneg x : 0 <= excess x. Proof. apply Rmax_l. Qed.

Lemma fan_high tc p m tr : 0 <= m -> turbofanthrustfactor (Fin tc) (Fin p) (Fin m) (Fin tr) highbpr
  = Fin (delta0 p m * (1 - 0.49 * sqrt m - 3 * excess (theta0 tc m - tr) / (1.5 + m))).
Proof.
  intros Hm. unfold turbofanthrustfactor. rewrite tempratio_real, pressratio_real, nleb_fin.
  rewrite nsqrt_fin by exact Hm. unfold excess.
  destruct (Rleb_reflect (theta0 tc m) tr).
  - rewrite Rmax_left by lra. rewrite !nmul_fin, nsub_fin, nmul_fin. apply Fin_eq. field. lra.
  - rewrite Rmax_right by lra. rewrite nadd_fin, !nsub_fin, !nmul_fin, nsub_fin, ndiv_fin by lra.
    rewrite nsub_fin, nmul_fin. reflexivity.
Qed.
Lemma fan_low tc p m tr : -273.15 < tc -> turbofanthrustfactor (Fin tc) (Fin p) (Fin m) (Fin tr) lowbpr
  = Fin (delta0 p m * (1 - 3.5 * excess (theta0 tc m - tr) / theta0 tc m)).
Proof.
  intros Hm. pose proof (theta0_pos tc m Hm).
  unfold turbofanthrustfactor. rewrite tempratio_real, pressratio_real, nleb_fin. unfold excess.
  destruct (Rleb_reflect (theta0 tc m) tr).
  - rewrite Rmax_left by lra. apply Fin_eq. field. lra.
  - rewrite Rmax_right by lra. rewrite !nsub_fin, !nmul_fin, ndiv_fin by lra.
    rewrite nsub_fin, nmul_fin. reflexivity.
Qed.
Lemma fan_other tc p m tr : -273.15 < tc -> turbofanthrustfactor (Fin tc) (Fin p) (Fin m) (Fin tr) othertype
  = Fin (0.6 * delta0 p m * (1 - 3.8 * excess (theta0 tc m - tr) / theta0 tc m)).
Proof.
  intros Hm. pose proof (theta0_pos tc m Hm).
  unfold turbofanthrustfactor. rewrite tempratio_real, pressratio_real, nleb_fin. unfold excess.
  destruct (Rleb_reflect (theta0 tc m) tr).
  - rewrite Rmax_left by lra. rewrite nmul_fin. apply Fin_eq. field. lra.
  - rewrite Rmax_right by lra. rewrite !nsub_fin, !nmul_fin, ndiv_fin by lra.
    rewrite nsub_fin, nmul_fin. reflexivity.
Qed.
Lemma jet_wet tc p m tr : 0 <= m -> 0 < tr -> turbojetthrustfactor (Fin tc) (Fin p) (Fin m) (Fin tr) true
  = Fin (delta0 p m * (1 - 0.3 * (theta0 tc m - 1) - 0.1 * sqrt m - 1.5 * excess (theta0 tc m - tr) / tr)).
Proof.
  intros Hm Ht. unfold turbojetthrustfactor. rewrite tempratio_real, pressratio_real, nleb_fin.
  rewrite nsqrt_fin by exact Hm. unfold excess.
  destruct (Rleb_reflect (theta0 tc m) tr).
  - rewrite Rmax_left by lra. rewrite !nsub_fin, !nmul_fin, !nsub_fin, nmul_fin. apply Fin_eq. field. lra.
  - rewrite Rmax_right by lra. rewrite !nsub_fin, !nmul_fin, !nsub_fin, ndiv_fin by lra.
    rewrite !nsub_fin, nmul_fin. reflexivity.
Qed.
Lemma jet_dry tc p m tr : 0 <= m -> -273.15 < tc -> turbojetthrustfactor (Fin tc) (Fin p) (Fin m) (Fin tr) false
  = Fin (delta0 p m * 0.8 * (1 - 0.16 * sqrt m - 24 * excess (theta0 tc m - tr) / ((9 + m) * theta0 tc m))).
Proof.
  intros Hm Ht. pose proof (theta0_pos tc m Ht).
  unfold turbojetthrustfactor. rewrite tempratio_real, pressratio_real, nleb_fin.
  rewrite nsqrt_fin by exact Hm. unfold excess.
  assert (0 < (9 + m) * theta0 tc m) by (apply Rmult_lt_0_compat; lra).
  destruct (Rleb_reflect (theta0 tc m) tr).
  - rewrite Rmax_left by lra. rewrite !nmul_fin, nsub_fin, nmul_fin. apply Fin_eq. field. lra.
  - rewrite Rmax_right by lra. rewrite nsub_fin, nadd_fin, !nmul_fin, !nsub_fin, ndiv_fin by lra.
    rewrite !nsub_fin, nmul_fin. reflexivity.
Qed.
Lemma prop_matt tc p m tr : 0.1 < m -> turbopropthrustfactor_matt (Fin tc) (Fin p) (Fin m) (Fin tr)
  = Fin (delta0 p m * (1 - 0.96 * Rpower (m - 0.1) 0.25 - 3 * excess (theta0 tc m - tr) / (8.13 * (m - 0.1)))).
Proof.
  intros Hm. unfold turbopropthrustfactor_matt. rewrite tempratio_real, pressratio_real, !nleb_fin.
  rewrite (Rleb_false m) by lra. unfold excess. rewrite !nsub_fin, npow_fin by lra.
  destruct (Rleb_reflect (theta0 tc m) tr).
  - rewrite Rmax_left by lra. rewrite !nmul_fin, nsub_fin, nmul_fin. apply Fin_eq. field. lra.
  - rewrite Rmax_right by lra. rewrite !nmul_fin, ndiv_fin by lra.
    rewrite !nsub_fin, nmul_fin. reflexivity.
Qed.
Lemma prop_matt_slow tc p m tr : m <= 0.1 ->
  turbopropthrustfactor_matt (Fin tc) (Fin p) (Fin m) (Fin tr) = Fin (delta0 p m).
Proof.
  intros Hm. unfold turbopropthrustfactor_matt. rewrite pressratio_real, nleb_fin.
  rewrite Rleb_true by exact Hm. reflexivity.
Qed.

(** the turboprop factor has no lower bound just above Mach 0.1 *)
Lemma prop_matt_unbounded tc p tr B : 0 < p -> -273.15 < tc -> tr < (tc + 273.15) / 288.15 ->
  exists m f, 0.1 < m < 0.11 /\
    turbopropthrustfactor_matt (Fin tc) (Fin p) (Fin m) (Fin tr) = Fin f /\ f < B.
Proof.
  intros Hp Htc Htr.
  set (e := (tc + 273.15) / 288.15 - tr). assert (0 < e) as He by (unfold e; lra).
  set (D := p / 101325). assert (0 < D) as HD by (apply Rdiv_lt_0_compat; lra).
  (* choose m - 0.1 = s small enough *)
  set (W := Rabs B + 1 + D). assert (0 < W) as HW by (unfold W; pose proof (Rabs_pos B); lra).
  set (s := Rmin 0.005 (3 * e * D / (8.13 * 2 * (W + D)))).
  assert (0 < 3 * e * D / (8.13 * 2 * (W + D))) as Hq.
  { apply Rdiv_lt_0_compat; [|lra]. apply Rmult_lt_0_compat; lra. }
  assert (0 < s <= 0.005) as Hs.
  { unfold s. split; [apply Rmin_pos; lra|apply Rmin_l]. }
  assert (s * (8.13 * 2 * (W + D)) <= 3 * e * D) as Hsm.
  { assert (s <= 3 * e * D / (8.13 * 2 * (W + D))) as K by apply Rmin_r.
    apply Rmult_le_compat_r with (r := 8.13 * 2 * (W + D)) in K; [|lra].
    replace (3 * e * D / (8.13 * 2 * (W + D)) * (8.13 * 2 * (W + D))) with (3 * e * D) in K by (field; lra).
    exact K. }
  exists (0.1 + s). eexists. split; [lra|]. split; [apply prop_matt; lra|].
  replace (0.1 + s - 0.1) with s by ring.
  pose proof (Rpower_pos s 0.25) as HR.
  assert (e <= excess (theta0 tc (0.1 + s) - tr)) as Hex.
  { unfold excess. apply Rle_trans with (theta0 tc (0.1 + s) - tr); [|apply Rmax_r].
    unfold e, theta0. pose proof (sq_nonneg (0.1 + s)).
    assert (0 < (tc + 273.15) / 288.15) by (apply Rdiv_lt_0_compat; lra). nra. }
  set (X := excess (theta0 tc (0.1 + s) - tr)) in *.
  assert (D <= delta0 p (0.1 + s)) as Hd.
  { unfold delta0. fold D. pose proof (sq_nonneg (0.1 + s)) as Hsq.
    assert (1 <= Rpower (1 + 0.2005 * (0.1 + s) ^ 2) (1.401 / 0.401)).
    { rewrite <- (Rpower_O (1 + 0.2005 * (0.1 + s) ^ 2)) at 1 by lra.
      apply Rle_Rpower; lra. }
    nra. }
  set (D' := delta0 p (0.1 + s)) in *.
  assert (2 * (W + D) <= D * (3 * X / (8.13 * s))) as Hbig.
  { apply Rmult_le_reg_r with (8.13 * s); [lra|].
    replace (D * (3 * X / (8.13 * s)) * (8.13 * s)) with (3 * D * X) by (field; lra). nra. }
  set (Y := 3 * X / (8.13 * s)) in *.
  assert (2 <= Y).
  { apply Rmult_le_reg_l with D; [exact HD|]. lra. }
  (* D' * (1 - r - Y) <= D * (1 - Y) = D - D*Y <= D - 2(W+D) < -W < B *)
  assert (D' * (1 - 0.96 * Rpower s 0.25 - Y) <= D * (1 - Y)) by nra.
  assert (D * (1 - Y) <= D - 2 * (W + D)) by lra.
  assert (- W < B) by (unfold W; unfold Rabs; destruct (Rcase_abs B); lra).
  lra.
Qed.

(** ** C20 *)
Lemma piston_real d : pistonpowerfactor (Fin d) = Fin (1.132 * (d / 1.225) - 0.132).
Proof. unfold pistonpowerfactor. rewrite ndiv_fin by lra. rewrite nmul_fin, nsub_fin. reflexivity. Qed.

(** ** C21 *)
Definition smooth (s : R) : R := s ^ 2 * (3 - 2 * s).
Lemma smooth_range s : 0 <= s <= 1 -> 0 <= smooth s <= 1.
Proof.
  intros H. unfold smooth. split.
  - apply Rmult_le_pos; [simpl; nra|lra].
  - assert (0 <= (1 - s) * (1 - s) * (1 + 2 * s)) by (apply Rmult_le_pos; [apply Rmult_le_pos|]; lra).
    simpl. lra.
Qed.
Lemma smooth_mono a b : 0 <= a -> a <= b -> b <= 1 -> smooth a <= smooth b.
Proof.
  intros Ha Hab Hb. unfold smooth.
  assert (0 <= (b - a) * (2 * (a * (1 - a)) + 2 * (b * (1 - b)) + (a * (1 - b) + b * (1 - a)))).
  { apply Rmult_le_pos; [lra|].
    assert (0 <= a * (1 - a)) by (apply Rmult_le_pos; lra).
    assert (0 <= b * (1 - b)) by (apply Rmult_le_pos; lra).
    assert (0 <= a * (1 - b)) by (apply Rmult_le_pos; lra).
    assert (0 <= b * (1 - a)) by (apply Rmult_le_pos; lra). lra. }
  simpl. lra.
Qed.
Lemma smooth_contact s : 0 <= s <= 1 -> smooth s <= 3 * s ^ 2 /\ 1 - smooth s <= 3 * (1 - s) ^ 2.
Proof.
  intros H. unfold smooth. split.
  - assert (0 <= s * s * s) by (apply Rmult_le_pos; [apply Rmult_le_pos|]; lra). simpl. lra.
  - assert (0 <= (1 - s) * (1 - s) * (2 - 2 * s)) by (apply Rmult_le_pos; [apply Rmult_le_pos|]; lra).
    simpl. lra.
Qed.

Definition phase (t tf : R) : R := Rmax 0 (Rmin 1 (t / tf)).
Lemma polyblend_smooth t tf a b : 0 < tf ->
  polyblend t tf a b = Ok (a + (b - a) * smooth (phase t tf)).
Proof.
  intros Ht. unfold polyblend. rewrite Reqb_false by lra.
  assert (t / tf * tf = t) as E by (field; lra).
  destruct (Rltb_reflect t 0) as [H|H]; [|destruct (Rleb_reflect tf t) as [H1|H1]].
  - f_equal. assert (t / tf < 0) by nra. unfold phase, smooth.
    rewrite Rmin_right by lra. rewrite Rmax_left by lra. simpl. ring.
  - f_equal. assert (1 <= t / tf) by nra. unfold phase, smooth.
    rewrite Rmin_left by lra. rewrite Rmax_right by lra. simpl. ring.
  - f_equal. assert (0 <= t / tf <= 1) by nra. unfold phase, smooth.
    rewrite Rmin_right by lra. rewrite Rmax_right by lra. ring.
Qed.
Lemma phase_range t tf : 0 <= phase t tf <= 1.
Proof. unfold phase, Rmin, Rmax. destruct (Rle_dec 1 (t / tf)); destruct (Rle_dec 0 _); lra. Qed.
Lemma phase_mono t1 t2 tf : 0 < tf -> t1 <= t2 -> phase t1 tf <= phase t2 tf.
Proof.
  intros H H1. assert (t1 / tf <= t2 / tf).
  { unfold Rdiv. apply Rmult_le_compat_r; [left; apply Rinv_0_lt_compat; exact H|exact H1]. }
  unfold phase. apply Rle_max_compat_l. apply Rle_min_compat_l. assumption.
Qed.

(** ** C22 *)
Lemma coordtrans_total x z a : (List.length x <= List.length z)%nat ->
  exists xt zt, coordtrans x z a = Ok (xt, zt) /\ List.length xt = List.length x /\ List.length zt = List.length x.
Proof.
  revert z; induction x as [|xi x IH]; intros z H; cbn [coordtrans].
  - exists [], []. repeat split.
  - destruct z as [|zi z]; [simpl in H; lia|].
    destruct (IH z ltac:(simpl in H; lia)) as [xt [zt [E [H1 H2]]]]. rewrite E. cbn [rbind fst snd].
    do 2 eexists. split; [reflexivity|]. simpl; auto.
Qed.
Lemma coordtrans_short x z a : (List.length z < List.length x)%nat -> coordtrans x z a = Err IndexError.
Proof.
  revert z; induction x as [|xi x IH]; intros z H; cbn [coordtrans]; [simpl in H; lia|].
  destruct z as [|zi z]; [reflexivity|]. rewrite IH by (simpl in H; lia). reflexivity.
Qed.
Lemma coordtrans_nth x z a xt zt : coordtrans x z a = Ok (xt, zt) ->
  forall n xi zi, nth_error x n = Some xi -> nth_error z n = Some zi ->
  nth_error xt n = Some (xi * cos a + zi * sin a) /\ nth_error zt n = Some (- xi * sin a + zi * cos a).
Proof.
  revert z xt zt; induction x as [|x0 x IH]; intros z xt zt; cbn [coordtrans].
  - intros _ [|n] xi zi; discriminate.
  - destruct z as [|z0 z]; [discriminate|].
    destruct (coordtrans x z a) as [[xt' zt']|e] eqn:E; cbn [rbind fst snd]; [|discriminate].
    intros [= <- <-] [|n] xi zi; cbn [nth_error].
    + intros [= ->] [= ->]; split; reflexivity.
    + apply (IH z xt' zt' E).
Qed.
Lemma coordtrans_compose x z a b xt zt : coordtrans x z a = Ok (xt, zt) ->
  coordtrans xt zt b = coordtrans x z (a + b).
Proof.
  revert z xt zt; induction x as [|x0 x IH]; intros z xt zt; cbn [coordtrans].
  - intros [= <- <-]. reflexivity.
  - destruct z as [|z0 z]; [discriminate|].
    destruct (coordtrans x z a) as [[xt' zt']|e] eqn:E; cbn [rbind fst snd]; [|discriminate].
    intros [= <- <-]. cbn [coordtrans]. rewrite (IH z xt' zt' E).
    destruct (coordtrans x z (a + b)); cbn [rbind]; [|reflexivity].
    rewrite cos_plus, sin_plus. do 2 f_equal; f_equal; ring.
Qed.
Lemma coordtrans_zero x z : List.length x = List.length z -> coordtrans x z 0 = Ok (x, z).
Proof.
  revert z; induction x as [|x0 x IH]; intros [|z0 z] H; cbn [coordtrans]; try discriminate; [reflexivity|].
  rewrite IH by (simpl in H; lia). cbn [rbind fst snd]. rewrite cos_0, sin_0. do 2 f_equal; f_equal; ring.
Qed.
