(** Propulsion: combined statements and concrete cases. *)
From Coq Require Import Ascii Permutation.
From Verif Require Import Base BaseFacts AtmosModel AtmosSpec IsaReal IsaProofs AtmosProofs AtmosProofs2 ConceptModel ConceptProofs PropulsionModel PropulsionSpec PropulsionProofs PropulsionProofs2 PropulsionProofs3 PropulsionProofs4 PropulsionProofs5 PropulsionProofs6 PropulsionProofs7 PropulsionProofs8.
Open Scope R_scope.

(** ** An interpolation that only knows the given points *)
Fixpoint exact (l : list (num * num * num)) (x y : num) : num :=
  match l with
  | [] => NonFin
  | (a, b, c) :: r => if (neqb a x && neqb b y)%bool then c else exact r x y
  end.
Definition exact_grid (xs ys zs : list num) (x y : num) : num := exact (combine (combine xs ys) zs) x y.
Lemma neqb_true a x : neqb a (Fin x) = true -> a = Fin x.
Proof. destruct a as [r|]; [|discriminate]. cbn. unfold Reqb. destruct (Req_EM_T r x); [congruence|discriminate]. Qed.
Lemma neqb_nan a : neqb a NonFin = false. Proof. destruct a; reflexivity. Qed.
Lemma exact_no_extrapolation : no_extrapolation exact_grid.
Proof.
  split; [|split].
  - intros xs ys zs x y N. unfold exact_grid.
    assert (K : forall l, (forall a b c, In (a, b, c) l -> In (a, b) (combine xs ys)) -> exact l (Fin x) (Fin y) = NonFin).
    { induction l as [|((a, b), c) l IH]; intros H; [reflexivity|]. cbn [exact]. destruct (neqb a (Fin x)) eqn:Ea; cbn [andb].
      - destruct (neqb b (Fin y)) eqn:Eb; [|apply IH; intros; eapply H; right; eassumption]. exfalso. apply neqb_true in Ea, Eb. subst a b. apply N.
        exists [(1, (x, y))]. split; [constructor; [cbn [fst snd]; split; [lra|eapply H; left; reflexivity]|constructor]|]. cbn. lra.
      - apply IH. intros; eapply H; right; eassumption. }
    apply K. intros a b c I. apply in_combine_l in I. exact I.
  - intros xs ys zs y. unfold exact_grid. induction (combine (combine xs ys) zs) as [|((a, b), c) l IH]; [reflexivity|]. cbn [exact]. rewrite neqb_nan. exact IH.
  - intros xs ys zs x. unfold exact_grid. induction (combine (combine xs ys) zs) as [|((a, b), c) l IH]; [reflexivity|]. cbn [exact]. rewrite neqb_nan, andb_false_r. exact IH.
Qed.

(** ** Propeller efficiency *)
Lemma efficiency_bounded p D cl sol rpm h rho a m P :
  diameter_m p = Some (Fin D) -> idesign_cl p = Some (Fin cl) -> solidity p = Some (Fin sol) -> standard_air h rho a -> D <> 0 -> rpm <> 0 ->
  let cp := power_coefficient P rho (rpm / 60) D in let J := advance_ratio (m * a) (rpm / 60) D in let cd := drag_polar (cl * cp / J) in
  lightly_loaded J cp sol cd ->
  exists e, efficiency p [Fin m] [Fin h] [Fin P] (Fin rpm) = Ok (p, [Fin e]) /\ 0 <= e <= 1 /\
    ((0 < solve_maxiter p)%Z ->
     least_axial J cp * least_swirl J cp *
     (1 - PI ^ 4 * sol * cd * glauert_bound (J / (PI * least_axial J cp * least_swirl J cp)) / (8 * cp)) <= e).
Proof.
  intros HD Hcl Hs A ND Nr cp J cd (H1 & H2 & H3 & H4 & H5 & H6 & H7).
  pose proof (passes_regular J cp sol _ H1 H2 H3 H4 H5 H6 H7 (Z.to_nat (solve_maxiter p))) as Rg.
  destruct (efficiency_value p D cl sol rpm h rho a m P HD Hcl Hs A ND Nr Rg) as (k & S & V). fold cp J cd in V, S.
  eexists. split; [exact V|]. split; [apply (passes_bounded J cp sol _ H1 H2 H3 H4 H5 H6 H7)|]. intros Hn.
  assert (Hk : exists j, k = Datatypes.S j).
  { destruct S as (_ & _ & [->|(j & -> & _)]); [exists (pred (Z.to_nat (solve_maxiter p))); lia|eauto]. }
  destruct Hk as (j & ->). apply (passes_low J cp sol cd H1 H2 H3 H4 H5 H6 H7).
Qed.
Definition prop_with (D cl sol : R) (maxiter : Z) : propeller :=
  {| diameter_m := Some (Fin D); bladecount := Some (Fin 3); bladeactivityfact := Some (Fin 100); solidity := Some (Fin sol);
     idesign_cl := Some (Fin cl); solve_dp := 6; solve_maxiter := maxiter |}.
Lemma at_sea_level (J cp : R) : exists rho a, standard_air 0 rho a /\
  power_coefficient (cp * (rho * 20 ^ 3 * 2 ^ 5)) rho (1200 / 60) 2 = cp /\ advance_ratio (J * 40 / a * a) (1200 / 60) 2 = J.
Proof.
  destruct (air_below 0 ltac:(lra)) as (rho & a & A). exists rho, a. split; [exact A|]. destruct A as (_ & _ & Hr & Ha).
  replace (1200 / 60) with 20 by lra. unfold power_coefficient, advance_ratio. split; [field; lra|field; lra].
Qed.
(** a propeller turning at 1200 rpm, 2 m in diameter, flying at 120 m/s *)
Lemma efficiency_above_one : exists p h m P rpm e, solve_dp p = 6%nat /\ solve_maxiter p = 30%Z /\ 0 < m < 0.8 /\ 0 < P /\
  (exists sol, solidity p = Some (Fin sol) /\ 0 < sol) /\
  efficiency p [Fin m] [Fin h] [Fin P] (Fin rpm) = Ok (p, [Fin e]) /\ 1.6 < e.
Proof.
  destruct (at_sea_level 3 (1/2)) as (rho & a & A & C1 & C2). set (p := prop_with 2 12 sol_star 30).
  set (P := 1 / 2 * (rho * 20 ^ 3 * 2 ^ 5)) in *. set (m := 3 * 40 / a) in *.
  destruct (efficiency_value p 2 12 sol_star 1200 0 rho a m P eq_refl eq_refl eq_refl A ltac:(lra) ltac:(lra)) as (k & S & V).
  { rewrite C1, C2. replace (12 * (1 / 2) / 3) with 2 by lra. split; [lra|]. split; [lra|]. intros j _. rewrite passes_star. lra. }
  rewrite C1, C2 in V, S. replace (12 * (1 / 2) / 3) with 2 in V, S by lra.
  assert (Hk : exists j, k = Datatypes.S j).
  { destruct S as (_ & _ & [->|(j & -> & _)]); [exists 29%nat; reflexivity|eauto]. }
  destruct Hk as (j & ->). exists p, 0, m, P, 1200, (snd (passes 3 (1/2) sol_star (drag_polar 2) (Datatypes.S j))).
  split; [reflexivity|]. split; [reflexivity|].
  assert (Ha : 200 < a < 400).
  { destruct A as (_ & A & _). rewrite vsound_isa in A; [|lra|unfold std_temp, climb; rewrite !Rmin_left by lra; rewrite !Rmax_left by lra; lra]. injection A as <-.
    assert (T : std_temp 0 = 288.15) by (unfold std_temp, climb; rewrite !Rmin_left by lra; rewrite !Rmax_left by lra; lra). rewrite T.
    split; [replace 200 with (sqrt (200 * 200)) by (apply sqrt_square; lra)|replace 400 with (sqrt (400 * 400)) by (apply sqrt_square; lra)]; apply sqrt_lt_1; lra. }
  split; [unfold m; split; [apply Rdiv_lt_0_compat; lra|apply Rmult_lt_reg_r with a; [lra|]; unfold Rdiv; rewrite Rmult_assoc, Rinv_l by lra; lra]|].
  split; [unfold P; destruct A as (_ & _ & Hr & _); lra|]. split; [exists sol_star; split; [reflexivity|exact sol_star_pos]|].
  split; [exact V|apply eta_star].
Qed.
(** 4 m/s, no profile drag: the passes go round three values and never agree *)
Lemma efficiency_cycle : exists p h m P rpm, (forall k, solve_dp (p k) = 6%nat /\ solve_maxiter (p k) = k /\ diameter_m (p k) = Some (Fin 2) /\ solidity (p k) = Some (Fin 0)) /\ 0 < m /\ 0 < P /\
  (exists e, efficiency (p 31%Z) [Fin m] [Fin h] [Fin P] (Fin rpm) = Ok (p 31%Z, [Fin e]) /\ e < -30) /\
  (exists e, efficiency (p 32%Z) [Fin m] [Fin h] [Fin P] (Fin rpm) = Ok (p 32%Z, [Fin e]) /\ 1000 < e) /\
  efficiency (p 30%Z) [Fin m] [Fin h] [Fin P] (Fin rpm) = Ok (p 30%Z, [Fin 0]).
Proof.
  destruct (at_sea_level (1/10) (1/10)) as (rho & a & A & C1 & C2). set (p := fun k => prop_with 2 0.5 0 k).
  set (P := 1 / 10 * (rho * 20 ^ 3 * 2 ^ 5)) in *. set (m := 1 / 10 * 40 / a) in *.
  exists p, 0, m, P, 1200. split; [intros k; repeat split|]. pose proof A as (_ & _ & Hr & Ha).
  split; [unfold m; apply Rdiv_lt_0_compat; lra|]. split; [unfold P; lra|].
  assert (K : forall k, efficiency (p k) [Fin m] [Fin 0] [Fin P] (Fin 1200) = Ok (p k, [Fin (snd (passes (1/10) (1/10) 0 (drag_polar (0.5 * (1/10) / (1/10))) (Z.to_nat k)))])).
  { intros k. destruct (efficiency_value (p k) 2 0.5 0 1200 0 rho a m P eq_refl eq_refl eq_refl A ltac:(lra) ltac:(lra)) as (j & S & V).
    - rewrite C1, C2. apply low_regular.
    - rewrite C1, C2 in V, S. apply low_stops in S. subst j. exact V. }
  split; [|split].
  - eexists. split; [apply K|]. destruct (low_states (drag_polar (0.5 * (1/10) / (1/10))) 10) as (_ & H & _). apply H.
  - eexists. split; [apply K|]. destruct (low_states (drag_polar (0.5 * (1/10) / (1/10))) 10) as (_ & _ & H). apply H.
  - rewrite K. change (Z.to_nat 30) with (3 * Datatypes.S 9)%nat. rewrite low_zero. reflexivity.
Qed.
(** an ordinary propeller is lightly loaded: J = 1, power coefficient 0.1, solidity 0.1 *)
Lemma ordinary_both : lightly_loaded 1 0.1 0.1 (drag_polar (0.5 * 0.1 / 1)) /\
  PI ^ 4 * 0.1 * drag_polar (0.5 * 0.1 / 1) * glauert_bound (1 / (PI * least_axial 1 0.1 * least_swirl 1 0.1)) <= 0.32.
Proof.
  pose proof PI2_3_2 as P1. pose proof PI_4 as P2. assert (P : 3 < PI <= 4) by lra.
  assert (D : 0 <= drag_polar (0.5 * 0.1 / 1) <= 0.012) by (unfold drag_polar; lra).
  assert (A : 0.9 < least_axial 1 0.1).
  { unfold least_axial. apply Rmin_glb_lt; [lra|]. assert (2 * 0.1 / (PI * 1 ^ 3) < 0.1); [|lra].
    apply Rmult_lt_reg_r with (PI * 1 ^ 3); [lra|]. unfold Rdiv. rewrite Rmult_assoc, Rinv_l by lra. lra. }
  assert (P3 : 27 < PI ^ 3 <= 64) by apply PI3_bounds.
  assert (B : 0.98 < least_swirl 1 0.1).
  { unfold least_swirl. assert (4 * 0.1 / (PI ^ 3 * 1) < 0.02); [|lra]. apply Rmult_lt_reg_r with (PI ^ 3 * 1); [lra|]. unfold Rdiv. rewrite Rmult_assoc, Rinv_l by lra. lra. }
  enough (PI ^ 4 * 0.1 * drag_polar (0.5 * 0.1 / 1) * glauert_bound (1 / (PI * least_axial 1 0.1 * least_swirl 1 0.1)) <= 0.32) by (split; [do 6 (split; [lra|]); lra|assumption]).
  set (la := least_axial 1 0.1) in *. set (ls := least_swirl 1 0.1) in *.
  assert (Y : 0 < 1 / (PI * la * ls) < 0.5).
  { assert (Q : 0.88 < la * ls) by nra. assert (Q2 : 2 < PI * la * ls) by (rewrite Rmult_assoc; nra). split; [apply Rdiv_lt_0_compat; lra|].
    apply Rmult_lt_reg_r with (PI * la * ls); [lra|]. unfold Rdiv at 1. rewrite Rmult_assoc, Rinv_l by lra. lra. }
  pose proof (glauert_bound_mono (1 / (PI * la * ls)) 0.5 ltac:(lra)) as G.
  assert (G2 : glauert_bound 0.5 <= 1).
  { unfold glauert_bound. assert (S : sqrt (1 + 0.5 ^ 2) <= 1.2) by (replace 1.2 with (sqrt (1.2 * 1.2)) by (apply sqrt_square; lra); apply sqrt_le_1; lra).
    assert (0 <= sqrt (1 + 0.5 ^ 2)) by apply sqrt_pos. replace (0.5 ^ 2) with 0.25 in * by lra. lra. }
  assert (G0 : 0 <= glauert_bound (1 / (PI * la * ls))) by (eapply Rle_trans; [|apply glauert_bounds; apply Y]; apply Rlt_le, glauert_bounds, Y).
  assert (P4 : PI ^ 4 <= 256) by (replace (PI ^ 4) with (PI ^ 3 * PI) by ring; nra). assert (P40 : 0 < PI ^ 4) by (apply pow_lt; lra).
  set (g := glauert_bound (1 / (PI * la * ls))) in *. set (d := drag_polar (0.5 * 0.1 / 1)) in *.
  assert (X : PI ^ 4 * 0.1 * d <= 0.32) by nra. assert (X0 : 0 <= PI ^ 4 * 0.1 * d) by (apply Rmult_le_pos; lra).
  assert (PI ^ 4 * 0.1 * d * g <= 0.32 * 1) by (apply Rmult_le_compat; lra). lra.
Qed.
Lemma ordinary_loading : lightly_loaded 1 0.1 0.1 (drag_polar (0.5 * 0.1 / 1)).
Proof. apply ordinary_both. Qed.
Lemma ordinary_strict : PI ^ 4 * 0.1 * drag_polar (0.5 * 0.1 / 1) * glauert_bound (1 / (PI * least_axial 1 0.1 * least_swirl 1 0.1)) <= 0.32.
Proof. apply ordinary_both. Qed.
Lemma ordinary_propeller : exists p h m P rpm rho a, standard_air h rho a /\ 0 < m /\ 0 < P /\ diameter_m p = Some (Fin 2) /\ idesign_cl p = Some (Fin 0.5) /\ solidity p = Some (Fin 0.1) /\
  lightly_loaded (advance_ratio (m * a) (rpm / 60) 2) (power_coefficient P rho (rpm / 60) 2) 0.1
    (drag_polar (0.5 * power_coefficient P rho (rpm / 60) 2 / advance_ratio (m * a) (rpm / 60) 2)).
Proof.
  destruct (at_sea_level 1 0.1) as (rho & a & A & C1 & C2). exists (prop_with 2 0.5 0.1 30), 0, (1 * 40 / a), (0.1 * (rho * 20 ^ 3 * 2 ^ 5)), 1200, rho, a.
  pose proof A as (_ & _ & Hr & Ha). split; [exact A|]. split; [apply Rdiv_lt_0_compat; lra|]. split; [lra|]. do 3 (split; [reflexivity|]).
  rewrite C1, C2. exact ordinary_loading.
Qed.

(** ** Normalised decks *)
Lemma jet_normalised grid d t zs : jt_thr d = Some t -> tz t = map Fin zs -> zs <> [] -> exists M, largest zs M /\
  forall m h v, jt_thrust grid d (VNum (Fin m)) (VNum (Fin h)) = Ok (Some (VNum (Fin v))) -> M <> 0 ->
    exists c, jt_sl_thrustcorr grid d (VNum (Fin m)) (VNum (Fin h)) = Ok (VNum (Fin c)) /\ c * M = v.
Proof.
  intros E Ez Ne. destruct (normalised_num t zs NonFin Ez Ne) as (M & L & _). exists M. split; [exact L|].
  intros m h v Ev NM. exists (v / M). split; [|field; exact NM]. unfold jt_sl_thrustcorr. rewrite Ev. cbn [rbind]. rewrite E.
  destruct (normalised_num t zs (Fin v) Ez Ne) as (M' & L' & ->). rewrite (largest_unique _ _ _ L L') in *. rewrite ndiv_fin by exact NM. reflexivity.
Qed.
Lemma turboprop_normalised grid d t zs : tp_pwr d = Some t -> tz t = map Fin zs -> zs <> [] -> exists M, largest zs M /\
  forall m h v, tp_shaftpower grid d (VNum (Fin m)) (VNum (Fin h)) = Ok (Some (VNum (Fin v))) -> M <> 0 ->
    exists c, tp_sl_powercorr grid d (VNum (Fin m)) (VNum (Fin h)) = Ok (VArr [Fin c]) /\ c * M = v.
Proof.
  intros E Ez Ne. destruct (normalised_num t zs NonFin Ez Ne) as (M & L & _). exists M. split; [exact L|].
  intros m h v Ev NM. exists (v / M). split; [|field; exact NM]. unfold tp_sl_powercorr, tp_shaftpower in *. rewrite E in *. cbn [recastasnpfloatarray].
  cbn [query grid_table toarr vop2 rmap] in Ev. injection Ev as Ev. rewrite query_arr by reflexivity. cbn [map2 combine map fst snd rbind]. rewrite Ev.
  destruct (normalised_arr t zs (VArr [Fin v]) Ez Ne) as (M' & L' & K). rewrite (largest_unique _ _ _ L L') in *. rewrite (K [Fin v] eq_refl). cbn [map]. rewrite ndiv_fin by exact NM. reflexivity.
Qed.
Lemma piston_normalised grid d t zs : pi_pwr d = Some t -> tz t = map Fin zs -> zs <> [] -> exists M, largest zs M /\
  forall rpm h v, pi_shaftpower grid d (VNum (Fin rpm)) (VNum (Fin h)) = Ok (Some (VNum (Fin v))) -> M <> 0 ->
    exists c, pi_sl_powercorr grid d (VNum (Fin rpm)) (VNum (Fin h)) = Ok (VArr [Fin c]) /\ c * M = v.
Proof.
  intros E Ez Ne. destruct (normalised_num t zs NonFin Ez Ne) as (M & L & _). exists M. split; [exact L|].
  intros m h v Ev NM. exists (v / M). split; [|field; exact NM]. unfold pi_sl_powercorr, pi_shaftpower in *. rewrite E in *. cbn [recastasnpfloatarray].
  cbn [query grid_table toarr vop2 rmap] in Ev. injection Ev as Ev. rewrite query_arr by reflexivity. cbn [map2 combine map fst snd rbind]. rewrite Ev.
  destruct (normalised_arr t zs (VArr [Fin v]) Ez Ne) as (M' & L' & K). rewrite (largest_unique _ _ _ L L') in *. rewrite (K [Fin v] eq_refl). cbn [map]. rewrite ndiv_fin by exact NM. reflexivity.
Qed.
Lemma interpolates_nth grid t i x y z : interpolates grid t -> nth_error (tx t) i = Some (Fin x) -> nth_error (ty t) i = Some (Fin y) -> nth_error (tz t) i = Some (Fin z) ->
  query grid (Some t) (VNum (Fin x)) (VNum (Fin y)) = Ok (Some (VNum (Fin z))).
Proof. intros I Hx Hy Hz. cbn [query grid_table toarr vop2 rmap]. rewrite (I i x y z Hx Hy Hz). reflexivity. Qed.
(** at the points of the table the ratio is at most 1, and 1 at the largest value *)
Lemma jet_points grid d t zs : jt_thr d = Some t -> tz t = map Fin zs -> interpolates grid t -> (forall z, In z zs -> 0 < z) ->
  forall i m h z, nth_error (tx t) i = Some (Fin m) -> nth_error (ty t) i = Some (Fin h) -> nth_error zs i = Some z ->
    exists c, jt_sl_thrustcorr grid d (VNum (Fin m)) (VNum (Fin h)) = Ok (VNum (Fin c)) /\ 0 < c <= 1 /\ (c = 1 <-> largest zs z).
Proof.
  intros E Ez I Pz i m h z Hm Hh Hz.
  assert (Ne : zs <> []) by (intros ->; destruct i; discriminate). destruct (jet_normalised grid d t zs E Ez Ne) as (M & L & K).
  assert (Hz' : nth_error (tz t) i = Some (Fin z)) by (rewrite Ez, nth_error_map, Hz; reflexivity).
  pose proof L as (HM & B). pose proof (Pz M HM) as PM.
  destruct (K m h z) as (c & V & Q); [unfold jt_thrust; rewrite E; apply (interpolates_nth grid t i); assumption|lra|].
  exists c. split; [exact V|]. apply nth_error_In in Hz. pose proof (Pz z Hz). pose proof (B z Hz).
  split; [split; nra|]. split.
  - intros ->. replace z with M by lra. exact L.
  - intros Lz. rewrite (largest_unique _ _ _ Lz L) in *. nra.
Qed.
(** the largest value need not be the sea-level one *)
Definition climbing_deck : jet :=
  {| jt_thr := Some {| tx := [#0; #0.8]%num; ty := [#0; #1000]%num; tz := [#10000; #20000]%num |}; jt_tsfc := None; jt_sl := None; jt_to := None |}.
Lemma not_sea_level : no_extrapolation exact_grid /\ jt_thrust exact_grid climbing_deck (VNum #0) (VNum #0) = Ok (Some (VNum #10000)) /\
  exists c, jt_sl_thrustcorr exact_grid climbing_deck (VNum #0) (VNum #0) = Ok (VNum (Fin c)) /\ c = 0.5.
Proof.
  split; [exact exact_no_extrapolation|].
  assert (T : jt_thrust exact_grid climbing_deck (VNum #0) (VNum #0) = Ok (Some (VNum #10000))).
  { unfold jt_thrust, climbing_deck, query, grid_table, exact_grid. cbn [jt_thr tx ty tz toarr vop2 rmap combine exact neqb].
    unfold Reqb. destruct (Req_EM_T 0 0); [reflexivity|lra]. }
  split; [exact T|]. destruct (jet_normalised exact_grid climbing_deck _ [10000; 20000] eq_refl eq_refl ltac:(discriminate)) as (M & (I & L) & K).
  assert (EM : M = 20000) by (specialize (L 20000 ltac:(right; left; reflexivity)); destruct I as [<-|[<-|[]]]; lra).
  subst M. destruct (K 0 0 10000 T ltac:(lra)) as (c & V & Q). exists c. split; [exact V|lra].
Qed.

(** ** The ansatz propeller *)
Lemma ansatz_design p ms hs Ws rpm rho a : ms <> [] -> hs <> [] -> Ws <> [] -> standard_air (mean hs) rho a ->
  0 < mean ms < 0.8 -> 0 < rpm -> 0 < mean Ws ->
  exists q D z af sol cl, ansatzprop p (map Fin ms) (map Fin hs) (Fin rpm) (map Fin Ws) = Ok q /\
    diameter_m q = Some (Fin D) /\ bladecount q = Some (Fin (IZR z)) /\ bladeactivityfact q = Some (Fin af) /\
    solidity q = Some (Fin sol) /\ idesign_cl q = Some (Fin cl) /\ solve_dp q = solve_dp p /\ solve_maxiter q = solve_maxiter p /\
    let P := mean Ws in let n := rpm / 60 in let V := mean ms * a in
    let J := advance_ratio V n D in let cp := power_coefficient P rho n D in let total := 1000 * Rpower (cp / 0.3) 0.8 in
    0 < D /\ J / cp <= 3.2 ^ 3 /\ V ^ 2 + (PI * n * D / 2) ^ 2 <= (0.8 * a) ^ 2 /\
    (V ^ 2 + (PI * n * D / 2) ^ 2 < (0.8 * a) ^ 2 -> 2.4 ^ 3 <= J / cp) /\
    (exists r, (total < 400 /\ rounds_to (total / 133) r \/ 400 <= total /\ rounds_to (total / 120) r) /\ z = Z.max r 2) /\
    IZR z * af = total /\ sol = 128 * total / (100000 * PI) /\ 0 < sol /\
    cl * (0.5 * rho * V ^ 2 * (PI * (D / 2) ^ 2 * sol)) = P / V.
Proof.
  intros N1 N2 N3 A Hm Hr HP. set (m := mean ms) in *. set (P := mean Ws) in *. set (h := mean hs) in *.
  set (D := z_diam m rho a rpm P). set (total := z_total m rho a rpm P).
  exists (sized_prop p (z_all m rho a rpm P)), D, (z_count m rho a rpm P), (total / IZR (z_count m rho a rpm P)), (z_solid m rho a rpm P), (z_lift m rho a rpm P).
  split; [eapply ansatz_value; try eassumption; apply average_fin; assumption|]. do 7 (split; [reflexivity|]).
  pose proof (z_count_two m rho a rpm P) as C2. apply IZR_le in C2. pose proof PI_RGT_0 as HPI.
  split; [eapply z_diam_pos; eassumption|]. split; [eapply z_upper; eassumption|].
  destruct (z_tip_half m h rho a rpm P A Hm Hr) as (T1 & T2). split; [exact T1|].
  split; [intros L; eapply z_lower; try eassumption; intros E; specialize (T2 E); apply Rlt_not_eq in L; exact (L T2)|].
  split.
  { unfold z_count. eexists. split; [|reflexivity]. fold total. change (1000 * Rpower (power_coefficient P rho (rpm / 60) D / 0.3) 0.8) with total.
    destruct (Rltb_reflect total 400); [left|right]; (split; [lra|apply nearest_rounds]). }
  split; [change (1000 * Rpower (power_coefficient P rho (rpm / 60) D / 0.3) 0.8) with total; field; lra|].
  split; [change (1000 * Rpower (power_coefficient P rho (rpm / 60) D / 0.3) 0.8) with total; unfold z_solid; fold total; field; split; lra|].
  split; [eapply z_solid_pos; eassumption|].
  assert (Q : 0 < 0.5 * rho * (m * a) ^ 2 * (PI * (D / 2) ^ 2 * z_solid m rho a rpm P)) by (eapply z_area_pos; eassumption). unfold z_lift. change (z_diam m rho a rpm P) with D.
  set (X := 0.5 * rho * (m * a) ^ 2 * (PI * (D / 2) ^ 2 * z_solid m rho a rpm P)) in *. unfold Rdiv. rewrite Rmult_assoc, Rinv_l by lra. ring.
Qed.
(** 2400 rpm at Mach 0.5 and enough power: the tip exceeds Mach 0.8 *)
Lemma ansatz_tip : exists rho a P rpm q D, standard_air 0 rho a /\ 0 < P /\
  ansatzprop blank_propeller [Fin 0.5] [Fin 0] (Fin rpm) [Fin P] = Ok q /\ diameter_m q = Some (Fin D) /\
  (0.8 * a) ^ 2 < (0.5 * a) ^ 2 + (PI * (rpm / 60) * D) ^ 2.
Proof.
  destruct (air_below 0 ltac:(lra)) as (rho & a & A). pose proof A as (_ & _ & Hr & Ha0).
  assert (Ha : a < 400).
  { destruct A as (_ & A & _). rewrite vsound_isa in A; [|lra|unfold std_temp, climb; rewrite !Rmin_left by lra; rewrite !Rmax_left by lra; lra]. injection A as <-.
    assert (T : std_temp 0 = 288.15) by (unfold std_temp, climb; rewrite !Rmin_left by lra; rewrite !Rmax_left by lra; lra). rewrite T.
    replace 400 with (sqrt (400 * 400)) by (apply sqrt_square; lra); apply sqrt_lt_1; lra. }
  set (P := 256 * (0.5 * a * rho * (2400 / 60) ^ 2)).
  assert (HP : 0 < P) by (unfold P; apply Rmult_lt_0_compat; [lra|]; apply Rmult_lt_0_compat; [apply Rmult_lt_0_compat; lra|lra]).
  assert (Hm : 0 < 0.5 < 0.8) by lra. assert (Hrpm : 0 < 2400) by lra.
  exists rho, a, P, 2400, (sized_prop blank_propeller (z_all 0.5 rho a 2400 P)), (z_diam 0.5 rho a 2400 P).
  split; [exact A|]. split; [exact HP|].
  split; [eapply ansatz_value; try eassumption; unfold average; cbn [fold_right List.length INR]; rewrite nadd_fin, ndiv_fin by lra; f_equal; field|].
  split; [reflexivity|]. pose proof PI2_3_2 as HPI.
  assert (L4 : z_limit 0.5 a 2400 < 5).
  { unfold z_limit. assert (T : z_tip 0.5 a < 250).
    { assert (Q : z_tip 0.5 a ^ 2 = (0.8 * a) ^ 2 - (0.5 * a) ^ 2) by (unfold z_tip; apply Rpower_half; nra).
      assert (0 < z_tip 0.5 a) by apply exp_pos. apply Rnot_le_lt. intros G. assert (250 ^ 2 <= z_tip 0.5 a ^ 2) by (apply pow_incr; lra). nra. }
    apply Rmult_lt_reg_r with (2400 / 60 * PI / 2); [lra|]. unfold Rdiv at 1. rewrite Rmult_assoc, Rinv_l by lra. lra. }
  assert (E : z_diam 0.5 rho a 2400 P = z_limit 0.5 a 2400).
  { unfold z_diam. apply Rmin_right. eapply Rle_trans; [|eapply z_best_range; eassumption].
    assert (Q : P / (0.5 * a * rho * (2400 / 60) ^ 2) = 256) by (unfold P; field; split; lra). rewrite Q.
    pose proof (Rpower_quarter (2.4 ^ 3 * 256) ltac:(lra)) as F. set (r := Rpower (2.4 ^ 3 * 256) 0.25) in *.
    assert (0 < r) by apply exp_pos. apply Rnot_lt_le. intros G. assert (r ^ 4 <= 5 ^ 4) by (apply pow_incr; lra). lra. }
  destruct (z_tip_half 0.5 0 rho a 2400 P A Hm Hrpm) as (_ & T). specialize (T E). set (D := z_diam 0.5 rho a 2400 P) in *.
  replace (PI * (2400 / 60) * D) with (2 * (PI * (2400 / 60) * D / 2)) by field. set (x := PI * (2400 / 60) * D / 2) in *. nra.
Qed.

(** ** Decks without data *)
Lemma empty_queries grid m h : 
  jt_thrust grid {| jt_thr := None; jt_tsfc := None; jt_sl := None; jt_to := None |} m h = Ok None /\
  jt_tsfc_at grid {| jt_thr := None; jt_tsfc := None; jt_sl := None; jt_to := None |} m h = Ok None /\
  jt_sl_thrustcorr grid {| jt_thr := None; jt_tsfc := None; jt_sl := None; jt_to := None |} m h = Err AttributeError /\
  (forall x, jet_sl_thrust {| jt_thr := None; jt_tsfc := None; jt_sl := None; jt_to := None |} x = Ok None) /\
  tp_shaftpower grid {| tp_thr := None; tp_pwr := None; tp_bsfc := None |} m h = Ok None /\
  tp_sl_powercorr grid {| tp_thr := None; tp_pwr := None; tp_bsfc := None |} m h = Err AttributeError /\
  pi_shaftpower grid {| pi_pwr := None; pi_bsfc := None; pi_bsfc_pwr := None |} m h = Ok None /\
  (forall rpm p, tp_thrust grid {| tp_thr := None; tp_pwr := None; tp_bsfc := None |} m h rpm (PropellerObj p) = Err TypeError) /\
  (forall rpm p, pi_thrust grid {| pi_pwr := None; pi_bsfc := None; pi_bsfc_pwr := None |} m h rpm (PropellerObj p) = Err TypeError).
Proof. repeat split. Qed.

(** ** A turboprop with one data point and an ordinary propeller *)
Definition one_point (x y z : R) : table := {| tx := [Fin x]; ty := [Fin y]; tz := [Fin z] |}.
Lemma exact_one x y z : exact_grid [Fin x] [Fin y] [Fin z] (Fin x) (Fin y) = Fin z.
Proof. unfold exact_grid. cbn [combine exact neqb]. unfold Reqb. destruct (Req_EM_T x x); [|congruence]. destruct (Req_EM_T y y); [reflexivity|congruence]. Qed.
Lemma ordinary_left : 0 < least_axial 1 0.1 * least_swirl 1 0.1 *
  (1 - PI ^ 4 * 0.1 * drag_polar (0.5 * 0.1 / 1) * glauert_bound (1 / (PI * least_axial 1 0.1 * least_swirl 1 0.1)) / (8 * 0.1)).
Proof.
  pose proof ordinary_strict as Q. destruct ordinary_loading as (_ & _ & _ & _ & A & B & _).
  apply Rmult_lt_0_compat; [apply Rmult_lt_0_compat; assumption|]. lra.
Qed.
Lemma turboprop_case : exists d m P rpm p r s e, no_extrapolation exact_grid /\ conditions (VNum (Fin m)) (VNum (Fin 0)) [m] [0] /\ 0 < m /\
  tp_pwr d = Some (one_point m 0 P) /\ tp_thr d = Some (one_point m 0 500) /\
  tp_thrust exact_grid d (VNum (Fin m)) (VNum (Fin 0)) rpm (PropellerObj p) = Ok r /\
  tp_coldthrust exact_grid d (VNum (Fin m)) (VNum (Fin 0)) rpm (PropellerObj p) = Ok s /\
  (exists s, tp_tsfc exact_grid d (VNum (Fin m)) (VNum (Fin 0)) rpm (PropellerObj p) = Ok s) /\
  tp_shaftpower exact_grid d (VArr [Fin m]) (VArr [Fin 0]) = Ok (Some (VArr [Fin P])) /\
  tp_bsfc_at exact_grid d (VArr [Fin m]) (VArr [Fin 0]) = Ok (Some (VArr [Fin 300])) /\
  efficiency p [Fin m] [Fin 0] [Fin P] rpm = Ok (p, [Fin e]) /\ 0 < e <= 1.
Proof.
  destruct (at_sea_level 1 0.1) as (rho & a & A & C1 & C2). pose proof A as (Ar & Aa & Hr & Ha).
  set (p := prop_with 2 0.5 0.1 30). set (m := 1 * 40 / a) in *. set (P := 0.1 * (rho * 20 ^ 3 * 2 ^ 5)) in *.
  destruct (efficiency_bounded p 2 0.5 0.1 1200 0 rho a m P eq_refl eq_refl eq_refl A ltac:(lra) ltac:(lra)) as (e & E & (E0 & E1) & E2).
  { rewrite C1, C2. exact ordinary_loading. }
  rewrite C1, C2 in E2. specialize (E2 eq_refl). pose proof ordinary_left as L.
  set (d := {| tp_thr := Some (one_point m 0 500); tp_pwr := Some (one_point m 0 P); tp_bsfc := Some (one_point m 0 300) |}).
  assert (Sp : tp_shaftpower exact_grid d (VArr [Fin m]) (VArr [Fin 0]) = Ok (Some (VArr [Fin P]))).
  { unfold tp_shaftpower. cbn [tp_pwr d]. rewrite query_arr by reflexivity. unfold map2; cbn [combine map fst snd tx ty tz one_point]. rewrite exact_one. reflexivity. }
  assert (Bs : tp_bsfc_at exact_grid d (VArr [Fin m]) (VArr [Fin 0]) = Ok (Some (VArr [Fin 300]))).
  { change (tp_bsfc_at exact_grid d (VArr [Fin m]) (VArr [Fin 0])) with (query exact_grid (Some (one_point m 0 300)) (VArr [Fin m]) (VArr [Fin 0])). rewrite query_arr by reflexivity. unfold map2; cbn [combine map fst snd tx ty tz one_point]. rewrite exact_one. reflexivity. }
  assert (Ht : tp_hotthrust exact_grid d (VArr [Fin m]) (VArr [Fin 0]) = Ok (Some (VArr [Fin 500]))).
  { unfold tp_hotthrust. cbn [tp_thr d]. rewrite query_arr by reflexivity. unfold map2; cbn [combine map fst snd tx ty tz one_point]. rewrite exact_one. reflexivity. }
  assert (So : vsound_mps (isa 0) (VArr [Fin 0]) = Ok (VNum (Fin a))).
  { change [Fin 0] with (map Fin [0]). rewrite (sound_batch [0] [a]); [reflexivity|discriminate|]. constructor; [exists rho; exact A|constructor]. }
  assert (Pe : prop_efficiency [Fin m] [Fin 0] (Fin 1200) (PropellerObj p) (Some (VArr [Fin P])) = Ok ([Fin e], VArr [Fin (m * a)])).
  { unfold prop_efficiency. cbn [rbind]. change (entries (Some (VArr [Fin P]))) with (@Ok (list num) [Fin P]). cbn [rbind]. rewrite E. cbn [rbind]. rewrite So. cbn [rbind vop2 rmap map]. rewrite nmul_fin. reflexivity. }
  assert (Co : tp_coldthrust exact_grid d (VNum (Fin m)) (VNum (Fin 0)) (Fin 1200) (PropellerObj p) = Ok (VArr [Fin (e * P / (m * a))])).
  { unfold tp_coldthrust. cbn [recastasnpfloatarray]. rewrite Sp. cbn [rbind]. rewrite Pe. cbn [rbind fst snd]. unfold cold_thrust. cbn [some_val rbind].
    rewrite vop2_arr by reflexivity. cbn [rbind]. rewrite vop2_arr by reflexivity. unfold map2. cbn [combine map fst snd]. rewrite nmul_fin, ndiv_fin; [reflexivity|]. unfold m. replace (1 * 40 / a * a) with 40 by (field; lra). lra. }
  exists d, m, P, (Fin 1200), p. eexists. eexists. exists e.
  split; [exact exact_no_extrapolation|]. split; [repeat split; [discriminate|repeat constructor; lra]|].
  split; [unfold m; apply Rdiv_lt_0_compat; lra|]. split; [reflexivity|]. split; [reflexivity|].
  split.
  { unfold tp_thrust. cbn [recastasnpfloatarray]. rewrite Ht. cbn [rbind some_val].
    assert (Co' : tp_coldthrust exact_grid d (VArr [Fin m]) (VArr [Fin 0]) (Fin 1200) (PropellerObj p) = Ok (VArr [Fin (e * P / (m * a))])) by exact Co.
    rewrite Co'. cbn [rbind]. rewrite vop2_arr by reflexivity. reflexivity. }
  split; [exact Co|]. split.
  { eexists. unfold tp_tsfc. cbn [recastasnpfloatarray]. rewrite Sp. cbn [rbind]. rewrite Pe. cbn [rbind fst snd]. rewrite Bs. cbn [rbind]. unfold tsfc_of. cbn [some_val rbind toarr vlit map].
    rewrite vop2_arr by reflexivity. cbn [rbind]. rewrite vop2_arr by reflexivity. reflexivity. }
  split; [exact Sp|]. split; [exact Bs|]. split; [exact E|]. lra.
Qed.
(** tsfc times the total thrust exceeds the fuel flow by tsfc times the jet thrust *)
Lemma turboprop_tsfc_total grid d mach alt ms hs rpm prop U S : conditions mach alt ms hs ->
  tp_thrust grid d mach alt rpm prop = Ok U -> tp_tsfc grid d mach alt rpm prop = Ok S ->
  exists Ws bs hots us ss p q etas, tp_shaftpower grid d (VArr (map Fin ms)) (VArr (map Fin hs)) = Ok (Some (VArr Ws)) /\
    tp_bsfc_at grid d (VArr (map Fin ms)) (VArr (map Fin hs)) = Ok (Some (VArr bs)) /\
    tp_hotthrust grid d (VArr (map Fin ms)) (VArr (map Fin hs)) = Ok (Some (VArr hots)) /\
    uses prop (map Fin ms) (map Fin hs) rpm Ws p /\ efficiency p (map Fin ms) (map Fin hs) Ws rpm = Ok (q, etas) /\
    U = VArr us /\ S = VArr ss /\
    forall i m h W b eta x, nth_error ms i = Some m -> nth_error hs i = Some h -> m <> 0 ->
      nth_error Ws i = Some (Fin W) -> nth_error bs i = Some (Fin b) -> nth_error etas i = Some (Fin eta) -> eta <> 0 ->
      nth_error hots i = Some (Fin x) ->
      exists u s, nth_error us i = Some (Fin u) /\ nth_error ss i = Some (Fin s) /\ s * u = b * W / 3600 + s * x.
Proof.
  intros C HU HS. destruct (turboprop_thrust grid d mach alt ms hs rpm prop U C HU) as (hots & ts & us & H1 & H2 & H3 & H4 & H5).
  destruct (turboprop_tsfc grid d mach alt ms hs rpm prop _ S C H2 HS) as (Ws & bs & p & q & etas & ts' & ss & K1 & K2 & K3 & K4 & K5 & K6 & K7).
  injection K5 as <-. exists Ws, bs, hots, us, ss, p, q, etas. do 7 (split; [assumption|]).
  intros i m h W b eta x Hm Hh Nm HW Hb He Ne Hx. destruct (K7 i m h W b eta Hm Hh Nm HW Hb He Ne) as (t & s & T1 & T2 & T3).
  exists (x + t), s. split; [rewrite (H5 i _ _ Hx T1), nadd_fin; reflexivity|]. split; [exact T2|]. rewrite Rmult_plus_distr_l, T3. ring.
Qed.

(** ** Concrete cases for the hypotheses of the theorems *)
Lemma unknown_check e l : forallb (fun f => negb (contains e f)) l = true -> unknown e l.
Proof. intros H f I O. apply (forallb_In _ _ H) in I. apply contains_spec in O. rewrite O in I. discriminate. Qed.
Lemma merlin_unknown : unknown "Merlin" jet_files /\ unknown "Merlin" piston_files.
Proof. split; apply unknown_check; reflexivity. Qed.
Lemma polynomial_case : exists d, jt_sl d = Some (map Fin [100; -2; 1], [Fin 0; Fin 0.9]) /\ jet_sl_thrust d (Fin 0.5) = Ok (Some (Fin (poly_sum [100; -2; 1] 0.5))).
Proof.
  exists {| jt_thr := None; jt_tsfc := None; jt_sl := Some (map Fin [100; -2; 1], [Fin 0; Fin 0.9]); jt_to := None |}. split; [reflexivity|].
  apply (jet_poly_range _ [100; -2; 1] 0 0.9 [] 0.5); [reflexivity|lra].
Qed.
Lemma outside_case m P : ~ in_hull (tx (one_point m 0 P)) (ty (one_point m 0 P)) (m - 1) 0.
Proof. apply hull_bound with (c := m - 1); [|lra]. intros r [E|[]]. injection E as <-. lra. Qed.
Lemma el_half rpm torque : exists P, el_shaftpower (VNum (Fin rpm)) (VNum (Fin torque)) = Ok (VArr [Fin P]) /\ P = torque * (2 * PI * (rpm / 60)) / 2.
Proof. exists (PI * rpm / 60 * torque). split; [apply el_shaftpower_scalar|field]. Qed.
Definition motor_frame : frame := [("Speed (RPM)"%string, [Fin 1000; Fin 3000]); ("Torque (Nm)"%string, [Fin 100; Fin 150]); ("Efficiency"%string, [Fin 0.9; Fin 0.95])].
Lemma electric_case : exists read_csv read_text parse d, electric_deck read_csv read_text parse "JMX57" electric_files = Ok (Some d) /\
  nth_error (tx (el_tab d)) 1 = Some (Fin 3000) /\ nth_error (ty (el_tab d)) 1 = Some (Fin 150) /\ nth_error (tz (el_tab d)) 1 = Some (Fin 0.95).
Proof.
  exists (fun _ => Ok motor_frame), (fun _ => Err KeyError), (fun _ => None). eexists. split; [reflexivity|]. repeat split.
Qed.
Lemma types_case : In (lowercase "Jet") ["turboprop"; "jet"; "electric"; "piston"]%string /\ ~ In (lowercase "ramjet") ["turboprop"; "jet"; "electric"; "piston"]%string.
Proof. split; [cbn; tauto|]. cbn. intuition discriminate. Qed.
Lemma plain_check s : contains "," s = false -> contains (String "010" "") s = false -> plain s.
Proof. intros A B. split; intros O; apply contains_spec in O; congruence. Qed.
Lemma file_case : exists (parse : string -> option num) vs ws,
  Forall2 (fun s v => parse s = Some v) ["12.5"; "-3"]%string vs /\ Forall2 (fun s v => parse s = Some v) ["0"; "0.9"]%string ws /\
  (forall s, In s ["12.5"; "-3"]%string \/ In s ["0"; "0.9"]%string -> plain s).
Proof.
  exists (fun s => if String.eqb s "12.5" then Some (Fin 12.5) else if String.eqb s "-3" then Some (Fin (-3)) else if String.eqb s "0" then Some (Fin 0) else if String.eqb s "0.9" then Some (Fin 0.9) else None).
  exists [Fin 12.5; Fin (-3)], [Fin 0; Fin 0.9]. split; [repeat constructor|]. split; [repeat constructor|].
  intros s [[<-|[<-|[]]]|[<-|[<-|[]]]]; apply plain_check; reflexivity.
Qed.
Lemma climbing_case t : jt_thr climbing_deck = Some t -> interpolates exact_grid t /\ tz t = map Fin [10000; 20000].
Proof.
  intros E. injection E as <-. split; [|reflexivity]. cbn [tx ty tz]. intros i x y z Hx Hy Hz. unfold exact_grid. cbn [tx ty tz combine exact].
  destruct i as [|[|[|i]]]; try discriminate; cbn [nth_error tx ty tz] in *; injection Hx as <-; injection Hy as <-; injection Hz as <-; cbn [neqb]; unfold Reqb;
    repeat (destruct (Req_EM_T _ _); try (exfalso; lra)); reflexivity.
Qed.
Lemma ansatz_case : exists rho a, standard_air (mean [0; 3000]) rho a /\ 0 < mean [0.3; 0.4; 0.5] < 0.8 /\ 0 < mean [200000; 300000].
Proof.
  destruct (air_below (mean [0; 3000])) as (rho & a & A); [unfold mean, sum; cbn [fold_right List.length INR]; lra|].
  exists rho, a. split; [exact A|]. unfold mean, sum; cbn [fold_right List.length INR]; lra.
Qed.
Lemma piston_case : exists d m rpm p r e P, conditions (VNum (Fin m)) (VNum (Fin 0)) [m] [0] /\
  pi_thrust exact_grid d (VNum (Fin m)) (VNum (Fin 0)) rpm (PropellerObj p) = Ok r /\
  el_thrust (VNum (Fin P)) (VNum (Fin m)) (VNum (Fin 0)) rpm (PropellerObj p) = Ok r /\
  efficiency p [Fin m] [Fin 0] [Fin P] rpm = Ok (p, [Fin e]) /\ 0 < e <= 1.
Proof.
  destruct (at_sea_level 1 0.1) as (rho & a & A & C1 & C2). pose proof A as (Ar & Aa & Hr & Ha).
  set (p := prop_with 2 0.5 0.1 30). set (m := 1 * 40 / a) in *. set (P := 0.1 * (rho * 20 ^ 3 * 2 ^ 5)) in *.
  destruct (efficiency_bounded p 2 0.5 0.1 1200 0 rho a m P eq_refl eq_refl eq_refl A ltac:(lra) ltac:(lra)) as (e & E & (E0 & E1) & E2).
  { rewrite C1, C2. exact ordinary_loading. }
  rewrite C1, C2 in E2. specialize (E2 eq_refl). pose proof ordinary_left as L.
  set (d := {| pi_pwr := Some (one_point 1200 0 P); pi_bsfc := None; pi_bsfc_pwr := None |}).
  assert (So : vsound_mps (isa 0) (VArr [Fin 0]) = Ok (VNum (Fin a))).
  { change [Fin 0] with (map Fin [0]). rewrite (sound_batch [0] [a]); [reflexivity|discriminate|]. constructor; [exists rho; exact A|constructor]. }
  assert (Sp : pi_shaftpower exact_grid d (VNum (Fin 1200)) (VArr [Fin 0]) = Ok (Some (VArr [Fin P]))).
  { change (pi_shaftpower exact_grid d (VNum (Fin 1200)) (VArr [Fin 0])) with (Ok (Some (VArr [exact_grid [Fin 1200] [Fin 0] [Fin P] (Fin 1200) (Fin 0)]))). rewrite exact_one. reflexivity. }
  assert (Pe : prop_efficiency [Fin m] [Fin 0] (Fin 1200) (PropellerObj p) (Some (VArr [Fin P])) = Ok ([Fin e], VArr [Fin (m * a)])).
  { unfold prop_efficiency. cbn [rbind]. change (entries (Some (VArr [Fin P]))) with (@Ok (list num) [Fin P]). cbn [rbind]. rewrite E. cbn [rbind]. rewrite So. cbn [rbind vop2 rmap map]. rewrite nmul_fin. reflexivity. }
  exists d, m, (Fin 1200), p. eexists. exists e, P. split; [repeat split; [discriminate|repeat constructor; lra]|].
  split; [unfold pi_thrust; cbn [recastasnpfloatarray]; rewrite Sp; cbn [rbind]; rewrite Pe; reflexivity|].
  split; [unfold el_thrust; cbn [recastasnpfloatarray]; rewrite Pe; reflexivity|]. split; [exact E|lra].
Qed.
Lemma piston_tsfc_case : exists d m rpm p r, no_extrapolation exact_grid /\ pi_pwr d = Some (one_point 2400 0 150000) /\
  conditions (VNum (Fin m)) (VNum (Fin 0)) [m] [0] /\ 0 < m <= 10 /\
  pi_tsfc exact_grid d (VNum (Fin m)) (VNum (Fin 0)) rpm (PropellerObj p) "economy" = Ok r.
Proof.
  exists {| pi_pwr := Some (one_point 2400 0 150000); pi_bsfc := Some (one_point 2400 150000 300); pi_bsfc_pwr := None |}, 0.2, (Fin 2400), (prop_with 2 0.5 0.1 30).
  set (d := {| pi_pwr := _; pi_bsfc := _; pi_bsfc_pwr := _ |}).
  destruct (air_below 0 ltac:(lra)) as (rho & a & A).
  assert (So : vsound_mps (isa 0) (VArr [Fin 0]) = Ok (VNum (Fin a))).
  { change [Fin 0] with (map Fin [0]). rewrite (sound_batch [0] [a]); [reflexivity|discriminate|]. constructor; [exists rho; exact A|constructor]. }
  set (w := exact_grid [Fin 2400] [Fin 0] [Fin 150000] (Fin 0.2) (Fin 0)).
  destruct (efficiency_elementwise (prop_with 2 0.5 0.1 30) [Fin 0.2] [0] [w] (Fin 2400) eq_refl eq_refl ltac:(discriminate) ltac:(repeat constructor; lra)) as (etas & E & Len & _).
  destruct etas as [|e [|? ?]]; try discriminate. cbn [map] in E.
  eexists. split; [exact exact_no_extrapolation|]. split; [reflexivity|]. split; [repeat split; [discriminate|repeat constructor; lra]|]. split; [lra|].
  unfold pi_tsfc. cbn [recastasnpfloatarray].
  change (pi_shaftpower exact_grid d (VArr [Fin 0.2]) (VArr [Fin 0])) with (Ok (Some (VArr [w]))). cbn [rbind].
  unfold prop_efficiency. cbn [rbind]. change (entries (Some (VArr [w]))) with (@Ok (list num) [w]). cbn [rbind]. rewrite E. cbn [rbind]. rewrite So. cbn [rbind vop2 rmap map snd fst some_val]. reflexivity.
Qed.
(** a table with every column any deck asks for, and a polynomial file *)
Definition wide_frame : frame := [("Mach Number", [Fin 0.1]); ("Altitude (m)", [Fin 0]); ("Thrust (N)", [Fin 9000]); ("TSFC (g/(kNs))", [Fin 20]);
  ("Power (W)", [Fin 150000]); ("BSFC (g/(kWh))", [Fin 300]); ("Speed (RPM)", [Fin 2400]); ("Torque (Nm)", [Fin 100]); ("Efficiency", [Fin 0.9])]%string.
Lemma decks_case : exists read_csv read_text parse,
  (exists d t q, jet_deck read_csv read_text parse "J52" jet_files = Ok d /\ jt_thr d = Some t /\ jt_sl d = Some q /\ tz t = [Fin 9000]) /\
  (exists d t, turboprop_deck read_csv read_text parse "T56-A" turboprop_files = Ok d /\ tp_pwr d = Some t /\ tz t = [Fin 150000]) /\
  (exists d t, piston_deck read_csv read_text parse "Wasp_Major_B13" piston_files = Ok d /\ pi_bsfc d = Some t /\ tz t = [Fin 300]) /\
  (exists d, electric_deck read_csv read_text parse "YASA_750R" electric_files = Ok (Some d) /\ tz (el_tab d) = [Fin 0.9]).
Proof.
  exists (fun _ => Ok wide_frame), (fun _ => Ok (String "010" ""%string)), (fun _ => Some (Fin 0)).
  split; [|split; [|split]]; repeat eexists; vm_compute; reflexivity.
Qed.
Lemma order_case : (forall k, In k ["thrust_data.csv"; "tsfc_data.csv"; "sea_level_thrust_polynomial.csv"; "sea_level_take_off_thrust_polynomial.csv"]%string ->
    at_most_one (serves "J52" k) jet_files) /\
  (forall k, In k ["thrust_data.csv"; "power_data.csv"; "bsfc_data.csv"]%string -> at_most_one (serves "T56-A" k) turboprop_files) /\
  (forall f, In f turboprop_files -> ~ occurs "polynomial" (lowercase f)) /\
  (forall k, In k ["power_data.csv"; "bsfc_data.csv"; "bsfc_best_power_data.csv"]%string -> at_most_one (serves "Wasp_Major_B13" k) piston_files) /\
  (forall f, In f piston_files -> ~ occurs "polynomial" (lowercase f)) /\
  (forall k, In k ["efficiency_data.csv"; "_data.csv"]%string -> at_most_one (serves "JMX57" k) electric_files) /\
  (forall f, In f electric_files -> ~ occurs "polynomial" (lowercase f)).
Proof.
  split; [|split; [|split; [|split; [|split; [|split]]]]]; try (apply no_polynomials; vm_compute; reflexivity);
    intros k I; repeat (destruct I as [<-|I]; [apply at_most_one_check; vm_compute; reflexivity|]); destruct I.
Qed.
Lemma shapes_case : exists p rpm q etas, efficiency p [Fin 0.2; Fin 0.3] [Fin 0; Fin 1000] [Fin 100000; Fin 120000] rpm = Ok (q, etas) /\ List.length etas = 2%nat.
Proof.
  destruct (efficiency_elementwise (prop_with 2 0.5 0.1 30) [Fin 0.2; Fin 0.3] [0; 1000] [Fin 100000; Fin 120000] (Fin 1200) eq_refl eq_refl
    ltac:(discriminate) ltac:(repeat constructor; lra)) as (etas & E & Len & _).
  do 3 eexists. exists etas. split; [exact E|exact Len].
Qed.
