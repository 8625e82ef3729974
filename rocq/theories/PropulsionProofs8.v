(** Engine decks outside their tables, normalisation, and the ansatz propeller. *)
From Verif Require Import Base BaseFacts AtmosModel AtmosSpec AtmosProofs ConceptModel ConceptProofs PropulsionModel PropulsionSpec PropulsionProofs PropulsionProofs5 PropulsionProofs6 PropulsionProofs7.
Open Scope R_scope.

(** ** Outside the tables *)
Lemma hull_bound xs ys c x y : (forall r, In (Fin r) xs -> c < r) -> x <= c -> ~ in_hull xs ys x y.
Proof.
  intros H Hx (w & F & S1 & S2 & _).
  assert (K : c * fold_right (fun p s => fst p + s) 0 w <= fold_right (fun p s => fst p * fst (snd p) + s) 0 w /\
    (0 < fold_right (fun p s => fst p + s) 0 w -> c * fold_right (fun p s => fst p + s) 0 w < fold_right (fun p s => fst p * fst (snd p) + s) 0 w)).
  { clear S1 S2. induction F as [|p w (Hp & Hin) F (I1 & I2)]; [cbn; lra|]. cbn [fold_right].
    apply in_combine_l in Hin. apply H in Hin. split; [nra|]. intros P.
    destruct (Rle_lt_or_eq_dec 0 (fst p) Hp) as [L|E]; [nra|]. rewrite <- E in *. apply Rplus_lt_reg_l with 0. assert (0 < fold_right (fun p s => fst p + s) 0 w) by lra. specialize (I2 H0). lra. }
  destruct K as (_ & K). rewrite S1, S2 in K. specialize (K ltac:(lra)). lra.
Qed.
Section Grid.
Variable grid : list num -> list num -> list num -> num -> num -> num.
Hypothesis NE : no_extrapolation grid.
Lemma grid_outside_nth t ms hs i m h : List.length ms = List.length hs -> nth_error ms i = Some m -> nth_error hs i = Some h -> ~ in_hull (tx t) (ty t) m h ->
  nth_error (map2 (grid (tx t) (ty t) (tz t)) (map Fin ms) (map Fin hs)) i = Some NonFin.
Proof.
  intros L Hm Hh N. rewrite (map2_nth _ _ _ i (Fin m) (Fin h)); [|rewrite nth_error_map, Hm; reflexivity|rewrite nth_error_map, Hh; reflexivity].
  f_equal. apply NE. exact N.
Qed.
Lemma jet_outside d t ms hs : jt_thr d = Some t -> List.length ms = List.length hs ->
  exists ts, jt_thrust grid d (VArr (map Fin ms)) (VArr (map Fin hs)) = Ok (Some (VArr ts)) /\ List.length ts = List.length ms /\
    forall i m h, nth_error ms i = Some m -> nth_error hs i = Some h -> ~ in_hull (tx t) (ty t) m h -> nth_error ts i = Some NonFin.
Proof.
  intros E L. unfold jt_thrust. rewrite E. rewrite query_arr by (rewrite !map_length; exact L). eexists. split; [reflexivity|].
  split; [rewrite map2_length; rewrite !map_length; lia|]. intros i m h. apply grid_outside_nth. exact L.
Qed.
Lemma jet_outside_one d t m h : jt_thr d = Some t -> ~ in_hull (tx t) (ty t) m h -> jt_thrust grid d (VNum (Fin m)) (VNum (Fin h)) = Ok (Some (VNum NonFin)).
Proof. intros E N. unfold jt_thrust. rewrite E. cbn [query grid_table toarr vop2 rmap]. destruct NE as (N0 & _). rewrite N0 by exact N. reflexivity. Qed.
Lemma turboprop_outside d t mach alt ms hs rpm prop r : tp_pwr d = Some t -> conditions mach alt ms hs ->
  tp_thrust grid d mach alt rpm prop = Ok r -> exists us, r = VArr us /\
    forall i m h, nth_error ms i = Some m -> nth_error hs i = Some h -> ~ in_hull (tx t) (ty t) m h -> nth_error us i = Some NonFin.
Proof.
  intros Ht C E. destruct (turboprop_thrust grid d mach alt ms hs rpm prop r C E) as (hots & ts & us & Eh & Ec & -> & Lu & B).
  exists us. split; [reflexivity|]. intros i m h Hm Hh N.
  destruct (turboprop_cold grid d mach alt ms hs rpm prop (VArr ts) C Ec) as (Ws & p & q & etas & ts' & EW & _ & _ & Et & _ & K). injection Et as <-.
  pose proof C as (Rm & Rh & Ne & L & F). assert (L' : List.length (map Fin ms) = List.length (map Fin hs)) by (rewrite !map_length; exact L).
  unfold tp_shaftpower in EW. rewrite Ht, query_arr in EW by exact L'. injection EW as <-.
  specialize (K i (grid_outside_nth t ms hs i m h L Hm Hh N)).
  unfold tp_hotthrust in Eh. destruct (tp_thr d) as [th|]; [|discriminate]. rewrite query_arr in Eh by exact L'. injection Eh as <-.
  assert (Hx : exists x, nth_error (map2 (grid (tx th) (ty th) (tz th)) (map Fin ms) (map Fin hs)) i = Some x).
  { apply (nth_error_same ms _ i m); [rewrite map2_length by exact L'; rewrite map_length; exact L|exact Hm]. }
  destruct Hx as (x & Hx). rewrite (B i x NonFin Hx K), nadd_nan_r. reflexivity.
Qed.
(** without a propeller the sizing fails instead *)
Lemma turboprop_outside_ansatz d t mach alt ms hs rpm i m h : tp_pwr d = Some t -> conditions mach alt ms hs ->
  nth_error ms i = Some m -> nth_error hs i = Some h -> ~ in_hull (tx t) (ty t) m h ->
  tp_coldthrust grid d mach alt rpm PropellerNone = Err ValueError.
Proof.
  intros Ht (Rm & Rh & Ne & L & F) Hm Hh N. unfold tp_coldthrust, tp_shaftpower. rewrite Rm, Rh, Ht.
  rewrite query_arr by (rewrite !map_length; exact L). cbn [rbind]. unfold prop_efficiency. cbn [averaged recastasnpfloatarray].
  assert (Nh : hs <> []) by (destruct hs; [destruct ms; [congruence|discriminate]|discriminate]).
  rewrite (ansatz_nan blank_propeller (map Fin ms) (map Fin hs) rpm _ (mean hs)); [reflexivity|apply average_fin; exact Nh|apply mean_bound; assumption|].
  apply (nth_error_In _ i). apply (grid_outside_nth t ms hs i m h L Hm Hh N).
Qed.
(** ** PistonDeck.tsfc *)
Lemma piston_tsfc_nan d t mach alt ms hs rpm prop best r : pi_pwr d = Some t -> conditions mach alt ms hs ->
  (forall x, In (Fin x) (tx t) -> 10 < x) -> Forall (fun m => m <= 10) ms ->
  pi_tsfc grid d mach alt rpm prop best = Ok r -> exists ss, r = VArr ss /\ List.length ss = List.length ms /\ Forall (fun s => s = NonFin) ss.
Proof.
  intros Ht (Rm & Rh & Ne & L & F) Hx Hm. unfold pi_tsfc, pi_shaftpower. rewrite Rm, Rh, Ht.
  assert (L' : List.length (map Fin ms) = List.length (map Fin hs)) by (rewrite !map_length; exact L).
  rewrite query_arr by exact L'. cbn [rbind]. set (Ws := map2 (grid (tx t) (ty t) (tz t)) (map Fin ms) (map Fin hs)).
  assert (LW : List.length Ws = List.length hs) by (unfold Ws; rewrite map2_length by exact L'; apply map_length).
  assert (HW : Forall (fun w => w = NonFin) Ws).
  { unfold Ws. clear -NE Hx Hm L. revert hs L. induction Hm as [|m ms H Hm IH]; intros [|h hs] L; try discriminate; [constructor|]. constructor; [|apply IH; cbn in L; lia].
    cbn [fst snd]. apply NE. apply (hull_bound _ _ 10); assumption. }
  destruct (prop_efficiency _ _ _ _ _) as [ev|] eqn:E; [|discriminate]. cbn [rbind some_val].
  destruct (prop_efficiency_cases _ _ _ _ _ _ Ne L LW F E) as (p & q & ss & U & Ef & Le & A2 & S). rewrite S.
  assert (HB : pi_bsfc_at grid d (VNum rpm) (VArr Ws) best = Ok None \/
     exists bs, pi_bsfc_at grid d (VNum rpm) (VArr Ws) best = Ok (Some (VArr bs)) /\ List.length bs = List.length hs /\ Forall (fun w => w = NonFin) bs).
  { assert (Q : forall o, query grid o (VNum rpm) (VArr Ws) = Ok None \/ exists bs, query grid o (VNum rpm) (VArr Ws) = Ok (Some (VArr bs)) /\ List.length bs = List.length hs /\ Forall (fun w => w = NonFin) bs).
    { intros [tb|]; [right|left; reflexivity]. eexists. split; [reflexivity|]. split; [rewrite map_length; exact LW|].
      clear -NE HW. induction HW as [|w Ws -> H IH]; constructor; [apply NE|exact IH]. }
    unfold pi_bsfc_at. destruct (String.eqb best "economy"); [apply Q|]. destruct (String.eqb best "power"); [apply Q|left; reflexivity]. }
  destruct HB as [HB|(bs & HB & Lb & Fb)]; rewrite HB; [discriminate|]. cbn [rbind]. unfold tsfc_of. cbn [some_val rbind toarr vlit].
  pose proof (Forall2_length _ _ _ A2) as Lf.
  assert (Lv : List.length (map2 nmul (map Fin ms) (map Fin ss)) = List.length hs) by (rewrite map2_length; rewrite !map_length; lia).
  rewrite vop2_arr by (rewrite map_length; lia). cbn [rbind].
  rewrite vop2_arr by (rewrite map2_length; [lia|rewrite map_length; lia]). intros [= <-]. eexists. split; [reflexivity|].
  split; [rewrite map2_length; [lia|]; rewrite map2_length; [lia|rewrite map_length; lia]|].
  rewrite Forall_forall. intros x Hin. unfold map2 at 1 in Hin. rewrite in_map_iff in Hin. destruct Hin as ((u & e) & <- & Hin).
  apply in_combine_l in Hin. unfold map2 at 1 in Hin. rewrite in_map_iff in Hin. destruct Hin as ((b & v) & <- & Hin). apply in_combine_l in Hin.
  rewrite in_map_iff in Hin. destruct Hin as (b0 & <- & Hb). rewrite Forall_forall in Fb. rewrite (Fb b0 Hb). reflexivity.
Qed.
End Grid.

(** ** Normalised decks *)
Lemma pymax_fin z r : exists M, pymaxn (map Fin (z :: r)) = Ok (Fin M) /\ In M (z :: r) /\ forall x, In x (z :: r) -> x <= M.
Proof.
  cbn [map pymaxn]. revert z. induction r as [|y r IH]; intros z; cbn [map fold_left].
  - exists z. split; [reflexivity|]. split; [left; reflexivity|]. intros x [->|[]]. lra.
  - rewrite nltb_fin. destruct (Rltb_reflect z y) as [H|H].
    + destruct (IH y) as (M & E & I & B). exists M. split; [exact E|]. split; [right; exact I|].
      intros x [->|Hx]; [|apply B; exact Hx]. specialize (B y (or_introl eq_refl)). lra.
    + destruct (IH z) as (M & E & I & B). exists M. split; [exact E|]. split; [destruct I as [->|I]; [left; reflexivity|right; right; exact I]|].
      intros x [->|[->|Hx]]; [apply B; left; reflexivity| |apply B; right; exact Hx]. specialize (B z (or_introl eq_refl)). lra.
Qed.
Lemma normalised_arr t zs vs : tz t = map Fin zs -> zs <> [] -> exists M, largest zs M /\
  forall vals, vs = VArr vals -> normalised (Some vs) (Some t) = Ok (VArr (map (fun x => (x / Fin M)%num) vals)).
Proof.
  intros E Ne. destruct zs as [|z r]; [congruence|]. destruct (pymax_fin z r) as (M & P & I & B). exists M. split; [split; assumption|].
  intros vals ->. unfold normalised. rewrite E, P. reflexivity.
Qed.
Lemma normalised_num t zs v : tz t = map Fin zs -> zs <> [] -> exists M, largest zs M /\
  normalised (Some (VNum v)) (Some t) = Ok (VNum (v / Fin M)%num).
Proof.
  intros E Ne. destruct zs as [|z r]; [congruence|]. destruct (pymax_fin z r) as (M & P & I & B). exists M. split; [split; assumption|].
  unfold normalised. rewrite E, P. reflexivity.
Qed.
Lemma largest_unique zs M M' : largest zs M -> largest zs M' -> M = M'.
Proof. intros (A & B) (C & D). apply Rle_antisym; auto. Qed.

(** ** The ansatz propeller *)
Lemma Rpower_quarter x : 0 < x -> Rpower x 0.25 ^ 4 = x.
Proof. intros H. rewrite <- Rpower_pow by apply exp_pos. rewrite Rpower_mult. replace (0.25 * INR 4) with 1 by (cbn [INR]; lra). apply Rpower_1, H. Qed.
Lemma Rpower_half x : 0 < x -> Rpower x 0.5 ^ 2 = x.
Proof. intros H. rewrite <- Rpower_pow by apply exp_pos. rewrite Rpower_mult. replace (0.5 * INR 2) with 1 by (cbn [INR]; lra). apply Rpower_1, H. Qed.
Lemma pymin2_fin a b : pymin2 (Fin a) (Fin b) = Fin (Rmin a b).
Proof. unfold pymin2. rewrite nltb_fin. destruct (Rltb_reflect b a); f_equal; [rewrite Rmin_right; lra|rewrite Rmin_left; lra]. Qed.

Record sized := { z_D : R; z_blades : Z; z_af : R; z_sol : R; z_cl : R }.
Definition sized_prop (p : propeller) (z : sized) : propeller :=
  {| diameter_m := Some (Fin (z_D z)); bladecount := Some (Fin (IZR (z_blades z))); bladeactivityfact := Some (Fin (z_af z));
     solidity := Some (Fin (z_sol z)); idesign_cl := Some (Fin (z_cl z)); solve_dp := solve_dp p; solve_maxiter := solve_maxiter p |}.
Section Ansatz.
Variables m h rho a rpm P : R.
Hypothesis Air : standard_air h rho a.
Hypothesis Hm : 0 < m < 0.8.
Hypothesis Hrpm : 0 < rpm.
Hypothesis HP : 0 < P.
Let n := rpm / 60.
Let V := m * a.
Let q := P / (V * rho * n ^ 2).
Lemma a_pos : 0 < rho /\ 0 < a. Proof. destruct Air as (_ & _ & A & B). split; assumption. Qed.
Lemma V_pos : 0 < V. Proof. unfold V. pose proof a_pos. nra. Qed.
Lemma n_pos : 0 < n. Proof. unfold n. lra. Qed.
Lemma q_pos : 0 < q.
Proof. unfold q. pose proof a_pos. pose proof V_pos. pose proof n_pos. apply Rdiv_lt_0_compat; [lra|]. apply Rmult_lt_0_compat; [nra|apply pow_lt; lra]. Qed.
Definition z_tip : R := Rpower ((0.8 * a) ^ 2 - (m * a) ^ 2) 0.5.
Lemma tip_arg : 0 < (0.8 * a) ^ 2 - (m * a) ^ 2.
Proof. pose proof a_pos as (_ & Ha). replace ((0.8 * a) ^ 2 - (m * a) ^ 2) with ((0.8 - m) * (0.8 + m) * (a * a)) by ring. apply Rmult_lt_0_compat; [apply Rmult_lt_0_compat; lra|nra]. Qed.
Definition z_limit : R := z_tip / (rpm / 60 * PI / 2).
Definition z_best : R := 0.2 * Rpower (3.2 ^ 3 * q) 0.25 + 0.8 * Rpower (2.4 ^ 3 * q) 0.25.
Definition z_diam : R := Rmin z_best z_limit.
Lemma z_limit_pos : 0 < z_limit.
Proof. unfold z_limit. pose proof PI_RGT_0. apply Rdiv_lt_0_compat; [apply exp_pos|]. apply Rdiv_lt_0_compat; [apply Rmult_lt_0_compat; lra|lra]. Qed.
Lemma z_diam_pos : 0 < z_diam.
Proof. unfold z_diam, z_best. pose proof z_limit_pos. apply Rmin_pos; [|assumption]. pose proof (exp_pos (0.25 * ln (3.2 ^ 3 * q))). pose proof (exp_pos (0.25 * ln (2.4 ^ 3 * q))). unfold Rpower. lra. Qed.
Definition z_cp : R := power_coefficient P rho n z_diam.
Lemma z_cp_pos : 0 < z_cp.
Proof.
  unfold z_cp, power_coefficient. pose proof a_pos. pose proof n_pos. pose proof z_diam_pos. apply Rdiv_lt_0_compat; [lra|].
  apply Rmult_lt_0_compat; [apply Rmult_lt_0_compat; [lra|]|]; apply pow_lt; lra.
Qed.
Definition z_total : R := 1000 * Rpower (z_cp / 0.3) 0.8.
Lemma z_total_pos : 0 < z_total. Proof. unfold z_total, Rpower. pose proof (exp_pos (0.8 * ln (z_cp / 0.3))). lra. Qed.
Definition z_count : Z := Z.max (nearest (if Rltb z_total 400 then z_total / 133 else z_total / 120)) 2.
Lemma z_count_two : (2 <= z_count)%Z. Proof. unfold z_count. lia. Qed.
Definition z_solid : R := 128 * IZR z_count * (z_total / IZR z_count) / (100000 * PI).
Definition z_lift : R := P / V / (0.5 * rho * V ^ 2 * (PI * (z_diam / 2) ^ 2 * z_solid)).
Definition z_all : sized := {| z_D := z_diam; z_blades := z_count; z_af := z_total / IZR z_count; z_sol := z_solid; z_cl := z_lift |}.
Lemma z_solid_pos : 0 < z_solid.
Proof.
  unfold z_solid. pose proof z_total_pos. pose proof PI_RGT_0. pose proof z_count_two as C. apply IZR_le in C.
  apply Rdiv_lt_0_compat; [|lra]. apply Rmult_lt_0_compat; [lra|apply Rdiv_lt_0_compat; lra].
Qed.
Lemma z_area_pos : 0 < 0.5 * rho * V ^ 2 * (PI * (z_diam / 2) ^ 2 * z_solid).
Proof.
  pose proof a_pos. pose proof V_pos. pose proof z_diam_pos. pose proof z_solid_pos. pose proof PI_RGT_0.
  apply Rmult_lt_0_compat; [apply Rmult_lt_0_compat; [lra|apply pow_lt; lra]|]. apply Rmult_lt_0_compat; [apply Rmult_lt_0_compat; [lra|apply pow_lt; lra]|lra].
Qed.
Lemma ansatz_value p ms hs Ws : average ms = Fin m -> average hs = Fin h -> average Ws = Fin P ->
  ansatzprop p ms hs (Fin rpm) Ws = Ok (sized_prop p z_all).
Proof.
  intros Em Eh Ew. unfold ansatzprop. rewrite Em, Eh, Ew. rewrite (vsound_at_air _ _ _ Air). cbn [rbind]. rewrite (airdens_at_air _ _ _ Air). cbn [rbind].
  pose proof a_pos as (Hr & Ha). pose proof V_pos as HV. pose proof n_pos as Hn. pose proof PI_RGT_0 as HPI. pose proof q_pos as Hq.
  rewrite (ndiv_fin rpm 60) by lra. rewrite !npown_fin, !nmul_fin. fold n V. rewrite (ndiv_fin P V) by lra.
  rewrite (ndiv_fin P (V * rho * n ^ 2)) by (apply Rgt_not_eq, Rmult_lt_0_compat; [nra|apply pow_lt; lra]). fold q.
  rewrite !nmul_fin. rewrite (npow_fin (3.2 ^ 3 * q)) by lra. rewrite (npow_fin (2.4 ^ 3 * q)) by lra.
  rewrite !npown_fin. rewrite nsub_fin. change ((0.8 * a) ^ 2 - V ^ 2) with ((0.8 * a) ^ 2 - (m * a) ^ 2). rewrite (npow_fin ((0.8 * a) ^ 2 - (m * a) ^ 2)) by exact tip_arg. fold z_tip.
  rewrite (ndiv_fin (n * PI) 2) by lra. rewrite (ndiv_fin z_tip) by (assert (0 < n * PI / 2) by (apply Rdiv_lt_0_compat; [nra|lra]); lra).
  rewrite !nmul_fin, nadd_fin. change (z_tip / (n * PI / 2)) with z_limit. rewrite pymin2_fin. fold z_best. fold z_diam.
  pose proof z_diam_pos as HD. unfold ansatz_cpower. rewrite !npown_fin, !nmul_fin.
  rewrite (ndiv_fin P (rho * n ^ 3 * z_diam ^ 5)) by (apply Rgt_not_eq; apply Rmult_lt_0_compat; [apply Rmult_lt_0_compat; [lra|]|]; apply pow_lt; lra).
  change (P / (rho * n ^ 3 * z_diam ^ 5)) with z_cp. pose proof z_cp_pos as HC. rewrite (ndiv_fin z_cp) by lra. rewrite npow_fin by lra. rewrite nmul_fin. fold z_total.
  rewrite nltb_fin. rewrite (ndiv_fin z_total 133), (ndiv_fin z_total 120) by lra.
  assert (I : int_round (if Rltb z_total 400 then Fin (z_total / 133) else Fin (z_total / 120)) = Ok (nearest (if Rltb z_total 400 then z_total / 133 else z_total / 120))) by (destruct (Rltb z_total 400); reflexivity).
  rewrite I. cbn [rbind]. fold z_count. pose proof z_count_two as C2. apply IZR_le in C2. rewrite (ndiv_fin z_total) by lra. rewrite !nmul_fin.
  rewrite (ndiv_fin _ (100000 * PI)) by lra. fold z_solid. rewrite (ndiv_fin z_diam 2) by lra. rewrite npown_fin, !nmul_fin.
  pose proof z_area_pos. rewrite (ndiv_fin (P / V)) by lra. fold z_lift. reflexivity.
Qed.
(** diameter *)
Lemma z_best_range : Rpower (2.4 ^ 3 * q) 0.25 <= z_best <= Rpower (3.2 ^ 3 * q) 0.25.
Proof.
  pose proof q_pos as Hq. assert (L : Rpower (2.4 ^ 3 * q) 0.25 <= Rpower (3.2 ^ 3 * q) 0.25) by (apply Rle_Rpower_l; [lra|split; lra]). unfold z_best. lra.
Qed.
Lemma z_loading : let J := advance_ratio V n z_diam in J / z_cp = z_diam ^ 4 / q.
Proof.
  cbv zeta. unfold advance_ratio, z_cp, power_coefficient, q. pose proof a_pos. pose proof V_pos. pose proof n_pos. pose proof z_diam_pos.
  field. repeat split; try (apply Rgt_not_eq; lra).
Qed.
Lemma z_upper : advance_ratio V n z_diam / z_cp <= 3.2 ^ 3.
Proof.
  rewrite z_loading. pose proof q_pos as Hq. pose proof z_diam_pos. pose proof z_best_range as (_ & B).
  assert (D4 : z_diam ^ 4 <= 3.2 ^ 3 * q).
  { rewrite <- (Rpower_quarter (3.2 ^ 3 * q)) by lra. apply pow_incr. split; [lra|]. eapply Rle_trans; [apply Rmin_l|exact B]. }
  apply Rmult_le_reg_r with q; [exact Hq|]. unfold Rdiv. rewrite Rmult_assoc, Rinv_l by lra. lra.
Qed.
Lemma z_lower : z_diam <> z_limit -> 2.4 ^ 3 <= advance_ratio V n z_diam / z_cp.
Proof.
  intros N. rewrite z_loading. pose proof q_pos as Hq. pose proof z_best_range as (B & _).
  assert (E : z_diam = z_best). { unfold z_diam in *. destruct (Rle_dec z_best z_limit); [apply Rmin_left; assumption|]. rewrite Rmin_right in N by lra. congruence. }
  assert (D4 : 2.4 ^ 3 * q <= z_diam ^ 4).
  { rewrite <- (Rpower_quarter (2.4 ^ 3 * q)) by lra. apply pow_incr. rewrite E. split; [apply Rlt_le, exp_pos|exact B]. }
  apply Rmult_le_reg_r with q; [exact Hq|]. unfold Rdiv. rewrite Rmult_assoc, Rinv_l by lra. lra.
Qed.
Lemma z_tip_half : V ^ 2 + (PI * n * z_diam / 2) ^ 2 <= (0.8 * a) ^ 2 /\ (z_diam = z_limit -> V ^ 2 + (PI * n * z_diam / 2) ^ 2 = (0.8 * a) ^ 2).
Proof.
  pose proof PI_RGT_0. pose proof n_pos. pose proof z_diam_pos. pose proof z_limit_pos.
  assert (E : V ^ 2 + (PI * n * z_limit / 2) ^ 2 = (0.8 * a) ^ 2).
  { unfold z_limit. fold n. replace (PI * n * (z_tip / (n * PI / 2)) / 2) with z_tip by (field; split; lra). unfold z_tip. rewrite Rpower_half by exact tip_arg. unfold V. ring. }
  split; [|intros ->; exact E]. rewrite <- E. apply Rplus_le_compat_l. apply pow_incr. assert (z_diam <= z_limit) by apply Rmin_r.
  assert (K : 0 < PI * n) by nra. split; [apply Rlt_le, Rdiv_lt_0_compat; nra|]. unfold Rdiv. apply Rmult_le_compat_r; [lra|]. apply Rmult_le_compat_l; lra.
Qed.
End Ansatz.
