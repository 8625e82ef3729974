(** Proofs of the properties of the demonstration plots. *)
From Coq Require Import Lra Lia.
From Verif Require Import Base BaseFacts AtmosModel ConceptModel PropulsionModel PropulsionProofs7 DemoModel DemoSpec.
Open Scope R_scope.

Lemma plottable_dec l : plottable l \/ ~ plottable l.
Proof. apply Classical_Prop.classic. Qed.

Lemma min_fold r a : exists b, fold_left (fun m y => if (y <? m)%num then y else m) r (Fin a) = Fin b
  /\ b <= a /\ (b = a \/ In (Fin b) r) /\ forall x, In (Fin x) r -> b <= x.
Proof.
  revert a. induction r as [|y r IH]; intros a; cbn [fold_left].
  - exists a. split; [reflexivity|]. split; [lra|]. split; [left; reflexivity|intros x []].
  - destruct y as [y|].
    + destruct (Fin y <? Fin a)%num eqn:E.
      * apply (proj1 (Rltb_iff _ _)) in E. destruct (IH y) as (b & -> & B & I & M). exists b. split; [reflexivity|]. split; [lra|]. split.
        { right. destruct I as [->|I]; [left; reflexivity|right; exact I]. }
        intros x [[= <-]|H]; [exact B|apply M, H].
      * apply (proj1 (Rltb_nlt _ _)) in E. destruct (IH a) as (b & -> & B & I & M). exists b. split; [reflexivity|]. split; [lra|]. split.
        { destruct I as [->|I]; [left; reflexivity|right; right; exact I]. }
        intros x [[= <-]|H]; [lra|apply M, H].
    + assert (N : (NonFin <? Fin a)%num = false) by reflexivity. rewrite N.
      destruct (IH a) as (b & -> & B & I & M). exists b. split; [reflexivity|]. split; [lra|]. split.
      { destruct I as [->|I]; [left; reflexivity|right; right; exact I]. }
      intros x [[=]|H]; apply M, H.
Qed.
Lemma max_fold r a : exists b, fold_left (fun m y => if (m <? y)%num then y else m) r (Fin a) = Fin b
  /\ a <= b /\ (b = a \/ In (Fin b) r) /\ forall x, In (Fin x) r -> x <= b.
Proof.
  revert a. induction r as [|y r IH]; intros a; cbn [fold_left].
  - exists a. split; [reflexivity|]. split; [lra|]. split; [left; reflexivity|intros x []].
  - destruct y as [y|].
    + destruct (Fin a <? Fin y)%num eqn:E.
      * apply (proj1 (Rltb_iff _ _)) in E. destruct (IH y) as (b & -> & B & I & M). exists b. split; [reflexivity|]. split; [lra|]. split.
        { right. destruct I as [->|I]; [left; reflexivity|right; exact I]. }
        intros x [[= <-]|H]; [exact B|apply M, H].
      * apply (proj1 (Rltb_nlt _ _)) in E. destruct (IH a) as (b & -> & B & I & M). exists b. split; [reflexivity|]. split; [lra|]. split.
        { destruct I as [->|I]; [left; reflexivity|right; right; exact I]. }
        intros x [[= <-]|H]; [lra|apply M, H].
    + assert (N : (Fin a <? NonFin)%num = false) by reflexivity. rewrite N.
      destruct (IH a) as (b & -> & B & I & M). exists b. split; [reflexivity|]. split; [lra|]. split.
      { destruct I as [->|I]; [left; reflexivity|right; right; exact I]. }
      intros x [[=]|H]; apply M, H.
Qed.
Lemma min_nan r : fold_left (fun m y => if (y <? m)%num then y else m) r NonFin = NonFin.
Proof. induction r as [|y r IH]; [reflexivity|]. cbn [fold_left]. destruct y; exact IH. Qed.
Lemma max_nan r : fold_left (fun m y => if (m <? y)%num then y else m) r NonFin = NonFin.
Proof. induction r as [|y r IH]; [reflexivity|]. cbn [fold_left]. destruct y; exact IH. Qed.

(** the three cases of a column *)
Lemma column l : (l = [] /\ pyminn l = Err ValueError)
  \/ (pyminn l = Ok NonFin /\ pymaxn l = Ok NonFin /\ ~ plottable l)
  \/ exists a b, pyminn l = Ok (Fin a) /\ pymaxn l = Ok (Fin b) /\ extremes l a b /\ (plottable l -> a < b) /\ (~ plottable l -> a = b).
Proof.
  destruct l as [|[x|] r].
  - left. split; reflexivity.
  - right. right. unfold pyminn, pymaxn.
    destruct (min_fold r x) as (a & -> & A1 & A2 & A3). destruct (max_fold r x) as (b & -> & B1 & B2 & B3).
    exists a, b. split; [reflexivity|]. split; [reflexivity|]. split; [|split].
    + split; [|split].
      * destruct A2 as [->|A2]; [left; reflexivity|right; exact A2].
      * destruct B2 as [->|B2]; [left; reflexivity|right; exact B2].
      * intros y [[= <-]|H]; [lra|]. split; [apply A3, H|apply B3, H].
    + intros (p & q & s & [= -> ->] & I & N). specialize (A3 q I). specialize (B3 q I). lra.
    + intros P. assert (F : forall y, In (Fin y) r -> y = x).
      { intros y I. destruct (Req_dec y x) as [E|E]; [exact E|]. destruct P. exists x, y, r. split; [reflexivity|]. split; assumption. }
      destruct A2 as [->|A2], B2 as [->|B2]; try apply F in A2; try apply F in B2; lra.
  - right. left. unfold pyminn, pymaxn. rewrite min_nan, max_nan. split; [reflexivity|]. split; [reflexivity|].
    intros (a & q & s & [=] & _).
Qed.

Lemma ceil_1001 : ceil 1001 = 1001%Z.
Proof. unfold ceil. replace (up (- (1001))) with (-1000)%Z; [reflexivity|]. apply tech_up; lra. Qed.

Definition axis_points (a b : R) : list num := map (fun k => Fin (a + INR k / 1000 * (b - a))) (seq 0 1001).
Lemma axis a b : a < b -> mgrid_axis (Fin a) (Fin b + (Fin b - Fin a) / #1000)%num ((Fin b - Fin a) / #1000)%num = Ok (axis_points a b).
Proof.
  intros L. unfold mgrid_axis. rewrite nsub_fin, ndiv_fin by lra. rewrite nadd_fin, nsub_fin, ndiv_fin by lra.
  replace ((b + (b - a) / 1000 - a) / ((b - a) / 1000)) with 1001 by (field; lra). rewrite ceil_1001.
  replace (Z.to_nat 1001) with 1001%nat by reflexivity. f_equal. unfold axis_points. apply map_ext. intros k. rewrite nmul_fin, nadd_fin. f_equal. field.
Qed.
Lemma axis_flat a : mgrid_axis (Fin a) (Fin a + (Fin a - Fin a) / #1000)%num ((Fin a - Fin a) / #1000)%num = Err ValueError.
Proof.
  unfold mgrid_axis. rewrite nsub_fin, ndiv_fin by lra. rewrite nadd_fin, nsub_fin.
  replace ((a - a) / 1000) with 0 by field. rewrite ndiv_zero. reflexivity.
Qed.
Lemma axis_nan : mgrid_axis NonFin (NonFin + (NonFin - NonFin) / #1000)%num ((NonFin - NonFin) / #1000)%num = Err ValueError.
Proof. reflexivity. Qed.
Lemma axis_evenly a b : evenly a b (axis_points a b).
Proof.
  unfold evenly, axis_points. split; [rewrite map_length, seq_length; reflexivity|]. intros k K.
  rewrite nth_error_map. rewrite (nth_error_nth' _ 0%nat) by (rewrite seq_length; lia). rewrite seq_nth by lia. reflexivity.
Qed.

Lemma prod_nth {A B} (xs : list A) (ys : list B) i j x y : nth_error xs i = Some x -> nth_error ys j = Some y ->
  nth_error (list_prod xs ys) (List.length ys * i + j) = Some (x, y).
Proof.
  intros Hx Hy. assert (J : (j < List.length ys)%nat) by (apply nth_error_Some; congruence).
  revert i Hx. induction xs as [|x0 xs IH]; intros [|i] Hx; try discriminate; cbn [nth_error] in Hx.
  - injection Hx as <-. rewrite Nat.mul_0_r, Nat.add_0_l. cbn [list_prod]. rewrite nth_error_app1 by (rewrite map_length; exact J).
    rewrite nth_error_map, Hy. reflexivity.
  - cbn [list_prod]. rewrite nth_error_app2 by (rewrite map_length; lia). rewrite map_length.
    replace (List.length ys * S i + j - List.length ys)%nat with (List.length ys * i + j)%nat by lia. apply IH, Hx.
Qed.

(** what the functions that are plotted do on arrays *)
Definition pointwise (func : val -> val -> res (option val)) (g : num -> num -> num) : Prop :=
  forall p : list (num * num), func (VArr (map fst p)) (VArr (map snd p)) = Ok (Some (VArr (map (fun q => g (fst q) (snd q)) p))).

Lemma map2_pairs (f : num -> num -> num) (p : list (num * num)) : map2 f (map fst p) (map snd p) = map (fun q => f (fst q) (snd q)) p.
Proof.
  unfold map2. f_equal. induction p as [|[q1 q2] p IH]; [reflexivity|]. cbn [map combine fst snd]. rewrite IH. reflexivity.
Qed.
Lemma query_pointwise grid t : pointwise (query grid (Some t)) (grid (tx t) (ty t) (tz t)).
Proof. intros p. rewrite query_arr by (rewrite !map_length; reflexivity). rewrite map2_pairs. reflexivity. Qed.

Lemma demo_draws t func g xl yl zl title : pointwise func g ->
  draws (do lim <- limits (Some t); rmap Some (demo_plot lim func xl yl zl title)) t g xl yl zl title.
Proof.
  intros P. unfold limits, draws.
  destruct (column (tx t)) as [[-> ->]|[(-> & -> & Nx)|(a & b & -> & -> & Ex & Px & Fx)]].
  { split; [intros (p & q & r & [=] & _)|reflexivity]. }
  { cbn [rbind]. destruct (column (ty t)) as [[-> ->]|[(-> & -> & Ny)|(c & d & -> & -> & Ey & Py & Fy)]];
    (split; [intros Q; contradiction|intros _; cbn [rbind]; try reflexivity]). }
  cbn [rbind].
  destruct (column (ty t)) as [[-> ->]|[(-> & -> & Ny)|(c & d & -> & -> & Ey & Py & Fy)]].
  { split; [intros _ (p & q & r & [=] & _)|reflexivity]. }
  { split; [intros _ Q; contradiction|intros _]. cbn [rbind]. unfold demo_plot. destruct (plottable_dec (tx t)) as [K|K].
    - rewrite axis by apply Px, K. reflexivity.
    - rewrite (Fx K). rewrite axis_flat. reflexivity. }
  cbn [rbind]. unfold demo_plot. split.
  - intros Kx Ky. rewrite axis by apply Px, Kx. cbn [rbind]. rewrite axis by apply Py, Ky. cbn [rbind]. rewrite P. cbn [rbind rmap].
    eexists. split; [reflexivity|]. cbn [m_xlabel m_ylabel m_zlabel m_title]. split; [|repeat split].
    exists a, b, c, d. cbn [m_x m_y m_z].
    assert (Lx : forall u v, List.length (axis_points u v) = 1001%nat) by (intros; unfold axis_points; rewrite map_length, seq_length; reflexivity).
    do 6 (split; [first [assumption | apply axis_evenly | apply Px, Kx | apply Py, Ky]|]).
    split. { rewrite map_length, prod_length, !Lx. reflexivity. }
    intros i j x y Hx Hy. rewrite nth_error_map. rewrite <- (Lx c d). rewrite (prod_nth _ _ i j x y Hx Hy). reflexivity.
  - intros K. destruct (plottable_dec (tx t)) as [Kx|Kx].
    + rewrite axis by apply Px, Kx. cbn [rbind]. rewrite (Fy (fun Ky => K (conj Kx Ky))). rewrite axis_flat. reflexivity.
    + rewrite (Fx Kx). rewrite axis_flat. reflexivity.
Qed.

Lemma drop_complete t : drop_nan t = 
  let p := complete (tx t) (ty t) (tz t) in
  {| tx := map (fun p => Fin (fst (fst p))) p; ty := map (fun p => Fin (snd (fst p))) p; tz := map (fun p => Fin (snd p)) p |}.
Proof.
  unfold drop_nan. cbn zeta. destruct t as [xs ys zs]. cbn [tx ty tz].
  assert (E : filter (fun p => finb (fst (fst p)) && finb (snd (fst p)) && finb (snd p))%bool (combine (combine xs ys) zs)
    = map (fun p => (Fin (fst (fst p)), Fin (snd (fst p)), Fin (snd p))) (complete xs ys zs)).
  { revert ys zs. induction xs as [|x xs IH]; intros [|y ys] [|z zs]; try reflexivity; try (destruct x; try destruct y; reflexivity).
    destruct x as [x|], y as [y|], z as [z|]; cbn; rewrite IH; reflexivity. }
  rewrite E. rewrite !map_map. reflexivity.
Qed.
Lemma clean_pointwise grid t : pointwise (query grid (option_map drop_nan (Some t))) (between_complete grid t).
Proof. cbn [option_map]. rewrite drop_complete. exact (query_pointwise grid _). Qed.

Section Demo.
Variable grid : list num -> list num -> list num -> num -> num -> num.
Open Scope string_scope.

Lemma turboprop_demo e d :
  (forall t, tp_thr d = Some t -> draws (tp_demoplot_thrust grid e d) t (grid (tx t) (ty t) (tz t))
    "Mach Number" "Altitude (m)" "Core/hot Thrust (N)" (e ++ " core/hot thrust (N) for Mach number and altitude (m)")) /\
  (forall t, tp_pwr d = Some t -> draws (tp_demoplot_shaftpower grid e d) t (grid (tx t) (ty t) (tz t))
    "Mach Number" "Altitude (m)" "Power (W)" (e ++ " shaft power (W) for Mach Number and altitude (m)")) /\
  (forall t, tp_bsfc d = Some t -> draws (tp_demoplot_bsfc grid e d) t (between_complete grid t)
    "Mach Number" "Altitude (m)" "BSFC (g/(kWh))" (e ++ " BSFC (g/(kWh)) for Mach Number and altitude (m)")).
Proof.
  unfold tp_demoplot_thrust, tp_demoplot_shaftpower, tp_demoplot_bsfc.
  split; [|split]; intros t E; unfold tp_hotthrust, tp_shaftpower, tp_bsfc_at; rewrite E; apply demo_draws;
    first [exact (clean_pointwise grid t) | exact (query_pointwise grid t)].
Qed.
Lemma piston_demo e d :
  (forall t, pi_pwr d = Some t -> draws (pi_demoplot_shaftpower grid e d) t (grid (tx t) (ty t) (tz t))
    "Engine Speed (RPM)" "Altitude (m)" "Shaft power (W)" (e ++ " shaft power (W) for Engine speed (RPM) and altitude (m)")) /\
  (forall t, pi_bsfc d = Some t -> draws (pi_demoplot_bsfc grid e d "economy") t (grid (tx t) (ty t) (tz t))
    "Engine Speed (RPM)" "Shaft power (W)" "BSFC (g/(kWh))" (e ++ " BSFC (g/(kWh)) at best economy for Engine speed (RPM) and shaft power (W)")) /\
  (forall t, pi_bsfc_pwr d = Some t -> draws (pi_demoplot_bsfc grid e d "power") t (grid (tx t) (ty t) (tz t))
    "Engine Speed (RPM)" "Shaft power (W)" "BSFC (g/(kWh))" (e ++ " BSFC (g/(kWh)) at best power for Engine speed (RPM) and shaft power (W)")).
Proof.
  split; [|split]; intros t E.
  - unfold pi_demoplot_shaftpower, pi_shaftpower. rewrite E. apply demo_draws, query_pointwise.
  - unfold pi_demoplot_bsfc, pi_bsfc_at. cbn [String.eqb Ascii.eqb Bool.eqb]. rewrite E. apply demo_draws, query_pointwise.
  - unfold pi_demoplot_bsfc, pi_bsfc_at. cbn [String.eqb Ascii.eqb Bool.eqb]. rewrite E. apply demo_draws, query_pointwise.
Qed.
Lemma electric_demo e d : draws (el_demoplot_efficiency grid e (Some d)) (el_tab d) (grid (tx (el_tab d)) (ty (el_tab d)) (tz (el_tab d)))
  "Motor Speed (RPM)" "Torque (Nm)" "Efficiency" (e ++ " efficiency for Motor speed (RPM) and torque (Nm)").
Proof. unfold el_demoplot_efficiency, el_efficiency. cbn [option_map]. apply demo_draws, query_pointwise. Qed.
Lemma jet_demo e d :
  (forall t, jt_thr d = Some t -> draws (jt_demoplot_thrust grid e d) t (grid (tx t) (ty t) (tz t))
    "Mach Number" "Altitude (m)" "Thrust (N)" (e ++ " thrust (N) for Mach number and altitude (m)")) /\
  (forall t s, jt_thr d = Some t -> jt_tsfc d = Some s ->
    draws (jt_demoplot_tsfc grid e d "t_n") s (between_complete grid s)
      "Mach Number" "Thrust (N)" "TSFC (g/(kNs))" (e ++ " TSFC (g/(kNs)) for Mach number and Thrust (N)") /\
    draws (jt_demoplot_tsfc grid e d "alt_m") t (fun mach h => between_complete grid s mach (grid (tx t) (ty t) (tz t) mach h))
      "Mach Number" "Altitude (m)" "TSFC (g/(kNs))" (e ++ " TSFC (g/(kNs)) for Mach number and altitude (m)")).
Proof.
  split.
  - intros t E. unfold jt_demoplot_thrust, jt_thrust. rewrite E. apply demo_draws, query_pointwise.
  - intros t s Et Es. unfold jt_demoplot_tsfc, jt_tsfc_at, jt_thrust. rewrite Et, Es. cbn [String.eqb Ascii.eqb Bool.eqb]. split.
    + apply demo_draws, clean_pointwise.
    + apply demo_draws. intros p. rewrite query_pointwise. cbn [rbind some_val].
      set (f := grid (tx t) (ty t) (tz t)).
      pose proof (clean_pointwise grid s (map (fun q => (fst q, f (fst q) (snd q))) p)) as K. rewrite !map_map in K. cbn [fst snd] in K. exact K.
Qed.

(** without the table *)
Lemma demo_warned e :
  el_demoplot_efficiency grid e None = Ok None /\
  (forall d, jt_thr d = None -> jt_demoplot_thrust grid e d = Ok None) /\
  (forall d y, jt_tsfc d = None -> jt_demoplot_tsfc grid e d y = Ok None) /\
  (forall d, jt_thr d = None -> jt_demoplot_tsfc grid e d "t_n" = Ok None) /\
  (forall d, pi_bsfc d = None -> pi_demoplot_bsfc grid e d "economy" = Ok None) /\
  (forall d, pi_bsfc_pwr d = None -> pi_demoplot_bsfc grid e d "power" = Ok None) /\
  (forall d y, y <> "t_n" -> y <> "alt_m" -> jt_demoplot_tsfc grid e d y = Ok None) /\
  (forall d y, y <> "economy" -> y <> "power" -> pi_demoplot_bsfc grid e d y = Ok None).
Proof.
  split; [reflexivity|]. split; [|split; [|split; [|split; [|split; [|split]]]]].
  - intros d E. unfold jt_demoplot_thrust. rewrite E. reflexivity.
  - intros d y E. unfold jt_demoplot_tsfc. rewrite E. reflexivity.
  - intros d E. unfold jt_demoplot_tsfc. rewrite E. destruct (jt_tsfc d); reflexivity.
  - intros d E. unfold pi_demoplot_bsfc. rewrite E. reflexivity.
  - intros d E. unfold pi_demoplot_bsfc. rewrite E. reflexivity.
  - intros d y A B. unfold jt_demoplot_tsfc. apply String.eqb_neq in A, B. rewrite A, B. destruct (jt_tsfc d); reflexivity.
  - intros d y A B. unfold pi_demoplot_bsfc. apply String.eqb_neq in A, B. rewrite A, B. reflexivity.
Qed.
Lemma demo_unwarned e :
  (forall d, tp_thr d = None -> tp_demoplot_thrust grid e d = Err AttributeError) /\
  (forall d, tp_pwr d = None -> tp_demoplot_shaftpower grid e d = Err AttributeError) /\
  (forall d, tp_bsfc d = None -> tp_demoplot_bsfc grid e d = Err AttributeError) /\
  (forall d, pi_pwr d = None -> pi_demoplot_shaftpower grid e d = Err AttributeError) /\
  (forall d s, jt_tsfc d = Some s -> jt_thr d = None -> jt_demoplot_tsfc grid e d "alt_m" = Err AttributeError).
Proof.
  split; [|split; [|split; [|split]]].
  - intros d E. unfold tp_demoplot_thrust. rewrite E. reflexivity.
  - intros d E. unfold tp_demoplot_shaftpower. rewrite E. reflexivity.
  - intros d E. unfold tp_demoplot_bsfc. rewrite E. reflexivity.
  - intros d E. unfold pi_demoplot_shaftpower. rewrite E. reflexivity.
  - intros d s Es E. unfold jt_demoplot_tsfc. rewrite Es, E. reflexivity.
Qed.
End Demo.
Open Scope string_scope.
Open Scope R_scope.

(** concrete cases *)
Definition demo_table : table :=
  {| tx := [Fin 0; Fin 0; Fin (1/2); Fin (1/2)]; ty := [Fin 0; Fin 9000; Fin 0; Fin 9000]; tz := [Fin 8; Fin 4; NonFin; Fin 3] |}.
Lemma demo_plottable : plottable (tx demo_table) /\ plottable (ty demo_table).
Proof.
  split; unfold plottable; cbn.
  - exists 0, (1/2). eexists. split; [reflexivity|]. split; [right; left; reflexivity|lra].
  - exists 0, 9000. eexists. split; [reflexivity|]. split; [left; reflexivity|lra].
Qed.

Definition demo_grid : list num -> list num -> list num -> num -> num -> num := fun _ _ _ x y => (x + y)%num.
Lemma turboprop_case : exists m, tp_demoplot_bsfc demo_grid "Tyne" {| tp_thr := Some demo_table; tp_pwr := Some demo_table; tp_bsfc := Some demo_table |} = Ok (Some m)
  /\ List.length (m_x m) = 1001%nat /\ m_title m = "Tyne BSFC (g/(kWh)) for Mach Number and altitude (m)".
Proof.
  destruct (turboprop_demo demo_grid "Tyne" {| tp_thr := Some demo_table; tp_pwr := Some demo_table; tp_bsfc := Some demo_table |}) as (_ & _ & B).
  destruct (B demo_table eq_refl) as (D & _).
  destruct (D (proj1 demo_plottable) (proj2 demo_plottable)) as (m & E & (a & b & c & f & _ & _ & _ & _ & Ev & _) & _ & _ & _ & T).
  exists m. split; [exact E|]. split; [exact (proj1 Ev)|exact T].
Qed.
Lemma piston_case : exists m, pi_demoplot_bsfc demo_grid "IO-540" {| pi_pwr := None; pi_bsfc := None; pi_bsfc_pwr := Some demo_table |} "power" = Ok (Some m).
Proof.
  destruct (piston_demo demo_grid "IO-540" {| pi_pwr := None; pi_bsfc := None; pi_bsfc_pwr := Some demo_table |}) as (_ & _ & B).
  destruct (proj1 (B demo_table eq_refl) (proj1 demo_plottable) (proj2 demo_plottable)) as (m & E & _). exists m. exact E.
Qed.
Lemma electric_case : exists m, el_demoplot_efficiency demo_grid "M" (Some {| el_tab := demo_table; el_shaft := []; el_elec := [] |}) = Ok (Some m)
  /\ nth_error (m_x m) 500 = Some (Fin (1/4)).
Proof.
  pose proof (electric_demo demo_grid "M" {| el_tab := demo_table; el_shaft := []; el_elec := [] |}) as D. cbn [el_tab] in D.
  destruct (proj1 D (proj1 demo_plottable) (proj2 demo_plottable)) as (m & E & (a & b & c & f & (Ia & Ib & B) & _ & _ & _ & (_ & Ev) & _) & _).
  exists m. split; [exact E|]. rewrite Ev by (apply Nat.leb_le; reflexivity). do 2 f_equal.
  assert (B0 := B 0 (or_introl eq_refl)). assert (B1 := B (1/2) (or_intror (or_intror (or_introl eq_refl)))).
  assert (a = 0) by (cbn in Ia; destruct Ia as [[= <-]|[[= <-]|[[= <-]|[[= <-]|[]]]]]; lra).
  assert (b = 1/2) by (cbn in Ib; destruct Ib as [[= <-]|[[= <-]|[[= <-]|[[= <-]|[]]]]]; lra).
  subst. replace (INR 500) with 500 by (rewrite INR_IZR_INZ; reflexivity). lra.
Qed.
Lemma jet_case : exists m, jt_demoplot_tsfc demo_grid "J" {| jt_thr := Some demo_table; jt_tsfc := Some demo_table; jt_sl := None; jt_to := None |} "alt_m" = Ok (Some m)
  /\ m_ylabel m = "Altitude (m)".
Proof.
  destruct (proj2 (jet_demo demo_grid "J" {| jt_thr := Some demo_table; jt_tsfc := Some demo_table; jt_sl := None; jt_to := None |}) demo_table demo_table eq_refl eq_refl) as (_ & D & _).
  destruct (D (proj1 demo_plottable) (proj2 demo_plottable)) as (m & E & _ & _ & Y & _). exists m. split; assumption.
Qed.
