(** The tables of the shipped engines. *)
From Coq Require Import QArith Qreals Ascii Permutation.
From Verif Require Import Base BaseFacts AtmosModel ConceptModel ConceptProofs PropulsionModel PropulsionSpec PropulsionProofs PropulsionProofs2 PropulsionProofs3 PropulsionProofs4
  PropulsionProofs8 ShippedText ShippedModel ShippedSpec ShippedProofs ShippedDecks ShippedThrust.
Open Scope R_scope.

(** ** Numbers in all rows *)
(** first and second column above a bound, third positive *)
Definition positive (p q : Q) (x y z : Q) : bool := if Qltb p x then if Qltb q y then Qltb 0 z else false else false.
Lemma positive_spec p q x y z : positive p q x y z = true -> Q2R p < Q2R x /\ Q2R q < Q2R y /\ 0 < Q2R z.
Proof.
  unfold positive. destruct (Qltb p x) eqn:A; [|discriminate]. destruct (Qltb q y) eqn:B; [|discriminate]. intros C.
  apply Qltb_lt in A. apply Qltb_lt in B. apply Qltb_lt in C. rewrite Q2R_z in C. auto.
Qed.
Lemma tables_check P (engines : list string) (file : string -> string) a b c : forallb (fun e => table_ok P (file e) a b c) engines = true -> forall e, In e engines -> table_ok P (file e) a b c = true.
Proof. intros B e I. exact (forallb_In _ _ B e I). Qed.
Lemma rows_weaken t (P R : R -> R -> R -> Prop) : rows_in t P -> (forall x y z, P x y z -> R x y z) -> rows_in t R.
Proof. intros (N & A & B & K) H. split; [exact N|]. split; [exact A|]. split; [exact B|]. intros i L. destruct (K i L) as (x & y & z & E & O). exists x, y, z. auto. Qed.
Lemma jet_numbers e d : In e jet_engines -> shipped_jet e d -> exists t, jt_thr d = Some t /\ rows_in t (fun m h f => -0.001 < m /\ 0 <= h /\ 0 < f).
Proof.
  intros I S. destruct (jet_thrust_table e d I S) as (t & F & D). exists t. split; [exact D|].
  refine (table_ok_spec (fun m h f => if Qle_bool 0 h then positive (-0.001) (-1) m h f else false) (thrust_table e) _ _ _ t _ _ F _).
  - apply (tables_check _ jet_engines); [vm_compute; reflexivity|exact I].
  - intros x y z H. destruct (Qle_bool 0 y) eqn:E; [|discriminate H]. apply Qleb_R in E. rewrite Q2R_z in E. apply positive_spec in H. destruct H as (A & _ & C).
    replace (Q2R (-0.001)) with (-0.001) in A by (unfold Q2R; cbn; lra). auto.
Qed.
Lemma turboprop_numbers e d : In e turboprop_engines -> shipped_turboprop e d ->
  (exists t, tp_thr d = Some t /\ rows_in t (fun m h f => -0.001 < m /\ 0 <= h /\ 0 < f)) /\
  (exists t, tp_pwr d = Some t /\ rows_in t (fun m h w => 0 <= m /\ 0 <= h /\ 0 < w)) /\
  (exists t, tp_bsfc d = Some t /\ rows_in t (fun m h b => 0 <= m /\ 0 <= h /\ 0 < b)).
Proof.
  intros I S. split; [|split].
  - destruct (turboprop_thrust_table e d I S) as (t & F & D). exists t. split; [exact D|].
    refine (table_ok_spec (fun m h f => if Qle_bool 0 h then positive (-0.001) (-1) m h f else false) (thrust_table e) _ _ _ t _ _ F _).
    + apply (tables_check _ turboprop_engines); [vm_compute; reflexivity|exact I].
    + intros x y z H. destruct (Qle_bool 0 y) eqn:E; [|discriminate H]. apply Qleb_R in E. rewrite Q2R_z in E. apply positive_spec in H. destruct H as (A & _ & C).
      replace (Q2R (-0.001)) with (-0.001) in A by (unfold Q2R; cbn; lra). auto.
  - destruct (turboprop_power_table e d I S) as (t & F & D). exists t. split; [exact D|].
    refine (table_ok_spec (fun m h f => if Qle_bool 0 h then if Qle_bool 0 m then Qltb 0 f else false else false) (power_table e) _ _ _ t _ _ F _).
    + apply (tables_check _ turboprop_engines); [vm_compute; reflexivity|exact I].
    + intros x y z H. destruct (Qle_bool 0 y) eqn:E; [|discriminate H]. destruct (Qle_bool 0 x) eqn:G; [|discriminate H]. apply Qleb_R in E. apply Qleb_R in G.
      apply Qltb_lt in H. rewrite Q2R_z in *. auto.
  - destruct (turboprop_bsfc_table e d I S) as (t & F & D). exists t. split; [exact D|].
    refine (table_ok_spec (fun m h f => if Qle_bool 0 h then if Qle_bool 0 m then Qltb 0 f else false else false) (bsfc_table e) _ _ _ t _ _ F _).
    + apply (tables_check _ turboprop_engines); [vm_compute; reflexivity|exact I].
    + intros x y z H. destruct (Qle_bool 0 y) eqn:E; [|discriminate H]. destruct (Qle_bool 0 x) eqn:G; [|discriminate H]. apply Qleb_R in E. apply Qleb_R in G.
      apply Qltb_lt in H. rewrite Q2R_z in *. auto.
Qed.
Lemma piston_power_table e d : In e piston_engines -> shipped_piston e d -> exists t,
  read_table shipped_csv "Speed (RPM)" "Altitude (m)" "Power (W)" (power_table e) = Ok t /\ pi_pwr d = Some t.
Proof. intros [<-|[<-|[]]] S; [apply io540_table|apply wasp_power_table]; exact S. Qed.
Lemma piston_numbers e d : In e piston_engines -> shipped_piston e d ->
  (exists t, pi_pwr d = Some t /\ rows_in t (fun n h w => 1000 < n /\ -11 < h /\ 0 < w)) /\
  (exists t, pi_bsfc d = Some t /\ rows_in t (fun n w b => 1000 < n /\ 0 < w /\ 0 < b)).
Proof.
  intros I S. split.
  - destruct (piston_power_table e d I S) as (t & F & D). exists t. split; [exact D|].
    refine (table_ok_spec (positive 1000 (-11)) (power_table e) _ _ _ t _ _ F _).
    + apply (tables_check _ piston_engines); [vm_compute; reflexivity|exact I].
    + intros x y z H. apply positive_spec in H. replace (Q2R 1000) with 1000 in H by (unfold Q2R; cbn; lra). replace (Q2R (-11)) with (-11) in H by (unfold Q2R; cbn; lra). exact H.
  - destruct (piston_bsfc_table e d I S) as (t & F & D). exists t. split; [exact D|].
    refine (table_ok_spec (positive 1000 0) (bsfc_table e) _ _ _ t _ _ F _).
    + apply (tables_check _ piston_engines); [vm_compute; reflexivity|exact I].
    + intros x y z H. apply positive_spec in H. replace (Q2R 1000) with 1000 in H by (unfold Q2R; cbn; lra). rewrite Q2R_z in H. exact H.
Qed.
Lemma electric_numbers e d : In e electric_engines -> shipped_electric e d -> rows_in (el_tab d) (fun n q eff => 0 < n /\ 0 < q /\ 0.5 <= eff < 0.97).
Proof.
  intros I S. destruct (electric_table e d I S) as (t & F & ->).
  refine (table_ok_spec (fun x y z => if positive 0 0 x y z then if Qle_bool 0.5 z then Qltb z 0.97 else false else false) (efficiency_table e) _ _ _ t _ _ F _).
  - apply (tables_check _ electric_engines); [vm_compute; reflexivity|exact I].
  - intros x y z H. destruct (positive 0 0 x y z) eqn:P; [|discriminate H]. destruct (Qle_bool 0.5 z) eqn:G; [|discriminate H]. apply positive_spec in P. rewrite Q2R_z in P.
    apply Qleb_R in G. apply Qltb_lt in H. replace (Q2R 0.5) with 0.5 in G by (unfold Q2R; cbn; lra). replace (Q2R 0.97) with 0.97 in H by (unfold Q2R; cbn; lra). tauto.
Qed.

(** ** The largest value of a table *)
Definition tops (f a b c : string) (at_zero : bool) : bool :=
  match qrows f a b c with
  | Ok (x, y, z) =>
      existsb (fun r => match r with
        | (Some p, Some q, Some r) =>
            if (if at_zero then Qeq_bool q 0 else Qltb 0 q)
            then rows_ok (fun _ h v => if at_zero then Qle_bool v r else if Qeq_bool h 0 then Qltb v r else true) x y z else false
        | _ => false end) (combine (combine x y) z)
  | Err _ => false
  end.
Lemma tops_spec f a b c s t : tops f a b c s = true -> read_table shipped_csv a b c f = Ok t ->
  exists i m h z, row t i m h z /\
    (if s then h = 0 /\ forall j m' h' z', row t j m' h' z' -> z' <= z
     else 0 < h /\ forall j m' z', row t j m' 0 z' -> z' < z).
Proof.
  unfold tops. rewrite table_file. destruct (qrows f a b c) as [((x, y), z)|] eqn:Eq; [|discriminate]. cbn [rmap]. intros B E. injection E as <-.
  apply existsb_exists in B. destruct B as (((p, q), r) & I & B). destruct p as [p|]; [|discriminate B]. destruct q as [q|]; [|discriminate B]. destruct r as [r|]; [|discriminate B].
  destruct (if s then Qeq_bool q 0 else Qltb 0 q) eqn:H0; [|discriminate B].
  apply In_nth_error in I. destruct I as (i & I). apply combine_nth_inv in I. destruct I as (I & Ez). apply combine_nth_inv in I. destruct I as (Ex & Ey). cbn [fst snd] in *.
  exists i, (Q2R p), (Q2R q), (Q2R r). split; [unfold row; cbn [tx ty tz fst snd]; rewrite !nth_error_map, Ex, Ey, Ez; cbn; auto|].
  apply rows_ok_spec in B. destruct B as (L1 & L2 & K). unfold row. cbn [tx ty tz fst snd].
  assert (G : forall j m' h' z', (nth_error (map entry_num x) j = Some (Fin m') /\ nth_error (map entry_num y) j = Some (Fin h') /\ nth_error (map entry_num z) j = Some (Fin z')) ->
    exists h v, h' = Q2R h /\ z' = Q2R v /\ (if s then Qle_bool v r else if Qeq_bool h 0 then Qltb v r else true) = true).
  { intros j m' h' z' (R1 & R2 & R3). assert (Lj : (j < List.length z)%nat) by (rewrite <- (map_length entry_num z); apply nth_error_Some; congruence).
    destruct (K j Lj) as (a1 & b1 & c1 & K1 & K2 & K3 & O). rewrite nth_error_map, K2 in R2. rewrite nth_error_map, K3 in R3. cbn in R2, R3. unfold to_num in *.
    injection R2 as <-. injection R3 as <-. exists b1, c1. auto. }
  destruct s.
  - split; [apply Qeqb_R in H0; rewrite H0; apply Q2R_z|]. intros j m' h' z' Rw. destruct (G _ _ _ _ Rw) as (h & v & -> & -> & O). apply Qleb_R. exact O.
  - split; [apply Qltb_lt in H0; rewrite Q2R_z in H0; exact H0|]. intros j m' z' Rw. destruct (G _ _ _ _ Rw) as (h & v & E0 & -> & O).
    assert (Y' : Qeq_bool h 0 = true) by (apply Qeq_eq_bool; apply eqR_Qeq; rewrite <- E0, Q2R_z; reflexivity). rewrite Y' in O. apply Qltb_lt. exact O.
Qed.
Lemma tops_check s (engines : list string) (file : string -> string) a b c e : forallb (fun e => tops (file e) a b c s) engines = true -> In e engines -> tops (file e) a b c s = true.
Proof. intros B I. exact (forallb_In _ _ B e I). Qed.
Lemma jet_largest e d : In e ["ATF3-6A"; "FJ-44"; "J52"; "J60"; "JT8D-9"; "JT9D-3"; "TF30"; "TFE731-2"]%string -> shipped_jet e d ->
  exists t i m z, jt_thr d = Some t /\ row t i m 0 z /\ forall j m' h' z', row t j m' h' z' -> z' <= z.
Proof.
  intros I S. assert (Ij : In e jet_engines) by (cbn in I |- *; intuition). destruct (jet_thrust_table e d Ij S) as (t & F & D).
  assert (B : tops (thrust_table e) "Mach Number" "Altitude (m)" "Thrust (N)" true = true) by (apply (tops_check true _ thrust_table _ _ _ _) with (2 := I); vm_compute; reflexivity).
  destruct (tops_spec _ _ _ _ _ _ B F) as (i & m & h & z & Rw & -> & K). exists t, i, m, z. auto.
Qed.
Lemma jet_largest_aloft e d : In e ["F404-400"; "TFE731-5"]%string -> shipped_jet e d ->
  exists t i m h z, jt_thr d = Some t /\ 0 < h /\ row t i m h z /\ forall j m' z', row t j m' 0 z' -> z' < z.
Proof.
  intros I S. assert (Ij : In e jet_engines) by (cbn in I |- *; intuition). destruct (jet_thrust_table e d Ij S) as (t & F & D).
  assert (B : tops (thrust_table e) "Mach Number" "Altitude (m)" "Thrust (N)" false = true) by (apply (tops_check false _ thrust_table _ _ _ _) with (2 := I); vm_compute; reflexivity).
  destruct (tops_spec _ _ _ _ _ _ B F) as (i & m & h & z & Rw & H & K). exists t, i, m, h, z. auto.
Qed.
Lemma tyne_aloft d : shipped_turboprop "Tyne_RTy11" d ->
  exists t i m h z, tp_pwr d = Some t /\ 0 < h /\ row t i m h z /\ forall j m' z', row t j m' 0 z' -> z' < z.
Proof.
  intros S. destruct (turboprop_power_table "Tyne_RTy11" d ltac:(cbn; intuition) S) as (t & F & D).
  assert (B : tops (power_table "Tyne_RTy11") "Mach Number" "Altitude (m)" "Power (W)" false = true) by (vm_compute; reflexivity).
  destruct (tops_spec _ _ _ _ _ _ B F) as (i & m & h & z & Rw & H & K). exists t, i, m, h, z. auto.
Qed.
Lemma t56_sea_level d : shipped_turboprop "T56-A" d ->
  exists t i m z, tp_pwr d = Some t /\ row t i m 0 z /\ forall j m' h' z', row t j m' h' z' -> z' <= z.
Proof.
  intros S. destruct (turboprop_power_table "T56-A" d ltac:(cbn; intuition) S) as (t & F & D).
  assert (B : tops (power_table "T56-A") "Mach Number" "Altitude (m)" "Power (W)" true = true) by (vm_compute; reflexivity).
  destruct (tops_spec _ _ _ _ _ _ B F) as (i & m & h & z & Rw & -> & K). exists t, i, m, z. auto.
Qed.

(** ** Where the tables end *)
Lemma hull_swap xs ys x y : in_hull xs ys x y -> in_hull ys xs y x.
Proof.
  intros (w & F & S1 & S2 & S3). exists (map (fun p => (fst p, (snd (snd p), fst (snd p)))) w). split; [|split; [|split]].
  - apply Forall_map. apply (Forall_impl _ (P := fun p => 0 <= fst p /\ In (Fin (fst (snd p)), Fin (snd (snd p))) (combine xs ys))); [|exact F].
    cbn [fst snd]. intros (k & (a & b)). cbn [fst snd]. intros (H & I). split; [exact H|].
    clear - I. revert ys I. induction xs as [|p xs IH]; intros [|q ys] I; cbn in *; try tauto. destruct I as [I|I]; [left; injection I as -> ->; reflexivity|right; apply IH; exact I].
  - rewrite <- S1. clear. induction w as [|p w IH]; [reflexivity|]. cbn [map fold_right fst snd]. rewrite IH. reflexivity.
  - rewrite <- S3. clear. induction w as [|p w IH]; [reflexivity|]. cbn [map fold_right fst snd]. rewrite IH. reflexivity.
  - rewrite <- S2. clear. induction w as [|p w IH]; [reflexivity|]. cbn [map fold_right fst snd]. rewrite IH. reflexivity.
Qed.
Lemma rows_low_x t (c : R) x y : rows_in t (fun a _ _ => c < a) -> x <= c -> ~ in_hull (tx t) (ty t) x y.
Proof.
  intros (_ & L1 & _ & K) H. apply (hull_bound _ _ c); [|exact H]. intros r I. apply In_nth_error in I. destruct I as (i & I).
  assert (Li : (i < List.length (tz t))%nat) by (rewrite <- L1; apply nth_error_Some; congruence). destruct (K i Li) as (a & b & z & (E & _) & O). rewrite I in E. injection E as ->. exact O.
Qed.
Lemma rows_low_y t (c : R) x y : rows_in t (fun _ b _ => c < b) -> y <= c -> ~ in_hull (tx t) (ty t) x y.
Proof.
  intros (_ & _ & L1 & K) H N. apply hull_swap in N. revert N. apply (hull_bound _ _ c); [|exact H]. intros r I. apply In_nth_error in I. destruct I as (i & I).
  assert (Li : (i < List.length (tz t))%nat) by (rewrite <- L1; apply nth_error_Some; congruence). destruct (K i Li) as (a & b & z & (_ & E & _) & O). rewrite I in E. injection E as ->. exact O.
Qed.
Lemma jet_tsfc_table e d : In e (map fst tsfc_starts) -> shipped_jet e d -> exists t,
  read_table shipped_csv "Mach Number" "Thrust (N)" "TSFC (g/(kNs))" (tsfc_table e) = Ok t /\ jt_tsfc d = Some t.
Proof.
  intros I (l & P & E). apply jet_contents in E. destruct E as (_ & N & _). apply (newest_only _ _ _ _ _ _ _ N P).
  apply onlyb_spec with (engines := map fst tsfc_starts); [vm_compute; reflexivity|exact I].
Qed.
Definition column_above (f a b c : string) (k : Q) : bool :=
  match qrows f a b c with Ok (x, _, _) => forallb (fun p => match p with Some p => Qltb k p | None => true end) x | Err _ => false end.
Lemma tsfc_checked : forallb (fun x => column_above (tsfc_table (fst x)) "Mach Number" "Thrust (N)" "TSFC (g/(kNs))" (snd x)) tsfc_starts = true.
Proof. vm_compute. reflexivity. Qed.
Lemma drop_nan_y t r : In r (ty (drop_nan t)) -> In r (ty t).
Proof.
  unfold drop_nan. cbn [ty]. intros H. apply in_map_iff in H. destruct H as (((a, b), c) & <- & H). apply filter_In in H. destruct H as (H & _).
  apply in_combine_l in H. apply in_combine_r in H. exact H.
Qed.
Section Grid.
Variable grid : list num -> list num -> list num -> num -> num -> num.
Hypothesis NE : no_extrapolation grid.
Lemma query_outside t m h : ~ in_hull (tx t) (ty t) m h -> query grid (Some t) (VNum (Fin m)) (VNum (Fin h)) = Ok (Some (VNum NonFin)).
Proof. intros N. cbn [query grid_table toarr vop2 rmap]. destruct NE as (N0 & _). rewrite N0 by exact N. reflexivity. Qed.
(** no thrust of the TFE731-5 below 6096 m *)
Lemma tfe_low d m h : shipped_jet "TFE731-5" d -> h < 6096 -> jt_thrust grid d (VNum (Fin m)) (VNum (Fin h)) = Ok (Some (VNum NonFin)).
Proof.
  intros S H. destruct (jet_thrust_table "TFE731-5" d ltac:(cbn; intuition) S) as (t & F & D). unfold jt_thrust. rewrite D. apply query_outside.
  assert (L : rows_in t (fun _ b _ => 6096 <= b)).
  { refine (table_ok_spec (fun _ y _ => Qle_bool 6096 y) (thrust_table "TFE731-5") _ _ _ t _ _ F _); [vm_compute; reflexivity|].
    intros x y z B. apply Qleb_R in B. replace (Q2R 6096) with 6096 in B by (unfold Q2R; cbn; lra). exact B. }
  apply (rows_low_y t h); [|lra]. apply (rows_weaken _ _ _ L). intros. lra.
Qed.
Lemma static_nan e d h : In e ["ATF3-6A"; "F404-400"; "FJ-44"; "J60"; "TF30"; "TFE731-5"]%string -> shipped_jet e d ->
  jt_thrust grid d (VNum (Fin 0)) (VNum (Fin h)) = Ok (Some (VNum NonFin)).
Proof.
  intros I S. assert (Ij : In e jet_engines) by (cbn in I |- *; intuition). destruct (jet_thrust_table e d Ij S) as (t & F & D). unfold jt_thrust. rewrite D. apply query_outside.
  apply (rows_low_x t 0); [|lra].
  refine (table_ok_spec (fun x _ _ => Qltb 0 x) (thrust_table e) _ _ _ t _ _ F _); [apply (tables_check _ ["ATF3-6A"; "F404-400"; "FJ-44"; "J60"; "TF30"; "TFE731-5"]%string thrust_table); [vm_compute; reflexivity|exact I]|].
  intros x y z B. apply Qltb_lt in B. rewrite Q2R_z in B. exact B.
Qed.
Lemma t56_static d h : shipped_turboprop "T56-A" d -> tp_shaftpower grid d (VNum (Fin 0)) (VNum (Fin h)) = Ok (Some (VNum NonFin)).
Proof.
  intros S. destruct (turboprop_power_table "T56-A" d ltac:(cbn; intuition) S) as (t & F & D). unfold tp_shaftpower. rewrite D. apply query_outside.
  apply (rows_low_x t 0); [|lra]. refine (table_ok_spec (fun x _ _ => Qltb 0 x) (power_table "T56-A") _ _ _ t _ _ F _); [vm_compute; reflexivity|].
  intros x y z B. apply Qltb_lt in B. rewrite Q2R_z in B. exact B.
Qed.
Lemma wasp_sea_level d n h : shipped_piston "Wasp_Major_B13" d -> h <= 1 -> pi_shaftpower grid d (VNum (Fin n)) (VNum (Fin h)) = Ok (Some (VNum NonFin)).
Proof.
  intros S H. destruct (wasp_power_table d S) as (t & F & D). unfold pi_shaftpower. rewrite D. apply query_outside.
  apply (rows_low_y t 1); [|lra]. refine (table_ok_spec (fun _ y _ => Qltb 1 y) (power_table "Wasp_Major_B13") _ _ _ t _ _ F _); [vm_compute; reflexivity|].
  intros x y z B. apply Qltb_lt in B. replace (Q2R 1) with 1 in B by (unfold Q2R; cbn; lra). exact B.
Qed.
(** fuel consumption: below the first Mach number of the table *)
Lemma drop_nan_x t r : In r (tx (drop_nan t)) -> In r (tx t).
Proof.
  unfold drop_nan. cbn [tx]. intros H. apply in_map_iff in H. destruct H as (((a, b), c) & <- & H). apply filter_In in H. destruct H as (H & _).
  apply in_combine_l in H. apply in_combine_l in H. exact H.
Qed.
Lemma tsfc_low e k d m f : In (e, k) tsfc_starts -> shipped_jet e d -> m <= Q2R k -> jt_tsfc_at grid d (VNum (Fin m)) (VNum (Fin f)) = Ok (Some (VNum NonFin)).
Proof.
  intros I S H. assert (Ie : In e (map fst tsfc_starts)) by (apply in_map_iff; exists (e, k); auto).
  destruct (jet_tsfc_table e d Ie S) as (t & F & D). unfold jt_tsfc_at. rewrite D. cbn [option_map]. apply query_outside. apply (hull_bound _ _ (Q2R k)); [|exact H].
  intros r J. apply drop_nan_x in J.
  pose proof (forallb_In _ _ tsfc_checked (e, k) I) as B. cbv beta in B. cbn [fst snd] in B. unfold column_above in B. rewrite table_file in F.
  destruct (qrows (tsfc_table e) "Mach Number" "Thrust (N)" "TSFC (g/(kNs))") as [((x, y), z)|]; [|discriminate B]. cbn [rmap] in F. injection F as <-. cbn [tx fst snd] in J.
  apply in_map_iff in J. destruct J as (p & E & J). destruct p as [p|]; [|discriminate E]. injection E as <-. pose proof (forallb_In _ _ B (Some p) J) as K. apply Qltb_lt. exact K.
Qed.
Lemma t56_bsfc_low d m h : shipped_turboprop "T56-A" d -> h < 3048 -> tp_bsfc_at grid d (VNum (Fin m)) (VNum (Fin h)) = Ok (Some (VNum NonFin)).
Proof.
  intros S H. destruct (turboprop_bsfc_table "T56-A" d ltac:(cbn; intuition) S) as (t & F & D). unfold tp_bsfc_at. rewrite D. cbn [option_map]. apply query_outside.
  assert (L : rows_in t (fun _ b _ => 3048 <= b)).
  { refine (table_ok_spec (fun _ y _ => Qle_bool 3048 y) (bsfc_table "T56-A") _ _ _ t _ _ F _); [vm_compute; reflexivity|].
    intros x y z B. apply Qleb_R in B. replace (Q2R 3048) with 3048 in B by (unfold Q2R; cbn; lra). exact B. }
  intros N. apply hull_swap in N. revert N. apply (hull_bound _ _ h); [|lra]. intros r J. apply drop_nan_y in J.
  destruct L as (_ & _ & L1 & K). apply In_nth_error in J. destruct J as (i & J).
  assert (Li : (i < List.length (tz t))%nat) by (rewrite <- L1; apply nth_error_Some; congruence). destruct (K i Li) as (a & b & z & (_ & E & _) & O). rewrite J in E. injection E as ->. lra.
Qed.
End Grid.
(** rows without a Mach number *)
Definition gapb (f a b c : string) : bool :=
  match qrows f a b c with Ok (x, _, _) => existsb (fun p => match p with None => true | _ => false end) x | _ => false end.
Lemma tsfc_gaps e d : In e ["J52"; "J60"]%string -> shipped_jet e d -> exists t i, jt_tsfc d = Some t /\ nth_error (tx t) i = Some NonFin.
Proof.
  intros I S. assert (Ie : In e (map fst tsfc_starts)) by (cbn in I |- *; intuition). destruct (jet_tsfc_table e d Ie S) as (t & F & D). exists t.
  assert (B : gapb (tsfc_table e) "Mach Number" "Thrust (N)" "TSFC (g/(kNs))" = true) by (destruct I as [<-|[<-|[]]]; vm_compute; reflexivity).
  unfold gapb in B. rewrite table_file in F. destruct (qrows (tsfc_table e) "Mach Number" "Thrust (N)" "TSFC (g/(kNs))") as [((x, y), z)|]; [|discriminate B].
  cbn [rmap] in F. injection F as <-. apply existsb_exists in B. destruct B as (p & J & P). destruct p as [p|]; [discriminate P|].
  apply In_nth_error in J. destruct J as (i & J). exists i. split; [exact D|]. cbn [tx fst snd]. rewrite nth_error_map, J. reflexivity.
Qed.
Lemma tsfc_numbers e d : In e ["ATF3-6A"; "FJ-44"; "JT8D-9"; "JT9D-3"; "TF30"; "TFE731-5"]%string -> shipped_jet e d ->
  exists t, jt_tsfc d = Some t /\ rows_in t (fun m f c => 0 < m /\ 0 < f /\ 0 < c).
Proof.
  intros I S. assert (Ie : In e (map fst tsfc_starts)) by (cbn in I |- *; intuition). destruct (jet_tsfc_table e d Ie S) as (t & F & D). exists t. split; [exact D|].
  refine (table_ok_spec (positive 0 0) (tsfc_table e) _ _ _ t _ _ F _).
  - apply (tables_check _ ["ATF3-6A"; "FJ-44"; "JT8D-9"; "JT9D-3"; "TF30"; "TFE731-5"]%string tsfc_table); [vm_compute; reflexivity|exact I].
  - intros x y z H. apply positive_spec in H. rewrite Q2R_z in H. exact H.
Qed.
(** ** The order of the files of the IO-540 *)
Lemma io540_loads : exists d, piston_deck shipped_csv shipped_text parse_float "IO-540" piston_files = Ok d.
Proof. apply okb_spec. vm_compute. reflexivity. Qed.
Definition keyb {A} (x : res A) : bool := match x with Err KeyError => true | _ => false end.
Lemma keyb_spec {A} (x : res A) : keyb x = true -> x = Err KeyError.
Proof. destruct x as [|[]]; try discriminate. reflexivity. Qed.
Lemma io540_fails : exists l, Permutation piston_files l /\ piston_deck shipped_csv shipped_text parse_float "IO-540" l = Err KeyError.
Proof.
  exists piston_files'. split; [unfold piston_files, piston_files'; eapply perm_trans; [apply perm_skip; apply perm_swap|]; apply perm_swap|].
  apply keyb_spec. vm_compute. reflexivity.
Qed.
