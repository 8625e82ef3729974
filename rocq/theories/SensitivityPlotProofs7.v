(** The sensitivity diagrams: clean stall line, parts and labels. *)
From Verif Require Import Base BaseFacts UnitsModel AtmosModel AtmosSpec ConceptModel ConceptSpec MethodsModel SensitivityModel SensitivitySpec
  SensitivityPlotModel SensitivityPlotSpec ConceptProofs MethodsProofs SensitivityProofs SensitivityProofs2 SensitivityPlotProofs
  SensitivityPlotProofs2 SensitivityPlotProofs3 SensitivityPlotProofs4.
Open Scope R_scope.
Open Scope string_scope.

Lemma stall_line ext self wl y yl x labels mask d ws xs o :
  propulsionsensitivity_monothetic ext self wl y yl x labels (ShowOne "combined") mask = Ok [DCombined d] ->
  axis self wl x ws xs -> stall_position self x o ->
  forall p, cd_stall d = Some p <-> exists L a b, o = Some L /\ p = Fin L /\ In a xs /\ In b xs /\ a < L < b.
Proof.
  intros H A ST p. destruct (combined_inv _ _ _ _ _ _ _ _ _ H) as (fg & F & P).
  destruct (figure_inv _ _ _ _ _ _ _ F) as (s & med & comb & fx & S & _ & _ & _ & X & XS & _).
  rewrite (axis_x _ _ _ _ _ A) in X.
  destruct (sensitivity_inv _ _ _ _ _ _ S) as (w & _ & W & _).
  destruct (stall_fg self x o w ST W) as (E & Q). rewrite W in XS. cbn [pval] in XS. rewrite E in XS. injection XS as XS.
  unfold combinedplot in P. rewrite X in P. apply rbind_ok in P as (lo & LO & P). apply rbind_ok in P as (hi & HI & P). cbv zeta in P.
  apply rbind_ok in P as (tl & TL & P). match type of P with (let '(_, _) := ?e in _) = _ => destruct e as [u v] end.
  apply rbind_ok in P as (xf & XF & P). apply rbind_ok in P as (yf & YF & P). injection P as <-. cbn [cd_stall]. clear XF YF TL.
  apply pymaxn_largest in HI as (rs & b & E1 & -> & I1 & L1). apply pyminn_smallest in LO as (rs' & a & E2 & -> & I2 & L2).
  apply map_Fin_inj in E1. apply map_Fin_inj in E2. subst rs rs'. rewrite <- XS.
  destruct o as [L|]; [|split; [discriminate|intros (? & ? & ? & ? & _); discriminate]].
  specialize (Q L eq_refl). cbn [truthy]. rewrite (Reqb_false L 0) by lra. cbn [negb andb]. unfold inside. rewrite !nltb_fin. split.
  - destruct (Rltb_reflect a L) as [Q1|Q1]; [|discriminate]. destruct (Rltb_reflect L b) as [Q2|Q2]; [|discriminate].
    cbn. intros [= <-]. exists L, a, b. repeat split; assumption.
  - intros (L' & a' & b' & [= <-] & -> & IA & IB & QQ). specialize (L2 a' IA). specialize (L1 b' IB).
    rewrite (Rltb_true a L), (Rltb_true L b) by lra. reflexivity.
Qed.

Lemma labelled_of labels k : label_of labels k (labelled labels k).
Proof.
  unfold label_of, labelled. destruct (dget k labels) as [l|] eqn:E; [left; apply dget_binds, E|right].
  split; [apply dget_unbound, E|reflexivity].
Qed.

Lemma diagram_contents ext self wl y yl x labels mask cn sel ds s med ws xs : In (cn, sel) analysed ->
  propulsionsensitivity_monothetic ext self wl y yl x labels (ShowOne cn) mask = Ok ds ->
  sensitivity ext self wl y = Ok (s, med) -> axis self wl x ws xs ->
  exists a b parts masks prime out, ds = [DSensitivity cn (Fin a, Fin b) parts masks] /\
  In a xs /\ In b xs /\ (forall p, In p xs -> a <= p <= b) /\
  binds (primes s) cn prime /\ shares (List.length ws) prime = Ok out /\
  (prime <> [] -> Forall2 (fun kq part => label_of labels (fst kq) (fst part) /\ snd part = snd kq) out parts) /\
  (prime = [] -> parts = [("N/A", repeat (Fin 0) (List.length ws))]) /\ (mask = false -> masks = []).
Proof.
  intros I H S A. destruct (sens_diagram_inv _ _ _ _ _ _ _ _ _ _ _ I H) as (fg & d & F & P & ->).
  destruct (figure_inv _ _ _ _ _ _ _ F) as (s' & med' & comb & fx & S' & CC & FS & M & X & _).
  rewrite S in S'. injection S' as <- <-. rewrite (axis_x _ _ _ _ _ A) in X.
  unfold sensitivityplot in P. cbn [fst snd] in P. rewrite X, FS in P. apply rbind_ok in P as (prime & PR & P). apply rbind_ok in P as (out & SH & P).
  apply rbind_ok in P as (lo & LO & P). apply rbind_ok in P as (hi & HI & P). apply rbind_ok in P as (mk & MK & P). injection P as <-.
  apply pymaxn_largest in HI as (rs & b & E1 & -> & I1 & L1). apply pyminn_smallest in LO as (rs' & a & E2 & -> & I2 & L2).
  apply map_Fin_inj in E1. apply map_Fin_inj in E2. subst rs rs'.
  assert (LN : List.length xs = List.length ws).
  { destruct A as (_ & A). destruct x; [rewrite A; reflexivity|]. destruct A as (W & _ & _ & _ & ->). apply map_length. }
  rewrite map_length, LN in SH.
  eexists a, b, _, mk, prime, out. split; [reflexivity|]. repeat (split; [assumption|]). split; [auto|].
  split. { unfold dindex in PR. destruct (dget cn (primes s)) as [v|] eqn:E; [|discriminate]. injection PR as ->. apply dget_binds, E. }
  split; [exact SH|]. split; [|split].
  - intros NE. destruct prime as [|k0 pr]; [congruence|]. clear. induction out as [|[k q] r IH]; cbn [map]; constructor; [|exact IH].
    split; [apply labelled_of|reflexivity].
  - intros ->. cbn in SH. injection SH as <-. reflexivity.
  - intros ->. injection MK as <-. reflexivity.
Qed.
