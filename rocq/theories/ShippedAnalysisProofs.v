(** Requirements outside the tables of an engine. *)
From Coq Require Import String QArith Qreals Permutation.
From Verif Require Import Base BaseFacts AtmosModel AtmosSpec ConceptModel MethodsModel MethodsSpec UnitsModel
  PropulsionModel PropulsionSpec PropulsionProofs8 EngineObjectSpec ShippedModel ShippedSpec ShippedDecks ShippedFacts ShippedAnalysisSpec.
Open Scope R_scope.

(** ** Values without numbers *)
Lemma ndiv_blank x : ndiv x NonFin = NonFin. Proof. destruct x; reflexivity. Qed.
Lemma nmax_blank_r x : nmax x NonFin = NonFin. Proof. destruct x; reflexivity. Qed.
Lemma blank_revert v : blank v -> blank (reverttoscalar v).
Proof. destruct v as [x|[|x [|y l]]|[|x [|y l]]]; exact (fun H => H). Qed.
Lemma blank_map {A} (f : A -> num) l : (forall x, In x l -> f x = NonFin) -> blank (VArr (map f l)).
Proof. intros H x I. cbn in I. apply in_map_iff in I. destruct I as (y & <- & J). auto. Qed.
Lemma blank_vlit f v r : (f NonFin = NonFin) -> blank v -> vlit f v = Ok r -> blank r.
Proof.
  intros F B. destruct v as [x|l|l]; cbn [vlit]; intros E; try discriminate E; injection E as <-.
  - intros y [<-|[]]. rewrite (B x); [exact F|left; reflexivity].
  - apply blank_map. intros x I. rewrite (B x I). exact F.
Qed.
Lemma broadcast_blank f a b r : (forall x, f x NonFin = NonFin) -> (forall y, In y b -> y = NonFin) -> broadcast f a b = Ok r ->
  forall z, In z r -> z = NonFin.
Proof.
  intros F B. unfold broadcast. destruct (Nat.eqb _ _).
  - intros E. injection E as <-. intros z I. apply in_map_iff in I. destruct I as ((x & y) & <- & J). cbn. apply in_combine_r in J. rewrite (B y J). apply F.
  - assert (K : forall x, Ok (map (f x) b) = Ok r -> forall z, In z r -> z = NonFin).
    { intros x E. injection E as <-. intros z I. apply in_map_iff in I. destruct I as (y & <- & J). rewrite (B y J). apply F. }
    assert (K2 : forall y, In y b -> Ok (map (fun x => f x y) a) = Ok r -> forall z, In z r -> z = NonFin).
    { intros y J E. injection E as <-. intros z I. apply in_map_iff in I. destruct I as (x & <- & _). rewrite (B y J). apply F. }
    destruct a as [|x [|x2 a]].
    + destruct b as [|y [|y2 b]]; try discriminate. apply K2. left; reflexivity.
    + apply K.
    + destruct b as [|y [|y2 b]]; try discriminate. apply K2. left; reflexivity.
Qed.
Lemma blank_corrected x corr r : blank corr -> corrected true x corr = Ok r -> blank r.
Proof.
  unfold corrected. intros B. destruct x as [x|a|a], corr as [y|b|b]; cbn [vop2]; intros E; try discriminate E.
  - injection E as <-. intros z [<-|[]]. rewrite (B y); [apply ndiv_blank|left; reflexivity].
  - injection E as <-. apply blank_map. intros z I. rewrite (B z I). apply ndiv_blank.
  - destruct (broadcast ndiv a b) as [l|] eqn:K; [|discriminate E]. injection E as <-. exact (broadcast_blank _ _ _ _ ndiv_blank B K).
  - injection E as <-. apply blank_map. intros z I. rewrite (B y); [apply ndiv_blank|left; reflexivity].
  - destruct (broadcast ndiv a b) as [l|] eqn:K; [|discriminate E]. injection E as <-. exact (broadcast_blank _ _ _ _ ndiv_blank B K).
  - destruct (broadcast ndiv a b) as [l|] eqn:K; [|discriminate E]. injection E as <-. exact (broadcast_blank _ _ _ _ ndiv_blank B K).
Qed.
Lemma arrmax_blank a : forall b r, arrmax a b = Ok r -> ((forall x, In x a -> x = NonFin) \/ (forall x, In x b -> x = NonFin)) -> forall x, In x r -> x = NonFin.
Proof.
  induction a as [|p a IH]; intros [|q b] r; cbn [arrmax]; try discriminate.
  - intros E _. injection E as <-. intros x [].
  - destruct (arrmax a b) as [l|] eqn:K; [|discriminate]. cbn [rbind]. intros E H. injection E as <-. intros x [<-|I].
    + destruct H as [H|H]; [rewrite (H p)|rewrite (H q)]; try (left; reflexivity); [reflexivity|apply nmax_blank_r].
    + apply (IH b l K); [|exact I]. destruct H as [H|H]; [left|right]; intros y J; apply H; right; exact J.
Qed.
Lemma vmax_blank a b r : vmax a b = Ok r -> blank a \/ blank b -> blank r.
Proof.
  destruct a as [x|l|l], b as [y|m|m]; cbn [vmax]; try discriminate.
  - intros E H. injection E as <-. intros z [<-|[]]. destruct H as [H|H]; [rewrite (H x)|rewrite (H y)]; try (left; reflexivity); [reflexivity|apply nmax_blank_r].
  - destruct (arrmax l m) as [k|] eqn:K; [|discriminate]. intros E H. injection E as <-. exact (arrmax_blank l m k K H).
Qed.
Lemma npmax5_blank a b c d e r : npmax5 a b c d e = Ok r -> blank a \/ blank b \/ blank c \/ blank d \/ blank e -> blank r.
Proof.
  unfold npmax5. destruct (vmax a b) as [x|] eqn:E1; [|discriminate]. cbn [rbind]. destruct (vmax x c) as [y|] eqn:E2; [|discriminate]. cbn [rbind].
  destruct (vmax y d) as [z|] eqn:E3; [|discriminate]. cbn [rbind]. intros E4 H.
  pose proof (vmax_blank _ _ _ E1). pose proof (vmax_blank _ _ _ E2). pose proof (vmax_blank _ _ _ E3). pose proof (vmax_blank _ _ _ E4). tauto.
Qed.

(** ** Requirements with a correction that is nan *)
Ltac step H := match type of H with
  | rbind ?a _ = Ok _ => let x := fresh "x" in let E := fresh "E" in destruct a as [x|] eqn:E; [cbn [rbind] in H|discriminate H]
  end.
Lemma ok_triple {A B C} (a x : A) (b y : B) (d z : C) : Ok (x, y, z) = Ok (a, b, d) -> x = a /\ y = b /\ z = d.
Proof. intros H. injection H as -> -> ->. auto. Qed.
Section Analysis.
  Variables (ext : externals) (c : concept).
  Definition thrust_blank (alt : num) : Prop := forall v corr, propulsion_slcorr ext c v alt = Ok corr -> blank (fst corr).
  Definition power_blank (alt : num) : Prop := forall v corr, propulsion_slcorr ext c v alt = Ok corr -> blank (snd corr).
  Lemma clm_blank ws r : thrust_blank (pval (climbalt_m c)) -> twrequired_clm ext c ws true = Ok r -> blank r.
  Proof.
    unfold twrequired_clm. intros B H. repeat (step H; cbv zeta in H). injection H as <-. apply blank_revert.
    eapply blank_vlit; [| |eassumption]; [reflexivity|]. eapply blank_corrected; [|eassumption]. eapply B. eassumption.
  Qed.
  Lemma crs_blank ws r h : cruisealt_m c = Some h -> thrust_blank h -> twrequired_crs ext c ws true = Ok r -> blank r.
  Proof.
    unfold twrequired_crs. intros A B H. rewrite A in H. cbn [required rbind] in H. repeat (step H; cbv zeta in H). injection H as <-. apply blank_revert.
    eapply blank_vlit; [| |eassumption]; [reflexivity|]. eapply blank_corrected; [|eassumption]. eapply B. eassumption.
  Qed.
  Lemma sec_blank ws r h : servceil_m c = Some h -> thrust_blank h -> twrequired_sec ext c ws true = Ok r -> blank r.
  Proof.
    unfold twrequired_sec. intros A B H. rewrite A in H. cbn [required rbind] in H. repeat (step H; cbv zeta in H). injection H as <-. apply blank_revert.
    eapply blank_vlit; [| |eassumption]; [reflexivity|]. eapply blank_corrected; [|eassumption]. eapply B. eassumption.
  Qed.
  Lemma trn_blank ws a b d : thrust_blank (pval (turnalt_m c)) -> twrequired_trn ext c ws true = Ok (a, b, d) -> blank a /\ blank d.
  Proof.
    unfold twrequired_trn. intros B H. repeat (step H; cbv zeta in H). apply ok_triple in H. destruct H as (<- & _ & <-).
    assert (K : blank x4).
    { eapply blank_vlit; [| |eassumption]; [reflexivity|]. eapply blank_corrected; [|eassumption]. eapply B. eassumption. }
    split; apply blank_revert; [exact K|]. apply blank_map. intros (t & l) I. apply in_combine_l in I. cbn [fst snd]. unfold feasible.
    destruct (_ <? _); [reflexivity|]. apply K. destruct x4; exact I.
  Qed.
  Lemma mapM_blank {A} (f : A -> res num) l : forall r, (forall x y, f x = Ok y -> y = NonFin) -> mapM f l = Ok r -> forall z, In z r -> z = NonFin.
  Proof.
    induction l as [|a l IH]; cbn [mapM]; intros r F H; [injection H as <-; intros z []|].
    repeat step H. injection H as <-. intros z [<-|I]; [apply (F a); assumption|]. exact (IH _ F eq_refl z I).
  Qed.
  Lemma as1_blank v x : blank v -> as1 v = Ok x -> x = NonFin.
  Proof. destruct v as [y|[|y [|z l]]|[|y [|z l]]]; cbn; intros B H; try discriminate H; injection H as <-; apply B; left; reflexivity. Qed.
  Lemma to_blank ws a b d : thrust_blank (pval (rwyelevation_m c)) -> twrequired_to ext c ws true = Ok (a, b, d) -> blank a.
  Proof.
    unfold twrequired_to. intros B H. repeat (step H; cbv zeta in H). apply ok_triple in H. destruct H as (<- & _ & _). apply blank_revert.
    refine (mapM_blank _ _ _ _ E1). intros p y K. cbv zeta beta in K. repeat step K. injection K as <-.
    apply B in E2. rewrite (as1_blank _ _ E2 E3). apply ndiv_blank.
  Qed.

  Variables (lo hi : R).
  Hypothesis outside : forall h, h < lo \/ hi < h -> thrust_blank (Fin h).
  Lemma thrust_beyond alt : beyond lo hi alt -> exists h, alt = Some (Fin h) /\ thrust_blank (Fin h).
  Proof. intros (h & E & H). exists h. auto. Qed.
  Lemma tw_blank ws fo r : twrequired ext c ws fo true = Ok r -> blank_beyond lo hi c r.
  Proof.
    unfold twrequired. cbv zeta. intros H. step H. destruct x as ((tt & vl) & va). step H. destruct x as ((tu & cl) & fe).
    step H. step H. step H. step H. injection H as <-. unfold blank_beyond. cbn [rq_takeoff rq_turn rq_turnfeasible rq_climb rq_cruise rq_servceil rq_combined].
    assert (A1 : beyond lo hi (rwyelevation_m c) -> blank tt).
    { intros (h & A & B)%thrust_beyond. eapply to_blank; [|exact E]. rewrite A. exact B. }
    assert (A2 : beyond lo hi (turnalt_m c) -> blank tu /\ blank fe).
    { intros (h & A & B)%thrust_beyond. eapply trn_blank; [|exact E0]. rewrite A. exact B. }
    assert (A3 : beyond lo hi (climbalt_m c) -> blank x).
    { intros (h & A & B)%thrust_beyond. eapply clm_blank; [|exact E1]. rewrite A. exact B. }
    assert (A4 : beyond lo hi (cruisealt_m c) -> blank x0).
    { intros (h & A & B)%thrust_beyond. eapply crs_blank; [exact A|exact B|exact E2]. }
    assert (A5 : beyond lo hi (servceil_m c) -> blank x1).
    { intros (h & A & B)%thrust_beyond. eapply sec_blank; [exact A|exact B|exact E3]. }
    split; [exact A1|]. split; [exact A2|]. split; [exact A3|]. split; [exact A4|]. split; [exact A5|].
    intros (a & I & B). eapply npmax5_blank; [exact E4|].
    destruct I as [<-|[<-|[<-|[<-|[<-|[]]]]]]; [left; exact (A1 B)|right; left; destruct (A2 B), fo; assumption|do 2 right; left; exact (A3 B)|
      do 3 right; left; exact (A4 B)|do 4 right; exact (A5 B)].
  Qed.
End Analysis.
Section Power.
  Variables (ext : externals) (c : concept) (lo hi : R).
  Hypothesis outside : forall h, h < lo \/ hi < h -> power_blank ext c (Fin h).
  Lemma power_beyond alt : beyond lo hi alt -> power_blank ext c (pval alt).
  Proof. intros (h & -> & H). exact (outside h H). Qed.
  Lemma pc_blank v alt k : power_blank ext c alt -> rmap snd (propulsion_slcorr ext c v alt) = Ok k -> blank k.
  Proof. intros B. destruct (propulsion_slcorr ext c v alt) as [p|] eqn:E; [|discriminate]. intros H. injection H as <-. exact (B _ _ E). Qed.
  Lemma pw_blank ws m fo r : powerrequired ext c ws m fo true = Ok r -> blank_beyond lo hi c r.
  Proof.
    unfold powerrequired. cbv zeta. intros H. step H. clear E. repeat step H. injection H as <-.
    unfold blank_beyond. cbn [rq_takeoff rq_turn rq_turnfeasible rq_climb rq_cruise rq_servceil rq_combined].
    assert (A1 : beyond lo hi (rwyelevation_m c) -> blank x2).
    { intros B%power_beyond. eapply blank_corrected; [|exact E1]. eapply pc_blank; eassumption. }
    assert (A2 : beyond lo hi (turnalt_m c) -> blank x7 /\ blank x6).
    { intros B%power_beyond. split; (eapply blank_corrected; [|eassumption]); eapply pc_blank; eassumption. }
    assert (A3 : beyond lo hi (climbalt_m c) -> blank x11).
    { intros B%power_beyond. eapply blank_corrected; [|eassumption]. eapply pc_blank; eassumption. }
    assert (A4 : beyond lo hi (cruisealt_m c) -> blank x14).
    { intros B%power_beyond. eapply blank_corrected; [|eassumption]. eapply pc_blank; eassumption. }
    assert (A5 : beyond lo hi (servceil_m c) -> blank x18).
    { intros B%power_beyond. eapply blank_corrected; [|eassumption]. eapply pc_blank; eassumption. }
    split; [exact A1|]. split; [exact A2|]. split; [exact A3|]. split; [exact A4|]. split; [exact A5|].
    intros (a & I & B). eapply npmax5_blank; [eassumption|].
    destruct I as [<-|[<-|[<-|[<-|[<-|[]]]]]]; [left; exact (A1 B)|right; left; destruct (A2 B), fo; assumption|do 2 right; left; exact (A3 B)|
      do 3 right; left; exact (A4 B)|do 4 right; exact (A5 B)].
  Qed.
End Power.

(** ** Outside the tables *)
Lemma hull_top xs ys c x y : (forall r, In (Fin r) ys -> r <= c) -> in_hull xs ys x y -> y <= c.
Proof.
  intros H (w & F & S1 & _ & S2).
  assert (K : fold_right (fun p s => fst p * snd (snd p) + s) 0 w <= c * fold_right (fun p s => fst p + s) 0 w).
  { clear S1 S2. induction F as [|p w (Hp & Hin) F I]; [cbn; lra|]. cbn [fold_right]. apply in_combine_r in Hin. apply H in Hin. nra. }
  rewrite S1, S2 in K. lra.
Qed.
Lemma rows_hull t lo hi x y : rows_in t (fun _ b _ => lo <= b <= hi) -> y < lo \/ hi < y -> ~ in_hull (tx t) (ty t) x y.
Proof.
  intros K [H|H].
  - apply (rows_low_y t y); [|lra]. eapply rows_weaken; [exact K|]. intros. cbn in *. lra.
  - intros N. apply (hull_top _ _ hi) in N; [lra|]. intros r I. destruct K as (_ & _ & L1 & K). apply In_nth_error in I. destruct I as (i & I).
    assert (Li : (i < List.length (tz t))%nat) by (rewrite <- L1; apply nth_error_Some; congruence). destruct (K i Li) as (a & b & z & (_ & E & _) & O).
    rewrite I in E. injection E as ->. lra.
Qed.
Lemma ratio_outside grid t f lo hi m h : no_extrapolation grid -> ratio_of grid t f -> rows_in t (fun _ b _ => lo <= b <= hi) ->
  h < lo \/ hi < h -> f m (Fin h) = NonFin.
Proof.
  intros (N1 & N2 & _) (top & _ & F) K H. rewrite F. destruct m as [m|]; [|rewrite N2; reflexivity].
  rewrite N1; [reflexivity|]. exact (rows_hull t lo hi m h K H).
Qed.
Lemma jet_outside grid ext c t f lo hi h : no_extrapolation grid -> ratio_of grid t f -> rows_in t (fun _ b _ => lo <= b <= hi) ->
  propulsion c = PropJet f -> h < lo \/ hi < h -> thrust_blank ext c (Fin h).
Proof.
  intros N F K P H v corr. unfold propulsion_slcorr, sl_propulsion. rewrite P. cbn [rbind]. destruct (mach _ _ _) as [m|]; [|discriminate].
  cbn [rbind]. cbv zeta. intros E. injection E as <-. cbn [fst]. apply blank_map. intros x _. eapply ratio_outside; eassumption.
Qed.
Lemma turboprop_outside grid ext c t f lo hi h : no_extrapolation grid -> ratio_of grid t f -> rows_in t (fun _ b _ => lo <= b <= hi) ->
  propulsion c = PropTurboprop f -> h < lo \/ hi < h -> power_blank ext c (Fin h).
Proof.
  intros N F K P H v corr. unfold propulsion_slcorr, sl_propulsion. rewrite P. cbn [rbind]. destruct (mach _ _ _) as [m|]; [|discriminate].
  cbn [rbind]. cbv zeta. intros E. injection E as <-. cbn [snd]. apply blank_map. intros x _. eapply ratio_outside; eassumption.
Qed.
Lemma piston_outside grid ext c t f g rpms lo hi h : no_extrapolation grid -> ratio_of grid t f -> rows_in t (fun _ b _ => lo <= b <= hi) ->
  propulsion c = PropPiston rpms g f -> h < lo \/ hi < h -> power_blank ext c (Fin h).
Proof.
  intros N F K P H v corr. unfold propulsion_slcorr, sl_propulsion. rewrite P. cbn [rbind]. destruct (mach _ _ _) as [m|]; [|discriminate].
  cbn [rbind]. cbv zeta. destruct (AtmosModel.pymax rpms) as [fast|]; [|discriminate]. cbn [rbind]. intros E. injection E as <-. cbn [snd].
  apply blank_map. intros x _. eapply ratio_outside; eassumption.
Qed.
