(** Proofs about Atmosphere queries: C04, C06-C13. *)
From Verif Require Import Base BaseFacts AnalysisFacts UnitsModel AtmosModel AtmosSpec
  IsaReal IsaProofs IsaInverse.
Open Scope R_scope.

(** ** pointwise queries *)

(** [f] runs [g] on every element and wraps the list with [w] *)
Definition lifts (w : list num -> val) (g : num -> res num) (f : val -> res val) : Prop :=
  forall v, elements v <> [] ->
    match mapM g (elements v) with
    | Ok r => f v = Ok (reverttoscalar (w r))
    | Err _ => exists e, f v = Err e
    end.

Lemma mapM_ok_iff {A B} (g : A -> res B) l :
  (exists r, mapM g l = Ok r) <-> Forall (fun x => exists y, g x = Ok y) l.
Proof.
  induction l as [|x t IH]; cbn [mapM].
  - split; [constructor|exists []; reflexivity].
  - split.
    + intros [r Hr]. destruct (g x) as [y|e] eqn:Hx; cbn [rbind] in Hr; [|discriminate].
      destruct (mapM g t) as [ys|e]; cbn [rbind] in Hr; [|discriminate].
      constructor; [exists y; exact Hx|]. apply IH. exists ys; reflexivity.
    + intros H; inversion_clear H as [|? ? [y Hy] Ht]. apply IH in Ht. destruct Ht as [ys Hys].
      exists (y :: ys). rewrite Hy, Hys. reflexivity.
Qed.
Lemma mapM_forall2 {A B} (g : A -> res B) l r :
  mapM g l = Ok r -> Forall2 (fun x y => g x = Ok y) l r.
Proof.
  revert r; induction l as [|x t IH]; intros r; cbn [mapM].
  - intros [= <-]; constructor.
  - destruct (g x) as [y|e] eqn:Hx; cbn [rbind]; [|discriminate].
    destruct (mapM g t) as [ys|e]; cbn [rbind]; [|discriminate].
    intros [= <-]; constructor; [exact Hx|apply IH; reflexivity].
Qed.

Definition wrapper (w : list num -> val) := w = VArr \/ w = VList.
Lemma wrapper_elements w l : wrapper w -> elements (reverttoscalar (w l)) = l.
Proof. intros [-> | ->]; destruct l as [|x [|y t]]; reflexivity. Qed.
Lemma wrapper_scalar w l : wrapper w ->
  (List.length l = 1%nat <-> exists y, reverttoscalar (w l) = VNum y).
Proof.
  intros [-> | ->]; destruct l as [|x [|y t]]; simpl; split; intros H; try discriminate;
  try (destruct H; discriminate); try (exists x; reflexivity); reflexivity.
Qed.
Lemma wrapper_one w x : wrapper w -> reverttoscalar (w [x]) = VNum x.
Proof. intros [-> | ->]; reflexivity. Qed.

Lemma lifts_single w g f x y : wrapper w -> lifts w g f ->
  (f (VNum x) = Ok (VNum y) <-> g x = Ok y).
Proof.
  intros Hw H. specialize (H (VNum x)). simpl elements in H.
  specialize (H ltac:(discriminate)). cbn [mapM] in H.
  destruct (g x) as [z|e]; cbn [rbind] in H.
  - rewrite H, (wrapper_one w z Hw). split; intros E; injection E as E; subst; reflexivity.
  - destruct H as [e' ->]. split; discriminate.
Qed.
Lemma lifts_pointwise w g f : wrapper w -> lifts w g f -> pointwise f.
Proof.
  intros Hw H v Hv. pose proof (H v Hv) as Hf.
  assert (forall x y, f (VNum x) = Ok (VNum y) <-> g x = Ok y) as Hs
    by (intros; apply (lifts_single w); assumption).
  split.
  - split.
    + intros [r Hr]. destruct (mapM g (elements v)) as [ys|e] eqn:Hm.
      * assert (exists r, mapM g (elements v) = Ok r) as K by (exists ys; exact Hm).
        apply mapM_ok_iff in K. eapply Forall_impl; [|exact K].
        intros x [y Hy]. exists y. apply Hs; exact Hy.
      * destruct Hf as [e' Hf]. congruence.
    + intros K. assert (Forall (fun x => exists y, g x = Ok y) (elements v)) as K2.
      { eapply Forall_impl; [|exact K]. intros x [y Hy]. exists y. apply Hs; exact Hy. }
      apply mapM_ok_iff in K2. destruct K2 as [ys Hy]. rewrite Hy in Hf. eexists; exact Hf.
  - intros r Hr. destruct (mapM g (elements v)) as [ys|e] eqn:Hm.
    + rewrite Hr in Hf. injection Hf as ->. rewrite wrapper_elements by exact Hw.
      split.
      * apply mapM_forall2 in Hm. clear -Hm Hs.
        induction Hm as [|x y l l' Hxy Hl IH]; constructor; [apply Hs; exact Hxy|exact IH].
      * rewrite <- (mapM_length _ _ _ Hm). apply wrapper_scalar; exact Hw.
    + destruct Hf as [e' Hf]. congruence.
Qed.

(** the altitude check, one altitude at a time *)
Definition altok (atm : atmosphere) (x : num) : res num :=
  match prof atm with
  | None => if (Level5 <? x)%num then Err TypeError else Ok x
  | Some p =>
      do lo <- pymin (alt_m p); do hi <- pymax (alt_m p);
      if (x <? Fin lo)%num then Err TypeError
      else if (Fin hi <? x)%num then Err TypeError else Ok x
  end.

Lemma mapM_guard {A} (b : A -> bool) e (l : list A) :
  mapM (fun x => if b x then Err e else Ok x) l
  = if existsb b l then Err e else Ok l.
Proof.
  induction l as [|x t IH]; cbn [mapM existsb]; [reflexivity|].
  destruct (b x); cbn [rbind orb]; [reflexivity|]. rewrite IH.
  destruct (existsb b t); reflexivity.
Qed.
Lemma mapM_ext {A B} (f g : A -> res B) l : (forall x, f x = g x) -> mapM f l = mapM g l.
Proof. intros H; induction l as [|x t IH]; cbn [mapM]; [reflexivity|rewrite H, IH; reflexivity]. Qed.

Lemma alttest_mapM atm v : elements v <> [] ->
  match mapM (altok atm) (elements v) with
  | Ok l => alttest atm v = Ok (elements v) /\ l = elements v
  | Err _ => exists e, alttest atm v = Err e
  end.
Proof.
  intros Hv. unfold alttest. change (recastasnpfloatarray v) with (elements v).
  unfold altok. destruct (prof atm) as [p|].
  - destruct (pymin (alt_m p)) as [lo|e]; cbn [rbind].
    2:{ destruct (elements v); [congruence|]. cbn. eexists; reflexivity. }
    destruct (pymax (alt_m p)) as [hi|e]; cbn [rbind].
    2:{ destruct (elements v); [congruence|]. cbn. eexists; reflexivity. }
    rewrite (mapM_ext _ (fun x => if ((x <? Fin lo) || (Fin hi <? x))%num%bool then Err TypeError else Ok x)).
    2:{ intros x. destruct (x <? Fin lo)%num; [reflexivity|]. destruct (Fin hi <? x)%num; reflexivity. }
    rewrite mapM_guard.
    assert (existsb (fun x => ((x <? Fin lo) || (Fin hi <? x))%num%bool) (elements v)
       = (existsb (fun x => x <? Fin lo)%num (elements v) || existsb (fun x => Fin hi <? x)%num (elements v))%bool) as E.
    { clear. induction (elements v) as [|x t IH]; [reflexivity|]. cbn [existsb]. rewrite IH.
      destruct (x <? Fin lo)%num, (Fin hi <? x)%num; cbn; rewrite ?orb_true_r; reflexivity. }
    rewrite E. destruct (existsb (fun x => x <? Fin lo)%num (elements v)); cbn [orb].
    + eexists; reflexivity.
    + destruct (existsb (fun x => Fin hi <? x)%num (elements v)); [eexists; reflexivity|split; reflexivity].
  - rewrite mapM_guard. destruct (existsb _ (elements v)); [eexists; reflexivity|split; reflexivity].
Qed.

Lemma mapM_bind {A B C} (f : A -> res B) (g : B -> res C) l :
  match mapM f l with
  | Ok m => match mapM g m with
            | Ok r => mapM (fun x => do y <- f x; g y) l = Ok r
            | Err _ => exists e, mapM (fun x => do y <- f x; g y) l = Err e
            end
  | Err _ => exists e, mapM (fun x => do y <- f x; g y) l = Err e
  end.
Proof.
  induction l as [|x t IH]; cbn [mapM]; [reflexivity|].
  destruct (f x) as [y|e]; cbn [rbind]; [|eexists; reflexivity].
  destruct (mapM f t) as [m|e]; cbn [rbind mapM].
  - destruct (g y) as [z|e]; cbn [rbind]; [|eexists; reflexivity].
    destruct (mapM g m) as [r|e]; cbn [rbind].
    + rewrite IH; reflexivity.
    + destruct IH as [e' ->]. eexists; reflexivity.
  - destruct IH as [e' IH]. destruct (g y) as [z|e2]; cbn [rbind]; [|eexists; reflexivity].
    rewrite IH. eexists; reflexivity.
Qed.

(** a query that checks the altitudes and then runs [g] on each *)
Lemma query_lifts atm (g : num -> res num) (body : list num -> res (list num)) f :
  (forall v, f v = do l <- alttest atm v; do r <- body l; Ok (reverttoscalar (VArr r))) ->
  (forall l, l <> [] -> body l = mapM g l) ->
  lifts VArr (fun x => do y <- altok atm x; g y) f.
Proof.
  intros Hf Hb v Hv. rewrite Hf. pose proof (alttest_mapM atm v Hv) as A.
  pose proof (mapM_bind (altok atm) g (elements v)) as B.
  destruct (mapM (altok atm) (elements v)) as [m|e].
  - destruct A as [A ->]. rewrite A. cbn [rbind]. rewrite Hb by exact Hv.
    destruct (mapM g (elements v)) as [r|e]; cbn [rbind].
    + rewrite B. reflexivity.
    + destruct B as [e' ->]. eexists; reflexivity.
  - destruct B as [e' ->]. destruct A as [e2 ->]. eexists; reflexivity.
Qed.
Lemma nditer_mapM f l : l <> [] -> nditer_map f l = mapM f l.
Proof. destruct l; [congruence|reflexivity]. Qed.

Definition gtemp atm := match prof atm with
  | None => fun a => Ok (isatemp1 (offset_deg atm) a) | Some p => ftemp_k p end.
Definition gpress atm := match prof atm with
  | None => fun a => Ok (isapress1 a) | Some p => fp_pa p end.
Definition gdens atm := match prof atm with
  | None => fun a => Ok (isadens1 (offset_deg atm) a) | Some p => frho_kgpm3 p end.

Lemma airtemp_lifts atm : lifts VArr (fun x => do y <- altok atm x; gtemp atm y) (airtemp_k atm).
Proof.
  apply (query_lifts atm _ (fun l => match prof atm with
          | None => isatemp_k (offset_deg atm) l | Some p => mapM (ftemp_k p) l end)).
  - reflexivity.
  - intros l Hl. unfold gtemp. destruct (prof atm); [reflexivity|apply nditer_mapM; exact Hl].
Qed.
Lemma airpress_lifts atm : lifts VArr (fun x => do y <- altok atm x; gpress atm y) (airpress_pa atm).
Proof.
  apply (query_lifts atm _ (fun l => match prof atm with
          | None => isapress_pa l | Some p => mapM (fp_pa p) l end)).
  - reflexivity.
  - intros l Hl. unfold gpress. destruct (prof atm); [reflexivity|apply nditer_mapM; exact Hl].
Qed.
Lemma airdens_lifts atm : lifts VArr (fun x => do y <- altok atm x; gdens atm y) (airdens_kgpm3 atm).
Proof.
  apply (query_lifts atm _ (fun l => match prof atm with
          | None => isadens_kgpm3 (offset_deg atm) l | Some p => mapM (frho_kgpm3 p) l end)).
  - reflexivity.
  - intros l Hl. unfold gdens. destruct (prof atm); [reflexivity|apply nditer_mapM; exact Hl].
Qed.

Lemma vlit_arr h r : vlit h (reverttoscalar (VArr r)) = Ok (reverttoscalar (VArr (map h r))).
Proof. destruct r as [|x [|y t]]; reflexivity. Qed.
Lemma mapM_rmap {A B C} (g : A -> res B) (h : B -> C) l :
  mapM (fun x => rmap h (g x)) l = rmap (map h) (mapM g l).
Proof.
  induction l as [|x t IH]; cbn [mapM]; [reflexivity|]. rewrite IH.
  destruct (g x); cbn [rmap rbind]; [|reflexivity]. destruct (mapM g t); reflexivity.
Qed.
Lemma lifts_vlit g f h : lifts VArr g f ->
  lifts VArr (fun x => rmap h (g x)) (fun v => do r <- f v; vlit h r).
Proof.
  intros H v Hv. specialize (H v Hv). rewrite mapM_rmap.
  destruct (mapM g (elements v)) as [r|e]; cbn [rmap].
  - rewrite H; cbn [rbind]. apply vlit_arr.
  - destruct H as [e' ->]. eexists; reflexivity.
Qed.

(** speed of sound: the same, but a Python list comes back *)
Lemma vsound_of_list r : r <> [] ->
  match mapM vsound1 r with
  | Ok s => vsound_of (reverttoscalar (VArr r)) = Ok (reverttoscalar (VList s))
  | Err _ => exists e, vsound_of (reverttoscalar (VArr r)) = Err e
  end.
Proof.
  destruct r as [|x [|y t]]; [congruence| |]; intros _.
  - cbn [reverttoscalar vsound_of mapM]. destruct (vsound1 x); cbn; [reflexivity|eexists; reflexivity].
  - change (reverttoscalar (VArr (x :: y :: t))) with (VArr (x :: y :: t)).
    cbn [vsound_of]. destruct (mapM vsound1 (x :: y :: t)); cbn [rbind]; [reflexivity|eexists; reflexivity].
Qed.
Lemma revert_idem w l : wrapper w -> reverttoscalar (reverttoscalar (w l)) = reverttoscalar (w l).
Proof. intros [-> | ->]; destruct l as [|x [|y t]]; reflexivity. Qed.

Lemma altok_twice atm x : (do y <- altok atm x; do z <- altok atm y; Ok z) = altok atm x.
Proof.
  unfold altok. destruct (prof atm) as [p|].
  - destruct (pymin (alt_m p)); cbn [rbind]; [|reflexivity].
    destruct (pymax (alt_m p)); cbn [rbind]; [|reflexivity].
    destruct (x <? Fin a)%num eqn:E1; cbn [rbind]; [reflexivity|].
    destruct (Fin a0 <? x)%num eqn:E2; cbn [rbind]; [reflexivity|].
    rewrite E1, E2; reflexivity.
  - destruct (Level5 <? x)%num eqn:E; cbn [rbind]; [reflexivity|]. rewrite E; reflexivity.
Qed.

Lemma vsound_lifts atm :
  lifts VList (fun x => do y <- altok atm x; do t <- gtemp atm y; vsound1 t) (vsound_mps atm).
Proof.
  intros v Hv. unfold vsound_mps.
  pose proof (alttest_mapM atm v Hv) as A.
  pose proof (mapM_bind (altok atm) (fun y => do t <- gtemp atm y; vsound1 t) (elements v)) as B.
  pose proof (mapM_bind (gtemp atm) vsound1 (elements v)) as T.
  destruct (mapM (altok atm) (elements v)) as [m|e] eqn:Em.
  - destruct A as [A ->]. rewrite A. cbn [rbind].
    pose proof (airtemp_lifts atm (VList (elements v))) as L. cbn [elements] in L.
    specialize (L Hv).
    pose proof (mapM_bind (altok atm) (gtemp atm) (elements v)) as G. rewrite Em in G.
    destruct (mapM (gtemp atm) (elements v)) as [r|e] eqn:Er.
    + rewrite G in L. rewrite L. cbn [rbind].
      assert (r <> []) as Hr.
      { intros ->. apply mapM_length in Er. destruct (elements v); [congruence|discriminate]. }
      pose proof (vsound_of_list r Hr) as V.
      destruct (mapM vsound1 r) as [s|e] eqn:Es.
      * rewrite V. cbn [rbind]. rewrite revert_idem by (right; reflexivity).
        rewrite T in B. rewrite B. reflexivity.
      * destruct V as [e' ->]. destruct T as [e2 T]. rewrite T in B. destruct B as [e3 ->].
        eexists; reflexivity.
    + destruct G as [e' G]. rewrite G in L. destruct L as [e2 ->].
      destruct T as [e3 T]. rewrite T in B. destruct B as [e4 ->]. eexists; reflexivity.
  - destruct B as [e' ->]. destruct A as [e2 ->]. eexists; reflexivity.
Qed.

Theorem queries_pointwise atm :
  pointwise (airtemp_k atm) /\ pointwise (airpress_pa atm) /\ pointwise (airdens_kgpm3 atm) /\
  pointwise (airtemp_c atm) /\ pointwise (airpress_mbar atm) /\ pointwise (vsound_mps atm) /\
  (forall v, pointwise (dynamicpressure_pa atm v)).
Proof.
  split; [exact (lifts_pointwise VArr _ _ (or_introl eq_refl) (airtemp_lifts atm))|].
  split; [exact (lifts_pointwise VArr _ _ (or_introl eq_refl) (airpress_lifts atm))|].
  split; [exact (lifts_pointwise VArr _ _ (or_introl eq_refl) (airdens_lifts atm))|].
  split; [exact (lifts_pointwise VArr _ _ (or_introl eq_refl) (lifts_vlit _ _ k2c (airtemp_lifts atm)))|].
  split; [exact (lifts_pointwise VArr _ _ (or_introl eq_refl) (lifts_vlit _ _ pa2mbar (airpress_lifts atm)))|].
  split; [exact (lifts_pointwise VList _ _ (or_intror eq_refl) (vsound_lifts atm))|].
  intros v. exact (lifts_pointwise VArr _ _ (or_introl eq_refl) (lifts_vlit _ _ _ (airdens_lifts atm))).
Qed.
