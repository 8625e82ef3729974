(** Span efficiency, selectors, chord sweep. *)
From Coq Require Import Permutation.
From Verif Require Import Base BaseFacts AnalysisFacts UnitsModel AtmosModel ConceptModel
  MethodsModel MethodsSpec.
Open Scope R_scope.

Lemma rad_fin x : ndeg2rad (Fin x) = Fin (rad x).
Proof. reflexivity. Qed.

Lemma rad_cos x : -90 < x < 90 -> 0 < cos (rad x).
Proof.
  intros H. pose proof PI_RGT_0. apply cos_gt_0; unfold rad; nra.
Qed.
Lemma regular_cos w : regular w -> 0 < w_ar w /\ 0 < cos (rad (w_le w)) /\
  0 < cos (rad (w_25 w)) /\ 0 < cos (rad (w_mt w)).
Proof. intros (A & B & C & D). auto using rad_cos. Qed.

(* ------------------------------------------------------------------ digits *)
Lemma digits_ok d fuel n : (n < 2 ^ N.of_nat fuel)%N ->
  (In d (digits_fuel (S fuel) n) <-> decimal_digit d n).
Proof.
  revert n; induction fuel as [|f IH]; intros n Hn.
  - assert (n = 0)%N by (change (2 ^ N.of_nat 0)%N with 1%N in Hn; lia). subst n. cbn.
    split.
    + intros [<- | []]. exists 0%N. cbn; split; auto.
    + intros (k & -> & [H|H]); left.
      * exfalso. assert (10 ^ k <> 0)%N by (apply N.pow_nonzero; lia). lia.
      * subst k; reflexivity.
  - cbn [digits_fuel]. destruct (N.ltb_spec n 10) as [L|L].
    + split.
      * intros [<- | []]. exists 0%N. rewrite N.pow_0_r, N.div_1_r, N.mod_small by lia.
        split; auto.
      * intros (k & -> & [H|H]); left.
        -- destruct (N.eq_dec k 0) as [->|K].
           ++ rewrite N.pow_0_r, N.div_1_r, N.mod_small by lia; reflexivity.
           ++ exfalso. assert (10 ^ 1 <= 10 ^ k)%N by (apply N.pow_le_mono_r; lia).
              change (10 ^ 1)%N with 10%N in *. lia.
        -- subst k; rewrite N.pow_0_r, N.div_1_r, N.mod_small by lia; reflexivity.
    + assert (Hq : (n / 10 < 2 ^ N.of_nat f)%N).
      { apply N.div_lt_upper_bound; [lia|]. rewrite Nnat.Nat2N.inj_succ, N.pow_succ_r' in Hn.
        assert (2 ^ N.of_nat f <> 0)%N by (apply N.pow_nonzero; lia). lia. }
      change (if N.ltb (n/10) 10 then [(n/10)%N] else (digits_fuel f (n / 10 / 10) ++ [((n/10) mod 10)%N])%list)
        with (digits_fuel (S f) (n / 10)).
      rewrite in_app_iff, (IH _ Hq). split.
      * intros [(k & -> & H) | [<- | []]].
        -- exists (N.succ k). rewrite N.pow_succ_r', <- N.div_div by (try apply N.pow_nonzero; lia).
           split; [reflexivity|left]. destruct H as [H|H].
           ++ pose proof (N.mul_div_le n 10 ltac:(lia)) as E. nia.
           ++ subst k. rewrite N.pow_0_r; lia.
        -- exists 0%N. rewrite N.pow_0_r, N.div_1_r; auto.
      * intros (k & -> & H). destruct (N.eq_dec k 0) as [->|K].
        -- right; left; rewrite N.pow_0_r, N.div_1_r; reflexivity.
        -- left. destruct H as [H|H]; [|contradiction].
           exists (N.pred k). assert (k = N.succ (N.pred k)) by lia.
           rewrite H0 in H |- *. rewrite N.pred_succ. rewrite N.pow_succ_r' in *.
           rewrite <- N.div_div by (try apply N.pow_nonzero; lia). split; [reflexivity|left].
           apply N.div_le_lower_bound; lia.
Qed.

Lemma size_bound n : (n < 2 ^ N.of_nat (N.size_nat n))%N.
Proof.
  destruct n as [|p]; [cbn; lia|].
  assert (E : N.of_nat (N.size_nat (Npos p)) = N.size (Npos p)).
  { cbn. induction p; cbn [Pos.size_nat Pos.size]; try reflexivity;
      rewrite Nnat.Nat2N.inj_succ, IHp; reflexivity. }
  rewrite E. apply N.size_gt.
Qed.

Lemma digits_spec z : (0 <= z)%Z -> exists l, digits_of z = Ok l /\
  forall d, existsb (N.eqb d) l = true <-> decimal_digit d (Z.to_N z).
Proof.
  intros Hz. unfold digits_of. destruct (Z.ltb_spec z 0); [lia|].
  eexists; split; [reflexivity|]. intros d. rewrite <- (digits_ok d (N.size_nat (Z.to_N z))) by apply size_bound.
  rewrite existsb_exists. split.
  - intros (x & Hx & E). apply N.eqb_eq in E; subst x; exact Hx.
  - intros Hd; exists d; split; [exact Hd|apply N.eqb_refl].
Qed.

(* ------------------------------------------------------------- estimates *)
Lemma hoerner_pos t : 0 < hoerner t.
Proof.
  unfold hoerner. pose proof (pow2_ge_0 (t ^ 2 - 1.43125 * t + 0.3)).
  pose proof (pow2_ge_0 (t - 0.45)). nra.
Qed.

Section Wing.
  Variables (c : concept) (w : wing).
  Hypothesis HW : has_wing c w.
  Local Notation AR := (w_ar w).

  Lemma w_arE : ar c = Fin (w_ar w).
  Proof. destruct HW as (A & _). unfold ar; rewrite A; reflexivity. Qed.
  Lemma w_leE : sweep_le_rad c = Fin (rad (w_le w)).
  Proof. destruct HW as (_ & A & _). unfold sweep_le_rad; rewrite A; reflexivity. Qed.
  Lemma w_25E : sweep_25_rad c = Fin (rad (w_25 w)).
  Proof. destruct HW as (_ & _ & A & _). unfold sweep_25_rad; rewrite A; reflexivity. Qed.
  Lemma w_mtE : sweep_mt_rad c = Fin (rad (w_mt w)).
  Proof. destruct HW as (_ & _ & _ & A & _). unfold sweep_mt_rad; rewrite A; reflexivity. Qed.

  Lemma brandt_root : AR < sqrt (4 + AR ^ 2 * (1 + tan (rad (w_mt w)) ^ 2)).
  Proof.
    assert (0 <= tan (rad (w_mt w)) ^ 2) by apply pow2_ge_0.
    set (T := tan (rad (w_mt w)) ^ 2) in *.
    assert (P : AR ^ 2 < 4 + AR ^ 2 * (1 + T)) by nra.
    destruct (Rlt_dec AR 0) as [N|N].
    - apply Rlt_le_trans with 0; [exact N|apply sqrt_pos].
    - apply Rlt_le_trans with (sqrt (4 + AR ^ 2 * (1 + T))); [|lra].
      replace AR with (sqrt (AR ^ 2)) at 1 by (apply sqrt_pow2; lra).
      apply sqrt_lt_1_alt. split; [nra|exact P].
  Qed.

  Lemma brandt_range : 0 < brandt AR (rad (w_mt w)) < 1.
  Proof.
    unfold brandt. pose proof brandt_root as B.
    set (S := sqrt _) in *. split.
    - apply Rdiv_lt_0_compat; lra.
    - apply Rmult_lt_reg_r with (2 - AR + S); [lra|].
      unfold Rdiv; rewrite Rmult_assoc, Rinv_l; lra.
  Qed.

  Lemma eff1_real : 0 < AR -> oswaldspaneff1 c = Fin (raymer_straight AR).
  Proof.
    intros H. unfold oswaldspaneff1. rewrite w_arE. nfin. reflexivity.
  Qed.
  Lemma eff2_real : cos (rad (w_mt w)) <> 0 -> oswaldspaneff2 c = Ok (Fin (brandt AR (rad (w_mt w)))).
  Proof.
    intros H. unfold oswaldspaneff2. rewrite w_arE, w_mtE, (ntan_fin _ H). nfin.
    assert (0 <= tan (rad (w_mt w)) ^ 2) by apply pow2_ge_0.
    rewrite msqrt_fin by nra. cbn [rbind]. pose proof brandt_root as B.
    nfin. reflexivity.
  Qed.
  Lemma eff3_real : 0 < AR -> 0 < cos (rad (w_le w)) ->
    oswaldspaneff3 c = Fin (raymer_swept AR (rad (w_le w))).
  Proof.
    intros H HC. unfold oswaldspaneff3. rewrite w_arE, w_leE. nfin. reflexivity.
  Qed.
  Lemma eff4_real m : 0 < AR -> oswaldspaneff4 c (Fin m) = Fin (nita w m).
  Proof.
    intros H. unfold oswaldspaneff4, nita.
    destruct HW as (_ & _ & H25 & _ & HT). rewrite w_arE, H25, HT. cbn [pval].
    set (t := w_taper w + 0.357 - 0.45 * exp (-0.0375 * w_25 w)). nfin.
    replace (w_taper w - (-0.357 + 0.45 * exp (-0.0375 * w_25 w))) with t by (unfold t; lra).
    replace (0.0524 * t ^ 4 - 0.15 * t ^ 3 + 0.1659 * t ^ 2 - 0.0706 * t + 0.0119) with (hoerner t) by reflexivity.
    pose proof (hoerner_pos t) as P.
    assert (D : 0 < 1 + hoerner t * AR) by nra.
    rewrite ndiv_fin by lra.
    assert (E : (if Rltb 0.3 m then Fin ((-0.001521) * Rpower (m / 0.3 - 1) 10.82 + 1) else Fin 1)
                = Fin (compress m)).
    { unfold compress, Rltb. destruct (Rlt_dec 0.3 m); [apply Fin_eq; lra|reflexivity]. }
    assert (E' : (if (Fin 0.3 <? Fin m)%num
             then (Fin (-0.001521) * ((Fin m / Fin 0.3 - Fin 1) ** Fin 10.82) + Fin 1)%num else Fin 1)
                = Fin (compress m)).
    { rewrite nltb_fin. rewrite <- E. destruct (Rltb_reflect 0.3 m); [|reflexivity].
      rewrite ndiv_fin by lra. rewrite nsub_fin, npow_fin; [reflexivity|].
      assert (1 < m / 0.3); [|lra]. apply Rmult_lt_reg_r with 0.3; [lra|].
      unfold Rdiv; rewrite Rmult_assoc, Rinv_l; lra. }
    rewrite E'. nfin. rewrite nltb_fin.
    replace (1 / (1 + hoerner t * AR) * (1 - 2 * 0.114 ^ 2) * 0.85 * compress m)
      with ((1 - 2 * 0.114 ^ 2) * 0.85 * compress m / (1 + hoerner t * AR)) by (unfold Rdiv; lra).
    set (e := _ / _). destruct (Rltb_reflect e 1e-3) as [L|L].
    - rewrite Rmax_left; [apply Fin_eq; lra|lra].
    - rewrite Rmax_right by lra. reflexivity.
  Qed.

  Lemma compress_le m : compress m <= 1.
  Proof. unfold compress; destruct (Rlt_dec 0.3 m); [|lra].
    pose proof (Rpower_pos (m / 0.3 - 1) 10.82). lra. Qed.

  Lemma nita_range m : 0 < AR -> 0.001 <= nita w m <= 0.8280.
  Proof.
    intros H. unfold nita. split; [apply Rmax_l|]. apply Rmax_lub; [lra|].
    set (t := w_taper w + 0.357 - 0.45 * exp (-0.0375 * w_25 w)).
    pose proof (hoerner_pos t). pose proof (compress_le m).
    assert (D : 1 < 1 + hoerner t * AR) by nra.
    apply Rmult_le_reg_r with (1 + hoerner t * AR); [lra|].
    unfold Rdiv; rewrite Rmult_assoc, Rinv_l by lra. nra.
  Qed.

  (* ------------------------------------------------------ induced drag *)
  Lemma nsum_fin l a : fold_left nadd (map Fin l) (Fin a) = Fin (a + fold_right Rplus 0 l).
  Proof.
    revert a; induction l as [|x r IH]; intros a; cbn [map fold_left fold_right].
    - rewrite Rplus_0_r; reflexivity.
    - rewrite nadd_fin, IH. apply Fin_eq; lra.
  Qed.
  Lemma average_fin l : l <> [] -> average_of (map Fin l) = Fin (mean_of l).
  Proof.
    intros H. unfold average_of, nsum, mean_of. rewrite nsum_fin, map_length, Rplus_0_l.
    apply ndiv_fin. apply not_0_INR. destruct l; [contradiction|discriminate].
  Qed.

  Lemma fold_perm l l' : Permutation l l' -> fold_right Rplus 0 l = fold_right Rplus 0 l'.
  Proof. induction 1; cbn [fold_right]; lra. Qed.
  Lemma mean_perm l l' : Permutation l l' -> mean_of l = mean_of l'.
  Proof.
    intros H. unfold mean_of. rewrite (fold_perm _ _ H), (Permutation_length H). reflexivity.
  Qed.

  Definition pick (b : N -> bool) : list N := filter b [1; 2; 3; 4]%N.

  Lemma selection z m l : regular w -> digits_of z = Ok l ->
    oswaldeff_list c (SelInt z) m
    = Ok (map (fun i => match i with 1%N => oswaldspaneff1 c | 2%N => Fin (brandt AR (rad (w_mt w)))
               | 3%N => oswaldspaneff3 c | _ => oswaldspaneff4 c (match m with Some m => m | None => Fin 0.3 end) end)
               (pick (fun d => existsb (N.eqb d) l))).
  Proof.
    intros HR HL. destruct (regular_cos w HR) as (_ & _ & _ & Hm). unfold oswaldeff_list. rewrite HL. cbn [rbind]. rewrite eff2_real by lra. cbn [rbind]. unfold pick.
    cbn [filter]. destruct (existsb (N.eqb 1) l), (existsb (N.eqb 2) l), (existsb (N.eqb 3) l),
      (existsb (N.eqb 4) l); reflexivity.
  Qed.

  Lemma map_estimates m l : regular w -> Forall (fun d => (1 <= d <= 4)%N) l ->
    map (fun i => match i with 1%N => oswaldspaneff1 c | 2%N => Fin (brandt AR (rad (w_mt w)))
               | 3%N => oswaldspaneff3 c | _ => oswaldspaneff4 c (Fin m) end) l
    = map Fin (map (estimate w m) l).
  Proof.
    intros HR HF. destruct (regular_cos w HR) as (Ha & Hl & _ & Hm). rewrite map_map. apply map_ext_in. intros d Hd.
    rewrite Forall_forall in HF. specialize (HF d Hd).
    rewrite eff1_real, eff3_real, (eff4_real m) by assumption.
    assert (D : (d = 1 \/ d = 2 \/ d = 3 \/ d = 4)%N) by lia.
    destruct D as [-> | [-> | [-> | ->]]]; reflexivity.
  Qed.

  Lemma pick_range b : Forall (fun d => (1 <= d <= 4)%N) (pick b).
  Proof. apply Forall_forall. intros d Hd. apply filter_In in Hd.
    destruct Hd as ([<- | [<- | [<- | [<- | []]]]] & _); lia. Qed.

  Lemma pick_perm z l sel : digits_of z = Ok l ->
    (forall d, existsb (N.eqb d) l = true <-> decimal_digit d (Z.to_N z)) ->
    methods_named (Z.to_N z) sel -> Permutation (pick (fun d => existsb (N.eqb d) l)) sel.
  Proof.
    intros HL HD (ND & Hs). apply NoDup_Permutation.
    - apply NoDup_filter. repeat constructor; cbn; intuition discriminate.
    - exact ND.
    - intros d. rewrite Hs. unfold pick. rewrite filter_In, HD. cbn [In].
      split; intros (A & B); split; try exact B; [lia|].
      assert (D : (d = 1 \/ d = 2 \/ d = 3 \/ d = 4)%N) by lia. intuition auto.
  Qed.

  Lemma factor_named z mo m sel : regular w -> (0 <= z)%Z ->
    mo = Some (Fin m) \/ (mo = None /\ m = 0.3) ->
    methods_named (Z.to_N z) sel -> sel <> [] ->
    mean_of (map (estimate w m) sel) <> 0 ->
    induceddragfact c (SelInt z) mo = Ok (Fin (1 / (PI * AR * mean_of (map (estimate w m) sel)))).
  Proof.
    intros HR Hz Hmo HS HN HM. destruct (digits_spec z Hz) as (l & HL & HD).
    assert (EM : (match mo with Some m => m | None => Fin 0.3 end) = Fin m).
    { destruct Hmo as [-> | (-> & ->)]; reflexivity. }
    unfold induceddragfact. rewrite (selection z mo l HR HL). cbn [rbind]. rewrite EM.
    rewrite (map_estimates m _ HR (pick_range _)).
    pose proof (pick_perm z l sel HL HD HS) as P.
    assert (NE : map (estimate w m) (pick (fun d => existsb (N.eqb d) l)) <> []).
    { intros E. apply map_eq_nil in E. rewrite E in P. apply Permutation_nil in P. auto. }
    assert (ME : mean_of (map (estimate w m) (pick (fun d => existsb (N.eqb d) l)))
                 = mean_of (map (estimate w m) sel)).
    { apply mean_perm. apply Permutation_map. exact P. }
    destruct (map Fin (map (estimate w m) (pick (fun d => existsb (N.eqb d) l)))) as [|n0 rest] eqn:EL.
    { apply map_eq_nil in EL. contradiction. }
    rewrite <- EL, (average_fin _ NE), ME. cbn [rbind]. rewrite w_arE. nfin.
    destruct HR as (Ha & _). pose proof PI_RGT_0.
    rewrite ndiv_fin; [reflexivity|].
    apply Rmult_integral_contrapositive; split; [|exact HM].
    apply Rmult_integral_contrapositive; split; lra.
  Qed.

  Lemma default_factor : regular w ->
    (do e2 <- oswaldspaneff2 c; Ok ((Fin 0.5 * (e2 + oswaldspaneff4 c (Fin 0.3)))%num))
    = Ok (Fin (mean_of [estimate w 0.3 2; estimate w 0.3 4])).
  Proof.
    intros HR. destruct (regular_cos w HR) as (Ha & _ & _ & Hm). rewrite eff2_real, eff4_real by (try lra; exact Ha).
    cbn [rbind]. nfin. f_equal. apply Fin_eq. unfold mean_of. cbn [fold_right List.length INR estimate]. unfold Rdiv; lra.
  Qed.

  Lemma factor_unnamed z mo : regular w -> (0 <= z)%Z -> methods_named (Z.to_N z) [] ->
    induceddragfact c (SelInt z) mo = induceddragfact c (SelInt 24) (Some (Fin 0.3)) /\
    induceddragfact c SelOther mo = induceddragfact c (SelInt 24) (Some (Fin 0.3)).
  Proof.
    intros HR Hz HS. destruct (digits_spec z Hz) as (l & HL & HD).
    pose proof (pick_perm z l [] HL HD HS) as P. apply Permutation_sym, Permutation_nil in P.
    assert (A : induceddragfact c (SelInt z) mo = induceddragfact c SelOther mo).
    { unfold induceddragfact. rewrite (selection z mo l HR HL), P. reflexivity. }
    assert (B : induceddragfact c SelOther mo = induceddragfact c (SelInt 24) (Some (Fin 0.3))).
    { unfold induceddragfact at 1. cbn [rbind]. rewrite (default_factor HR). cbn [rbind].
      unfold induceddragfact. rewrite (selection 24 (Some (Fin 0.3)) [2;4]%N HR eq_refl). cbn [rbind].
      change (pick (fun d => existsb (N.eqb d) [2%N; 4%N])) with [2%N; 4%N].
      rewrite (map_estimates 0.3 [2;4]%N HR) by (repeat constructor; lia).
      cbn [map]. pose proof (average_fin [estimate w 0.3 2; estimate w 0.3 4] ltac:(discriminate)) as A1.
      cbn [map] in A1. rewrite A1. reflexivity. }
    split; [rewrite A|]; exact B.
  Qed.

  Lemma mean_pos l : l <> [] -> Forall (fun x => 0 < x) l -> 0 < mean_of l.
  Proof.
    intros HN HF. unfold mean_of. apply Rdiv_lt_0_compat.
    - destruct HF as [|x r Hx HF]; [contradiction|]. cbn [fold_right].
      assert (0 <= fold_right Rplus 0 r); [|lra].
      induction HF; cbn [fold_right]; [lra|]. apply Rplus_le_le_0_compat; [lra|].
      apply IHHF; discriminate.
    - apply lt_0_INR. destruct l; [contradiction|cbn; lia].
  Qed.

  Lemma factor_positive z mo m sel : regular w -> (0 <= z)%Z ->
    mo = Some (Fin m) \/ (mo = None /\ m = 0.3) ->
    methods_named (Z.to_N z) sel -> Forall (fun d => d = 2%N \/ d = 4%N) sel ->
    exists k, induceddragfact c (SelInt z) mo = Ok (Fin k) /\ 0 < k.
  Proof.
    intros HR Hz Hmo HS HF.
    assert (HP : forall m l, Forall (fun d => d = 2%N \/ d = 4%N) l -> Forall (fun x => 0 < x) (map (estimate w m) l)).
    { intros m' l' HF'. apply Forall_forall. intros x Hx. apply in_map_iff in Hx. destruct Hx as (d & <- & Hd).
      rewrite Forall_forall in HF'. destruct (HF' d Hd) as [-> | ->]; cbn [estimate].
      - apply brandt_range.
      - pose proof (nita_range m' (proj1 HR)). lra. }
    assert (HK : forall m l, l <> [] -> Forall (fun d => d = 2%N \/ d = 4%N) l ->
       0 < 1 / (PI * AR * mean_of (map (estimate w m) l))).
    { intros m' l' HN' HF'. apply Rdiv_lt_0_compat; [lra|].
      apply Rmult_lt_0_compat; [apply Rmult_lt_0_compat; [apply PI_RGT_0|apply HR]|].
      apply mean_pos; [destruct l'; [contradiction|discriminate]|auto]. }
    assert (HM : forall m l, l <> [] -> Forall (fun d => d = 2%N \/ d = 4%N) l ->
       mean_of (map (estimate w m) l) <> 0).
    { intros m' l' HN' HF'. assert (0 < mean_of (map (estimate w m') l')); [|lra].
      apply mean_pos; [destruct l'; [contradiction|discriminate]|auto]. }
    destruct sel as [|d r].
    - destruct (factor_unnamed z mo HR Hz HS) as (-> & _).
      eexists; split.
      + apply (factor_named 24 _ 0.3 [2;4]%N HR); [lia|auto| |discriminate|apply HM; [discriminate|auto]].
        destruct (digits_spec 24) as (l & HL & HD); [lia|]. change (digits_of 24) with (@Ok (list N) [2;4]%N) in HL. injection HL as <-.
        split; [repeat constructor; cbn; intuition discriminate|].
        intros e. rewrite <- (HD e). cbn [existsb In].
        rewrite !Bool.orb_true_iff, !N.eqb_eq. split.
        * intros [<- | [<- | []]]; split; auto; lia.
        * intros (_ & [-> | [-> | H]]); auto; discriminate.
      + apply HK; [discriminate|auto].
    - eexists; split.
      + apply (factor_named z mo m (d :: r) HR Hz Hmo HS); [discriminate|apply HM; [discriminate|exact HF]].
      + apply HK; [discriminate|exact HF].
  Qed.

  (* --------------------------------------------------------- chord sweep *)
  Lemma sweep_real x : 0 <= x <= 1 ->
    findchordsweep_rad c (Some (Fin x)) = Ok (Fin (rad (w_le w) + (rad (w_25 w) - rad (w_le w)) / 0.25 * x)).
  Proof.
    intros H. unfold findchordsweep_rad. rewrite !nleb_fin, !Rleb_true by lra. cbn [negb andb].
    rewrite w_leE, w_25E. nfin. f_equal. apply Fin_eq. unfold Rdiv.
    replace (/ (-0.25)) with (-4) by lra. replace (/ 0.25) with 4 by lra. lra.
  Qed.
End Wing.

Lemma factor_negative c z mo : (z < 0)%Z -> induceddragfact c (SelInt z) mo = Err ValueError.
Proof. intros H. unfold induceddragfact, oswaldeff_list, digits_of. destruct (Z.ltb_spec z 0); [reflexivity|lia]. Qed.

Lemma sweep_error c xo : findchordsweep_rad c xo = Err ValueError <->
  ~ (exists x, xo = Some (Fin x) /\ 0 <= x <= 1).
Proof.
  split.
  - intros H (x & -> & Hx). unfold findchordsweep_rad in H. rewrite !nleb_fin, !Rleb_true in H by lra. discriminate.
  - intros H. unfold findchordsweep_rad. destruct xo as [[x|]|]; try reflexivity.
    rewrite !nleb_fin. destruct (Rleb_reflect 0 x), (Rleb_reflect x 1); cbn; try reflexivity.
    exfalso; apply H; exists x; auto with real.
Qed.
