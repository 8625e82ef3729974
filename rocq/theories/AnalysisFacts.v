(** Real analysis used by the proofs: mean value bounds, monotonicity of powers,
    and a verified rational enclosure of the natural logarithm (atanh series,
    evaluated by the kernel on [Q]). *)
From Verif Require Import Base BaseFacts.
From Coq Require Import QArith Qreals.
Close Scope Q_scope.
Open Scope R_scope.

Lemma Rdiv_le_0_compat a b : 0 <= a -> 0 < b -> 0 <= a / b.
Proof.
  intros Ha Hb; unfold Rdiv; apply Rmult_le_pos; [exact Ha|].
  left; apply Rinv_0_lt_compat; exact Hb.
Qed.

Lemma mvt_bounds f f' a b m M : a <= b ->
  (forall c, a <= c <= b -> derivable_pt_lim f c (f' c)) ->
  (forall c, a <= c <= b -> m <= f' c <= M) ->
  m * (b - a) <= f b - f a <= M * (b - a).
Proof.
  intros Hab Hd Hb. destruct (Req_EM_T a b) as [<-|Hne].
  - split; lra.
  - assert (a < b) as Hlt by lra.
    destruct (MVT_cor2 f f' a b Hlt Hd) as [c [E Hc]]. rewrite E.
    assert (m <= f' c <= M) as [H1 H2] by (apply Hb; lra).
    split; apply Rmult_le_compat_r; lra.
Qed.

Lemma dl_ln u u' x : derivable_pt_lim u x u' -> 0 < u x ->
  derivable_pt_lim (fun y => ln (u y)) x (u' / u x).
Proof.
  intros Hu Hp.
  replace (u' / u x) with (/ u x * u') by (unfold Rdiv; ring).
  apply (derivable_pt_lim_comp u ln); [exact Hu|].
  apply derivable_pt_lim_ln; exact Hp.
Qed.
Lemma dl_scal c u u' x : derivable_pt_lim u x u' ->
  derivable_pt_lim (fun y => c * u y) x (c * u').
Proof. intros H; apply (derivable_pt_lim_scal u c x u' H). Qed.
Lemma dl_add u v u' v' x : derivable_pt_lim u x u' -> derivable_pt_lim v x v' ->
  derivable_pt_lim (fun y => u y + v y) x (u' + v').
Proof. intros H1 H2; apply (derivable_pt_lim_plus u v x u' v' H1 H2). Qed.
Lemma dl_sub u v u' v' x : derivable_pt_lim u x u' -> derivable_pt_lim v x v' ->
  derivable_pt_lim (fun y => u y - v y) x (u' - v').
Proof. intros H1 H2; apply (derivable_pt_lim_minus u v x u' v' H1 H2). Qed.
Lemma dl_eq u x a b : derivable_pt_lim u x a -> a = b -> derivable_pt_lim u x b.
Proof. intros H <-; exact H. Qed.
Lemma dl_affine a b x : derivable_pt_lim (fun y => a + b * y) x b.
Proof.
  apply (dl_eq _ _ (0 + b * 1)); [|ring].
  apply (dl_add (fun _ => a) (fun y => b * y)); [apply derivable_pt_lim_const|].
  apply (dl_scal b (fun y => y)), derivable_pt_lim_id.
Qed.
Lemma dl_pow n x : derivable_pt_lim (fun y => y ^ n) x (INR n * x ^ pred n).
Proof. apply derivable_pt_lim_pow. Qed.

(** ** logarithm by the atanh series *)
Fixpoint lnS (n : nat) (t : R) : R :=
  match n with
  | O => 0
  | S m => lnS m t + 2 * t ^ (2 * m + 1) / INR (2 * m + 1)
  end.
Fixpoint lnS' (n : nat) (t : R) : R :=
  match n with O => 0 | S m => lnS' m t + 2 * t ^ (2 * m) end.

Lemma INR_odd_pos m : 0 < INR (2 * m + 1).
Proof. apply lt_0_INR; lia. Qed.
Lemma lnS_deriv n t : derivable_pt_lim (lnS n) t (lnS' n t).
Proof.
  induction n as [|m IH]; cbn [lnS lnS'].
  - apply derivable_pt_lim_const.
  - apply dl_add; [exact IH|].
    pose proof (INR_odd_pos m) as Hp.
    apply (dl_eq _ _ (2 / INR (2*m+1) * (INR (2*m+1) * t ^ pred (2*m+1)))).
    + apply (derivable_pt_lim_ext (fun y => 2 / INR (2*m+1) * y ^ (2*m+1))).
      * intros y; field; lra.
      * apply dl_scal, dl_pow.
    + replace (pred (2*m+1)) with (2*m)%nat by lia. field; lra.
Qed.
Lemma lnS'_closed n t : (1 - t*t) * lnS' n t = 2 * (1 - t ^ (2*n)).
Proof.
  induction n as [|m IH]; cbn [lnS'].
  - simpl; ring.
  - rewrite Rmult_plus_distr_l, IH.
    replace (2 * S m)%nat with (2 * m + 2)%nat by lia. rewrite pow_add. ring.
Qed.
Lemma lnS_0 n : lnS n 0 = 0.
Proof.
  induction n as [|m IH]; cbn [lnS]; [reflexivity|].
  rewrite IH, pow_i by lia. field. pose proof (INR_odd_pos m); lra.
Qed.

Lemma atanh_deriv t : 0 <= t < 1 ->
  derivable_pt_lim (fun y => ln (1 + 1 * y) - ln (1 + (-1) * y)) t (2 / (1 - t*t)).
Proof.
  intros Ht.
  apply (dl_eq _ _ (1 / (1 + 1 * t) - (-1) / (1 + (-1) * t))).
  - apply (dl_sub (fun y => ln (1 + 1 * y)) (fun y => ln (1 + (-1) * y)));
      [apply (dl_ln (fun y => 1 + 1 * y))|apply (dl_ln (fun y => 1 + (-1) * y))];
      try apply dl_affine; lra.
  - field; repeat split; nra.
Qed.

Lemma ln_series n t : 0 <= t < 1 ->
  lnS n t <= ln ((1 + t) / (1 - t)) <=
  lnS n t + 2 * t ^ (2*n+1) / (INR (2*n+1) * (1 - t*t)).
Proof.
  intros Ht.
  assert (ln ((1+t)/(1-t)) = ln (1 + 1 * t) - ln (1 + (-1) * t)) as ->.
  { unfold Rdiv. rewrite ln_mult by (try apply Rinv_0_lt_compat; lra).
    rewrite ln_Rinv by lra.
    replace (1 + 1 * t) with (1 + t) by ring. replace (1 + (-1) * t) with (1 - t) by ring. ring. }
  set (f := fun y => ln (1 + 1 * y) - ln (1 + (-1) * y)).
  assert (f 0 = 0) as F0.
  { unfold f. replace (1 + 1 * 0) with 1 by ring. replace (1 + -1 * 0) with 1 by ring.
    rewrite ln_1; ring. }
  assert (forall c, 0 <= c <= t -> 2 / (1 - c*c) - lnS' n c = 2 * c ^ (2*n) / (1 - c*c)) as ED.
  { intros c Hc. assert (0 < 1 - c*c) by nra.
    pose proof (lnS'_closed n c) as E.
    apply Rmult_eq_reg_l with (1 - c*c); [|lra].
    replace ((1 - c*c) * (2 / (1 - c*c) - lnS' n c)) with (2 - (1-c*c) * lnS' n c) by (field; lra).
    rewrite E. field; lra. }
  assert (Ct : 0 < 1 - t*t) by nra.
  split.
  - assert (0 * (t - 0) <= (f t - lnS n t) - (f 0 - lnS n 0) ) as H.
    { destruct (Req_EM_T t 0) as [->|Hn]; [lra|].
      destruct (MVT_cor2 (fun y => f y - lnS n y) (fun y => 2 / (1 - y*y) - lnS' n y) 0 t)
        as [c [E Hc]]; [lra| |].
      - intros c Hc. apply dl_sub; [apply atanh_deriv; lra|apply lnS_deriv].
      - rewrite E. rewrite ED by lra. apply Rmult_le_compat_r; [lra|].
        assert (0 < 1 - c*c) by nra.
        apply Rdiv_le_0_compat; [|lra].
        apply Rmult_le_pos; [lra|]. apply pow_le; lra. }
    rewrite F0, lnS_0 in H. unfold f in H. lra.
  - pose proof (INR_odd_pos n) as Hodd.
    set (k := 2 / (INR (2*n+1) * (1 - t*t))).
    assert (0 <= (lnS n t + k * t ^ (2*n+1) - f t) - (lnS n 0 + k * 0 ^ (2*n+1) - f 0)) as H.
    { destruct (Req_EM_T t 0) as [->|Hn]; [lra|].
      destruct (MVT_cor2 (fun y => lnS n y + k * y ^ (2*n+1) - f y)
         (fun y => lnS' n y + k * (INR (2*n+1) * y ^ pred (2*n+1)) - 2 / (1 - y*y)) 0 t)
        as [c [E Hc]]; [lra| |].
      - intros c Hc. apply dl_sub; [|apply atanh_deriv; lra].
        apply dl_add; [apply lnS_deriv|]. apply dl_scal, dl_pow.
      - rewrite E. replace (pred (2*n+1)) with (2*n)%nat by lia.
        apply Rmult_le_pos; [|lra].
        assert (0 < 1 - c*c) by nra.
        pose proof (ED c ltac:(lra)) as Ec.
        assert (k * (INR (2*n+1) * c ^ (2*n)) = 2 * c ^ (2*n) / (1 - t*t)) as ->.
        { unfold k. field. split; lra. }
        assert (2 * c ^ (2*n) / (1 - c*c) <= 2 * c ^ (2*n) / (1 - t*t)).
        { unfold Rdiv. apply Rmult_le_compat_l.
          - apply Rmult_le_pos; [lra|]. apply pow_le; lra.
          - apply Rinv_le_contravar; [lra|]. nra. }
        lra. }
    rewrite F0, lnS_0, pow_i in H by lia. unfold f, k in H.
    replace (2 * t ^ (2*n+1) / (INR (2*n+1) * (1 - t*t)))
      with (2 / (INR (2*n+1) * (1 - t*t)) * t ^ (2*n+1)) by (field; split; lra).
    lra.
Qed.

(** Horner form of the series in u = t^2 *)
Fixpoint hor (k n : nat) (u : R) : R :=
  match n with O => 0 | S n' => 1 / INR (2 * k + 1) + u * hor (S k) n' u end.
Lemma hor_lnS n : forall k t,
  2 * t ^ (2 * k + 1) * hor k n (t * t) = lnS (k + n) t - lnS k t.
Proof.
  induction n as [|m IH]; intros k t; cbn [hor].
  - rewrite Nat.add_0_r. ring.
  - replace (k + S m)%nat with (S k + m)%nat by lia.
    pose proof (IH (S k) t) as E. pose proof (INR_odd_pos k) as Hk.
    replace (2 * t ^ (2*k+1) * (1 / INR (2*k+1) + t * t * hor (S k) m (t * t)))
      with (2 * t ^ (2*k+1) / INR (2*k+1) + 2 * (t ^ (2*k+1) * t * t) * hor (S k) m (t*t))
      by (field; lra).
    replace (t ^ (2*k+1) * t * t) with (t ^ (2 * S k + 1))
      by (replace (2 * S k + 1)%nat with (2*k+1+1+1)%nat by lia; rewrite !pow_add; simpl; ring).
    rewrite E. cbn [lnS]. ring.
Qed.

(** fixed point enclosures with 60 fractional bits *)
Definition SC : Z := (2 ^ 60)%Z.
Definition enc (lo hi : Z) (x : R) : Prop := IZR lo <= x * IZR SC <= IZR hi.
Lemma SC_pos : 0 < IZR SC.
Proof. apply IZR_lt. reflexivity. Qed.
Definition down (x : Z) : Z := Z.shiftr x 60.

Lemma down_bounds x : IZR (down x) <= IZR x / IZR SC <= IZR (down x + 1).
Proof.
  unfold down. rewrite Z.shiftr_div_pow2 by lia. fold SC.
  pose proof (Z.div_mod x SC ltac:(unfold SC; lia)) as E.
  pose proof (Z.mod_pos_bound x SC ltac:(reflexivity)) as B.
  pose proof SC_pos as HP.
  set (d := (x / SC)%Z) in *. set (r := (x mod SC)%Z) in *.
  assert (IZR x = IZR SC * IZR d + IZR r) as ER by (rewrite E at 1; rewrite plus_IZR, mult_IZR; reflexivity).
  destruct B as [B1 B2]. apply IZR_le in B1. apply IZR_lt in B2.
  rewrite plus_IZR. split.
  - apply Rmult_le_reg_r with (IZR SC); [exact HP|]. unfold Rdiv.
    rewrite Rmult_assoc, Rinv_l by lra. lra.
  - apply Rmult_le_reg_r with (IZR SC); [exact HP|]. unfold Rdiv.
    rewrite Rmult_assoc, Rinv_l by lra. lra.
Qed.
Lemma enc_mul l1 h1 x l2 h2 y : (0 <= l1)%Z -> (0 <= l2)%Z ->
  enc l1 h1 x -> enc l2 h2 y -> enc (down (l1 * l2)) (down (h1 * h2) + 1) (x * y).
Proof.
  intros P1 P2 [A1 A2] [B1 B2]. pose proof SC_pos as HP.
  apply IZR_le in P1. apply IZR_le in P2.
  pose proof (down_bounds (l1 * l2)) as [D1 _]. pose proof (down_bounds (h1 * h2)) as [_ D2].
  rewrite mult_IZR in D1, D2.
  assert (x * y * IZR SC = (x * IZR SC) * (y * IZR SC) / IZR SC) as E by (field; lra).
  assert (0 <= x * IZR SC) by lra. assert (0 <= y * IZR SC) by lra.
  unfold enc. rewrite E. split.
  - eapply Rle_trans; [exact D1|]. unfold Rdiv. apply Rmult_le_compat_r.
    + left; apply Rinv_0_lt_compat; exact HP.
    + apply Rmult_le_compat; lra.
  - eapply Rle_trans; [|exact D2]. unfold Rdiv. apply Rmult_le_compat_r.
    + left; apply Rinv_0_lt_compat; exact HP.
    + apply Rmult_le_compat; lra.
Qed.
Lemma enc_quot a b : (0 < b)%Z -> enc (a * SC / b) (a * SC / b + 1) (IZR a / IZR b).
Proof.
  intros Hb. pose proof (Z.div_mod (a * SC) b ltac:(lia)) as E.
  pose proof (Z.mod_pos_bound (a * SC) b Hb) as [B1 B2].
  set (d := (a * SC / b)%Z) in *. set (r := ((a * SC) mod b)%Z) in *.
  apply IZR_lt in Hb. apply IZR_le in B1. apply IZR_lt in B2.
  assert (IZR a * IZR SC = IZR b * IZR d + IZR r) as ER
    by (rewrite <- !mult_IZR, <- plus_IZR; rewrite E at 1; reflexivity).
  unfold enc. rewrite plus_IZR.
  replace (IZR a / IZR b * IZR SC) with ((IZR a * IZR SC) / IZR b) by (field; lra).
  rewrite ER. split.
  - apply Rmult_le_reg_r with (IZR b); [exact Hb|]. unfold Rdiv.
    rewrite Rmult_assoc, Rinv_l by lra. lra.
  - apply Rmult_le_reg_r with (IZR b); [exact Hb|]. unfold Rdiv.
    rewrite Rmult_assoc, Rinv_l by lra. lra.
Qed.
Lemma enc_add l1 h1 x l2 h2 y : enc l1 h1 x -> enc l2 h2 y -> enc (l1 + l2) (h1 + h2) (x + y).
Proof. unfold enc. rewrite !plus_IZR. intros [A1 A2] [B1 B2]. lra. Qed.

(** [horZ od n]: enclosure of [hor k n u] with [od = 2k+1] *)
Fixpoint horZ (od : Z) (n : nat) (ul uh : Z) : Z * Z :=
  match n with
  | O => (0, 0)%Z
  | S n' => let '(al, ah) := horZ (od + 2) n' ul uh in
            let r := (SC / od)%Z in
            ((r + down (ul * al))%Z, (r + 1 + (down (uh * ah) + 1))%Z)
  end.
Lemma horZ_ok n : forall k ul uh u, (0 <= ul)%Z -> enc ul uh u ->
  let '(al, ah) := horZ (Z.of_nat (2 * k + 1)) n ul uh in
  (0 <= al)%Z /\ enc al ah (hor k n u).
Proof.
  induction n as [|m IH]; intros k ul uh u Hu He; cbn [horZ hor].
  - split; [lia|]. unfold enc; rewrite Rmult_0_l; lra.
  - pose proof (IH (S k) ul uh u Hu He) as H.
    replace (Z.of_nat (2 * S k + 1)) with (Z.of_nat (2 * k + 1) + 2)%Z in H by lia.
    destruct (horZ (Z.of_nat (2 * k + 1) + 2) m ul uh) as [al ah].
    destruct H as [Ha Hea]. set (od := Z.of_nat (2 * k + 1)) in *.
    assert (0 < od)%Z as Hod by (unfold od; lia).
    split.
    + apply Z.add_nonneg_nonneg.
      * apply Z.div_pos; [unfold SC; lia|exact Hod].
      * unfold down. apply Z.shiftr_nonneg. nia.
    + apply enc_add.
      * pose proof (enc_quot 1 od Hod) as Q. rewrite Z.mul_1_l in Q.
        replace (INR (2 * k + 1)) with (IZR od) by (unfold od; rewrite <- INR_IZR_INZ; reflexivity).
        exact Q.
      * apply enc_mul; assumption.
Qed.

(** enclosure of ln (a/b), 1 <= a/b <= 2, by 15 terms of the series *)
Definition lnZ (a b : Z) : Z * Z :=
  let tl := ((a - b) * SC / (a + b))%Z in
  let th := (tl + 1)%Z in
  let '(hl, hh) := horZ 1 15 (down (tl * tl)) (down (th * th) + 1) in
  ((2 * down (tl * hl))%Z, (2 * (down (th * hh) + 1) + 1024)%Z).

Lemma tail_small t : 0 <= t <= 1/3 -> 2 * t ^ (2*15+1) / (INR (2*15+1) * (1 - t*t)) <= 1024 / IZR SC.
Proof.
  intros Ht.
  assert (t ^ (2*15+1) <= (1/3) ^ (2*15+1)) as Hp by (apply pow_incr; lra).
  assert (0 <= t ^ (2*15+1)) as Hn by (apply pow_le; lra).
  assert (8/9 <= 1 - t*t) as H2 by nra.
  assert (INR (2*15+1) = 31) as -> by (simpl; lra).
  set (P := t ^ (2*15+1)) in *.
  assert (2 * P / (31 * (1 - t * t)) <= 2 * P / (31 * (8/9))) as H3.
  { unfold Rdiv at 1 2. apply Rmult_le_compat_l; [lra|]. apply Rinv_le_contravar; nra. }
  eapply Rle_trans; [exact H3|].
  assert ((1/3) ^ (2*15+1) <= 1 / 10 ^ 14) as H4.
  { simpl. lra. }
  unfold SC.
  assert (IZR (2 ^ 60) <= 12 * 10 ^ 17) as H5.
  { simpl (2 ^ 60)%Z. lra. }
  assert (0 < IZR (2 ^ 60)) as H6 by (apply IZR_lt; reflexivity).
  apply Rmult_le_reg_r with (IZR (2 ^ 60)); [exact H6|].
  replace (1024 / IZR (2 ^ 60) * IZR (2 ^ 60)) with 1024 by (field; lra).
  assert (0 <= 2 * P / (31 * (8/9))) by lra.
  eapply Rle_trans; [apply Rmult_le_compat_l; [assumption|exact H5]|].
  lra.
Qed.

Lemma lnZ_ok a b : (0 < b)%Z -> (b <= a)%Z -> (a <= 2 * b)%Z ->
  let '(lo, hi) := lnZ a b in enc lo hi (ln (IZR a / IZR b)).
Proof.
  intros Hb Hab Ha2. unfold lnZ.
  assert (0 < a + b)%Z as Hs by lia.
  pose proof (enc_quot (a - b) (a + b) Hs) as Et.
  set (tl := ((a - b) * SC / (a + b))%Z) in *.
  assert (0 <= tl)%Z as Htl by (apply Z.div_pos; [unfold SC; lia|exact Hs]).
  set (t := IZR (a - b) / IZR (a + b)) in *.
  apply IZR_lt in Hb. apply IZR_le in Hab. apply IZR_le in Ha2. rewrite mult_IZR in Ha2.
  assert (Et' : t = (IZR a - IZR b) / (IZR a + IZR b)) by (unfold t; rewrite minus_IZR, plus_IZR; reflexivity).
  assert (0 <= t <= 1/3) as Ht.
  { rewrite Et'. split; [apply Rdiv_le_0_compat; lra|].
    apply Rmult_le_reg_r with (IZR a + IZR b); [lra|]. unfold Rdiv.
    rewrite Rmult_assoc, Rinv_l by lra. lra. }
  assert (ln (IZR a / IZR b) = ln ((1 + t) / (1 - t))) as ->.
  { f_equal. rewrite Et'. field. repeat split; lra. }
  pose proof (ln_series 15 t ltac:(lra)) as [S1 S2].
  pose proof (tail_small t Ht) as S3.
  pose proof (hor_lnS 15 0 t) as E. cbn [lnS] in E. change (0 + 15)%nat with 15%nat in E.
  rewrite Rminus_0_r in E. change (2 * 0 + 1)%nat with 1%nat in E. rewrite pow_1 in E.
  pose proof (enc_mul _ _ _ _ _ _ Htl Htl Et Et) as Eu.
  assert (0 <= down (tl * tl))%Z as Hul by (unfold down; apply Z.shiftr_nonneg; nia).
  pose proof (horZ_ok 15 0 _ _ _ Hul Eu) as Hh. change (Z.of_nat (2 * 0 + 1)) with 1%Z in Hh.
  destruct (horZ 1 15 (down (tl * tl)) (down ((tl + 1) * (tl + 1)) + 1)) as [hl hh].
  destruct Hh as [Hhl Eh].
  pose proof (enc_mul _ _ _ _ _ _ Htl Hhl Et Eh) as [F1 F2].
  pose proof SC_pos as HP.
  unfold enc. rewrite plus_IZR, !mult_IZR.
  assert (1024 / IZR SC * IZR SC = 1024) as E1024 by (field; lra).
  split.
  - assert (lnS 15 t * IZR SC <= ln ((1+t)/(1-t)) * IZR SC) by (apply Rmult_le_compat_r; lra).
    rewrite <- E in H. lra.
  - assert (ln ((1+t)/(1-t)) * IZR SC <= (lnS 15 t + 1024 / IZR SC) * IZR SC) as H
      by (apply Rmult_le_compat_r; lra).
    rewrite Rmult_plus_distr_r, E1024, <- E in H. lra.
Qed.

(** ln 2 *)
Definition ln2Z : Z * Z := lnZ 2 1.
Definition ln2l : Z := 799144290325164000.
Definition ln2h : Z := 799144290325167000.
Lemma ln2_enc : enc ln2l ln2h (ln 2).
Proof.
  pose proof (lnZ_ok 2 1 ltac:(lia) ltac:(lia) ltac:(lia)) as H.
  assert (Z.leb ln2l (fst (lnZ 2 1)) = true) as A by (vm_compute; reflexivity).
  assert (Z.leb (snd (lnZ 2 1)) ln2h = true) as B by (vm_compute; reflexivity).
  destruct (lnZ 2 1) as [lo hi]. cbn [fst snd] in A, B.
  apply Z.leb_le, IZR_le in A. apply Z.leb_le, IZR_le in B.
  replace (2 / 1) with 2 in H by lra. unfold enc in *. lra.
Qed.

(** [q = m 2^k] with 1 <= m <= 2: check a claimed rational enclosure of ln q *)
Definition ln_check (q : Q) (k : Z) (lo hi : Q) : bool :=
  let a := if (0 <=? k)%Z then Qnum q else (Qnum q * 2 ^ (- k))%Z in
  let b := if (0 <=? k)%Z then (Zpos (Qden q) * 2 ^ k)%Z else Zpos (Qden q) in
  let '(l, h) := lnZ a b in
  let kl := (if 0 <=? k then k * ln2l else k * ln2h)%Z in
  let kh := (if 0 <=? k then k * ln2h else k * ln2l)%Z in
  ((b <=? a) && (a <=? 2 * b) &&
   (Qnum lo * SC <=? (kl + l) * Zpos (Qden lo)) &&
   ((kh + h) * Zpos (Qden hi) <=? Qnum hi * SC))%Z.

Lemma ln_check_ok q k lo hi : ln_check q k lo hi = true ->
  Q2R lo <= ln (Q2R q) <= Q2R hi.
Proof.
  unfold ln_check.
  set (a := if (0 <=? k)%Z then Qnum q else (Qnum q * 2 ^ (- k))%Z).
  set (b := if (0 <=? k)%Z then (Zpos (Qden q) * 2 ^ k)%Z else Zpos (Qden q)).
  pose proof (lnZ_ok a b) as HL. destruct (lnZ a b) as [l h].
  intros H. apply andb_prop in H as [H H4]. apply andb_prop in H as [H H3].
  apply andb_prop in H as [H1 H2].
  apply Z.leb_le in H1, H2, H3, H4.
  assert (0 < b)%Z as Hb.
  { unfold b. destruct (Z.leb_spec 0 k); [|lia]. apply Z.mul_pos_pos; [lia|]. apply Z.pow_pos_nonneg; lia. }
  specialize (HL Hb H1 H2).
  assert (0 < IZR b) as HbR by (apply IZR_lt; exact Hb).
  assert (0 < IZR a) as HaR by (apply IZR_lt; lia).
  (* ln q = ln (a/b) + k ln 2 *)
  assert (ln (Q2R q) = ln (IZR a / IZR b) + IZR k * ln 2) as El.
  { unfold Q2R. set (D := Zpos (Qden q)) in *.
    assert (0 < IZR D) as HD by (apply IZR_lt; reflexivity).
    assert (forall j, (0 <= j)%Z -> ln (IZR (2 ^ j)) = IZR j * ln 2) as LP.
    { intros j Hj. rewrite <- (Z2Nat.id j Hj) at 1. rewrite <- pow_IZR, ln_pow by lra.
      rewrite INR_IZR_INZ, Z2Nat.id by exact Hj. reflexivity. }
    fold (IZR (Qnum q) / IZR D).
    unfold a, b in *. destruct (Z.leb_spec 0 k) as [Hk|Hk].
    - rewrite mult_IZR.
      assert (0 < IZR (2 ^ k)) as Hp by (apply IZR_lt, Z.pow_pos_nonneg; lia).
      replace (IZR (Qnum q) / IZR D) with (IZR (Qnum q) / (IZR D * IZR (2 ^ k)) * IZR (2 ^ k)) by (field; lra).
      rewrite ln_mult, LP; [reflexivity|exact Hk| |exact Hp].
      apply Rdiv_lt_0_compat; [exact HaR|]. apply Rmult_lt_0_compat; assumption.
    - rewrite mult_IZR in HaR |- *.
      assert (0 < IZR (2 ^ (- k))) as Hp by (apply IZR_lt, Z.pow_pos_nonneg; lia).
      assert (0 < IZR (Qnum q)) as Hq.
      { destruct (Rlt_dec 0 (IZR (Qnum q))); [assumption|].
        assert (IZR (Qnum q) * IZR (2 ^ (- k)) <= 0) by nra. lra. }
      replace (IZR (Qnum q) * IZR (2 ^ (- k)) / IZR D) with (IZR (Qnum q) / IZR D * IZR (2 ^ (- k))) by (field; lra).
      rewrite ln_mult, LP; [|lia|apply Rdiv_lt_0_compat; assumption|exact Hp].
      rewrite opp_IZR. ring. }
  rewrite El.
  apply IZR_le in H3, H4. rewrite !mult_IZR in H3, H4. rewrite plus_IZR in H3, H4.
  pose proof ln2_enc as [L1 L2]. destruct HL as [M1 M2]. pose proof SC_pos as HP.
  assert (IZR (if 0 <=? k then k * ln2l else k * ln2h)%Z <= IZR k * ln 2 * IZR SC
          <= IZR (if 0 <=? k then k * ln2h else k * ln2l)%Z) as [K1 K2].
  { rewrite !Rmult_assoc. destruct (Z.leb_spec 0 k) as [Hk|Hk]; rewrite !mult_IZR.
    - apply IZR_le in Hk. split; apply Rmult_le_compat_l; lra.
    - apply IZR_lt in Hk. split; apply Rmult_le_compat_neg_l; lra. }
  unfold Q2R.
  assert (0 < IZR (Zpos (Qden lo))) as Dl by (apply IZR_lt; reflexivity).
  assert (0 < IZR (Zpos (Qden hi))) as Dh by (apply IZR_lt; reflexivity).
  set (X := ln (IZR a / IZR b) + IZR k * ln 2).
  assert (X * IZR SC = ln (IZR a / IZR b) * IZR SC + IZR k * ln 2 * IZR SC) as EX by (unfold X; ring).
  split.
  - apply Rmult_le_reg_r with (IZR (Zpos (Qden lo)) * IZR SC); [apply Rmult_lt_0_compat; assumption|].
    replace (IZR (Qnum lo) * / IZR (Zpos (Qden lo)) * (IZR (Zpos (Qden lo)) * IZR SC))
      with (IZR (Qnum lo) * IZR SC) by (field; lra).
    replace (X * (IZR (Zpos (Qden lo)) * IZR SC)) with ((X * IZR SC) * IZR (Zpos (Qden lo))) by ring.
    eapply Rle_trans; [exact H3|]. apply Rmult_le_compat_r; lra.
  - apply Rmult_le_reg_r with (IZR (Zpos (Qden hi)) * IZR SC); [apply Rmult_lt_0_compat; assumption|].
    replace (IZR (Qnum hi) * / IZR (Zpos (Qden hi)) * (IZR (Zpos (Qden hi)) * IZR SC))
      with (IZR (Qnum hi) * IZR SC) by (field; lra).
    replace (X * (IZR (Zpos (Qden hi)) * IZR SC)) with ((X * IZR SC) * IZR (Zpos (Qden hi))) by ring.
    eapply Rle_trans; [|exact H4]. apply Rmult_le_compat_r; lra.
Qed.

(** [ln_enclose H q k lo hi] asserts [H : lo <= ln q <= hi] for decimal
    literals [q lo hi]; [k] is the binary exponent of [q]. *)
Ltac ln_enclose H q k lo hi :=
  assert (lo <= ln q <= hi) as H by (apply (ln_check_ok _ k); vm_compute; reflexivity).

(** ** powers *)
Lemma ln_Rpower x y : ln (Rpower x y) = y * ln x.
Proof. unfold Rpower; apply ln_exp. Qed.
Lemma Rpower_pos x y : 0 < Rpower x y.
Proof. unfold Rpower; apply exp_pos. Qed.
Lemma Rpower_inv_r x y : 0 < x -> y <> 0 -> Rpower (Rpower x y) (1 / y) = x.
Proof.
  intros Hx Hy. rewrite Rpower_mult. replace (y * (1 / y)) with 1 by (field; exact Hy).
  apply Rpower_1; exact Hx.
Qed.
Lemma exp_near d : Rabs d <= 1/2 -> Rabs (exp d - 1) <= 2 * Rabs d.
Proof.
  intros Hd.
  assert (-(1/2) <= d <= 1/2) as Hr by (unfold Rabs in Hd; destruct (Rcase_abs d); lra).
  pose proof (exp_ineq1_le d) as H1. pose proof (exp_ineq1_le (- d)) as H2.
  rewrite exp_Ropp in H2. pose proof (exp_pos d) as Hp.
  assert (exp d * (1 + - d) <= 1).
  { apply Rmult_le_reg_r with (/ exp d); [apply Rinv_0_lt_compat; exact Hp|].
    replace (exp d * (1 + - d) * / exp d) with (1 + - d) by (field; lra). lra. }
  unfold Rabs; destruct (Rcase_abs (exp d - 1)); destruct (Rcase_abs d); nra.
Qed.
