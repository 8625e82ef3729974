(** Decimal numbers: [parse_float] reads exactly the numbers of the specification. *)
From Coq Require Import QArith Qreals Ascii.
From Verif Require Import Base BaseFacts PropulsionModel PropulsionSpec PropulsionProofs ShippedModel ShippedSpec.
Open Scope R_scope.

Lemma digit_spec c d : digit c = Some d <-> exists k, d = Z.of_nat k /\ String.get k "0123456789" = Some c.
Proof.
  split.
  - destruct c as [[] [] [] [] [] [] [] []]; vm_compute; try discriminate; intros H; injection H as <-.
    all: first [exists 0%nat; split; reflexivity|exists 1%nat; split; reflexivity|exists 2%nat; split; reflexivity|exists 3%nat; split; reflexivity
      |exists 4%nat; split; reflexivity|exists 5%nat; split; reflexivity|exists 6%nat; split; reflexivity|exists 7%nat; split; reflexivity
      |exists 8%nat; split; reflexivity|exists 9%nat; split; reflexivity].
  - intros (k & -> & G). do 10 (destruct k as [|k]; [injection G as <-; reflexivity|]). destruct k; discriminate.
Qed.
(** the same digits from the left, with integer values *)
Inductive left_digits : string -> nat -> Z -> Prop :=
| left_none : left_digits "" 0 0
| left_one : forall c d s n v, digit c = Some d -> left_digits s n v -> left_digits (String c s) (S n) (d * 10 ^ Z.of_nat n + v).
Lemma left_append s n v k c : left_digits s n v -> String.get k "0123456789" = Some c ->
  left_digits (s ++ String c "") (S n) (10 * v + Z.of_nat k).
Proof.
  intros L G. induction L as [|c' d s n v D L IH].
  - replace (10 * 0 + Z.of_nat k)%Z with (Z.of_nat k * 10 ^ Z.of_nat 0 + 0)%Z by (cbn; lia).
    apply left_one; [|constructor]. apply digit_spec. exists k. auto.
  - replace (10 * (d * 10 ^ Z.of_nat n + v) + Z.of_nat k)%Z with (d * 10 ^ Z.of_nat (S n) + (10 * v + Z.of_nat k))%Z.
    + apply left_one; assumption.
    + rewrite Nat2Z.inj_succ, Z.pow_succ_r by lia. ring.
Qed.
Lemma digits_cons k c s n v : String.get k "0123456789" = Some c -> digits s n v -> digits (String c s) (S n) (INR k * 10 ^ n + v).
Proof.
  intros G D. induction D as [|s n v k' c' D IH G'].
  - replace (INR k * 10 ^ 0 + 0) with (10 * 0 + INR k) by (cbn; ring). change (String c "") with (("" ++ String c "")%string).
    apply digits_one; [constructor|exact G].
  - replace (INR k * 10 ^ S n + (10 * v + INR k')) with (10 * (INR k * 10 ^ n + v) + INR k') by (cbn [pow]; ring).
    change (String c (s ++ String c' "")) with ((String c s ++ String c' "")%string). apply digits_one; assumption.
Qed.
Lemma left_digits_of s n v : left_digits s n v -> digits s n (IZR v).
Proof.
  induction 1 as [|c d s n v D L IH]; [constructor|]. apply digit_spec in D. destruct D as (k & -> & G).
  rewrite plus_IZR, mult_IZR, <- pow_IZR, <- INR_IZR_INZ. apply digits_cons; assumption.
Qed.
Lemma digits_left s n r : digits s n r -> exists v, r = IZR v /\ left_digits s n v.
Proof.
  induction 1 as [|s n v k c D (z & -> & L) G]; [exists 0%Z; split; [reflexivity|constructor]|].
  exists (10 * z + Z.of_nat k)%Z. split; [rewrite plus_IZR, mult_IZR, <- INR_IZR_INZ; reflexivity|]. apply left_append; assumption.
Qed.

(** ** behind the point *)
Definition some_digit (seen : bool) (n : nat) : Prop := seen = true \/ (0 < n)%nat.
Lemma read_fraction : forall s acc seen p q, read_digits s acc seen (Some p) = Some q <->
  exists n v, left_digits s n v /\ some_digit seen n /\ Qnum q = (acc * 10 ^ Z.of_nat n + v)%Z /\ Zpos (Qden q) = (Zpos p * 10 ^ Z.of_nat n)%Z.
Proof.
  induction s as [|c s IH]; intros acc seen p q; cbn [read_digits].
  - split.
    + destruct seen; [|discriminate]. intros H. injection H as <-. exists 0%nat, 0%Z. split; [constructor|]. split; [left; reflexivity|]. cbn. lia.
    + intros (n & v & L & S & N & D). inversion L; subst. destruct S as [->|S]; [|lia]. destruct q as (a, b). cbn [Qnum Qden] in *.
      change (10 ^ Z.of_nat 0)%Z with 1%Z in *. f_equal. f_equal; lia.
  - destruct (digit c) as [d|] eqn:E.
    + rewrite IH. split.
      * intros (n & v & L & S & N & D). exists (Datatypes.S n), (d * 10 ^ Z.of_nat n + v)%Z. split; [apply left_one; assumption|].
        split; [right; lia|]. rewrite Nat2Z.inj_succ, Z.pow_succ_r by lia. split; [rewrite N; ring|rewrite D; lia].
      * intros (n & v & L & S & N & D). inversion L as [|c' d' s' n' v' E' L']; subst. rewrite E in E'. injection E' as <-.
        exists n', v'. split; [exact L'|]. split; [left; reflexivity|]. rewrite Nat2Z.inj_succ, Z.pow_succ_r in * by lia. split; [rewrite N; ring|lia].
    + split.
      * destruct (Ascii.eqb c "."); cbn [andb]; discriminate.
      * intros (n & v & L & _). inversion L; subst. congruence.
Qed.
Lemma dot_no_digit : digit "." = None.
Proof. reflexivity. Qed.
Lemma read_whole : forall s acc seen q, read_digits s acc seen None = Some q <->
  (exists n v, left_digits s n v /\ some_digit seen n /\ Qnum q = (acc * 10 ^ Z.of_nat n + v)%Z /\ Qden q = 1%positive) \/
  (exists a b n m v w, s = (a ++ "." ++ b)%string /\ left_digits a n v /\ left_digits b m w /\ some_digit seen (n + m) /\
     Qnum q = ((acc * 10 ^ Z.of_nat n + v) * 10 ^ Z.of_nat m + w)%Z /\ Zpos (Qden q) = (10 ^ Z.of_nat m)%Z).
Proof.
  induction s as [|c s IH]; intros acc seen q; cbn [read_digits].
  - split.
    + destruct seen; [|discriminate]. intros H. injection H as <-. left. exists 0%nat, 0%Z. split; [constructor|]. split; [left; reflexivity|]. cbn. split; [lia|reflexivity].
    + intros [(n & v & L & S & N & D)|(a & b & n & m & v & w & E & _)]; [|destruct a; discriminate].
      inversion L; subst. destruct S as [->|S]; [|lia]. destruct q as (x, y). cbn [Qnum Qden] in *. change (10 ^ Z.of_nat 0)%Z with 1%Z in *.
      f_equal. f_equal; lia.
  - destruct (digit c) as [d|] eqn:E.
    + rewrite IH. split.
      * intros [(n & v & L & S & N & D)|(a & b & n & m & v & w & -> & La & Lb & S & N & D)].
        -- left. exists (Datatypes.S n), (d * 10 ^ Z.of_nat n + v)%Z. split; [apply left_one; assumption|]. split; [right; lia|]. split; [|exact D].
           rewrite Nat2Z.inj_succ, Z.pow_succ_r by lia. rewrite N. ring.
        -- right. exists (String c a), b, (Datatypes.S n), m, (d * 10 ^ Z.of_nat n + v)%Z, w. split; [reflexivity|]. split; [apply left_one; assumption|].
           split; [exact Lb|]. split; [right; lia|]. split; [|exact D]. rewrite Nat2Z.inj_succ, Z.pow_succ_r by lia. rewrite N. ring.
      * intros [(n & v & L & S & N & D)|(a & b & n & m & v & w & Es & La & Lb & S & N & D)].
        -- left. inversion L as [|c' d' s' n' v' E' L']; subst. rewrite E in E'. injection E' as <-. exists n', v'. split; [exact L'|].
           split; [left; reflexivity|]. split; [|exact D]. rewrite Nat2Z.inj_succ, Z.pow_succ_r in N by lia. rewrite N. ring.
        -- right. destruct a as [|c' a]; [injection Es as -> _; discriminate|]. injection Es as <- ->.
           inversion La as [|c' d' s' n' v' E' L']; subst. rewrite E in E'. injection E' as <-. exists a, b, n', m, v', w. split; [reflexivity|]. split; [exact L'|].
           split; [exact Lb|]. split; [left; reflexivity|]. split; [|exact D]. rewrite Nat2Z.inj_succ, Z.pow_succ_r in N by lia. rewrite N. ring.
    + destruct (Ascii.eqb_spec c ".") as [->|Nc]; cbn [andb].
      * rewrite read_fraction. split.
        -- intros (n & v & L & S & N & D). right. exists ""%string, s, 0%nat, n, 0%Z, v. split; [reflexivity|]. split; [constructor|]. split; [exact L|].
           split; [exact S|]. change (10 ^ Z.of_nat 0)%Z with 1%Z. split; [rewrite N; ring|rewrite D; ring].
        -- intros [(n & v & L & _)|(a & b & n & m & v & w & Es & La & Lb & S & N & D)]; [inversion L; subst; discriminate|].
           destruct a as [|c' a].
           ++ injection Es as ->. inversion La; subst. exists m, w. split; [exact Lb|]. split; [exact S|]. change (10 ^ Z.of_nat 0)%Z with 1%Z in N. split; [rewrite N; ring|rewrite D; ring].
           ++ injection Es as <- ->. inversion La; subst. discriminate.
      * split; [discriminate|]. intros [(n & v & L & _)|(a & b & n & m & v & w & Es & La & Lb & S & N & D)]; [inversion L; subst; congruence|].
        destruct a as [|c' a]; [injection Es as -> _; congruence|]. injection Es as <- ->. inversion La; subst. congruence.
Qed.
Lemma read_unsigned s r : (exists q, read_digits s 0 false None = Some q /\ Q2R q = r) <-> unsigned s r.
Proof.
  split.
  - intros (q & E & <-). apply read_whole in E. destruct E as [(n & v & L & S & N & D)|(a & b & n & m & v & w & -> & La & Lb & S & N & D)].
    + left. destruct S as [S|S]; [discriminate|]. destruct n as [|n]; [lia|]. exists n. unfold Q2R. rewrite N, D. apply left_digits_of in L.
      replace (IZR (0 * 10 ^ Z.of_nat (Datatypes.S n) + v) * / 1) with (IZR v); [exact L|]. rewrite Z.mul_0_l, Z.add_0_l. field.
    + right. destruct S as [S|S]; [discriminate|]. exists a, b, n, m, (IZR v), (IZR w). split; [reflexivity|]. split; [apply left_digits_of; exact La|].
      split; [apply left_digits_of; exact Lb|]. split; [exact S|]. unfold Q2R. rewrite N, D, plus_IZR, !mult_IZR, plus_IZR, mult_IZR, <- !pow_IZR.
      field. apply pow_nonzero. lra.
  - intros [(n & D)|(a & b & n & m & v & w & -> & Da & Db & S & ->)].
    + apply digits_left in D. destruct D as (v & -> & L). exists (Qmake v 1). split.
      * apply read_whole. left. exists (Datatypes.S n), v. split; [exact L|]. split; [right; lia|]. cbn [Qnum Qden]. split; [ring|reflexivity].
      * unfold Q2R. cbn [Qnum Qden]. field.
    + apply digits_left in Da. destruct Da as (v' & -> & La). apply digits_left in Db. destruct Db as (w' & -> & Lb).
      exists (Qmake (v' * 10 ^ Z.of_nat m + w') (Z.to_pos (10 ^ Z.of_nat m))).
      assert (P : (0 < 10 ^ Z.of_nat m)%Z) by (apply Z.pow_pos_nonneg; lia). split.
      * apply read_whole. right. exists a, b, n, m, v', w'. split; [reflexivity|]. split; [exact La|]. split; [exact Lb|]. split; [right; exact S|].
        cbn [Qnum Qden]. split; [ring|]. apply Z2Pos.id. exact P.
      * unfold Q2R. cbn [Qnum Qden]. rewrite Z2Pos.id by exact P. rewrite plus_IZR, mult_IZR, <- !pow_IZR. field. apply pow_nonzero. lra.
Qed.
Lemma unsigned_minus t r : ~ unsigned ("-" ++ t)%string r.
Proof.
  intros U. apply read_unsigned in U. destruct U as (q & E & _). discriminate.
Qed.
Lemma decimal_other c t : c <> "-"%char -> decimal (String c t) = read_digits (String c t) 0 false None.
Proof. intros N. destruct c as [[] [] [] [] [] [] [] []]; try reflexivity. now destruct N. Qed.
Lemma parse_number s x : parse_float s = Some x <-> exists r, x = Fin r /\ number s r.
Proof.
  assert (G : decimal s = read_digits s 0 false None -> (forall t, s <> ("-" ++ t)%string) ->
    parse_float s = Some x <-> exists r, x = Fin r /\ number s r).
  { unfold parse_float, to_num. intros -> Ns. split.
    - destruct (read_digits s 0 false None) as [q|] eqn:E; [|discriminate]. intros H. injection H as <-. exists (Q2R q). split; [reflexivity|].
      left. apply read_unsigned. exists q. auto.
    - intros (r & -> & [U|(t & E & _)]); [|destruct (Ns t E)]. apply read_unsigned in U. destruct U as (q & -> & <-). reflexivity. }
  destruct s as [|c s]; [apply G; [reflexivity|discriminate]|].
  destruct (Ascii.ascii_dec c "-") as [->|N].
  - clear G. unfold parse_float, to_num. change (decimal (String "-" s)) with (option_map Qopp (read_digits s 0 false None)). split.
    + destruct (read_digits s 0 false None) as [q|] eqn:E; [|discriminate]. cbn [option_map]. intros H. injection H as <-. exists (Q2R (- q)). split; [reflexivity|].
      right. exists s. split; [reflexivity|]. apply read_unsigned. exists q. rewrite Q2R_opp. split; [exact E|ring].
    + intros (r & -> & [U|(t & E & U)]); [destruct (unsigned_minus _ _ U)|]. injection E as <-. apply read_unsigned in U. destruct U as (q & -> & Eq).
      cbn [option_map]. rewrite Q2R_opp, Eq. do 2 f_equal. ring.
  - apply G; [apply decimal_other; exact N|]. intros t E. injection E as -> _. now destruct N.
Qed.
