(** Proofs about limb lists: value, bits, comparison, shifts, bytes, generic exp and scale loops. *)
From Coq Require Import ZArith List Bool Lia.
From Verif Require Import RingPow ModelWord ModelScalar.
Import ListNotations.
Local Open Scope Z_scope.

Definition words (s : list Z) : Prop := Forall word s.
Lemma W_pow : W = 2 ^ 64. Proof. reflexivity. Qed.
Lemma W_pos : 0 < W. Proof. reflexivity. Qed.

Lemma val_bound s : words s -> 0 <= val s < W ^ Z.of_nat (length s).
Proof.
  induction 1 as [|a s Ha _ IH]; [cbn; lia|].
  cbn [val length]. rewrite Nat2Z.inj_succ, Z.pow_succ_r by lia. unfold word in Ha. nia.
Qed.
Lemma val_nonneg s : words s -> 0 <= val s.
Proof. intros H. apply val_bound in H. lia. Qed.
Lemma val_app a b : val (a ++ b) = val a + W ^ Z.of_nat (length a) * val b.
Proof.
  induction a as [|x a IH]; cbn [app val length]; [lia|].
  rewrite IH, Nat2Z.inj_succ, Z.pow_succ_r by lia. ring.
Qed.
Lemma val_repeat0 n : val (repeat 0 n) = 0.
Proof. induction n; cbn [repeat val]; lia. Qed.
Lemma words_app a b : words (a ++ b) <-> words a /\ words b.
Proof. apply Forall_app. Qed.
Lemma word0 : word 0. Proof. split; [lia|reflexivity]. Qed.
Lemma words_repeat0 n : words (repeat 0 n).
Proof. induction n; constructor; auto using word0. Qed.
Lemma limb_word s i : words s -> word (limb s i).
Proof.
  intros H. unfold limb. destruct (Nat.lt_ge_cases i (length s)).
  - eapply Forall_forall in H; [exact H|]. apply nth_In; auto.
  - rewrite nth_overflow by auto. apply word0.
Qed.
Lemma limbs_of_length n v : length (limbs_of n v) = n.
Proof. revert v. induction n; intros; cbn; congruence. Qed.
Lemma limbs_of_words n v : words (limbs_of n v).
Proof.
  revert v. induction n; intros; cbn; constructor.
  - apply Z.mod_pos_bound. reflexivity.
  - apply IHn.
Qed.
Lemma limbs_of_val n : forall v, 0 <= v -> val (limbs_of n v) = v mod W ^ Z.of_nat n.
Proof.
  induction n; intros v Hv.
  - cbn. rewrite Z.mod_1_r. reflexivity.
  - cbn [limbs_of val]. rewrite IHn by (apply Z.div_pos; [lia|reflexivity]).
    rewrite Nat2Z.inj_succ, Z.pow_succ_r by lia. pose proof W_pos.
    rewrite Z.rem_mul_r; lia.
Qed.
Lemma limbs_of_small n v : 0 <= v < W ^ Z.of_nat n -> val (limbs_of n v) = v.
Proof. intros. rewrite limbs_of_val by lia. apply Z.mod_small; lia. Qed.
Lemma val_inj a : forall b, words a -> words b -> length a = length b -> val a = val b -> a = b.
Proof.
  induction a as [|x a IH]; intros [|y b] Ha Hb L E; try discriminate; auto.
  inversion Ha; inversion Hb; subst. cbn [val] in E. unfold word in *. pose proof W_pos.
  assert (x = y) by (unfold W in *; nia). subst y. f_equal. apply IH; auto. unfold W in *; lia.
Qed.
Lemma limbs_of_of_val s : words s -> limbs_of (length s) (val s) = s.
Proof.
  intros H. apply val_inj; auto using limbs_of_words, limbs_of_length.
  apply limbs_of_small. apply val_bound; auto.
Qed.

(** ** Bits *)
Lemma testbit_split a v i : word a -> 0 <= i ->
  Z.testbit (a + W * v) i = if i <? 64 then Z.testbit a i else Z.testbit v (i - 64).
Proof.
  intros Ha Hi. unfold word in Ha. rewrite W_pow in *. destruct (Z.ltb_spec i 64).
  - rewrite <- (Z.mod_pow2_bits_low (a + 2 ^ 64 * v) 64) by lia.
    rewrite Z.mul_comm, Z.mod_add by lia. rewrite Z.mod_small by lia. reflexivity.
  - replace i with ((i - 64) + 64) at 1 by lia. rewrite <- Z.div_pow2_bits by lia.
    rewrite Z.mul_comm, Z.div_add, Z.div_small by lia. f_equal.
Qed.
Lemma land1_testbit a k : 0 <= k -> (Z.land (Z.shiftr a k) 1 =? 1) = Z.testbit a k.
Proof.
  intros Hk. change 1 with (Z.ones 1) at 1. rewrite Z.land_ones by lia. change (2 ^ 1) with 2.
  rewrite Zmod_odd, <- Z.bit0_odd, Z.shiftr_spec by lia. cbn [Z.add].
  destruct (Z.testbit a k); reflexivity.
Qed.
Lemma limb_S x s i : limb (x :: s) (S i) = limb s i. Proof. reflexivity. Qed.
Lemma limb_testbit s : words s -> forall i k, 0 <= k < 64 ->
  Z.testbit (limb s i) k = Z.testbit (val s) (64 * Z.of_nat i + k).
Proof.
  induction 1 as [|a s Ha Hs IH]; intros i k Hk.
  - unfold limb. destruct i; cbn [nth val]; rewrite !Z.testbit_0_l; reflexivity.
  - cbn [val]. rewrite testbit_split by (auto; lia). destruct i.
    + replace (64 * Z.of_nat 0 + k) with k by lia. destruct (Z.ltb_spec k 64); [reflexivity|lia].
    + destruct (Z.ltb_spec (64 * Z.of_nat (S i) + k) 64); [lia|].
      rewrite limb_S, IH by lia. f_equal. lia.
Qed.
Lemma sbit_ok s i : words s -> sbit s i = Z.testbit (val s) (Z.of_nat i).
Proof.
  intros H. unfold sbit. rewrite land1_testbit by lia.
  pose proof (Nat.div_mod i 64 ltac:(discriminate)) as D. pose proof (Nat.mod_upper_bound i 64 ltac:(discriminate)).
  rewrite (limb_testbit s H (i / 64)) by lia. f_equal. lia.
Qed.

(** ** bitLength *)
Lemma log2_word w : 0 < w < W -> 0 <= Z.log2 w < 64.
Proof. intros H. split; [apply Z.log2_nonneg|]. apply Z.log2_lt_pow2; [lia|]. rewrite <- W_pow. lia. Qed.
Lemma limb_firstn s : forall n, (n < length s)%nat -> firstn (S n) s = firstn n s ++ [limb s n].
Proof.
  induction s as [|x s IH]; intros n H; cbn in H; [lia|].
  destruct n; [reflexivity|]. change (x :: firstn (S n) s = x :: firstn n s ++ [limb s n]).
  rewrite IH by lia. reflexivity.
Qed.
Lemma words_firstn n s : words s -> words (firstn n s).
Proof. intros H. revert n. induction H; intros [|n]; cbn; constructor; auto. apply IHForall. Qed.
Lemma bitlen_loop_ok s : words s -> forall n, (n <= length s)%nat ->
  bitlen_loop n s = if val (firstn n s) =? 0 then 0 else Z.log2 (val (firstn n s)) + 1.
Proof.
  intros Hs. induction n; intros Hn; [reflexivity|].
  cbn [bitlen_loop]. rewrite limb_firstn by lia. rewrite val_app.
  cbn [val]. rewrite Z.mul_0_r, Z.add_0_r. rewrite firstn_length_le by lia.
  pose proof (val_bound _ (words_firstn n s Hs)) as B. rewrite firstn_length_le in B by lia.
  pose proof (limb_word s n Hs) as Hw. unfold word in Hw.
  destruct (Z.eqb_spec (limb s n) 0) as [E|E].
  - rewrite E, Z.mul_0_r, Z.add_0_r. apply IHn. lia.
  - destruct (Z.eqb_spec (val (firstn n s) + W ^ Z.of_nat n * limb s n) 0); [nia|].
    unfold countl_zero.
    assert (HL : Z.log2 (val (firstn n s) + W ^ Z.of_nat n * limb s n) = 64 * Z.of_nat n + Z.log2 (limb s n)).
    { pose proof (Z.log2_spec (limb s n) ltac:(lia)) as [L1 L2].
      apply Z.log2_unique.
      - pose proof (Z.log2_nonneg (limb s n)). lia.
      - rewrite W_pow, <- Z.pow_mul_r in * by lia.
        assert (0 < 2 ^ (64 * Z.of_nat n)) by (apply Z.pow_pos_nonneg; lia).
        pose proof (Z.log2_nonneg (limb s n)).
        replace (Z.succ (64 * Z.of_nat n + Z.log2 (limb s n))) with (64 * Z.of_nat n + Z.succ (Z.log2 (limb s n))) by lia.
        rewrite !Z.pow_add_r by lia. nia. }
    rewrite HL. lia.
Qed.
Lemma bitLength_ok s : words s ->
  bitLength s = if val s =? 0 then 0 else Z.log2 (val s) + 1.
Proof.
  intros H. unfold bitLength. rewrite bitlen_loop_ok, firstn_all by auto. reflexivity.
Qed.
Lemma bitLength_bound s : words s -> 0 <= bitLength s /\ val s < 2 ^ bitLength s.
Proof.
  intros H. rewrite bitLength_ok by auto. pose proof (val_nonneg s H).
  destruct (Z.eqb_spec (val s) 0) as [->|]; [cbn; lia|].
  pose proof (Z.log2_spec (val s) ltac:(lia)). pose proof (Z.log2_nonneg (val s)). unfold Z.succ in *. lia.
Qed.

(** ** Comparison and equality *)
Lemma cmp_loop_ok a b : words a -> words b -> length a = length b ->
  forall n, (n <= length a)%nat -> cmp_loop n a b = (val (firstn n a) ?= val (firstn n b)).
Proof.
  intros Ha Hb L. induction n; intros Hn; [reflexivity|].
  cbn [cmp_loop]. rewrite !limb_firstn, !val_app by lia.
  cbn [val]. rewrite !Z.mul_0_r, !Z.add_0_r, !firstn_length_le by lia.
  pose proof (val_bound _ (words_firstn n a Ha)) as B1. rewrite firstn_length_le in B1 by lia.
  pose proof (val_bound _ (words_firstn n b Hb)) as B2. rewrite firstn_length_le in B2 by lia.
  assert (0 < W ^ Z.of_nat n) by (apply Z.pow_pos_nonneg; [reflexivity|lia]).
  destruct (Z.ltb_spec (limb a n) (limb b n)).
  - symmetry. apply Z.compare_lt_iff. nia.
  - destruct (Z.ltb_spec (limb b n) (limb a n)).
    + symmetry. apply Z.compare_gt_iff. nia.
    + replace (limb b n) with (limb a n) by lia. rewrite IHn by lia.
      rewrite (Z.add_comm (val (firstn n a))), (Z.add_comm (val (firstn n b))). symmetry. apply Z.add_compare_mono_l.
Qed.
Lemma scalar_cmp_ok a b : words a -> words b -> length a = length b -> scalar_cmp a b = (val a ?= val b).
Proof.
  intros. unfold scalar_cmp. rewrite cmp_loop_ok by auto. rewrite firstn_all, H1, firstn_all. reflexivity.
Qed.
Lemma scalar_equal_ok a b : words a -> words b -> length a = length b -> scalar_equal a b = (val a =? val b).
Proof.
  intros Ha Hb L. apply eq_true_iff_eq. unfold scalar_equal. rewrite forallb_forall, Z.eqb_eq. split.
  - intros H. f_equal. apply (nth_ext a b 0 0 L). intros n Hn. apply Z.eqb_eq, (H n), in_seq. lia.
  - intros E. apply val_inj in E; auto. subst. intros. apply Z.eqb_refl.
Qed.

(** ** rsh *)
Lemma nth_map_seq {A} (f : nat -> A) d n i : (i < n)%nat -> nth i (map f (seq 0 n)) d = f i.
Proof.
  intros H. rewrite nth_indep with (d' := f 0%nat) by (rewrite map_length, seq_length; auto).
  rewrite map_nth, seq_nth by auto. reflexivity.
Qed.
Lemma val_testbit_ext a b : 0 <= a -> 0 <= b -> (forall i, 0 <= i -> Z.testbit a i = Z.testbit b i) -> a = b.
Proof. intros. apply Z.bits_inj'. auto. Qed.
Lemma word_testbit_high w k : word w -> 64 <= k -> Z.testbit w k = false.
Proof.
  intros H Hk. unfold word in H. rewrite W_pow in H.
  destruct (Z.eq_dec w 0) as [->|]; [apply Z.testbit_0_l|].
  apply Z.bits_above_log2; [lia|]. apply Z.log2_lt_pow2; [lia|].
  apply Z.lt_le_trans with (2 ^ 64); [lia|]. apply Z.pow_le_mono_r; lia.
Qed.
Lemma limb_high s i : (length s <= i)%nat -> limb s i = 0.
Proof. intros. unfold limb. apply nth_overflow; auto. Qed.
Lemma rsh_word s bits i : words s -> 0 <= bits -> (i < length s)%nat ->
  word (limb (rsh s bits) i) /\
  forall k, 0 <= k < 64 -> Z.testbit (limb (rsh s bits) i) k = Z.testbit (val s) (64 * Z.of_nat i + k + bits).
Proof.
  intros Hs Hb Hi. unfold rsh.
  repeat match goal with |- context [limb (map ?f ?l) i] => change (limb (map f l) i) with (nth i (map f l) 0) end.
  rewrite nth_map_seq by auto. cbv zeta.
  pose proof (Z.div_mod bits 64 ltac:(lia)) as D. pose proof (Z.mod_pos_bound bits 64 ltac:(lia)) as M.
  assert (0 <= bits / 64) by (apply Z.div_pos; lia).
  destruct (Z.eqb_spec (bits mod 64) 0) as [E|E].
  - split; [apply limb_word; auto|]. intros k Hk. rewrite limb_testbit by auto. f_equal. lia.
  - pose proof (limb_word s (i + Z.to_nat (bits / 64)) Hs) as W1.
    pose proof (limb_word s (i + Z.to_nat (bits / 64) + 1) Hs) as W2.
    split.
    + unfold word. rewrite W_pow.
      assert (N : 0 <= Z.lor (Z.shiftr (limb s (i + Z.to_nat (bits / 64))) (bits mod 64))
          (Z.shiftl (limb s (i + Z.to_nat (bits / 64) + 1)) (64 - bits mod 64) mod 2 ^ 64)).
      { apply Z.lor_nonneg. split; [apply Z.shiftr_nonneg; apply W1|apply Z.mod_pos_bound; lia]. }
      split; [exact N|]. 
      destruct (Z.eq_dec (Z.lor (Z.shiftr (limb s (i + Z.to_nat (bits / 64))) (bits mod 64))
          (Z.shiftl (limb s (i + Z.to_nat (bits / 64) + 1)) (64 - bits mod 64) mod 2 ^ 64)) 0) as [Z0|Z0]; [rewrite Z0; lia|].
      apply Z.log2_lt_pow2; [lia|]. rewrite Z.log2_lor; [|apply Z.shiftr_nonneg; apply W1|apply Z.mod_pos_bound; lia].
      apply Z.max_lub_lt.
      * destruct (Z.eq_dec (Z.shiftr (limb s (i + Z.to_nat (bits / 64))) (bits mod 64)) 0) as [->|Z1]; [cbn; lia|].
        apply Z.log2_lt_pow2; [pose proof (proj2 (Z.shiftr_nonneg (limb s (i + Z.to_nat (bits / 64))) (bits mod 64)) (proj1 W1)); lia|].
        rewrite Z.shiftr_div_pow2 by lia. apply Z.div_lt_upper_bound; [apply Z.pow_pos_nonneg; lia|].
        unfold word in W1. rewrite W_pow in W1. assert (1 <= 2 ^ (bits mod 64)) by (apply Z.pow_le_mono_r with (a := 2) (b := 0); lia). nia.
      * pose proof (Z.mod_pos_bound (Z.shiftl (limb s (i + Z.to_nat (bits / 64) + 1)) (64 - bits mod 64)) (2 ^ 64) ltac:(lia)).
        destruct (Z.eq_dec (Z.shiftl (limb s (i + Z.to_nat (bits / 64) + 1)) (64 - bits mod 64) mod 2 ^ 64) 0) as [->|]; [cbn; lia|].
        apply Z.log2_lt_pow2; lia.
    + intros k Hk. rewrite Z.lor_spec, Z.shiftr_spec, W_pow, Z.mod_pow2_bits_low by lia.
      rewrite Z.shiftl_spec by lia.
      destruct (Z_lt_le_dec (k + bits mod 64) 64).
      * rewrite limb_testbit by (auto; lia). rewrite (Z.testbit_neg_r _ (k - (64 - bits mod 64))) by lia.
        rewrite orb_false_r. f_equal. lia.
      * rewrite word_testbit_high by (auto; lia). cbn [orb]. rewrite limb_testbit by (auto; lia). f_equal. lia.
Qed.
Lemma rsh_length s bits : length (rsh s bits) = length s.
Proof. unfold rsh. rewrite map_length, seq_length. reflexivity. Qed.
Lemma words_intro s : (forall i, (i < length s)%nat -> word (limb s i)) -> words s.
Proof.
  intros H. apply Forall_forall. intros x Hx. apply (In_nth _ _ 0) in Hx. destruct Hx as (i & Hi & <-). apply H; auto.
Qed.
Lemma val_high s i : words s -> 64 * Z.of_nat (length s) <= i -> Z.testbit (val s) i = false.
Proof.
  intros H Hi. pose proof (val_bound s H) as B. rewrite W_pow, <- Z.pow_mul_r in B by lia.
  destruct (Z.eq_dec (val s) 0) as [->|]; [apply Z.testbit_0_l|].
  apply Z.bits_above_log2; [lia|]. apply Z.log2_lt_pow2; [lia|].
  eapply Z.lt_le_trans; [apply B|]. apply Z.pow_le_mono_r; lia.
Qed.
Lemma rsh_ok s bits : words s -> 0 <= bits ->
  words (rsh s bits) /\ length (rsh s bits) = length s /\ val (rsh s bits) = val s / 2 ^ bits.
Proof.
  intros Hs Hb.
  assert (HW : words (rsh s bits)).
  { apply words_intro. intros i Hi. rewrite rsh_length in Hi. apply rsh_word; auto. }
  split; [exact HW|]. split; [apply rsh_length|].
  apply val_testbit_ext; [apply val_nonneg; auto|apply Z.div_pos; [apply val_nonneg; auto|apply Z.pow_pos_nonneg; lia]|].
  intros i Hi. rewrite Z.div_pow2_bits by lia.
  destruct (Z_lt_le_dec i (64 * Z.of_nat (length s))).
  - pose proof (Z.div_mod i 64 ltac:(lia)). pose proof (Z.mod_pos_bound i 64 ltac:(lia)).
    assert (0 <= i / 64) by (apply Z.div_pos; lia).
    replace i with (64 * Z.of_nat (Z.to_nat (i / 64)) + i mod 64) by lia.
    rewrite <- limb_testbit by (auto; lia). apply rsh_word; auto; lia.
  - rewrite val_high by (auto; rewrite rsh_length; lia).
    symmetry. apply val_high; auto; lia.
Qed.

(** ** exp *)
Section Exp.
Variable T : Type.
Variables (sq : T -> T) (mul : T -> T -> T) (one : T).
(** [rel e z]: z represents x^e *)
Variable rel : Z -> T -> Prop.
Variable x : T.
Hypothesis rel_sq : forall e z, 0 <= e -> rel e z -> rel (2 * e) (sq z).
Hypothesis rel_mul : forall e z, 0 <= e -> rel e z -> rel (e + 1) (mul z x).
Hypothesis rel_one : rel 0 one.
Lemma exp_loop_ok s : words s -> forall i z, rel (val s / 2 ^ Z.of_nat i) z -> rel (val s) (exp_loop sq mul x s i z).
Proof.
  intros Hs. pose proof (val_nonneg s Hs) as V. induction i; intros z Hz.
  - cbn in *. rewrite Z.div_1_r in Hz. exact Hz.
  - cbn [exp_loop]. apply IHi. rewrite sbit_ok by auto.
    rewrite Nat2Z.inj_succ, Z.pow_succ_r in Hz by lia. rewrite Z.mul_comm in Hz.
    rewrite <- Z.div_div in Hz by (try lia; apply Z.pow_pos_nonneg; lia).
    set (v := val s / 2 ^ Z.of_nat i) in *.
    assert (0 <= v) by (apply Z.div_pos; [lia|apply Z.pow_pos_nonneg; lia]).
    assert (B : Z.testbit (val s) (Z.of_nat i) = Z.odd v).
    { unfold v. rewrite <- Z.bit0_odd, Z.div_pow2_bits by lia. f_equal. }
    rewrite B. pose proof (Zdiv2_odd_eqn v) as D. rewrite Z.div2_div in D.
    assert (0 <= v / 2) by (apply Z.div_pos; lia).
    destruct (Z.odd v).
    + rewrite D. apply rel_mul; [lia|]. apply rel_sq; auto.
    + rewrite D, Z.add_0_r. apply rel_sq; auto.
Qed.
Lemma gexp_ok s : words s -> rel (val s) (gexp one sq mul x s).
Proof.
  intros Hs. unfold gexp. apply exp_loop_ok; auto.
  destruct (bitLength_bound s Hs) as [B1 B2]. rewrite Z2Nat.id by lia.
  rewrite Z.div_small by (split; [apply val_nonneg; auto|lia]). exact rel_one.
Qed.
End Exp.

(** ** scale *)
Section Scale.
Variable T : Type.
Variables (dbl : T -> T) (add : T -> T -> T) (zero : T).
(** [rel n q]: q represents n times the base point *)
Variable rel : Z -> T -> Prop.
Hypothesis rel_dbl : forall n q, 0 <= n -> rel n q -> rel (2 * n) (dbl q).
Hypothesis rel_add : forall m n q r, 0 <= m -> 0 <= n -> rel m q -> rel n r -> rel (m + n) (add q r).
Lemma scale_loop_ok s : words s -> forall n i q nn, rel (val s mod 2 ^ Z.of_nat i) q -> rel (2 ^ Z.of_nat i) nn ->
  rel (val s mod 2 ^ Z.of_nat (i + n)) (scale_loop dbl add s n i q nn).
Proof.
  intros Hs. pose proof (val_nonneg s Hs) as V.
  induction n; intros i q nn Hq Hn.
  - cbn. rewrite Nat.add_0_r. exact Hq.
  - cbn [scale_loop]. replace (i + S n)%nat with (S i + n)%nat by lia.
    assert (0 < 2 ^ Z.of_nat i) by (apply Z.pow_pos_nonneg; lia).
    assert (E : 2 ^ Z.of_nat (S i) = 2 * 2 ^ Z.of_nat i) by (rewrite Nat2Z.inj_succ, Z.pow_succ_r by lia; reflexivity).
    apply IHn.
    + rewrite sbit_ok by auto. rewrite E, (Z.mul_comm 2), Z.rem_mul_r by lia.
      assert (B : (val s / 2 ^ Z.of_nat i) mod 2 = if Z.testbit (val s) (Z.of_nat i) then 1 else 0).
      { rewrite Zmod_odd, <- Z.bit0_odd, Z.div_pow2_bits by lia. cbn [Z.add]. destruct (Z.testbit (val s) (Z.of_nat i)); reflexivity. }
      rewrite B. destruct (Z.testbit (val s) (Z.of_nat i)).
      * rewrite Z.mul_1_r. apply rel_add; auto; try lia. apply Z.mod_pos_bound; lia.
      * rewrite Z.mul_0_r, Z.add_0_r. exact Hq.
    + rewrite E. apply rel_dbl; auto; lia.
Qed.
Lemma gscale_ok x s : words s -> rel 0 zero -> rel 1 x -> rel (val s) (gscale zero dbl add x s).
Proof.
  intros Hs H0 H1. unfold gscale.
  destruct (bitLength_bound s Hs) as [B1 B2].
  pose proof (scale_loop_ok s Hs (Z.to_nat (bitLength s)) 0 zero x) as L.
  cbn [Nat.add] in L. rewrite Z2Nat.id in L by lia.
  rewrite (Z.mod_small (val s) (2 ^ bitLength s)) in L by (split; [apply val_nonneg; auto|lia]).
  apply L; [cbn; rewrite Z.mod_1_r; exact H0|exact H1].
Qed.
End Scale.
