(** Byte codecs of scalar.hpp and fp.cpp against SpecBytes. *)
From Coq Require Import ZArith List Bool Lia.
From Verif Require Import ModelWord ModelScalar SpecBytes ScalarProof.
Import ListNotations.
Local Open Scope Z_scope.

Lemma le_int_bound l : bytes l -> 0 <= le_int l < 256 ^ Z.of_nat (length l).
Proof.
  induction 1 as [|b l Hb _ IH]; [cbn; lia|].
  cbn [le_int length]. rewrite Nat2Z.inj_succ, Z.pow_succ_r by lia. unfold byte in Hb. lia.
Qed.
Lemma le_int_app a b : le_int (a ++ b) = le_int a + 256 ^ Z.of_nat (length a) * le_int b.
Proof.
  induction a as [|x a IH]; cbn [app le_int length]; [lia|].
  rewrite IH, Nat2Z.inj_succ, Z.pow_succ_r by lia. ring.
Qed.
Lemma int_le_length n : forall v, length (int_le n v) = n.
Proof. induction n; intros; cbn; auto. Qed.
Lemma int_be_length n v : length (int_be n v) = n.
Proof. unfold int_be. rewrite rev_length. apply int_le_length. Qed.
Lemma int_le_bytes n : forall v, bytes (int_le n v).
Proof. induction n; intros; cbn; constructor; [apply Z.mod_pos_bound; lia|apply IHn]. Qed.
Lemma bytes_rev l : bytes l -> bytes (rev l).
Proof. apply Forall_rev. Qed.
Lemma int_be_bytes n v : bytes (int_be n v).
Proof. apply bytes_rev, int_le_bytes. Qed.
Lemma le_int_int_le n : forall v, 0 <= v -> le_int (int_le n v) = v mod 256 ^ Z.of_nat n.
Proof.
  induction n; intros v Hv; [cbn; rewrite Z.mod_1_r; reflexivity|].
  cbn [int_le le_int]. rewrite IHn by (apply Z.div_pos; lia).
  rewrite Nat2Z.inj_succ, Z.pow_succ_r by lia. rewrite Z.rem_mul_r; lia.
Qed.
Lemma be_int_int_be n v : 0 <= v -> be_int (int_be n v) = v mod 256 ^ Z.of_nat n.
Proof. intros. unfold be_int, int_be. rewrite rev_involutive. apply le_int_int_le; auto. Qed.
Lemma int_le_le_int l : bytes l -> int_le (length l) (le_int l) = l.
Proof.
  induction 1 as [|b l Hb _ IH]; [reflexivity|]. unfold byte in Hb.
  cbn [length int_le le_int]. f_equal.
  - rewrite Z.mul_comm, Z.mod_add, Z.mod_small by lia. reflexivity.
  - rewrite Z.mul_comm, Z.div_add, Z.div_small by lia. exact IH.
Qed.
Lemma int_be_be_int l : bytes l -> int_be (length l) (be_int l) = l.
Proof.
  intros H. unfold int_be, be_int. rewrite <- (rev_length l), int_le_le_int by (apply bytes_rev; auto).
  apply rev_involutive.
Qed.
Lemma be_int_bound l : bytes l -> 0 <= be_int l < 256 ^ Z.of_nat (length l).
Proof. intros H. apply bytes_rev, le_int_bound in H. rewrite rev_length in H. exact H. Qed.
Lemma int_le_app m n : forall v, int_le (m + n) v = int_le m v ++ int_le n (v / 256 ^ Z.of_nat m).
Proof.
  induction m; intros v; cbn [int_le plus app].
  - cbn. rewrite Z.div_1_r. reflexivity.
  - f_equal. rewrite IHm. do 2 f_equal. rewrite Nat2Z.inj_succ, Z.pow_succ_r by lia.
    rewrite Z.div_div; auto; try lia.
Qed.
Lemma int_le_mod n : forall v m, Z.of_nat n <= m -> int_le n (v mod 256 ^ m) = int_le n v.
Proof.
  induction n; intros v m Hm; [reflexivity|]. cbn [int_le].
  replace m with (1 + (m - 1)) by lia. rewrite Z.pow_add_r by lia. change (256 ^ 1) with 256.
  assert (0 < 256 ^ (m - 1)) by (apply Z.pow_pos_nonneg; lia).
  rewrite Z.rem_mul_r by lia. f_equal.
  - rewrite (Z.mul_comm 256), Z.mod_add, Z.mod_mod by lia. reflexivity.
  - rewrite (Z.mul_comm 256), Z.div_add, Z.div_small by (try lia; apply Z.mod_pos_bound; lia).
    apply IHn. lia.
Qed.

(** ** to bytes *)
Lemma word_bytes_le_ok w : word w -> word_bytes_le w = int_le 8 w.
Proof.
  intros H. unfold word_bytes_le. cbn [map int_le].
  rewrite !Z.div_div by lia.
  change (256*256) with (2^16). change (2^16*256) with (2^24). change (2^24*256) with (2^32).
  change (2^32*256) with (2^40). change (2^40*256) with (2^48). change (2^48*256) with (2^56).
  change (2 ^ 0) with 1. rewrite Z.div_1_r. reflexivity.
Qed.
Lemma W_256 : W = 256 ^ 8. Proof. reflexivity. Qed.
Lemma toBytesLE_ok s : words s -> toBytesLE s = int_le (8 * length s) (val s).
Proof.
  induction 1 as [|a s Ha Hs IH]; [reflexivity|].
  unfold toBytesLE in *. cbn [flat_map length val]. rewrite IH.
  rewrite word_bytes_le_ok by auto. replace (8 * S (length s))%nat with (8 + 8 * length s)%nat by lia.
  rewrite int_le_app. change (Z.of_nat 8) with 8. rewrite <- W_256. unfold word in Ha.
  f_equal.
  - rewrite <- (int_le_mod 8 (a + W * val s) 8) by lia. rewrite <- W_256.
    rewrite Z.mul_comm, Z.mod_add, Z.mod_small by (try discriminate; lia). reflexivity.
  - rewrite Z.mul_comm, Z.div_add, Z.div_small by (try discriminate; lia). reflexivity.
Qed.
Lemma toBytesBE_rev s : words s -> toBytesBE s = rev (toBytesLE s).
Proof.
  intros H. unfold toBytesBE, toBytesLE. induction H as [|a s Ha Hs IH]; [reflexivity|].
  cbn [rev]. rewrite flat_map_app, IH. cbn [flat_map]. rewrite rev_app_distr, app_nil_r. f_equal.
Qed.
Lemma toBytesBE_ok s : words s -> toBytesBE s = int_be (8 * length s) (val s).
Proof. intros. rewrite toBytesBE_rev, toBytesLE_ok by auto. reflexivity. Qed.

(** ** from bytes *)
Lemma lor_shift x y k : 0 <= k -> 0 <= x < 2 ^ k -> 0 <= y -> Z.lor x (Z.shiftl y k) = x + y * 2 ^ k.
Proof.
  intros Hk Hx Hy. rewrite <- Z.shiftl_mul_pow2 by auto. symmetry.
  rewrite <- Z.lxor_lor.
  - apply Z.add_nocarry_lxor. apply Z.bits_inj'. intros i Hi. rewrite Z.land_spec, Z.bits_0.
    destruct (Z_lt_le_dec i k).
    + rewrite Z.shiftl_spec_low, andb_false_r by lia. reflexivity.
    + replace (Z.testbit x i) with false; [reflexivity|]. symmetry.
      destruct (Z.eq_dec x 0) as [->|]; [apply Z.testbit_0_l|].
      apply Z.bits_above_log2; [lia|]. apply Z.log2_lt_pow2; [lia|].
      apply Z.lt_le_trans with (2 ^ k); [lia|apply Z.pow_le_mono_r; lia].
  - apply Z.bits_inj'. intros i Hi. rewrite Z.land_spec, Z.bits_0.
    destruct (Z_lt_le_dec i k).
    + rewrite Z.shiftl_spec_low, andb_false_r by lia. reflexivity.
    + replace (Z.testbit x i) with false; [reflexivity|]. symmetry.
      destruct (Z.eq_dec x 0) as [->|]; [apply Z.testbit_0_l|].
      apply Z.bits_above_log2; [lia|]. apply Z.log2_lt_pow2; [lia|].
      apply Z.lt_le_trans with (2 ^ k); [lia|apply Z.pow_le_mono_r; lia].
Qed.
Definition le8 (f : nat -> Z) : Z :=
  f 0%nat + 256 * (f 1%nat + 256 * (f 2%nat + 256 * (f 3%nat + 256 * (f 4%nat + 256 * (f 5%nat + 256 * (f 6%nat + 256 * f 7%nat)))))).
Lemma lor8 (f : nat -> Z) : (forall j, (j < 8)%nat -> byte (f j)) ->
  fold_left Z.lor (map (fun j => Z.shiftl (f j) (8 * Z.of_nat j)) (seq 0 8)) 0 = le8 f.
Proof.
  intros H. cbn [seq map fold_left]. unfold le8.
  pose proof (H 0%nat ltac:(lia)). pose proof (H 1%nat ltac:(lia)). pose proof (H 2%nat ltac:(lia)). pose proof (H 3%nat ltac:(lia)).
  pose proof (H 4%nat ltac:(lia)). pose proof (H 5%nat ltac:(lia)). pose proof (H 6%nat ltac:(lia)). pose proof (H 7%nat ltac:(lia)).
  clear H. generalize dependent (f 0%nat). generalize dependent (f 1%nat). generalize dependent (f 2%nat). generalize dependent (f 3%nat).
  generalize dependent (f 4%nat). generalize dependent (f 5%nat). generalize dependent (f 6%nat). generalize dependent (f 7%nat).
  intros f7 H7 f6 H6 f5 H5 f4 H4 f3 H3 f2 H2 f1 H1 f0 H0. unfold byte in *.
  change (8 * Z.of_nat 0) with 0. change (8 * Z.of_nat 1) with 8. change (8 * Z.of_nat 2) with 16. change (8 * Z.of_nat 3) with 24.
  change (8 * Z.of_nat 4) with 32. change (8 * Z.of_nat 5) with 40. change (8 * Z.of_nat 6) with 48. change (8 * Z.of_nat 7) with 56.
  rewrite Z.shiftl_0_r, Z.lor_0_l.
  rewrite (lor_shift f0) by lia. rewrite (lor_shift _ f2) by lia. rewrite (lor_shift _ f3) by lia.
  rewrite (lor_shift _ f4) by lia. rewrite (lor_shift _ f5) by lia. rewrite (lor_shift _ f6) by lia. rewrite (lor_shift _ f7) by lia. lia.
Qed.
Lemma nth_byte b i : bytes b -> byte (nth i b 0).
Proof.
  intros H. destruct (Nat.lt_ge_cases i (length b)).
  - eapply Forall_forall in H; [exact H|apply nth_In; auto].
  - rewrite nth_overflow by auto. split; lia.
Qed.
Lemma le8_word f : (forall j, (j < 8)%nat -> byte (f j)) -> word (le8 f).
Proof.
  intros H. unfold word, le8, W.
  pose proof (H 0%nat ltac:(lia)). pose proof (H 1%nat ltac:(lia)). pose proof (H 2%nat ltac:(lia)). pose proof (H 3%nat ltac:(lia)).
  pose proof (H 4%nat ltac:(lia)). pose proof (H 5%nat ltac:(lia)). pose proof (H 6%nat ltac:(lia)). pose proof (H 7%nat ltac:(lia)).
  unfold byte in *. lia.
Qed.
Lemma fromBytesLE_length n b : length (fromBytesLE n b) = n.
Proof. unfold fromBytesLE. rewrite map_length, seq_length. reflexivity. Qed.
Lemma fromBytesBE_length n b : length (fromBytesBE n b) = n.
Proof. unfold fromBytesBE. rewrite map_length, seq_length. reflexivity. Qed.
Lemma fromBytesLE_words n b : bytes b -> words (fromBytesLE n b).
Proof.
  intros H. apply Forall_forall. intros x Hx. apply in_map_iff in Hx. destruct Hx as (i & <- & _).
  unfold word_of_le. rewrite (lor8 (fun j => nth (i * 8 + j) b 0)) by (intros; apply nth_byte; auto).
  apply le8_word. intros; apply nth_byte; auto.
Qed.
Lemma fromBytesLE_ok n : forall b, bytes b -> length b = (8 * n)%nat -> val (fromBytesLE n b) = le_int b.
Proof.
  induction n; intros b Hb L.
  - destruct b; [reflexivity|cbn in L; lia].
  - do 8 (destruct b as [|? b]; [cbn in L; lia|]).
    unfold fromBytesLE. cbn [seq map]. rewrite <- seq_shift, map_map. cbn [val].
    replace (val (map _ (seq 0 n))) with (val (fromBytesLE n b)).
    + rewrite IHn.
      * unfold word_of_le. rewrite (lor8 (fun j => nth (0 * 8 + j) _ 0)) by (intros; apply nth_byte; auto).
        unfold le8. cbn [nth Nat.mul Nat.add le_int]. unfold W. lia.
      * do 8 (apply Forall_inv_tail in Hb). exact Hb.
      * cbn in L. lia.
    + unfold fromBytesLE. f_equal.
Qed.
Lemma fromBytesBE_LE n b : length b = (8 * n)%nat -> fromBytesBE n b = fromBytesLE n (rev b).
Proof.
  intros L. unfold fromBytesBE, fromBytesLE. apply map_ext_in. intros i Hi. apply in_seq in Hi.
  unfold word_of_be, word_of_le. f_equal. apply map_ext_in. intros j Hj. apply in_seq in Hj.
  f_equal. rewrite rev_nth by lia. f_equal. lia.
Qed.
Lemma fromBytesBE_ok n b : bytes b -> length b = (8 * n)%nat -> val (fromBytesBE n b) = be_int b.
Proof.
  intros Hb L. rewrite fromBytesBE_LE by auto. apply fromBytesLE_ok; [apply bytes_rev; auto|rewrite rev_length; auto].
Qed.
Lemma fromBytesBE_words n b : bytes b -> length b = (8 * n)%nat -> words (fromBytesBE n b).
Proof. intros Hb L. rewrite fromBytesBE_LE by auto. apply fromBytesLE_words, bytes_rev; auto. Qed.

(** ** round trips for arrays *)
Lemma W_pow_256 n : W ^ Z.of_nat n = 256 ^ Z.of_nat (8 * n).
Proof. rewrite W_256, <- Z.pow_mul_r by lia. f_equal. lia. Qed.
Lemma toLE_fromLE n b : bytes b -> length b = (8 * n)%nat -> toBytesLE (fromBytesLE n b) = b.
Proof.
  intros Hb L. rewrite toBytesLE_ok, fromBytesLE_length, fromBytesLE_ok by (auto using fromBytesLE_words).
  rewrite <- L. apply int_le_le_int; auto.
Qed.
Lemma fromLE_toLE s : words s -> fromBytesLE (length s) (toBytesLE s) = s.
Proof.
  intros H. assert (L : length (toBytesLE s) = (8 * length s)%nat) by (rewrite toBytesLE_ok by auto; apply int_le_length).
  assert (Hb : bytes (toBytesLE s)) by (rewrite toBytesLE_ok by auto; apply int_le_bytes).
  apply val_inj; auto using fromBytesLE_words, fromBytesLE_length.
  rewrite fromBytesLE_ok by auto. rewrite toBytesLE_ok by auto.
  rewrite le_int_int_le by (apply val_nonneg; auto). rewrite <- W_pow_256. apply Z.mod_small, val_bound; auto.
Qed.
Lemma toBE_fromBE n b : bytes b -> length b = (8 * n)%nat -> toBytesBE (fromBytesBE n b) = b.
Proof.
  intros Hb L. rewrite toBytesBE_rev by (apply fromBytesBE_words; auto). rewrite fromBytesBE_LE by auto.
  rewrite toLE_fromLE by (rewrite ?rev_length; auto using bytes_rev). apply rev_involutive.
Qed.
Lemma fromBE_toBE s : words s -> fromBytesBE (length s) (toBytesBE s) = s.
Proof.
  intros H. rewrite fromBytesBE_LE.
  - rewrite toBytesBE_rev, rev_involutive by auto. apply fromLE_toLE; auto.
  - rewrite toBytesBE_ok by auto. apply int_be_length.
Qed.
