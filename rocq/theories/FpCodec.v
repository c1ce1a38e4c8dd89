(** Byte codecs of class fp. *)
From Coq Require Import ZArith List Bool Lia.
From Verif Require Import SpecField FieldProof SpecBytes ModelWord ModelScalar ModelFp ScalarProof BytesProof FpProof FpProof2.
Import ListNotations.
Local Open Scope Z_scope.

Lemma R384_256 : R384 = 256 ^ 48. Proof. reflexivity. Qed.
Lemma be48_range b : bytes b -> length b = 48%nat -> 0 <= be_int b < R384.
Proof. intros H L. apply be_int_bound in H. rewrite L in H. exact H. Qed.
Lemma le48_range b : bytes b -> length b = 48%nat -> 0 <= le_int b < R384.
Proof. intros H L. apply le_int_bound in H. rewrite L in H. exact H. Qed.

(** decoding of the integer [e] *)
Definition fp_of_int (e : Z) (check mont : bool) : option Z :=
  if check && negb (e <? modulus) then None else Some (if mont then fp_toMont e else e).
Lemma fp_isValid_ltb e : fp_isValid e = (e <? modulus).
Proof. unfold fp_isValid, fp_cmp, Z.ltb. rewrite M_eq. reflexivity. Qed.
Lemma fp_fromBytesBE_int b c m : bytes b -> length b = 48%nat -> fp_fromBytesBE b c m = fp_of_int (be_int b) c m.
Proof. intros H L. unfold fp_fromBytesBE. rewrite fromBytesBE_ok, fp_isValid_ltb by auto. reflexivity. Qed.
Lemma fp_fromBytesLE_int b c m : bytes b -> length b = 48%nat -> fp_fromBytesLE b c m = fp_of_int (le_int b) c m.
Proof. intros H L. unfold fp_fromBytesLE. rewrite fromBytesLE_ok, fp_isValid_ltb by auto. reflexivity. Qed.
(** default options: exactly the integers below p are accepted, and decode to their class *)
Lemma fp_of_int_ok e x : 0 <= e < R384 ->
  (fp_of_int e true true = Some x <-> e < modulus /\ canon x /\ fval (dec x) = e).
Proof.
  intros H. unfold fp_of_int. cbn [andb]. destruct (Z.ltb_spec e modulus); cbn [negb].
  - destruct (toMont_ok e H) as [C E]. split.
    + intros [= <-]. split; auto. split; auto. rewrite E, fval_Fof. apply Z.mod_small; lia.
    + intros (_ & Cx & Ex). f_equal. apply dec_inj; auto. rewrite E, <- Ex. apply Fof_fval.
  - split; [discriminate|lia].
Qed.
Lemma fp_toBytesBE_int x : canon x -> fp_toBytesBE x true = int_be 48 (fval (dec x)).
Proof.
  intros H. unfold fp_toBytesBE. rewrite fromMont_ok by (apply canon_R384, H).
  pose proof (fval_range (dec x)) as B. rewrite <- M_eq in B. destruct (limbs6 _ B) as [Wl Vl].
  rewrite toBytesBE_ok, limbs_of_length, Vl by auto. reflexivity.
Qed.
Lemma fp_toBytesLE_int x : canon x -> fp_toBytesLE x true = int_le 48 (fval (dec x)).
Proof.
  intros H. unfold fp_toBytesLE. rewrite fromMont_ok by (apply canon_R384, H).
  pose proof (fval_range (dec x)) as B. rewrite <- M_eq in B. destruct (limbs6 _ B) as [Wl Vl].
  rewrite toBytesLE_ok, limbs_of_length, Vl by auto. reflexivity.
Qed.
Lemma fval_256 a : fval a mod 256 ^ Z.of_nat 48 = fval a.
Proof.
  pose proof (fval_range a) as B. apply Z.mod_small. pose proof R_M. pose proof M_pos. rewrite R384_256, M_eq in *.
  change (Z.of_nat 48) with 48. lia.
Qed.
Lemma fp_BE_roundtrip x : canon x -> fp_fromBytesBE (fp_toBytesBE x true) true true = Some x.
Proof.
  intros H. rewrite fp_toBytesBE_int, fp_fromBytesBE_int by (auto using int_be_bytes, int_be_length).
  rewrite be_int_int_be, fval_256 by apply fval_range. apply fp_of_int_ok.
  - pose proof (fval_range (dec x)). pose proof R_M. rewrite M_eq in *. lia.
  - split; [apply fval_range|]. auto.
Qed.
Lemma fp_LE_roundtrip x : canon x -> fp_fromBytesLE (fp_toBytesLE x true) true true = Some x.
Proof.
  intros H. rewrite fp_toBytesLE_int, fp_fromBytesLE_int by (auto using int_le_bytes, int_le_length).
  rewrite le_int_int_le, fval_256 by apply fval_range. apply fp_of_int_ok.
  - pose proof (fval_range (dec x)). pose proof R_M. rewrite M_eq in *. lia.
  - split; [apply fval_range|]. auto.
Qed.
Lemma fp_BE_unique b x : bytes b -> length b = 48%nat -> fp_fromBytesBE b true true = Some x -> fp_toBytesBE x true = b.
Proof.
  intros Hb L H. rewrite fp_fromBytesBE_int in H by auto. apply fp_of_int_ok in H; [|apply be48_range; auto].
  destruct H as (_ & C & E). rewrite fp_toBytesBE_int, E by auto. rewrite <- L. apply int_be_be_int; auto.
Qed.
Lemma fp_LE_unique b x : bytes b -> length b = 48%nat -> fp_fromBytesLE b true true = Some x -> fp_toBytesLE x true = b.
Proof.
  intros Hb L H. rewrite fp_fromBytesLE_int in H by auto. apply fp_of_int_ok in H; [|apply le48_range; auto].
  destruct H as (_ & C & E). rewrite fp_toBytesLE_int, E by auto. rewrite <- L. apply int_le_le_int; auto.
Qed.
(** raw (non-Montgomery) options *)
Lemma fp_raw_BE_roundtrip x : 0 <= x < R384 -> fp_fromBytesBE (fp_toBytesBE x false) false false = Some x.
Proof.
  intros H. unfold fp_toBytesBE, fp_fromBytesBE. cbn [andb]. f_equal.
  replace 6%nat with (length (limbs_of 6 x)) at 1 by apply limbs_of_length.
  rewrite fromBE_toBE by apply limbs_of_words. apply limbs_of_small. exact H.
Qed.
Lemma fp_raw_LE_roundtrip x : 0 <= x < R384 -> fp_fromBytesLE (fp_toBytesLE x false) false false = Some x.
Proof.
  intros H. unfold fp_toBytesLE, fp_fromBytesLE. cbn [andb]. f_equal.
  replace 6%nat with (length (limbs_of 6 x)) at 1 by apply limbs_of_length.
  rewrite fromLE_toLE by apply limbs_of_words. apply limbs_of_small. exact H.
Qed.
