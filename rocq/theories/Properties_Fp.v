(** Properties C08-C13: class fp.  An fp object is the integer of its six limbs; [dec] is the class of
    x * 2^-384 modulo p, [canon x] is 0 <= x < p. *)
From Coq Require Import ZArith List Bool Lia Ring Field.
From Verif Require Import RingPow SpecField FieldProof TowerProof SpecBytes ModelWord ModelScalar ModelFp ScalarProof BytesProof FpProof FpProof2 InvWide FpCodec.
Import ListNotations.
Local Open Scope Z_scope.
Add Field Fp_fieldPr : F_field.

(** What [dec] means: x = dec(x) * 2^384 mod p, and it is a bijection from canonical objects to Z/p. *)
Theorem C08_montgomery_form : forall x, canon x -> x = (fval (dec x) * 2 ^ 384) mod modulus.
Proof. intros x H. symmetry. exact (enc_dec x H). Qed.
Print Assumptions C08_montgomery_form.
Theorem C08_bijection : (forall x y, canon x -> canon y -> dec x = dec y -> x = y) /\
  (forall a : Fp, exists x, canon x /\ dec x = a).
Proof. split; [exact dec_inj|]. intros a. exists (enc a). split; [apply canon_enc|apply dec_enc]. Qed.
Print Assumptions C08_bijection.
Theorem C08_conversions_inverse : forall x, canon x ->
  fp_fromMont (fp_toMont x) = x /\ fp_toMont (fp_fromMont x) = x.
Proof. intros. split; [apply fromMont_toMont|apply toMont_fromMont]; assumption. Qed.
Print Assumptions C08_conversions_inverse.
(** toMont of an arbitrary 384-bit value, and fromMont of an arbitrary 384-bit value *)
Theorem C08_toMont_any : forall x, 0 <= x < 2 ^ 384 ->
  canon (fp_toMont x) /\ fval (dec (fp_toMont x)) = x mod modulus.
Proof. intros x H. destruct (toMont_ok x H) as [C E]. split; [exact C|]. rewrite E. reflexivity. Qed.
Print Assumptions C08_toMont_any.
Theorem C08_fromMont_any : forall x, 0 <= x < 2 ^ 384 -> fp_fromMont x = fval (dec x).
Proof. exact fromMont_ok. Qed.
Print Assumptions C08_fromMont_any.
Theorem C08_isValid : forall x, 0 <= x -> (fp_isValid x = true <-> x < modulus).
Proof. intros x H. rewrite (isValid_ok x H). unfold canon. rewrite M_eq. lia. Qed.
Print Assumptions C08_isValid.
Example C08_example : canon R1 /\ fp_fromMont R1 = 1 /\ fp_toMont (modulus + 5) = fp_toMont 5 /\ fp_isValid modulus = false.
Proof. split; [apply canon_R1|]. vm_compute. repeat split. Qed.

(** C09 *)
Theorem C09_decode_BE : forall b x, bytes b -> length b = 48%nat ->
  (fp_fromBytesBE b true true = Some x <-> be_int b < modulus /\ canon x /\ fval (dec x) = be_int b).
Proof. intros b x Hb L. rewrite fp_fromBytesBE_int by assumption. apply fp_of_int_ok, be48_range; assumption. Qed.
Print Assumptions C09_decode_BE.
Theorem C09_decode_LE : forall b x, bytes b -> length b = 48%nat ->
  (fp_fromBytesLE b true true = Some x <-> le_int b < modulus /\ canon x /\ fval (dec x) = le_int b).
Proof. intros b x Hb L. rewrite fp_fromBytesLE_int by assumption. apply fp_of_int_ok, le48_range; assumption. Qed.
Print Assumptions C09_decode_LE.
Theorem C09_encode : forall x, canon x ->
  fp_toBytesBE x true = int_be 48 (fval (dec x)) /\ fp_toBytesLE x true = int_le 48 (fval (dec x)) /\
  fp_toBytesBE x true = rev (fp_toBytesLE x true).
Proof. intros x H. rewrite fp_toBytesBE_int, fp_toBytesLE_int by assumption. repeat split. Qed.
Print Assumptions C09_encode.
Theorem C09_roundtrip : forall x, canon x ->
  fp_fromBytesBE (fp_toBytesBE x true) true true = Some x /\
  fp_fromBytesLE (fp_toBytesLE x true) true true = Some x.
Proof. intros. split; [apply fp_BE_roundtrip|apply fp_LE_roundtrip]; assumption. Qed.
Print Assumptions C09_roundtrip.
(** every accepted string is the encoding of what it decodes to: no second encoding *)
Theorem C09_unique_encoding : forall b x, bytes b -> length b = 48%nat ->
  (fp_fromBytesBE b true true = Some x -> fp_toBytesBE x true = b) /\
  (fp_fromBytesLE b true true = Some x -> fp_toBytesLE x true = b).
Proof. intros. split; [apply fp_BE_unique|apply fp_LE_unique]; assumption. Qed.
Print Assumptions C09_unique_encoding.
Theorem C09_raw_roundtrip : forall x, 0 <= x < 2 ^ 384 ->
  fp_fromBytesBE (fp_toBytesBE x false) false false = Some x /\
  fp_fromBytesLE (fp_toBytesLE x false) false false = Some x.
Proof. intros. split; [apply fp_raw_BE_roundtrip|apply fp_raw_LE_roundtrip]; assumption. Qed.
Print Assumptions C09_raw_roundtrip.
Example C09_example :
  fp_fromBytesBE (int_be 48 5) true true = Some (fp_toMont 5) /\
  fp_fromBytesBE (int_be 48 modulus) true true = None /\
  fp_fromBytesLE (rev (int_be 48 (modulus - 1))) true true = Some (fp_toMont (modulus - 1)).
Proof. vm_compute. repeat split. Qed.

(** C10: inversion.  [Some]: never indexes outside the six limbs. *)
Theorem C10_inverse : forall x, canon x ->
  exists y, fp_inverse_opt x = Some y /\ canon y /\
    (dec x <> F0 -> Fmul (dec x) (dec y) = F1) /\ (dec x = F0 -> y = 0).
Proof.
  intros x H. destruct (fp_inverse_opt_ok x H) as (y & E & C & D). exists y. split; [exact E|]. split; [exact C|].
  split.
  - intros N. rewrite D. transitivity (Fmul (Finv (dec x)) (dec x)); [apply (Rmul_comm F_ring)|]. apply Finv_l, N.
  - intros Z0. apply dec_inj; auto using canon_0. rewrite D, Z0. apply fval_inj. vm_compute. reflexivity.
Qed.
Print Assumptions C10_inverse.
(** Operands that are not below p: for every 384-bit operand the result is canonical and the inverse of the residue. *)
Theorem C10_inverse_wide : forall x, 0 <= x < 2 ^ 384 ->
  exists y, fp_inverse_opt x = Some y /\ canon y /\
    (~ (modulus | x) -> Fmul (dec x) (dec y) = F1) /\ ((modulus | x) -> y = 0).
Proof.
  intros x H. destruct (fp_inverse_opt_wide x H) as (y & E & C & D). exists y. split; [exact E|]. split; [exact C|]. rewrite <- M_eq. split.
  - intros N. rewrite D. transitivity (Fmul (Finv (dec x)) (dec x)); [apply (Rmul_comm F_ring)|]. apply Finv_l.
    intros Z0. apply N, Fof_RINV_0, Z0.
  - intros [c ->]. apply dec_inj; [exact C|exact canon_0|]. rewrite D. unfold dec at 1.
    replace (c * MODULUS * RINV) with (c * RINV * MODULUS) by ring. rewrite Fof_M0. apply fval_inj. vm_compute. reflexivity.
Qed.
Print Assumptions C10_inverse_wide.
Example C10_wide_example : 0 <= modulus + 1 < 2 ^ 384 /\ modulus <= modulus + 1 /\ ~ (modulus | modulus + 1).
Proof. split; [split; [discriminate|reflexivity]|]. split; [discriminate|]. intros D. apply Z.mod_divide in D; [|discriminate]. discriminate D. Qed.
(** the loop bound 768 is never exhausted, and 762 iterations suffice *)
Theorem C10_loop_bound : forall x, 0 < x < modulus ->
  exists r k, inv_loop 768 modulus x 1 0 0 = Some (r, k) /\ 0 < k <= 762.
Proof.
  intros x H. rewrite <- M_eq in *.
  destruct (inv_loop_ok x H 768 MODULUS x 1 0 0 (kal_init x H) eq_refl) as (r & k & c & E & _ & Hk & Hk0 & _).
  exists r, k. split; [exact E|]. specialize (Hk0 ltac:(lia)). lia.
Qed.
Print Assumptions C10_loop_bound.
(** in no reachable state does an intermediate value exceed 2p (so nothing wraps at 2^384): the
    invariant [kal] is preserved by the loop; here is its content in every state with v > 0 *)
Theorem C10_no_overflow : forall x u v s r k, kal x u v s r k -> 0 < v ->
  0 <= u <= modulus /\ 0 <= s <= modulus /\ 0 <= r <= modulus /\ u * s + v * r = modulus.
Proof. intros x u v s r k [H1 H2 H3 H4 H5 H6 _ _ _ _ _] V. rewrite M_eq in *. repeat split; try lia; try nia. Qed.
Print Assumptions C10_no_overflow.
Example C10_example : canon (fp_toMont 2) /\ fp_inverse_opt (fp_toMont 2) = Some twoInv.
Proof.
  destruct (toMont_ok 2) as [C E]; [split; [lia|reflexivity]|]. split; [exact C|].
  destruct (fp_inverse_opt_ok _ C) as (y & -> & Cy & Dy). f_equal. apply dec_inj; [exact Cy|exact canon_twoInv|].
  rewrite Dy, E. assert (N : Fof 2 <> F0) by (intros H; apply Fof_eq in H; discriminate H).
  transitivity (Fmul (Finv (Fof 2)) (Fmul (Fof 2) (dec twoInv))); [rewrite dec_twoInv|]; field; exact N.
Qed.

(** C11 *)
Theorem C11_exp : forall x s, canon x -> Forall word s ->
  canon (fp_exp x s) /\ fval (dec (fp_exp x s)) = (fval (dec x) ^ val s) mod modulus.
Proof.
  intros x s Hx Hs. destruct (fp_exp_ok x s Hx Hs) as [C E]. split; [exact C|].
  rewrite E. apply Fpow_fval, val_nonneg, Hs.
Qed.
Print Assumptions C11_exp.
Example C11_example : Forall word [5; 0; 0] /\ fp_exp (fp_toMont 3) [5; 0; 0] = fp_toMont 243.
Proof. split; [repeat constructor; discriminate|]. vm_compute. reflexivity. Qed.

(** C12 *)
Theorem C12_sqrt : forall x, canon x ->
  let (ok, c) := fp_sqrt x in
  canon c /\ (ok = true <-> exists b, Fmul b b = dec x) /\ (ok = true -> Fmul (dec c) (dec c) = dec x).
Proof. intros x H. pose proof (fp_sqrt_ok x H) as K. destruct (fp_sqrt x). exact K. Qed.
Print Assumptions C12_sqrt.
Theorem C12_isQuadraticNonResidue : forall x, canon x ->
  (fp_isQNR x = true <-> dec x = F0 \/ ~ exists b, Fmul b b = dec x).
Proof. exact fp_isQNR_ok. Qed.
Print Assumptions C12_isQuadraticNonResidue.
Example C12_example : fst (fp_sqrt (fp_toMont 9)) = true /\ fst (fp_sqrt (fp_neg R1)) = false /\ fp_isQNR 0 = true.
Proof.
  destruct (toMont_ok 9) as [C E]; [split; [lia|reflexivity]|].
  split; [|split].
  - apply (fp_sqrt_ok _ C). exists (Fof 3). rewrite E, <- Fof_mul. reflexivity.
  - apply not_true_is_false. intros H. apply fp_sqrt_ok in H; [|auto with canon].
    rewrite dec_neg, dec_R1 in H by auto with canon. apply Fm1_nonsquare. eexists. exact H.
  - apply fp_isQNR_ok; [apply canon_0|left; reflexivity].
Qed.

(** C13 *)
Theorem C13_lexicographically_largest : forall y, canon y ->
  (fp_isLexLargest y = true <-> (modulus - 1) / 2 < fval (dec y)).
Proof. intros y H. rewrite (isLexLargest_ok y H). apply Z.ltb_lt. Qed.
Print Assumptions C13_lexicographically_largest.
Theorem C13_exactly_one_largest : forall y, canon y -> y <> 0 -> fp_isLexLargest (fp_neg y) = negb (fp_isLexLargest y).
Proof.
  intros y H N. rewrite !isLexLargest_ok, dec_neg by auto with canon. apply lex_opp.
  intros D. apply N, dec_inj; auto with canon.
Qed.
Print Assumptions C13_exactly_one_largest.
Theorem C13_sign : forall y, canon y -> fp_sign y = Z.even (fval (dec y)).
Proof. exact sign_ok. Qed.
Print Assumptions C13_sign.
Theorem C13_sign_negation : forall y, canon y -> y <> 0 -> fp_sign (fp_neg y) = negb (fp_sign y).
Proof.
  intros y H N. rewrite !sign_ok, dec_neg by auto with canon. apply even_opp.
  intros D. apply N, dec_inj; auto with canon.
Qed.
Print Assumptions C13_sign_negation.
Example C13_example : fp_isLexLargest (fp_toMont 1) = false /\ fp_isLexLargest (fp_toMont (modulus - 1)) = true /\
  fp_isLexLargest (fp_toMont ((modulus + 1) / 2)) = true /\ fp_isLexLargest (fp_toMont ((modulus - 1) / 2)) = false /\
  fp_sign (fp_toMont 2) = true.
Proof. vm_compute. repeat split. Qed.
