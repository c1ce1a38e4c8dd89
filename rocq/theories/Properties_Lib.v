(** C81: the whole library on limbs, with every field operation carried out by the interpreted instructions of arithmetic.s, computes what
    the model on integers computes, so that the other properties speak about the limbs.  [x86 code]: the back end of ModelLimb.v that
    calls the assembly with multiplier [code]; [is_multiplier]: one of the two multipliers (C60: the one selected at load time always is).
    Representation of values by limbs: SpecLimb.v. *)
From Coq Require Import ZArith List Bool Lia.
From Verif Require Import SpecBytes SpecField SpecCurve SpecHash SpecSig SpecWire ModelWord ModelScalar ModelDiv ModelPrim ModelFp ModelTower ModelCurve ModelCodec ModelSha ModelKdf ModelKeys ModelMap ModelPairing ModelSig PortArith ModelLimb ModelLimbLib SpecLimb.
From Verif Require Import AbGroup CurveInst CurveReps CurveBase ScalarProof BytesProof CarryProof FpProof AsmSpec KeysProof KdfProof SigProof Properties_Codec Properties_Limb LimbProof LibProof1 LibProof2 LibProof3 LibProof4 LibProof5.
From Verif Require Import GenProof CurveProof.
From Verif Require X86 AsmCode Properties_Wire Properties_Wire2 Properties_Sig.
Import ListNotations.
Local Open Scope Z_scope.

(** class fp2 (rF, r2, r6, r12: SpecLimb.v) *)
Theorem C81_tower2 : forall code, is_multiplier code -> let B := x86 code in
  (r2 l2_zero fp2_zero) /\
  (r2 l2_one fp2_one) /\
  (forall x x', r2 x x' -> (l2_isZero x) = (fp2_isZero x')) /\
  (forall x x', r2 x x' -> (l2_isOne x) = (fp2_isOne x')) /\
  (forall x x' y y', r2 x x' -> r2 y y' -> (l2_equal x y) = (fp2_equal x' y')) /\
  (forall x x', r2 x x' -> l2_sign B x = fp2_sign x') /\
  (forall x x', r2 x x' -> (l2_isQNR B x) = (fp2_isQNR x')) /\
  (forall x x', r2 x x' -> (l2_isLexLargest B x) = (fp2_isLexLargest x')) /\
  (forall x x' y y', r2 x x' -> r2 y y' -> r2 (l2_add B x y) (fp2_add x' y')) /\
  (forall x x' y y', r2 x x' -> r2 y y' -> r2 (l2_sub B x y) (fp2_sub x' y')) /\
  (forall x x' y y', r2 x x' -> r2 y y' -> r2 (l2_mul B x y) (fp2_mul x' y')) /\
  (forall x x' y y', r2 x x' -> rF y y' -> r2 (l2_mulByFq B x y) (fp2_mulByFq x' y')) /\
  (forall x x', r2 x x' -> r2 (l2_dbl B x) (fp2_dbl x')) /\
  (forall x x', r2 x x' -> r2 (l2_neg B x) (fp2_neg x')) /\
  (forall x x', r2 x x' -> r2 (l2_conj B x) (fp2_conj x')) /\
  (forall x x', r2 x x' -> r2 (l2_sqr B x) (fp2_sqr x')) /\
  (forall x x', r2 x x' -> r2 (l2_mulXi B x) (fp2_mulXi x')) /\
  (forall x x', r2 x x' -> r2 (l2_mulByB B x) (fp2_mulByB x')) /\
  (forall x x', r2 x x' -> r2 (l2_inv B x) (fp2_inv x')) /\
  (forall x x' (y : Z), r2 x x' -> r2 (l2_frob B x y) (fp2_frob x' y)) /\
  (forall x x' (y : list Z), r2 x x' -> r2 (l2_exp B x y) (fp2_exp x' y)) /\
  (forall x x', r2 x x' -> rP eq r2 (l2_sqrt B x) (fp2_sqrt x')) /\
  (forall x x' (y : bool), r2 x x' -> (l2_toBytesBE B x y) = (fp2_toBytesBE x' y)) /\
  (forall x x' (y : bool), r2 x x' -> (l2_toBytesLE B x y) = (fp2_toBytesLE x' y)) /\
  (forall a check mont, bytes a -> length a = 96%nat -> rO r2 (l2_fromBytesBE B a check mont) (fp2_fromBytesBE a check mont)) /\
  (forall a check mont, bytes a -> length a = 96%nat -> rO r2 (l2_fromBytesLE B a check mont) (fp2_fromBytesLE a check mont)).
Proof.
  intros code M. cbv zeta. pose proof (x86_ok code M) as K.
  split; [first [exact (fp2_zero_r _ K)|exact fp2_zero_r|exact (fp2_zero_r (x86 code))]|].
  split; [first [exact (fp2_one_r _ K)|exact fp2_one_r|exact (fp2_one_r (x86 code))]|].
  split; [first [exact (fp2_isZero_r _ K)|exact fp2_isZero_r|exact (fp2_isZero_r (x86 code))]|].
  split; [first [exact (fp2_isOne_r _ K)|exact fp2_isOne_r|exact (fp2_isOne_r (x86 code))]|].
  split; [first [exact (fp2_equal_r _ K)|exact fp2_equal_r|exact (fp2_equal_r (x86 code))]|].
  split; [first [exact (fp2_sign_r _ K)|exact fp2_sign_r|exact (fp2_sign_r (x86 code))]|].
  split; [first [exact (fp2_isQNR_r _ K)|exact fp2_isQNR_r|exact (fp2_isQNR_r (x86 code))]|].
  split; [first [exact (fp2_isLexLargest_r _ K)|exact fp2_isLexLargest_r|exact (fp2_isLexLargest_r (x86 code))]|].
  split; [first [exact (fp2_add_r _ K)|exact fp2_add_r|exact (fp2_add_r (x86 code))]|].
  split; [first [exact (fp2_sub_r _ K)|exact fp2_sub_r|exact (fp2_sub_r (x86 code))]|].
  split; [first [exact (fp2_mul_r _ K)|exact fp2_mul_r|exact (fp2_mul_r (x86 code))]|].
  split; [first [exact (fp2_mulByFq_r _ K)|exact fp2_mulByFq_r|exact (fp2_mulByFq_r (x86 code))]|].
  split; [first [exact (fp2_dbl_r _ K)|exact fp2_dbl_r|exact (fp2_dbl_r (x86 code))]|].
  split; [first [exact (fp2_neg_r _ K)|exact fp2_neg_r|exact (fp2_neg_r (x86 code))]|].
  split; [first [exact (fp2_conj_r _ K)|exact fp2_conj_r|exact (fp2_conj_r (x86 code))]|].
  split; [first [exact (fp2_sqr_r _ K)|exact fp2_sqr_r|exact (fp2_sqr_r (x86 code))]|].
  split; [first [exact (fp2_mulXi_r _ K)|exact fp2_mulXi_r|exact (fp2_mulXi_r (x86 code))]|].
  split; [first [exact (fp2_mulByB_r _ K)|exact fp2_mulByB_r|exact (fp2_mulByB_r (x86 code))]|].
  split; [first [exact (fp2_inv_r _ K)|exact fp2_inv_r|exact (fp2_inv_r (x86 code))]|].
  split; [first [exact (fp2_frob_r _ K)|exact fp2_frob_r|exact (fp2_frob_r (x86 code))]|].
  split; [first [exact (fp2_exp_r _ K)|exact fp2_exp_r|exact (fp2_exp_r (x86 code))]|].
  split; [first [exact (fp2_sqrt_r _ K)|exact fp2_sqrt_r|exact (fp2_sqrt_r (x86 code))]|].
  split; [first [exact (fp2_toBytesBE_r _ K)|exact fp2_toBytesBE_r|exact (fp2_toBytesBE_r (x86 code))]|].
  split; [first [exact (fp2_toBytesLE_r _ K)|exact fp2_toBytesLE_r|exact (fp2_toBytesLE_r (x86 code))]|].
  split; [first [exact (fp2_fromBytesBE_r _ K)|exact fp2_fromBytesBE_r|exact (fp2_fromBytesBE_r (x86 code))]|].
  first [exact (fp2_fromBytesLE_r _ K)|exact fp2_fromBytesLE_r|exact (fp2_fromBytesLE_r (x86 code))].
Qed.
(** class fp6 *)
Theorem C81_tower6 : forall code, is_multiplier code -> let B := x86 code in
  (r6 l6_zero fp6_zero) /\
  (r6 l6_one fp6_one) /\
  (forall x x', r6 x x' -> (l6_isZero x) = (fp6_isZero x')) /\
  (forall x x', r6 x x' -> (l6_isOne x) = (fp6_isOne x')) /\
  (forall x x' y y', r6 x x' -> r6 y y' -> (l6_equal x y) = (fp6_equal x' y')) /\
  (forall x x' y y', r6 x x' -> r6 y y' -> r6 (l6_add B x y) (fp6_add x' y')) /\
  (forall x x' y y', r6 x x' -> r6 y y' -> r6 (l6_sub B x y) (fp6_sub x' y')) /\
  (forall x x' y y', r6 x x' -> r6 y y' -> r6 (l6_mul B x y) (fp6_mul x' y')) /\
  (forall x x', r6 x x' -> r6 (l6_dbl B x) (fp6_dbl x')) /\
  (forall x x', r6 x x' -> r6 (l6_neg B x) (fp6_neg x')) /\
  (forall x x', r6 x x' -> r6 (l6_sqr B x) (fp6_sqr x')) /\
  (forall x x', r6 x x' -> r6 (l6_mulV B x) (fp6_mulV x')) /\
  (forall x x', r6 x x' -> r6 (l6_inv B x) (fp6_inv x')) /\
  (forall x x' y y' u u', r6 x x' -> r2 y y' -> r2 u u' -> r6 (l6_mulBy01Assign B x y u) (fp6_mulBy01Assign x' y' u')) /\
  (forall x x' y y' u u', r6 x x' -> r2 y y' -> r2 u u' -> r6 (l6_mulBy01 B x y u) (fp6_mulBy01 x' y' u')) /\
  (forall x x' y y', r6 x x' -> r2 y y' -> r6 (l6_mulBy1 B x y) (fp6_mulBy1 x' y')) /\
  (forall x x' y y', r6 x x' -> r2 y y' -> r6 (l6_mulByBase B x y) (fp6_mulByBase x' y')) /\
  (forall x x' (y : list Z), r6 x x' -> r6 (l6_exp B x y) (fp6_exp x' y)) /\
  (forall x x' (y : Z), r6 x x' -> r6 (l6_frob B x y) (fp6_frob x' y)) /\
  (forall x x' (y : Z), r6 x x' -> r6 (l6_frobAssign B x y) (fp6_frobAssign x' y)) /\
  (forall x x' (y : bool), r6 x x' -> (l6_toBytesBE B x y) = (fp6_toBytesBE x' y)) /\
  (forall x x' (y : bool), r6 x x' -> (l6_toBytesLE B x y) = (fp6_toBytesLE x' y)) /\
  (forall a check mont, bytes a -> length a = 288%nat -> rO r6 (l6_fromBytesBE B a check mont) (fp6_fromBytesBE a check mont)) /\
  (forall a check mont, bytes a -> length a = 288%nat -> rO r6 (l6_fromBytesLE B a check mont) (fp6_fromBytesLE a check mont)).
Proof.
  intros code M. cbv zeta. pose proof (x86_ok code M) as K.
  split; [first [exact (fp6_zero_r _ K)|exact fp6_zero_r|exact (fp6_zero_r (x86 code))]|].
  split; [first [exact (fp6_one_r _ K)|exact fp6_one_r|exact (fp6_one_r (x86 code))]|].
  split; [first [exact (fp6_isZero_r _ K)|exact fp6_isZero_r|exact (fp6_isZero_r (x86 code))]|].
  split; [first [exact (fp6_isOne_r _ K)|exact fp6_isOne_r|exact (fp6_isOne_r (x86 code))]|].
  split; [first [exact (fp6_equal_r _ K)|exact fp6_equal_r|exact (fp6_equal_r (x86 code))]|].
  split; [first [exact (fp6_add_r _ K)|exact fp6_add_r|exact (fp6_add_r (x86 code))]|].
  split; [first [exact (fp6_sub_r _ K)|exact fp6_sub_r|exact (fp6_sub_r (x86 code))]|].
  split; [first [exact (fp6_mul_r _ K)|exact fp6_mul_r|exact (fp6_mul_r (x86 code))]|].
  split; [first [exact (fp6_dbl_r _ K)|exact fp6_dbl_r|exact (fp6_dbl_r (x86 code))]|].
  split; [first [exact (fp6_neg_r _ K)|exact fp6_neg_r|exact (fp6_neg_r (x86 code))]|].
  split; [first [exact (fp6_sqr_r _ K)|exact fp6_sqr_r|exact (fp6_sqr_r (x86 code))]|].
  split; [first [exact (fp6_mulV_r _ K)|exact fp6_mulV_r|exact (fp6_mulV_r (x86 code))]|].
  split; [first [exact (fp6_inv_r _ K)|exact fp6_inv_r|exact (fp6_inv_r (x86 code))]|].
  split; [first [exact (fp6_mulBy01Assign_r _ K)|exact fp6_mulBy01Assign_r|exact (fp6_mulBy01Assign_r (x86 code))]|].
  split; [first [exact (fp6_mulBy01_r _ K)|exact fp6_mulBy01_r|exact (fp6_mulBy01_r (x86 code))]|].
  split; [first [exact (fp6_mulBy1_r _ K)|exact fp6_mulBy1_r|exact (fp6_mulBy1_r (x86 code))]|].
  split; [first [exact (fp6_mulByBase_r _ K)|exact fp6_mulByBase_r|exact (fp6_mulByBase_r (x86 code))]|].
  split; [first [exact (fp6_exp_r _ K)|exact fp6_exp_r|exact (fp6_exp_r (x86 code))]|].
  split; [first [exact (fp6_frob_r _ K)|exact fp6_frob_r|exact (fp6_frob_r (x86 code))]|].
  split; [first [exact (fp6_frobAssign_r _ K)|exact fp6_frobAssign_r|exact (fp6_frobAssign_r (x86 code))]|].
  split; [first [exact (fp6_toBytesBE_r _ K)|exact fp6_toBytesBE_r|exact (fp6_toBytesBE_r (x86 code))]|].
  split; [first [exact (fp6_toBytesLE_r _ K)|exact fp6_toBytesLE_r|exact (fp6_toBytesLE_r (x86 code))]|].
  split; [first [exact (fp6_fromBytesBE_r _ K)|exact fp6_fromBytesBE_r|exact (fp6_fromBytesBE_r (x86 code))]|].
  first [exact (fp6_fromBytesLE_r _ K)|exact fp6_fromBytesLE_r|exact (fp6_fromBytesLE_r (x86 code))].
Qed.
(** class fp12; frobeniusMap with the table accesses that fail (None) failing together *)
Theorem C81_tower12 : forall code, is_multiplier code -> let B := x86 code in
  (r12 l12_zero fp12_zero) /\
  (r12 l12_one fp12_one) /\
  (forall x x', r12 x x' -> (l12_isZero x) = (fp12_isZero x')) /\
  (forall x x', r12 x x' -> (l12_isOne x) = (fp12_isOne x')) /\
  (forall x x' y y', r12 x x' -> r12 y y' -> (l12_equal x y) = (fp12_equal x' y')) /\
  (forall x x' y y', r12 x x' -> r12 y y' -> r12 (l12_add B x y) (fp12_add x' y')) /\
  (forall x x' y y', r12 x x' -> r12 y y' -> r12 (l12_sub B x y) (fp12_sub x' y')) /\
  (forall x x' y y', r12 x x' -> r12 y y' -> r12 (l12_mul B x y) (fp12_mul x' y')) /\
  (forall x x', r12 x x' -> r12 (l12_dbl B x) (fp12_dbl x')) /\
  (forall x x', r12 x x' -> r12 (l12_neg B x) (fp12_neg x')) /\
  (forall x x', r12 x x' -> r12 (l12_conj B x) (fp12_conj x')) /\
  (forall x x', r12 x x' -> r12 (l12_sqr B x) (fp12_sqr x')) /\
  (forall x x', r12 x x' -> r12 (l12_inv B x) (fp12_inv x')) /\
  (forall x x' y y', r2 x x' -> r2 y y' -> rP r2 r2 (lib_fp4Square B x y) (fp4Square x' y')) /\
  (forall x x', r12 x x' -> r12 (l12_cycSqr B x) (fp12_cycSqr x')) /\
  (forall x x' y y' u u' v v', r12 x x' -> r2 y y' -> r2 u u' -> r2 v v' -> r12 (l12_mulBy014 B x y u v) (fp12_mulBy014 x' y' u' v')) /\
  (forall x x' (y : list Z), r12 x x' -> r12 (l12_exp B x y) (fp12_exp x' y)) /\
  (forall x x' (y : list Z), r12 x x' -> r12 (l12_cycExp B x y) (fp12_cycExp x' y)) /\
  (forall x x', r12 x x' -> (l12_isGtValid B x) = (fp12_isGtValid x')) /\
  (forall x x' (y : Z), r12 x x' -> rO r12 (l12_frob_opt B x y) (fp12_frob_opt x' y)) /\
  (forall x x' (y : Z), r12 x x' -> rO r12 (l12_frobAssign_opt B x y) (fp12_frobAssign_opt x' y)) /\
  (forall x x' (y : bool), r12 x x' -> (l12_toBytesBE B x y) = (fp12_toBytesBE x' y)) /\
  (forall x x' (y : bool), r12 x x' -> (l12_toBytesLE B x y) = (fp12_toBytesLE x' y)) /\
  (forall a check mont, bytes a -> length a = 576%nat -> rO r12 (l12_fromBytesBE B a check mont) (fp12_fromBytesBE a check mont)) /\
  (forall a check mont, bytes a -> length a = 576%nat -> rO r12 (l12_fromBytesLE B a check mont) (fp12_fromBytesLE a check mont)).
Proof.
  intros code M. cbv zeta. pose proof (x86_ok code M) as K.
  split; [first [exact (fp12_zero_r _ K)|exact fp12_zero_r|exact (fp12_zero_r (x86 code))]|].
  split; [first [exact (fp12_one_r _ K)|exact fp12_one_r|exact (fp12_one_r (x86 code))]|].
  split; [first [exact (fp12_isZero_r _ K)|exact fp12_isZero_r|exact (fp12_isZero_r (x86 code))]|].
  split; [first [exact (fp12_isOne_r _ K)|exact fp12_isOne_r|exact (fp12_isOne_r (x86 code))]|].
  split; [first [exact (fp12_equal_r _ K)|exact fp12_equal_r|exact (fp12_equal_r (x86 code))]|].
  split; [first [exact (fp12_add_r _ K)|exact fp12_add_r|exact (fp12_add_r (x86 code))]|].
  split; [first [exact (fp12_sub_r _ K)|exact fp12_sub_r|exact (fp12_sub_r (x86 code))]|].
  split; [first [exact (fp12_mul_r _ K)|exact fp12_mul_r|exact (fp12_mul_r (x86 code))]|].
  split; [first [exact (fp12_dbl_r _ K)|exact fp12_dbl_r|exact (fp12_dbl_r (x86 code))]|].
  split; [first [exact (fp12_neg_r _ K)|exact fp12_neg_r|exact (fp12_neg_r (x86 code))]|].
  split; [first [exact (fp12_conj_r _ K)|exact fp12_conj_r|exact (fp12_conj_r (x86 code))]|].
  split; [first [exact (fp12_sqr_r _ K)|exact fp12_sqr_r|exact (fp12_sqr_r (x86 code))]|].
  split; [first [exact (fp12_inv_r _ K)|exact fp12_inv_r|exact (fp12_inv_r (x86 code))]|].
  split; [first [exact (fp4Square_r _ K)|exact fp4Square_r|exact (fp4Square_r (x86 code))]|].
  split; [first [exact (fp12_cycSqr_r _ K)|exact fp12_cycSqr_r|exact (fp12_cycSqr_r (x86 code))]|].
  split; [first [exact (fp12_mulBy014_r _ K)|exact fp12_mulBy014_r|exact (fp12_mulBy014_r (x86 code))]|].
  split; [first [exact (fp12_exp_r _ K)|exact fp12_exp_r|exact (fp12_exp_r (x86 code))]|].
  split; [first [exact (fp12_cycExp_r _ K)|exact fp12_cycExp_r|exact (fp12_cycExp_r (x86 code))]|].
  split; [first [exact (fp12_isGtValid_r _ K)|exact fp12_isGtValid_r|exact (fp12_isGtValid_r (x86 code))]|].
  split; [first [exact (fp12_frob_opt_r _ K)|exact fp12_frob_opt_r|exact (fp12_frob_opt_r (x86 code))]|].
  split; [first [exact (fp12_frobAssign_opt_r _ K)|exact fp12_frobAssign_opt_r|exact (fp12_frobAssign_opt_r (x86 code))]|].
  split; [first [exact (fp12_toBytesBE_r _ K)|exact fp12_toBytesBE_r|exact (fp12_toBytesBE_r (x86 code))]|].
  split; [first [exact (fp12_toBytesLE_r _ K)|exact fp12_toBytesLE_r|exact (fp12_toBytesLE_r (x86 code))]|].
  split; [first [exact (fp12_fromBytesBE_r _ K)|exact fp12_fromBytesBE_r|exact (fp12_fromBytesBE_r (x86 code))]|].
  first [exact (fp12_fromBytesLE_r _ K)|exact fp12_fromBytesLE_r|exact (fp12_fromBytesLE_r (x86 code))].
Qed.
(** class g1 *)
Theorem C81_g1 : forall code, is_multiplier code -> let B := x86 code in
  (rG1 (lg1_zero B) g1_zero) /\
  (rG1 lg1_BASE g1_BASE) /\
  (forall p p', rG1 p p' -> lg1_isZero B p = g1_isZero p') /\
  (forall p p', rG1 p p' -> lg1_isAffine B p = g1_isAffine p') /\
  (forall p p' q q', rG1 p p' -> rG1 q q' -> lg1_equal B p q = g1_equal p' q') /\
  (forall p p', rG1 p p' -> lg1_isOnCurve B p = g1_isOnCurve p') /\
  (forall p p', rG1 p p' -> (lg1_inCorrectSubgroup B p) = (g1_inCorrectSubgroup p')) /\
  (forall p p', rG1 p p' -> rG1 (lg1_affine B p) (g1_affine p')) /\
  (forall p p', rG1 p p' -> rG1 (lg1_dbl B p) (g1_dbl p')) /\
  (forall p p', rG1 p p' -> rG1 (lg1_neg B p) (g1_neg p')) /\
  (forall p p' q q', rG1 p p' -> rG1 q q' -> rG1 (lg1_add B p q) (g1_add p' q')) /\
  (forall p p' q q', rG1 p p' -> rG1 q q' -> rG1 (lg1_sub B p q) (g1_sub p' q')) /\
  (forall p p' s, rG1 p p' -> rG1 (lg1_scale B p s) (g1_scale p' s)) /\
  (forall l l' ss, Forall2 rG1 l l' -> rG1 (lg1_weightedSum B l ss) (g1_weightedSum l' ss)) /\
  (forall p p', rG1 p p' -> rG1 (lg1_clearCofactor B p) (g1_clearCofactor p')) /\
  (forall p p', rG1 p p' -> rG1 (lg1_glv B p) (g1_glv p')).
Proof.
  intros code M. cbv zeta. pose proof (x86_ok code M) as K.
  split; [first [exact (g1_zero_r _ K)|exact g1_zero_r|exact (g1_zero_r (x86 code))]|].
  split; [first [exact (g1_BASE_r _ K)|exact g1_BASE_r|exact (g1_BASE_r (x86 code))]|].
  split; [first [exact (g1_isZero_r _ K)|exact g1_isZero_r|exact (g1_isZero_r (x86 code))]|].
  split; [first [exact (g1_isAffine_r _ K)|exact g1_isAffine_r|exact (g1_isAffine_r (x86 code))]|].
  split; [first [exact (g1_equal_r _ K)|exact g1_equal_r|exact (g1_equal_r (x86 code))]|].
  split; [first [exact (g1_isOnCurve_r _ K)|exact g1_isOnCurve_r|exact (g1_isOnCurve_r (x86 code))]|].
  split; [first [exact (g1_inCorrectSubgroup_r _ K)|exact g1_inCorrectSubgroup_r|exact (g1_inCorrectSubgroup_r (x86 code))]|].
  split; [first [exact (g1_affine_r _ K)|exact g1_affine_r|exact (g1_affine_r (x86 code))]|].
  split; [first [exact (g1_dbl_r _ K)|exact g1_dbl_r|exact (g1_dbl_r (x86 code))]|].
  split; [first [exact (g1_neg_r _ K)|exact g1_neg_r|exact (g1_neg_r (x86 code))]|].
  split; [first [exact (g1_add_r _ K)|exact g1_add_r|exact (g1_add_r (x86 code))]|].
  split; [first [exact (g1_sub_r _ K)|exact g1_sub_r|exact (g1_sub_r (x86 code))]|].
  split; [first [exact (g1_scale_r _ K)|exact g1_scale_r|exact (g1_scale_r (x86 code))]|].
  split; [first [exact (g1_weightedSum_r _ K)|exact g1_weightedSum_r|exact (g1_weightedSum_r (x86 code))]|].
  split; [first [exact (g1_clearCofactor_r _ K)|exact g1_clearCofactor_r|exact (g1_clearCofactor_r (x86 code))]|].
  first [exact (g1_glv_r _ K)|exact g1_glv_r|exact (g1_glv_r (x86 code))].
Qed.
(** its encodings, on byte strings of the lengths the types demand *)
Theorem C81_g1_bytes : forall code, is_multiplier code -> let B := x86 code in
  (forall a check mont, bytes a -> length a = 144%nat -> rO rG1 (lg1_fromJacobianBE B a check mont) (g1_fromJacobianBE a check mont)) /\
  (forall a check mont, bytes a -> length a = 96%nat -> rO rG1 (lg1_fromAffineBE B a check mont) (g1_fromAffineBE a check mont)) /\
  (forall a check mont, bytes a -> length a = 144%nat -> rO rG1 (lg1_fromJacobianLE B a check mont) (g1_fromJacobianLE a check mont)) /\
  (forall a check mont, bytes a -> length a = 96%nat -> rO rG1 (lg1_fromAffineLE B a check mont) (g1_fromAffineLE a check mont)) /\
  (forall a, bytes a -> length a = 48%nat -> rO rG1 (lg1_fromCompressed B a) (g1_fromCompressed a)) /\
  (forall p p' mont, rG1 p p' -> lg1_toJacobianBE B p mont = g1_toJacobianBE p' mont) /\
  (forall p p' mont, rG1 p p' -> lg1_toAffineBE B p mont = g1_toAffineBE p' mont) /\
  (forall p p' mont, rG1 p p' -> lg1_toJacobianLE B p mont = g1_toJacobianLE p' mont) /\
  (forall p p' mont, rG1 p p' -> lg1_toAffineLE B p mont = g1_toAffineLE p' mont) /\
  (forall p p', rG1 p p' -> lg1_toCompressed B p = g1_toCompressed p').
Proof.
  intros code M. cbv zeta. pose proof (x86_ok code M) as K.
  split; [first [exact (g1_fromJacobianBE_r _ K)|exact g1_fromJacobianBE_r|exact (g1_fromJacobianBE_r (x86 code))]|].
  split; [first [exact (g1_fromAffineBE_r _ K)|exact g1_fromAffineBE_r|exact (g1_fromAffineBE_r (x86 code))]|].
  split; [first [exact (g1_fromJacobianLE_r _ K)|exact g1_fromJacobianLE_r|exact (g1_fromJacobianLE_r (x86 code))]|].
  split; [first [exact (g1_fromAffineLE_r _ K)|exact g1_fromAffineLE_r|exact (g1_fromAffineLE_r (x86 code))]|].
  split; [first [exact (g1_fromCompressed_r _ K)|exact g1_fromCompressed_r|exact (g1_fromCompressed_r (x86 code))]|].
  split; [first [exact (g1_toJacobianBE_r _ K)|exact g1_toJacobianBE_r|exact (g1_toJacobianBE_r (x86 code))]|].
  split; [first [exact (g1_toAffineBE_r _ K)|exact g1_toAffineBE_r|exact (g1_toAffineBE_r (x86 code))]|].
  split; [first [exact (g1_toJacobianLE_r _ K)|exact g1_toJacobianLE_r|exact (g1_toJacobianLE_r (x86 code))]|].
  split; [first [exact (g1_toAffineLE_r _ K)|exact g1_toAffineLE_r|exact (g1_toAffineLE_r (x86 code))]|].
  first [exact (g1_toCompressed_r _ K)|exact g1_toCompressed_r|exact (g1_toCompressed_r (x86 code))].
Qed.
(** class g2 *)
Theorem C81_g2 : forall code, is_multiplier code -> let B := x86 code in
  (rG2 (lg2_zero B) g2_zero) /\
  (rG2 lg2_BASE g2_BASE) /\
  (forall p p', rG2 p p' -> lg2_isZero B p = g2_isZero p') /\
  (forall p p', rG2 p p' -> lg2_isAffine B p = g2_isAffine p') /\
  (forall p p' q q', rG2 p p' -> rG2 q q' -> lg2_equal B p q = g2_equal p' q') /\
  (forall p p', rG2 p p' -> lg2_isOnCurve B p = g2_isOnCurve p') /\
  (forall p p', rG2 p p' -> (lg2_inCorrectSubgroup B p) = (g2_inCorrectSubgroup p')) /\
  (forall p p', rG2 p p' -> rG2 (lg2_affine B p) (g2_affine p')) /\
  (forall p p', rG2 p p' -> rG2 (lg2_dbl B p) (g2_dbl p')) /\
  (forall p p', rG2 p p' -> rG2 (lg2_neg B p) (g2_neg p')) /\
  (forall p p' q q', rG2 p p' -> rG2 q q' -> rG2 (lg2_add B p q) (g2_add p' q')) /\
  (forall p p' q q', rG2 p p' -> rG2 q q' -> rG2 (lg2_sub B p q) (g2_sub p' q')) /\
  (forall p p' s, rG2 p p' -> rG2 (lg2_scale B p s) (g2_scale p' s)) /\
  (forall l l' ss, Forall2 rG2 l l' -> rG2 (lg2_weightedSum B l ss) (g2_weightedSum l' ss)) /\
  (forall p p', rG2 p p' -> rG2 (lg2_clearCofactor B p) (g2_clearCofactor p')) /\
  (forall p p', rG2 p p' -> rG2 (lg2_psi B p) (g2_psi p')) /\
  (forall n, forall p p', rG2 p p' -> rG2 (lg2_frobeniusMap B n p) (g2_frobeniusMap n p')).
Proof.
  intros code M. cbv zeta. pose proof (x86_ok code M) as K.
  split; [first [exact (g2_zero_r _ K)|exact g2_zero_r|exact (g2_zero_r (x86 code))]|].
  split; [first [exact (g2_BASE_r _ K)|exact g2_BASE_r|exact (g2_BASE_r (x86 code))]|].
  split; [first [exact (g2_isZero_r _ K)|exact g2_isZero_r|exact (g2_isZero_r (x86 code))]|].
  split; [first [exact (g2_isAffine_r _ K)|exact g2_isAffine_r|exact (g2_isAffine_r (x86 code))]|].
  split; [first [exact (g2_equal_r _ K)|exact g2_equal_r|exact (g2_equal_r (x86 code))]|].
  split; [first [exact (g2_isOnCurve_r _ K)|exact g2_isOnCurve_r|exact (g2_isOnCurve_r (x86 code))]|].
  split; [first [exact (g2_inCorrectSubgroup_r _ K)|exact g2_inCorrectSubgroup_r|exact (g2_inCorrectSubgroup_r (x86 code))]|].
  split; [first [exact (g2_affine_r _ K)|exact g2_affine_r|exact (g2_affine_r (x86 code))]|].
  split; [first [exact (g2_dbl_r _ K)|exact g2_dbl_r|exact (g2_dbl_r (x86 code))]|].
  split; [first [exact (g2_neg_r _ K)|exact g2_neg_r|exact (g2_neg_r (x86 code))]|].
  split; [first [exact (g2_add_r _ K)|exact g2_add_r|exact (g2_add_r (x86 code))]|].
  split; [first [exact (g2_sub_r _ K)|exact g2_sub_r|exact (g2_sub_r (x86 code))]|].
  split; [first [exact (g2_scale_r _ K)|exact g2_scale_r|exact (g2_scale_r (x86 code))]|].
  split; [first [exact (g2_weightedSum_r _ K)|exact g2_weightedSum_r|exact (g2_weightedSum_r (x86 code))]|].
  split; [first [exact (g2_clearCofactor_r _ K)|exact g2_clearCofactor_r|exact (g2_clearCofactor_r (x86 code))]|].
  split; [first [exact (g2_psi_r _ K)|exact g2_psi_r|exact (g2_psi_r (x86 code))]|].
  first [exact (g2_frobeniusMap_r _ K)|exact g2_frobeniusMap_r|exact (g2_frobeniusMap_r (x86 code))].
Qed.
(** its encodings *)
Theorem C81_g2_bytes : forall code, is_multiplier code -> let B := x86 code in
  (forall a check mont, bytes a -> length a = 288%nat -> rO rG2 (lg2_fromJacobianBE B a check mont) (g2_fromJacobianBE a check mont)) /\
  (forall a check mont, bytes a -> length a = 192%nat -> rO rG2 (lg2_fromAffineBE B a check mont) (g2_fromAffineBE a check mont)) /\
  (forall a check mont, bytes a -> length a = 288%nat -> rO rG2 (lg2_fromJacobianLE B a check mont) (g2_fromJacobianLE a check mont)) /\
  (forall a check mont, bytes a -> length a = 192%nat -> rO rG2 (lg2_fromAffineLE B a check mont) (g2_fromAffineLE a check mont)) /\
  (forall a, bytes a -> length a = 96%nat -> rO rG2 (lg2_fromCompressed B a) (g2_fromCompressed a)) /\
  (forall p p' mont, rG2 p p' -> lg2_toJacobianBE B p mont = g2_toJacobianBE p' mont) /\
  (forall p p' mont, rG2 p p' -> lg2_toAffineBE B p mont = g2_toAffineBE p' mont) /\
  (forall p p' mont, rG2 p p' -> lg2_toJacobianLE B p mont = g2_toJacobianLE p' mont) /\
  (forall p p' mont, rG2 p p' -> lg2_toAffineLE B p mont = g2_toAffineLE p' mont) /\
  (forall p p', rG2 p p' -> lg2_toCompressed B p = g2_toCompressed p').
Proof.
  intros code M. cbv zeta. pose proof (x86_ok code M) as K.
  split; [first [exact (g2_fromJacobianBE_r _ K)|exact g2_fromJacobianBE_r|exact (g2_fromJacobianBE_r (x86 code))]|].
  split; [first [exact (g2_fromAffineBE_r _ K)|exact g2_fromAffineBE_r|exact (g2_fromAffineBE_r (x86 code))]|].
  split; [first [exact (g2_fromJacobianLE_r _ K)|exact g2_fromJacobianLE_r|exact (g2_fromJacobianLE_r (x86 code))]|].
  split; [first [exact (g2_fromAffineLE_r _ K)|exact g2_fromAffineLE_r|exact (g2_fromAffineLE_r (x86 code))]|].
  split; [first [exact (g2_fromCompressed_r _ K)|exact g2_fromCompressed_r|exact (g2_fromCompressed_r (x86 code))]|].
  split; [first [exact (g2_toJacobianBE_r _ K)|exact g2_toJacobianBE_r|exact (g2_toJacobianBE_r (x86 code))]|].
  split; [first [exact (g2_toAffineBE_r _ K)|exact g2_toAffineBE_r|exact (g2_toAffineBE_r (x86 code))]|].
  split; [first [exact (g2_toJacobianLE_r _ K)|exact g2_toJacobianLE_r|exact (g2_toJacobianLE_r (x86 code))]|].
  split; [first [exact (g2_toAffineLE_r _ K)|exact g2_toAffineLE_r|exact (g2_toAffineLE_r (x86 code))]|].
  first [exact (g2_toCompressed_r _ K)|exact g2_toCompressed_r|exact (g2_toCompressed_r (x86 code))].
Qed.
(** reduction modulo p, the maps to the curves and the hash *)
Theorem C81_maps : forall code, is_multiplier code -> let B := x86 code in
  (forall k, words k -> (6 <= length k)%nat -> rU rF (lib_modPrime B k) (modPrime k)) /\
  (forall e e', rF e e' -> rP rF rF (lib_swuMapG1 B e) (swuMapG1 e')) /\
  (forall x x' y y', rF x x' -> rF y y' -> rP rF rF (lib_isogenyMapG1 B x y) (isogenyMapG1 x' y')) /\
  (forall e e', rF e e' -> rG1 (lg1_mapToCurve B e) (g1_mapToCurve e')) /\
  (forall e e', r2 e e' -> rP r2 r2 (lib_swuMapG2 B e) (swuMapG2 e')) /\
  (forall p p', rG2 p p' -> rG2 (lib_isogenyMap B p) (isogenyMap p')) /\
  (forall e e', r2 e e' -> rG2 (lg2_mapToCurve B e) (g2_mapToCurve e')) /\
  (forall m dst, message m -> bytes dst -> (length dst <= 255)%nat -> rU rG2 (lib_fromMessage B m dst) (fromMessage m dst)).
Proof.
  intros code M. cbv zeta. pose proof (x86_ok code M) as K.
  split; [first [exact (modPrime_r _ K)|exact modPrime_r|exact (modPrime_r (x86 code))]|].
  split; [first [exact (swuMapG1_r _ K)|exact swuMapG1_r|exact (swuMapG1_r (x86 code))]|].
  split; [first [exact (isogenyMapG1_r _ K)|exact isogenyMapG1_r|exact (isogenyMapG1_r (x86 code))]|].
  split; [first [exact (g1_mapToCurve_r _ K)|exact g1_mapToCurve_r|exact (g1_mapToCurve_r (x86 code))]|].
  split; [first [exact (swuMapG2_r _ K)|exact swuMapG2_r|exact (swuMapG2_r (x86 code))]|].
  split; [first [exact (isogenyMap_r _ K)|exact isogenyMap_r|exact (isogenyMap_r (x86 code))]|].
  split; [first [exact (g2_mapToCurve_r _ K)|exact g2_mapToCurve_r|exact (g2_mapToCurve_r (x86 code))]|].
  first [exact (fromMessage_r _ K)|exact fromMessage_r|exact (fromMessage_r (x86 code))].
Qed.
(** namespace pairing: a line computation and a Miller loop that leave their arrays (OutOfBounds) do so together *)
Theorem C81_pairing : forall code, is_multiplier code -> let B := x86 code in
  (forall r r', rG2 r r' -> rP rE rG2 (lib_doubling_step B r) (doubling_step r')) /\
  (forall r r' t t', rG2 r r' -> rG2 t t' -> rP rE rG2 (lib_addition_step B r t) (addition_step r' t')) /\
  (forall t t', rG2 t t' -> rU (Forall2 rE) (lib_pre_compute B t) (pre_compute t')) /\
  (forall ps ps', Forall2 (rP rG1 rG2) ps ps' -> rU r12 (lib_miller_loop B ps) (miller_loop ps')) /\
  (forall f f', r12 f f' -> r12 (lib_easy_part B f) (easy_part f')) /\
  (forall f f', r12 f f' -> r12 (lib_hard_part B f) (hard_part f')) /\
  (forall f f', r12 f f' -> r12 (lib_final_exponentiation B f) (final_exponentiation f')) /\
  (forall ps ps', Forall2 (rP rG1 rG2) ps ps' -> rU r12 (lib_calculate B ps) (calculate ps')) /\
  (forall ps ps' p p' q q', Forall2 (rP rG1 rG2) ps ps' -> rG1 p p' -> rG2 q q' -> Forall2 (rP rG1 rG2) (lib_add_pair B ps p q) (add_pair ps' p' q')).
Proof.
  intros code M. cbv zeta. pose proof (x86_ok code M) as K.
  split; [first [exact (doubling_step_r _ K)|exact doubling_step_r|exact (doubling_step_r (x86 code))]|].
  split; [first [exact (addition_step_r _ K)|exact addition_step_r|exact (addition_step_r (x86 code))]|].
  split; [first [exact (pre_compute_r _ K)|exact pre_compute_r|exact (pre_compute_r (x86 code))]|].
  split; [first [exact (miller_loop_r _ K)|exact miller_loop_r|exact (miller_loop_r (x86 code))]|].
  split; [first [exact (easy_part_r _ K)|exact easy_part_r|exact (easy_part_r (x86 code))]|].
  split; [first [exact (hard_part_r _ K)|exact hard_part_r|exact (hard_part_r (x86 code))]|].
  split; [first [exact (final_exponentiation_r _ K)|exact final_exponentiation_r|exact (final_exponentiation_r (x86 code))]|].
  split; [first [exact (calculate_r _ K)|exact calculate_r|exact (calculate_r (x86 code))]|].
  first [exact (add_pair_r _ K)|exact add_pair_r|exact (add_pair_r (x86 code))].
Qed.
(** keys and aggregation *)
Theorem C81_keys : forall code, is_multiplier code -> let B := x86 code in
  (forall sk, rG1 (lib_public_key B sk) (public_key sk)) /\
  (forall sk index, lib_derive_child_sk_unhardened B sk index = derive_child_sk_unhardened sk index) /\
  (forall p p' index, rG1 p p' -> rU rG1 (lib_derive_child_g1_unhardened B p index) (derive_child_g1_unhardened p' index)) /\
  (forall p p' index, rG2 p p' -> rU rG2 (lib_derive_child_g2_unhardened B p index) (derive_child_g2_unhardened p' index)) /\
  (forall l l', Forall2 rG1 l l' -> rG1 (lib_aggregate_public_keys B l) (aggregate_public_keys l')) /\
  (forall l l', Forall2 rG2 l l' -> rG2 (lib_aggregate_signatures B l) (aggregate_signatures l')) /\
  (forall T l (f : T -> lg1) f' pred, (forall t, rG1 (f t) (f' t)) -> rG1 (lib_aggregate_public_keys_by B l f pred) (aggregate_public_keys_by l f' pred)) /\
  (forall T l (f : T -> lg2) f' pred, (forall t, rG2 (f t) (f' t)) -> rG2 (lib_aggregate_signatures_by B l f pred) (aggregate_signatures_by l f' pred)).
Proof.
  intros code M. cbv zeta. pose proof (x86_ok code M) as K.
  split; [first [exact (public_key_r _ K)|exact public_key_r|exact (public_key_r (x86 code))]|].
  split; [first [exact (derive_sk_r _ K)|exact derive_sk_r|exact (derive_sk_r (x86 code))]|].
  split; [first [exact (derive_g1_r _ K)|exact derive_g1_r|exact (derive_g1_r (x86 code))]|].
  split; [first [exact (derive_g2_r _ K)|exact derive_g2_r|exact (derive_g2_r (x86 code))]|].
  split; [first [exact (aggregate_public_keys_r _ K)|exact aggregate_public_keys_r|exact (aggregate_public_keys_r (x86 code))]|].
  split; [first [exact (aggregate_signatures_r _ K)|exact aggregate_signatures_r|exact (aggregate_signatures_r (x86 code))]|].
  split; [intros T; exact (@aggregate_public_keys_by_r _ K T)|].
  intros T; exact (@aggregate_signatures_by_r _ K T).
Qed.
(** signing and verifying *)
Theorem C81_signatures : forall code, is_multiplier code -> let B := x86 code in
  (forall sk m, message m -> rU rG2 (lib_sign B sk m) (sign sk m)) /\
  (forall p p' m s s', rG1 p p' -> message m -> rG2 s s' -> rU eq (lib_verify B p m s) (verify p' m s')) /\
  (forall pks pks' ms s s' check, Forall2 rG1 pks pks' -> Forall message ms -> rG2 s s' -> rU eq (lib_aggregate_verify B pks ms s check) (aggregate_verify pks' ms s' check)) /\
  (forall sk, rU rG2 (lib_pop_prove B sk) (pop_prove sk)) /\
  (forall p p' s s', rG1 p p' -> rG2 s s' -> rU eq (lib_pop_verify B p s) (pop_verify p' s')) /\
  (forall pks pks' m s s', Forall2 rG1 pks pks' -> message m -> rG2 s s' -> rU eq (lib_pop_fast_aggregate_verify B pks m s) (pop_fast_aggregate_verify pks' m s')).
Proof.
  intros code M. cbv zeta. pose proof (x86_ok code M) as K.
  split; [first [exact (sign_sig_r _ K)|exact sign_sig_r|exact (sign_sig_r (x86 code))]|].
  split; [first [exact (verify_r _ K)|exact verify_r|exact (verify_r (x86 code))]|].
  split; [first [exact (aggregate_verify_r _ K)|exact aggregate_verify_r|exact (aggregate_verify_r (x86 code))]|].
  split; [first [exact (pop_prove_r _ K)|exact pop_prove_r|exact (pop_prove_r (x86 code))]|].
  split; [first [exact (pop_verify_r _ K)|exact pop_verify_r|exact (pop_verify_r (x86 code))]|].
  first [exact (pop_fast_r _ K)|exact pop_fast_r|exact (pop_fast_r (x86 code))].
Qed.

(** * Consequences, from byte strings to the answer.  [resolve environ cpuid]: the multiplier chosen at load time (C60). *)
(** the verdict on any three strings, computed on limbs by the machine code *)
Theorem C81_wire_verify : forall environ cpuid pkb m sb (H : E2), let B := x86 (resolve environ cpuid) in
  bytes pkb -> length pkb = 48%nat -> bytes sb -> length sb = 96%nat -> message m -> hash_to_curve m DST_SIG H ->
  ((exists pk s, lg1_fromCompressed B pkb = Some pk /\ lg2_fromCompressed B sb = Some s /\ lib_verify B pk m s = Ok true) <->
   exists a, stands1 pkb (zmul a G1gen) /\ stands2 sb (zmul a H)).
Proof.
  intros environ cpuid pkb m sb H B Bp Lp Bs Ls Hm HH. pose proof (x86_ok _ (resolve_is environ cpuid)) as K. fold B in K.
  rewrite <- (Properties_Wire.C67_accepts pkb m sb H Bp Lp Bs Ls Hm HH). unfold Properties_Wire.wire_accepts.
  exact (call_verify B K (fun pk s => lib_verify B pk m s) (fun pk s => verify pk m s) (fun p p' s s' P S => verify_r B K p p' m s s' P Hm S) pkb sb Bp Lp Bs Ls).
Qed.
Theorem C81_wire_pop : forall environ cpuid pkb sb, let B := x86 (resolve environ cpuid) in
  bytes pkb -> length pkb = 48%nat -> bytes sb -> length sb = 96%nat ->
  ((exists pk s, lg1_fromCompressed B pkb = Some pk /\ lg2_fromCompressed B sb = Some s /\ lib_pop_verify B pk s = Ok true) <->
   exists a (H : E2), stands1 pkb (zmul a G1gen) /\ hash_to_curve (pop_message (cpt (b := b1) (zmul a G1gen))) DST_POP H /\ stands2 sb (zmul a H)).
Proof.
  intros environ cpuid pkb sb B Bp Lp Bs Ls. pose proof (x86_ok _ (resolve_is environ cpuid)) as K. fold B in K.
  rewrite <- (Properties_Wire2.C73_pop_accepts pkb sb (conj Bp Lp) (conj Bs Ls)). unfold Properties_Wire2.wire_pop, Properties_Wire2.decode1.
  exact (call_verify B K (lib_pop_verify B) pop_verify (pop_verify_r B K) pkb sb Bp Lp Bs Ls).
Qed.
Theorem C81_wire_aggregate : forall environ cpuid pkbs ms sb chk, let B := x86 (resolve environ cpuid) in
  Forall (fun k => bytes k /\ length k = 48%nat) pkbs -> Forall message ms -> bytes sb -> length sb = 96%nat ->
  ((exists pks s, Forall2 (fun k p => lg1_fromCompressed B k = Some p) pkbs pks /\ lg2_fromCompressed B sb = Some s /\ lib_aggregate_verify B pks ms s chk = Ok true) <->
   length pkbs = length ms /\ (chk = true -> NoDup ms) /\
   exists T : list (Z * E2), Forall2 (fun k aH => stands1 k (zmul (fst aH) G1gen)) pkbs T /\ Forall2 (fun m aH => hash_to_curve m DST_SIG (snd aH)) ms T /\
     stands2 sb (gsum (map (fun aH => zmul (fst aH) (snd aH)) T))).
Proof.
  intros environ cpuid pkbs ms sb chk B Kp Hm Bs Ls. pose proof (x86_ok _ (resolve_is environ cpuid)) as K. fold B in K.
  rewrite <- (Properties_Wire2.C73_aggregate_accepts pkbs ms sb chk Kp Hm (conj Bs Ls)). unfold Properties_Wire2.wire_aggregate, Properties_Wire2.decode1.
  exact (call_list B K (fun pks s => lib_aggregate_verify B pks ms s chk) (fun pks s => aggregate_verify pks ms s chk)
    (fun p p' s s' P S => aggregate_verify_r B K p p' ms s s' chk P Hm S) pkbs sb Kp Bs Ls).
Qed.
Theorem C81_honest : forall environ cpuid sk m, let B := x86 (resolve environ cpuid) in key sk -> message m ->
  (exists s, lib_sign B sk m = Ok s /\ lib_verify B (lib_public_key B sk) m s = Ok true) /\
  exists s, lib_pop_prove B sk = Ok s /\ lib_pop_verify B (lib_public_key B sk) s = Ok true.
Proof.
  intros environ cpuid sk m B Hk Hm. pose proof (x86_ok _ (resolve_is environ cpuid)) as K. fold B in K. split.
  - destruct (Properties_Sig.C47_honest sk m Hk Hm) as (s & E & V). pose proof (sign_sig_r B K sk m Hm) as R. rewrite E in R. destruct (lib_sign B sk m) as [t| |]; try contradiction R.
    exists t. split; [reflexivity|]. rewrite <- V. exact (rU_eq _ _ (verify_r B K _ _ m _ _ (public_key_r B K sk) Hm R)).
  - destruct (Properties_Sig.C51_pop_honest sk Hk) as (s & E & V). pose proof (pop_prove_r B K sk) as R. rewrite E in R. destruct (lib_pop_prove B sk) as [t| |]; try contradiction R.
    exists t. split; [reflexivity|]. rewrite <- V. exact (rU_eq _ _ (pop_verify_r B K _ _ _ _ (public_key_r B K sk) R)).
Qed.
(** the machine and the environment do not matter: both multipliers leave the same limbs, also in results that are not reduced *)
Theorem C81_any_cpu : forall code code', is_multiplier code -> is_multiplier code' -> let B := x86 code in let B' := x86 code' in
  (forall sk, lib_public_key B sk = lib_public_key B' sk /\ lib_pop_prove B sk = lib_pop_prove B' sk) /\
  (forall sk m, message m -> lib_sign B sk m = lib_sign B' sk m) /\
  (forall pk m s, words1 pk -> words2 s -> message m -> lib_verify B pk m s = lib_verify B' pk m s) /\
  (forall p q, words1 p -> words2 q -> lib_calculate B [(p, q)] = lib_calculate B' [(p, q)]) /\
  (forall p s, words1 p -> lg1_scale B p s = lg1_scale B' p s).
Proof.
  intros code code' M M'. cbv zeta. pose proof (x86_ok _ M) as K. pose proof (x86_ok _ M') as K'. split; [|split; [|split; [|split]]].
  - intros sk. split; [exact (rG1_inj _ _ _ (public_key_r _ K sk) (public_key_r _ K' sk))|exact (rU_inj rG2 _ _ _ rG2_inj (pop_prove_r _ K sk) (pop_prove_r _ K' sk))].
  - intros sk m Hm. exact (rU_inj rG2 _ _ _ rG2_inj (sign_sig_r _ K sk m Hm) (sign_sig_r _ K' sk m Hm)).
  - intros pk m s Hp Hs Hm. apply words1_r in Hp. apply words2_r in Hs. exact (rU_inj eq _ _ _ eq_inj (verify_r _ K _ _ m _ _ Hp Hm Hs) (verify_r _ K' _ _ m _ _ Hp Hm Hs)).
  - intros p q Hp Hq. apply words1_r in Hp. apply words2_r in Hq. assert (F : Forall2 (rP rG1 rG2) [(p, q)] [(jmap val p, jmap v2 q)]) by (constructor; [split; assumption|constructor]).
    exact (rU_inj r12 _ _ _ r12_inj (calculate_r _ K _ _ F) (calculate_r _ K' _ _ F)).
  - intros p s Hp. apply words1_r in Hp. exact (rG1_inj _ _ _ (g1_scale_r _ K _ _ s Hp) (g1_scale_r _ K' _ _ s Hp)).
Qed.
(** on the portable arithmetic the library differs: two representations of the generator get different encodings (the lost borrow of C59
    in the inversion of the third coordinate of the second one) *)
Definition scaled_base : lg1 :=
  mkJ [9469744627643084127; 1528774580628282865; 12319026940382670037; 8296657044443447414; 978647645022701221; 162998735046626208]
      [4844373293231744443; 16243382118815677154; 361188477463874118; 6388356049293124563; 8187544832501345858; 1501068846697890552] all_ones2.
Definition wrong_affine : lg1 :=
  mkJ [9620299993812919050; 15108458623664287208; 14147082666316953854; 302908058498876018; 4082448018366214112; 492017018149433199]
      [7242629969466489174; 2531927000889623016; 13926453639788875165; 5720327639661624371; 7314377463167850630; 1739052087354992507] R1l.
Lemma scaled_affine : lg1_affine portable scaled_base = wrong_affine.
Proof.
  unfold lg1_affine, j_affine. change (f_inv (lfp_ops portable) (jz scaled_base)) with (l_inv portable all_ones2). unfold l_inv. rewrite bad_inverse_ok. vm_compute. reflexivity.
Qed.
Theorem C81_portable_refuted : exists p q (P : E1), words1 p /\ words1 q /\ rep1g (jmap val p) P /\ rep1g (jmap val q) P /\
  lg1_toCompressed portable p <> lg1_toCompressed portable q /\ forall code, is_multiplier code -> lg1_toCompressed (x86 code) p = lg1_toCompressed (x86 code) q.
Proof.
  assert (S1 : words1 lg1_BASE) by (split; [|split]; (split; [vm_compute; reflexivity|apply wordsb_ok; vm_compute; reflexivity])).
  assert (S2 : words1 scaled_base) by (split; [|split]; (split; [vm_compute; reflexivity|apply wordsb_ok; vm_compute; reflexivity])).
  assert (R1 : rep1g (jmap val lg1_BASE) G1gen) by (rewrite (rG1_val _ _ g1_BASE_r); exact BASE1_rep).
  assert (R2 : rep1g (jmap val scaled_base) G1gen).
  { destruct (rep1g_ex (jmap val scaled_base)) as [P R2]; try (vm_compute; split; [discriminate|reflexivity]); [vm_compute; reflexivity|].
    assert (E : P = G1gen) by (apply (rep1g_equal _ _ _ _ R2 BASE1_rep); vm_compute; reflexivity). rewrite E in R2. exact R2. }
  exists lg1_BASE, scaled_base, G1gen. split; [exact S1|]. split; [exact S2|]. split; [exact R1|]. split; [exact R2|]. split.
  - assert (X : Z.eqb (nth 47 (lg1_toCompressed portable lg1_BASE) 0) (nth 47 (lg1_toCompressed portable scaled_base) 0) = false).
    { unfold lg1_toCompressed. rewrite scaled_affine. vm_compute. reflexivity. }
    intros E. rewrite E, Z.eqb_refl in X. discriminate X.
  - intros code M. pose proof (x86_ok _ M) as K. rewrite (g1_toCompressed_r _ K _ _ (words1_r _ S1)), (g1_toCompressed_r _ K _ _ (words1_r _ S2)). 
    destruct (cpt (b := b1) G1gen) as [|x y] eqn:C; [exfalso; apply G1gen_nz, curve_eq; exact C|].
    rewrite (C32_g1_format _ _ x y R1 C), (C32_g1_format _ _ x y R2 C). reflexivity.
Qed.
(** points and limbs meeting the hypotheses: the generators, and for the signature scheme the key 7, the message "hi" and its hash *)
Example C81_nontrivial : is_multiplier AsmCode.asm_mul_ex /\ rG1 lg1_BASE g1_BASE /\ rG2 lg2_BASE g2_BASE /\ words1 lg1_BASE /\ words2 lg2_BASE /\
  key [7; 0; 0; 0] /\ message [104; 105] /\ (exists H : E2, hash_to_curve [104; 105] DST_SIG H) /\
  bytes (repeat 255 48) /\ length (repeat 255 48) = 48%nat.
Proof.
  split; [exists false, true; reflexivity|]. split; [exact g1_BASE_r|]. split; [exact g2_BASE_r|].
  split; [split; [|split]; (split; [vm_compute; reflexivity|apply wordsb_ok; vm_compute; reflexivity])|].
  split; [split; [|split]; (split; (split; [vm_compute; reflexivity|apply wordsb_ok; vm_compute; reflexivity]))|].
  split; [split; [apply wordsb_ok; reflexivity|reflexivity]|]. assert (Bm : bytes [104; 105]) by (repeat constructor; discriminate). split; [split; [exact Bm|reflexivity]|].
  split; [destruct (Properties_Sig.C47_spec_total [104; 105] DST_SIG Bm DST_SIG_bytes) as (H & HH & _); [rewrite DST_SIG_len; lia|exists H; exact HH]|].
  split; [|reflexivity]. apply Forall_forall. intros x Hx. apply repeat_spec in Hx. subst x. split; [discriminate|reflexivity].
Qed.

Definition props_lib := (C81_tower2, C81_tower6, C81_tower12, C81_g1, C81_g1_bytes, C81_g2, C81_g2_bytes, C81_maps, C81_pairing, C81_keys, C81_signatures, C81_wire_verify, C81_wire_pop, C81_wire_aggregate, C81_honest, C81_any_cpu, C81_portable_refuted).
Print Assumptions props_lib.
