(** The library on limbs refines the value-level model: g1 and g2, the pairing. *)
From Coq Require Import ZArith List Bool Lia.
From Verif Require Import SpecBytes ModelWord ModelScalar ModelDiv ModelPrim ModelFp ModelTower ModelCurve ModelCodec ModelKeys ModelMap ModelPairing PortArith ModelLimb ModelLimbLib SpecLimb.
From Verif Require Import ScalarProof BytesProof CarryProof LimbProof LibProof1 LibProof2.
Import ListNotations.
Local Open Scope Z_scope.

Lemma g1_jx p q : rG1 p q -> rF (jx p) (jx q). Proof. apply rJ_x. Qed.
Lemma g1_jy p q : rG1 p q -> rF (jy p) (jy q). Proof. apply rJ_y. Qed.
Lemma g1_jz p q : rG1 p q -> rF (jz p) (jz q). Proof. apply rJ_z. Qed.
Lemma g2_jx p q : rG2 p q -> r2 (jx p) (jx q). Proof. apply rJ_x. Qed.
Lemma g2_jy p q : rG2 p q -> r2 (jy p) (jy q). Proof. apply rJ_y. Qed.
Lemma g2_jz p q : rG2 p q -> r2 (jz p) (jz q). Proof. apply rJ_z. Qed.
Lemma g1_mk x x' y y' z z' : rF x x' -> rF y y' -> rF z z' -> rG1 (mkJ x y z) (mkJ x' y' z'). Proof. apply mkJ_r. Qed.
Lemma g2_mk x x' y y' z z' : r2 x x' -> r2 y y' -> r2 z z' -> rG2 (mkJ x y z) (mkJ x' y' z'). Proof. apply mkJ_r. Qed.
#[export] Hint Resolve g1_jx g1_jy g1_jz g2_jx g2_jy g2_jz : rel.
#[export] Hint Resolve g1_mk g2_mk | 0 : rel.
Lemma g1_BASE_r : rG1 lg1_BASE g1_BASE. Proof. split; apply limbs6_r; vm_compute; reflexivity. Qed.
Lemma g2_BASE_r : rG2 lg2_BASE g2_BASE. Proof. split; apply limbs2_r; vm_compute; reflexivity. Qed.
#[export] Hint Resolve g1_BASE_r g2_BASE_r : rel.
Lemma iso1_0_r : Forall2 rF lib_iso1_0 iso1_0. Proof. apply (map_r rF limbs6 small); [exact limbs6_r|vm_compute; reflexivity]. Qed.
Lemma iso1_1_r : Forall2 rF lib_iso1_1 iso1_1. Proof. apply (map_r rF limbs6 small); [exact limbs6_r|vm_compute; reflexivity]. Qed.
Lemma iso1_2_r : Forall2 rF lib_iso1_2 iso1_2. Proof. apply (map_r rF limbs6 small); [exact limbs6_r|vm_compute; reflexivity]. Qed.
Lemma iso1_3_r : Forall2 rF lib_iso1_3 iso1_3. Proof. apply (map_r rF limbs6 small); [exact limbs6_r|vm_compute; reflexivity]. Qed.
Lemma iso2_0_r : Forall2 r2 lib_iso2_0 iso2_0. Proof. apply (map_r r2 limbs2 small2); [exact limbs2_r|vm_compute; reflexivity]. Qed.
Lemma iso2_1_r : Forall2 r2 (firstn 3 lib_iso2_1) (firstn 3 iso2_1).
Proof. unfold lib_iso2_1. rewrite firstn_map. apply (map_r r2 limbs2 small2); [exact limbs2_r|vm_compute; reflexivity]. Qed.
Lemma iso2_2_r : Forall2 r2 lib_iso2_2 iso2_2. Proof. apply (map_r r2 limbs2 small2); [exact limbs2_r|vm_compute; reflexivity]. Qed.
Lemma iso2_3_r : Forall2 r2 lib_iso2_3 iso2_3. Proof. apply (map_r r2 limbs2 small2); [exact limbs2_r|vm_compute; reflexivity]. Qed.

Section T.
Context (b : backend) (Hb : backend_ok b).
Lemma fp_ops_r : ops_r rF (lfp_ops b) fp_ops.
Proof. split; cbn [f_zero f_one f_add f_sub f_mul f_sqr f_dbl f_neg f_inv f_eq f_isZero f_isOne lfp_ops fp_ops]; intros; rel. Qed.
Lemma fp2_ops_r : ops_r r2 (lfp2_ops b) fp2_ops.
Proof. split; cbn [f_zero f_one f_add f_sub f_mul f_sqr f_dbl f_neg f_inv f_eq f_isZero f_isOne lfp2_ops fp2_ops]; intros; rel. Qed.

Lemma g1_zero_r  : rG1 (lg1_zero b) g1_zero.
Proof. exact (j_zero_r _ _ _ fp_ops_r). Qed.
#[local] Hint Resolve g1_zero_r : rel.
Lemma g1_isZero_r p p' : rG1 p p' -> lg1_isZero b p = g1_isZero p'.
Proof. exact (j_isZero_r _ _ _ fp_ops_r _ _). Qed.
#[local] Hint Resolve g1_isZero_r : rel.
Lemma g1_isAffine_r p p' : rG1 p p' -> lg1_isAffine b p = g1_isAffine p'.
Proof. exact (j_isAffine_r _ _ _ fp_ops_r _ _). Qed.
#[local] Hint Resolve g1_isAffine_r : rel.
Lemma g1_equal_r p p' q q' : rG1 p p' -> rG1 q q' -> lg1_equal b p q = g1_equal p' q'.
Proof. exact (j_equal_r _ _ _ fp_ops_r _ _ _ _). Qed.
#[local] Hint Resolve g1_equal_r : rel.
Lemma g1_isOnCurve_r p p' : rG1 p p' -> lg1_isOnCurve b p = g1_isOnCurve p'.
Proof. exact (j_isOnCurve_r _ _ _ fp_ops_r _ _ _ _ B_r). Qed.
#[local] Hint Resolve g1_isOnCurve_r : rel.
Lemma g1_affine_r p p' : rG1 p p' -> rG1 (lg1_affine b p) (g1_affine p').
Proof. exact (j_affine_r _ _ _ fp_ops_r _ _). Qed.
#[local] Hint Resolve g1_affine_r : rel.
Lemma g1_dbl_r p p' : rG1 p p' -> rG1 (lg1_dbl b p) (g1_dbl p').
Proof. exact (j_dbl_r _ _ _ fp_ops_r _ _). Qed.
#[local] Hint Resolve g1_dbl_r : rel.
Lemma g1_neg_r p p' : rG1 p p' -> rG1 (lg1_neg b p) (g1_neg p').
Proof. exact (j_neg_r _ _ _ fp_ops_r _ _). Qed.
#[local] Hint Resolve g1_neg_r : rel.
Lemma g1_add_r p p' q q' : rG1 p p' -> rG1 q q' -> rG1 (lg1_add b p q) (g1_add p' q').
Proof. exact (j_add_r _ _ _ fp_ops_r _ _ _ _). Qed.
#[local] Hint Resolve g1_add_r : rel.
Lemma g1_sub_r p p' q q' : rG1 p p' -> rG1 q q' -> rG1 (lg1_sub b p q) (g1_sub p' q').
Proof. exact (j_sub_r _ _ _ fp_ops_r _ _ _ _). Qed.
#[local] Hint Resolve g1_sub_r : rel.
Lemma g1_scale_r p p' s : rG1 p p' -> rG1 (lg1_scale b p s) (g1_scale p' s).
Proof. exact (j_scale_r _ _ _ fp_ops_r _ _ s). Qed.
#[local] Hint Resolve g1_scale_r : rel.
Lemma g1_weightedSum_r l l' ss : Forall2 rG1 l l' -> rG1 (lg1_weightedSum b l ss) (g1_weightedSum l' ss).
Proof. exact (j_weightedSum_r _ _ _ fp_ops_r l l' ss). Qed.
#[local] Hint Resolve g1_weightedSum_r : rel.
Lemma g1_fromJacobianBE_r a check mont : bytes a -> length a = 144%nat -> rO rG1 (lg1_fromJacobianBE b a check mont) (g1_fromJacobianBE a check mont).
Proof. exact (j_fromJacobian_r _ _ _ fp_ops_r 48 _ _ _ _ B_r (fromBE_r b Hb) a check mont). Qed.
#[local] Hint Resolve g1_fromJacobianBE_r : rel.
Lemma g1_fromAffineBE_r a check mont : bytes a -> length a = 96%nat -> rO rG1 (lg1_fromAffineBE b a check mont) (g1_fromAffineBE a check mont).
Proof. exact (j_fromAffine_r _ _ _ fp_ops_r 48 _ _ _ _ B_r (fromBE_r b Hb) a check mont). Qed.
#[local] Hint Resolve g1_fromAffineBE_r : rel.
Lemma g1_toJacobianBE_r p p' mont : rG1 p p' -> lg1_toJacobianBE b p mont = g1_toJacobianBE p' mont.
Proof. exact (j_toJacobian_r _ _ _ (toBE_r b Hb) p p' mont). Qed.
#[local] Hint Resolve g1_toJacobianBE_r : rel.
Lemma g1_toAffineBE_r p p' mont : rG1 p p' -> lg1_toAffineBE b p mont = g1_toAffineBE p' mont.
Proof. exact (j_toAffine_r _ _ _ fp_ops_r 48 _ _ (toBE_r b Hb) p p' mont). Qed.
#[local] Hint Resolve g1_toAffineBE_r : rel.
Lemma g1_fromJacobianLE_r a check mont : bytes a -> length a = 144%nat -> rO rG1 (lg1_fromJacobianLE b a check mont) (g1_fromJacobianLE a check mont).
Proof. exact (j_fromJacobian_r _ _ _ fp_ops_r 48 _ _ _ _ B_r (fromLE_r b Hb) a check mont). Qed.
#[local] Hint Resolve g1_fromJacobianLE_r : rel.
Lemma g1_fromAffineLE_r a check mont : bytes a -> length a = 96%nat -> rO rG1 (lg1_fromAffineLE b a check mont) (g1_fromAffineLE a check mont).
Proof. exact (j_fromAffine_r _ _ _ fp_ops_r 48 _ _ _ _ B_r (fromLE_r b Hb) a check mont). Qed.
#[local] Hint Resolve g1_fromAffineLE_r : rel.
Lemma g1_toJacobianLE_r p p' mont : rG1 p p' -> lg1_toJacobianLE b p mont = g1_toJacobianLE p' mont.
Proof. exact (j_toJacobian_r _ _ _ (toLE_r b Hb) p p' mont). Qed.
#[local] Hint Resolve g1_toJacobianLE_r : rel.
Lemma g1_toAffineLE_r p p' mont : rG1 p p' -> lg1_toAffineLE b p mont = g1_toAffineLE p' mont.
Proof. exact (j_toAffine_r _ _ _ fp_ops_r 48 _ _ (toLE_r b Hb) p p' mont). Qed.
#[local] Hint Resolve g1_toAffineLE_r : rel.
Lemma g2_zero_r  : rG2 (lg2_zero b) g2_zero.
Proof. exact (j_zero_r _ _ _ fp2_ops_r). Qed.
#[local] Hint Resolve g2_zero_r : rel.
Lemma g2_isZero_r p p' : rG2 p p' -> lg2_isZero b p = g2_isZero p'.
Proof. exact (j_isZero_r _ _ _ fp2_ops_r _ _). Qed.
#[local] Hint Resolve g2_isZero_r : rel.
Lemma g2_isAffine_r p p' : rG2 p p' -> lg2_isAffine b p = g2_isAffine p'.
Proof. exact (j_isAffine_r _ _ _ fp2_ops_r _ _). Qed.
#[local] Hint Resolve g2_isAffine_r : rel.
Lemma g2_equal_r p p' q q' : rG2 p p' -> rG2 q q' -> lg2_equal b p q = g2_equal p' q'.
Proof. exact (j_equal_r _ _ _ fp2_ops_r _ _ _ _). Qed.
#[local] Hint Resolve g2_equal_r : rel.
Lemma g2_isOnCurve_r p p' : rG2 p p' -> lg2_isOnCurve b p = g2_isOnCurve p'.
Proof. exact (j_isOnCurve_r _ _ _ fp2_ops_r _ _ _ _ B2_r). Qed.
#[local] Hint Resolve g2_isOnCurve_r : rel.
Lemma g2_affine_r p p' : rG2 p p' -> rG2 (lg2_affine b p) (g2_affine p').
Proof. exact (j_affine_r _ _ _ fp2_ops_r _ _). Qed.
#[local] Hint Resolve g2_affine_r : rel.
Lemma g2_dbl_r p p' : rG2 p p' -> rG2 (lg2_dbl b p) (g2_dbl p').
Proof. exact (j_dbl_r _ _ _ fp2_ops_r _ _). Qed.
#[local] Hint Resolve g2_dbl_r : rel.
Lemma g2_neg_r p p' : rG2 p p' -> rG2 (lg2_neg b p) (g2_neg p').
Proof. exact (j_neg_r _ _ _ fp2_ops_r _ _). Qed.
#[local] Hint Resolve g2_neg_r : rel.
Lemma g2_add_r p p' q q' : rG2 p p' -> rG2 q q' -> rG2 (lg2_add b p q) (g2_add p' q').
Proof. exact (j_add_r _ _ _ fp2_ops_r _ _ _ _). Qed.
#[local] Hint Resolve g2_add_r : rel.
Lemma g2_sub_r p p' q q' : rG2 p p' -> rG2 q q' -> rG2 (lg2_sub b p q) (g2_sub p' q').
Proof. exact (j_sub_r _ _ _ fp2_ops_r _ _ _ _). Qed.
#[local] Hint Resolve g2_sub_r : rel.
Lemma g2_scale_r p p' s : rG2 p p' -> rG2 (lg2_scale b p s) (g2_scale p' s).
Proof. exact (j_scale_r _ _ _ fp2_ops_r _ _ s). Qed.
#[local] Hint Resolve g2_scale_r : rel.
Lemma g2_weightedSum_r l l' ss : Forall2 rG2 l l' -> rG2 (lg2_weightedSum b l ss) (g2_weightedSum l' ss).
Proof. exact (j_weightedSum_r _ _ _ fp2_ops_r l l' ss). Qed.
#[local] Hint Resolve g2_weightedSum_r : rel.
Lemma g2_fromJacobianBE_r a check mont : bytes a -> length a = 288%nat -> rO rG2 (lg2_fromJacobianBE b a check mont) (g2_fromJacobianBE a check mont).
Proof. exact (j_fromJacobian_r _ _ _ fp2_ops_r 96 _ _ _ _ B2_r (fp2_fromBytesBE_r b Hb) a check mont). Qed.
#[local] Hint Resolve g2_fromJacobianBE_r : rel.
Lemma g2_fromAffineBE_r a check mont : bytes a -> length a = 192%nat -> rO rG2 (lg2_fromAffineBE b a check mont) (g2_fromAffineBE a check mont).
Proof. exact (j_fromAffine_r _ _ _ fp2_ops_r 96 _ _ _ _ B2_r (fp2_fromBytesBE_r b Hb) a check mont). Qed.
#[local] Hint Resolve g2_fromAffineBE_r : rel.
Lemma g2_toJacobianBE_r p p' mont : rG2 p p' -> lg2_toJacobianBE b p mont = g2_toJacobianBE p' mont.
Proof. exact (j_toJacobian_r _ _ _ (fp2_toBytesBE_r b Hb) p p' mont). Qed.
#[local] Hint Resolve g2_toJacobianBE_r : rel.
Lemma g2_toAffineBE_r p p' mont : rG2 p p' -> lg2_toAffineBE b p mont = g2_toAffineBE p' mont.
Proof. exact (j_toAffine_r _ _ _ fp2_ops_r 96 _ _ (fp2_toBytesBE_r b Hb) p p' mont). Qed.
#[local] Hint Resolve g2_toAffineBE_r : rel.
Lemma g2_fromJacobianLE_r a check mont : bytes a -> length a = 288%nat -> rO rG2 (lg2_fromJacobianLE b a check mont) (g2_fromJacobianLE a check mont).
Proof. exact (j_fromJacobian_r _ _ _ fp2_ops_r 96 _ _ _ _ B2_r (fp2_fromBytesLE_r b Hb) a check mont). Qed.
#[local] Hint Resolve g2_fromJacobianLE_r : rel.
Lemma g2_fromAffineLE_r a check mont : bytes a -> length a = 192%nat -> rO rG2 (lg2_fromAffineLE b a check mont) (g2_fromAffineLE a check mont).
Proof. exact (j_fromAffine_r _ _ _ fp2_ops_r 96 _ _ _ _ B2_r (fp2_fromBytesLE_r b Hb) a check mont). Qed.
#[local] Hint Resolve g2_fromAffineLE_r : rel.
Lemma g2_toJacobianLE_r p p' mont : rG2 p p' -> lg2_toJacobianLE b p mont = g2_toJacobianLE p' mont.
Proof. exact (j_toJacobian_r _ _ _ (fp2_toBytesLE_r b Hb) p p' mont). Qed.
#[local] Hint Resolve g2_toJacobianLE_r : rel.
Lemma g2_toAffineLE_r p p' mont : rG2 p p' -> lg2_toAffineLE b p mont = g2_toAffineLE p' mont.
Proof. exact (j_toAffine_r _ _ _ fp2_ops_r 96 _ _ (fp2_toBytesLE_r b Hb) p p' mont). Qed.
#[local] Hint Resolve g2_toAffineLE_r : rel.
Lemma g1_clearCofactor_r p p' : rG1 p p' -> rG1 (lg1_clearCofactor b p) (g1_clearCofactor p').
Proof. intros. unfold lg1_clearCofactor, g1_clearCofactor. cbv zeta. repeat rel_if; rel. Qed.
#[local] Hint Resolve g1_clearCofactor_r : rel.
Lemma g1_glv_r p p' : rG1 p p' -> rG1 (lg1_glv b p) (g1_glv p').
Proof. intros. unfold lg1_glv, g1_glv. cbv zeta. repeat rel_if; rel. Qed.
#[local] Hint Resolve g1_glv_r : rel.
Lemma g1_inCorrectSubgroup_r p p' : rG1 p p' -> (lg1_inCorrectSubgroup b p) = (g1_inCorrectSubgroup p').
Proof. intros. unfold lg1_inCorrectSubgroup, g1_inCorrectSubgroup. cbv zeta. repeat rel_if; rel. Qed.
#[local] Hint Resolve g1_inCorrectSubgroup_r : rel.
Lemma g2_psi_r p p' : rG2 p p' -> rG2 (lg2_psi b p) (g2_psi p').
Proof. intros. unfold lg2_psi, g2_psi. cbv zeta. repeat rel_if; rel. Qed.
#[local] Hint Resolve g2_psi_r : rel.
Lemma g2_inCorrectSubgroup_r p p' : rG2 p p' -> (lg2_inCorrectSubgroup b p) = (g2_inCorrectSubgroup p').
Proof. intros. unfold lg2_inCorrectSubgroup, g2_inCorrectSubgroup. cbv zeta. repeat rel_if; rel. Qed.
#[local] Hint Resolve g2_inCorrectSubgroup_r : rel.
Lemma g2_frobeniusMap_r n : forall p p', rG2 p p' -> rG2 (lg2_frobeniusMap b n p) (g2_frobeniusMap n p').
Proof. induction n as [|n IH]; intros p p' P; [exact P|]. cbn [lg2_frobeniusMap g2_frobeniusMap]. apply IH. rel. Qed.
#[local] Hint Resolve g2_frobeniusMap_r : rel.
Lemma g2_clearCofactor_r p p' : rG2 p p' -> rG2 (lg2_clearCofactor b p) (g2_clearCofactor p').
Proof. intros. unfold lg2_clearCofactor, g2_clearCofactor. cbv zeta. repeat rel_if; rel. Qed.
#[local] Hint Resolve g2_clearCofactor_r : rel.
Lemma read381_r a : bytes a -> length a = 48%nat -> rF (lib_read381 a) (read381 a).
Proof.
  intros Ba La. split; [|unfold lib_read381, read381; cbv zeta; exact eq_refl]. unfold lib_read381. cbv zeta. pose proof (fromBytesBE_length 6 a) as L. pose proof (fromBytesBE_words 6 a Ba La) as Wd.
  destruct (fromBytesBE 6 a) as [|x0 [|x1 [|x2 [|x3 [|x4 [|x5 [|]]]]]]]; try discriminate L. inversion Wd as [|? ? A0 W1]; subst. inversion W1 as [|? ? A1 W2]; subst.
  inversion W2 as [|? ? A2 W3]; subst. inversion W3 as [|? ? A3 W4]; subst. inversion W4 as [|? ? A4 W5]; subst. inversion W5 as [|? ? A5 W6]; subst.
  cbn [firstn nth app]. apply six_mk; try assumption. change 0x1FFFFFFFFFFFFFFF with (Z.ones 61). rewrite Z.land_ones by lia. pose proof (Z.mod_pos_bound x5 (2 ^ 61) ltac:(lia)) as [M1 M2].
  split; [exact M1|]. eapply Z.lt_trans; [exact M2|reflexivity].
Qed.
Lemma g1_fromCompressed_r a : bytes a -> length a = 48%nat -> rO rG1 (lg1_fromCompressed b a) (g1_fromCompressed a).
Proof.
  intros Ba La. unfold lg1_fromCompressed, g1_fromCompressed. cbv zeta. destruct (negb (flag a 7)); [exact I|]. destruct (flag a 6); [exact g1_zero_r|].
  pose proof (toMont_r b Hb _ _ (read381_r a Ba La)) as X. rewrite (isValid_r _ _ X). destruct (negb _); [exact I|].
  exact (j_recover_r rF _ _ fp_ops_r _ _ B_r _ _ _ _ (sqrt_r b Hb) (isLex_r b Hb) _ _ (flag a 5) X).
Qed.
Lemma g2_fromCompressed_r a : bytes a -> length a = 96%nat -> rO rG2 (lg2_fromCompressed b a) (g2_fromCompressed a).
Proof.
  intros Ba La. unfold lg2_fromCompressed, g2_fromCompressed. cbv zeta. destruct (negb (flag a 7)); [exact I|]. destruct (flag a 6); [exact g2_zero_r|].
  assert (L0 : length (sub_span 0 48 a) = 48%nat) by (apply sub_span_len; rewrite La; repeat constructor).
  assert (L1 : length (sub_span 48 48 a) = 48%nat) by (apply sub_span_len; rewrite La; repeat constructor).
  pose proof (toMont_r b Hb _ _ (read381_r _ (sub_span_bytes 0 48 a Ba) L0)) as X.
  pose proof (fromBE_r b Hb _ true true (sub_span_bytes 48 48 a Ba) L1) as Y.
  destruct (l_fromBytesBE b (sub_span 48 48 a) true true) as [x0|], (fp_fromBytesBE (sub_span 48 48 a) true true) as [x0'|]; try contradiction; [|exact I].
  rewrite (isValid_r _ _ X). destruct (negb _); [exact I|]. unfold rO in Y.
  exact (j_recover_r r2 _ _ fp2_ops_r _ _ B2_r _ _ _ _ (fp2_sqrt_r b Hb) (fp2_isLexLargest_r b Hb) _ _ (flag a 5) (mk2_r _ _ _ _ Y X)).
Qed.
Lemma or0_r a c m : a = c -> or0 a m = or0 c m. Proof. intros ->. reflexivity. Qed.
#[local] Hint Resolve or0_r : rel.
Lemma g1_toCompressed_r p p' : rG1 p p' -> lg1_toCompressed b p = g1_toCompressed p'.
Proof. intros P. unfold lg1_toCompressed, g1_toCompressed. cbv zeta. rel_if; [reflexivity|]. apply or0_r. rel_if; rel. Qed.
Lemma g2_toCompressed_r p p' : rG2 p p' -> lg2_toCompressed b p = g2_toCompressed p'.
Proof. intros P. unfold lg2_toCompressed, g2_toCompressed. cbv zeta. rel_if; [reflexivity|]. apply or0_r. rel_if; rel. Qed.
(** maps to the curves *)
Lemma swuMapG1_r e e' : rF e e' -> rP rF rF (lib_swuMapG1 b e) (swuMapG1 e').
Proof.
  apply (swu_map_r rF _ _ fp_ops_r _ _ _ _ _ _ limbs6 swuParamsForG1 (isQNR_r b Hb) (sqrt_r b Hb) (sign_r b Hb)); apply limbs6_r; vm_compute; reflexivity.
Qed.
Lemma swuMapG2_r e e' : r2 e e' -> rP r2 r2 (lib_swuMapG2 b e) (swuMapG2 e').
Proof.
  apply (swu_map_r r2 _ _ fp2_ops_r _ _ _ _ _ _ limbs2 swuParamsForG2 (fp2_isQNR_r b Hb) (fp2_sqrt_r b Hb) (fp2_sign_r b Hb)); apply limbs2_r; vm_compute; reflexivity.
Qed.
Lemma horner1_r l l' x x' : Forall2 rF l l' -> rF x x' -> rF (horner (lfp_ops b) l x) (horner fp_ops l' x').
Proof. exact (horner_r rF _ _ fp_ops_r l l' x x'). Qed.
Lemma horner2_r l l' x x' : Forall2 r2 l l' -> r2 x x' -> r2 (horner (lfp2_ops b) l x) (horner fp2_ops l' x').
Proof. exact (horner_r r2 _ _ fp2_ops_r l l' x x'). Qed.
Lemma isogenyMapG1_r x x' y y' : rF x x' -> rF y y' -> rP rF rF (lib_isogenyMapG1 b x y) (isogenyMapG1 x' y').
Proof.
  intros X Y. unfold lib_isogenyMapG1, isogenyMapG1. cbv zeta.
  pose proof (horner1_r _ _ x x' iso1_0_r X) as K0. pose proof (horner1_r _ _ x x' iso1_1_r X) as K1.
  pose proof (horner1_r _ _ x x' iso1_2_r X) as K2. pose proof (horner1_r _ _ x x' iso1_3_r X) as K3. revert K0 K1 K2 K3.
  generalize (horner (lfp_ops b) lib_iso1_0 x), (horner fp_ops iso1_0 x'), (horner (lfp_ops b) lib_iso1_1 x), (horner fp_ops iso1_1 x'),
    (horner (lfp_ops b) lib_iso1_2 x), (horner fp_ops iso1_2 x'), (horner (lfp_ops b) lib_iso1_3 x), (horner fp_ops iso1_3 x'). intros. apply rP_pair; rel.
Qed.
Lemma g1_mapToCurve_r e e' : rF e e' -> rG1 (lg1_mapToCurve b e) (g1_mapToCurve e').
Proof.
  intros E. unfold lg1_mapToCurve, g1_mapToCurve. cbv zeta. destruct (swuMapG1_r e e' E) as [X Y]. destruct (isogenyMapG1_r _ _ _ _ X Y) as [X2 Y2].
  apply g1_clearCofactor_r. exact (g1_mk _ _ _ _ _ _ X2 Y2 one_r).
Qed.
Lemma isogenyMap_r p p' : rG2 p p' -> rG2 (lib_isogenyMap b p) (isogenyMap p').
Proof.
  intros P. unfold lib_isogenyMap, isogenyMap. cbv zeta. pose proof (g2_jx _ _ P) as X.
  pose proof (horner2_r _ _ _ _ iso2_0_r X) as K0. pose proof (horner2_r _ _ _ _ iso2_1_r X) as K1.
  pose proof (horner2_r _ _ _ _ iso2_2_r X) as K2. pose proof (horner2_r _ _ _ _ iso2_3_r X) as K3. revert K0 K1 K2 K3.
  generalize (horner (lfp2_ops b) lib_iso2_0 (jx p)), (horner fp2_ops iso2_0 (jx p')), (horner (lfp2_ops b) (firstn 3 lib_iso2_1) (jx p)), (horner fp2_ops (firstn 3 iso2_1) (jx p')),
    (horner (lfp2_ops b) lib_iso2_2 (jx p)), (horner fp2_ops iso2_2 (jx p')), (horner (lfp2_ops b) lib_iso2_3 (jx p)), (horner fp2_ops iso2_3 (jx p')). intros. apply g2_mk; rel.
Qed.
#[local] Hint Resolve isogenyMap_r : rel.
Lemma g2_mapToCurve_r e e' : r2 e e' -> rG2 (lg2_mapToCurve b e) (g2_mapToCurve e').
Proof. intros E. unfold lg2_mapToCurve, g2_mapToCurve. cbv zeta. destruct (swuMapG2_r e e' E) as [X Y].
  apply g2_clearCofactor_r, isogenyMap_r. exact (g2_mk _ _ _ _ _ _ X Y fp2_one_r). Qed.
(** the pairing *)

Lemma dbl_t0_r r r' : rG2 r r' -> r2 (lib_dbl_t0 b r) (dbl_t0 r').
Proof. intros. unfold lib_dbl_t0, dbl_t0. cbv zeta. repeat rel_if; rel. Qed.
#[local] Hint Resolve dbl_t0_r : rel.
Lemma dbl_t3_r r r' : rG2 r r' -> r2 (lib_dbl_t3 b r) (dbl_t3 r').
Proof. intros. unfold lib_dbl_t3, dbl_t3. cbv zeta. repeat rel_if; rel. Qed.
#[local] Hint Resolve dbl_t3_r : rel.
Lemma dbl_t6_r r r' : rG2 r r' -> r2 (lib_dbl_t6 b r) (dbl_t6 r').
Proof. intros. unfold lib_dbl_t6, dbl_t6. cbv zeta. repeat rel_if; rel. Qed.
#[local] Hint Resolve dbl_t6_r : rel.
Lemma doubling_step_r r r' : rG2 r r' -> rP rE rG2 (lib_doubling_step b r) (doubling_step r').
Proof. intros. unfold lib_doubling_step, doubling_step. cbv zeta. apply rP_pair; [apply rP_pair; [apply rP_pair|]|]; rel. Qed.
Lemma addition_step_r r r' t t' : rG2 r r' -> rG2 t t' -> rP rE rG2 (lib_addition_step b r t) (addition_step r' t').
Proof. intros. unfold lib_addition_step, addition_step. cbv zeta. apply rP_pair; [apply rP_pair; [apply rP_pair|]|]; rel. Qed.
Lemma pre_loop_r n : forall r r' t t', rG2 r r' -> rG2 t t' -> Forall2 rE (lib_pre_loop b n r t) (pre_loop n r' t').
Proof.
  induction n as [|i IH]; intros r r' t t' Hr Ht; [constructor|]. cbn [lib_pre_loop pre_loop]. cbv zeta. destruct (doubling_step_r r r' Hr) as [E Q].
  destruct (eff_bit i).
  - destruct (addition_step_r _ _ _ _ Q Ht) as [E2 Q2]. constructor; [exact E|]. constructor; [exact E2|]. apply IH; assumption.
  - constructor; [exact E|]. apply IH; assumption.
Qed.
Lemma store68_r l l' : Forall2 rE l l' -> rU (Forall2 rE) (lib_store68 l) (store68 l').
Proof.
  intros Hl. pose proof (Forall2_len _ _ _ Hl) as E. unfold lib_store68, store68, lib_ellc, ellc in *. rewrite E. destruct (length l' <=? 68)%nat; [|exact I]. red. apply Forall2_app; [exact Hl|]. apply repeat_r.
  unfold lib_ell_zero, ell_zero. apply rP_pair; [apply rP_pair|]; rel.
Qed.
Lemma pre_compute_r t t' : rG2 t t' -> rU (Forall2 rE) (lib_pre_compute b t) (pre_compute t').
Proof.
  intros Ht. unfold lib_pre_compute, pre_compute. rewrite (g2_isZero_r t t' Ht). destruct (g2_isZero t'); apply store68_r; [constructor|]. apply pre_loop_r; assumption.
Qed.
Lemma ell_r f f' c c' p p' : r12 f f' -> rE c c' -> rG1 p p' -> r12 (lib_ell b f c p) (ell f' c' p').
Proof. intros Hf [[C0 C1] C2] P. unfold lib_ell, ell. cbv zeta. rel. Qed.
Lemma nth_r {A B} (R : A -> B -> Prop) l l' k : Forall2 R l l' -> rO R (nth_error l k) (nth_error l' k).
Proof. intros H. revert k. induction H as [|x y l l' X _ IH]; intros [|k]; [exact I|exact I|exact X|apply IH]. Qed.
Lemma ell_all_r k ps ps' : Forall2 (rP rG1 (Forall2 rE)) ps ps' -> forall f f', r12 f f' -> rU r12 (lib_ell_all b k ps f) (ell_all k ps' f').
Proof.
  induction 1 as [|[p cs] [p' cs'] ps ps' [P C] _ IH]; intros f f' Hf; [exact Hf|]. cbn [lib_ell_all ell_all fst snd] in *.
  pose proof (nth_r rE cs cs' k C) as N. unfold lib_ellc, ellc in *. destruct (nth_error cs k), (nth_error cs' k); try contradiction; [|exact I]. apply IH. apply ell_r; assumption.
Qed.
Lemma obind_r {A B C D} (R : A -> B -> Prop) (S : C -> D -> Prop) x x' f f' : rU R x x' -> (forall a a', R a a' -> rU S (f a) (f' a')) -> rU S (obind x f) (obind x' f').
Proof. intros H K. destruct x, x'; try contradiction; [exact (K _ _ H)|exact I|exact I]. Qed.
Lemma mil_loop_r n : forall k ps ps' f f', Forall2 (rP rG1 (Forall2 rE)) ps ps' -> r12 f f' -> rU r12 (lib_mil_loop b n k ps f) (mil_loop n k ps' f').
Proof.
  induction n as [|i IH]; intros k ps ps' f f' Hp Hf; [exact Hf|]. cbn [lib_mil_loop mil_loop]. cbv zeta. apply (obind_r r12 r12).
  - apply ell_all_r; [exact Hp|]. destruct (i =? 62)%nat; rel.
  - intros g g' Hg. destruct (eff_bit i); [|apply IH; assumption]. apply (obind_r r12 r12); [apply ell_all_r; assumption|]. intros h h' Hh. apply IH; assumption.
Qed.
Lemma pre_all_r ps ps' : Forall2 (rP rG1 rG2) ps ps' -> rU (Forall2 (rP rG1 (Forall2 rE))) (lib_pre_all b ps) (pre_all ps').
Proof.
  induction 1 as [|[p q] [p' q'] ps ps' [P Q] _ IH]; [constructor|]. cbn [lib_pre_all pre_all fst snd] in *. apply (obind_r (Forall2 rE) _); [apply pre_compute_r; assumption|].
  intros cs cs' C. apply (obind_r (Forall2 (rP rG1 (Forall2 rE))) _); [exact IH|]. intros r r' Hr. constructor; [apply rP_pair; assumption|exact Hr].
Qed.
Lemma miller_loop_r ps ps' : Forall2 (rP rG1 rG2) ps ps' -> rU r12 (lib_miller_loop b ps) (miller_loop ps').
Proof.
  intros H. unfold lib_miller_loop, miller_loop.
  assert (K : rU r12 (obind (lib_pre_all b ps) (fun cs => obind (lib_mil_loop b 63 0 cs l12_one) (fun f => Ok (l12_conj b f))))
                     (obind (pre_all ps') (fun cs => obind (mil_loop 63 0 cs fp12_one) (fun f => Ok (fp12_conj f))))).
  { apply (obind_r (Forall2 (rP rG1 (Forall2 rE))) _); [apply pre_all_r, H|]. intros cs cs' C. apply (obind_r r12 _); [apply mil_loop_r; [exact C|rel]|]. intros f f' Hf. red. rel. }
  destruct H; [exact I|exact K].
Qed.

Lemma easy_part_r f f' : r12 f f' -> r12 (lib_easy_part b f) (easy_part f').
Proof. intros. unfold lib_easy_part, easy_part. cbv zeta. repeat rel_if; rel. Qed.
#[local] Hint Resolve easy_part_r : rel.
Lemma exp_x_r f f' : r12 f f' -> r12 (lib_exp_x b f) (exp_x f').
Proof. intros. unfold lib_exp_x, exp_x. cbv zeta. repeat rel_if; rel. Qed.
#[local] Hint Resolve exp_x_r : rel.
Lemma hard_part_r f f' : r12 f f' -> r12 (lib_hard_part b f) (hard_part f').
Proof. intros. unfold lib_hard_part, hard_part. cbv zeta. repeat rel_if; rel. Qed.
#[local] Hint Resolve hard_part_r : rel.
Lemma final_exponentiation_r f f' : r12 f f' -> r12 (lib_final_exponentiation b f) (final_exponentiation f').
Proof. intros. unfold lib_final_exponentiation, final_exponentiation. cbv zeta. repeat rel_if; rel. Qed.
#[local] Hint Resolve final_exponentiation_r : rel.
Lemma calculate_r ps ps' : Forall2 (rP rG1 rG2) ps ps' -> rU r12 (lib_calculate b ps) (calculate ps').
Proof.
  intros H. pose proof (miller_loop_r ps ps' H) as M. unfold lib_calculate, calculate.
  assert (K : rU r12 (obind (lib_miller_loop b ps) (fun f => Ok (lib_final_exponentiation b f))) (obind (miller_loop ps') (fun f => Ok (final_exponentiation f)))).
  { apply (obind_r r12 _); [exact M|]. intros f f' Hf. red. rel. }
  destruct H; [red; rel|exact K].
Qed.
Lemma add_pair_r ps ps' p p' q q' : Forall2 (rP rG1 rG2) ps ps' -> rG1 p p' -> rG2 q q' -> Forall2 (rP rG1 rG2) (lib_add_pair b ps p q) (add_pair ps' p' q').
Proof.
  intros H P Q. unfold lib_add_pair, add_pair. rewrite (g1_isZero_r p p' P), (g2_isZero_r q q' Q). destruct (g1_isZero p' || g2_isZero q'); [exact H|].
  apply Forall2_app; [exact H|]. constructor; [apply rP_pair; rel|constructor].
Qed.
End T.
#[export] Hint Resolve g1_zero_r g1_isZero_r g1_isAffine_r g1_equal_r g1_isOnCurve_r g1_affine_r g1_dbl_r g1_neg_r g1_add_r g1_sub_r g1_scale_r g1_weightedSum_r g1_fromJacobianBE_r g1_fromAffineBE_r g1_toJacobianBE_r g1_toAffineBE_r g1_fromJacobianLE_r g1_fromAffineLE_r g1_toJacobianLE_r g1_toAffineLE_r g2_zero_r g2_isZero_r g2_isAffine_r g2_equal_r g2_isOnCurve_r g2_affine_r g2_dbl_r g2_neg_r g2_add_r g2_sub_r g2_scale_r g2_weightedSum_r g2_fromJacobianBE_r g2_fromAffineBE_r g2_toJacobianBE_r g2_toAffineBE_r g2_fromJacobianLE_r g2_fromAffineLE_r g2_toJacobianLE_r g2_toAffineLE_r g1_clearCofactor_r g1_glv_r g1_inCorrectSubgroup_r g2_psi_r g2_inCorrectSubgroup_r g2_frobeniusMap_r g2_clearCofactor_r g1_toCompressed_r g2_toCompressed_r isogenyMap_r g1_mapToCurve_r g2_mapToCurve_r dbl_t0_r dbl_t3_r dbl_t6_r easy_part_r exp_x_r hard_part_r final_exponentiation_r : rel.
