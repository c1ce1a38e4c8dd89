(** The curve over Fp12, the untwisting map from E'(Fp2), and exponentiation by a multiple of (p^12-1)/r. *)
From Coq Require Import ZArith Znumtheory Bool Lia Ring Field Eqdep_dec.
From Verif Require Import RingPow SpecField FieldProof TowerProof TowerProof2 ModelFp FpProof TowerRefine TowerRefine2 TowerRefine3 SpecCurve AbGroup CurveProof CurveMaps CurveInst
  SubgroupProof CodecProof2 PairCocycle PairLine.
Local Open Scope Z_scope.
Add Field F_fieldPF : F_field.
Add Field F2_fieldPF : F2_field.
Add Field F6_fieldPF : F6_field.
Add Field F12_fieldPF : F12_field.

Definition KF12 : fieldOps := mkField Fp12 F12_0 F12_1 F12add F12sub F12mul F12opp F12inv F12_eq_dec.
Lemma KF12_field : field_theory (k0 : car KF12) k1 kadd kmul ksub kopp (fun x y => kmul x (kinv y)) kinv eq. Proof. exact F12_field. Qed.
Definition i2 (x : Fp2) : Fp12 := F12of (F6of x).
Definition i1 (x : Fp) : Fp12 := i2 (F2of x).
Ltac f12r := apply F12_eq; f12_unf; apply F6_eq; f6_unf; ring.
Lemma hom_i2 : fieldHom KFp2 KF12 i2.
Proof. constructor; intros; cbn [KF12 KFp2 car k1 kadd kmul]; unfold i2; [reflexivity|f12r|f12r]. Qed.
Lemma hom_F2of : fieldHom KFp KFp2 F2of.
Proof. constructor; intros; cbn [KFp KFp2 car k1 kadd kmul]; [reflexivity|apply F2of_add|apply F2of_mul]. Qed.
Lemma hom_i1 : fieldHom KFp KF12 i1.
Proof.
  constructor; intros; cbn [KF12 KFp car k1 kadd kmul]; unfold i1; [reflexivity| |]; rewrite ?F2of_add, ?F2of_mul; [apply (h_add _ _ _ hom_i2)|apply (h_mul _ _ _ hom_i2)].
Qed.
Lemma i2_inj x y : i2 x = i2 y -> x = y. Proof. intros H. exact (f_equal (fun a => co0 (lo a)) H). Qed.
Lemma i1_inj x y : i1 x = i1 y -> x = y. Proof. intros H. apply i2_inj in H. exact (F2of_inj _ _ H). Qed.
Lemma KF12_two : kadd (k1 : car KF12) k1 <> k0.
Proof. intros H. apply KFp2_two. exact (f_equal (fun a => co0 (lo a)) H). Qed.
Lemma KF12_three : kadd (kadd (k1 : car KF12) k1) k1 <> k0.
Proof. intros H. apply KFp2_three. exact (f_equal (fun a => co0 (lo a)) H). Qed.
Definition b12 : car KF12 := i1 b1.
Lemma b12_nz : b12 <> k0. Proof. intros H. apply b1_nz. apply i1_inj. exact H. Qed.

(** * the untwisting map: x / w^2, y / w^3 *)
Definition hf : Fp := Fof 0xd0088f51cbff34d258dd3db21a5d66bb23ba5c279c2895fb39869507b587b120f55ffff58a9ffffdcff7fffffffd556.
Lemma hf_2 : Fmul hf (Fadd F1 F1) = F1. Proof. apply fval_inj. vm_compute. reflexivity. Qed.
#[global] Opaque hf.
Definition ix : Fp2 := mkFp2 hf (Fopp hf).
Lemma ix_xi : F2mul ix xi = F2_1.
Proof. apply F2_eq; unfold ix; f2_unf; [|ring]. transitivity (Fmul hf (Fadd F1 F1)); [ring|exact hf_2]. Qed.
Definition tw2 : Fp12 := mkFp12 (mkFp6 F2_0 F2_0 ix) F6_0.
Definition tw3 : Fp12 := mkFp12 F6_0 (mkFp6 F2_0 ix F2_0).
Definition w2 : Fp12 := F12of F6v.
Definition w3 : Fp12 := mkFp12 F6_0 F6v.
Lemma tw2_w2 : F12mul tw2 w2 = F12_1.
Proof. unfold tw2, w2. generalize ix_xi. generalize ix. intros j E. apply F12_eq; f12_unf; apply F6_eq; f6_unf; try ring. transitivity (F2mul j xi); [ring|exact E]. Qed.
Lemma tw3_w3 : F12mul tw3 w3 = F12_1.
Proof. unfold tw3, w3. generalize ix_xi. generalize ix. intros j E. apply F12_eq; f12_unf; apply F6_eq; f6_unf; try ring. transitivity (F2mul j xi); [ring|exact E]. Qed.
Lemma tw_w : F12mul tw2 w3 = F12w.
Proof. unfold tw2, w3. generalize ix_xi. generalize ix. intros j E. apply F12_eq; f12_unf; apply F6_eq; f6_unf; try ring. transitivity (F2mul j xi); [ring|exact E]. Qed.
Lemma tw_ac : F12mul tw3 tw3 = F12mul tw2 (F12mul tw2 tw2).
Proof.
  unfold tw2, tw3. generalize ix_xi. generalize ix. intros j E. apply F12_eq; f12_unf; apply F6_eq; f6_unf; try ring.
  transitivity (F2mul (F2mul xi (F2mul j j)) F2_1); [ring|]. transitivity (F2mul (F2mul xi (F2mul j j)) (F2mul j xi)); [now rewrite E|ring].
Qed.
Lemma tw_sq : F12mul tw3 tw3 = i2 ix.
Proof.
  unfold tw3, i2. generalize ix_xi. generalize ix. intros j E. apply F12_eq; f12_unf; apply F6_eq; f6_unf; try ring.
  transitivity (F2mul j (F2mul j xi)); [ring|]. rewrite E. ring.
Qed.
Lemma F12_1_nz : F12_1 <> F12_0. Proof. exact F12_1_neq_0. Qed.
Lemma tw2_nz : tw2 <> F12_0. Proof. intros H. apply F12_1_nz. rewrite <- tw2_w2, H. ring. Qed.
Lemma w3_nz : w3 <> F12_0. Proof. intros H. apply F12_1_nz. rewrite <- tw3_w3, H. ring. Qed.
Lemma tw_b : @eq Fp12 b12 (F12mul (F12mul tw3 tw3) (i2 b2)).
Proof.
  rewrite tw_sq. transitivity (i2 (F2mul ix b2)); [|exact (h_mul _ _ _ hom_i2 ix b2)]. unfold b12, i1. f_equal.
  assert (E : @eq Fp2 b2 (F2mul xi (F2of b1))) by (apply F2_eq; unfold b2, F2b, b1; f2_unf; ring). rewrite E.
  transitivity (F2mul (F2mul ix xi) (F2of b1)); [rewrite ix_xi; ring|ring].
Qed.
Lemma tw2_inv : F12inv tw2 = w2.
Proof. transitivity (F12mul (F12inv tw2) (F12mul tw2 w2)); [rewrite tw2_w2; ring|]. field. exact tw2_nz. Qed.
Definition tp : point KFp2 -> point KF12 := pmap KFp2 KF12 i2 tw2 tw3.
Definition tt (A : E2) : point KF12 := tp (cpt (b := b2) A).
Lemma tt_on A : onP KF12 b12 (tt A).
Proof. unfold tt, tp. apply (pmap_on KFp2 KF12 i2 KF12_field hom_i2 tw2 tw3 tw_ac b2 b12); [exact tw_b|]. apply (curve_on KFp2 KFp2_field b2). Qed.
Lemma tt_op A B : tt (gop A B) = padd (tt A) (tt B).
Proof. unfold tt, tp. apply (pmap_padd KFp2 KF12 i2 KFp2_field KF12_field hom_i2 tw2 tw3 tw_ac tw2_nz KFp2_two b2); apply (curve_on KFp2 KFp2_field b2). Qed.
Lemma tt_inj A : tt A = Inf -> A = gid.
Proof. intros H. apply (curve_eq KFp2 b2). unfold tt, tp in H. destruct (cpt (b := b2) A); [reflexivity|discriminate H]. Qed.
