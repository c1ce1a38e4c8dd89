(** The group-level statements about the code, in short form. *)
From Coq Require Import ZArith List Bool.
From Verif Require Import SpecField FieldProof TowerProof ModelWord ModelPrim ModelScalar ScalarProof ModelFp ModelTower FpProof FpProof2 TowerRefine.
From Verif Require Import SpecCurve AbGroup CurveProof ModelCurve CurveRefine CurveRefine2 CurveInst.
Local Open Scope Z_scope.

Lemma rep1g_zero : rep1g g1_zero gid. Proof. exact (erep_zero fp_ops KFp canon dec fp_represents KFp_field KFp_two KFp_three b1 b1_nz). Qed.
Lemma rep1g_add p q (P Q : E1) : rep1g p P -> rep1g q Q -> rep1g (g1_add p q) (gop P Q). Proof. exact (erep_add fp_ops KFp canon dec fp_represents KFp_field KFp_two KFp_three b1 b1_nz p q P Q). Qed.
Lemma rep1g_dbl p (P : E1) : rep1g p P -> rep1g (g1_dbl p) (gop P P). Proof. exact (erep_dbl fp_ops KFp canon dec fp_represents KFp_field KFp_two KFp_three b1 b1_nz p P). Qed.
Lemma rep1g_neg p (P : E1) : rep1g p P -> rep1g (g1_neg p) (ginv P). Proof. exact (erep_neg fp_ops KFp canon dec fp_represents KFp_field KFp_two KFp_three b1 b1_nz p P). Qed.
Lemma rep1g_sub p q (P Q : E1) : rep1g p P -> rep1g q Q -> rep1g (g1_sub p q) (gop P (ginv Q)). Proof. exact (erep_sub fp_ops KFp canon dec fp_represents KFp_field KFp_two KFp_three b1 b1_nz p q P Q). Qed.
Lemma rep1g_scale p (P : E1) s : rep1g p P -> words s -> rep1g (g1_scale p s) (zmul (val s) P). Proof. exact (erep_scale fp_ops KFp canon dec fp_represents KFp_field KFp_two KFp_three b1 b1_nz p P s). Qed.
Lemma rep1g_isZero p (P : E1) : rep1g p P -> g1_isZero p = true <-> P = gid. Proof. exact (erep_isZero fp_ops KFp canon dec fp_represents KFp_field KFp_two KFp_three b1 b1_nz p P). Qed.
Lemma rep1g_equal p q (P Q : E1) : rep1g p P -> rep1g q Q -> g1_equal p q = true <-> P = Q. Proof. exact (erep_equal fp_ops KFp canon dec fp_represents KFp_field KFp_two KFp_three b1 b1_nz p q P Q). Qed.
Lemma rep1g_affine p (P : E1) : rep1g p P -> rep1g (g1_affine p) P. Proof. exact (jrep_affine fp_ops KFp canon dec fp_represents KFp_field p (cpt (b := b1) P)). Qed.
Lemma rep1g_fun p (P Q : E1) : rep1g p P -> rep1g p Q -> P = Q. Proof. exact (erep_fun KFp canon dec KFp_field KFp_two KFp_three b1 b1_nz p P Q). Qed.
Lemma rep1g_ex p : canon (jx p) -> canon (jy p) -> canon (jz p) -> g1_isOnCurve p = true -> exists P : E1, rep1g p P.
Proof. intros H1 H2 H3. exact (erep_ex fp_ops KFp canon dec fp_represents KFp_field KFp_two KFp_three b1 b1_nz B p B_R (conj H1 (conj H2 H3))). Qed.
Lemma rep1g_onCurve p (P : E1) : rep1g p P -> g1_isOnCurve p = true.
Proof. intros H. exact (proj2 (j_isOnCurve_rep fp_ops KFp canon dec fp_represents KFp_field b1 B p _ B_R H) (cpt_on (b := b1) P)). Qed.

Lemma rep2g_zero : rep2g g2_zero gid. Proof. exact (erep_zero fp2_ops KFp2 canon2 dec2 fp2_represents KFp2_field KFp2_two KFp2_three b2 b2_nz). Qed.
Lemma rep2g_add p q (P Q : E2) : rep2g p P -> rep2g q Q -> rep2g (g2_add p q) (gop P Q). Proof. exact (erep_add fp2_ops KFp2 canon2 dec2 fp2_represents KFp2_field KFp2_two KFp2_three b2 b2_nz p q P Q). Qed.
Lemma rep2g_dbl p (P : E2) : rep2g p P -> rep2g (g2_dbl p) (gop P P). Proof. exact (erep_dbl fp2_ops KFp2 canon2 dec2 fp2_represents KFp2_field KFp2_two KFp2_three b2 b2_nz p P). Qed.
Lemma rep2g_neg p (P : E2) : rep2g p P -> rep2g (g2_neg p) (ginv P). Proof. exact (erep_neg fp2_ops KFp2 canon2 dec2 fp2_represents KFp2_field KFp2_two KFp2_three b2 b2_nz p P). Qed.
Lemma rep2g_sub p q (P Q : E2) : rep2g p P -> rep2g q Q -> rep2g (g2_sub p q) (gop P (ginv Q)). Proof. exact (erep_sub fp2_ops KFp2 canon2 dec2 fp2_represents KFp2_field KFp2_two KFp2_three b2 b2_nz p q P Q). Qed.
Lemma rep2g_scale p (P : E2) s : rep2g p P -> words s -> rep2g (g2_scale p s) (zmul (val s) P). Proof. exact (erep_scale fp2_ops KFp2 canon2 dec2 fp2_represents KFp2_field KFp2_two KFp2_three b2 b2_nz p P s). Qed.
Lemma rep2g_isZero p (P : E2) : rep2g p P -> g2_isZero p = true <-> P = gid. Proof. exact (erep_isZero fp2_ops KFp2 canon2 dec2 fp2_represents KFp2_field KFp2_two KFp2_three b2 b2_nz p P). Qed.
Lemma rep2g_equal p q (P Q : E2) : rep2g p P -> rep2g q Q -> g2_equal p q = true <-> P = Q. Proof. exact (erep_equal fp2_ops KFp2 canon2 dec2 fp2_represents KFp2_field KFp2_two KFp2_three b2 b2_nz p q P Q). Qed.
Lemma rep2g_affine p (P : E2) : rep2g p P -> rep2g (g2_affine p) P. Proof. exact (jrep_affine fp2_ops KFp2 canon2 dec2 fp2_represents KFp2_field p (cpt (b := b2) P)). Qed.
Lemma rep2g_fun p (P Q : E2) : rep2g p P -> rep2g p Q -> P = Q. Proof. exact (erep_fun KFp2 canon2 dec2 KFp2_field KFp2_two KFp2_three b2 b2_nz p P Q). Qed.
Lemma rep2g_ex p : canon2 (jx p) -> canon2 (jy p) -> canon2 (jz p) -> g2_isOnCurve p = true -> exists P : E2, rep2g p P.
Proof. intros H1 H2 H3. exact (erep_ex fp2_ops KFp2 canon2 dec2 fp2_represents KFp2_field KFp2_two KFp2_three b2 b2_nz fp2_B p fp2_B_R (conj H1 (conj H2 H3))). Qed.
Lemma rep2g_onCurve p (P : E2) : rep2g p P -> g2_isOnCurve p = true.
Proof. intros H. exact (proj2 (j_isOnCurve_rep fp2_ops KFp2 canon2 dec2 fp2_represents KFp2_field b2 fp2_B p _ fp2_B_R H) (cpt_on (b := b2) P)). Qed.
