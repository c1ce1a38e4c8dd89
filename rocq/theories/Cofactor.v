(** Subgroup tests and cofactor clearing of the code, in terms of the groups. *)
From Coq Require Import ZArith List Bool Lia Znumtheory.
From Verif Require Import SpecField FieldProof TowerProof ModelWord ModelPrim ModelScalar ScalarProof ModelFp ModelTower FpProof TowerRefine.
From Verif Require Import SpecCurve AbGroup CurveProof ModelCurve CurveInst CurveBase CurveReps Endo SubgroupProof GenProof GroupCount Orders.
Import ListNotations.
Local Open Scope Z_scope.

Lemma sub1_iff (P : E1) : zmul order P = gid <-> sig P = zmul Lam P.
Proof. split; [apply sub1_complete|]. intros H. apply sub1_r, sub1_eigen, H. Qed.
Lemma g1_inCorrectSubgroup_ok p P : rep1g p P -> (g1_inCorrectSubgroup p = true <-> zmul order P = gid).
Proof. intros H. rewrite (g1_test_rep p P H), sub1_eigen, sub1_iff. reflexivity. Qed.
Lemma g2_inCorrectSubgroup_ok p P : rep2g p P -> (g2_inCorrectSubgroup p = true <-> zmul order P = gid).
Proof. intros H. rewrite (g2_test_rep p P H), sub2_eigen, sub2_iff. reflexivity. Qed.
Lemma sub1_cyclic (P : E1) : zmul order P = gid -> exists k, P = zmul k G1gen.
Proof.
  intros H. destruct (E1_cofactor P) as [k Hk].
  assert (G : rel_prime n1 order) by (apply Zgcd_1_rel_prime; vm_compute; reflexivity).
  destruct (rel_prime_bezout _ _ G) as [u v B]. exists (u * k).
  rewrite zmul_mul, <- Hk, <- zmul_mul. replace (u * n1) with (1 + (- v) * order) by (rewrite <- B; ring).
  rewrite zmul_add, zmul_mul, H, zmul_id, g_id_r, zmul_1. reflexivity.
Qed.
Lemma g1_clearCofactor_ok p P : rep1g p P -> rep1g (g1_clearCofactor p) (zmul (1 - Xz) P).
Proof. intros H. exact (rep1g_scale p P g1_cofactorEFF H ltac:(wrd)). Qed.
Lemma frobeniusMap_S n p : g2_frobeniusMap (S n) p = g2_frobeniusMap n (g2_psi p).
Proof. reflexivity. Qed.
Lemma g2_clearCofactor_ok p P : rep2g p P -> rep2g (g2_clearCofactor p) (pact psi [Xz * Xz - Xz - 1; Xz - 1; 2] P).
Proof.
  intros H. unfold g2_clearCofactor. cbv zeta. rewrite !frobeniusMap_S. cbn [g2_frobeniusMap].
  pose proof (rep2g_neg _ _ (rep2g_scale _ _ g2_cofactorEFF H ltac:(wrd))) as H0.
  pose proof (rep2g_neg _ _ (rep2g_scale _ _ g2_cofactorEFF H0 ltac:(wrd))) as H1.
  pose proof (rep2g_sub _ _ _ _ (rep2g_sub _ _ _ _ H1 H0) H) as H2.
  pose proof (psi_rep _ _ (rep2g_sub _ _ _ _ H0 H)) as H3.
  pose proof (psi_rep _ _ (psi_rep _ _ (rep2g_dbl _ _ H))) as H4.
  pose proof (rep2g_add _ _ _ _ (rep2g_add _ _ _ _ H2 H3) H4) as H5. clear H0 H1 H2 H3 H4.
  assert (E : ginv (zmul (val g2_cofactorEFF) P) = zmul Xz P) by (rewrite <- zmul_opp; reflexivity). rewrite E in H5.
  assert (E2 : ginv (zmul (val g2_cofactorEFF) (zmul Xz P)) = zmul (Xz * Xz) P) by (rewrite <- zmul_opp, <- zmul_mul; reflexivity). rewrite E2 in H5.
  assert (X : gop (gop (gop (gop (zmul (Xz * Xz) P) (ginv (zmul Xz P))) (ginv P)) (psi (gop (zmul Xz P) (ginv P)))) (psi (psi (gop P P))) = pact psi [Xz * Xz - Xz - 1; Xz - 1; 2] P).
  { cbn [pact]. rewrite (s_0 psi psi_op), g_id_r, !zmul_sub, zmul_1, zmul_2, !psi_op. rewrite !g_assoc. reflexivity. }
  rewrite <- X. exact H5.
Qed.
Lemma hcl_order (P : E2) : zmul order (pact psi [Xz * Xz - Xz - 1; Xz - 1; 2] P) = gid.
Proof. destruct (E2_cofactor P) as [k E]. unfold hcl in E. rewrite E, <- zmul_mul, Z.mul_comm, zmul_mul, G2gen_r. apply zmul_id. Qed.
Lemma n1_order (P : E1) : zmul order (zmul (1 - Xz) P) = gid.
Proof. destruct (E1_cofactor P) as [k E]. change (1 - Xz) with n1. rewrite E, <- zmul_mul, Z.mul_comm, zmul_mul, G1gen_r. apply zmul_id. Qed.
