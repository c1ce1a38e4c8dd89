(** Properties C30, C31, C52 (group orders), C55, C56: the order-r subgroups.
    rep1g p P / rep2g p P: the code value p denotes the element P of E(Fp) / E'(Fp2) (CurveInst.v);
    zmul n P is the n-fold sum, gid the identity (AbGroup.v); order is the 255-bit prime r. *)
From Coq Require Import ZArith List Bool Lia Znumtheory.
From Verif Require Import SpecField FieldProof TowerProof ModelWord ModelPrim ModelScalar ScalarProof ModelFp ModelTower FpProof TowerRefine.
From Verif Require Import SpecCurve AbGroup CurveProof ModelCurve CurveInst CurveBase CurveReps Endo SubgroupProof GenProof GroupCount Orders Cofactor.
Import ListNotations.
Local Open Scope Z_scope.

(** C30: the G1 test accepts exactly the points killed by r. *)
Theorem C30_inCorrectSubgroup : forall p P, rep1g p P -> (g1_inCorrectSubgroup p = true <-> zmul order P = gid).
Proof. exact g1_inCorrectSubgroup_ok. Qed.
(** ... which are exactly the multiples of g1::BASE. *)
Theorem C30_multiples : forall p P, rep1g p P -> (g1_inCorrectSubgroup p = true <-> exists k, 0 <= k < order /\ P = zmul k G1gen).
Proof.
  intros p P H. rewrite (g1_inCorrectSubgroup_ok p P H). split.
  - intros E. destruct (sub1_cyclic P E) as [k ->]. exists (k mod order). split; [apply Z.mod_pos_bound; reflexivity|]. rewrite zmul_mod; auto using G1gen_r. discriminate.
  - intros (k & _ & ->). rewrite <- zmul_mul, Z.mul_comm, zmul_mul, G1gen_r. apply zmul_id.
Qed.
Example C30_nontrivial : rep1g g1_BASE G1gen /\ g1_inCorrectSubgroup g1_BASE = true /\ exists P : E1, P <> gid /\ zmul order P <> gid.
Proof.
  split; [exact BASE1_rep|]. split; [apply (C30_inCorrectSubgroup _ _ BASE1_rep), G1gen_r|].
  destruct A3_ex as (P & H3 & HN). exists P. split; [exact HN|]. intros E. pose proof (zmul_gcd _ _ _ H3 E) as X. apply HN. rewrite <- (zmul_1 P). exact X.
Qed.

(** C31: the G2 test accepts exactly the points killed by r, which are the multiples of g2::BASE. *)
Theorem C31_inCorrectSubgroup : forall p P, rep2g p P -> (g2_inCorrectSubgroup p = true <-> zmul order P = gid).
Proof. exact g2_inCorrectSubgroup_ok. Qed.
Theorem C31_multiples : forall p P, rep2g p P -> (g2_inCorrectSubgroup p = true <-> exists k, 0 <= k < order /\ P = zmul k G2gen).
Proof.
  intros p P H. rewrite (g2_inCorrectSubgroup_ok p P H). split.
  - intros E. destruct (sub2_complete P E) as [k ->]. exists (k mod order). split; [apply Z.mod_pos_bound; reflexivity|]. rewrite zmul_mod; auto using G2gen_r. discriminate.
  - intros (k & _ & ->). rewrite <- zmul_mul, Z.mul_comm, zmul_mul, G2gen_r. apply zmul_id.
Qed.
Example C31_nontrivial : rep2g g2_BASE G2gen /\ g2_inCorrectSubgroup g2_BASE = true /\ exists P : E2, P <> gid /\ zmul order P <> gid.
Proof.
  split; [exact BASE2_rep|]. split; [apply (C31_inCorrectSubgroup _ _ BASE2_rep), G2gen_r|].
  destruct A2713_ex as (P & [H1 H2] & _). exists P. split.
  - intros ->. specialize (H2 1 (zmul_id 1)). apply Z.divide_1_r_nonneg in H2; lia.
  - intros E. apply H2 in E. apply Z.mod_divide in E; [vm_compute in E; discriminate E|discriminate].
Qed.

(** C52: the base points have prime order r; the curve groups are finite of the stated sizes:
    #E(Fp) = (z-1)^2/3 * r and #E'(Fp2) = h2 * r, z = -0xd201000000010000. *)
Theorem C52_base_order : (forall k, zmul k G1gen = gid <-> (order | k)) /\ (forall k, zmul k G2gen = gid <-> (order | k)).
Proof.
  split; intros k; split.
  - apply (zmul_prime order k G1gen order_prime G1gen_r G1gen_nz).
  - intros H. apply (zmul_divide order k G1gen H G1gen_r).
  - apply (zmul_prime order k G2gen order_prime G2gen_r G2gen_nz).
  - intros H. apply (zmul_divide order k G2gen H G2gen_r).
Qed.
Theorem C52_E1_order : exists L : list E1, NoDup L /\ (forall P, In P L) /\ Z.of_nat (length L) = (Xz - 1) * (Xz - 1) / 3 * order.
Proof. destruct E1_count as (L & H1 & H2 & H3). exists L. split; [exact H1|]. split; [exact H2|]. rewrite H3. vm_compute. reflexivity. Qed.
Theorem C52_E2_order : exists L : list E2, NoDup L /\ (forall P, In P L) /\
  Z.of_nat (length L) = (Xz ^ 8 - 4 * Xz ^ 7 + 5 * Xz ^ 6 - 4 * Xz ^ 4 + 6 * Xz ^ 3 - 4 * Xz ^ 2 - 4 * Xz + 13) / 9 * order.
Proof. destruct E2_count as (L & H1 & H2 & H3). exists L. split; [exact H1|]. split; [exact H2|]. rewrite H3. vm_compute. reflexivity. Qed.

(** C55: cofactor clearing is a group homomorphism into the subgroup, injective on the subgroup. *)
Theorem C55_clearCofactor_g1 : forall p P, rep1g p P -> rep1g (g1_clearCofactor p) (zmul (1 - Xz) P) /\ zmul order (zmul (1 - Xz) P) = gid.
Proof. intros p P H. split; [apply g1_clearCofactor_ok, H|apply n1_order]. Qed.
Theorem C55_clearCofactor_g1_test : forall p P, rep1g p P -> g1_inCorrectSubgroup (g1_clearCofactor p) = true.
Proof. intros p P H. apply (C30_inCorrectSubgroup _ _ (g1_clearCofactor_ok p P H)), n1_order. Qed.
Theorem C55_clearCofactor_g2_test : forall p P, rep2g p P -> exists Q, rep2g (g2_clearCofactor p) Q /\ zmul order Q = gid /\ g2_inCorrectSubgroup (g2_clearCofactor p) = true.
Proof.
  intros p P H. pose proof (g2_clearCofactor_ok p P H) as HQ. eexists. split; [exact HQ|]. split; [apply hcl_order|]. apply (C31_inCorrectSubgroup _ _ HQ), hcl_order.
Qed.
Theorem C55_clearCofactor_injective :
  (forall p P, rep1g p P -> zmul order P = gid -> g1_isZero (g1_clearCofactor p) = true -> P = gid) /\
  (forall p P, rep2g p P -> zmul order P = gid -> g2_isZero (g2_clearCofactor p) = true -> P = gid).
Proof.
  split; intros p P H Hr Hz.
  - apply (rep1g_isZero _ _ (g1_clearCofactor_ok p P H)) in Hz. destruct (g_dec E1 P gid) as [|N]; [assumption|exfalso].
    apply (zmul_prime order _ P order_prime Hr N) in Hz. apply Z.mod_divide in Hz; [vm_compute in Hz; discriminate Hz|discriminate].
  - apply (rep2g_isZero _ _ (g2_clearCofactor_ok p P H)) in Hz. rewrite (pact_eigen psi psi_op _ _ _ (proj1 (sub2_iff P) Hr)) in Hz.
    destruct (g_dec E2 P gid) as [|N]; [assumption|exfalso].
    apply (zmul_prime order _ P order_prime Hr N) in Hz. apply Z.mod_divide in Hz; [vm_compute in Hz; discriminate Hz|discriminate].
Qed.
Example C55_nontrivial : rep1g g1_BASE G1gen /\ rep2g g2_BASE G2gen /\ g1_inCorrectSubgroup (g1_clearCofactor g1_BASE) = true.
Proof. split; [exact BASE1_rep|]. split; [exact BASE2_rep|]. apply (C55_clearCofactor_g1_test _ _ BASE1_rep). Qed.

(** C56: the endomorphisms used by the code are group endomorphisms and act on the subgroups as multiplications:
    glv by z^2 - 1 and psi (= frobeniusMap(1)) by z; psi^4 - psi^2 + 1 = 0 and glv^2 + glv + 1 = 0 on the whole curves. *)
Theorem C56_glv : forall p P, rep1g p P -> rep1g (g1_glv p) (sig P) /\ (zmul order P = gid -> sig P = zmul (Xz ^ 2 - 1) P).
Proof. intros p P H. split; [apply glv_rep, H|]. apply sub1_complete. Qed.
Theorem C56_glv_hom : forall P Q : E1, sig (gop P Q) = gop (sig P) (sig Q) /\ gop P (gop (sig P) (sig (sig P))) = gid.
Proof.
  intros P Q. split; [apply sig_op|]. pose proof (sig_rel P) as R. cbn [pact] in R. rewrite !zmul_1, (s_0 sig sig_op), g_id_r, sig_op in R. exact R.
Qed.
Theorem C56_psi : forall p P, rep2g p P -> rep2g (g2_psi p) (psi P) /\ (zmul order P = gid -> psi P = zmul Xz P).
Proof. intros p P H. split; [apply psi_rep, H|]. apply sub2_iff. Qed.
Theorem C56_psi_hom : forall P Q : E2, psi (gop P Q) = gop (psi P) (psi Q) /\ gop (psi (psi (psi (psi P)))) P = psi (psi P).
Proof.
  intros P Q. split; [apply psi_op|]. pose proof (psi_rel P) as R. cbn [pact] in R. rewrite !zmul_1, !zmul_0, (s_0 psi psi_op), !g_id, g_id_r in R.
  change (-1) with (- (1)) in R. rewrite zmul_opp, zmul_1, !psi_op, !(s_inv psi psi_op) in R.
  apply g_sub0. rewrite g_assoc, g_comm, g_assoc. exact R.
Qed.
Theorem C56_frobeniusMap : forall n p P, rep2g p P -> rep2g (g2_frobeniusMap n p) (Nat.iter n psi P).
Proof.
  induction n as [|n IH]; intros p P H; [exact H|]. rewrite frobeniusMap_S.
  replace (Nat.iter (S n) psi P) with (Nat.iter n psi (psi P)); [apply IH, psi_rep, H|].
  clear. induction n as [|n IH]; [reflexivity|]. change (psi (Nat.iter n psi (psi P)) = psi (Nat.iter (S n) psi P)). rewrite IH. reflexivity.
Qed.
Example C56_nontrivial : rep1g (g1_glv g1_BASE) (zmul (Xz ^ 2 - 1) G1gen) /\ rep2g (g2_psi g2_BASE) (zmul Xz G2gen).
Proof.
  split; [rewrite <- (proj2 (C56_glv _ _ BASE1_rep) G1gen_r)|rewrite <- (proj2 (C56_psi _ _ BASE2_rep) G2gen_r)]; [apply (C56_glv _ _ BASE1_rep)|apply (C56_psi _ _ BASE2_rep)].
Qed.

Definition props_subgroup := (C30_inCorrectSubgroup, C30_multiples, C31_inCorrectSubgroup, C31_multiples, C52_base_order, C52_E1_order, C52_E2_order, C55_clearCofactor_g1, C55_clearCofactor_g1_test, C55_clearCofactor_g2_test, C55_clearCofactor_injective, C56_glv, C56_glv_hom, C56_psi, C56_psi_hom, C56_frobeniusMap).
Print Assumptions props_subgroup.
