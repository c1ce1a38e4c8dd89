(** final_exponentiation raises to the power 3 (p^12-1)/r. *)
From Coq Require Import ZArith Znumtheory List Bool Lia Ring Field.
From Verif Require Import RingPow SpecField FieldProof TowerProof TowerProof2 ModelPrim ModelWord ModelFp ModelTower ModelCurve FpProof ScalarProof TowerRefine TowerRefine2 TowerRefine3
  AbGroup SubgroupProof PairCocycle PairUnits ModelPairing.
Import ListNotations.
Local Open Scope Z_scope.
Add Field F12_fieldPFi : F12_field.

Definition eff : Z := 0xd201000000010000.
Lemma eff_words : words g2_cofactorEFF. Proof. repeat constructor; vm_compute; intuition discriminate. Qed.
Lemma eff_val : val g2_cofactorEFF = eff. Proof. reflexivity. Qed.
Lemma eff_Xz : eff = - Xz. Proof. reflexivity. Qed.
Lemma eff_pos : 0 <= eff. Proof. discriminate. Qed.
Lemma eff_gt0 : 0 < eff. Proof. reflexivity. Qed.
#[global] Opaque eff.

(** * integer powers of a unit of the cyclotomic subgroup *)
Section Cyc.
Variable g : U12.
Hypothesis G : zmul (modulus ^ 4 - modulus ^ 2 + 1) g = gid.
Definition cr (x : fp12) (n : Z) : Prop := rep12 x (uval (zmul n g)).
Lemma cyc_n n : cyclotomic (uval (zmul n g)).
Proof.
  unfold cyclotomic. rewrite <- uval_zmul by exact phi12_pos. rewrite <- zmul_mul, Z.mul_comm, zmul_mul, G, zmul_id. reflexivity.
Qed.
Lemma cr_mul x y n m : cr x n -> cr y m -> cr (fp12_mul x y) (n + m).
Proof. intros [C E] [D F]. split; [apply canon12_mul; assumption|]. rewrite dec12_mul, E, F, zmul_add, uval_op by assumption. reflexivity. Qed.
Lemma cr_sqr x n : cr x n -> cr (fp12_cycSqr x) (2 * n).
Proof.
  intros [C E]. destruct (cycSqr_ok x C) as [C' E']. split; [exact C'|]. rewrite E', E, cyc_sq by apply cyc_n.
  rewrite <- uval_op, <- zmul_add. replace (n + n) with (2 * n) by lia. reflexivity.
Qed.
Lemma cr_conj x n : cr x n -> cr (fp12_conj x) (- n).
Proof.
  intros [C E]. split; [apply canon12_conj; assumption|]. rewrite dec12_conj, E, zmul_opp, uval_inv by assumption.
  pose proof (cyc_conj _ (cyc_n n)) as H. pose proof (uval_nz (zmul n g)) as N. revert H N. generalize (uval (zmul n g)). intros a H N.
  transitivity (F12mul (F12inv a) (F12mul a (F12conj a))); [field; exact N|]. rewrite H. ring.
Qed.
Lemma cr_expx x n : cr x n -> cr (exp_x x) (Xz * n).
Proof.
  intros [C E]. unfold exp_x. replace (Xz * n) with (- (eff * n)) by (rewrite eff_Xz; ring). apply cr_conj.
  destruct (fp12_cycExp_ok x g2_cofactorEFF C) as [C' E']; [rewrite E; apply cyc_n|exact eff_words|].
  split; [exact C'|]. rewrite E', E, eff_val, zmul_mul. symmetry. apply uval_zmul. exact eff_pos.
Qed.
Lemma cr_frob x n k : cr x n -> 0 <= k < 12 -> cr (fp12_frobAssign x k) (modulus ^ k * n).
Proof.
  intros [C E] K. destruct (fp12_frobAssign_ok x k C K) as (y & Y & C' & E'). unfold fp12_frobAssign. rewrite Y.
  split; [exact C'|]. rewrite E', E, zmul_mul. symmetry. apply uval_zmul, Z.pow_nonneg. exact mod_pos'.
Qed.
Lemma cr_eq x n m : cr x n -> n = m -> cr x m. Proof. intros H <-. exact H. Qed.
Lemma hard_ok t2 : cr t2 1 -> cr (hard_part t2) h3.
Proof.
  intros H2. unfold hard_part. cbv zeta.
  pose proof (cr_conj _ _ (cr_sqr _ _ H2)) as T1. revert T1. generalize (fp12_conj (fp12_cycSqr t2)). intros t1 T1.
  pose proof (cr_expx _ _ H2) as T3. revert T3. generalize (exp_x t2). intros t3 T3.
  pose proof (cr_sqr _ _ T3) as T4. revert T4. generalize (fp12_cycSqr t3). intros t4 T4.
  pose proof (cr_mul _ _ _ _ T1 T3) as T5. revert T5. generalize (fp12_mul t1 t3). intros t5 T5. clear T1 t1.
  pose proof (cr_expx _ _ T5) as T1. revert T1. generalize (exp_x t5). intros t1 T1.
  pose proof (cr_expx _ _ T1) as T0. revert T0. generalize (exp_x t1). intros t0 T0.
  pose proof (cr_mul _ _ _ _ (cr_expx _ _ T0) T4) as T6. revert T6. generalize (fp12_mul (exp_x t0) t4). intros t6 T6. clear T4 t4.
  pose proof (cr_mul _ _ _ _ (cr_mul _ _ _ _ (cr_expx _ _ T6) (cr_conj _ _ T5)) H2) as T4.
  revert T4. generalize (fp12_mul (fp12_mul (exp_x t6) (fp12_conj t5)) t2). intros t4 T4. clear T5 t5.
  pose proof (cr_frob _ _ 3 (cr_mul _ _ _ _ T1 H2) ltac:(lia)) as S1. revert S1. generalize (fp12_frobAssign (fp12_mul t1 t2) 3). intros s1 S1. clear T1 t1.
  pose proof (cr_frob _ _ 1 (cr_mul _ _ _ _ T6 (cr_conj _ _ H2)) ltac:(lia)) as S6. revert S6. generalize (fp12_frobAssign (fp12_mul t6 (fp12_conj t2)) 1). intros s6 S6. clear T6 t6.
  pose proof (cr_frob _ _ 2 (cr_mul _ _ _ _ T3 T0) ltac:(lia)) as S3. revert S3. generalize (fp12_frobAssign (fp12_mul t3 t0) 2). intros s3 S3. clear T3 T0 t3 t0.
  pose proof (cr_mul _ _ _ _ (cr_mul _ _ _ _ (cr_mul _ _ _ _ S3 S1) S6) T4) as R.
  apply (cr_eq _ _ _ R). clear. rewrite h3_def. generalize modulus Xz. intros p z. unfold H3. ring.
Qed.
End Cyc.
Lemma easy_ok f a : a <> F12_0 -> rep12 f a -> cr (toU a) (easy_part f) easyE.
Proof.
  intros N [C D]. unfold easy_part. cbv zeta.
  assert (T0 : cr (toU a) (fp12_frob f 6) (modulus ^ 6)).
  { destruct (fp12_frob_ok f 6 C ltac:(lia) ltac:(discriminate)) as (y & Y & C' & E'). unfold fp12_frob. rewrite Y.
    split; [exact C'|]. rewrite E', D. rewrite uval_zmul, uval_toU; [reflexivity|exact N|exact TowerRefine3.p6_pos]. }
  assert (T1 : cr (toU a) (fp12_inv f) (-1)).
  { split; [apply canon12_inv; exact C|]. rewrite dec12_inv, D by exact C.
    change (-1) with (- (1)). rewrite zmul_opp, zmul_1, uval_inv, uval_toU by exact N. reflexivity. }
  pose proof (cr_mul _ _ _ _ _ T0 T1) as T2. revert T2. generalize (fp12_mul (fp12_frob f 6) (fp12_inv f)). intros t2 T2.
  pose proof (cr_mul _ _ _ _ _ (cr_frob _ _ _ 2 T2 ltac:(lia)) T2) as R.
  apply (cr_eq _ _ _ _ R). unfold easyE. generalize modulus. intros p. ring.
Qed.
Lemma cr_base g x n : cr g x n -> cr (zmul n g) x 1.
Proof. unfold cr. rewrite zmul_1. exact (fun H => H). Qed.
Lemma easy_cyc u : zmul (modulus ^ 4 - modulus ^ 2 + 1) (zmul easyE u) = gid :> U12.
Proof. rewrite <- zmul_mul. transitivity (zmul (modulus ^ 12 - 1) u); [apply (f_equal (fun k => zmul k u))|apply toU_p12]. unfold easyE. generalize modulus. intros p. ring. Qed.
Lemma final_ok f a : a <> F12_0 -> rep12 f a -> rep12 (final_exponentiation f) (uval (ev a)).
Proof.
  intros N R. pose proof (hard_ok _ (easy_cyc (toU a)) _ (cr_base _ _ _ (easy_ok f a N R))) as H. destruct H as [C E].
  split; [exact C|]. unfold final_exponentiation. rewrite E. apply (f_equal uval). rewrite <- zmul_mul, ev_def, fexp_def.
  rewrite (Z.mul_comm h3). reflexivity.
Qed.
(** zero *)
Lemma pow_zero12 n : 0 < n -> F12pow F12_0 n = F12_0.
Proof. intros H. replace n with (n - 1 + 1) by lia. rewrite (rpow_succ F12_ring) by lia. ring. Qed.
Lemma cycsq_zero : F12cycsq F12_0 = F12_0.
Proof. apply F12_eq; apply F6_eq; cbn [F12cycsq lo hi co0 co1 co2 F12_0 F6_0]; unfold F4sq0, F4sq1; ring. Qed.
Lemma cycsq_one : F12cycsq F12_1 = F12_1.
Proof. apply F12_eq; apply F6_eq; cbn [F12cycsq lo hi co0 co1 co2 F12_1 F6_1 F6_0]; unfold F4sq0, F4sq1; ring. Qed.
Lemma zero_cycExp x s : rep12 x F12_0 -> words s -> 0 < val s -> rep12 (fp12_cycExp x s) F12_0.
Proof.
  intros [C D] Hs V.
  assert (H : canon12 (fp12_cycExp x s) /\ dec12 (fp12_cycExp x s) = F12pow (dec12 x) (val s)).
  { unfold fp12_cycExp. apply (gexp_ring F12_ring canon12 dec12); auto using canon12_one, dec12_one.
    - auto using canon12_mul, dec12_mul.
    - intros z e He Cz Ez. destruct (cycSqr_ok z Cz) as [C' E']. split; [exact C'|]. rewrite E', Ez, D.
      destruct (Z.eq_dec e 0) as [->|Ne].
      + change (rpow F12_1 F12mul F12_0 0) with F12_1. rewrite cycsq_one. ring.
      + change (F12cycsq (F12pow F12_0 e) = F12mul (F12pow F12_0 e) (F12pow F12_0 e)). rewrite pow_zero12 by lia. rewrite cycsq_zero. ring. }
  destruct H as [C' E']. split; [exact C'|]. rewrite E', D. apply pow_zero12, V.
Qed.
Definition z12 (x : fp12) : Prop := rep12 x F12_0.
Lemma z_mul x y : z12 x -> canon12 y -> z12 (fp12_mul x y).
Proof. intros [C D] Y. split; [apply canon12_mul; auto|]. rewrite dec12_mul, D by auto. ring. Qed.
Lemma z_conj x : z12 x -> z12 (fp12_conj x).
Proof. intros [C D]. split; [apply canon12_conj; auto|]. rewrite dec12_conj, D by auto. apply F12_eq; apply F6_eq; cbn; ring. Qed.
Lemma z_sqr x : z12 x -> z12 (fp12_cycSqr x).
Proof. intros [C D]. destruct (cycSqr_ok x C) as [C' E]. split; [exact C'|]. rewrite E, D. exact cycsq_zero. Qed.
Lemma z_expx x : z12 x -> z12 (exp_x x).
Proof. intros Z. refine (z_conj _ _). refine (zero_cycExp x g2_cofactorEFF _ _ _); [exact Z|exact eff_words|rewrite eff_val; exact eff_gt0]. Qed.
Lemma mod_gt0 : 0 < modulus. Proof. reflexivity. Qed.
Lemma z_frob x k : z12 x -> 0 <= k < 12 -> z12 (fp12_frobAssign x k).
Proof.
  intros [C D] K. destruct (fp12_frobAssign_ok x k C K) as (y & Y & C' & E'). unfold fp12_frobAssign. rewrite Y.
  split; [exact C'|]. rewrite E', D. apply pow_zero12. apply Z.pow_pos_nonneg; [exact mod_gt0|lia].
Qed.
Lemma z_can x : z12 x -> canon12 x. Proof. intros [C _]. exact C. Qed.
Lemma hard_zero t2 : z12 t2 -> z12 (hard_part t2).
Proof.
  intros H2. unfold hard_part. cbv zeta.
  pose proof (z_conj _ (z_sqr _ H2)) as T1. revert T1. generalize (fp12_conj (fp12_cycSqr t2)). intros t1 T1.
  pose proof (z_expx _ H2) as T3. revert T3. generalize (exp_x t2). intros t3 T3.
  pose proof (z_sqr _ T3) as T4. revert T4. generalize (fp12_cycSqr t3). intros t4 T4.
  repeat match goal with
  | |- z12 (fp12_mul ?a ?b) => refine (z_mul a b _ _)
  | |- z12 (fp12_frobAssign ?a ?k) => refine (z_frob a k _ _); [|lia]
  | |- z12 (fp12_conj ?a) => refine (z_conj a _)
  | |- z12 (exp_x ?a) => refine (z_expx a _)
  | |- z12 (fp12_cycSqr ?a) => refine (z_sqr a _)
  | |- canon12 ?a => refine (z_can a _)
  | |- _ => assumption
  end.
Qed.
Lemma easy_zero f : z12 f -> z12 (easy_part f).
Proof.
  intros [C D]. unfold easy_part. cbv zeta.
  assert (T0 : z12 (fp12_frob f 6)).
  { destruct (fp12_frob_ok f 6 C ltac:(lia) ltac:(discriminate)) as (y & Y & C' & E'). unfold fp12_frob. rewrite Y.
    split; [exact C'|]. rewrite E', D. apply pow_zero12. vm_compute. reflexivity. }
  pose proof (z_mul _ _ T0 (canon12_inv _ C)) as T2. revert T2. generalize (fp12_mul (fp12_frob f 6) (fp12_inv f)). intros t2 T2.
  apply z_mul; [apply z_frob; [exact T2|lia]|apply z_can; exact T2].
Qed.
Lemma final_zero f : rep12 f F12_0 -> rep12 (final_exponentiation f) F12_0.
Proof. intros R. exact (hard_zero _ (easy_zero _ R)). Qed.
Lemma final_pow f a : rep12 f a -> rep12 (final_exponentiation f) (F12pow a fexp).
Proof.
  intros R. destruct (F12_eq_dec a F12_0) as [->|N].
  - rewrite pow_zero12 by exact fexp_pos. apply final_zero, R.
  - rewrite <- (uval_toU a N) at 1. rewrite <- uval_zmul by exact (Z.lt_le_incl _ _ fexp_pos). rewrite <- ev_def. apply final_ok; assumption.
Qed.
Lemma fexp_eq : fexp = 3 * (modulus ^ 12 - 1) / order.
Proof. apply Z.div_unique_exact; [discriminate|]. rewrite <- fexp_r. apply Z.mul_comm. Qed.
(** conjugation inverts after the final exponentiation *)
Lemma ev_cj a : a <> F12_0 -> ev (F12conj a) = ginv (ev a).
Proof.
  intros N. rewrite <- F12_p6. rewrite !ev_def, toU_pow; [|exact TowerRefine3.p6_pos|exact N].
  apply g_inv_unique. rewrite <- !zmul_mul, <- zmul_add. destruct fexp_2p6 as [k K]. rewrite K.
  apply zmul_divide with (modulus ^ 12 - 1); [|apply toU_p12]. exists (2 * k). generalize modulus. intros p. ring.
Qed.
