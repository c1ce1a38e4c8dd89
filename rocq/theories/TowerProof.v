(** Fields, powers, quadratic residues and Frobenius in the tower. *)
From Coq Require Import ZArith Znumtheory Zpow_facts Bool Ring Field Lia.
From Verif Require Import RingPow NumTheory SpecField FieldProof.
Local Open Scope Z_scope.

Notation Fpow := (rpow F1 Fmul).
Notation F2pow := (rpow F2_1 F2mul).
Notation F6pow := (rpow F6_1 F6mul).
Notation F12pow := (rpow F12_1 F12mul).

Add Field Fp_field2 : F_field.
Add Ring Fp2_ring2 : F2_ring.
Add Ring Fp6_ring2 : F6_ring.
Add Ring Fp12_ring2 : F12_ring.

(** ** Fp *)
Lemma F_eq_dec (a b : Fp) : {a = b} + {a <> b}.
Proof.
  destruct (Z.eq_dec (fval a) (fval b)) as [E|E].
  - left. apply fval_inj, E.
  - right. congruence.
Qed.
Lemma Feqb_eq a b : Feqb a b = true <-> a = b.
Proof.
  unfold Feqb. rewrite Z.eqb_eq. split; [apply fval_inj|congruence].
Qed.
Lemma Fmul_0 a b : Fmul a b = F0 -> a = F0 \/ b = F0.
Proof.
  intros H. destruct (F_eq_dec a F0) as [|Ha]; [left; auto|right].
  transitivity (Fmul (Finv a) (Fmul a b)).
  - field. exact Ha.
  - rewrite H. ring.
Qed.
Lemma Fmul_nz a b : a <> F0 -> b <> F0 -> Fmul a b <> F0.
Proof. intros Ha Hb H. apply Fmul_0 in H. tauto. Qed.

Lemma fval_mul a b : fval (Fmul a b) = (fval a * fval b) mod modulus.
Proof. reflexivity. Qed.
Lemma Fpow_fval a n : 0 <= n -> fval (Fpow a n) = (fval a ^ n) mod modulus.
Proof.
  intros Hn. revert n Hn. apply natlike_ind.
  - reflexivity.
  - intros n Hn IH. unfold Z.succ. rewrite (rpow_succ F_ring) by lia.
    rewrite fval_mul, IH, Z.mul_mod_idemp_r by discriminate.
    rewrite Z.pow_add_r, Z.pow_1_r by lia. f_equal. ring.
Qed.
Lemma Fpow_Fof z n : 0 <= n -> Fpow (Fof z) n = Fof (z ^ n).
Proof.
  intros Hn. apply fval_inj. rewrite Fpow_fval, !fval_Fof by lia.
  symmetry. apply Zpower_mod. reflexivity.
Qed.
Lemma F_fermat a : a <> F0 -> Fpow a (modulus - 1) = F1.
Proof.
  intros H. apply fval_inj. rewrite Fpow_fval by discriminate.
  rewrite (fermat_1 modulus modulus_prime) by (apply fval_nonzero; exact H). reflexivity.
Qed.
Lemma F_fermat_p a : Fpow a modulus = a.
Proof.
  apply fval_inj. rewrite Fpow_fval by discriminate.
  rewrite (fermat modulus modulus_prime). apply fval_mod.
Qed.
Lemma Fpow_nz a n : a <> F0 -> Fpow a n <> F0.
Proof.
  intros Ha. destruct (Z_lt_le_dec n 0) as [Hn|Hn].
  { destruct n; try lia. exact F1_neq_F0. }
  revert n Hn. apply natlike_ind; [exact F1_neq_F0|].
  intros n Hn IH. unfold Z.succ. rewrite (rpow_succ F_ring) by lia. apply Fmul_nz; auto.
Qed.

(** p = 3 mod 4: Euler's criterion and the square-root formula *)
Definition half_pm1 : Z := Eval vm_compute in ((modulus - 1) / 2).
Definition quarter_pp1 : Z := Eval vm_compute in ((modulus + 1) / 4).
Lemma half_pm1_eq : modulus - 1 = 2 * half_pm1. Proof. reflexivity. Qed.
Lemma quarter_pp1_eq : 2 * quarter_pp1 = half_pm1 + 1. Proof. reflexivity. Qed.
Lemma half_pm1_pos : 0 <= half_pm1. Proof. discriminate. Qed.
Lemma quarter_pp1_pos : 0 <= quarter_pp1. Proof. discriminate. Qed.

Definition Fsquare (a : Fp) : Prop := exists b, Fmul b b = a.

Lemma F_sq_1 a : Fmul a a = F1 -> a = F1 \/ a = Fopp F1.
Proof.
  intros H. assert (E : Fmul (Fsub a F1) (Fadd a F1) = F0).
  { transitivity (Fsub (Fmul a a) F1); [ring|rewrite H; ring]. }
  apply Fmul_0 in E. destruct E as [E|E]; [left|right].
  - transitivity (Fadd (Fsub a F1) F1); [ring|rewrite E; ring].
  - transitivity (Fsub (Fadd a F1) F1); [ring|rewrite E; ring].
Qed.
Lemma F_half a : a <> F0 -> Fpow a half_pm1 = F1 \/ Fpow a half_pm1 = Fopp F1.
Proof.
  intros H. apply F_sq_1. rewrite <- (rpow_add F_ring) by apply half_pm1_pos.
  replace (half_pm1 + half_pm1) with (modulus - 1) by reflexivity. apply F_fermat, H.
Qed.
Lemma Fm1_neq_F1 : Fopp F1 <> F1.
Proof. intros H. apply (f_equal fval) in H. vm_compute in H. discriminate H. Qed.

Lemma F_sqrt_formula a : Fpow a half_pm1 = F1 ->
  Fmul (Fpow a quarter_pp1) (Fpow a quarter_pp1) = a.
Proof.
  intros H. rewrite <- (rpow_add F_ring) by apply quarter_pp1_pos.
  replace (quarter_pp1 + quarter_pp1) with (half_pm1 + 1) by (rewrite <- quarter_pp1_eq; lia).
  rewrite (rpow_succ F_ring) by apply half_pm1_pos. rewrite H. ring.
Qed.
Lemma Fsquare_euler a : a <> F0 -> (Fsquare a <-> Fpow a half_pm1 = F1).
Proof.
  intros Ha. split.
  - intros [b Hb]. rewrite <- Hb, (rpow_mult F_ring), <- (rpow_add F_ring) by apply half_pm1_pos.
    replace (half_pm1 + half_pm1) with (modulus - 1) by reflexivity. apply F_fermat.
    intros ->. apply Ha. rewrite <- Hb. ring.
  - intros H. exists (Fpow a quarter_pp1). apply F_sqrt_formula, H.
Qed.
Lemma Fpow_m1_odd n : 0 <= n -> Fpow (Fopp F1) (2 * n + 1) = Fopp F1.
Proof.
  intros Hn. rewrite (rpow_succ F_ring), (rpow_mul F_ring) by lia.
  replace (Fpow (Fopp F1) 2) with F1 by (rewrite rpow_2; ring).
  rewrite (rpow_one F_ring). ring.
Qed.
Lemma Fm1_nonsquare : ~ Fsquare (Fopp F1).
Proof.
  intros H. apply Fsquare_euler in H.
  - replace half_pm1 with (2 * (quarter_pp1 - 1) + 1) in H by reflexivity.
    rewrite Fpow_m1_odd in H by discriminate. apply Fm1_neq_F1, H.
  - intros E. apply F1_neq_F0. transitivity (Fopp (Fopp F1)); [ring|rewrite E; ring].
Qed.
Lemma F_sum_sq a b : Fadd (Fmul a a) (Fmul b b) = F0 -> a = F0 /\ b = F0.
Proof.
  intros H. destruct (F_eq_dec b F0) as [->|Hb].
  - split; auto. assert (E : Fmul a a = F0) by (rewrite <- H; ring).
    apply Fmul_0 in E. tauto.
  - exfalso. apply Fm1_nonsquare. exists (Fmul a (Finv b)).
    transitivity (Fsub (Fmul (Fadd (Fmul a a) (Fmul b b)) (Fmul (Finv b) (Finv b))) F1).
    + field. exact Hb.
    + rewrite H. ring.
Qed.
Lemma Fof_lit_nz z : z mod modulus <> 0 -> Fof z <> F0.
Proof. intros H E. apply Fof_eq in E. apply H. exact E. Qed.
Lemma F2_neq_0 : Fadd F1 F1 <> F0.
Proof. intros H. apply (f_equal fval) in H. vm_compute in H. discriminate H. Qed.
Lemma F3_neq_0 : Fadd F1 (Fadd F1 F1) <> F0.
Proof. intros H. apply (f_equal fval) in H. vm_compute in H. discriminate H. Qed.
Lemma Fopp_eq_0 a : Fopp a = F0 -> a = F0.
Proof. intros H. transitivity (Fopp (Fopp a)); [ring|rewrite H; ring]. Qed.
Lemma Fopp_self a : a = Fopp a -> a = F0.
Proof.
  intros H. assert (E : Fmul (Fadd F1 F1) a = F0).
  { transitivity (Fadd a a); [ring|]. rewrite H at 1. ring. }
  apply Fmul_0 in E. destruct E as [E|E]; auto. destruct (F2_neq_0 E).
Qed.
Lemma Fsub_eq_0 a b : Fsub a b = F0 -> a = b.
Proof. intros H. transitivity (Fadd (Fsub a b) b); [ring|rewrite H; ring]. Qed.

(** ** Fp2 is a field *)
Lemma F2norm_0 a : F2norm a = F0 -> a = F2_0.
Proof. intros H. apply F_sum_sq in H. destruct H, a; cbn in *; subst; reflexivity. Qed.
Lemma F2inv_l a : a <> F2_0 -> F2mul (F2inv a) a = F2_1.
Proof.
  intros Ha. assert (Hn : F2norm a <> F0) by (intros E; apply Ha, F2norm_0, E).
  unfold F2inv. apply F2_eq; f2_unf; cbn [re im]; field; exact Hn.
Qed.
Lemma F2_1_neq_0 : F2_1 <> F2_0.
Proof. intros H. apply (f_equal re) in H. apply F1_neq_F0, H. Qed.
Lemma F2_field : field_theory F2_0 F2_1 F2add F2mul F2sub F2opp F2div F2inv eq.
Proof. constructor; [exact F2_ring|exact F2_1_neq_0|reflexivity|exact F2inv_l]. Qed.
Add Field Fp2_field : F2_field.
Lemma F2_eq_dec (a b : Fp2) : {a = b} + {a <> b}.
Proof. decide equality; apply F_eq_dec. Qed.
Lemma F2mul_0 a b : F2mul a b = F2_0 -> a = F2_0 \/ b = F2_0.
Proof.
  intros H. destruct (F2_eq_dec a F2_0) as [|Ha]; [left; auto|right].
  transitivity (F2mul (F2inv a) (F2mul a b)).
  - field. exact Ha.
  - rewrite H. ring.
Qed.
Lemma F2mul_nz a b : a <> F2_0 -> b <> F2_0 -> F2mul a b <> F2_0.
Proof. intros Ha Hb H. apply F2mul_0 in H. tauto. Qed.
Lemma F2of_add a b : F2of (Fadd a b) = F2add (F2of a) (F2of b).
Proof. apply F2_eq; f2_unf; ring. Qed.
Lemma F2of_mul a b : F2of (Fmul a b) = F2mul (F2of a) (F2of b).
Proof. apply F2_eq; f2_unf; ring. Qed.
Lemma F2of_inj a b : F2of a = F2of b -> a = b.
Proof. intros H. apply (f_equal re) in H. exact H. Qed.
Lemma F2norm_mul a b : F2norm (F2mul a b) = Fmul (F2norm a) (F2norm b).
Proof. f2_unf. ring. Qed.
Lemma F2conj_norm a : F2mul a (F2conj a) = F2of (F2norm a).
Proof. apply F2_eq; f2_unf; ring. Qed.
Lemma F2conj_mul a b : F2conj (F2mul a b) = F2mul (F2conj a) (F2conj b).
Proof. apply F2_eq; f2_unf; ring. Qed.
Lemma F2conj_add a b : F2conj (F2add a b) = F2add (F2conj a) (F2conj b).
Proof. apply F2_eq; f2_unf; ring. Qed.
Lemma F2conj_invol a : F2conj (F2conj a) = a.
Proof. apply F2_eq; f2_unf; ring. Qed.

(** characteristic p *)
Lemma nmul_F n : nmul F0 Fadd n F1 = Fof (Z.of_nat n).
Proof.
  induction n as [|n IH]; [reflexivity|]. cbn [nmul]. rewrite IH.
  unfold F1. rewrite <- Fof_add. f_equal. lia.
Qed.
Lemma F_char : F0 = nmul F0 Fadd (Z.to_nat modulus) F1.
Proof.
  rewrite nmul_F, Z2Nat.id by discriminate. apply fval_inj. rewrite !fval_Fof, Z_mod_same_full. reflexivity.
Qed.
Lemma nmul_F2 n : nmul F2_0 F2add n F2_1 = F2of (nmul F0 Fadd n F1).
Proof.
  induction n as [|n IH]; [reflexivity|]. cbn [nmul]. rewrite IH, F2of_add. reflexivity.
Qed.
Lemma F2_char : F2_0 = nmul F2_0 F2add (Z.to_nat modulus) F2_1.
Proof. rewrite nmul_F2, <- F_char. reflexivity. Qed.
Lemma nmul_F6 n : nmul F6_0 F6add n F6_1 = F6of (nmul F2_0 F2add n F2_1).
Proof.
  induction n as [|n IH]; [reflexivity|]. cbn [nmul]. rewrite IH. apply F6_eq; f6_unf; ring.
Qed.
Lemma F6_char : F6_0 = nmul F6_0 F6add (Z.to_nat modulus) F6_1.
Proof. rewrite nmul_F6, <- F2_char. reflexivity. Qed.
Lemma nmul_F12 n : nmul F12_0 F12add n F12_1 = F12of (nmul F6_0 F6add n F6_1).
Proof.
  induction n as [|n IH]; [reflexivity|]. cbn [nmul]. rewrite IH. apply F12_eq; f12_unf; ring.
Qed.
Lemma F12_char : F12_0 = nmul F12_0 F12add (Z.to_nat modulus) F12_1.
Proof. rewrite nmul_F12, <- F6_char. reflexivity. Qed.

(** powers of embedded elements *)
Lemma F2of_pow a n : 0 <= n -> F2pow (F2of a) n = F2of (Fpow a n).
Proof.
  revert n. apply natlike_ind; [reflexivity|]. intros n Hn IH. unfold Z.succ.
  rewrite (rpow_succ F2_ring), (rpow_succ F_ring), IH, F2of_mul by lia. reflexivity.
Qed.
Lemma F6of_mul a b : F6of (F2mul a b) = F6mul (F6of a) (F6of b).
Proof. apply F6_eq; f6_unf; ring. Qed.
Lemma F6of_pow a n : 0 <= n -> F6pow (F6of a) n = F6of (F2pow a n).
Proof.
  revert n. apply natlike_ind; [reflexivity|]. intros n Hn IH. unfold Z.succ.
  rewrite (rpow_succ F6_ring), (rpow_succ F2_ring), IH, F6of_mul by lia. reflexivity.
Qed.
Lemma F12of_mul a b : F12of (F6mul a b) = F12mul (F12of a) (F12of b).
Proof. apply F12_eq; f12_unf; ring. Qed.
Lemma F12of_pow a n : 0 <= n -> F12pow (F12of a) n = F12of (F6pow a n).
Proof.
  revert n. apply natlike_ind; [reflexivity|]. intros n Hn IH. unfold Z.succ.
  rewrite (rpow_succ F12_ring), (rpow_succ F6_ring), IH, F12of_mul by lia. reflexivity.
Qed.

(** Frobenius on Fp2 is conjugation. *)
Definition F2u : Fp2 := mkFp2 F0 F1.
Lemma F2u_sq : F2mul F2u F2u = F2opp F2_1.
Proof. apply F2_eq; unfold F2u; f2_unf; ring. Qed.
Lemma F2u_p : F2pow F2u modulus = F2opp F2u.
Proof.
  replace modulus with (2 * half_pm1 + 1) by reflexivity.
  rewrite (rpow_succ F2_ring), (rpow_mul F2_ring), rpow_2, F2u_sq by discriminate.
  replace (F2opp F2_1) with (F2of (Fopp F1)) by (apply F2_eq; f2_unf; ring).
  rewrite F2of_pow by discriminate.
  replace half_pm1 with (2 * (quarter_pp1 - 1) + 1) by reflexivity.
  rewrite Fpow_m1_odd by discriminate. apply F2_eq; unfold F2u; f2_unf; ring.
Qed.
Lemma F2_decomp a : a = F2add (F2of (re a)) (F2mul (F2of (im a)) F2u).
Proof. apply F2_eq; unfold F2u; f2_unf; ring. Qed.
Lemma F2_frob a : F2pow a modulus = F2conj a.
Proof.
  rewrite (F2_decomp a) at 1.
  rewrite (rpow_frob_add F2_ring modulus_prime F2_char), (rpow_mult F2_ring), F2u_p.
  rewrite !F2of_pow, !F_fermat_p by discriminate.
  apply F2_eq; unfold F2u; f2_unf; ring.
Qed.
Lemma F2_fermat a : a <> F2_0 -> F2pow a (modulus * modulus - 1) = F2_1.
Proof.
  intros Ha. replace (modulus * modulus - 1) with ((modulus + 1) * (modulus - 1)) by ring.
  rewrite (rpow_mul F2_ring), (rpow_succ F2_ring), F2_frob, F2conj_norm, F2of_pow by discriminate.
  rewrite F_fermat; [reflexivity|]. intros E. apply Ha, F2norm_0, E.
Qed.
