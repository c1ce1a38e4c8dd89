(** Ring and field laws of the tower of SpecField. *)
From Coq Require Import ZArith Znumtheory Bool Eqdep_dec Ring Field Lia.
From Verif Require Import NumTheory Primes SpecField.
Local Open Scope Z_scope.

Lemma modulus_prime : prime modulus. Proof. exact prime_modulus. Qed.
Lemma order_prime : prime order. Proof. exact prime_order. Qed.
Lemma modulus_pos : 0 < modulus. Proof. reflexivity. Qed.
Lemma modulus_gt1 : 1 < modulus. Proof. reflexivity. Qed.
#[global] Hint Resolve modulus_pos modulus_gt1 : core.

Lemma fval_inj a b : fval a = fval b -> a = b.
Proof.
  destruct a as [a Ha], b as [b Hb]; cbn [fval]. intros <-. f_equal.
  apply UIP_dec. decide equality.
Qed.
Lemma fval_Fof z : fval (Fof z) = z mod modulus. Proof. reflexivity. Qed.
Lemma fval_range a : 0 <= fval a < modulus.
Proof.
  destruct a as [a H]. cbn [fval]. unfold inrange in H. apply andb_true_iff in H.
  destruct H as [H1 H2]. apply Z.leb_le in H1. apply Z.ltb_lt in H2. lia.
Qed.
Lemma fval_mod a : fval a mod modulus = fval a.
Proof. apply Z.mod_small, fval_range. Qed.
Lemma Fof_fval a : Fof (fval a) = a.
Proof. apply fval_inj. rewrite fval_Fof. apply fval_mod. Qed.
Lemma Fof_eq x y : Fof x = Fof y <-> x mod modulus = y mod modulus.
Proof.
  split; intros H; [apply (f_equal fval) in H; exact H|apply fval_inj; exact H].
Qed.
Lemma Fof_add x y : Fof (x + y) = Fadd (Fof x) (Fof y).
Proof. apply fval_inj. unfold Fadd. rewrite !fval_Fof. apply Z.add_mod. discriminate. Qed.
Lemma Fof_sub x y : Fof (x - y) = Fsub (Fof x) (Fof y).
Proof. apply fval_inj. unfold Fsub. rewrite !fval_Fof. apply Zminus_mod. Qed.
Lemma Fof_mul x y : Fof (x * y) = Fmul (Fof x) (Fof y).
Proof. apply fval_inj. unfold Fmul. rewrite !fval_Fof. apply Z.mul_mod. discriminate. Qed.
Lemma Fof_opp x : Fof (- x) = Fopp (Fof x).
Proof. apply fval_inj. unfold Fopp. rewrite !fval_Fof, <- (Z.sub_0_l x), <- (Z.sub_0_l (x mod modulus)).
  symmetry. apply Zminus_mod_idemp_r. Qed.

Ltac fp_ring1 := intros;
  repeat match goal with a : Fp |- _ => rewrite <- (Fof_fval a); generalize (fval a); clear a; intro end;
  unfold F0, F1; rewrite <- ?Fof_add, <- ?Fof_mul, <- ?Fof_opp, <- ?Fof_sub, <- ?Fof_add;
  repeat rewrite <- ?Fof_add, <- ?Fof_mul, <- ?Fof_opp, <- ?Fof_sub, <- ?Fof_add;
  f_equal; ring.

Lemma F_ring : ring_theory F0 F1 Fadd Fmul Fsub Fopp eq.
Proof. constructor; fp_ring1. Qed.

Lemma F1_neq_F0 : F1 <> F0.
Proof. intros H. apply Fof_eq in H. discriminate H. Qed.

Lemma fval_nonzero a : a <> F0 -> fval a mod modulus <> 0.
Proof. intros H E. apply H. apply fval_inj. rewrite fval_mod in E. rewrite E. reflexivity. Qed.

Lemma Finv_l a : a <> F0 -> Fmul (Finv a) a = F1.
Proof.
  intros H. apply fval_inj. unfold Finv, Fmul. rewrite !fval_Fof.
  rewrite powmod_ok by (try reflexivity; discriminate).
  rewrite Zmod_mod, Zmult_mod_idemp_l.
  replace (fval a ^ (modulus - 2) * fval a) with (fval a ^ (modulus - 1)).
  - rewrite (fermat_1 modulus modulus_prime) by (apply fval_nonzero; exact H). reflexivity.
  - replace (modulus - 1) with (modulus - 2 + 1) by ring.
    rewrite Z.pow_add_r, Z.pow_1_r by discriminate. reflexivity.
Qed.
Lemma F_field : field_theory F0 F1 Fadd Fmul Fsub Fopp Fdiv Finv eq.
Proof.
  constructor.
  - exact F_ring.
  - exact F1_neq_F0.
  - reflexivity.
  - exact Finv_l.
Qed.
Add Field Fp_field : F_field.

(** ring laws of the extensions, by computation on coordinates *)
Lemma F2_eq a b : re a = re b -> im a = im b -> a = b.
Proof. destruct a, b; cbn; congruence. Qed.
Lemma F6_eq a b : co0 a = co0 b -> co1 a = co1 b -> co2 a = co2 b -> a = b.
Proof. destruct a, b; cbn; congruence. Qed.
Lemma F12_eq a b : lo a = lo b -> hi a = hi b -> a = b.
Proof. destruct a, b; cbn; congruence. Qed.

Ltac f2_unf := unfold F2_0, F2_1, F2add, F2mul, F2sub, F2opp, F2conj, F2norm, F2of, xi in *; cbn [re im] in *.
Ltac f6_unf := unfold F6_0, F6_1, F6add, F6mul, F6sub, F6opp, F6of, F6v, F6norm, F6adj, F6scale in *; cbn [co0 co1 co2] in *.
Ltac f12_unf := unfold F12_0, F12_1, F12add, F12mul, F12sub, F12opp, F12of, F12w, F12conj, F12norm in *; cbn [lo hi] in *.

Lemma F2_ring : ring_theory F2_0 F2_1 F2add F2mul F2sub F2opp eq.
Proof. constructor; intros; apply F2_eq; f2_unf; ring. Qed.
Add Ring Fp2_ring : F2_ring.
Lemma F6_ring : ring_theory F6_0 F6_1 F6add F6mul F6sub F6opp eq.
Proof. constructor; intros; apply F6_eq; f6_unf; ring. Qed.
Add Ring Fp6_ring : F6_ring.
Lemma F12_ring : ring_theory F12_0 F12_1 F12add F12mul F12sub F12opp eq.
Proof. constructor; intros; apply F12_eq; f12_unf; ring. Qed.
Add Ring Fp12_ring : F12_ring.
