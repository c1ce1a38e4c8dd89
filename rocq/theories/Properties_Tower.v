(** Properties C18-C23, the fp2 parts of C13, and C54: the extension tower.
    [rep2 x a] : both coordinates of x are canonical and their classes (divided by 2^384) are those of a;
    [rep6], [rep12] likewise on all coordinates.  Fp2, Fp6, Fp12 and their operations are in SpecField. *)
From Coq Require Import ZArith List Bool Lia Ring Field.
From Verif Require Import RingPow SpecField FieldProof TowerProof TowerProof2 SpecBytes ModelWord ModelScalar ModelFp ModelTower
  ScalarProof FpProof FpProof2 TowerRefine TowerRefine2 TowerRefine3.
Import ListNotations.
Local Open Scope Z_scope.
Add Field Fp_fieldPT : F_field.
Add Field Fp2_fieldPT : F2_field.
#[local] Opaque fp2_sqrt fp2_isQNR.

(** * The specification rings are fields (so "inverse" means what it says) and every element has exactly one object *)
Theorem C18_Fp2_field : field_theory F2_0 F2_1 F2add F2mul F2sub F2opp F2div F2inv eq.
Proof. exact F2_field. Qed.
Theorem C20_Fp6_field : field_theory F6_0 F6_1 F6add F6mul F6sub F6opp F6div F6inv eq.
Proof. exact F6_field. Qed.
Theorem C21_Fp12_field : field_theory F12_0 F12_1 F12add F12mul F12sub F12opp F12div F12inv eq.
Proof. exact F12_field. Qed.
Theorem C18_representation : forall a : Fp2, exists x, rep2 x a /\ forall y, rep2 y a -> y = x.
Proof. intros a. exists (enc2 a). split; [apply rep2_enc|]. intros y H. exact (rep2_unique _ _ _ H (rep2_enc a)). Qed.
Theorem C20_representation : forall a : Fp6, exists x, rep6 x a /\ forall y, rep6 y a -> y = x.
Proof. intros a. exists (enc6 a). split; [apply rep6_enc|]. intros y H. exact (rep6_unique _ _ _ H (rep6_enc a)). Qed.
Theorem C21_representation : forall a : Fp12, exists x, rep12 x a /\ forall y, rep12 y a -> y = x.
Proof. intros a. exists (enc12 a). split; [apply rep12_enc|]. intros y H. exact (rep12_unique _ _ _ H (rep12_enc a)). Qed.

(** * C18 *)
Ltac rep := repeat match goal with H : rep2 _ _ |- _ => destruct H as [? <-] | H : rep6 _ _ |- _ => destruct H as [? <-]
   | H : rep12 _ _ |- _ => destruct H as [? <-] end;
   split; [auto 20 with canon|autorewrite with dec; auto 20 with canon].
Theorem C18_add : forall x y a b, rep2 x a -> rep2 y b -> rep2 (fp2_add x y) (F2add a b). Proof. intros. rep. Qed.
Theorem C18_sub : forall x y a b, rep2 x a -> rep2 y b -> rep2 (fp2_sub x y) (F2sub a b). Proof. intros. rep. Qed.
Theorem C18_neg : forall x a, rep2 x a -> rep2 (fp2_neg x) (F2opp a). Proof. intros. rep. Qed.
Theorem C18_double : forall x a, rep2 x a -> rep2 (fp2_dbl x) (F2add a a). Proof. intros. rep. Qed.
Theorem C18_conjugate : forall x a, rep2 x a -> rep2 (fp2_conj x) (F2conj a). Proof. intros. rep. Qed.
Theorem C18_mul : forall x y a b, rep2 x a -> rep2 y b -> rep2 (fp2_mul x y) (F2mul a b). Proof. intros. rep. Qed.
Theorem C18_square : forall x a, rep2 x a -> rep2 (fp2_sqr x) (F2mul a a). Proof. intros. rep. Qed.
Theorem C18_mulByNonResidue : forall x a, rep2 x a -> rep2 (fp2_mulXi x) (F2mul (mkFp2 F1 F1) a). Proof. intros. rep. Qed.
Theorem C18_mulByB : forall x a, rep2 x a -> rep2 (fp2_mulByB x) (F2mul (mkFp2 (Fof 4) (Fof 4)) a). Proof. intros. rep. Qed.
Theorem C18_mulByFq : forall x a e, rep2 x a -> canon e -> rep2 (fp2_mulByFq x e) (F2mul (mkFp2 (dec e) F0) a).
Proof. intros. rep. Qed.
Theorem C18_inverse : forall x a, rep2 x a -> rep2 (fp2_inv x) (F2inv a) /\ (a <> F2_0 -> F2mul (F2inv a) a = F2_1) /\ (a = F2_0 -> F2inv a = F2_0).
Proof.
  intros x a H. split; [rep|]. split; [apply F2inv_l|]. intros ->. apply F2_eq; unfold F2inv; f2_unf; ring.
Qed.
Theorem C18_exp : forall x a s, rep2 x a -> words s -> rep2 (fp2_exp x s) (F2pow a (val s)).
Proof. intros x a s [C <-] H. exact (fp2_exp_ok x s C H). Qed.
Theorem C18_comparisons : forall x y a b, rep2 x a -> rep2 y b ->
  (fp2_equal x y = true <-> a = b) /\ (fp2_isZero x = true <-> a = F2_0) /\ (fp2_isOne x = true <-> a = F2_1).
Proof.
  intros x y a b [C <-] [D <-]. rewrite equal2_ok, isZero2_ok, isOne2_ok, !F2eqb_eq by auto. tauto.
Qed.
Theorem C18_constants : rep2 fp2_zero F2_0 /\ rep2 fp2_one F2_1 /\ rep2 negativeOne2 (F2opp F2_1).
Proof. split; [rep|]; try reflexivity. split; [rep|exact negOne2_ok]. Qed.
(** a concrete object: limb values 5 and 7 (canonical, non-zero); the hypotheses are met and conclusions are about real products *)
Example C18_example : exists a, rep2 (mk2 5 7) a /\ a <> F2_0 /\ rep2 (fp2_mul (mk2 5 7) (fp2_sqr (mk2 5 7))) (F2mul a (F2mul a a)).
Proof.
  assert (C : canon2 (mk2 5 7)) by (split; vm_compute; intuition discriminate).
  exists (dec2 (mk2 5 7)). assert (R : rep2 (mk2 5 7) (dec2 (mk2 5 7))) by (split; auto).
  split; [exact R|]. split; [|apply C18_mul; [|apply C18_square]; exact R].
  intros E. rewrite <- dec2_zero in E. apply dec2_inj in E; [discriminate E|exact C|exact canon2_zero].
Qed.

(** * C19 *)
Theorem C19_sqrt : forall x a, rep2 x a ->
  (fst (fp2_sqrt x) = true <-> exists s, F2mul s s = a) /\
  (fst (fp2_sqrt x) = true -> exists s, rep2 (snd (fp2_sqrt x)) s /\ F2mul s s = a).
Proof.
  intros x a [C <-]. destruct (fp2_sqrt_ok x C) as (Cs & I & R). split; [exact I|].
  intros H. exists (dec2 (snd (fp2_sqrt x))). exact (conj (conj Cs eq_refl) (R H)).
Qed.
Theorem C19_isQuadraticNonResidue : forall x a, rep2 x a ->
  (fp2_isQNR x = true <-> a = F2_0 \/ ~ exists s, F2mul s s = a).
Proof. intros x a [C <-]. exact (fp2_isQNR_ok x C). Qed.
(** (1+u)^2 = 2u has a root, 1+u has none *)
Example C19_example : fst (fp2_sqrt (mk2 0 (fp_toMont 2))) = true /\ fst (fp2_sqrt (mk2 (fp_toMont 1) (fp_toMont 1))) = false /\
  fp2_isQNR (mk2 (fp_toMont 1) (fp_toMont 1)) = true.
Proof.
  assert (R : rep2 (mk2 0 (fp_toMont 2)) (mkFp2 F0 (Fof 2))).
  { split; [split; vm_compute; intuition discriminate|]. apply F2_eq; apply fval_inj; vm_compute; reflexivity. }
  assert (R' : rep2 (mk2 (fp_toMont 1) (fp_toMont 1)) xi).
  { split; [split; vm_compute; intuition discriminate|]. apply F2_eq; apply fval_inj; vm_compute; reflexivity. }
  split; [|split].
  - refine (proj2 (proj1 (C19_sqrt _ _ R)) (ex_intro _ xi _)). apply F2_eq; apply fval_inj; vm_compute; reflexivity.
  - apply not_true_iff_false. intros H. destruct (proj1 (proj1 (C19_sqrt _ _ R')) H) as [s E]. exact (xi_nonsquare s E).
  - refine (proj2 (C19_isQuadraticNonResidue _ _ R') (or_intror _)). intros [s H]. exact (xi_nonsquare s H).
Qed.

(** * C13, quadratic elements: comparison is by the imaginary part first *)
Theorem C13_fp2_lexicographically_largest : forall x a, rep2 x a ->
  (fp2_isLexLargest x = true <->
   (modulus - 1) / 2 < fval (im a) \/ fval (im a) = 0 /\ (modulus - 1) / 2 < fval (re a)).
Proof.
  intros x a [C <-]. rewrite fp2_lex_ok by auto. change ((modulus - 1) / 2) with half_pm1.
  rewrite orb_true_iff, andb_true_iff, !Z.ltb_lt, Z.eqb_eq. tauto.
Qed.
Theorem C13_fp2_exactly_one_largest : forall x a, rep2 x a -> a <> F2_0 -> fp2_isLexLargest (fp2_neg x) = negb (fp2_isLexLargest x).
Proof. intros x a [C <-] N. apply fp2_lex_neg; auto. Qed.
(** sign() is true when the first non-zero coordinate is even (the negation of RFC 9380's sgn0) *)
Theorem C13_fp2_sign : forall x a, rep2 x a ->
  fp2_sign x = if fval (re a) =? 0 then Z.even (fval (im a)) else Z.even (fval (re a)).
Proof. intros x a [C <-]. apply fp2_sign_ok; auto. Qed.
Theorem C13_fp2_sign_negation : forall x a, rep2 x a -> a <> F2_0 -> fp2_sign (fp2_neg x) = negb (fp2_sign x).
Proof. intros x a [C <-] N. apply fp2_sign_neg; auto. Qed.
Example C13_fp2_example : fp2_isLexLargest (mk2 (fp_toMont 1) (fp_toMont (modulus - 1))) = true /\
  fp2_isLexLargest (mk2 (fp_toMont (modulus - 1)) (fp_toMont 1)) = false /\ fp2_sign (mk2 0 (fp_toMont 3)) = false.
Proof. vm_compute. repeat split. Qed.

(** * C20 *)
Theorem C20_add : forall x y a b, rep6 x a -> rep6 y b -> rep6 (fp6_add x y) (F6add a b). Proof. intros. rep. Qed.
Theorem C20_sub : forall x y a b, rep6 x a -> rep6 y b -> rep6 (fp6_sub x y) (F6sub a b). Proof. intros. rep. Qed.
Theorem C20_neg : forall x a, rep6 x a -> rep6 (fp6_neg x) (F6opp a). Proof. intros. rep. Qed.
Theorem C20_double : forall x a, rep6 x a -> rep6 (fp6_dbl x) (F6add a a). Proof. intros. rep. Qed.
Theorem C20_mul : forall x y a b, rep6 x a -> rep6 y b -> rep6 (fp6_mul x y) (F6mul a b). Proof. intros. rep. Qed.
Theorem C20_square : forall x a, rep6 x a -> rep6 (fp6_sqr x) (F6mul a a). Proof. intros. rep. Qed.
Theorem C20_mulBy01 : forall x e f a b c, rep6 x a -> rep2 e b -> rep2 f c ->
  rep6 (fp6_mulBy01 x e f) (F6mul a (mkFp6 b c F2_0)) /\ rep6 (fp6_mulBy01Assign x e f) (F6mul a (mkFp6 b c F2_0)).
Proof. intros. split; rep. Qed.
Theorem C20_mulBy1 : forall x f a c, rep6 x a -> rep2 f c -> rep6 (fp6_mulBy1 x f) (F6mul a (mkFp6 F2_0 c F2_0)).
Proof. intros. rep. Qed.
Theorem C20_mulByNonResidue : forall x a, rep6 x a -> rep6 (fp6_mulV x) (F6mul (mkFp6 F2_0 F2_1 F2_0) a). Proof. intros. rep. Qed.
Theorem C20_mulByBaseField : forall x e a b, rep6 x a -> rep2 e b -> rep6 (fp6_mulByBase x e) (F6mul (mkFp6 b F2_0 F2_0) a).
Proof. intros. rep. Qed.
Theorem C20_inverse : forall x a, rep6 x a -> rep6 (fp6_inv x) (F6inv a) /\ (a <> F6_0 -> F6mul (F6inv a) a = F6_1).
Proof. intros x a H. split; [rep|apply F6inv_l]. Qed.
Theorem C20_exp : forall x a s, rep6 x a -> words s -> rep6 (fp6_exp x s) (F6pow a (val s)).
Proof. intros x a s [C <-] H. exact (fp6_exp_ok x s C H). Qed.
Theorem C20_comparisons : forall x y a b, rep6 x a -> rep6 y b ->
  (fp6_equal x y = true <-> a = b) /\ (fp6_isZero x = true <-> a = F6_0) /\ (fp6_isOne x = true <-> a = F6_1).
Proof.
  intros x y a b [C <-] [D <-]. rewrite equal6_ok, isZero6_ok, isOne6_ok, !F6eqb_eq by auto. tauto.
Qed.
Theorem C20_constants : rep6 fp6_zero F6_0 /\ rep6 fp6_one F6_1.
Proof. split; [split; [rep|reflexivity]|]. rep. Qed.
(** v^2 * v^2 = (1+u) v *)
Example C20_example : rep6 (fp6_mul (mk6 fp2_zero fp2_zero fp2_one) (mk6 fp2_zero fp2_zero fp2_one)) (mkFp6 F2_0 xi F2_0).
Proof.
  assert (R : rep6 (mk6 fp2_zero fp2_zero fp2_one) (mkFp6 F2_0 F2_0 F2_1)).
  { split; [refine (conj _ (conj _ _)); cbn [d0 d1 d2]; auto with canon|]. unfold dec6. cbn [d0 d1 d2]. rewrite dec2_one. reflexivity. }
  replace (mkFp6 F2_0 xi F2_0) with (F6mul (mkFp6 F2_0 F2_0 F2_1) (mkFp6 F2_0 F2_0 F2_1)) by (apply F6_eq; f6_unf; ring).
  apply C20_mul; exact R.
Qed.

(** * C21 *)
Theorem C21_add : forall x y a b, rep12 x a -> rep12 y b -> rep12 (fp12_add x y) (F12add a b). Proof. intros. rep. Qed.
Theorem C21_sub : forall x y a b, rep12 x a -> rep12 y b -> rep12 (fp12_sub x y) (F12sub a b). Proof. intros. rep. Qed.
Theorem C21_neg : forall x a, rep12 x a -> rep12 (fp12_neg x) (F12opp a). Proof. intros. rep. Qed.
Theorem C21_double : forall x a, rep12 x a -> rep12 (fp12_dbl x) (F12add a a). Proof. intros. rep. Qed.
Theorem C21_conjugate : forall x a, rep12 x a -> rep12 (fp12_conj x) (F12conj a). Proof. intros. rep. Qed.
Theorem C21_mul : forall x y a b, rep12 x a -> rep12 y b -> rep12 (fp12_mul x y) (F12mul a b). Proof. intros. rep. Qed.
Theorem C21_square : forall x a, rep12 x a -> rep12 (fp12_sqr x) (F12mul a a). Proof. intros. rep. Qed.
Theorem C21_mulBy014 : forall x e f g a b c d, rep12 x a -> rep2 e b -> rep2 f c -> rep2 g d ->
  rep12 (fp12_mulBy014 x e f g) (F12mul a (mkFp12 (mkFp6 b c F2_0) (mkFp6 F2_0 d F2_0))).
Proof. intros. rep. Qed.
Theorem C21_inverse : forall x a, rep12 x a -> rep12 (fp12_inv x) (F12inv a) /\ (a <> F12_0 -> F12mul (F12inv a) a = F12_1).
Proof. intros x a H. split; [rep|apply F12inv_l]. Qed.
Theorem C21_exp : forall x a s, rep12 x a -> words s -> rep12 (fp12_exp x s) (F12pow a (val s)).
Proof. intros x a s [C <-] H. exact (fp12_exp_ok x s C H). Qed.
Theorem C21_comparisons : forall x y a b, rep12 x a -> rep12 y b ->
  (fp12_equal x y = true <-> a = b) /\ (fp12_isZero x = true <-> a = F12_0) /\ (fp12_isOne x = true <-> a = F12_1).
Proof.
  intros x y a b [C <-] [D <-]. rewrite equal12_ok, isZero12_ok, isOne12_ok, !F12eqb_eq by auto. tauto.
Qed.
Theorem C21_constants : rep12 fp12_zero F12_0 /\ rep12 fp12_one F12_1.
Proof. split; [split; [rep|reflexivity]|]. rep. Qed.
Theorem C21_isGtValid : forall x a, rep12 x a -> (fp12_isGtValid x = true <-> F12pow a order = F12_1).
Proof. intros x a [C <-]. exact (fp12_isGtValid_ok x C). Qed.
(** w * w = v *)
Example C21_example : rep12 (fp12_mul (mk12 fp6_zero fp6_one) (mk12 fp6_zero fp6_one)) (mkFp12 F6v F6_0).
Proof.
  assert (R : rep12 (mk12 fp6_zero fp6_one) F12w).
  { split; [split; cbn [e0 e1]; auto with canon|]. unfold dec12. cbn [e0 e1]. rewrite dec6_one. reflexivity. }
  replace (mkFp12 F6v F6_0) with (F12mul F12w F12w) by (apply F12_eq; f12_unf; apply F6_eq; f6_unf; ring).
  apply C21_mul; exact R.
Qed.

(** * C22: the k-th Frobenius map is x -> x^(p^k) *)
Theorem C22_fp2_frobenius : forall x a k, rep2 x a -> 0 <= k -> rep2 (fp2_frob x k) (F2pow a (modulus ^ k)).
Proof.
  intros x a k [C <-] Hk. split; [auto with canon|]. rewrite dec2_frob' by auto. symmetry. apply F2_frobk. exact Hk.
Qed.
Theorem C22_fp6_frobeniusMapAssign : forall x a k, rep6 x a -> 0 <= k -> rep6 (fp6_frobAssign x k) (F6pow a (modulus ^ k)).
Proof. intros x a k [C <-] Hk. exact (fp6_frobAssign_ok x k C Hk). Qed.
Theorem C22_fp6_frobeniusMap : forall x a k, rep6 x a -> 0 <= k -> k mod 6 <> 3 -> rep6 (fp6_frob x k) (F6pow a (modulus ^ k)).
Proof. intros x a k [C <-] Hk N. rewrite fp6_frob_agree by auto. exact (fp6_frobAssign_ok x k C Hk). Qed.
Theorem C22_fp12_frobeniusMapAssign : forall x a k, rep12 x a -> 0 <= k < 12 ->
  exists y, fp12_frobAssign_opt x k = Some y /\ rep12 y (F12pow a (modulus ^ k)).
Proof. intros x a k [C <-] Hk. exact (fp12_frobAssign_ok x k C Hk). Qed.
Theorem C22_fp12_frobeniusMap : forall x a k, rep12 x a -> 0 <= k < 12 -> k <> 3 -> k <> 9 ->
  exists y, fp12_frob_opt x k = Some y /\ rep12 y (F12pow a (modulus ^ k)).
Proof.
  intros x a k [C <-] Hk N3 N9. apply fp12_frob_ok; auto. intros E.
  assert (k = 6 * (k / 6) + 3) by (rewrite <- E; apply Z.div_mod; lia). lia.
Qed.
(** frobeniusMap(3) on fp6 and frobeniusMap(3), (9) on fp12 are not the Frobenius map: on v + ... they differ *)
Definition frob3_witness : fp6 := mk6 fp2_zero (mk2 2 1) fp2_zero.
Theorem C22_fp6_frobeniusMap3_refuted : exists x a, rep6 x a /\ ~ rep6 (fp6_frob x 3) (F6pow a (modulus ^ 3)).
Proof.
  exists frob3_witness, (dec6 frob3_witness). assert (C : canon6 frob3_witness).
  { refine (conj _ (conj _ _)); split; vm_compute; intuition discriminate. }
  split; [split; auto|]. intros R.
  assert (E := rep6_unique _ _ _ R (fp6_frobAssign_ok _ 3 C ltac:(lia))).
  apply (f_equal d0) in E. vm_compute in E. discriminate E.
Qed.
Theorem C22_fp12_frobeniusMap3_refuted : exists x a y, rep12 x a /\ fp12_frob_opt x 3 = Some y /\ ~ rep12 y (F12pow a (modulus ^ 3)).
Proof.
  set (w := mk12 frob3_witness fp6_zero). assert (C6 : canon6 frob3_witness).
  { refine (conj _ (conj _ _)); split; vm_compute; intuition discriminate. }
  assert (C : canon12 w) by (split; [exact C6|apply canon6_zero]).
  destruct (fp12_frobAssign_ok w 3 C ltac:(lia)) as (z & Ez & Rz).
  exists w, (dec12 w). eexists. split; [split; auto|]. split; [reflexivity|]. intros R.
  assert (E := rep12_unique _ _ _ R Rz). rewrite <- E in Ez.
  apply (f_equal (fun o => match o with Some y => c0 (d0 (e0 y)) | None => 0 end)) in Ez. vm_compute in Ez. discriminate Ez.
Qed.
(** fp12 powers of 12 or more index the coefficient table out of bounds *)
Theorem C22_fp12_frobenius_out_of_bounds : forall x k, 12 <= k -> fp12_frobAssign_opt x k = None /\ fp12_frob_opt x k = None.
Proof.
  intros x k H. unfold fp12_frobAssign_opt, fp12_frob_opt, fp12_frob_with.
  destruct (Z.eqb_spec k 0); [lia|]. destruct (Z.eqb_spec k 6); [lia|]. destruct (Z.ltb_spec k 12); [lia|]. auto.
Qed.
(** w^p = (1+u)^((p-1)/6) w *)
Example C22_example : exists y, fp12_frobAssign_opt (mk12 fp6_zero fp6_one) 1 = Some y /\ rep12 y (F12pow F12w (modulus ^ 1)).
Proof.
  apply C22_fp12_frobeniusMapAssign; [|lia].
  split; [split; cbn [e0 e1]; auto with canon|]. unfold dec12. cbn [e0 e1]. rewrite dec6_one. reflexivity.
Qed.

(** * C23 *)
Theorem C23_cyclotomic_square : forall x a, rep12 x a -> F12pow a (modulus ^ 4 - modulus ^ 2 + 1) = F12_1 ->
  rep12 (fp12_cycSqr x) (F12mul a a).
Proof. intros x a [C <-] H. destruct (cycSqr_ok x C) as [C' E]. split; [exact C'|]. rewrite E. apply cyc_sq, H. Qed.
Theorem C23_cyclotomic_exp : forall x a s, rep12 x a -> F12pow a (modulus ^ 4 - modulus ^ 2 + 1) = F12_1 -> words s ->
  rep12 (fp12_cycExp x s) (F12pow a (val s)).
Proof. intros x a s [C <-] H Hs. exact (fp12_cycExp_ok x s C H Hs). Qed.
(** the easy part of the final exponentiation lands in the subgroup *)
Theorem C23_easy_part : forall a, a <> F12_0 ->
  F12pow (F12pow a ((modulus ^ 6 - 1) * (modulus ^ 2 + 1))) (modulus ^ 4 - modulus ^ 2 + 1) = F12_1.
Proof. exact easy_cyclotomic. Qed.
Theorem C23_conjugate_is_inverse : forall a, F12pow a (modulus ^ 4 - modulus ^ 2 + 1) = F12_1 -> F12mul a (F12conj a) = F12_1.
Proof. exact cyc_conj. Qed.
(** outside the subgroup the formula is wrong: 1 + 1 (= 2) *)
Theorem C23_outside_subgroup : exists x a, rep12 x a /\ a <> F12_0 /\ ~ rep12 (fp12_cycSqr x) (F12mul a a).
Proof.
  exists (fp12_add fp12_one fp12_one), (F12add F12_1 F12_1).
  assert (R : rep12 (fp12_add fp12_one fp12_one) (F12add F12_1 F12_1)) by (apply C21_add; apply C21_constants).
  split; [exact R|]. split.
  - intros E. apply (f_equal (fun a => fval (re (co0 (lo a))))) in E. vm_compute in E. discriminate E.
  - intros [_ K]. rewrite (proj2 (cycSqr_ok _ (proj1 R))), (proj2 R) in K.
    apply (f_equal (fun a => fval (re (co0 (lo a))))) in K. vm_compute in K. discriminate K.
Qed.
(** a member of the subgroup different from 1: the image of 1 + w under the easy part *)
Example C23_example : exists a, a <> F12_1 /\ F12pow a (modulus ^ 4 - modulus ^ 2 + 1) = F12_1.
Proof. exists (F12pow onew ((modulus ^ 6 - 1) * (modulus ^ 2 + 1))). split; [exact onew_easy|]. apply easy_cyclotomic, onew_nz. Qed.

(** * C54: codecs of the tower: every canonical object has exactly one encoding, and decoding accepts nothing else *)
Theorem C54_fp2_codec : forall x b, bytes b -> length b = 96%nat ->
  (fp2_fromBytesBE b true true = Some x <-> canon2 x /\ b = fp2_toBytesBE x true) /\
  (fp2_fromBytesLE b true true = Some x <-> canon2 x /\ b = fp2_toBytesLE x true).
Proof.
  intros x b Hb L. destruct fp2_codec_BE as [B1 B2]. destruct fp2_codec_LE as [L1 L2]. split; split.
  - intros H. destruct (B2 _ _ Hb L H). auto.
  - intros [C ->]. apply B1, C.
  - intros H. destruct (L2 _ _ Hb L H). auto.
  - intros [C ->]. apply L1, C.
Qed.
Theorem C54_fp6_codec : forall x b, bytes b -> length b = 288%nat ->
  (fp6_fromBytesBE b true true = Some x <-> canon6 x /\ b = fp6_toBytesBE x true) /\
  (fp6_fromBytesLE b true true = Some x <-> canon6 x /\ b = fp6_toBytesLE x true).
Proof.
  intros x b Hb L. destruct fp6_codec_BE as [B1 B2]. destruct fp6_codec_LE as [L1 L2]. split; split.
  - intros H. destruct (B2 _ _ Hb L H). auto.
  - intros [C ->]. apply B1, C.
  - intros H. destruct (L2 _ _ Hb L H). auto.
  - intros [C ->]. apply L1, C.
Qed.
Theorem C54_fp12_codec : forall x b, bytes b -> length b = 576%nat ->
  (fp12_fromBytesBE b true true = Some x <-> canon12 x /\ b = fp12_toBytesBE x true) /\
  (fp12_fromBytesLE b true true = Some x <-> canon12 x /\ b = fp12_toBytesLE x true).
Proof.
  intros x b Hb L. destruct fp12_codec_BE as [B1 B2]. destruct fp12_codec_LE as [L1 L2]. split; split.
  - intros H. destruct (B2 _ _ Hb L H). auto.
  - intros [C ->]. apply B1, C.
  - intros H. destruct (L2 _ _ Hb L H). auto.
  - intros [C ->]. apply L1, C.
Qed.
Theorem C54_encodings_exist :
  (forall x, canon2 x -> bytes (fp2_toBytesBE x true) /\ length (fp2_toBytesBE x true) = 96%nat /\ bytes (fp2_toBytesLE x true) /\ length (fp2_toBytesLE x true) = 96%nat) /\
  (forall x, canon6 x -> bytes (fp6_toBytesBE x true) /\ length (fp6_toBytesBE x true) = 288%nat /\ bytes (fp6_toBytesLE x true) /\ length (fp6_toBytesLE x true) = 288%nat) /\
  (forall x, canon12 x -> bytes (fp12_toBytesBE x true) /\ length (fp12_toBytesBE x true) = 576%nat /\ bytes (fp12_toBytesLE x true) /\ length (fp12_toBytesLE x true) = 576%nat).
Proof.
  split; [|split]; intros x C.
  - destruct (proj1 fp2_codec_BE x C) as (? & ? & _). destruct (proj1 fp2_codec_LE x C) as (? & ? & _). auto.
  - destruct (proj1 fp6_codec_BE x C) as (? & ? & _). destruct (proj1 fp6_codec_LE x C) as (? & ? & _). auto.
  - destruct (proj1 fp12_codec_BE x C) as (? & ? & _). destruct (proj1 fp12_codec_LE x C) as (? & ? & _). auto.
Qed.
Example C54_example : canon2 (mk2 (fp_toMont 3) (fp_toMont 258)) /\ nth 47 (fp2_toBytesBE (mk2 (fp_toMont 3) (fp_toMont 258)) true) 0 = 2.
Proof. split; [split; vm_compute; intuition discriminate|vm_compute; reflexivity]. Qed.

Definition props_tower := (C18_Fp2_field,
  C20_Fp6_field,
  C21_Fp12_field,
  C18_representation,
  C20_representation,
  C21_representation,
  C18_add,
  C18_sub,
  C18_neg,
  C18_double,
  C18_conjugate,
  C18_mul,
  C18_square,
  C18_mulByNonResidue,
  C18_mulByB,
  C18_mulByFq,
  C18_inverse,
  C18_exp,
  C18_comparisons,
  C18_constants,
  C19_sqrt,
  C19_isQuadraticNonResidue,
  C13_fp2_lexicographically_largest,
  C13_fp2_exactly_one_largest,
  C13_fp2_sign,
  C13_fp2_sign_negation,
  C20_add,
  C20_sub,
  C20_neg,
  C20_double,
  C20_mul,
  C20_square,
  C20_mulBy01,
  C20_mulBy1,
  C20_mulByNonResidue,
  C20_mulByBaseField,
  C20_inverse,
  C20_exp,
  C20_comparisons,
  C20_constants,
  C21_add,
  C21_sub,
  C21_neg,
  C21_double,
  C21_conjugate,
  C21_mul,
  C21_square,
  C21_mulBy014,
  C21_inverse,
  C21_exp,
  C21_comparisons,
  C21_constants,
  C21_isGtValid,
  C22_fp2_frobenius,
  C22_fp6_frobeniusMapAssign,
  C22_fp6_frobeniusMap,
  C22_fp12_frobeniusMapAssign,
  C22_fp12_frobeniusMap,
  C22_fp6_frobeniusMap3_refuted,
  C22_fp12_frobeniusMap3_refuted,
  C22_fp12_frobenius_out_of_bounds,
  C23_cyclotomic_square,
  C23_cyclotomic_exp,
  C23_easy_part,
  C23_conjugate_is_inverse,
  C23_outside_subgroup,
  C54_fp2_codec,
  C54_fp6_codec,
  C54_fp12_codec,
  C54_encodings_exist).
Print Assumptions props_tower.
