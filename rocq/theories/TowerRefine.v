(** The extension-field classes compute in the towers of SpecField: refinement lemmas
    "canonical in -> canonical out, and the decoded result is the field operation". *)
From Coq Require Import ZArith List Bool Lia Ring Field.
From Verif Require Import RingPow NumTheory SpecField FieldProof TowerProof ModelWord ModelScalar ModelFp ModelTower
  ScalarProof FpProof FpProof2.
Import ListNotations.
Local Open Scope Z_scope.
Add Field Fp_fieldTR : F_field.
Add Field Fp2_fieldTR : F2_field.
Add Ring Fp6_ringTR : F6_ring.
Add Ring Fp12_ringTR : F12_ring.

Definition canon2 (x : fp2) : Prop := canon (c0 x) /\ canon (c1 x).
Definition dec2 (x : fp2) : Fp2 := mkFp2 (dec (c0 x)) (dec (c1 x)).
Definition canon6 (x : fp6) : Prop := canon2 (d0 x) /\ canon2 (d1 x) /\ canon2 (d2 x).
Definition dec6 (x : fp6) : Fp6 := mkFp6 (dec2 (d0 x)) (dec2 (d1 x)) (dec2 (d2 x)).
Definition canon12 (x : fp12) : Prop := canon6 (e0 x) /\ canon6 (e1 x).
Definition dec12 (x : fp12) : Fp12 := mkFp12 (dec6 (e0 x)) (dec6 (e1 x)).

(** ** fp2 *)
Lemma fp2_ext x y : c0 x = c0 y -> c1 x = c1 y -> x = y.
Proof. destruct x, y; cbn; congruence. Qed.
Lemma dec2_inj x y : canon2 x -> canon2 y -> dec2 x = dec2 y -> x = y.
Proof.
  intros [A A'] [C C'] E. apply fp2_ext; apply dec_inj; auto.
  - apply (f_equal re) in E. exact E.
  - apply (f_equal im) in E. exact E.
Qed.
Definition enc2 (a : Fp2) : fp2 := mk2 (enc (re a)) (enc (im a)).
Lemma canon2_enc a : canon2 (enc2 a). Proof. split; apply canon_enc. Qed.
Lemma dec2_enc a : dec2 (enc2 a) = a.
Proof. apply F2_eq; unfold dec2, enc2; cbn [c0 c1 re im]; apply dec_enc. Qed.

Ltac c2 := intros; repeat match goal with H : canon2 _ |- _ => destruct H end;
  split; cbv [fp2_zero fp2_one fp_zero fp_one fp2_add fp2_dbl fp2_sub fp2_neg fp2_conj fp2_mul fp2_mulXi fp2_mulByB fp2_inv fp2_mulByFq]; cbn [c0 c1]; auto 20 with canon.
Ltac e2 := intros; repeat match goal with H : canon2 _ |- _ => destruct H end;
  unfold dec2; cbn [c0 c1]; autorewrite with dec; apply F2_eq; f2_unf; try ring.
Lemma canon2_zero : canon2 fp2_zero. Proof. unfold fp2_zero, fp_zero. c2. Qed.
Lemma dec2_zero : dec2 fp2_zero = F2_0. Proof. reflexivity. Qed.
Lemma canon2_one : canon2 fp2_one. Proof. unfold fp2_one, fp_one, fp_zero. c2. Qed.
Lemma dec2_one : dec2 fp2_one = F2_1. Proof. unfold fp2_one, fp_one, fp_zero. e2. Qed.
Lemma canon2_add x y : canon2 x -> canon2 y -> canon2 (fp2_add x y). Proof. c2. Qed.
Lemma dec2_add x y : canon2 x -> canon2 y -> dec2 (fp2_add x y) = F2add (dec2 x) (dec2 y). Proof. unfold fp2_add. e2. Qed.
Lemma canon2_dbl x : canon2 x -> canon2 (fp2_dbl x). Proof. c2. Qed.
Lemma dec2_dbl x : canon2 x -> dec2 (fp2_dbl x) = F2add (dec2 x) (dec2 x). Proof. unfold fp2_dbl. e2. Qed.
Lemma canon2_sub x y : canon2 x -> canon2 y -> canon2 (fp2_sub x y). Proof. c2. Qed.
Lemma dec2_sub x y : canon2 x -> canon2 y -> dec2 (fp2_sub x y) = F2sub (dec2 x) (dec2 y). Proof. unfold fp2_sub. e2. Qed.
Lemma canon2_neg x : canon2 x -> canon2 (fp2_neg x). Proof. c2. Qed.
Lemma dec2_neg x : canon2 x -> dec2 (fp2_neg x) = F2opp (dec2 x). Proof. unfold fp2_neg. e2. Qed.
Lemma canon2_conj x : canon2 x -> canon2 (fp2_conj x). Proof. c2. Qed.
Lemma dec2_conj x : canon2 x -> dec2 (fp2_conj x) = F2conj (dec2 x). Proof. unfold fp2_conj. e2. Qed.
Lemma canon2_mul x y : canon2 x -> canon2 y -> canon2 (fp2_mul x y). Proof. unfold fp2_mul. cbv zeta. c2. Qed.
Lemma dec2_mul x y : canon2 x -> canon2 y -> dec2 (fp2_mul x y) = F2mul (dec2 x) (dec2 y).
Proof. unfold fp2_mul. cbv zeta. e2. Qed.
Lemma canon2_mulXi x : canon2 x -> canon2 (fp2_mulXi x). Proof. c2. Qed.
Lemma dec2_mulXi x : canon2 x -> dec2 (fp2_mulXi x) = F2mul xi (dec2 x). Proof. unfold fp2_mulXi. e2. Qed.
Lemma lazy_mul x y z : canon x -> canon y -> canon z ->
  canon (fp_mul (fp_ladd x y) z) /\ dec (fp_mul (fp_ladd x y) z) = Fmul (Fadd (dec x) (dec y)) (dec z).
Proof.
  intros Hx Hy Hz. destruct (fp_ladd_ok x y Hx Hy) as [R E].
  destruct (fp_mul_ok (fp_ladd x y) z) as [C D].
  - apply (mul_range 2 1); auto using canon_range; lia.
  - split; [exact C|]. rewrite D, E. reflexivity.
Qed.
Lemma canon2_sqr x : canon2 x -> canon2 (fp2_sqr x).
Proof. intros [A C]. split; cbn [fp2_sqr c0 c1]; [|rewrite fp_ldouble_ladd]; apply lazy_mul; auto with canon. Qed.
Lemma dec2_sqr x : canon2 x -> dec2 (fp2_sqr x) = F2mul (dec2 x) (dec2 x).
Proof.
  intros [A C]. unfold dec2. cbn [fp2_sqr c0 c1]. rewrite fp_ldouble_ladd.
  destruct (lazy_mul (c0 x) (c1 x) (fp_sub (c0 x) (c1 x))) as [_ ->]; auto with canon.
  destruct (lazy_mul (c0 x) (c0 x) (c1 x)) as [_ ->]; auto with canon.
  autorewrite with dec. apply F2_eq; f2_unf; ring.
Qed.
Lemma canon2_mulByB x : canon2 x -> canon2 (fp2_mulByB x). Proof. unfold fp2_mulByB. cbv zeta. c2. Qed.
Definition F2b : Fp2 := mkFp2 (Fof 4) (Fof 4).
Lemma Fof4 : Fof 4 = Fadd (Fadd F1 F1) (Fadd F1 F1). Proof. apply fval_inj. vm_compute. reflexivity. Qed.
Lemma dec2_mulByB x : canon2 x -> dec2 (fp2_mulByB x) = F2mul F2b (dec2 x).
Proof. unfold fp2_mulByB, F2b. rewrite Fof4. cbv zeta. e2. Qed.
Lemma canon2_inv x : canon2 x -> canon2 (fp2_inv x). Proof. unfold fp2_inv. cbv zeta. c2. Qed.
Lemma dec2_inv x : canon2 x -> dec2 (fp2_inv x) = F2inv (dec2 x).
Proof.
  intros [A C]. unfold fp2_inv, dec2, F2inv. cbv zeta. cbn [c0 c1 re im]. autorewrite with dec.
  unfold F2norm; cbn [re im]. apply F2_eq; cbn [re im]; ring.
Qed.
Lemma canon2_mulByFq x e : canon2 x -> canon e -> canon2 (fp2_mulByFq x e). Proof. unfold fp2_mulByFq. c2. Qed.
Lemma dec2_mulByFq x e : canon2 x -> canon e -> dec2 (fp2_mulByFq x e) = F2mul (F2of (dec e)) (dec2 x).
Proof. unfold fp2_mulByFq. e2. Qed.
Lemma canon2_frob x n : canon2 x -> canon2 (fp2_frob x n).
Proof. unfold fp2_frob. destruct (_ =? _); c2. Qed.
Lemma dec2_frob x n : canon2 x -> dec2 (fp2_frob x n) = if n mod 2 =? 1 then F2conj (dec2 x) else dec2 x.
Proof. unfold fp2_frob. destruct (_ =? _); [e2|reflexivity]. Qed.

#[global] Hint Resolve canon2_zero canon2_one canon2_add canon2_dbl canon2_sub canon2_neg canon2_conj canon2_mul canon2_mulXi
  canon2_sqr canon2_mulByB canon2_inv canon2_mulByFq canon2_frob : canon.
#[global] Hint Rewrite dec2_add dec2_dbl dec2_sub dec2_neg dec2_conj dec2_mul dec2_mulXi dec2_sqr dec2_mulByB dec2_inv
  dec2_mulByFq using (auto 20 with canon) : dec.
#[global] Hint Rewrite dec2_zero dec2_one : dec.

Definition F2eqb (a b : Fp2) : bool := Feqb (re a) (re b) && Feqb (im a) (im b).
Lemma F2eqb_eq a b : F2eqb a b = true <-> a = b.
Proof.
  unfold F2eqb. rewrite andb_true_iff, !Feqb_eq. split; [intros []; apply F2_eq; auto|intros ->; auto].
Qed.
Lemma isZero2_ok x : canon2 x -> fp2_isZero x = F2eqb (dec2 x) F2_0.
Proof. intros [A C]. unfold fp2_isZero. rewrite !isZero_ok by auto. reflexivity. Qed.
Lemma isOne2_ok x : canon2 x -> fp2_isOne x = F2eqb (dec2 x) F2_1.
Proof. intros [A C]. unfold fp2_isOne. rewrite isZero_ok, isOne_ok by auto. reflexivity. Qed.
Lemma equal2_ok x y : canon2 x -> canon2 y -> fp2_equal x y = F2eqb (dec2 x) (dec2 y).
Proof. intros [A C] [A' C']. unfold fp2_equal. rewrite !equal_ok by auto. reflexivity. Qed.


Section ExpRing.
Context {T R : Type} {r0 r1 : R} {radd rmul rsub : R -> R -> R} {ropp : R -> R}.
Variable Rth : ring_theory r0 r1 radd rmul rsub ropp eq.
Variables (cn : T -> Prop) (dc : T -> R) (one : T) (sq : T -> T) (mul : T -> T -> T).
Hypothesis one_ok : cn one /\ dc one = r1.
Hypothesis mul_ok : forall x y, cn x -> cn y -> cn (mul x y) /\ dc (mul x y) = rmul (dc x) (dc y).
Variable x : T.
Hypothesis Hx : cn x.
(** the squaring routine is only required to be right on powers of the base *)
Hypothesis sq_ok : forall z e, 0 <= e -> cn z -> dc z = rpow r1 rmul (dc x) e -> cn (sq z) /\ dc (sq z) = rmul (dc z) (dc z).
Lemma gexp_ring s : words s -> cn (gexp one sq mul x s) /\ dc (gexp one sq mul x s) = rpow r1 rmul (dc x) (val s).
Proof.
  intros Hs. apply (gexp_ok _ sq mul one (fun e z => cn z /\ dc z = rpow r1 rmul (dc x) e) x); auto.
  - intros e z He [C E]. destruct (sq_ok z e He C E) as [C' E']. split; [exact C'|].
    rewrite E', E, <- (rpow_add Rth) by lia. f_equal. lia.
  - intros e z He [C E]. destruct (mul_ok z x C Hx) as [C' E']. split; [exact C'|].
    rewrite E', E, (rpow_succ Rth) by lia. apply (Rmul_comm Rth).
Qed.
End ExpRing.
Lemma fp2_exp_ok x s : canon2 x -> words s -> canon2 (fp2_exp x s) /\ dec2 (fp2_exp x s) = F2pow (dec2 x) (val s).
Proof.
  intros Hx Hs. apply (gexp_ring F2_ring canon2 dec2); auto using canon2_one, dec2_one.
  - auto using canon2_mul, dec2_mul.
  - auto using canon2_sqr, dec2_sqr.
Qed.

(** ** fp6 *)
Lemma dec6_inj x y : canon6 x -> canon6 y -> dec6 x = dec6 y -> x = y.
Proof.
  intros (A & A' & A'') (C & C' & C'') E. destruct x as [x0 x1 x2], y as [y0 y1 y2]; cbn [d0 d1 d2] in *.
  f_equal; apply dec2_inj; auto; [apply (f_equal co0) in E|apply (f_equal co1) in E|apply (f_equal co2) in E]; exact E.
Qed.
Ltac c6 := intros; repeat match goal with H : canon6 _ |- _ => destruct H as (? & ? & ?) end;
  cbv [fp6_zero fp6_one fp6_add fp6_dbl fp6_sub fp6_neg fp6_mul fp6_sqr fp6_mulBy01Assign fp6_mulBy01 fp6_mulBy1 fp6_mulV
    fp6_mulByBase fp6_inv]; refine (conj _ (conj _ _)); cbn [d0 d1 d2]; auto 20 with canon.
Ltac e6 := intros; repeat match goal with H : canon6 _ |- _ => destruct H as (? & ? & ?) end;
  cbv [fp6_zero fp6_one fp6_add fp6_dbl fp6_sub fp6_neg fp6_mul fp6_sqr fp6_mulBy01Assign fp6_mulBy01 fp6_mulBy1 fp6_mulV fp6_mulByBase];
  unfold dec6; cbn [d0 d1 d2]; autorewrite with dec; apply F6_eq; f6_unf; try ring.
Lemma canon6_zero : canon6 fp6_zero. Proof. c6. Qed.
Lemma dec6_zero : dec6 fp6_zero = F6_0. Proof. reflexivity. Qed.
Lemma canon6_one : canon6 fp6_one. Proof. c6. Qed.
Lemma dec6_one : dec6 fp6_one = F6_1. Proof. e6. Qed.
Lemma canon6_add x y : canon6 x -> canon6 y -> canon6 (fp6_add x y). Proof. c6. Qed.
Lemma dec6_add x y : canon6 x -> canon6 y -> dec6 (fp6_add x y) = F6add (dec6 x) (dec6 y). Proof. e6. Qed.
Lemma canon6_dbl x : canon6 x -> canon6 (fp6_dbl x). Proof. c6. Qed.
Lemma dec6_dbl x : canon6 x -> dec6 (fp6_dbl x) = F6add (dec6 x) (dec6 x). Proof. e6. Qed.
Lemma canon6_sub x y : canon6 x -> canon6 y -> canon6 (fp6_sub x y). Proof. c6. Qed.
Lemma dec6_sub x y : canon6 x -> canon6 y -> dec6 (fp6_sub x y) = F6sub (dec6 x) (dec6 y). Proof. e6. Qed.
Lemma canon6_neg x : canon6 x -> canon6 (fp6_neg x). Proof. c6. Qed.
Lemma dec6_neg x : canon6 x -> dec6 (fp6_neg x) = F6opp (dec6 x). Proof. e6. Qed.
Lemma canon6_mul x y : canon6 x -> canon6 y -> canon6 (fp6_mul x y). Proof. c6. Qed.
Lemma dec6_mul x y : canon6 x -> canon6 y -> dec6 (fp6_mul x y) = F6mul (dec6 x) (dec6 y). Proof. e6. Qed.
Lemma canon6_sqr x : canon6 x -> canon6 (fp6_sqr x). Proof. c6. Qed.
Lemma dec6_sqr x : canon6 x -> dec6 (fp6_sqr x) = F6mul (dec6 x) (dec6 x). Proof. e6. Qed.
(** sparse factors *)
Definition F6of01 (a b : Fp2) : Fp6 := mkFp6 a b F2_0.
Definition F6of1 (b : Fp2) : Fp6 := mkFp6 F2_0 b F2_0.
Lemma canon6_mulBy01 x a b : canon6 x -> canon2 a -> canon2 b -> canon6 (fp6_mulBy01 x a b). Proof. c6. Qed.
Lemma dec6_mulBy01 x a b : canon6 x -> canon2 a -> canon2 b -> dec6 (fp6_mulBy01 x a b) = F6mul (dec6 x) (F6of01 (dec2 a) (dec2 b)).
Proof. unfold F6of01. e6. Qed.
Lemma canon6_mulBy01Assign x a b : canon6 x -> canon2 a -> canon2 b -> canon6 (fp6_mulBy01Assign x a b). Proof. c6. Qed.
Lemma dec6_mulBy01Assign x a b : canon6 x -> canon2 a -> canon2 b -> dec6 (fp6_mulBy01Assign x a b) = F6mul (dec6 x) (F6of01 (dec2 a) (dec2 b)).
Proof. unfold F6of01. e6. Qed.
Lemma canon6_mulBy1 x b : canon6 x -> canon2 b -> canon6 (fp6_mulBy1 x b). Proof. c6. Qed.
Lemma dec6_mulBy1 x b : canon6 x -> canon2 b -> dec6 (fp6_mulBy1 x b) = F6mul (dec6 x) (F6of1 (dec2 b)).
Proof. unfold F6of1. e6. Qed.
Lemma canon6_mulV x : canon6 x -> canon6 (fp6_mulV x). Proof. c6. Qed.
Lemma dec6_mulV x : canon6 x -> dec6 (fp6_mulV x) = F6mul F6v (dec6 x). Proof. e6. Qed.
Lemma canon6_mulByBase x b : canon6 x -> canon2 b -> canon6 (fp6_mulByBase x b). Proof. c6. Qed.
Lemma dec6_mulByBase x b : canon6 x -> canon2 b -> dec6 (fp6_mulByBase x b) = F6mul (F6of (dec2 b)) (dec6 x). Proof. e6. Qed.
Lemma canon6_inv x : canon6 x -> canon6 (fp6_inv x). Proof. c6. Qed.
Lemma dec6_inv x : canon6 x -> dec6 (fp6_inv x) = F6inv (dec6 x).
Proof.
  intros (A & C & D). unfold fp6_inv. cbv zeta. unfold dec6 at 1. cbn [d0 d1 d2]. autorewrite with dec.
  unfold F6inv. set (n := F6norm (dec6 x)).
  match goal with |- context [F2inv ?t] => replace t with n end.
  - apply F6_eq; unfold F6scale, F6adj; cbn [co0 co1 co2 dec6]; ring.
  - unfold n, F6norm, F6adj. cbn [co0 co1 co2 dec6]. ring.
Qed.
#[global] Hint Resolve canon6_zero canon6_one canon6_add canon6_dbl canon6_sub canon6_neg canon6_mul canon6_sqr canon6_mulBy01
  canon6_mulBy01Assign canon6_mulBy1 canon6_mulV canon6_mulByBase canon6_inv : canon.
#[global] Hint Rewrite dec6_add dec6_dbl dec6_sub dec6_neg dec6_mul dec6_sqr dec6_mulBy01 dec6_mulBy01Assign dec6_mulBy1 dec6_mulV
  dec6_mulByBase dec6_inv using (auto 20 with canon) : dec.
#[global] Hint Rewrite dec6_zero dec6_one : dec.
Definition F6eqb (a b : Fp6) : bool := F2eqb (co0 a) (co0 b) && F2eqb (co1 a) (co1 b) && F2eqb (co2 a) (co2 b).
Lemma F6eqb_eq a b : F6eqb a b = true <-> a = b.
Proof.
  unfold F6eqb. rewrite !andb_true_iff, !F2eqb_eq. split; [intros [[] ?]; apply F6_eq; auto|intros ->; auto].
Qed.
Lemma isZero6_ok x : canon6 x -> fp6_isZero x = F6eqb (dec6 x) F6_0.
Proof. intros (A & C & D). unfold fp6_isZero. rewrite !isZero2_ok by auto. reflexivity. Qed.
Lemma isOne6_ok x : canon6 x -> fp6_isOne x = F6eqb (dec6 x) F6_1.
Proof. intros (A & C & D). unfold fp6_isOne. rewrite !isZero2_ok, isOne2_ok by auto. reflexivity. Qed.
Lemma equal6_ok x y : canon6 x -> canon6 y -> fp6_equal x y = F6eqb (dec6 x) (dec6 y).
Proof. intros (A & C & D) (A' & C' & D'). unfold fp6_equal. rewrite !equal2_ok by auto. reflexivity. Qed.
Lemma fp6_exp_ok x s : canon6 x -> words s -> canon6 (fp6_exp x s) /\ dec6 (fp6_exp x s) = F6pow (dec6 x) (val s).
Proof.
  intros Hx Hs. apply (gexp_ring F6_ring canon6 dec6); auto using canon6_one, dec6_one.
  - auto using canon6_mul, dec6_mul.
  - auto using canon6_sqr, dec6_sqr.
Qed.

(** ** fp12 *)
Lemma dec12_inj x y : canon12 x -> canon12 y -> dec12 x = dec12 y -> x = y.
Proof.
  intros (A & A') (C & C') E. destruct x as [x0 x1], y as [y0 y1]; cbn [e0 e1] in *.
  f_equal; apply dec6_inj; auto; [apply (f_equal lo) in E|apply (f_equal hi) in E]; exact E.
Qed.
Ltac c12 := intros; repeat match goal with H : canon12 _ |- _ => destruct H as (? & ?) end;
  cbv [fp12_zero fp12_one fp12_add fp12_dbl fp12_sub fp12_neg fp12_conj fp12_mul fp12_sqr fp12_mulBy014 fp12_inv];
  apply conj; cbn [e0 e1]; auto 20 with canon.
Ltac e12 := intros; repeat match goal with H : canon12 _ |- _ => destruct H as (? & ?) end;
  cbv [fp12_zero fp12_one fp12_add fp12_dbl fp12_sub fp12_neg fp12_conj fp12_mul fp12_sqr fp12_mulBy014];
  unfold dec12; cbn [e0 e1]; autorewrite with dec; apply F12_eq; f12_unf; try ring.
Lemma canon12_zero : canon12 fp12_zero. Proof. c12. Qed.
Lemma dec12_zero : dec12 fp12_zero = F12_0. Proof. reflexivity. Qed.
Lemma canon12_one : canon12 fp12_one. Proof. c12. Qed.
Lemma dec12_one : dec12 fp12_one = F12_1. Proof. e12. Qed.
Lemma canon12_add x y : canon12 x -> canon12 y -> canon12 (fp12_add x y). Proof. c12. Qed.
Lemma dec12_add x y : canon12 x -> canon12 y -> dec12 (fp12_add x y) = F12add (dec12 x) (dec12 y). Proof. e12. Qed.
Lemma canon12_dbl x : canon12 x -> canon12 (fp12_dbl x). Proof. c12. Qed.
Lemma dec12_dbl x : canon12 x -> dec12 (fp12_dbl x) = F12add (dec12 x) (dec12 x). Proof. e12. Qed.
Lemma canon12_sub x y : canon12 x -> canon12 y -> canon12 (fp12_sub x y). Proof. c12. Qed.
Lemma dec12_sub x y : canon12 x -> canon12 y -> dec12 (fp12_sub x y) = F12sub (dec12 x) (dec12 y). Proof. e12. Qed.
Lemma canon12_neg x : canon12 x -> canon12 (fp12_neg x). Proof. c12. Qed.
Lemma dec12_neg x : canon12 x -> dec12 (fp12_neg x) = F12opp (dec12 x). Proof. e12. Qed.
Lemma canon12_conj x : canon12 x -> canon12 (fp12_conj x). Proof. c12. Qed.
Lemma dec12_conj x : canon12 x -> dec12 (fp12_conj x) = F12conj (dec12 x). Proof. e12. Qed.
Lemma canon12_mul x y : canon12 x -> canon12 y -> canon12 (fp12_mul x y). Proof. c12. Qed.
Lemma dec12_mul x y : canon12 x -> canon12 y -> dec12 (fp12_mul x y) = F12mul (dec12 x) (dec12 y). Proof. e12. Qed.
Lemma canon12_sqr x : canon12 x -> canon12 (fp12_sqr x). Proof. c12. Qed.
Lemma dec12_sqr x : canon12 x -> dec12 (fp12_sqr x) = F12mul (dec12 x) (dec12 x). Proof. e12. Qed.
(** the sparse line values: a + b v + c v w *)
Definition F12of014 (a b c : Fp2) : Fp12 := mkFp12 (F6of01 a b) (F6of1 c).
Lemma canon12_mulBy014 x a b c : canon12 x -> canon2 a -> canon2 b -> canon2 c -> canon12 (fp12_mulBy014 x a b c). Proof. c12. Qed.
Lemma F6of01_add a b c : F6of01 a (F2add b c) = F6add (F6of01 a b) (F6of1 c).
Proof. apply F6_eq; unfold F6of01, F6of1; f6_unf; ring. Qed.
Lemma dec12_mulBy014 x a b c : canon12 x -> canon2 a -> canon2 b -> canon2 c ->
  dec12 (fp12_mulBy014 x a b c) = F12mul (dec12 x) (F12of014 (dec2 a) (dec2 b) (dec2 c)).
Proof. unfold F12of014. e12. rewrite F6of01_add. ring. Qed.
Lemma canon12_inv x : canon12 x -> canon12 (fp12_inv x). Proof. c12. Qed.
Lemma dec12_inv x : canon12 x -> dec12 (fp12_inv x) = F12inv (dec12 x).
Proof.
  intros (A & C). unfold fp12_inv. cbv zeta. unfold dec12 at 1. cbn [e0 e1]. autorewrite with dec.
  unfold F12inv, F12norm. cbn [lo hi dec12]. apply F12_eq; cbn [lo hi]; ring.
Qed.
#[global] Hint Resolve canon12_zero canon12_one canon12_add canon12_dbl canon12_sub canon12_neg canon12_conj canon12_mul canon12_sqr
  canon12_mulBy014 canon12_inv : canon.
#[global] Hint Rewrite dec12_add dec12_dbl dec12_sub dec12_neg dec12_conj dec12_mul dec12_sqr dec12_mulBy014
  dec12_inv using (auto 20 with canon) : dec.
#[global] Hint Rewrite dec12_zero dec12_one : dec.
Definition F12eqb (a b : Fp12) : bool := F6eqb (lo a) (lo b) && F6eqb (hi a) (hi b).
Lemma F12eqb_eq a b : F12eqb a b = true <-> a = b.
Proof.
  unfold F12eqb. rewrite !andb_true_iff, !F6eqb_eq. split; [intros []; apply F12_eq; auto|intros ->; auto].
Qed.
Lemma isZero12_ok x : canon12 x -> fp12_isZero x = F12eqb (dec12 x) F12_0.
Proof. intros (A & C). unfold fp12_isZero. rewrite !isZero6_ok by auto. reflexivity. Qed.
Lemma isOne12_ok x : canon12 x -> fp12_isOne x = F12eqb (dec12 x) F12_1.
Proof. intros (A & C). unfold fp12_isOne. rewrite !isZero6_ok, isOne6_ok by auto. reflexivity. Qed.
Lemma equal12_ok x y : canon12 x -> canon12 y -> fp12_equal x y = F12eqb (dec12 x) (dec12 y).
Proof. intros (A & C) (A' & C'). unfold fp12_equal. rewrite !equal6_ok by auto. reflexivity. Qed.
Lemma fp12_exp_ok x s : canon12 x -> words s -> canon12 (fp12_exp x s) /\ dec12 (fp12_exp x s) = F12pow (dec12 x) (val s).
Proof.
  intros Hx Hs. apply (gexp_ring F12_ring canon12 dec12); auto using canon12_one, dec12_one.
  - auto using canon12_mul, dec12_mul.
  - auto using canon12_sqr, dec12_sqr.
Qed.
