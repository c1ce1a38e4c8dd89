(** The two curves of BLS12-381 and the representation of their points by the code. *)
From Coq Require Import ZArith List Bool Lia Field.
From Verif Require Import SpecField FieldProof TowerProof ModelWord ModelPrim ModelScalar ScalarProof ModelFp ModelTower FpProof FpProof2 TowerRefine.
From Verif Require Import SpecCurve AbGroup CurveProof ModelCurve CurveRefine CurveRefine2.
Import ListNotations.
Local Open Scope Z_scope.

Definition KFp : fieldOps := mkField Fp F0 F1 Fadd Fsub Fmul Fopp Finv F_eq_dec.
Definition KFp2 : fieldOps := mkField Fp2 F2_0 F2_1 F2add F2sub F2mul F2opp F2inv F2_eq_dec.
Definition b1 : car KFp := Fof 4.
Definition b2 : car KFp2 := F2b.
Lemma KFp_field : field_theory (k0 : car KFp) k1 kadd kmul ksub kopp (fun x y => kmul x (kinv y)) kinv eq. Proof. exact F_field. Qed.
Lemma KFp2_field : field_theory (k0 : car KFp2) k1 kadd kmul ksub kopp (fun x y => kmul x (kinv y)) kinv eq. Proof. exact F2_field. Qed.
Lemma KFp_two : kadd (k1 : car KFp) k1 <> k0. Proof. exact F2_neq_0. Qed.
Lemma KFp_three : kadd (kadd (k1 : car KFp) k1) k1 <> k0.
Proof. intros H. apply (f_equal fval) in H. vm_compute in H. discriminate. Qed.
Lemma KFp2_two : kadd (k1 : car KFp2) k1 <> k0. Proof. intros H. apply F2_neq_0. exact (f_equal re H). Qed.
Lemma KFp2_three : kadd (kadd (k1 : car KFp2) k1) k1 <> k0. Proof. intros H. apply KFp_three. exact (f_equal re H). Qed.
Lemma b1_nz : b1 <> k0. Proof. intros H. apply (f_equal fval) in H. vm_compute in H. discriminate. Qed.
Lemma b2_nz : b2 <> k0. Proof. intros H. apply b1_nz. exact (f_equal re H). Qed.
(** the groups E(Fp): y^2 = x^3 + 4 and E'(Fp2): y^2 = x^3 + 4(1+u) *)
Definition E1 : abgroup := curve_group KFp KFp_field KFp_two KFp_three b1 b1_nz.
Definition E2 : abgroup := curve_group KFp2 KFp2_field KFp2_two KFp2_three b2 b2_nz.

Lemma fp_represents : represents fp_ops KFp canon dec.
Proof.
  constructor; cbn [fp_ops f_zero f_one f_add f_sub f_mul f_sqr f_dbl f_neg f_inv f_eq f_isZero f_isOne KFp k0 k1 kadd ksub kmul kopp kinv car]; intros.
  - split; [apply canon_0|apply dec_0].
  - split; [apply canon_R1|apply dec_R1].
  - split; [apply canon_add; auto|apply dec_add; auto].
  - split; [apply canon_sub; auto|apply dec_sub; auto].
  - split; [apply canon_mul; auto|apply dec_mul; auto].
  - split; [apply canon_sqr; auto|apply dec_sqr; auto].
  - split; [apply canon_double; auto|apply dec_double; auto].
  - split; [apply canon_neg; auto|apply dec_neg; auto].
  - split; [apply canon_inverse; auto|apply dec_inverse; auto].
  - rewrite equal_ok, Feqb_eq by auto. reflexivity.
  - rewrite isZero_ok, Feqb_eq by auto. reflexivity.
  - rewrite isOne_ok, Feqb_eq by auto. reflexivity.
Qed.
Lemma fp2_represents : represents fp2_ops KFp2 canon2 dec2.
Proof.
  constructor; cbn [fp2_ops f_zero f_one f_add f_sub f_mul f_sqr f_dbl f_neg f_inv f_eq f_isZero f_isOne KFp2 k0 k1 kadd ksub kmul kopp kinv car]; intros.
  - split; [apply canon2_zero|apply dec2_zero].
  - split; [apply canon2_one|apply dec2_one].
  - split; [apply canon2_add; auto|apply dec2_add; auto].
  - split; [apply canon2_sub; auto|apply dec2_sub; auto].
  - split; [apply canon2_mul; auto|apply dec2_mul; auto].
  - split; [apply canon2_sqr; auto|apply dec2_sqr; auto].
  - split; [apply canon2_dbl; auto|apply dec2_dbl; auto].
  - split; [apply canon2_neg; auto|apply dec2_neg; auto].
  - split; [apply canon2_inv; auto|apply dec2_inv; auto].
  - rewrite equal2_ok, F2eqb_eq by auto. reflexivity.
  - rewrite isZero2_ok, F2eqb_eq by auto. reflexivity.
  - rewrite isOne2_ok, F2eqb_eq by auto. reflexivity.
Qed.
Lemma dec2_inj x y : canon2 x -> canon2 y -> dec2 x = dec2 y -> x = y.
Proof.
  intros [A1 A2] [B1 B2] H. destruct x as [x0 x1], y as [y0 y1]. cbn in *. f_equal; apply dec_inj; auto;
  [exact (f_equal re H)|exact (f_equal im H)].
Qed.
Lemma B_R : R KFp canon dec B b1. Proof. split; [apply canon_B|apply dec_B]. Qed.
Lemma fp2_B_R : R KFp2 canon2 dec2 fp2_B b2.
Proof. split; [split; apply canon_B|]. unfold dec2, b2, F2b. f_equal; apply dec_B. Qed.

(** p is a valid g1 value denoting the point P *)
Definition rep1 (p : g1) (P : point KFp) : Prop := jrep KFp canon dec p P.
Definition rep2c (p : g2) (P : point KFp2) : Prop := jrep KFp2 canon2 dec2 p P.
(** ... the element P of the group *)
Definition rep1g (p : g1) (P : E1) : Prop := rep1 p (cpt (b := b1) P).
Definition rep2g (p : g2) (P : E2) : Prop := rep2c p (cpt (b := b2) P).
