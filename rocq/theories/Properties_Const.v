(** C63: the constants of the library are those of the BLS12 family at z = -0xd201000000010000 and of the standard Montgomery setting.
    [dec x]: the element of Fp with Montgomery form x (FpProof.v). *)
From Coq Require Import ZArith List Bool Lia.
From Verif Require Import SpecBytes SpecField SpecCurve ModelWord ModelScalar ModelPrim ModelFp ModelTower ModelCurve ModelKeys ModelLimb PortArith.
From Verif Require Import ScalarProof FpProof FieldProof TowerProof TowerRefine CurveProof CurveInst CurveBase.
From Verif Require Import SpecField.
Import ListNotations.
Local Open Scope Z_scope.

Definition z : Z := - 0xd201000000010000.
(** the two moduli of the specification, from the parameter alone *)
Theorem C63_family : order = z ^ 4 - z ^ 2 + 1 /\ 3 * (modulus - z) = (z - 1) ^ 2 * order /\ modulus mod 4 = 3.
Proof. split; [reflexivity|]. split; reflexivity. Qed.
(** fp::MODULUS, fp::Q and the exponents *)
Theorem C63_moduli : MODULUS = modulus /\ val MODl = modulus /\ Qorder = order /\ val Ql = order /\
  4 * pPlus1Over4 = modulus + 1 /\ 2 * pMinus1Over2 = modulus - 1 /\ 4 * pMinus3Over4 = modulus - 3.
Proof. repeat match goal with |- _ /\ _ => apply conj end; reflexivity. Qed.
(** Montgomery constants *)
Theorem C63_montgomery : (INP * modulus + 1) mod 2 ^ 64 = 0 /\ 0 <= INP < 2 ^ 64 /\ R1 = 2 ^ 384 mod modulus /\ R2 = 2 ^ 768 mod modulus /\
  val R1l = R1 /\ val R2l = R2 /\ val glvPhi1l = glvPhi1.
Proof. repeat match goal with |- _ /\ _ => apply conj end; try reflexivity; try discriminate. Qed.
Lemma glv_ne : dec glvPhi1 <> F1.
Proof.
  intros H. assert (X : fval (dec glvPhi1) =? fval F1 = false) by (vm_compute; reflexivity). rewrite H, Z.eqb_refl in X. discriminate X.
Qed.
(** coefficients: B = 4, twoInv = 1/2, glvPhi1 a primitive cube root of unity, B of the twist 4 (1 + u), the twist constants of psi:
    cube and square of psiX and psiY are xi / conj xi *)
Theorem C63_coefficients : dec B = Fof 4 /\ Fmul (dec twoInv) (Fof 2) = F1 /\
  Fadd (Fadd (Fmul (dec glvPhi1) (dec glvPhi1)) (dec glvPhi1)) F1 = F0 /\ dec glvPhi1 <> F1 /\
  dec2 fp2_B = mkFp2 (Fof 4) (Fof 4) /\ dec2 negativeOne2 = F2opp F2_1 /\
  F2mul (F2mul (F2mul (dec2 psiX) (dec2 psiX)) (dec2 psiX)) (F2conj xi) = xi /\ F2mul (F2mul (dec2 psiY) (dec2 psiY)) (F2conj xi) = xi.
Proof.
  assert (E : forall a b : Fp, fval a = fval b -> a = b) by exact fval_inj.
  assert (E2 : forall a b : Fp2, fval (re a) = fval (re b) -> fval (im a) = fval (im b) -> a = b) by (intros [a1 a2] [b1 b2] H1 H2; cbn [re im] in *; f_equal; apply E; assumption).
  repeat match goal with |- _ /\ _ => apply conj end; first [apply E; vm_compute; reflexivity|apply E2; vm_compute; reflexivity|exact glv_ne].
Qed.
(** cofactors: cofactorEFF of g1 is 1 - z, cofactorEFF of g2 is -z (also the parameter of the Miller loop) *)
Theorem C63_cofactors : val g1_cofactorEFF = 1 - z /\ val g2_cofactorEFF = - z.
Proof. split; reflexivity. Qed.
(** the base points are the published generators *)
Theorem C63_generators :
  dec (jx g1_BASE) = Fof 0x17f1d3a73197d7942695638c4fa9ac0fc3688c4f9774b905a14e3a3f171bac586c55e83ff97a1aeffb3af00adb22c6bb /\
  dec (jy g1_BASE) = Fof 0x08b3f481e3aaa0f1a09e30ed741d8ae4fcf5e095d5d00af600db18cb2c04b3edd03cc744a2888ae40caa232946c5e7e1 /\ dec (jz g1_BASE) = F1 /\
  dec2 (jx g2_BASE) = mkFp2 (Fof 0x024aa2b2f08f0a91260805272dc51051c6e47ad4fa403b02b4510b647ae3d1770bac0326a805bbefd48056c8c121bdb8)
                            (Fof 0x13e02b6052719f607dacd3a088274f65596bd0d09920b61ab5da61bbdc7f5049334cf11213945d57e5ac7d055d042b7e) /\
  dec2 (jy g2_BASE) = mkFp2 (Fof 0x0ce5d527727d6e118cc9cdc6da2e351aadfd9baa8cbdd3a76d429a695160d12c923ac9cc3baca289e193548608b82801)
                            (Fof 0x0606c4a02ea734cc32acd2b02bc28b99cb3e287e85a763af267492ab572e99ab3f370d275cec1da1aaa9075ff05f79be) /\ dec2 (jz g2_BASE) = F2_1.
Proof.
  assert (E : forall a b : Fp, fval a = fval b -> a = b) by exact fval_inj.
  assert (E2 : forall a b : Fp2, fval (re a) = fval (re b) -> fval (im a) = fval (im b) -> a = b) by (intros [a1 a2] [b1 b2] H1 H2; cbn [re im] in *; f_equal; apply E; assumption).
  repeat match goal with |- _ /\ _ => apply conj end; first [apply E; vm_compute; reflexivity|apply E2; vm_compute; reflexivity].
Qed.

Definition props_const := (C63_family, C63_moduli, C63_montgomery, C63_coefficients, C63_cofactors, C63_generators).
Print Assumptions props_const.
