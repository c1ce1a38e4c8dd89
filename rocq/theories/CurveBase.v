(** The base points of the code. *)
From Coq Require Import ZArith List Bool Lia Field.
From Verif Require Import SpecField FieldProof TowerProof TowerProof2 ModelWord ModelPrim ModelScalar ModelFp ModelTower FpProof FpProof2 TowerRefine.
From Verif Require Import SpecCurve AbGroup CurveProof ModelCurve CurveRefine CurveRefine2 CurveInst.
Import ListNotations.
Local Open Scope Z_scope.

(** coordinates of the standard generators *)
Definition GX : Z := 0x17f1d3a73197d7942695638c4fa9ac0fc3688c4f9774b905a14e3a3f171bac586c55e83ff97a1aeffb3af00adb22c6bb.
Definition GY : Z := 0x8b3f481e3aaa0f1a09e30ed741d8ae4fcf5e095d5d00af600db18cb2c04b3edd03cc744a2888ae40caa232946c5e7e1.
Definition QXa : Z := 0x24aa2b2f08f0a91260805272dc51051c6e47ad4fa403b02b4510b647ae3d1770bac0326a805bbefd48056c8c121bdb8.
Definition QXb : Z := 0x13e02b6052719f607dacd3a088274f65596bd0d09920b61ab5da61bbdc7f5049334cf11213945d57e5ac7d055d042b7e.
Definition QYa : Z := 0xce5d527727d6e118cc9cdc6da2e351aadfd9baa8cbdd3a76d429a695160d12c923ac9cc3baca289e193548608b82801.
Definition QYb : Z := 0x606c4a02ea734cc32acd2b02bc28b99cb3e287e85a763af267492ab572e99ab3f370d275cec1da1aaa9075ff05f79be.
Lemma dec_GX : dec (jx g1_BASE) = Fof GX.
Proof. unfold dec. apply (Fof_hint _ _ 0xe8995cbd66c701232fcc1017bd76c587417468b8222feaa155913e14a5e6257c9b388cb54e8048aeff2e56542d3c40f). vm_compute. reflexivity. Qed.
Lemma canon_GX : canon (jx g1_BASE). Proof. zchk. Qed.
Lemma dec_GY : dec (jy g1_BASE) = Fof GY.
Proof. unfold dec. apply (Fof_hint _ _ 0x979908cfbd1a9f26c99d91d0f9942a49ad991f13fb21d6cc54fa1e0e4bcce4400c4dd5c3b0338a537d15e452ab88abd). vm_compute. reflexivity. Qed.
Lemma canon_GY : canon (jy g1_BASE). Proof. zchk. Qed.
Lemma dec_QXa : dec (c0 (jx g2_BASE)) = Fof QXa.
Proof. unfold dec. apply (Fof_hint _ _ 0x4720e4e0565504ee1938a2b19631649fa104edbdc2fed313460d1e078854adb03722005d545f5b9c6835a7775840cd8). vm_compute. reflexivity. Qed.
Lemma canon_QXa : canon (c0 (jx g2_BASE)). Proof. zchk. Qed.
Lemma dec_QXb : dec (c1 (jx g2_BASE)) = Fof QXb.
Proof. unfold dec. apply (Fof_hint _ _ 0xe2fb8f95e2ca5298886125e282e16da6ecda25fd9babe85dd1e31a0f0721cb8cac08f98923b45e167d0af630490cfc6). vm_compute. reflexivity. Qed.
Lemma canon_QXb : canon (c1 (jx g2_BASE)). Proof. zchk. Qed.
Lemma dec_QYa : dec (c0 (jy g2_BASE)) = Fof QYa.
Proof. unfold dec. apply (Fof_hint _ _ 0x6a90f90270e5bc8ff84e3768304db7e986342d48e1199e3f9df2c2277f1e6f373f07c8f99e15e3ec37547ad2f993bd). vm_compute. reflexivity. Qed.
Lemma canon_QYa : canon (c0 (jy g2_BASE)). Proof. zchk. Qed.
Lemma dec_QYb : dec (c1 (jy g2_BASE)) = Fof QYb.
Proof. unfold dec. apply (Fof_hint _ _ 0x904e8ef9033fb011a7706e0588f9742e5e44e9b89f6ccc0ed3a90f678d0be18c04ef58c916b25f8efdde73cdb152da6). vm_compute. reflexivity. Qed.
Lemma canon_QYb : canon (c1 (jy g2_BASE)). Proof. zchk. Qed.
Lemma G_on : Fof (GY * GY) = Fof (GX * (GX * GX) + 4).
Proof. apply (Fof_hint _ _ (-0x20fefb381c4d328c28cc46e90650f295ad45dc7ce1d40b2b68bd5fdf6ceadd3e17d6c452933c7dffcbe2b211e3694aa8c4f9588d53b5baff2d3767298978f8b73c44ba75f39c8f35b61cedcb0e1cb4b445c6363f1a3543909fd379a38aee212)). vm_compute. reflexivity. Qed.
Lemma Q_on_re : Fof (QYa * QYa - QYb * QYb) = Fof (QXa * QXa * QXa - 3 * (QXa * QXb * QXb) + 4).
Proof. apply (Fof_hint _ _ 0x67f91ef03ee1825962bf74f2c70deccb5ad7d8b7896b01f532b2ea3746d2ba32dc9332c625e357dd4cb20258a2996cbcce310b98252104ce4e745ba26a82e6d5ab9129916a6a7522280169cadf5854225fc9cadfaea7843ac6eeb60e3f28cb). vm_compute. reflexivity. Qed.
Lemma Q_on_im : Fof (2 * (QYa * QYb)) = Fof (3 * (QXa * QXa * QXb) - QXb * QXb * QXb + 4).
Proof. apply (Fof_hint _ _ 0x121e65d0749b99c6414fe25a317d841a4c69994128bf26ce219bf82c719efe1c20bc2e7899a7010f0b0b41d6dc26f728033dabd368dd90cdae21d02addf3a4154762c637627663484ccc8f94609a698b5e348cc235d4179d097c80e5ef664d0). vm_compute. reflexivity. Qed.
#[global] Opaque GX GY QXa QXb QYa QYb.
Add Field Fp_fieldCB : F_field.
Definition G1pt : point KFp := @Aff KFp (Fof GX) (Fof GY).
Definition G2pt : point KFp2 := @Aff KFp2 (mkFp2 (Fof QXa) (Fof QXb)) (mkFp2 (Fof QYa) (Fof QYb)).
Lemma Fof2 : Fof 2 = Fadd F1 F1. Proof. apply fval_inj. vm_compute. reflexivity. Qed.
Lemma Fof3 : Fof 3 = Fadd F1 (Fadd F1 F1). Proof. apply fval_inj. vm_compute. reflexivity. Qed.
Lemma G1pt_on : onb b1 G1pt = true.
Proof. apply (onb_ok KFp KFp_field). unfold G1pt, CurveProof.onP, CurveProof.on, b1. cbn [KFp kmul kadd car]. rewrite <- !Fof_mul, <- Fof_add. rewrite G_on, Z.mul_assoc. reflexivity. Qed.
Lemma G2pt_on : onb b2 G2pt = true.
Proof.
  apply (onb_ok KFp2 KFp2_field). unfold G2pt, CurveProof.onP, b2, F2b, CurveProof.on. cbn [KFp2 kmul kadd car]. unfold F2mul, F2add. cbn [re im].
  pose proof Q_on_re as H1. pose proof Q_on_im as H2. repeat rewrite ?Fof_add, ?Fof_sub, ?Fof_mul in H1. repeat rewrite ?Fof_add, ?Fof_sub, ?Fof_mul in H2.
  apply F2_eq; cbn [re im].
  - etransitivity; [exact H1|]. rewrite Fof3. ring.
  - etransitivity; [|etransitivity; [exact H2|]]; [rewrite Fof2|rewrite Fof3]; ring.
Qed.
(** the generators as elements of the groups *)
Definition G1gen : E1 := mkC KFp b1 G1pt G1pt_on.
Definition G2gen : E2 := mkC KFp2 b2 G2pt G2pt_on.
Lemma F1_nz : F1 <> F0. Proof. exact (F_1_neq_0 F_field). Qed.
Lemma BASE1_rep : rep1g g1_BASE G1gen.
Proof.
  split; [split; [exact canon_GX|split; [exact canon_GY|exact canon_R1]]|].
  change (jacobian (K := KFp) (dec (jx g1_BASE)) (dec (jy g1_BASE)) (dec R1) G1pt). rewrite dec_GX, dec_GY, dec_R1.
  unfold jacobian, G1pt, ksq, kcube. cbn [KFp k0 kmul car]. split; [exact F1_nz|]. split; ring.
Qed.
Lemma BASE2_rep : rep2g g2_BASE G2gen.
Proof.
  split; [split; [split; [exact canon_QXa|exact canon_QXb]|split; [split; [exact canon_QYa|exact canon_QYb]|split; [exact canon_R1|exact canon_0]]]|].
  change (jacobian (K := KFp2) (mkFp2 (dec (c0 (jx g2_BASE))) (dec (c1 (jx g2_BASE)))) (mkFp2 (dec (c0 (jy g2_BASE))) (dec (c1 (jy g2_BASE)))) (mkFp2 (dec R1) (dec 0)) G2pt).
  rewrite dec_QXa, dec_QXb, dec_QYa, dec_QYb, dec_R1, dec_0.
  unfold jacobian, G2pt, ksq, kcube. cbn [KFp2 k0 kmul car].
  split; [intros H; apply F1_nz; exact (f_equal re H)|]. split; apply F2_eq; cbn [re im F2mul]; ring.
Qed.
