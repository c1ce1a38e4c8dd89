(** Properties C32 (compressed round trip), C33 (what the compressed decoder accepts), C34 (affine and Jacobian codecs).
    enc_g1, enc_g2 (SpecCodec.v) are the reference encodings of finite points; rep1g p P: the g1 value p denotes the curve point P. *)
From Coq Require Import ZArith List Bool Lia.
From Verif Require Import SpecField FieldProof TowerProof TowerProof2 ModelWord ModelPrim ModelScalar ScalarProof ModelFp ModelTower FpProof FpProof2 TowerRefine TowerRefine3.
From Verif Require Import SpecBytes BytesProof FpCodec SpecCodec.
From Verif Require Import SpecCurve AbGroup CurveProof ModelCurve CurveRefine CurveRefine2 CurveInst CurveBase CurveReps ModelCodec CodecProof CodecProof2.
Import ListNotations.
Local Open Scope Z_scope.

(** C32, finite points: the encoder follows the format, and the decoder returns the same point. *)
Theorem C32_g1_format : forall p (P : E1) x y, rep1g p P -> cpt P = Aff x y -> g1_toCompressed p = enc_g1 x y.
Proof. intros p P x y H E. unfold rep1g in H. rewrite E in H. apply g1_enc; [exact H|]. rewrite <- E. apply cpt_on. Qed.
Theorem C32_g2_format : forall p (P : E2) x y, rep2g p P -> cpt P = Aff x y -> g2_toCompressed p = enc_g2 x y.
Proof. intros p P x y H E. unfold rep2g in H. rewrite E in H. apply g2_enc; [exact H|]. rewrite <- E. apply cpt_on. Qed.
Theorem C32_g1_roundtrip : forall p (P : E1), rep1g p P -> P <> gid ->
  exists q, g1_fromCompressed (g1_toCompressed p) = Some q /\ rep1g q P /\ g1_equal p q = true.
Proof.
  intros p P H N. destruct (cpt P) as [|x y] eqn:E; [exfalso; apply N, curve_eq; exact E|].
  rewrite (C32_g1_format p P x y H E). destruct (g1_rt x y) as (q & Hq & Rq); [rewrite <- E; apply cpt_on|].
  exists q. split; [exact Hq|]. assert (R' : rep1g q P) by (unfold rep1g; rewrite E; exact Rq). split; [exact R'|].
  apply (rep1g_equal p q P P H R'). reflexivity.
Qed.
Theorem C32_g2_roundtrip : forall p (P : E2), rep2g p P -> P <> gid ->
  exists q, g2_fromCompressed (g2_toCompressed p) = Some q /\ rep2g q P /\ g2_equal p q = true.
Proof.
  intros p P H N. destruct (cpt P) as [|x y] eqn:E; [exfalso; apply N, curve_eq; exact E|].
  rewrite (C32_g2_format p P x y H E). destruct (g2_rt x y) as (q & Hq & Rq); [rewrite <- E; apply cpt_on|].
  exists q. split; [exact Hq|]. assert (R' : rep2g q P) by (unfold rep2g; rewrite E; exact Rq). split; [exact R'|].
  apply (rep2g_equal p q P P H R'). reflexivity.
Qed.
(** two finite points have the same encoding only if they are equal *)
Theorem C32_g1_injective : forall p q (P Q : E1), rep1g p P -> rep1g q Q -> P <> gid -> Q <> gid -> g1_toCompressed p = g1_toCompressed q -> P = Q.
Proof.
  intros p q P Q HP HQ NP NQ E. destruct (C32_g1_roundtrip p P HP NP) as (p' & E1 & R1 & _). destruct (C32_g1_roundtrip q Q HQ NQ) as (q' & E2 & R2 & _).
  rewrite E, E2 in E1. injection E1 as <-. exact (rep1g_fun _ _ _ R1 R2).
Qed.
Theorem C32_g2_injective : forall p q (P Q : E2), rep2g p P -> rep2g q Q -> P <> gid -> Q <> gid -> g2_toCompressed p = g2_toCompressed q -> P = Q.
Proof.
  intros p q P Q HP HQ NP NQ E. destruct (C32_g2_roundtrip p P HP NP) as (p' & E1 & R1 & _). destruct (C32_g2_roundtrip q Q HQ NQ) as (q' & E2 & R2 & _).
  rewrite E, E2 in E1. injection E1 as <-. exact (rep2g_fun _ _ _ R1 R2).
Qed.
(** The point at infinity: g1::zero() = (0,1,0) is encoded like a finite point and decodes to a point with x = 0, y = 2 or -2. *)
Lemma zero_enc1 : g1_toCompressed g1_zero = int_be 48 (0 + flags false). Proof. vm_compute. reflexivity. Qed.
Lemma zero_enc2 : g2_toCompressed g2_zero = int_be 48 (0 + flags false) ++ int_be 48 0. Proof. vm_compute. reflexivity. Qed.
Theorem C32_g1_infinity_refuted : exists q (Q : E1), g1_fromCompressed (g1_toCompressed g1_zero) = Some q /\ rep1g q Q /\ Q <> gid.
Proof.
  rewrite zero_enc1. destruct (flags_bits 0 false ltac:(lia)) as (H1 & H2 & H3 & H4 & H5).
  rewrite g1_dec_eq by (auto using int_be_bytes, int_be_length). rewrite be48 by exact H5.
  exact (g1_dec_finite _ _ _ H1 H2 (f_equal Fof H4) on02).
Qed.
(** g2::zero() is also encoded like a finite point with x = 0, which is not on the curve: the decoder rejects it. *)
Theorem C32_g2_infinity_refuted : g2_fromCompressed (g2_toCompressed g2_zero) = None.
Proof.
  rewrite zero_enc2. destruct (flags_bits 0 false ltac:(lia)) as (H1 & H2 & H3 & H4 & H5).
  rewrite g2_dec_eq by (auto using int_be_bytes, int_be_length). rewrite !be48 by (exact H5 || lia).
  refine (g2_dec_reject _ 0 _ H1 H2 _ _ not_on0_2); [split; [discriminate|reflexivity]|]. unfold X2of. rewrite H4. reflexivity.
Qed.
(** only the representation (0,0,0) of infinity is encoded as 0xC0 00 ... and decodes to zero() *)
Theorem C32_infinity_000 :
  (forall p, rep1g p gid -> jx p = fp_zero -> jy p = fp_zero -> g1_toCompressed p = 0xC0 :: repeat 0 47 /\ g1_fromCompressed (g1_toCompressed p) = Some g1_zero) /\
  (forall p, rep2g p gid -> jx p = fp2_zero -> jy p = fp2_zero -> g2_toCompressed p = 0xC0 :: repeat 0 95 /\ g2_fromCompressed (g2_toCompressed p) = Some g2_zero).
Proof.
  split; intros p H Hx Hy.
  - assert (E : g1_toCompressed p = 0xC0 :: repeat 0 47).
    { unfold g1_toCompressed, g1_affine, j_affine. fold (g1_isZero p). rewrite (proj2 (rep1g_isZero p gid H) eq_refl). cbn [orb]. rewrite Hx, Hy. reflexivity. }
    split; [exact E|]. rewrite E. reflexivity.
  - assert (E : g2_toCompressed p = 0xC0 :: repeat 0 95).
    { unfold g2_toCompressed, g2_affine, j_affine. fold (g2_isZero p). rewrite (proj2 (rep2g_isZero p gid H) eq_refl). cbn [orb]. rewrite Hx, Hy. reflexivity. }
    split; [exact E|]. rewrite E. reflexivity.
Qed.
Example C32_nontrivial : rep1g g1_BASE G1gen /\ rep2g g2_BASE G2gen /\ g1_toCompressed g1_BASE =
  int_be 48 (0x17f1d3a73197d7942695638c4fa9ac0fc3688c4f9774b905a14e3a3f171bac586c55e83ff97a1aeffb3af00adb22c6bb + 2 ^ 383).
Proof. split; [exact BASE1_rep|]. split; [exact BASE2_rep|]. vm_compute. reflexivity. Qed.

(** C33: complete description of the G1 decoder.  e is the 384-bit big-endian integer of the input: bit 383 compressed, 382 infinity, 381 sign. *)
Theorem C33_g1_accepts : forall b q, bytes b -> length b = 48%nat -> g1_fromCompressed b = Some q -> let e := be_int b in
  Z.testbit e 383 = true /\
  ((Z.testbit e 382 = true /\ q = g1_zero) \/
   (Z.testbit e 382 = false /\ exists (P : E1) y, rep1g q P /\ cpt (b := b1) P = A1 (Fof (e mod 2 ^ 381)) y /\ sgn1 y = Z.testbit e 381)).
Proof.
  intros b q Hb L H e. rewrite g1_dec_eq in H by auto. fold e in H. clearbody e. pose proof (g1_dec_spec e) as X. rewrite H in X.
  destruct (Z.testbit e 383); [|discriminate X]. split; [reflexivity|]. cbn [negb] in X. destruct (Z.testbit e 382).
  - left. split; [reflexivity|]. congruence.
  - right. split; [reflexivity|]. destruct X as (y & X1 & X2 & X3). destruct (lift1 _ _ _ X1 X2) as (P & R & C). exists P, y. auto.
Qed.
Theorem C33_g1_rejects : forall b, bytes b -> length b = 48%nat -> g1_fromCompressed b = None -> let e := be_int b in
  Z.testbit e 383 = false \/ (Z.testbit e 382 = false /\ forall (P : E1) y, cpt (b := b1) P <> A1 (Fof (e mod 2 ^ 381)) y).
Proof.
  intros b Hb L H e. rewrite g1_dec_eq in H by auto. fold e in H. clearbody e. pose proof (g1_dec_spec e) as X. rewrite H in X.
  destruct (Z.testbit e 383); [|left; reflexivity]. cbn [negb] in X. right. destruct (Z.testbit e 382); [discriminate X|]. split; [reflexivity|].
  intros P y E. pose proof (cpt_on (b := b1) P) as O. rewrite E in O. exact (diff_true_false (eq_trans (eq_sym O) (X y))).
Qed.
Theorem C33_g2_accepts : forall b c q, bytes b -> length b = 48%nat -> bytes c -> length c = 48%nat -> g2_fromCompressed (b ++ c) = Some q -> let e := be_int b in
  Z.testbit e 383 = true /\
  ((Z.testbit e 382 = true /\ q = g2_zero) \/
   (Z.testbit e 382 = false /\ be_int c < modulus /\
    exists (P : E2) y, rep2g q P /\ cpt (b := b2) P = A2 (mkFp2 (Fof (be_int c)) (Fof (e mod 2 ^ 381))) y /\ sgn2 y = Z.testbit e 381)).
Proof.
  intros b c q Hb Lb Hc Lc H e. rewrite g2_dec_eq in H by auto. fold e in H. pose proof (be48_range c Hc Lc) as Rc. clearbody e. pose proof (g2_dec_spec e _ Rc) as X. rewrite H in X.
  destruct (Z.testbit e 383); [|discriminate X]. split; [reflexivity|]. cbn [negb] in X. destruct (Z.testbit e 382).
  - left. split; [reflexivity|]. congruence.
  - right. split; [reflexivity|]. destruct X as (X0 & y & X1 & X2 & X3). split; [exact X0|]. destruct (lift2 _ _ _ X1 X2) as (P & R & C). exists P, y. auto.
Qed.
Theorem C33_g2_rejects : forall b c, bytes b -> length b = 48%nat -> bytes c -> length c = 48%nat -> g2_fromCompressed (b ++ c) = None -> let e := be_int b in
  Z.testbit e 383 = false \/ (Z.testbit e 382 = false /\
    (modulus <= be_int c \/ forall (P : E2) y, cpt (b := b2) P <> A2 (mkFp2 (Fof (be_int c)) (Fof (e mod 2 ^ 381))) y)).
Proof.
  intros b c Hb Lb Hc Lc H e. rewrite g2_dec_eq in H by auto. fold e in H. pose proof (be48_range c Hc Lc) as Rc. clearbody e. pose proof (g2_dec_spec e _ Rc) as X. rewrite H in X.
  destruct (Z.testbit e 383); [|left; reflexivity]. cbn [negb] in X. right. destruct (Z.testbit e 382); [discriminate X|]. split; [reflexivity|].
  destruct X as [X|X]; [left; exact X|right]. intros P y E. pose proof (cpt_on (b := b2) P) as O. rewrite E in O. exact (diff_true_false (eq_trans (eq_sym O) (X y))).
Qed.
(** a decoded finite point re-encodes to the input when the x bits were below p *)
Theorem C33_g1_canonical : forall b q, bytes b -> length b = 48%nat -> g1_fromCompressed b = Some q ->
  Z.testbit (be_int b) 382 = false -> be_int b mod 2 ^ 381 < modulus -> g1_toCompressed q = b.
Proof. exact g1_canonical. Qed.
Theorem C33_g2_canonical : forall b c q, bytes b -> length b = 48%nat -> bytes c -> length c = 48%nat -> g2_fromCompressed (b ++ c) = Some q ->
  Z.testbit (be_int b) 382 = false -> be_int b mod 2 ^ 381 < modulus -> g2_toCompressed q = b ++ c.
Proof. exact g2_canonical. Qed.
(** but the decoder does not insist on x < p: every finite point with x < 2^381 - p has a second encoding *)
Theorem C33_g1_unique_refuted : forall (P : E1) x y, cpt (b := b1) P = A1 x y -> fval x + modulus < 2 ^ 381 ->
  exists b1 b2 q, b1 <> b2 /\ bytes b1 /\ bytes b2 /\ length b1 = 48%nat /\ length b2 = 48%nat /\ rep1g q P /\
    g1_fromCompressed b1 = Some q /\ g1_fromCompressed b2 = Some q.
Proof.
  intros P x y E Lt. pose proof (cpt_on (b := b1) P) as O. rewrite E in O. destruct (g1_rt x y O) as (q & Hq & Rq).
  exists (enc_g1 x y), (int_be 48 (fval x + modulus + flags (sgn1 y))), q. unfold enc_g1 in *.
  pose proof (fval_range x) as Rx. destruct (flags_bits _ (sgn1 y) (fval_381 x)) as (H1 & H2 & H3 & H4 & H5).
  assert (R2 : 0 <= fval x + modulus < 2 ^ 381) by (pose proof M_pos; rewrite M_eq in *; lia). destruct (flags_bits _ (sgn1 y) R2) as (K1 & K2 & K3 & K4 & K5).
  split. { intros Eq. apply (f_equal be_int) in Eq. rewrite !be48 in Eq by assumption. pose proof M_pos. rewrite M_eq in *. lia. }
  split; [apply int_be_bytes|]. split; [apply int_be_bytes|]. split; [apply int_be_length|]. split; [apply int_be_length|].
  split; [unfold rep1g; rewrite E; exact Rq|]. split; [exact Hq|]. rewrite <- Hq. rewrite !g1_dec_eq by (auto using int_be_bytes, int_be_length). rewrite !be48 by assumption.
  apply g1_dec_modp; rewrite ?H1, ?H2, ?H3, ?H4, ?K1, ?K2, ?K3, ?K4; try reflexivity. apply Fof_p.
Qed.
(** and with the infinity flag all other bits are ignored *)
Theorem C33_infinity_junk_refuted :
  (forall b, bytes b -> length b = 48%nat -> Z.testbit (be_int b) 383 = true -> Z.testbit (be_int b) 382 = true -> g1_fromCompressed b = Some g1_zero) /\
  (forall b c, bytes b -> length b = 48%nat -> bytes c -> length c = 48%nat -> Z.testbit (be_int b) 383 = true -> Z.testbit (be_int b) 382 = true -> g2_fromCompressed (b ++ c) = Some g2_zero).
Proof.
  split.
  - intros b Hb L H1 H2. rewrite g1_dec_eq by auto. unfold g1_dec_int. rewrite H1, H2. reflexivity.
  - intros b c Hb L Hc Lc H1 H2. rewrite g2_dec_eq by auto. unfold g2_dec_int. rewrite H1, H2. reflexivity.
Qed.
Example C33_nontrivial : exists P : E1, cpt (b := b1) P = A1 (Fof 0) (Fof 2) /\ fval (Fof 0) + modulus < 2 ^ 381.
Proof. exists (mkC KFp b1 _ on02). split; reflexivity. Qed.

(** C34: Jacobian and affine codecs; m is the Montgomery option (used in the same way for writing and reading), c the check option.
    The same statements hold for the four instances (g1/g2, BE/LE). *)
Definition jacobian_codec {T} (n : nat) (C : T -> Prop) (onCurve : jac T -> bool) (toJ : jac T -> bool -> list Z) (fromJ : list Z -> bool -> bool -> option (jac T)) : Prop :=
  (forall p c m, C (jx p) -> C (jy p) -> C (jz p) ->
     bytes (toJ p m) /\ length (toJ p m) = (3 * n)%nat /\ fromJ (toJ p m) c m = if c && negb (onCurve p) then None else Some p) /\
  (forall b c m p, bytes b -> length b = (3 * n)%nat -> fromJ b c m = Some p ->
     C (jx p) /\ C (jy p) /\ C (jz p) /\ toJ p m = b /\ (c = true -> onCurve p = true)).
Definition affine_codec {T} {G : abgroup} (n : nat) (rep : jac T -> G -> Prop) (toA : jac T -> bool -> list Z) (fromA : list Z -> bool -> bool -> option (jac T)) : Prop :=
  (forall p P c m, rep p P -> bytes (toA p m) /\ length (toA p m) = (2 * n)%nat /\
     exists q, fromA (toA p m) c m = Some q /\ rep q P) /\
  (forall b m q, bytes b -> length b = (2 * n)%nat -> fromA b true m = Some q -> (exists P, rep q P) /\ toA q m = b) /\
  (forall p m, rep p gid -> toA p m = repeat 0 (2 * n)).
Lemma jac_codec {T} (o : fops T) (C : T -> Prop) bt n wr rd : (forall m, codec n C (fun x => wr x m) (fun b => rd b true m)) ->
  jacobian_codec n C (j_isOnCurve o bt) (j_toJacobian wr) (j_fromJacobian o bt n rd).
Proof.
  intros HC. split.
  - intros p c m H1 H2 H3. exact (jac_rt o C bt n _ _ (HC m) p c (conj H1 (conj H2 H3))).
  - intros b c m p Hb L H. destruct (jac_inv o C bt n _ _ (HC m) b c p Hb L H) as ((K1 & K2 & K3) & K4 & K5). auto 6.
Qed.
Theorem C34_g1_jacobian_BE : jacobian_codec 48 canon g1_isOnCurve g1_toJacobianBE g1_fromJacobianBE. Proof. exact (jac_codec fp_ops canon B 48 _ _ fp_codecs_BE). Qed.
Theorem C34_g1_jacobian_LE : jacobian_codec 48 canon g1_isOnCurve g1_toJacobianLE g1_fromJacobianLE. Proof. exact (jac_codec fp_ops canon B 48 _ _ fp_codecs_LE). Qed.
Theorem C34_g2_jacobian_BE : jacobian_codec 96 canon2 g2_isOnCurve g2_toJacobianBE g2_fromJacobianBE. Proof. exact (jac_codec fp2_ops canon2 fp2_B 96 _ _ fp2_codecs_BE). Qed.
Theorem C34_g2_jacobian_LE : jacobian_codec 96 canon2 g2_isOnCurve g2_toJacobianLE g2_fromJacobianLE. Proof. exact (jac_codec fp2_ops canon2 fp2_B 96 _ _ fp2_codecs_LE). Qed.
Lemma aff_codec1 wr rd : (forall m, codec 48 canon (fun x => wr x m) (fun b => rd b true m)) -> (forall m, wr fp_zero m = repeat 0 48) ->
  affine_codec 48 rep1g (j_toAffine fp_ops 48 wr) (j_fromAffine fp_ops B 48 rd).
Proof.
  intros HC H0. split; [|split].
  - intros p P c m H. destruct (aff_rt fp_ops KFp canon dec fp_represents KFp_field b1 b1_nz B B_R dec_inj 48 _ _ (HC m) (H0 m) p _ c (conj H (cpt_on (b := b1) P))) as (K1 & K2 & K3).
    split; [exact K1|]. split; [exact K2|]. eexists. split; [exact K3|]. destruct (j_isZero fp_ops p) eqn:Ez; [|exact (rep1g_affine p P H)].
    rewrite (proj1 (rep1g_isZero p P H) Ez). exact rep1g_zero.
  - intros b m q Hb L H. destruct (aff_inv fp_ops KFp canon dec fp_represents KFp_field b1 B B_R dec_inj 48 _ _ (HC m) (H0 m) b q Hb L H) as ((P & HP & O) & K).
    split; [|exact K]. exists (mkC KFp b1 P O). exact HP.
  - intros p m H. unfold j_toAffine. fold (g1_isZero p). rewrite (proj2 (rep1g_isZero p gid H) eq_refl). reflexivity.
Qed.
Lemma aff_codec2 wr rd : (forall m, codec 96 canon2 (fun x => wr x m) (fun b => rd b true m)) -> (forall m, wr fp2_zero m = repeat 0 96) ->
  affine_codec 96 rep2g (j_toAffine fp2_ops 96 wr) (j_fromAffine fp2_ops fp2_B 96 rd).
Proof.
  intros HC H0. split; [|split].
  - intros p P c m H. destruct (aff_rt fp2_ops KFp2 canon2 dec2 fp2_represents KFp2_field b2 b2_nz fp2_B fp2_B_R dec2_inj 96 _ _ (HC m) (H0 m) p _ c (conj H (cpt_on (b := b2) P))) as (K1 & K2 & K3).
    split; [exact K1|]. split; [exact K2|]. eexists. split; [exact K3|]. destruct (j_isZero fp2_ops p) eqn:Ez; [|exact (rep2g_affine p P H)].
    rewrite (proj1 (rep2g_isZero p P H) Ez). exact rep2g_zero.
  - intros b m q Hb L H. destruct (aff_inv fp2_ops KFp2 canon2 dec2 fp2_represents KFp2_field b2 fp2_B fp2_B_R dec2_inj 96 _ _ (HC m) (H0 m) b q Hb L H) as ((P & HP & O) & K).
    split; [|exact K]. exists (mkC KFp2 b2 P O). exact HP.
  - intros p m H. unfold j_toAffine. fold (g2_isZero p). rewrite (proj2 (rep2g_isZero p gid H) eq_refl). reflexivity.
Qed.
Theorem C34_g1_affine_BE : affine_codec 48 rep1g g1_toAffineBE g1_fromAffineBE. Proof. exact (aff_codec1 _ _ fp_codecs_BE wr0_1BE). Qed.
Theorem C34_g1_affine_LE : affine_codec 48 rep1g g1_toAffineLE g1_fromAffineLE. Proof. exact (aff_codec1 _ _ fp_codecs_LE wr0_1LE). Qed.
Theorem C34_g2_affine_BE : affine_codec 96 rep2g g2_toAffineBE g2_fromAffineBE. Proof. exact (aff_codec2 _ _ fp2_codecs_BE wr0_2BE). Qed.
Theorem C34_g2_affine_LE : affine_codec 96 rep2g g2_toAffineLE g2_fromAffineLE. Proof. exact (aff_codec2 _ _ fp2_codecs_LE wr0_2LE). Qed.
Example C34_nontrivial : exists q, g1_fromAffineBE (g1_toAffineBE g1_BASE true) true true = Some q /\ rep1g q G1gen.
Proof. destruct C34_g1_affine_BE as [H _]. apply (H g1_BASE G1gen true true BASE1_rep). Qed.

Definition props_codec := (C32_g1_format, C32_g2_format, C32_g1_roundtrip, C32_g2_roundtrip, C32_g1_injective, C32_g2_injective, C32_g1_infinity_refuted, C32_g2_infinity_refuted, C32_infinity_000, C33_g1_accepts, C33_g1_rejects, C33_g2_accepts, C33_g2_rejects, C33_g1_canonical, C33_g2_canonical, C33_g1_unique_refuted, C33_infinity_junk_refuted, C34_g1_jacobian_BE, C34_g1_jacobian_LE, C34_g2_jacobian_BE, C34_g2_jacobian_LE, C34_g1_affine_BE, C34_g1_affine_LE, C34_g2_affine_BE, C34_g2_affine_LE).
Print Assumptions props_codec.
