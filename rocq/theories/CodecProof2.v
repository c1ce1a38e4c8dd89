(** The compressed encoding. *)
From Coq Require Import ZArith List Bool Lia Field Znumtheory.
From Verif Require Import SpecField FieldProof TowerProof TowerProof2 ModelWord ModelPrim ModelScalar ScalarProof ModelFp ModelTower FpProof FpProof2 TowerRefine TowerRefine3.
From Verif Require Import SpecBytes BytesProof FpCodec SpecCodec.
From Verif Require Import SpecCurve AbGroup CurveProof ModelCurve CurveRefine CurveRefine2 CurveInst CurveBase CurveReps ModelCodec CodecProof.
From Verif Require Import Endo SubgroupProof GenProof Orders Cofactor.
Import ListNotations.
Local Open Scope Z_scope.

(** * There are no points with y = 0 *)
Lemma odd_tors (G : abgroup) (n : Z) (P : G) : Z.odd n = true -> gop P P = gid -> zmul n P = gid -> P = gid.
Proof.
  intros O H2 Hn. rewrite <- (zmul_1 P). assert (E : zmul 2 P = gid) by (change 2 with (1 + 1); rewrite zmul_add, zmul_1; exact H2).
  pose proof (zmul_gcd _ _ _ E Hn) as X. replace (Z.gcd 2 n) with 1 in X; [exact X|].
  symmetry. apply Zgcd_1_rel_prime. apply rel_prime_sym. rewrite (Zdiv2_odd_eqn n), O. apply rel_prime_sym. apply bezout_rel_prime. apply (Bezout_intro _ _ _ (- Z.div2 n) 1). lia.
Qed.
Lemma E1_no2 (P : E1) : gop P P = gid -> P = gid.
Proof.
  intros H. apply (odd_tors E1 (order * (1 - Xz))); [reflexivity|exact H|]. rewrite zmul_mul. apply n1_order.
Qed.
Lemma E2_no2 (P : E2) : gop P P = gid -> P = gid.
Proof.
  intros H. pose proof (hcl_order P) as X. pose proof (psi_rel P) as Y.
  assert (Z2 : zmul 2 P = gid) by (change 2 with (1 + 1); rewrite zmul_add, zmul_1; exact H).
  assert (Pc : forall k (Q : E2), gop Q Q = gid -> zmul k Q = if Z.odd k then Q else gid).
  { intros k Q HQ. rewrite (Zdiv2_odd_eqn k) at 1. rewrite zmul_add, Z.mul_comm, (zmul_mul _ _ Q). change (zmul 2 Q) with (gop Q Q). rewrite HQ, zmul_id, g_id.
    destruct (Z.odd k); [apply zmul_1|apply zmul_0]. }
  assert (H1 : gop (psi P) (psi P) = gid) by (rewrite <- psi_op, H; apply (s_0 psi psi_op)).
  assert (S2 : forall Q : E2, gop Q Q = gid -> gop (psi Q) (psi Q) = gid) by (intros Q HQ; rewrite <- psi_op, HQ; apply (s_0 psi psi_op)).
  assert (E1 : gop P (psi P) = gid).
  { apply (odd_tors E2 order); [reflexivity| |].
    - rewrite g_swap4, H, H1. apply g_id.
    - etransitivity; [|exact X]. f_equal. cbn [pact]. rewrite (Pc (Xz * Xz - Xz - 1) P H), (Pc (Xz - 1) P H), (Pc 2 P H).
      change (Z.odd (Xz * Xz - Xz - 1)) with true. change (Z.odd (Xz - 1)) with true. change (Z.odd 2) with false. cbv iota.
      rewrite (s_0 psi psi_op), g_id, (s_0 psi psi_op), g_id_r. reflexivity. }
  assert (E3 : psi P = P). { apply (g_cancel P). rewrite E1, H. reflexivity. }
  cbn [pact] in Y. rewrite zmul_1, !zmul_0, (s_0 psi psi_op), !g_id, g_id_r, !psi_op, !E3 in Y.
  change (-1) with (- (1)) in Y. rewrite zmul_opp, zmul_1, (s_inv psi psi_op), E3, (s_inv psi psi_op), E3, g_inv_l, g_id_r in Y. exact Y.
Qed.

Lemma no2_1 u v : onb b1 (Aff u v) = true -> v <> (k0 : car KFp).
Proof.
  intros O E. subst v. pose (P := mkC KFp b1 (Aff u k0) O : E1).
  assert (X : gop P P = gid).
  { apply curve_eq. cbn -[Fopp]. destruct (F_eq_dec u u); [|contradiction]. destruct (F_eq_dec F0 (Fopp F0)) as [|N]; [reflexivity|]. exfalso. apply N. change (F0 = Fopp F0). ring. }
  apply E1_no2 in X. apply (f_equal (@cpt KFp b1)) in X. cbn in X. discriminate X.
Qed.
Lemma no2_2 u v : onb b2 (Aff u v) = true -> v <> (k0 : car KFp2).
Proof.
  intros O E. subst v. pose (P := mkC KFp2 b2 (Aff u k0) O : E2).
  assert (X : gop P P = gid).
  { apply curve_eq. cbn -[F2opp]. destruct (F2_eq_dec u u); [|contradiction]. destruct (F2_eq_dec F2_0 (F2opp F2_0)) as [|N]; [reflexivity|]. exfalso. apply N. change (F2_0 = F2opp F2_0). ring. }
  apply E2_no2 in X. apply (f_equal (@cpt KFp2 b2)) in X. cbn in X. discriminate X.
Qed.

(** * Signs *)
Lemma lex1_ok x : canon x -> fp_isLexLargest x = sgn1 (dec x). Proof. exact (isLexLargest_ok x). Qed.
Lemma sgn1_opp v : v <> F0 -> sgn1 (Fopp v) = negb (sgn1 v). Proof. exact (lex_opp v). Qed.
Lemma lex2_ok x : canon2 x -> fp2_isLexLargest x = sgn2 (dec2 x). Proof. exact (fp2_lex_ok x). Qed.
Lemma sgn2_opp v : v <> F2_0 -> sgn2 (F2opp v) = negb (sgn2 v).
Proof.
  intros H. pose proof (fp2_lex_neg (enc2 v) (canon2_enc v)) as X. rewrite dec2_enc in X. specialize (X H).
  rewrite !lex2_ok in X by auto using canon2_enc with canon. rewrite dec2_neg in X by auto using canon2_enc. rewrite dec2_enc in X. exact X.
Qed.
Definition recover1 x s := recover_ok fp_ops KFp canon dec fp_represents KFp_field b1 B B_R dec_inj fp_sqrt fp_isLexLargest sgn1 fp_sqrt_ok lex1_ok sgn1_opp no2_1 x s.
Definition recover2 x s := recover_ok fp2_ops KFp2 canon2 dec2 fp2_represents KFp2_field b2 fp2_B fp2_B_R dec2_inj fp2_sqrt fp2_isLexLargest sgn2 fp2_sqrt_ok lex2_ok sgn2_opp no2_2 x s.
Definition sgn_inj1 := sgn_inj KFp KFp_field b1 sgn1 sgn1_opp no2_1.
Definition sgn_inj2 := sgn_inj KFp2 KFp2_field b2 sgn2 sgn2_opp no2_2.

Notation A1 := (@Aff KFp). Notation A2 := (@Aff KFp2).
(** * The flag bits of an integer below 2^384 *)
Lemma hi_bits e k : 0 <= k -> Z.testbit e (381 + k) = Z.testbit (e / 2 ^ 381) k.
Proof. intros H. rewrite Z.div_pow2_bits by lia. f_equal. lia. Qed.
Lemma flags_bits v s : 0 <= v < 2 ^ 381 -> 
  Z.testbit (v + flags s) 383 = true /\ Z.testbit (v + flags s) 382 = false /\ Z.testbit (v + flags s) 381 = s /\
  (v + flags s) mod 2 ^ 381 = v /\ 0 <= v + flags s < 2 ^ 384.
Proof.
  intros H. assert (E : v + flags s = v + (4 + (if s then 1 else 0)) * 2 ^ 381) by (unfold flags; destruct s; lia).
  rewrite E. assert (D : (v + (4 + (if s then 1 else 0)) * 2 ^ 381) / 2 ^ 381 = 4 + (if s then 1 else 0)).
  { rewrite Z_div_plus_full by discriminate. rewrite Z.div_small by exact H. reflexivity. }
  rewrite (hi_bits _ 2), (hi_bits _ 1), (hi_bits _ 0), D by discriminate. 
  split; [destruct s; reflexivity|]. split; [destruct s; reflexivity|]. split; [destruct s; reflexivity|].
  split; [rewrite Z_mod_plus_full; apply Z.mod_small, H|]. clear - H. destruct s; lia.
Qed.
Lemma bits_flags e : 0 <= e < 2 ^ 384 -> Z.testbit e 383 = true -> Z.testbit e 382 = false -> e = e mod 2 ^ 381 + flags (Z.testbit e 381).
Proof.
  intros H. pose proof (hi_bits e 2 ltac:(lia)) as T2. pose proof (hi_bits e 1 ltac:(lia)) as T1. pose proof (hi_bits e 0 ltac:(lia)) as T0.
  change (381 + 2) with 383 in T2. change (381 + 1) with 382 in T1. change (381 + 0) with 381 in T0. rewrite T2, T1, T0. clear T2 T1 T0.
  pose proof (Z.div_mod e (2 ^ 381) ltac:(lia)) as D. assert (Q : 0 <= e / 2 ^ 381 < 8) by (split; [apply Z.div_pos; lia|apply Z.div_lt_upper_bound; lia]).
  set (q := e / 2 ^ 381) in *. set (m := e mod 2 ^ 381) in *. clearbody q m. clear H. unfold flags. change (2 ^ 383) with (4 * 2 ^ 381). generalize dependent (2 ^ 381). intros N D.
  assert (C : q = 0 \/ q = 1 \/ q = 2 \/ q = 3 \/ q = 4 \/ q = 5 \/ q = 6 \/ q = 7) by lia.
  destruct C as [-> | [-> | [-> | [-> | [-> | [-> | [-> | ->]]]]]]]; intros U V; vm_compute in U, V; try discriminate U; try discriminate V; clear - D; cbn [Z.testbit Z.odd]; lia.
Qed.
Lemma p_381 : modulus < 2 ^ 381. Proof. reflexivity. Qed.
Lemma fval_381 a : 0 <= fval a < 2 ^ 381. Proof. pose proof (fval_range a). pose proof p_381. lia. Qed.
Lemma be48 e : 0 <= e < 2 ^ 384 -> be_int (int_be 48 e) = e.
Proof. intros H. rewrite be_int_int_be by lia. apply Z.mod_small. exact H. Qed.
Lemma or_flags v s : 0 <= v < 2 ^ 381 -> or0 (if s : bool then or0 (int_be 48 v) 0x20 else int_be 48 v) 0x80 = int_be 48 (v + flags s).
Proof.
  intros H. destruct s.
  - rewrite (or0_ok v 0x20 5), (or0_ok _ 0x80 7); try reflexivity; try lia. unfold flags. f_equal. lia.
  - rewrite (or0_ok v 0x80 7); try reflexivity; lia.
Qed.

(** * G1 *)
Lemma g1_enc p u v : rep1 p (Aff u v) -> onb b1 (Aff u v) = true -> g1_toCompressed p = enc_g1 u v.
Proof.
  intros H O. unfold g1_toCompressed. unfold g1_affine.
  destruct (aff_eta fp_ops KFp canon dec fp_represents KFp_field dec_inj p u v H) as (x & y & [Cx Dx] & [Cy Dy] & ->). cbn [jx jy].
  destruct (fp_isZero x && fp_isZero y) eqn:E2.
  - exfalso. apply andb_true_iff in E2. destruct E2 as [F1 F2].
    pose proof (proj1 (isZ_R fp_ops KFp canon dec fp_represents y v (conj Cy Dy)) F2) as Z. exact (no2_1 u v O Z).
  - rewrite fp_toBytesBE_int, lex1_ok by auto. rewrite or_flags by apply fval_381. rewrite Dx, Dy. reflexivity.
Qed.
Definition g1_dec_int (e : Z) : option g1 :=
  if negb (Z.testbit e 383) then None else if Z.testbit e 382 then Some g1_zero
  else j_recover fp_ops B fp_sqrt fp_isLexLargest (fp_toMont (e mod 2 ^ 381)) (Z.testbit e 381).
Lemma r381 e : 0 <= e mod 2 ^ 381 < R384.
Proof. pose proof (Z.mod_pos_bound e (2 ^ 381) ltac:(lia)) as X. change R384 with (2 ^ 384). lia. Qed.
Lemma canon_valid x : canon x -> fp_isValid x = true.
Proof. intros H. rewrite fp_isValid_ltb. apply Z.ltb_lt. rewrite <- M_eq. apply H. Qed.
Lemma g1_dec_eq b : bytes b -> length b = 48%nat -> g1_fromCompressed b = g1_dec_int (be_int b).
Proof.
  intros Hb L. unfold g1_fromCompressed, g1_dec_int. rewrite !flag_ok, read381_ok by (auto; lia).
  destruct (toMont_ok _ (r381 (be_int b))) as [Cx _]. rewrite (canon_valid _ Cx). reflexivity.
Qed.
Lemma g1_dec_spec e : if negb (Z.testbit e 383) then g1_dec_int e = None else if Z.testbit e 382 then g1_dec_int e = Some g1_zero else
  match g1_dec_int e with
  | None => forall y, onb b1 (A1 (Fof (e mod 2 ^ 381)) y) = false
  | Some q => exists y, rep1 q (A1 (Fof (e mod 2 ^ 381)) y) /\ onb b1 (A1 (Fof (e mod 2 ^ 381)) y) = true /\ sgn1 y = Z.testbit e 381
  end.
Proof.
  unfold g1_dec_int. destruct (Z.testbit e 383); [|reflexivity]. cbn [negb]. destruct (Z.testbit e 382); [reflexivity|].
  destruct (toMont_ok _ (r381 e)) as [Cx Dx]. pose proof (recover1 _ (Z.testbit e 381) Cx) as X. rewrite Dx in X.
  destruct (j_recover _ _ _ _ _ _) as [q|]; [|exact X]. destruct X as (y & [X1 X2] & X3 & _). exists y. auto.
Qed.
Lemma g1_rt u v : onb b1 (Aff u v) = true -> exists q, g1_fromCompressed (enc_g1 u v) = Some q /\ rep1 q (Aff u v).
Proof.
  intros O. unfold enc_g1. destruct (flags_bits _ (sgn1 v) (fval_381 u)) as (H1 & H2 & H3 & H4 & H5).
  rewrite g1_dec_eq by (auto using int_be_bytes, int_be_length). rewrite be48 by exact H5.
  pose proof (g1_dec_spec (fval u + flags (sgn1 v))) as X. rewrite H1, H2, H3, H4, Fof_fval in X. cbn [negb] in X.
  destruct (g1_dec_int _) as [q|]; [|exfalso; exact (diff_true_false (eq_trans (eq_sym O) (X v)))].
  destruct X as (y & X1 & X2 & X3). exists q. split; [reflexivity|]. rewrite (sgn_inj1 _ _ _ O X2 (eq_sym X3)). exact X1.
Qed.
Lemma g1_canonical b q : bytes b -> length b = 48%nat -> g1_fromCompressed b = Some q -> Z.testbit (be_int b) 382 = false -> be_int b mod 2 ^ 381 < modulus ->
  g1_toCompressed q = b.
Proof.
  intros Hb L. rewrite g1_dec_eq by auto. intros D B2 Lt. pose proof (g1_dec_spec (be_int b)) as X. rewrite D, B2 in X.
  destruct (Z.testbit (be_int b) 383) eqn:B3; [|discriminate X]. cbn [negb] in X. destruct X as (y & X1 & X2 & X3).
  rewrite (g1_enc q _ _ X1 X2). unfold enc_g1. rewrite X3, fval_Fof, (Z.mod_small (_ mod _)) by (split; [apply Z.mod_pos_bound; reflexivity|exact Lt]).
  rewrite <- bits_flags; auto; [|apply be48_range; auto]. rewrite <- L. apply int_be_be_int, Hb.
Qed.

(** * G2 *)
Lemma or0_app a c m : a <> [] -> or0 (a ++ c) m = or0 a m ++ c. Proof. destruct a; [contradiction|reflexivity]. Qed.
Lemma int_be48_ne v : int_be 48 v <> []. Proof. intros H. apply (f_equal (@length Z)) in H. rewrite int_be_length in H. discriminate. Qed.
Lemma g2_enc p u v : rep2c p (Aff u v) -> onb b2 (Aff u v) = true -> g2_toCompressed p = enc_g2 u v.
Proof.
  intros H O. unfold g2_toCompressed. unfold g2_affine.
  destruct (aff_eta fp2_ops KFp2 canon2 dec2 fp2_represents KFp2_field dec2_inj p u v H) as (x & y & [Cx Dx] & [Cy Dy] & ->). cbn [jx jy].
  destruct (fp2_isZero x && fp2_isZero y) eqn:E2.
  - exfalso. apply andb_true_iff in E2. destruct E2 as [F1 F2].
    pose proof (proj1 (isZ_R fp2_ops KFp2 canon2 dec2 fp2_represents y v (conj Cy Dy)) F2) as Z. exact (no2_2 u v O Z).
  - rewrite !fp_toBytesBE_int by apply Cx. rewrite lex2_ok by auto. rewrite <- Dx, <- Dy. unfold enc_g2, dec2. cbn [re im]. fold (dec2 y).
    rewrite <- or_flags by apply fval_381. destruct (sgn2 (dec2 y)).
    + rewrite (or0_app _ _ 0x20) by apply int_be48_ne. rewrite or0_app; [reflexivity|]. rewrite (or0_ok _ 0x20 5); try reflexivity; try lia; [apply int_be48_ne|apply fval_381].
    + rewrite or0_app by apply int_be48_ne. reflexivity.
Qed.
Definition g2_dec_int (e1 e0 : Z) : option g2 :=
  if negb (Z.testbit e1 383) then None else if Z.testbit e1 382 then Some g2_zero
  else if e0 <? modulus then j_recover fp2_ops fp2_B fp2_sqrt fp2_isLexLargest (mk2 (fp_toMont e0) (fp_toMont (e1 mod 2 ^ 381))) (Z.testbit e1 381)
  else None.
Lemma g2_dec_eq b c : bytes b -> length b = 48%nat -> bytes c -> length c = 48%nat -> g2_fromCompressed (b ++ c) = g2_dec_int (be_int b) (be_int c).
Proof.
  intros Hb Lb Hc Lc. unfold g2_fromCompressed, g2_dec_int.
  assert (N : b <> []) by (intros ->; discriminate). rewrite !(flag_app b c) by exact N. rewrite !flag_ok by (auto; lia).
  rewrite span_app1, span_app2, span_all by auto. rewrite read381_ok by auto. rewrite fp_fromBytesBE_int by auto. unfold fp_of_int. cbn [andb].
  destruct (toMont_ok _ (r381 (be_int b))) as [Cx _]. rewrite (canon_valid _ Cx). cbn [negb].
  change (376 + 7) with 383. change (376 + 6) with 382. change (376 + 5) with 381.
  destruct (be_int c <? modulus); reflexivity.
Qed.
Definition X2of (e1 e0 : Z) : Fp2 := mkFp2 (Fof e0) (Fof (e1 mod 2 ^ 381)).
Lemma g2_dec_spec e1 e0 : 0 <= e0 < R384 ->
  if negb (Z.testbit e1 383) then g2_dec_int e1 e0 = None else if Z.testbit e1 382 then g2_dec_int e1 e0 = Some g2_zero else
  match g2_dec_int e1 e0 with
  | None => modulus <= e0 \/ forall y, onb b2 (A2 (X2of e1 e0) y) = false
  | Some q => e0 < modulus /\ exists y, rep2c q (A2 (X2of e1 e0) y) /\ onb b2 (A2 (X2of e1 e0) y) = true /\ sgn2 y = Z.testbit e1 381
  end.
Proof.
  intros H0. unfold g2_dec_int. destruct (Z.testbit e1 383); [|reflexivity]. cbn [negb]. destruct (Z.testbit e1 382); [reflexivity|].
  destruct (Z.ltb_spec e0 modulus); [|left; assumption].
  destruct (toMont_ok _ (r381 e1)) as [C1 D1]. destruct (toMont_ok _ H0) as [C0 D0].
  pose proof (recover2 (mk2 (fp_toMont e0) (fp_toMont (e1 mod 2 ^ 381))) (Z.testbit e1 381) (conj C0 C1)) as X.
  assert (E : dec2 (mk2 (fp_toMont e0) (fp_toMont (e1 mod 2 ^ 381))) = X2of e1 e0) by (unfold dec2, X2of; cbn [c0 c1]; rewrite D0, D1; reflexivity).
  rewrite E in X.
  destruct (j_recover _ _ _ _ _ _) as [q|]; [|right; exact X]. split; [assumption|]. destruct X as (y & [X1 X2] & X3 & _). exists y. auto.
Qed.
Lemma fval_R384 a : 0 <= fval a < R384. Proof. pose proof (fval_381 a). change R384 with (2 ^ 384). lia. Qed.
Lemma g2_rt u v : onb b2 (Aff u v) = true -> exists q, g2_fromCompressed (enc_g2 u v) = Some q /\ rep2c q (Aff u v).
Proof.
  intros O. unfold enc_g2. destruct (flags_bits _ (sgn2 v) (fval_381 (im u))) as (H1 & H2 & H3 & H4 & H5).
  rewrite g2_dec_eq by (auto using int_be_bytes, int_be_length). rewrite !be48 by (exact H5 || exact (fval_R384 _)).
  pose proof (g2_dec_spec (fval (im u) + flags (sgn2 v)) _ (fval_R384 (re u))) as X. unfold X2of in X. rewrite H1, H2, H3, H4, !Fof_fval in X. cbn [negb] in X.
  assert (Eu : mkFp2 (re u) (im u) = u) by (destruct u; reflexivity). rewrite Eu in X.
  destruct (g2_dec_int _ _) as [q|].
  - destruct X as (_ & y & X1 & X2 & X3). exists q. split; [reflexivity|]. rewrite (sgn_inj2 _ _ _ O X2 (eq_sym X3)). exact X1.
  - destruct X as [X|X]; [pose proof (fval_range (re u)); lia|exfalso; exact (diff_true_false (eq_trans (eq_sym O) (X v)))].
Qed.
Lemma g2_canonical b c q : bytes b -> length b = 48%nat -> bytes c -> length c = 48%nat -> g2_fromCompressed (b ++ c) = Some q ->
  Z.testbit (be_int b) 382 = false -> be_int b mod 2 ^ 381 < modulus -> g2_toCompressed q = b ++ c.
Proof.
  intros Hb Lb Hc Lc. rewrite g2_dec_eq by auto. intros D B2 Lt. pose proof (g2_dec_spec (be_int b) _ (be48_range c Hc Lc)) as X. rewrite D, B2 in X.
  destruct (Z.testbit (be_int b) 383) eqn:B3; [|discriminate X]. cbn [negb] in X. destruct X as (Lc' & y & X1 & X2 & X3).
  rewrite (g2_enc q _ _ X1 X2). unfold enc_g2, X2of. cbn [re im]. rewrite X3, !fval_Fof.
  rewrite (Z.mod_small (_ mod _)) by (split; [apply Z.mod_pos_bound; reflexivity|exact Lt]).
  rewrite (Z.mod_small (be_int c)) by (split; [apply (be48_range c Hc Lc)|exact Lc']).
  rewrite <- bits_flags; auto; [|apply be48_range; auto]. f_equal; [rewrite <- Lb|rewrite <- Lc]; apply int_be_be_int; assumption.
Qed.

Lemma lift1 q x y : rep1 q (A1 x y) -> onb b1 (A1 x y) = true -> exists Q : E1, rep1g q Q /\ cpt (b := b1) Q = A1 x y.
Proof. intros H O. exists (mkC KFp b1 _ O). split; [exact H|reflexivity]. Qed.
Lemma lift2 q x y : rep2c q (A2 x y) -> onb b2 (A2 x y) = true -> exists Q : E2, rep2g q Q /\ cpt (b := b2) Q = A2 x y.
Proof. intros H O. exists (mkC KFp2 b2 _ O). split; [exact H|reflexivity]. Qed.
Lemma finite1 (Q : E1) x y : cpt (b := b1) Q = A1 x y -> Q <> gid. Proof. intros E ->. discriminate E. Qed.
Lemma finite2 (Q : E2) x y : cpt (b := b2) Q = A2 x y -> Q <> gid. Proof. intros E ->. discriminate E. Qed.
Lemma on1_iff x y : onb b1 (A1 x y) = true <-> Fmul y y = Fadd (Fmul x (Fmul x x)) (Fof 4).
Proof. cbn. destruct (F_eq_dec _ _) as [E|N]; [split; auto|]. split; [discriminate|]. intros E. exfalso. apply N. exact E. Qed.
Lemma on2_iff x y : onb b2 (A2 x y) = true <-> F2mul y y = F2add (F2mul x (F2mul x x)) F2b.
Proof. cbn. destruct (F2_eq_dec _ _) as [E|N]; [split; auto|]. split; [discriminate|]. intros E. exfalso. apply N. exact E. Qed.
Lemma on02 : onb b1 (A1 (Fof 0) (Fof 2)) = true.
Proof. apply on1_iff. rewrite <- Fof_mul. change (Fof 0) with F0. change (Fof (2 * 2)) with (Fof 4). ring. Qed.
Lemma not_on0_2 y : onb b2 (A2 (mkFp2 (Fof 0) (Fof 0)) y) <> true.
Proof.
  rewrite on2_iff. change (mkFp2 (Fof 0) (Fof 0)) with F2_0. intros E.
  pose (h := mkFp2 (Finv (Fof 2)) F0).
  assert (I2 : Fmul (Finv (Fof 2)) (Fof 2) = F1) by (apply Finv_l; intros K; apply (f_equal fval) in K; vm_compute in K; discriminate).
  assert (I4 : Fmul (Fmul (Finv (Fof 2)) (Finv (Fof 2))) (Fof 4) = F1).
  { change (Fof 4) with (Fof (2 * 2)). rewrite Fof_mul. transitivity (Fmul (Fmul (Finv (Fof 2)) (Fof 2)) (Fmul (Finv (Fof 2)) (Fof 2))); [ring|]. rewrite I2. ring. }
  apply (xi_nonsquare (F2mul h y)). transitivity (F2mul (F2mul h h) (F2mul y y)); [ring|]. rewrite E.
  transitivity (F2mul (F2mul h h) F2b); [ring|].
  unfold h, F2b, xi, F2mul. cbn [re im].
  apply F2_eq; cbn [re im]; (etransitivity; [|exact I4]); ring.
Qed.

Lemma g1_dec_finite e x y : Z.testbit e 383 = true -> Z.testbit e 382 = false -> Fof (e mod 2 ^ 381) = x -> onb b1 (A1 x y) = true ->
  exists q (Q : E1), g1_dec_int e = Some q /\ rep1g q Q /\ Q <> gid.
Proof.
  intros H1 H2 H4 O. pose proof (g1_dec_spec e) as X. rewrite H1, H2, H4 in X. cbn [negb] in X.
  destruct (g1_dec_int _) as [q|]; [|exfalso; exact (diff_true_false (eq_trans (eq_sym O) (X _)))].
  destruct X as (y' & X1 & X2 & _). destruct (lift1 _ _ _ X1 X2) as (Q & R & C). exists q, Q. split; [reflexivity|]. split; [exact R|exact (finite1 _ _ _ C)].
Qed.
Lemma g2_dec_reject e1 e0 x : Z.testbit e1 383 = true -> Z.testbit e1 382 = false -> 0 <= e0 < R384 -> X2of e1 e0 = x -> (forall y, onb b2 (A2 x y) <> true) ->
  g2_dec_int e1 e0 = None.
Proof.
  intros H1 H2 H0 H4 O. pose proof (g2_dec_spec e1 e0 H0) as X. rewrite H1, H2, H4 in X. cbn [negb] in X.
  destruct (g2_dec_int _ _) as [q|]; [exfalso|reflexivity]. destruct X as (_ & y & _ & X & _). exact (O y X).
Qed.
(** x and x + p give the same point *)
Lemma g1_dec_modp e e' : Z.testbit e 383 = Z.testbit e' 383 -> Z.testbit e 382 = Z.testbit e' 382 -> Z.testbit e 381 = Z.testbit e' 381 ->
  Fof (e mod 2 ^ 381) = Fof (e' mod 2 ^ 381) -> g1_dec_int e = g1_dec_int e'.
Proof.
  intros H3 H2 H1 E. unfold g1_dec_int. rewrite H3, H2, H1. replace (fp_toMont (e mod 2 ^ 381)) with (fp_toMont (e' mod 2 ^ 381)); [reflexivity|].
  destruct (toMont_ok _ (r381 e)) as [C D]. destruct (toMont_ok _ (r381 e')) as [C' D']. apply dec_inj; auto. rewrite D, D'. symmetry. exact E.
Qed.
Lemma g2_dec_modp e e' e0 : Z.testbit e 383 = Z.testbit e' 383 -> Z.testbit e 382 = Z.testbit e' 382 -> Z.testbit e 381 = Z.testbit e' 381 ->
  Fof (e mod 2 ^ 381) = Fof (e' mod 2 ^ 381) -> g2_dec_int e e0 = g2_dec_int e' e0.
Proof.
  intros H3 H2 H1 E. unfold g2_dec_int. rewrite H3, H2, H1. replace (fp_toMont (e mod 2 ^ 381)) with (fp_toMont (e' mod 2 ^ 381)); [reflexivity|].
  destruct (toMont_ok _ (r381 e)) as [C D]. destruct (toMont_ok _ (r381 e')) as [C' D']. apply dec_inj; auto. rewrite D, D'. symmetry. exact E.
Qed.
Lemma Fof_p v : Fof (v + modulus) = Fof v. Proof. rewrite Fof_add, (Fof_hint modulus 0 1) by reflexivity. change (Fof 0) with F0. ring. Qed.
