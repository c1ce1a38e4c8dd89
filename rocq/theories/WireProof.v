(** Lemmas for C67: compressed strings and the points they stand for. *)
From Coq Require Import ZArith Znumtheory List Bool Lia.
From Verif Require Import SpecField FieldProof TowerProof TowerProof2 SpecBytes BytesProof SpecCodec SpecCurve AbGroup CurveInst SpecMap SpecSig SpecWire.
From Verif Require Import ModelWord ModelScalar ScalarProof ModelFp ModelTower FpProof FpProof2 TowerRefine ModelCurve CurveProof CurveRefine CurveRefine2 CurveReps CurveBase ModelCodec FpCodec CodecProof CodecProof2.
From Verif Require Import I63 I63b GenProof SubgroupProof Orders Cofactor KeysProof ModelKeys ModelSig SigProof HashCert HashVec Properties_Codec.
Import ListNotations.
Local Open Scope Z_scope.

Lemma app_inv_len {A} : forall (b c b' c' : list A), length b = length b' -> b ++ c = b' ++ c' -> b = b' /\ c = c'.
Proof.
  induction b as [|x b IH]; intros c [|y b'] c' L E; cbn in *; try discriminate; auto.
  injection E as -> E. destruct (IH c b' c') as [-> ->]; auto.
Qed.
(** * decoders *)
Lemma dec1_iff b (P : E1) : bytes b -> length b = 48%nat -> (exists q, g1_fromCompressed b = Some q /\ rep1g q P) <-> stands1 b P.
Proof.
  intros Hb L. split.
  - intros (q & E & R). split; [exact Hb|]. split; [exact L|]. destruct (C33_g1_accepts b q Hb L E) as [H [[H2 ->]|[H2 (P' & y & R' & C & S)]]]; (split; [exact H|]).
    + left. split; [exact H2|]. exact (rep1g_fun _ _ _ R rep1g_zero).
    + right. split; [exact H2|]. exists y. rewrite (rep1g_fun _ _ _ R R'). auto.
  - intros (_ & _ & H & [[H2 ->]|[H2 (y & C & S)]]).
    + exists g1_zero. split; [|exact rep1g_zero]. exact (proj1 C33_infinity_junk_refuted b Hb L H H2).
    + destruct (g1_fromCompressed b) as [q|] eqn:E.
      * exists q. split; [reflexivity|]. destruct (C33_g1_accepts b q Hb L E) as [_ [[H3 _]|[_ (P' & y' & R' & C' & S')]]]; [rewrite H2 in H3; discriminate H3|].
        assert (Y : y' = y). { apply (sgn_inj1 (Fof (be_int b mod 2 ^ 381))); [rewrite <- C'; apply cpt_on|rewrite <- C; apply cpt_on|congruence]. }
        subst y'. replace P with P'; [exact R'|]. apply curve_eq. rewrite C'. symmetry. exact C.
      * exfalso. destruct (C33_g1_rejects b Hb L E) as [X|[_ X]]; [rewrite H in X; discriminate X|exact (X P y C)].
Qed.
Lemma dec2_iff s (P : E2) : bytes s -> length s = 96%nat -> (exists q, g2_fromCompressed s = Some q /\ rep2g q P) <-> stands2 s P.
Proof.
  intros Hs Ls. split.
  - intros (q & E & R). exists (firstn 48 s), (skipn 48 s).
    assert (Es : s = firstn 48 s ++ skipn 48 s) by (symmetry; apply firstn_skipn). rewrite Es in E.
    assert (Hs' : bytes (firstn 48 s ++ skipn 48 s)) by (rewrite <- Es; exact Hs). apply Forall_app in Hs'. destruct Hs' as [Hb Hc].
    assert (Lb : length (firstn 48 s) = 48%nat) by (rewrite firstn_length, Ls; reflexivity).
    assert (Lc : length (skipn 48 s) = 48%nat) by (rewrite skipn_length, Ls; reflexivity).
    split; [exact Es|]. split; [exact Hb|]. split; [exact Lb|]. split; [exact Hc|]. split; [exact Lc|].
    destruct (C33_g2_accepts _ _ q Hb Lb Hc Lc E) as [H [[H2 ->]|[H2 (H3 & P' & y & R' & C & S)]]]; (split; [exact H|]).
    + left. split; [exact H2|]. exact (rep2g_fun _ _ _ R rep2g_zero).
    + right. split; [exact H2|]. split; [exact H3|]. exists y. rewrite (rep2g_fun _ _ _ R R'). auto.
  - intros (b & c & -> & Hb & Lb & Hc & Lc & H & [[H2 ->]|[H2 (H3 & y & C & S)]]).
    + exists g2_zero. split; [|exact rep2g_zero]. exact (proj2 C33_infinity_junk_refuted b c Hb Lb Hc Lc H H2).
    + destruct (g2_fromCompressed (b ++ c)) as [q|] eqn:E.
      * exists q. split; [reflexivity|]. destruct (C33_g2_accepts b c q Hb Lb Hc Lc E) as [_ [[H4 _]|[_ (_ & P' & y' & R' & C' & S')]]]; [rewrite H2 in H4; discriminate H4|].
        assert (Y : y' = y). { eapply sgn_inj2; [rewrite <- C'; apply cpt_on|rewrite <- C; apply cpt_on|congruence]. }
        subst y'. replace P with P'; [exact R'|]. apply curve_eq. rewrite C'. symmetry. exact C.
      * exfalso. destruct (C33_g2_rejects b c Hb Lb Hc Lc E) as [X|[_ [X|X]]]; [rewrite H in X; discriminate X|clear - X H3; lia|exact (X P y C)].
Qed.
Lemma dec1_rep b q : bytes b -> length b = 48%nat -> g1_fromCompressed b = Some q -> exists P : E1, rep1g q P.
Proof. intros Hb L E. destruct (C33_g1_accepts b q Hb L E) as [_ [[_ ->]|[_ (P & y & R & _)]]]; [exists gid; exact rep1g_zero|exists P; exact R]. Qed.
Lemma dec2_rep s q : bytes s -> length s = 96%nat -> g2_fromCompressed s = Some q -> exists P : E2, rep2g q P.
Proof.
  intros Hs Ls E. rewrite <- (firstn_skipn 48 s) in E, Hs. apply Forall_app in Hs. destruct Hs as [Hb Hc].
  destruct (C33_g2_accepts _ _ q Hb ltac:(rewrite firstn_length, Ls; reflexivity) Hc ltac:(rewrite skipn_length, Ls; reflexivity) E) as [_ [[_ ->]|[_ (_ & P & y & R & _)]]];
    [exists gid; exact rep2g_zero|exists P; exact R].
Qed.
Lemma enc_bytes2 x y : bytes (enc_g2 x y) /\ length (enc_g2 x y) = 96%nat.
Proof. unfold enc_g2. split; [apply Forall_app; split; apply int_be_bytes|rewrite app_length, !int_be_length; reflexivity]. Qed.
Lemma enc_bytes1 x y : bytes (enc_g1 x y) /\ length (enc_g1 x y) = 48%nat.
Proof. unfold enc_g1. split; [apply int_be_bytes|apply int_be_length]. Qed.
Lemma comp1 p (P : E1) : rep1g p P -> P <> gid -> bytes (g1_toCompressed p) /\ length (g1_toCompressed p) = 48%nat /\ stands1 (g1_toCompressed p) P.
Proof.
  intros R N. destruct (cpt (b := b1) P) as [|x y] eqn:E; [exfalso; apply N, curve_eq; exact E|].
  pose proof (C32_g1_format p P x y R E) as F. destruct (enc_bytes1 x y) as [B L]. rewrite F. split; [exact B|]. split; [exact L|].
  apply (dec1_iff _ P B L). rewrite <- F. destruct (C32_g1_roundtrip p P R N) as (q & Eq & Rq & _). exists q. auto.
Qed.
Lemma comp2 p (P : E2) : rep2g p P -> P <> gid -> bytes (g2_toCompressed p) /\ length (g2_toCompressed p) = 96%nat /\ stands2 (g2_toCompressed p) P.
Proof.
  intros R N. destruct (cpt (b := b2) P) as [|x y] eqn:E; [exfalso; apply N, curve_eq; exact E|].
  pose proof (C32_g2_format p P x y R E) as F. destruct (enc_bytes2 x y) as [B L]. rewrite F. split; [exact B|]. split; [exact L|].
  apply (dec2_iff _ P B L). rewrite <- F. destruct (C32_g2_roundtrip p P R N) as (q & Eq & Rq & _). exists q. auto.
Qed.
(** * Strings for the same finite point *)
Lemma close_eq a a' : 0 <= a < 2 ^ 381 -> 0 <= a' < 2 ^ 381 -> Fof a = Fof a' -> a' = a \/ a' = a + modulus \/ a = a' + modulus.
Proof.
  intros Ra Ra' E. apply (f_equal fval) in E. rewrite !fval_Fof in E.
  assert (M2 : 2 ^ 381 < 2 * modulus) by reflexivity. assert (Mp : 0 < modulus) by reflexivity.
  pose proof (Z.div_mod a modulus ltac:(lia)) as D. pose proof (Z.div_mod a' modulus ltac:(lia)) as D'.
  assert (Q : 0 <= a / modulus < 2) by (split; [apply Z.div_pos; lia|apply Z.div_lt_upper_bound; lia]).
  assert (Q' : 0 <= a' / modulus < 2) by (split; [apply Z.div_pos; lia|apply Z.div_lt_upper_bound; lia]).
  rewrite E in D. clear - D D' Q Q'. generalize dependent (a' mod modulus). intros r D D'. generalize dependent modulus. intros M D D' Q Q'.
  assert (C : a / M = 0 \/ a / M = 1) by lia. assert (C' : a' / M = 0 \/ a' / M = 1) by lia. destruct C as [C|C], C' as [C'|C']; rewrite C in D; rewrite C' in D'; lia.
Qed.
Lemma stands2_split b c (P : E2) : length b = 48%nat -> stands2 (b ++ c) P -> bytes b /\ bytes c /\ length c = 48%nat /\ Z.testbit (be_int b) 383 = true /\
  (Z.testbit (be_int b) 382 = true /\ P = gid \/ Z.testbit (be_int b) 382 = false /\ be_int c < modulus /\
   exists y, cpt (b := b2) P = A2 (mkFp2 (Fof (be_int c)) (Fof (be_int b mod 2 ^ 381))) y /\ sgn2 y = Z.testbit (be_int b) 381).
Proof.
  intros L (b' & c' & E & H1 & H2 & H3 & H4 & H5). destruct (app_inv_len b c b' c') as [-> ->]; [congruence|exact E|]. auto 6.
Qed.
Lemma stands2_fin b c b' c' (P : E2) : length b = 48%nat -> length b' = 48%nat -> Z.testbit (be_int b) 382 = false -> Z.testbit (be_int b') 382 = false ->
  stands2 (b ++ c) P -> stands2 (b' ++ c') P ->
  c = c' /\ (be_int b' = be_int b \/ be_int b' = be_int b + modulus \/ be_int b = be_int b' + modulus).
Proof.
  intros L L' F F' S S'. apply stands2_split in S; [|exact L]. apply stands2_split in S'; [|exact L'].
  destruct S as (Hb & Hc & Lc & T & [[X _]|(_ & Rc & y & C & S)]); [rewrite F in X; discriminate X|].
  destruct S' as (Hb' & Hc' & Lc' & T' & [[X _]|(_ & Rc' & y' & C' & S')]); [rewrite F' in X; discriminate X|].
  rewrite C in C'. assert (Ec : Fof (be_int c) = Fof (be_int c')) by exact (f_equal (fun Q : point KFp2 => match Q with Aff x _ => re x | Inf => F0 end) C').
  assert (Eb : Fof (be_int b mod 2 ^ 381) = Fof (be_int b' mod 2 ^ 381)) by exact (f_equal (fun Q : point KFp2 => match Q with Aff x _ => im x | Inf => F0 end) C').
  assert (Ey : y = y') by exact (f_equal (fun Q : point KFp2 => match Q with Aff _ z => z | Inf => F2_0 end) C'). subst y'. clear C'.
  assert (Z0 : be_int c = be_int c').
  { apply (f_equal fval) in Ec. rewrite !fval_Fof, !Z.mod_small in Ec; [exact Ec|split; [apply (be48_range c' Hc' Lc')|exact Rc']|split; [apply (be48_range c Hc Lc)|exact Rc]]. }
  split; [rewrite <- (int_be_be_int c Hc), <- (int_be_be_int c' Hc'), Lc, Lc', Z0; reflexivity|].
  rewrite (bits_flags (be_int b)), (bits_flags (be_int b')); auto; try (apply be48_range; auto). rewrite <- S, <- S'.
  destruct (close_eq _ _ (Z.mod_pos_bound (be_int b) (2 ^ 381) ltac:(lia)) (Z.mod_pos_bound (be_int b') (2 ^ 381) ltac:(lia)) Eb) as [X|[X|X]]; clear - X; lia.
Qed.
Lemma two_enc2 (P : E2) x y : cpt (b := b2) P = A2 x y -> fval (im x) + modulus < 2 ^ 381 ->
  exists s1 s2, s1 <> s2 /\ bytes s1 /\ bytes s2 /\ length s1 = 96%nat /\ length s2 = 96%nat /\ stands2 s1 P /\ stands2 s2 P.
Proof.
  intros C Lt. pose proof (fval_range (im x)) as Rx. pose proof (fval_381 (im x)) as R1.
  assert (Mp : 0 < modulus) by reflexivity. assert (R2 : 0 <= fval (im x) + modulus < 2 ^ 381) by (clear - Rx Lt Mp; lia).
  assert (G : forall v, 0 <= v < 2 ^ 381 -> Fof v = im x -> stands2 (int_be 48 (v + flags (sgn2 y)) ++ int_be 48 (fval (re x))) P).
  { intros v Rv Ev. destruct (flags_bits v (sgn2 y) Rv) as (H1 & H2 & H3 & H4 & H5).
    exists (int_be 48 (v + flags (sgn2 y))), (int_be 48 (fval (re x))). split; [reflexivity|].
    split; [apply int_be_bytes|]. split; [apply int_be_length|]. split; [apply int_be_bytes|]. split; [apply int_be_length|].
    rewrite !be48 by (exact H5 || exact (fval_R384 _)). split; [exact H1|]. right. split; [exact H2|]. split; [apply fval_range|].
    exists y. rewrite H4, H3, Ev, Fof_fval. split; [|reflexivity]. rewrite C. destruct x; reflexivity. }
  exists (int_be 48 (fval (im x) + flags (sgn2 y)) ++ int_be 48 (fval (re x))), (int_be 48 (fval (im x) + modulus + flags (sgn2 y)) ++ int_be 48 (fval (re x))).
  split. { intros E. apply app_inv_tail in E. apply (f_equal be_int) in E.
    rewrite !be48 in E by (apply flags_bits; assumption). clear - E Mp. lia. }
  assert (B : forall v w, bytes (int_be 48 v ++ int_be 48 w) /\ length (int_be 48 v ++ int_be 48 w) = 96%nat).
  { intros v w. split; [apply Forall_app; split; apply int_be_bytes|rewrite app_length, !int_be_length; reflexivity]. }
  split; [apply B|]. split; [apply B|]. split; [apply B|]. split; [apply B|]. split; apply G; auto using Fof_fval. rewrite Fof_p. apply Fof_fval.
Qed.
(** 5 G2gen has an abscissa with imaginary part below 2^381 - p *)
Definition X5 : Fp2 := F2z 0x411a5de6730ffece671a9f21d65028cc0f1102378de124562cb1ff49db6f004fcd14d683024b0548eff3d1468df2688 0xfb837804dba8213329db46608b6c121d973363c1234a86dd183baff112709cf97096c5e9a1a770ee9d7dc641a894d6.
Definition Y5 : Fp2 := F2z 0x19b5e8f5d4a72f2b75811ac084a7f814317360bac52f6aab15eed416b4ef9938e0bdc4865cc2c4d0fd947e7c6925fd14 0x93567b4228be17ee62d11a254edd041ee4b953bffb8b8c7f925bd6662b4298bac2822b446f5b5de3b893e1be5aa4986.
Lemma s5_on : j_isOnCurve ops63x i4x (jaff X5 Y5) = true. Proof. vm_cast_no_check (eq_refl true). Qed.
Lemma s5_eq : j_equal ops63x (j_scale ops63x iG2 [5]) (jaff X5 Y5) = true. Proof. vm_cast_no_check (eq_refl true). Qed.
Lemma w5 : words [5]. Proof. repeat constructor; discriminate. Qed.
Lemma pt5 : cpt (b := b2) (zmul 5 G2gen : E2) = A2 X5 Y5.
Proof.
  destruct (x_ex X5 Y5 s5_on) as [P HP]. rewrite <- (aff_pt X5 Y5 P HP). f_equal.
  exact (x_eq _ _ _ _ (x_scale _ _ _ w5 iG2_rep) HP s5_eq).
Qed.
Lemma x5_small : fval (im X5) + modulus < 2 ^ 381. Proof. vm_compute. reflexivity. Qed.
(** every point of the subgroup other than the identity has every multiple of the generator among its multiples *)
Lemma hit (H : E2) n : zmul order H = gid -> H <> gid -> exists a, 0 <= a < order /\ zmul a H = zmul n G2gen.
Proof.
  intros O N. destruct (sub2_complete H O) as [c ->].
  assert (ND : ~ (order | c)). { intros [k ->]. apply N. rewrite zmul_mul, G2gen_r. apply zmul_id. }
  destruct (rel_prime_bezout c order) as [u v B]; [apply rel_prime_sym, prime_rel_prime; [exact order_prime|exact ND]|].
  exists ((n * u) mod order). split; [apply Z.mod_pos_bound; reflexivity|].
  rewrite zmul_mod by (exact O || discriminate). rewrite <- zmul_mul. replace (n * u * c) with (n + (- (n * v)) * order).
  - rewrite zmul_add, (zmul_mul (- (n * v)) order), G2gen_r, zmul_id. apply g_id_r.
  - transitivity (n * (u * c + v * order) - n * v * order); [rewrite B|]; ring.
Qed.
(** toAffine depends on the point only *)
Lemma toA1 n wr p q (P : E1) m : rep1g p P -> rep1g q P -> j_toAffine fp_ops n wr p m = j_toAffine fp_ops n wr q m.
Proof.
  intros R R'. unfold j_toAffine. destruct (g_dec E1 P gid) as [-> |N].
  - fold (g1_isZero p) (g1_isZero q). rewrite (proj2 (rep1g_isZero p gid R) eq_refl), (proj2 (rep1g_isZero q gid R') eq_refl). reflexivity.
  - fold (g1_isZero p) (g1_isZero q). destruct (g1_isZero p) eqn:E; [exfalso; exact (N (proj1 (rep1g_isZero p P R) E))|].
    destruct (g1_isZero q) eqn:E'; [exfalso; exact (N (proj1 (rep1g_isZero q P R') E'))|]. unfold rep1g in R, R'.
    destruct (cpt (b := b1) P) as [|u v] eqn:Ec; [exfalso; apply N, curve_eq; exact Ec|].
    assert (U : j_affine fp_ops p = j_affine fp_ops q).
    { destruct (aff_eta fp_ops KFp canon dec fp_represents KFp_field dec_inj p u v R) as (x & y & [Cx Dx] & [Cy Dy] & ->).
      destruct (aff_eta fp_ops KFp canon dec fp_represents KFp_field dec_inj q u v R') as (x' & y' & [Cx' Dx'] & [Cy' Dy'] & ->).
      f_equal; apply dec_inj; congruence. }
    rewrite U. reflexivity.
Qed.
Lemma toA2 n wr p q (P : E2) m : rep2g p P -> rep2g q P -> j_toAffine fp2_ops n wr p m = j_toAffine fp2_ops n wr q m.
Proof.
  intros R R'. unfold j_toAffine. destruct (g_dec E2 P gid) as [-> |N].
  - fold (g2_isZero p) (g2_isZero q). rewrite (proj2 (rep2g_isZero p gid R) eq_refl), (proj2 (rep2g_isZero q gid R') eq_refl). reflexivity.
  - fold (g2_isZero p) (g2_isZero q). destruct (g2_isZero p) eqn:E; [exfalso; exact (N (proj1 (rep2g_isZero p P R) E))|].
    destruct (g2_isZero q) eqn:E'; [exfalso; exact (N (proj1 (rep2g_isZero q P R') E'))|]. unfold rep2g in R, R'.
    destruct (cpt (b := b2) P) as [|u v] eqn:Ec; [exfalso; apply N, curve_eq; exact Ec|].
    assert (U : j_affine fp2_ops p = j_affine fp2_ops q).
    { destruct (aff_eta fp2_ops KFp2 canon2 dec2 fp2_represents KFp2_field dec2_inj p u v R) as (x & y & [Cx Dx] & [Cy Dy] & ->).
      destruct (aff_eta fp2_ops KFp2 canon2 dec2 fp2_represents KFp2_field dec2_inj q u v R') as (x' & y' & [Cx' Dx'] & [Cy' Dy'] & ->).
      f_equal; apply dec2_inj; congruence. }
    rewrite U. reflexivity.
Qed.
