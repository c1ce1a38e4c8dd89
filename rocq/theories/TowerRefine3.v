(** Square roots, residuosity and signs in fp2; cyclotomic squaring and exponentiation in fp12. *)
From Coq Require Import ZArith List Bool Lia Ring Field.
From Verif Require Import RingPow NumTheory SpecField FieldProof TowerProof TowerProof2 ModelWord ModelScalar ModelFp ModelTower
  ScalarProof FpProof FpProof2 TowerRefine TowerRefine2.
Import ListNotations.
Local Open Scope Z_scope.
Add Field Fp_fieldTR3 : F_field.
Add Field Fp2_fieldTR3 : F2_field.

(** * Square roots in Fp2 *)
Definition F2square (a : Fp2) : Prop := exists s, F2mul s s = a.
Lemma pm3_eq : 2 * pMinus3Over4 + 1 = half_pm1. Proof. reflexivity. Qed.
Lemma pm3_pos : 0 <= pMinus3Over4. Proof. discriminate. Qed.
Lemma negOne2_ok : canon2 negativeOne2 /\ dec2 negativeOne2 = F2opp F2_1.
Proof.
  assert (E : negativeOne2 = fp2_neg fp2_one) by (vm_compute; reflexivity). rewrite E.
  split; [auto with canon|]. rewrite dec2_neg, dec2_one by auto with canon. reflexivity.
Qed.
(** the candidate root *)
Definition rootc (a : Fp2) : Fp2 :=
  F2mul (F2pow (F2add (F2pow a half_pm1) F2_1) half_pm1) (F2mul (F2pow a pMinus3Over4) a).
Lemma pow_half (m h : Z) a : 2 * m + 1 = h -> 0 <= m ->
  F2pow a h = F2mul (F2mul (F2pow a m) (F2pow a m)) a.
Proof.
  intros <- Hm. replace (2 * m) with (m + m) by lia. rewrite (rpow_succ F2_ring), (rpow_add F2_ring) by lia.
  generalize (F2pow a m). intros. ring.
Qed.
Lemma x0_alg z h a : h = F2mul (F2mul z z) a -> F2mul (F2mul z a) (F2mul z a) = F2mul h a.
Proof. intros ->. ring. Qed.
Lemma x0_sq a : F2mul (F2mul (F2pow a pMinus3Over4) a) (F2mul (F2pow a pMinus3Over4) a) = F2mul (F2pow a half_pm1) a.
Proof. apply x0_alg. exact (pow_half _ _ a pm3_eq pm3_pos). Qed.
#[local] Opaque pMinus3Over4 pMinus1Over2.
Lemma root_alg al be x0 a : F2norm al = F1 -> al <> F2opp F2_1 ->
  F2mul (F2add al F2_1) (F2mul be be) = F2conj (F2add al F2_1) -> F2mul x0 x0 = F2mul al a ->
  F2mul (F2mul be x0) (F2mul be x0) = a.
Proof.
  intros Nal Hm B2 X.
  assert (Cal : F2mul al (F2conj al) = F2_1). { rewrite F2conj_norm, Nal. reflexivity. }
  assert (NZ : F2add al F2_1 <> F2_0).
  { intros E. apply Hm. transitivity (F2sub (F2add al F2_1) F2_1); [ring|]. rewrite E. ring. }
  assert (B3 : F2mul (F2add al F2_1) (F2mul (F2mul be be) al) = F2add al F2_1).
  { transitivity (F2mul (F2mul (F2add al F2_1) (F2mul be be)) al); [ring|]. rewrite B2, F2conj_add.
    replace (F2conj F2_1) with F2_1 by (apply F2_eq; f2_unf; ring).
    transitivity (F2add (F2mul al (F2conj al)) al); [ring|]. rewrite Cal. ring. }
  assert (B4 : F2mul (F2mul be be) al = F2_1).
  { destruct (F2mul_0 (F2add al F2_1) (F2sub (F2mul (F2mul be be) al) F2_1)) as [E|E].
    - transitivity (F2sub (F2mul (F2add al F2_1) (F2mul (F2mul be be) al)) (F2add al F2_1)); [ring|]. rewrite B3. ring.
    - contradiction.
    - transitivity (F2add (F2sub (F2mul (F2mul be be) al) F2_1) F2_1); [ring|]. rewrite E. ring. }
  transitivity (F2mul (F2mul be be) (F2mul x0 x0)); [ring|]. rewrite X.
  transitivity (F2mul (F2mul (F2mul be be) al) a); [ring|]. rewrite B4. ring.
Qed.
Lemma alg_0 b c : F2mul (F2mul b (F2mul c F2_0)) (F2mul b (F2mul c F2_0)) = F2_0. Proof. ring. Qed.
Lemma rootc_0 : F2mul (rootc F2_0) (rootc F2_0) = F2_0. Proof. apply alg_0. Qed.
Lemma half_sq b : F2mul b (F2mul (F2pow b half_pm1) (F2pow b half_pm1)) = F2conj b.
Proof.
  rewrite <- F2_frob, <- (rpow_add F2_ring) by exact half_pm1_pos.
  replace (half_pm1 + half_pm1) with (modulus - 1) by (rewrite half_pm1_eq; lia).
  transitivity (F2pow b (modulus - 1 + 1)).
  - rewrite (rpow_succ F2_ring) by (apply Z.leb_le; reflexivity). reflexivity.
  - f_equal; lia.
Qed.
Lemma rootc_sq a : Fpow (F2norm a) half_pm1 = F1 -> F2pow a half_pm1 <> F2opp F2_1 ->
  F2mul (rootc a) (rootc a) = a.
Proof.
  intros Hn Hm. unfold rootc. apply (root_alg (F2pow a half_pm1)).
  - rewrite F2norm_pow by exact half_pm1_pos. exact Hn.
  - exact Hm.
  - apply half_sq.
  - apply x0_sq.
Qed.
Lemma u_x0_sq a : F2pow a half_pm1 = F2opp F2_1 ->
  let x0 := F2mul (F2pow a pMinus3Over4) a in F2mul (mkFp2 (Fopp (im x0)) (re x0)) (mkFp2 (Fopp (im x0)) (re x0)) = a.
Proof.
  intros H x0. assert (X : F2mul x0 x0 = F2mul (F2pow a half_pm1) a) by exact (x0_sq a). rewrite H in X. clearbody x0. clear H.
  transitivity (F2opp (F2mul x0 x0)); [apply F2_eq; f2_unf; ring|]. rewrite X. ring.
Qed.
Lemma square_norm a : F2square a -> Fsquare (F2norm a).
Proof. intros [s <-]. exists (F2norm s). symmetry. apply F2norm_mul. Qed.
Lemma F2norm_nz a : a <> F2_0 -> F2norm a <> F0.
Proof. intros N H. apply N, F2norm_0, H. Qed.
Lemma norm_square a : a <> F2_0 -> Fsquare (F2norm a) -> F2square a.
Proof.
  intros N S. apply Fsquare_euler in S; [|apply F2norm_nz; auto].
  destruct (F2_eq_dec (F2pow a half_pm1) (F2opp F2_1)) as [E|E].
  - eexists. exact (u_x0_sq a E).
  - exists (rootc a). apply rootc_sq; auto.
Qed.
Lemma pow_zero2 n : 0 < n -> F2pow F2_0 n = F2_0.
Proof. intros. apply (rpow_zero F2_ring); auto. Qed.
Lemma fp2_sqrt_ok x : canon2 x ->
  canon2 (snd (fp2_sqrt x)) /\ (fst (fp2_sqrt x) = true <-> F2square (dec2 x)) /\
  (fst (fp2_sqrt x) = true -> F2mul (dec2 (snd (fp2_sqrt x))) (dec2 (snd (fp2_sqrt x))) = dec2 x).
Proof.
  intros Hx. unfold fp2_sqrt.
  destruct (limbs6 pMinus1Over2) as [Wl Vl]; [split; [discriminate|reflexivity]|].
  destruct (limbs6 pMinus3Over4) as [Wm Vm]; [split; [discriminate|reflexivity]|].
  destruct (fp2_exp_ok x _ Hx Wm) as [C1 E1]. rewrite Vm in E1. set (a1 := fp2_exp x (limbs_of 6 pMinus3Over4)) in *. clearbody a1.
  destruct negOne2_ok as [Cn En].
  assert (Ca : canon2 (fp2_mul (fp2_sqr a1) x)) by auto with canon.
  assert (Ea : dec2 (fp2_mul (fp2_sqr a1) x) = F2pow (dec2 x) half_pm1).
  { rewrite dec2_mul, dec2_sqr, E1 by auto with canon. symmetry. apply (pow_half _ _ _ pm3_eq pm3_pos). }
  set (al := fp2_mul (fp2_sqr a1) x) in *. clearbody al.
  assert (C0 : canon2 (fp2_mul a1 x)) by auto with canon.
  assert (E0 : dec2 (fp2_mul a1 x) = F2mul (F2pow (dec2 x) pMinus3Over4) (dec2 x)) by (rewrite dec2_mul, E1 by auto; reflexivity).
  set (x0 := fp2_mul a1 x) in *. clearbody x0. cbv zeta.
  assert (Q := equal2_ok al negativeOne2 Ca Cn). rewrite Ea, En in Q.
  destruct (fp2_equal al negativeOne2) eqn:Eq; cbn [fst snd].
  - symmetry in Q. apply F2eqb_eq in Q. assert (U := u_x0_sq _ Q). cbv zeta in U. rewrite <- E0 in U.
    assert (D : dec2 (mk2 (fp_neg (c1 x0)) (c0 x0)) = mkFp2 (Fopp (im (dec2 x0))) (re (dec2 x0))).
    { unfold dec2. cbn [c0 c1 re im]. destruct C0. rewrite dec_neg by auto. reflexivity. }
    destruct C0. split; [split; cbn [c0 c1]; auto with canon|]. split; [|intros _; rewrite D; exact U].
    split; [intros _; eexists; exact U|reflexivity].
  - destruct (fp2_exp_ok (fp2_add al fp2_one) _ ltac:(auto with canon) Wl) as [C2 E2].
    set (be := fp2_exp (fp2_add al fp2_one) (limbs_of 6 pMinus1Over2)) in *. clearbody be.
    rewrite Vl, pMinus1Over2_eq, dec2_add, Ea, dec2_one in E2 by auto with canon.
    assert (Cc : canon2 (fp2_mul be x0)) by auto with canon.
    assert (Ec : dec2 (fp2_mul be x0) = rootc (dec2 x)) by (rewrite dec2_mul, E2, E0 by auto; reflexivity).
    split; [exact Cc|]. rewrite (equal2_ok _ x) by auto with canon. rewrite dec2_sqr, Ec, F2eqb_eq by auto.
    split; [|auto]. split; [intros H; exists (rootc (dec2 x)); auto|]. intros S.
    destruct (F2_eq_dec (dec2 x) F2_0) as [Z0|NZ].
    + rewrite Z0. exact rootc_0.
    + apply rootc_sq; auto.
      * apply Fsquare_euler; [apply F2norm_nz|apply square_norm]; auto.
      * intros E. rewrite E in Q. symmetry in Q. apply not_true_iff_false in Q. apply Q. apply F2eqb_eq. reflexivity.
Qed.
Lemma fp2_isQNR_ok x : canon2 x -> (fp2_isQNR x = true <-> dec2 x = F2_0 \/ ~ F2square (dec2 x)).
Proof.
  intros Hx. assert (Hx' := Hx). destruct Hx' as [H0 H1]. unfold fp2_isQNR. rewrite fp_isQNR_ok by auto with canon.
  assert (E : dec (fp_add (fp_sqr (c1 x)) (fp_sqr (c0 x))) = F2norm (dec2 x)).
  { autorewrite with dec. unfold dec2. f2_unf. ring. }
  rewrite E. destruct (F2_eq_dec (dec2 x) F2_0) as [Z0|NZ].
  - split; [auto|]. intros _. left. rewrite Z0. f2_unf. ring.
  - assert (N := F2norm_nz _ NZ). split.
    + intros [K|K]; [contradiction|]. right. intros S. apply K, square_norm, S.
    + intros [K|K]; [contradiction|]. right. intros S. apply K, norm_square; auto.
Qed.
(** * Signs in Fp2 *)
Lemma fp2_lex_ok x : canon2 x -> fp2_isLexLargest x =
  (half_pm1 <? fval (im (dec2 x))) || ((fval (im (dec2 x)) =? 0) && (half_pm1 <? fval (re (dec2 x)))).
Proof.
  intros [H0 H1]. unfold fp2_isLexLargest. rewrite !isLexLargest_ok by auto. unfold dec2. cbn [re im].
  rewrite isZero_ok by auto. reflexivity.
Qed.
Lemma fval_F0 a : fval a = 0 <-> a = F0.
Proof. split; [intros H; apply fval_inj; exact H|intros ->; reflexivity]. Qed.
Lemma fp2_lex_neg x : canon2 x -> dec2 x <> F2_0 -> fp2_isLexLargest (fp2_neg x) = negb (fp2_isLexLargest x).
Proof.
  intros Hx N. rewrite !fp2_lex_ok, dec2_neg by auto with canon. destruct (dec2 x) as [a b]. unfold F2opp. cbn [re im].
  destruct (F_eq_dec b F0) as [->|Nb].
  - assert (Na : a <> F0) by (intros ->; apply N; reflexivity).
    replace (Fopp F0) with F0 by ring. change (fval F0) with 0. cbn [Z.eqb andb]. 
    replace (half_pm1 <? 0) with false by (symmetry; apply Z.ltb_ge; exact half_pm1_pos). cbn [orb]. apply lex_opp, Na.
  - rewrite (lex_opp b Nb).
    destruct (Z.eqb_spec (fval b) 0) as [E|_]; [apply fval_F0 in E; contradiction|].
    destruct (Z.eqb_spec (fval (Fopp b)) 0) as [E|_]; [apply fval_F0, Fopp_eq_0 in E; contradiction|].
    cbn [andb]. rewrite !orb_false_r. reflexivity.
Qed.
Lemma fp2_sign_ok x : canon2 x -> fp2_sign x =
  if fval (re (dec2 x)) =? 0 then Z.even (fval (im (dec2 x))) else Z.even (fval (re (dec2 x))).
Proof.
  intros [H0 H1]. unfold fp2_sign. fold (fp_sign (c0 x)). fold (fp_sign (c1 x)). rewrite !sign_ok, isZero_ok by auto.
  unfold dec2. cbn [re im]. unfold Feqb. change (fval F0) with 0. destruct (fval (dec (c0 x)) =? 0); reflexivity.
Qed.
Lemma fp2_sign_neg x : canon2 x -> dec2 x <> F2_0 -> fp2_sign (fp2_neg x) = negb (fp2_sign x).
Proof.
  intros Hx N. rewrite !fp2_sign_ok, dec2_neg by auto with canon. destruct (dec2 x) as [a b]. unfold F2opp. cbn [re im].
  destruct (F_eq_dec a F0) as [->|Na].
  - assert (Nb : b <> F0) by (intros ->; apply N; reflexivity).
    replace (Fopp F0) with F0 by ring. change (fval F0) with 0. cbn [Z.eqb]. apply even_opp, Nb.
  - destruct (Z.eqb_spec (fval a) 0) as [E|_]; [apply fval_F0 in E; contradiction|].
    destruct (Z.eqb_spec (fval (Fopp a)) 0) as [E|_]; [apply fval_F0, Fopp_eq_0 in E; contradiction|].
    apply even_opp, Na.
Qed.

(** * The cyclotomic subgroup *)
Definition cyclotomic (a : Fp12) : Prop := F12pow a (modulus ^ 4 - modulus ^ 2 + 1) = F12_1.
Definition cyc_eq (a : Fp12) : Prop := F12mul (F12pow a (modulus ^ 4)) a = F12pow a (modulus ^ 2).
Definition F4sq0 (x y : Fp2) := F2add (F2mul xi (F2mul y y)) (F2mul x x).
Definition F4sq1 (x y : Fp2) := F2add (F2mul x y) (F2mul x y).
Definition F12cycsq (a : Fp12) : Fp12 :=
  let x0 := co0 (lo a) in let x2 := co1 (lo a) in let x4 := co2 (lo a) in
  let x1 := co0 (hi a) in let x3 := co1 (hi a) in let x5 := co2 (hi a) in
  let tr s := F2add s (F2add s s) in
  let db s := F2add s s in
  mkFp12 (mkFp6 (F2sub (tr (F4sq0 x0 x3)) (db x0)) (F2sub (tr (F4sq0 x1 x4)) (db x2)) (F2sub (tr (F4sq0 x2 x5)) (db x4)))
         (mkFp6 (F2add (tr (F2mul xi (F4sq1 x2 x5))) (db x1)) (F2add (tr (F4sq1 x0 x3)) (db x3)) (F2add (tr (F4sq1 x1 x4)) (db x5))).
Lemma diff0 c A B L R : F2sub A B = F2mul c (F2sub L R) -> L = R -> A = B.
Proof.
  intros H ->. transitivity (F2add (F2sub A B) B); [ring|]. rewrite H. ring.
Qed.
Lemma cycsq_alg (z a0 a1 a2 a3 a4 a5 : Fp2) (Hz : F2mul z z = F2sub z F2_1) :
  let z2 := F2mul z z in
  let a := mkFp12 (mkFp6 a0 a2 a4) (mkFp6 a1 a3 a5) in
  let f (z : Fp2) := mkFp12 (mkFp6 a0 (F2mul (F2mul z z) a2) (F2mul (F2mul (F2mul z z) (F2mul z z)) a4))
     (F6mul (F6of z) (mkFp6 a1 (F2mul (F2mul z z) a3) (F2mul (F2mul (F2mul z z) (F2mul z z)) a5))) in
  F12mul (f z2) a = f z -> F12cycsq a = F12mul a a.
Proof.
  intros z2 a f H. unfold z2 in *. clear z2. rewrite Hz in H. unfold f in H. clear f.
  assert (H0 := f_equal (fun a => co0 (lo a)) H). assert (H2 := f_equal (fun a => co1 (lo a)) H).
  assert (H4 := f_equal (fun a => co2 (lo a)) H). assert (H1 := f_equal (fun a => co0 (hi a)) H).
  assert (H3 := f_equal (fun a => co1 (hi a)) H). assert (H5 := f_equal (fun a => co2 (hi a)) H). clear H.
  unfold a in *. clear a. cbv beta in *. unfold F12cycsq, F4sq0, F4sq1. cbv zeta. f12_unf. f6_unf.
  revert H0 H1 H2 H3 H4 H5 Hz. generalize xi. intros g H0 H1 H2 H3 H4 H5 Hz.
  pose (two := F2add F2_1 F2_1). pose (zi := F2sub F2_1 z).
  apply F12_eq; cbn [lo hi]; apply F6_eq; cbn [co0 co1 co2].
  - refine (diff0 two _ _ _ _ _ H0). unfold two. clear -Hz. ring [Hz].
  - refine (diff0 (F2mul two (F2mul zi zi)) _ _ _ _ _ H2). unfold two, zi. clear -Hz. ring [Hz].
  - refine (diff0 (F2mul two (F2mul (F2mul zi zi) (F2mul zi zi))) _ _ _ _ _ H4). unfold two, zi. clear -Hz. ring [Hz].
  - refine (diff0 (F2opp (F2mul two zi)) _ _ _ _ _ H1). unfold two, zi. clear -Hz. ring [Hz].
  - refine (diff0 (F2opp (F2mul two (F2mul zi (F2mul zi zi)))) _ _ _ _ _ H3). unfold two, zi. clear -Hz. ring [Hz].
  - refine (diff0 (F2opp (F2mul two (F2mul zi (F2mul (F2mul zi zi) (F2mul zi zi))))) _ _ _ _ _ H5). unfold two, zi. clear -Hz. ring [Hz].
Qed.
Lemma fp4Square_ok x y : canon2 x -> canon2 y ->
  (canon2 (fst (fp4Square x y)) /\ dec2 (fst (fp4Square x y)) = F4sq0 (dec2 x) (dec2 y)) /\
  (canon2 (snd (fp4Square x y)) /\ dec2 (snd (fp4Square x y)) = F4sq1 (dec2 x) (dec2 y)).
Proof.
  intros Hx Hy. unfold fp4Square, F4sq0, F4sq1. cbv zeta. cbn [fst snd].
  refine (conj (conj _ _) (conj _ _)); auto 20 with canon; autorewrite with dec; auto 20 with canon.
  generalize (dec2 x) (dec2 y). intros. ring.
Qed.
Lemma cycSqr_ok x : canon12 x -> canon12 (fp12_cycSqr x) /\ dec12 (fp12_cycSqr x) = F12cycsq (dec12 x).
Proof.
  intros [(H0 & H2 & H4) (H1 & H3 & H5)]. unfold fp12_cycSqr.
  destruct (fp4Square_ok _ _ H0 H3) as [[C30 E30] [C31 E31]].
  destruct (fp4Square_ok _ _ H1 H4) as [[C14 E14] [C15 E15]].
  destruct (fp4Square_ok _ _ H2 H5) as [[C25 E25] [C26 E26]].
  destruct (fp4Square (d0 (e0 x)) (d1 (e1 x))) as [t3 t4]. destruct (fp4Square (d0 (e1 x)) (d2 (e0 x))) as [s3 s4].
  destruct (fp4Square (d1 (e0 x)) (d2 (e1 x))) as [r3 r4]. cbn [fst snd] in *. cbv zeta.
  split; [split; [refine (conj _ (conj _ _))|refine (conj _ (conj _ _))]; cbn [d0 d1 d2 e0 e1]; auto 20 with canon|].
  unfold dec12, dec6. cbn [d0 d1 d2 e0 e1]. rewrite !dec2_add, !dec2_dbl, !dec2_sub, !dec2_add, !dec2_mulXi, ?E30, ?E31, ?E14, ?E15, ?E25, ?E26 by auto 20 with canon.
  unfold F12cycsq. cbv zeta. cbn [lo hi co0 co1 co2].
  repeat match goal with |- context [F4sq0 ?a ?b] => generalize (F4sq0 a b); intro | |- context [F4sq1 ?a ?b] => generalize (F4sq1 a b); intro end.
  generalize xi (dec2 (d0 (e0 x))) (dec2 (d1 (e0 x))) (dec2 (d2 (e0 x))) (dec2 (d0 (e1 x))) (dec2 (d1 (e1 x))) (dec2 (d2 (e1 x))). intros.
  apply F12_eq; cbn [lo hi]; apply F6_eq; cbn [co0 co1 co2]; ring.
Qed.
Lemma phi12_pos : 0 <= modulus ^ 4 - modulus ^ 2 + 1. Proof. apply Z.leb_le. vm_compute. reflexivity. Qed.
Lemma cyc_eq_of (p : Z) a : 0 <= p ^ 4 - p ^ 2 + 1 -> 0 <= p -> F12pow a (p ^ 4 - p ^ 2 + 1) = F12_1 ->
  F12mul (F12pow a (p ^ 4)) a = F12pow a (p ^ 2).
Proof.
  intros Hp P H. transitivity (F12pow a (p ^ 4 + 1)).
  - rewrite (rpow_succ F12_ring) by (apply Z.pow_nonneg; lia). apply (Rmul_comm F12_ring).
  - replace (p ^ 4 + 1) with ((p ^ 4 - p ^ 2 + 1) + p ^ 2) by lia.
    rewrite (rpow_add F12_ring), H by (auto; apply Z.pow_nonneg; lia). apply (Rmul_1_l F12_ring).
Qed.
Lemma mod_nonneg : 0 <= modulus. Proof. discriminate. Qed.
Lemma cyc_cyc_eq a : cyclotomic a -> cyc_eq a.
Proof. unfold cyclotomic, cyc_eq. intros H. exact (cyc_eq_of modulus a phi12_pos mod_nonneg H). Qed.
Lemma cyc_sq a : cyclotomic a -> F12cycsq a = F12mul a a.
Proof.
  intros H. apply cyc_cyc_eq in H. unfold cyc_eq in H.
  assert (P4 : F12pow a (modulus ^ 4) = frob12 false (dltk 4) a) by exact (F12_frobk a 4%nat).
  assert (P2 : F12pow a (modulus ^ 2) = frob12 false (dltk 2) a) by exact (F12_frobk a 2%nat).
  rewrite P4, P2, dltk_4, dltk_2, kz4_dec in H. clear P4 P2.
  assert (Ez := kz_sq). revert Ez H. generalize (dec k_z). intros z Ez H.
  destruct a as [[a0 a2 a4] [a1 a3 a5]].
  apply (cycsq_alg (mkFp2 z F0) a0 a1 a2 a3 a4 a5).
  - apply F2_eq; f2_unf; [|ring]. transitivity (Fmul z z); [ring|exact Ez].
  - unfold frob12, frob6 in H. cbn [Nat.odd Nat.even negb cj lo hi co0 co1 co2] in H.
    assert (E2 : F2mul (mkFp2 z F0) (mkFp2 z F0) = mkFp2 (Fsub z F1) F0).
    { apply F2_eq; f2_unf; [|ring]. transitivity (Fmul z z); [ring|exact Ez]. }
    rewrite E2. rewrite E2 in H. exact H.
Qed.
Lemma cyc_pow a n : 0 <= n -> cyclotomic a -> cyclotomic (F12pow a n).
Proof.
  unfold cyclotomic. intros Hn H. assert (P := phi12_pos). revert P H. generalize (modulus ^ 4 - modulus ^ 2 + 1). intros k P H.
  rewrite <- (rpow_mul F12_ring) by auto. rewrite Z.mul_comm, (rpow_mul F12_ring), H by auto. apply (rpow_one F12_ring).
Qed.
Lemma fp12_cycExp_ok x s : canon12 x -> cyclotomic (dec12 x) -> words s ->
  canon12 (fp12_cycExp x s) /\ dec12 (fp12_cycExp x s) = F12pow (dec12 x) (val s).
Proof.
  intros Hx Hc Hs. unfold fp12_cycExp. apply (gexp_ring F12_ring canon12 dec12); auto using canon12_one, dec12_one.
  - auto using canon12_mul, dec12_mul.
  - intros z e He Cz Ez. destruct (cycSqr_ok z Cz) as [C E]. split; [exact C|]. rewrite E. apply cyc_sq.
    rewrite Ez. apply cyc_pow; auto.
Qed.
Lemma fp12_isGtValid_ok x : canon12 x -> (fp12_isGtValid x = true <-> F12pow (dec12 x) order = F12_1).
Proof.
  intros Hx. unfold fp12_isGtValid.
  assert (Wl : words (limbs_of 4 Qorder)) by (apply limbs_of_words).
  assert (Vl : val (limbs_of 4 Qorder) = order) by (vm_compute; reflexivity).
  destruct (fp12_exp_ok x _ Hx Wl) as [C E]. rewrite Vl in E. rewrite isOne12_ok, F12eqb_eq, E by auto. reflexivity.
Qed.

(** * Byte codecs of the tower *)
From Verif Require Import SpecBytes BytesProof FpCodec.
(** [enc]/[decb] is an exact codec of the elements satisfying C into byte strings of length n *)
Definition codec {A} (n : nat) (C : A -> Prop) (enc : A -> list Z) (decb : list Z -> option A) : Prop :=
  (forall x, C x -> bytes (enc x) /\ length (enc x) = n /\ decb (enc x) = Some x) /\
  (forall b x, bytes b -> length b = n -> decb b = Some x -> C x /\ enc x = b).
Lemma fp_codec_BE : codec 48 canon (fun x => fp_toBytesBE x true) (fun b => fp_fromBytesBE b true true).
Proof.
  split.
  - intros x H. split; [|split; [|apply fp_BE_roundtrip; auto]]; rewrite fp_toBytesBE_int by auto; [apply int_be_bytes|apply int_be_length].
  - intros b x Hb L H. split; [|apply fp_BE_unique; auto]. rewrite fp_fromBytesBE_int in H by auto.
    apply fp_of_int_ok in H; [|apply be48_range; auto]. apply H.
Qed.
Lemma fp_codec_LE : codec 48 canon (fun x => fp_toBytesLE x true) (fun b => fp_fromBytesLE b true true).
Proof.
  split.
  - intros x H. split; [|split; [|apply fp_LE_roundtrip; auto]]; rewrite fp_toBytesLE_int by auto; [apply int_le_bytes|apply int_le_length].
  - intros b x Hb L H. split; [|apply fp_LE_unique; auto]. rewrite fp_fromBytesLE_int in H by auto.
    apply fp_of_int_ok in H; [|apply le48_range; auto]. apply H.
Qed.
Lemma bytes_firstn n b : bytes b -> bytes (firstn n b).
Proof. unfold bytes. rewrite !Forall_forall. intros H x Hx. apply H. rewrite <- (firstn_skipn n b). apply in_or_app. auto. Qed.
Lemma bytes_skipn n b : bytes b -> bytes (skipn n b).
Proof. unfold bytes. rewrite !Forall_forall. intros H x Hx. apply H. rewrite <- (firstn_skipn n b). apply in_or_app. auto. Qed.
Lemma span_bytes o n b : bytes b -> bytes (sub_span o n b).
Proof. intros. unfold sub_span. apply bytes_firstn, bytes_skipn, H. Qed.
Lemma span_length o n b : (o + n <= length b)%nat -> length (sub_span o n b) = n.
Proof. intros. unfold sub_span. rewrite firstn_length, skipn_length. lia. Qed.
Lemma span_app1 a b n : length a = n -> sub_span 0 n (a ++ b) = a.
Proof. intros <-. unfold sub_span. cbn [skipn]. rewrite firstn_app, Nat.sub_diag, firstn_all. cbn. apply app_nil_r. Qed.
Lemma span_app2 a b o n : length a = o -> sub_span o n (a ++ b) = sub_span 0 n b.
Proof. intros <-. unfold sub_span. rewrite skipn_app, Nat.sub_diag, skipn_all. reflexivity. Qed.
Lemma span_app2' a b o n m : length a = m -> (m <= o)%nat -> sub_span o n (a ++ b) = sub_span (o - m) n b.
Proof. intros <- H. unfold sub_span. rewrite skipn_app, skipn_all2 by lia. reflexivity. Qed.
Lemma span_all b n : length b = n -> sub_span 0 n b = b.
Proof. intros <-. unfold sub_span. cbn [skipn]. apply firstn_all. Qed.
Lemma firstn_add {A} n m (l : list A) : firstn (n + m) l = firstn n l ++ firstn m (skipn n l).
Proof. revert l. induction n as [|n IH]; intros l; [reflexivity|]. destruct l; cbn; [rewrite firstn_nil; reflexivity|]. f_equal. apply IH. Qed.
Lemma span_split2 b n m : length b = (n + m)%nat -> sub_span 0 n b ++ sub_span n m b = b.
Proof. intros L. unfold sub_span. cbn [skipn]. rewrite <- firstn_add, <- L. apply firstn_all. Qed.
Lemma codec_pair {A B D} n m (CA : A -> Prop) (CB : B -> Prop) ea da eb db (mk : A -> B -> D) (pa : D -> A) (pb : D -> B) :
  (forall x, mk (pa x) (pb x) = x) -> (forall a b, pa (mk a b) = a /\ pb (mk a b) = b) ->
  codec n CA ea da -> codec m CB eb db ->
  codec (n + m) (fun x => CA (pa x) /\ CB (pb x)) (fun x => ea (pa x) ++ eb (pb x))
    (fun b => match da (sub_span 0 n b), db (sub_span n m b) with Some a, Some c => Some (mk a c) | _, _ => None end).
Proof.
  intros M P [A1 A2] [B1 B2]. split.
  - intros x [Ha Hb]. destruct (A1 _ Ha) as (X1 & X2 & X3). destruct (B1 _ Hb) as (Y1 & Y2 & Y3).
    split; [apply Forall_app; auto|]. split; [rewrite app_length; lia|].
    rewrite span_app1, span_app2, span_all, X3, Y3, M by auto. reflexivity.
  - intros b x Hb L H. destruct (da _) as [a|] eqn:Ea; [|discriminate]. destruct (db _) as [c|] eqn:Ec; [|discriminate].
    injection H as <-. destruct (P a c) as [-> ->].
    destruct (A2 _ _ (span_bytes _ _ _ Hb) (span_length 0 n b ltac:(lia)) Ea) as [Q1 R1].
    destruct (B2 _ _ (span_bytes _ _ _ Hb) (span_length n m b ltac:(lia)) Ec) as [Q2 R2].
    split; [auto|]. rewrite R1, R2. apply span_split2, L.
Qed.
Lemma codec_ext {A} n (C C' : A -> Prop) e e' d d' : (forall x, C x <-> C' x) -> (forall x, e x = e' x) ->
  (forall b, length b = n -> d b = d' b) -> codec n C e d -> codec n C' e' d'.
Proof.
  intros H1 H2 H3 [K1 K2]. split.
  - intros x Hx. apply H1 in Hx. destruct (K1 x Hx) as (X1 & X2 & X3). rewrite <- H2, <- H3 by auto. auto.
  - intros b x Hb L H. rewrite <- H3 in H by auto. destruct (K2 b x Hb L H). rewrite <- H1, <- H2. auto.
Qed.
Lemma fp2_codec_BE : codec 96 canon2 (fun x => fp2_toBytesBE x true) (fun b => fp2_fromBytesBE b true true).
Proof.
  refine (codec_ext 96 _ _ _ _ _ _ _ _ _ (codec_pair 48 48 _ _ _ _ _ _ (fun a b => mk2 b a) c1 c0 _ _ fp_codec_BE fp_codec_BE)).
  - intros [a b]. unfold canon2. cbn. tauto.
  - intros x. unfold fp2_toBytesBE. reflexivity.
  - intros b _. unfold fp2_fromBytesBE. reflexivity.
  - intros [a b]. reflexivity.
  - intros. split; reflexivity.
Qed.
Lemma fp2_codec_LE : codec 96 canon2 (fun x => fp2_toBytesLE x true) (fun b => fp2_fromBytesLE b true true).
Proof.
  refine (codec_ext 96 _ _ _ _ _ _ _ _ _ (codec_pair 48 48 _ _ _ _ _ _ (fun a b => mk2 a b) c0 c1 _ _ fp_codec_LE fp_codec_LE)).
  - intros [a b]. unfold canon2. cbn. tauto.
  - intros x. unfold fp2_toBytesLE. reflexivity.
  - intros b _. unfold fp2_fromBytesLE. reflexivity.
  - intros [a b]. reflexivity.
  - intros. split; reflexivity.
Qed.
Lemma span_span o n b o' n' : (o' + n' <= n)%nat -> sub_span o' n' (sub_span o n b) = sub_span (o + o') n' b.
Proof.
  intros H. unfold sub_span. rewrite skipn_firstn_comm, firstn_firstn. f_equal; [lia|].
  clear. revert b. induction o as [|o IH]; intros b; [reflexivity|]. destruct b; [cbn; rewrite !skipn_nil; reflexivity|]. apply IH.
Qed.
Lemma fp6_codec_BE : codec 288 canon6 (fun x => fp6_toBytesBE x true) (fun b => fp6_fromBytesBE b true true).
Proof.
  refine (codec_ext 288 _ _ _ _ _ _ _ _ _ (codec_pair 96 192 _ _ _ _ _ _ (fun a b => mk6 (snd b) (fst b) a) d2 (fun x => (d1 x, d0 x)) _ _ fp2_codec_BE
    (codec_pair 96 96 _ _ _ _ _ _ (fun a b => (a, b)) fst snd _ _ fp2_codec_BE fp2_codec_BE))).
  - intros [a b c]. unfold canon6. cbn [d0 d1 d2 fst snd]. tauto.
  - reflexivity.
  - intros b L. rewrite !span_span by lia. cbn [Nat.add]. unfold fp6_fromBytesBE.
    destruct (fp2_fromBytesBE (sub_span 0 96 b) true true), (fp2_fromBytesBE (sub_span 96 96 b) true true), (fp2_fromBytesBE (sub_span 192 96 b) true true); reflexivity.
  - intros [a b c]. reflexivity.
  - intros ? [? ?]. split; reflexivity.
  - intros [a b]. reflexivity.
  - intros. split; reflexivity.
Qed.
Lemma fp6_codec_LE : codec 288 canon6 (fun x => fp6_toBytesLE x true) (fun b => fp6_fromBytesLE b true true).
Proof.
  refine (codec_ext 288 _ _ _ _ _ _ _ _ _ (codec_pair 96 192 _ _ _ _ _ _ (fun a b => mk6 a (fst b) (snd b)) d0 (fun x => (d1 x, d2 x)) _ _ fp2_codec_LE
    (codec_pair 96 96 _ _ _ _ _ _ (fun a b => (a, b)) fst snd _ _ fp2_codec_LE fp2_codec_LE))).
  - intros [a b c]. unfold canon6. cbn [d0 d1 d2 fst snd]. tauto.
  - reflexivity.
  - intros b L. rewrite !span_span by lia. cbn [Nat.add]. unfold fp6_fromBytesLE.
    destruct (fp2_fromBytesLE (sub_span 0 96 b) true true), (fp2_fromBytesLE (sub_span 96 96 b) true true), (fp2_fromBytesLE (sub_span 192 96 b) true true); reflexivity.
  - intros [a b c]. reflexivity.
  - intros ? [? ?]. split; reflexivity.
  - intros [a b]. reflexivity.
  - intros. split; reflexivity.
Qed.
Lemma fp12_codec_BE : codec 576 canon12 (fun x => fp12_toBytesBE x true) (fun b => fp12_fromBytesBE b true true).
Proof.
  refine (codec_ext 576 _ _ _ _ _ _ _ _ _ (codec_pair 288 288 _ _ _ _ _ _ (fun a b => mk12 b a) e1 e0 _ _ fp6_codec_BE fp6_codec_BE)).
  - intros [a b]. unfold canon12. cbn [e0 e1]. tauto.
  - intros x. unfold fp12_toBytesBE. reflexivity.
  - intros b _. unfold fp12_fromBytesBE. reflexivity.
  - intros [a b]. reflexivity.
  - intros. split; reflexivity.
Qed.
Lemma fp12_codec_LE : codec 576 canon12 (fun x => fp12_toBytesLE x true) (fun b => fp12_fromBytesLE b true true).
Proof.
  refine (codec_ext 576 _ _ _ _ _ _ _ _ _ (codec_pair 288 288 _ _ _ _ _ _ (fun a b => mk12 a b) e0 e1 _ _ fp6_codec_LE fp6_codec_LE)).
  - intros [a b]. unfold canon12. cbn [e0 e1]. tauto.
  - intros x. unfold fp12_toBytesLE. reflexivity.
  - intros b _. unfold fp12_fromBytesLE. reflexivity.
  - intros [a b]. reflexivity.
  - intros. split; reflexivity.
Qed.

(** * Orders in the multiplicative group of Fp12 *)
Lemma dltk_12 : dltk 12 = F2_1.
Proof. change 12%nat with (6 + 6)%nat. rewrite dltk_add6, dltk_6. generalize F2_1. intros. apply F2_eq; unfold F2opp; cbn [re im]; ring. Qed.
Lemma frob12_1 a : frob12 false F2_1 a = a.
Proof.
  destruct a as [[a0 a1 a2] [b0 b1 b2]]. unfold frob12, frob6. cbn [cj lo hi co0 co1 co2].
  apply F12_eq; cbn [lo hi]; apply F6_eq; f6_unf; ring.
Qed.
Lemma F12_p12 a : F12pow a (modulus ^ 12) = a.
Proof.
  assert (P : F12pow a (modulus ^ 12) = frob12 false (dltk 12) a) by exact (F12_frobk a 12%nat).
  rewrite P, dltk_12. apply frob12_1.
Qed.
Lemma F12_cancel a b : a <> F12_0 -> F12mul a b = a -> b = F12_1.
Proof.
  intros N H. transitivity (F12mul (F12mul (F12inv a) a) b).
  - rewrite F12inv_l by auto. symmetry. apply (Rmul_1_l F12_ring).
  - rewrite <- (Rmul_assoc F12_ring), H. apply F12inv_l, N.
Qed.
Lemma fermat_alg (n : Z) a : 0 <= n -> a <> F12_0 -> F12pow a (n + 1) = a -> F12pow a n = F12_1.
Proof. intros Hn N H. rewrite (rpow_succ F12_ring) in H by auto. apply (F12_cancel a); auto. Qed.
Lemma p12m1_pos : 0 <= modulus ^ 12 - 1. Proof. apply Z.leb_le. vm_compute. reflexivity. Qed.
Lemma F12_fermat a : a <> F12_0 -> F12pow a (modulus ^ 12 - 1) = F12_1.
Proof.
  intros N. apply fermat_alg; [exact p12m1_pos|exact N|].
  replace (modulus ^ 12 - 1 + 1) with (modulus ^ 12) by (generalize (modulus ^ 12); clear; intros; lia).
  apply F12_p12.
Qed.
Lemma easy_exp (p : Z) : (p ^ 6 - 1) * (p ^ 2 + 1) * (p ^ 4 - p ^ 2 + 1) = p ^ 12 - 1. Proof. ring. Qed.
Lemma easy_pos : 0 <= (modulus ^ 6 - 1) * (modulus ^ 2 + 1). Proof. apply Z.leb_le. vm_compute. reflexivity. Qed.
Lemma pow_split a n m k : 0 <= n -> 0 <= m -> n * m = k -> F12pow a k = F12_1 -> F12pow (F12pow a n) m = F12_1.
Proof. intros Hn Hm <- H. rewrite <- (rpow_mul F12_ring) by auto. exact H. Qed.
Lemma easy_cyclotomic a : a <> F12_0 -> cyclotomic (F12pow a ((modulus ^ 6 - 1) * (modulus ^ 2 + 1))).
Proof. intros N. exact (pow_split a _ _ _ easy_pos phi12_pos (easy_exp modulus) (F12_fermat a N)). Qed.
(** on the cyclotomic subgroup conjugation is inversion *)
Lemma F12_p6 a : F12pow a (modulus ^ 6) = F12conj a.
Proof.
  assert (P : F12pow a (modulus ^ 6) = frob12 false (dltk 6) a) by exact (F12_frobk a 6%nat).
  rewrite P, dltk_6. destruct a as [[a0 a1 a2] [b0 b1 b2]]. unfold frob12, frob6. cbn [cj lo hi co0 co1 co2].
  apply F12_eq; f12_unf; apply F6_eq; f6_unf; ring.
Qed.
Lemma cyc6_exp (p : Z) : (p ^ 4 - p ^ 2 + 1) * (p ^ 2 + 1) = p ^ 6 + 1. Proof. ring. Qed.
Lemma p2p1_pos : 0 <= modulus ^ 2 + 1. Proof. apply Z.leb_le. vm_compute. reflexivity. Qed.
Lemma p6_pos : 0 <= modulus ^ 6. Proof. apply Z.leb_le. vm_compute. reflexivity. Qed.
Lemma pow_lift a n m k : 0 <= n -> 0 <= m -> n * m = k -> F12pow a n = F12_1 -> F12pow a k = F12_1.
Proof. intros Hn Hm <- H. rewrite (rpow_mul F12_ring), H by auto. apply (rpow_one F12_ring); auto. Qed.
Lemma cyc_conj a : cyclotomic a -> F12mul a (F12conj a) = F12_1.
Proof.
  intros H. assert (P := pow_lift a _ _ _ phi12_pos p2p1_pos (cyc6_exp modulus) H).
  rewrite (rpow_succ F12_ring) in P by exact p6_pos. rewrite F12_p6 in P. exact P.
Qed.

(** * [rep x a]: the object x is canonical and stands for the element a *)
Definition rep2 (x : fp2) (a : Fp2) : Prop := canon2 x /\ dec2 x = a.
Definition rep6 (x : fp6) (a : Fp6) : Prop := canon6 x /\ dec6 x = a.
Definition rep12 (x : fp12) (a : Fp12) : Prop := canon12 x /\ dec12 x = a.
Lemma rep2_unique x y a : rep2 x a -> rep2 y a -> x = y.
Proof. intros [C1 E1] [C2 E2]. apply dec2_inj; auto. congruence. Qed.
Lemma rep6_unique x y a : rep6 x a -> rep6 y a -> x = y.
Proof. intros [C1 E1] [C2 E2]. apply dec6_inj; auto. congruence. Qed.
Lemma rep12_unique x y a : rep12 x a -> rep12 y a -> x = y.
Proof. intros [C1 E1] [C2 E2]. apply dec12_inj; auto. congruence. Qed.
Definition enc6 (a : Fp6) : fp6 := mk6 (enc2 (co0 a)) (enc2 (co1 a)) (enc2 (co2 a)).
Definition enc12 (a : Fp12) : fp12 := mk12 (enc6 (lo a)) (enc6 (hi a)).
Lemma rep2_enc a : rep2 (enc2 a) a. Proof. split; [apply canon2_enc|apply dec2_enc]. Qed.
Lemma rep6_enc a : rep6 (enc6 a) a.
Proof. split; [refine (conj _ (conj _ _)); apply canon2_enc|]. unfold dec6, enc6. cbn [d0 d1 d2]. rewrite !dec2_enc. destruct a; reflexivity. Qed.
Lemma rep12_enc a : rep12 (enc12 a) a.
Proof. split; [split; apply rep6_enc|]. unfold dec12, enc12. cbn [e0 e1]. rewrite !(proj2 (rep6_enc _)). destruct a; reflexivity. Qed.

Lemma F2_frobn a k : F2pow a (modulus ^ Z.of_nat k) = cj (Nat.odd k) a.
Proof.
  induction k as [|k IH]; [reflexivity|].
  rewrite modk_S, (rpow_mul F2_ring), IH, F2_frob, cj_S by (try apply Z.pow_nonneg; discriminate). reflexivity.
Qed.
Lemma F2_frobk a k : 0 <= k -> F2pow a (modulus ^ k) = cj (Nat.odd (Z.to_nat k)) a.
Proof. intros H. rewrite <- F2_frobn, Z2Nat.id by auto. reflexivity. Qed.

(** the easy part maps 1 + w to an element different from 1 *)
Definition onew : Fp12 := F12add F12_1 F12w.
Lemma onew_nz : onew <> F12_0.
Proof. intros H. apply (f_equal (fun a => fval (re (co0 (lo a))))) in H. vm_compute in H. discriminate H. Qed.
Lemma onew_p2 : F12pow onew (modulus ^ 2) = mkFp12 F6_1 (F6of (mkFp2 (dec k_z) F0)).
Proof.
  assert (P : F12pow onew (modulus ^ 2) = frob12 false (dltk 2) onew) by exact (F12_frobk onew 2%nat).
  rewrite P, dltk_2. generalize (mkFp2 (dec k_z) F0). intros z. unfold frob12, frob6, onew. f12_unf. cbn [cj].
  apply F12_eq; cbn [lo hi]; apply F6_eq; f6_unf; ring.
Qed.
Lemma easy_pow (p : Z) a : 0 <= p ^ 6 - 1 -> 0 <= p ^ 2 -> F12pow a ((p ^ 6 - 1) * (p ^ 2 + 1)) = F12_1 ->
  F12pow (F12mul a (F12pow a (p ^ 2))) (p ^ 6) = F12mul a (F12pow a (p ^ 2)).
Proof.
  intros H1 H2 H. rewrite <- (rpow_succ F12_ring) by auto. rewrite Z.mul_comm, (rpow_mul F12_ring) in H by lia.
  replace (p ^ 6) with ((p ^ 6 - 1) + 1) by lia. rewrite (rpow_succ F12_ring), H by auto.
  rewrite (Rmul_comm F12_ring). apply (Rmul_1_l F12_ring).
Qed.
Lemma p6m1_pos : 0 <= modulus ^ 6 - 1. Proof. apply Z.leb_le. vm_compute. reflexivity. Qed.
Lemma p2_pos : 0 <= modulus ^ 2. Proof. apply Z.leb_le. vm_compute. reflexivity. Qed.
Lemma onew_easy : F12pow onew ((modulus ^ 6 - 1) * (modulus ^ 2 + 1)) <> F12_1.
Proof.
  intros H. apply (easy_pow modulus onew p6m1_pos p2_pos) in H. rewrite F12_p6, onew_p2 in H.
  apply (f_equal (fun a => re (co0 (hi a)))) in H. unfold onew in H. f12_unf. f6_unf. f2_unf.
  assert (E := kz_sq). revert E H. generalize (dec k_z). intros z E H.
  assert (D : Fmul (Fadd F1 F1) (Fadd z F1) = F0).
  { match type of H with ?l = ?r => transitivity (Fsub r l); [ring|rewrite H; ring] end. }
  apply Fmul_0 in D. destruct D as [D|D]; [exact (F2_neq_0 D)|].
  assert (Z1 : z = Fopp F1) by (transitivity (Fsub (Fadd z F1) F1); [ring|rewrite D; ring]). rewrite Z1 in E.
  apply F3_neq_0. transitivity (Fsub (Fmul (Fopp F1) (Fopp F1)) (Fsub (Fopp F1) F1)); [ring|]. rewrite E. ring.
Qed.
