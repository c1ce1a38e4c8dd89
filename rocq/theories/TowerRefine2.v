(** Square roots and signs in fp2, the Frobenius maps of fp6 and fp12, cyclotomic squaring. *)
From Coq Require Import ZArith List Bool Lia Ring Field.
From Verif Require Import RingPow NumTheory SpecField FieldProof TowerProof TowerProof2 ModelWord ModelScalar ModelFp ModelTower
  ScalarProof FpProof FpProof2 TowerRefine.
Import ListNotations.
Local Open Scope Z_scope.
Add Field Fp_fieldTR2 : F_field.
Add Field Fp2_fieldTR2 : F2_field.
Add Field Fp6_fieldTR2 : F6_field.
Add Ring Fp12_ringTR2 : F12_ring.

(** ** Frobenius coefficients *)
Definition k_a : Z := 0x8f2220fb0fb66eb1ce393ea5daace4da35baecab2dc29ee97e83cccd117228fc6695f92b50a831307089552b319d465.
Definition k_z : Z := 0x110f184e51c5f5947222a47bf7b5c04d5c13cc6f1ca47210ec08ff1232bda8ec100ddb891865a2cecfb361b798dba3a.
Definition k_a3 : Z := 0xbd592fc7d825ec81d794e4fac7cf0b992ad2afd19103e18382844c88b6237324294213d86c181833e2f585da55c9ad1.
Definition k_z4 : Z := 0x51ba4ab241b61603636b76660701c6ec26a2ff874fd029b16a8ca3ac61577f7f3b8ddab7ece5a2a30f1361b798a64e8.
Definition k_a5 : Z := 0x2e370eccc86f7dd0095ba654ed2226bef517c3266341429a04007fbba4b14a27c2ac1aad1b6fe703726c30af242c66c.
Lemma coeffs12_shape : frobeniusCoeffs12 =
  [fp2_one; mk2 k_a (fp_neg k_a); mk2 k_z 0; mk2 k_a3 (fp_neg k_a3); mk2 k_z4 0; mk2 k_a5 (fp_neg k_a5);
   mk2 (fp_neg R1) 0; mk2 (fp_neg k_a) k_a; mk2 (fp_neg k_z) 0; mk2 (fp_neg k_a3) k_a3; mk2 (fp_neg k_z4) 0;
   mk2 (fp_neg k_a5) k_a5].
Proof. vm_compute. reflexivity. Qed.
Lemma coeffs61_shape : frobeniusCoeffs61 =
  [fp2_one; mk2 0 (fp_neg k_z); mk2 k_z4 0; mk2 0 R1; mk2 (fp_neg k_z) 0; mk2 0 k_z4].
Proof. vm_compute. reflexivity. Qed.
Lemma coeffs62_shape : frobeniusCoeffs62 =
  [fp2_one; mk2 (fp_neg k_z4) 0; mk2 (fp_neg k_z) 0; mk2 (fp_neg R1) 0; mk2 k_z4 0; mk2 k_z 0].
Proof. vm_compute. reflexivity. Qed.
Lemma canon_ka : canon k_a. Proof. zchk. Qed.
Lemma canon_kz : canon k_z. Proof. zchk. Qed.
Lemma canon_ka3 : canon k_a3. Proof. zchk. Qed.
Lemma k_z4_eq : k_z4 = fp_sub k_z R1. Proof. vm_compute. reflexivity. Qed.
Lemma k_a5_eq : k_a5 = fp_sub k_a3 k_a. Proof. vm_compute. reflexivity. Qed.
Lemma canon_kz4 : canon k_z4. Proof. zchk. Qed.
Lemma canon_ka5 : canon k_a5. Proof. zchk. Qed.
#[global] Hint Resolve canon_ka canon_kz canon_ka3 canon_kz4 canon_ka5 : canon.
Lemma ka_sq : Fmul (Fof 2) (Fmul (dec k_a) (dec k_a)) = dec k_z.
Proof.
  transitivity (Fmul (dec (2 * k_a)) (dec k_a)).
  - unfold dec. rewrite !Fof_mul. ring.
  - symmetry. apply (dec_mul_raw _ _ _ 0x457548006b155cecd711d4fc30381429335983620e7b11183e9e26ec54824b34825071768eeea57d59c4b46e54160ea). vm_compute. reflexivity.
Qed.
Lemma kz4_dec : dec k_z4 = Fsub (dec k_z) F1.
Proof. rewrite k_z4_eq. autorewrite with dec. reflexivity. Qed.
Lemma kz_sq : Fmul (dec k_z) (dec k_z) = Fsub (dec k_z) F1.
Proof. rewrite <- kz4_dec. symmetry. apply (dec_mul_raw _ _ _ 0x323dff094428a51c7b126b2b42cc6973d039f228ea859129c74a7a7e8d22b5ec4ab7f1a5d2b101eb80476846827f0094). vm_compute. reflexivity. Qed.
Lemma ka3_dec : dec k_a3 = Fmul (dec k_a) (dec k_z).
Proof. apply (dec_mul_raw _ _ _ 0x7422f6506e4b9af79971130708f467a4d124c193a2427a51390e0e2786a3174f885ecf953029ce949707dc8e4af47d5a). vm_compute. reflexivity. Qed.
Lemma ka5_dec : dec k_a5 = Fmul (dec k_a) (Fsub (dec k_z) F1).
Proof. rewrite k_a5_eq. autorewrite with dec. rewrite ka3_dec. ring. Qed.
Lemma D1_re : re D1 = dec k_a.
Proof. unfold dec. symmetry. apply (Fof_hint _ _ 0x739014408aeef7f13f7373c82467ab9f1745b49031298e6bb76be451c78e475906588715d647e418256779da637beb8). vm_compute. reflexivity. Qed.
Lemma D1_im : im D1 = Fopp (dec k_a).
Proof.
  rewrite <- D1_re. apply fval_inj. vm_compute. reflexivity.
Qed.
Lemma dlt_dec : dlt = mkFp2 (dec k_a) (Fopp (dec k_a)).
Proof. rewrite dlt_eq, <- D1_im, <- D1_re. destruct D1. reflexivity. Qed.
#[global] Opaque k_a k_z k_a3 k_z4 k_a5.
Lemma dlt_step1 y : F2mul dlt (F2conj (mkFp2 y F0)) = mkFp2 (Fmul (dec k_a) y) (Fopp (Fmul (dec k_a) y)).
Proof. rewrite dlt_dec. generalize (dec k_a). intros. apply F2_eq; f2_unf; ring. Qed.
Lemma dlt_step2 y : F2mul dlt (F2conj (mkFp2 (Fmul (dec k_a) y) (Fopp (Fmul (dec k_a) y)))) = mkFp2 (Fmul (dec k_z) y) F0.
Proof. rewrite dlt_dec, <- ka_sq, Fof2. generalize (dec k_a). intros. apply F2_eq; f2_unf; ring. Qed.
Lemma dltk_1 : dltk 1 = mkFp2 (dec k_a) (Fopp (dec k_a)).
Proof. cbn [dltk]. change F2_1 with (mkFp2 F1 F0). rewrite dlt_step1. generalize (dec k_a). intros; apply F2_eq; cbn [re im]; ring. Qed.
Lemma dltk_2 : dltk 2 = mkFp2 (dec k_z) F0.
Proof.
  change (dltk 2) with (F2mul dlt (F2conj (dltk 1))). rewrite dltk_1.
  replace (dec k_a) with (Fmul (dec k_a) F1) by ring. rewrite dlt_step2. apply F2_eq; cbn [re im]; ring.
Qed.
Lemma dltk_3 : dltk 3 = mkFp2 (dec k_a3) (Fopp (dec k_a3)).
Proof. change (dltk 3) with (F2mul dlt (F2conj (dltk 2))). rewrite dltk_2, dlt_step1, ka3_dec. reflexivity. Qed.
Lemma dltk_4 : dltk 4 = mkFp2 (dec k_z4) F0.
Proof. change (dltk 4) with (F2mul dlt (F2conj (dltk 3))). rewrite dltk_3, ka3_dec, dlt_step2, kz_sq, kz4_dec. reflexivity. Qed.
Lemma dltk_5 : dltk 5 = mkFp2 (dec k_a5) (Fopp (dec k_a5)).
Proof. change (dltk 5) with (F2mul dlt (F2conj (dltk 4))). rewrite dltk_4, dlt_step1, ka5_dec, kz4_dec. reflexivity. Qed.
Lemma dltk_6 : dltk 6 = F2opp F2_1.
Proof.
  change (dltk 6) with (F2mul dlt (F2conj (dltk 5))). rewrite dltk_5, ka5_dec, dlt_step2.
  replace (Fmul (dec k_z) (Fsub (dec k_z) F1)) with (Fsub (Fmul (dec k_z) (dec k_z)) (dec k_z)) by ring.
  rewrite kz_sq. apply F2_eq; f2_unf; ring.
Qed.
Lemma dltk_add6 k : dltk (k + 6) = F2opp (dltk k).
Proof.
  induction k as [|k IH]; [exact dltk_6|].
  change (dltk (S k + 6)) with (F2mul dlt (F2conj (dltk (k + 6)))). rewrite IH. cbn [dltk].
  generalize dlt (dltk k). intros. apply F2_eq; f2_unf; ring.
Qed.
Lemma dltk_sq_add6 k : F2mul (dltk (k + 6)) (dltk (k + 6)) = F2mul (dltk k) (dltk k).
Proof. rewrite dltk_add6. generalize (dltk k). intros. ring. Qed.
(** decoded coefficient tables *)
#[global] Opaque dltk.
Ltac dcoef := unfold dec2; cbn [c0 c1]; autorewrite with dec.
Lemma coeff12_ok k : (k < 12)%nat -> canon2 (nth k frobeniusCoeffs12 fp2_zero) /\ dec2 (nth k frobeniusCoeffs12 fp2_zero) = dltk k.
Proof.
  intros H. rewrite coeffs12_shape.
  destruct k as [|[|[|[|[|[|[|[|[|[|[|[|k]]]]]]]]]]]]; [..|lia]; cbn [nth]; (split; [split; cbn [c0 c1]; auto with canon|]).
  - exact dec2_one.
  - rewrite dltk_1; dcoef; reflexivity.
  - rewrite dltk_2; dcoef; reflexivity.
  - rewrite dltk_3; dcoef; reflexivity.
  - rewrite dltk_4; dcoef; reflexivity.
  - rewrite dltk_5; dcoef; reflexivity.
  - rewrite dltk_6; dcoef; apply F2_eq; f2_unf; ring.
  - change 7%nat with (1 + 6)%nat; rewrite dltk_add6, dltk_1; dcoef; generalize (dec k_a); intros; apply F2_eq; f2_unf; ring.
  - change 8%nat with (2 + 6)%nat; rewrite dltk_add6, dltk_2; dcoef; generalize (dec k_z); intros; apply F2_eq; f2_unf; ring.
  - change 9%nat with (3 + 6)%nat; rewrite dltk_add6, dltk_3; dcoef; generalize (dec k_a3); intros; apply F2_eq; f2_unf; ring.
  - change 10%nat with (4 + 6)%nat; rewrite dltk_add6, dltk_4; dcoef; generalize (dec k_z4); intros; apply F2_eq; f2_unf; ring.
  - change 11%nat with (5 + 6)%nat; rewrite dltk_add6, dltk_5; dcoef; generalize (dec k_a5); intros; apply F2_eq; f2_unf; ring.
Qed.
Definition tab61 (k : nat) : Fp2 := F2mul (dltk k) (dltk k).
Lemma tab61_ok : tab61 0 = F2_1 /\ tab61 1 = mkFp2 F0 (Fopp (dec k_z)) /\ tab61 2 = mkFp2 (dec k_z4) F0 /\
  tab61 3 = mkFp2 F0 F1 /\ tab61 4 = mkFp2 (Fopp (dec k_z)) F0 /\ tab61 5 = mkFp2 F0 (dec k_z4).
Proof.
  unfold tab61. rewrite dltk_1, dltk_2, dltk_3, dltk_4, dltk_5, ka3_dec, ka5_dec, kz4_dec.
  assert (E0 := ka_sq). rewrite Fof2 in E0. assert (E1 := kz_sq).
  assert (E2 : Fmul (dec k_z) (Fmul (dec k_z) (dec k_z)) = Fopp F1).
  { rewrite E1. transitivity (Fsub (Fmul (dec k_z) (dec k_z)) (dec k_z)); [ring|]. rewrite E1. ring. }
  revert E0 E1 E2. generalize (dec k_a) (dec k_z). intros a z E0 E1 E2.
  repeat split; apply F2_eq; f2_unf; try ring.
  - rewrite <- E0. ring.
  - transitivity (Fmul z z); [ring|exact E1].
  - transitivity (Fopp (Fmul (Fmul (Fadd F1 F1) (Fmul a a)) (Fmul z z))); [ring|]. rewrite E0.
    transitivity (Fopp (Fmul z (Fmul z z))); [ring|]. rewrite E2. ring.
  - transitivity (Fadd (Fsub (Fmul z z) (Fadd z z)) F1); [ring|]. rewrite E1. ring.
  - transitivity (Fopp (Fmul (Fmul (Fadd F1 F1) (Fmul a a)) (Fadd (Fsub (Fmul z z) (Fadd z z)) F1))); [ring|]. rewrite E0, E1.
    transitivity (Fmul z z); [ring|exact E1].
Qed.
Lemma coeff61_ok k : (k < 6)%nat -> canon2 (nth k frobeniusCoeffs61 fp2_zero) /\ dec2 (nth k frobeniusCoeffs61 fp2_zero) = tab61 k.
Proof.
  intros H. rewrite coeffs61_shape. destruct tab61_ok as (T0 & T1 & T2 & T3 & T4 & T5).
  do 6 (destruct k as [|k]; [cbn [nth]; split;
    [first [exact canon2_one|split; cbn [c0 c1]; auto with canon]|
     rewrite ?T0, ?T1, ?T2, ?T3, ?T4, ?T5; first [exact dec2_one|dcoef; reflexivity]]|]). lia.
Qed.
Lemma coeff62_ok k : (k < 6)%nat -> canon2 (nth k frobeniusCoeffs62 fp2_zero) /\
  dec2 (nth k frobeniusCoeffs62 fp2_zero) = F2mul (tab61 k) (tab61 k).
Proof.
  intros H. rewrite coeffs62_shape. destruct tab61_ok as (T0 & T1 & T2 & T3 & T4 & T5). assert (E1 := kz_sq).
  destruct k as [|k]; [cbn [nth]; split; [exact canon2_one|rewrite T0; rewrite dec2_one; ring]|].
  do 5 (destruct k as [|k]; [cbn [nth]; split;
    [first [exact canon2_one|split; cbn [c0 c1]; auto with canon]|
     rewrite ?T0, ?T1, ?T2, ?T3, ?T4, ?T5; dcoef; rewrite ?kz4_dec; revert E1; generalize (dec k_z); intros z E1;
     apply F2_eq; f2_unf; try ring; first
     [transitivity (Fopp (Fmul z z)); [rewrite E1; ring|ring]
     |transitivity (Fmul z z); [rewrite E1; ring|ring]
     |transitivity (Fadd (Fsub (Fmul z z) (Fadd z z)) F1); [rewrite E1; ring|ring]
     |transitivity (Fopp (Fadd (Fsub (Fmul z z) (Fadd z z)) F1)); [rewrite E1; ring|ring]]]|]). lia.
Qed.

(** ** fp6 and fp12 Frobenius *)
Lemma frob6_add6 q : forall r a, frob6 (Nat.odd (6 * q + r)) (F2mul (dltk (6 * q + r)) (dltk (6 * q + r))) a =
  frob6 (Nat.odd r) (F2mul (dltk r) (dltk r)) a.
Proof.
  induction q as [|q IH]; intros r a; [reflexivity|].
  replace (6 * S q + r)%nat with (6 * q + (r + 6))%nat by lia. rewrite IH, dltk_sq_add6.
  f_equal. rewrite Nat.odd_add. destruct (Nat.odd r); reflexivity.
Qed.
Lemma mod_Z_nat n m : 0 <= n -> 0 < m -> Z.to_nat (n mod m) = (Z.to_nat n mod Z.to_nat m)%nat.
Proof. intros. rewrite Z2Nat.inj_mod by lia. reflexivity. Qed.
Lemma odd_Z_nat k : Z.odd (Z.of_nat k) = Nat.odd k.
Proof.
  induction k as [k IH] using (well_founded_induction lt_wf).
  destruct k as [|[|k]]; [reflexivity|reflexivity|]. rewrite Nat.odd_succ, Nat.even_succ, <- IH by lia.
  replace (Z.of_nat (S (S k))) with (Z.of_nat k + 2 * 1) by lia. rewrite Z.odd_add_mul_2. reflexivity.
Qed.
Lemma odd_mod2 n : 0 <= n -> (n mod 2 =? 1) = Nat.odd (Z.to_nat n).
Proof.
  intros H. rewrite <- odd_Z_nat, Z2Nat.id by auto. rewrite Zmod_odd. destruct (Z.odd n); reflexivity.
Qed.
Lemma dec2_frob' x n : canon2 x -> 0 <= n -> dec2 (fp2_frob x n) = cj (Nat.odd (Z.to_nat n)) (dec2 x).
Proof. intros Hx Hn. rewrite dec2_frob by auto. rewrite odd_mod2 by auto. reflexivity. Qed.
Lemma coeff6_ok n : 0 <= n -> (canon2 (coeff frobeniusCoeffs61 (n mod 6)) /\ dec2 (coeff frobeniusCoeffs61 (n mod 6)) = tab61 (Z.to_nat (n mod 6))) /\
  (canon2 (coeff frobeniusCoeffs62 (n mod 6)) /\ dec2 (coeff frobeniusCoeffs62 (n mod 6)) = F2mul (tab61 (Z.to_nat (n mod 6))) (tab61 (Z.to_nat (n mod 6)))).
Proof.
  intros H. assert (B := Z.mod_pos_bound n 6 ltac:(lia)). unfold coeff. split; [apply coeff61_ok|apply coeff62_ok]; lia.
Qed.
Lemma canon2_mk a b : canon a -> canon b -> canon2 (mk2 a b). Proof. split; assumption. Qed.
Lemma fp6_frobAssign_ok x n : canon6 x -> 0 <= n ->
  canon6 (fp6_frobAssign x n) /\ dec6 (fp6_frobAssign x n) = F6pow (dec6 x) (modulus ^ n).
Proof.
  intros (H0 & H1 & H2) Hn. destruct (coeff6_ok n Hn) as [[C1 E1] [C2 E2]].
  assert (Hr : n = Z.of_nat (6 * Z.to_nat (n / 6) + Z.to_nat (n mod 6))).
  { rewrite Nat2Z.inj_add, Nat2Z.inj_mul, !Z2Nat.id; [|apply Z.mod_pos_bound; lia|apply Z.div_pos; lia].
    apply Z.div_mod. lia. }
  rewrite Hr at 3. rewrite F6_frobk, frob6_add6.
  assert (B := Z.mod_pos_bound n 6 ltac:(lia)).
  assert (O : Nat.odd (Z.to_nat n) = Nat.odd (Z.to_nat (n mod 6))).
  { rewrite Hr at 1. rewrite Nat2Z.id, Nat.odd_add, Nat.odd_mul. cbn [Nat.odd Nat.even negb andb xorb]. 
    destruct (Nat.odd (Z.to_nat (n mod 6))); reflexivity. }
  unfold fp6_frobAssign. cbv zeta.
  assert (CC : forall y, canon2 y -> canon2 (fp2_frob y n)) by (intros; apply canon2_frob; auto).
  assert (DD : forall y, canon2 y -> dec2 (fp2_frob y n) = cj (Nat.odd (Z.to_nat (n mod 6))) (dec2 y)).
  { intros. rewrite dec2_frob', O by auto. reflexivity. }
  destruct (Z.eqb_spec (n mod 6) 0) as [Z0|Z0].
  - split; [refine (conj _ (conj _ _)); cbn [d0 d1 d2]; auto|].
    unfold dec6. cbn [d0 d1 d2]. rewrite !DD by auto. rewrite Z0. unfold frob6. cbn [Z.to_nat Nat.odd Nat.even negb cj dltk dec6 co0 co1 co2].
    apply F6_eq; cbn [co0 co1 co2]; ring.
  - destruct (Z.eqb_spec (n mod 6) 3) as [Z3|Z3].
    + assert (c1 (fp2_frob (d1 x) n) = fp_neg (c1 (d1 x)) /\ c0 (fp2_frob (d1 x) n) = c0 (d1 x)) as [K1 K2].
      { unfold fp2_frob. rewrite odd_mod2, O, Z3 by auto. split; reflexivity. }
      destruct (CC _ H1) as [X0 X1]. assert (X2 := CC _ H2). assert (X3 := CC _ H0).
      split; [refine (conj _ (conj _ _)); cbn [d0 d1 d2]; auto with canon; split; cbn [c0 c1]; auto with canon|].
      unfold dec6. cbn [d0 d1 d2]. rewrite dec2_neg, !DD by auto.
      destruct tab61_ok as (_ & _ & _ & T3 & _ & _). rewrite Z3. change (Z.to_nat 3) with 3%nat. unfold frob6. fold (tab61 3).
      rewrite T3. cbn [Nat.odd Nat.even negb cj dec6 co0 co1 co2]. rewrite K1, K2 in *.
      unfold dec2 at 2. cbn [c0 c1]. destruct H1. autorewrite with dec.
      apply F6_eq; cbn [co0 co1 co2]; [reflexivity| |].
      * apply F2_eq; unfold dec2; f2_unf; ring.
      * generalize (dec2 (d2 x)). intros. apply F2_eq; f2_unf; ring.
    + split; [refine (conj _ (conj _ _)); cbn [d0 d1 d2]; auto with canon|].
      unfold dec6. cbn [d0 d1 d2]. rewrite !dec2_mul, !DD, E1, E2 by auto. unfold frob6, tab61. cbn [dec6 co0 co1 co2].
      generalize (dltk (Z.to_nat (n mod 6))) (cj (Nat.odd (Z.to_nat (n mod 6))) (dec2 (d1 x))) (cj (Nat.odd (Z.to_nat (n mod 6))) (dec2 (d2 x))).
      intros. apply F6_eq; cbn [co0 co1 co2]; ring.
Qed.
(** the copying version differs only for powers congruent to 3 modulo 6 *)
Lemma fp6_frob_agree x n : n mod 6 <> 3 -> fp6_frob x n = fp6_frobAssign x n.
Proof. intros H. unfold fp6_frob, fp6_frobAssign. destruct (Z.eqb_spec (n mod 6) 3); [contradiction|reflexivity]. Qed.
Lemma fp12_frob_with_ok (f : fp6 -> Z -> fp6) x n : canon12 x -> 0 <= n < 12 ->
  (forall y, canon6 y -> canon6 (f y n) /\ dec6 (f y n) = F6pow (dec6 y) (modulus ^ n)) ->
  exists y, fp12_frob_with f x n = Some y /\ canon12 y /\ dec12 y = F12pow (dec12 x) (modulus ^ n).
Proof.
  intros [H0 H1] Hn Hf. destruct (Hf _ H0) as [C0 E0]. destruct (Hf _ H1) as [C1 E1].
  set (k := Z.to_nat n). assert (K : n = Z.of_nat k) by (unfold k; rewrite Z2Nat.id; lia).
  assert (Kn : (k < 12)%nat) by lia.
  assert (D : F12pow (dec12 x) (modulus ^ n) = mkFp12 (dec6 (f (e0 x) n)) (F6mul (F6of (dltk k)) (dec6 (f (e1 x) n)))).
  { rewrite E0, E1, K, F12_frobk, !F6_frobk. reflexivity. }
  rewrite D. unfold fp12_frob_with.
  destruct (Z.eqb_spec n 0) as [Z0|Z0]; [|destruct (Z.eqb_spec n 6) as [Z6|Z6]; [|destruct (Z.ltb_spec n 12); [|lia]]];
    (eexists; split; [reflexivity|]).
  - split; [split; assumption|]. unfold dec12. cbn [e0 e1]. replace k with 0%nat by lia. cbn [dltk].
    apply F12_eq; cbn [lo hi]; [reflexivity|]. change (F6of F2_1) with F6_1. ring.
  - split; [split; cbn [e0 e1]; auto with canon|]. unfold dec12. cbn [e0 e1]. rewrite dec6_neg by auto. replace k with 6%nat by lia.
    rewrite dltk_6. apply F12_eq; cbn [lo hi]; [reflexivity|]. 
    replace (F6of (F2opp F2_1)) with (F6opp F6_1) by (apply F6_eq; f6_unf; ring). ring.
  - destruct (coeff12_ok k Kn) as [Cc Ec]. assert (Ck : coeff frobeniusCoeffs12 n = nth k frobeniusCoeffs12 fp2_zero) by reflexivity.
    rewrite Ck. split; [split; cbn [e0 e1]; auto with canon|]. unfold dec12. cbn [e0 e1]. rewrite dec6_mulByBase, Ec by auto. reflexivity.
Qed.
Lemma fp12_frobAssign_ok x n : canon12 x -> 0 <= n < 12 ->
  exists y, fp12_frobAssign_opt x n = Some y /\ canon12 y /\ dec12 y = F12pow (dec12 x) (modulus ^ n).
Proof. intros Hx Hn. apply fp12_frob_with_ok; auto. intros. apply fp6_frobAssign_ok; auto; lia. Qed.
Lemma fp12_frob_ok x n : canon12 x -> 0 <= n < 12 -> n mod 6 <> 3 ->
  exists y, fp12_frob_opt x n = Some y /\ canon12 y /\ dec12 y = F12pow (dec12 x) (modulus ^ n).
Proof.
  intros Hx Hn N. apply fp12_frob_with_ok; auto. intros. rewrite fp6_frob_agree by auto. apply fp6_frobAssign_ok; auto; lia.
Qed.

