(** Counting the inputs of the maps to the two curves. *)
From Coq Require Import ZArith List Bool Lia Uint63 Ring Field.
From Verif Require Import SpecField FieldProof RingPow TowerProof TowerProof2 ModelWord ModelPrim ModelScalar ModelFp ModelTower FpProof FpProof2 TowerRefine TowerRefine3 ModelCurve SpecCurve AbGroup CurveProof CurveRefine CurveInst CurveBase CurveReps CodecProof2 Endo SubgroupProof GenProof GroupCount Orders Cofactor I63 I63b.
From Verif Require Import ModelMap SpecMap MapProof MapComp MapConst MapG1.
From Verif Require Import GenProof Orders Cofactor CodecProof2 MapG2 MapCount MapCount2 FpCodec BytesProof KeysProof DivProof ModelDiv ModelKeys SpecBytes.
From Coq Require Import Znumtheory.
Import ListNotations.
Local Open Scope Z_scope.

Lemma HX1 : is_square (K := KFp) (wrhs (K := KFp) A1' B1' (Fmul B1' (Finv (Fmul Z1 A1')))).
Proof. exact (eq_ind v1 (fun v => is_square (K := KFp) (wrhs (K := KFp) A1' B1' v)) (ex_intro _ sv1 (n1_s num1_ok)) _ v1_eq). Qed.
Lemma HX2 : is_square (K := KFp2) (wrhs (K := KFp2) A2' B2' (F2mul B2' (F2inv (F2mul Z2 A2')))).
Proof. exact (eq_ind v2 (fun v => is_square (K := KFp2) (wrhs (K := KFp2) A2' B2' v)) (ex_intro _ sv2 (n2_s num2_ok)) _ v2_eq). Qed.
Definition sw1 (u : Fp) : Fp * Fp := (dec (fst (swuMapG1 (enc u))), dec (snd (swuMapG1 (enc u)))).
Definition sw2 (u : Fp2) : Fp2 * Fp2 := (dec2 (fst (swuMapG2 (enc2 u))), dec2 (snd (swuMapG2 (enc2 u)))).
Lemma sw1_ok u : sswu (K := KFp) sgn0_1 A1' B1' Z1 u (fst (sw1 u)) (snd (sw1 u)).
Proof. destruct (swu1_ok (enc u) (canon_enc u)) as (x & y & [_ <-] & [_ <-] & H). rewrite dec_enc in H. exact H. Qed.
Lemma sw2_ok u : sswu (K := KFp2) sgn0_2 A2' B2' Z2 u (fst (sw2 u)) (snd (sw2 u)).
Proof. destruct (swu2_ok (enc2 u) (canon2_enc u)) as (x & y & [_ <-] & [_ <-] & H). rewrite dec2_enc in H. exact H. Qed.
Lemma top1 : last xn1 F0 <> F0. Proof. intros H. apply (f_equal fval) in H. vm_compute in H. discriminate H. Qed.
Lemma top2 : last xn2 F2_0 <> F2_0. Proof. intros H. apply (f_equal (fun x => fval (re x))) in H. vm_compute in H. discriminate H. Qed.
Lemma nodup_dec (l : list Z) : NoDup l -> Forall canon l -> NoDup (map dec l).
Proof.
  induction 1 as [|e l N ND IH]; intros F; cbn [map]; [constructor|]. apply Forall_cons_iff in F. destruct F as [C F]. constructor; [|exact (IH F)].
  intros I. apply in_map_iff in I. destruct I as (e' & E & I). apply N. rewrite <- (dec_inj e' e); [exact I| |exact C|exact E]. rewrite Forall_forall in F. exact (F e' I).
Qed.
Lemma nodup_dec2 (l : list fp2) : NoDup l -> Forall canon2 l -> NoDup (map dec2 l).
Proof.
  induction 1 as [|e l N ND IH]; intros F; cbn [map]; [constructor|]. apply Forall_cons_iff in F. destruct F as [C F]. constructor; [|exact (IH F)].
  intros I. apply in_map_iff in I. destruct I as (e' & E & I). apply N. rewrite <- (dec2_inj e' e); [exact I| |exact C|exact E]. rewrite Forall_forall in F. exact (F e' I).
Qed.
Lemma enc_dec e : canon e -> enc (dec e) = e. Proof. intros C. apply dec_inj; [apply canon_enc|exact C|apply dec_enc]. Qed.
Lemma enc2_dec e : canon2 e -> enc2 (dec2 e) = e. Proof. intros C. apply dec2_inj; [apply canon2_enc|exact C|apply dec2_enc]. Qed.

Lemma map1_count (X Y : Fp) (l : list Fp) : Y <> F0 -> NoDup l -> (forall u, In u l -> rational_map (K := KFp) xn1 xd1 yn1 yd1 (fst (sw1 u)) (snd (sw1 u)) = @Aff KFp X Y) -> (length l <= 46)%nat.
Proof.
  exact (map_count KFp KFp_field A1' B1' Z1 (n1_A num1_ok) (n1_B num1_ok) (n1_Z num1_ok) HX1 sgn0_1 sgn0_1_neg sw1 sw1_ok xn1 xd1 yn1 yd1 11 eq_refl (le_n 11) top1 X Y l).
Qed.
Lemma map2_count (X Y : Fp2) (l : list Fp2) : Y <> F2_0 -> NoDup l -> (forall u, In u l -> rational_map (K := KFp2) xn2 xd2 yn2 yd2 (fst (sw2 u)) (snd (sw2 u)) = @Aff KFp2 X Y) -> (length l <= 14)%nat.
Proof.
  exact (map_count KFp2 KFp2_field A2' B2' Z2 (n2_A num2_ok) (n2_B num2_ok) (n2_Z num2_ok) HX2 sgn0_2 sgn0_2_neg sw2 sw2_ok xn2 xd2 yn2 yd2 3 eq_refl (le_n 3) top2 X Y l).
Qed.

Lemma h1_r : ~ (order | h_eff1). Proof. intros H. apply Z.divide_pos_le in H; [|reflexivity]. revert H. vm_compute. intros H. apply H. reflexivity. Qed.
Lemma h2_r : ~ (order | h_eff2). Proof. intros H. apply Z.mod_divide in H; [|discriminate]. vm_compute in H. discriminate H. Qed.

Lemma g1_image e (Q : E1) : canon e -> rep1g (g1_mapToCurve e) Q -> exists P : E1, cpt (b := b1) P = rational_map (K := KFp) xn1 xd1 yn1 yd1 (fst (sw1 (dec e))) (snd (sw1 (dec e))) /\ zmul h_eff1 P = Q /\ cpt (b := b1) P <> Inf.
Proof.
  intros Ce R. unfold sw1. rewrite (enc_dec e Ce). cbn [fst snd]. destruct (swu1_ok e Ce) as (x & y & [_ Dx] & [_ Dy] & HS). rewrite Dx, Dy.
  destruct (F_eq_dec (pv xd1 x) F0) as [E0|N0].
  - exfalso. rewrite (map1_ker e x y Ce HS E0) in R. apply rep1g_onCurve in R. rewrite off_00 in R. discriminate R.
  - destruct (map1_rep e x y Ce HS N0) as (P & EP & RP). exists P. split; [exact EP|]. split; [exact (rep1g_fun _ _ _ RP R)|]. rewrite EP. intros EI. apply rm_kernel in EI. exact (N0 EI).
Qed.
Lemma g2_image e (Q : E2) : canon2 e -> rep2g (g2_mapToCurve e) Q -> exists P : E2, cpt (b := b2) P = rational_map (K := KFp2) xn2 xd2 yn2 yd2 (fst (sw2 (dec2 e))) (snd (sw2 (dec2 e))) /\ zmul h_eff2 P = Q /\ cpt (b := b2) P <> Inf.
Proof.
  intros Ce R. destruct (map2_rep e Ce) as (P & (x & y & HS & EP) & RP). exists P.
  pose proof (sw2_ok (dec2 e)) as HS'. destruct (sswu_fun KFp2 KFp2_field A2' B2' sgn0_2 Z2 (dec2 e) sgn0_2_neg _ _ _ _ HS HS') as [E1 E2]. rewrite <- E1, <- E2.
  split; [exact EP|]. split; [exact (rep2g_fun _ _ _ RP R)|]. assert (E : F2mul y y = wrhs (K := KFp2) A2' B2' x) by exact (proj1 (proj2 HS)).
  rewrite EP, (iso2_spec x y (no_ker x y E)). discriminate.
Qed.
Definition fiber {G : abgroup} (h : Z) (Q : G) (L : list G) : list G := filter (fun P => if g_dec G (zmul h P) Q then true else false) L.
Lemma fiber_In {G : abgroup} h (Q : G) L P : In P (fiber h Q L) <-> In P L /\ zmul h P = Q.
Proof. unfold fiber. rewrite filter_In. destruct (g_dec G (zmul h P) Q); split; intros [? ?]; split; auto; discriminate. Qed.
Lemma list_sum_const {B} n (l : list B) : list_sum (map (fun _ => n) l) = (n * length l)%nat.
Proof. induction l as [|b l IH]; cbn [map list_sum fold_right length]; [lia|]. change (fold_right Init.Nat.add 0%nat ?x) with (list_sum x). rewrite IH. lia. Qed.

Theorem g1_map_count (Q : E1) (l : list Z) : NoDup l -> Forall canon l -> (forall e, In e l -> rep1g (g1_mapToCurve e) Q) -> Z.of_nat (length l) * order <= 46 * (modulus - Xz).
Proof.
  intros ND F H. rewrite Forall_forall in F. destruct E1_count as (L & NL & AL & LL).
  pose proof (fiber_size E1 L AL G1gen order h_eff1 order_prime G1gen_r G1gen_nz h1_r Q (fiber h_eff1 Q L) (NoDup_filter _ NL) (fun P I => proj2 (proj1 (fiber_In _ _ _ _) I))) as S.
  rewrite LL in S.
  set (f := fun e : Z => rational_map (K := KFp) xn1 xd1 yn1 yd1 (fst (sw1 (dec e))) (snd (sw1 (dec e)))).
  assert (C : (length l <= list_sum (map (fun _ => 46%nat) (map (fun P : E1 => cpt (b := b1) P) (fiber h_eff1 Q L))))%nat).
  { apply (fibers (point_dec KFp) f _ _ l ND).
    - intros e I. destruct (g1_image e Q (F e I) (H e I)) as (P & EP & HP & _). apply in_map_iff. exists P. split; [exact EP|]. apply fiber_In. split; [apply AL|exact HP].
    - intros b l' N' H'. destruct l' as [|e0 l0]; [cbn; lia|]. remember (e0 :: l0) as l'. assert (I0 : In e0 l') by (subst l'; left; reflexivity). clear Heql'.
      destruct (H' e0 I0) as [J0 E0]. destruct (g1_image e0 Q (F e0 J0) (H e0 J0)) as (P & EP & _ & NP). fold (f e0) in EP. rewrite E0 in EP. rewrite EP in NP.
      destruct b as [|X Y]; [contradiction (NP eq_refl)|]. rewrite <- (map_length dec l').
      apply (map1_count X Y); [|apply nodup_dec; [exact N'|apply Forall_forall; intros e I; exact (F e (proj1 (H' e I)))]|].
      + apply (no2_1 X Y). rewrite <- EP. exact (cpt_on P).
      + intros u I. apply in_map_iff in I. destruct I as (e & <- & I). exact (proj2 (H' e I)). }
  rewrite list_sum_const, map_length in C. apply Nat2Z.inj_le in C. rewrite Nat2Z.inj_mul in C. change (Z.of_nat 46) with 46 in C.
  assert (P0 : 0 < order) by reflexivity. revert C S P0. clear. generalize order (modulus - Xz). intros q N C S P0. nia.
Qed.
Theorem g2_map_count (Q : E2) (l : list fp2) : NoDup l -> Forall canon2 l -> (forall e, In e l -> rep2g (g2_mapToCurve e) Q) -> Z.of_nat (length l) <= 14 * h2cof.
Proof.
  intros ND F H. rewrite Forall_forall in F. destruct E2_count as (L & NL & AL & LL).
  pose proof (fiber_size E2 L AL G2gen order h_eff2 order_prime G2gen_r G2gen_nz h2_r Q (fiber h_eff2 Q L) (NoDup_filter _ NL) (fun P I => proj2 (proj1 (fiber_In _ _ _ _) I))) as S.
  rewrite LL in S.
  set (f := fun e : fp2 => rational_map (K := KFp2) xn2 xd2 yn2 yd2 (fst (sw2 (dec2 e))) (snd (sw2 (dec2 e)))).
  assert (C : (length l <= list_sum (map (fun _ => 14%nat) (map (fun P : E2 => cpt (b := b2) P) (fiber h_eff2 Q L))))%nat).
  { apply (fibers (point_dec KFp2) f _ _ l ND).
    - intros e I. destruct (g2_image e Q (F e I) (H e I)) as (P & EP & HP & _). apply in_map_iff. exists P. split; [exact EP|]. apply fiber_In. split; [apply AL|exact HP].
    - intros b l' N' H'. destruct l' as [|e0 l0]; [cbn; lia|]. remember (e0 :: l0) as l'. assert (I0 : In e0 l') by (subst l'; left; reflexivity). clear Heql'.
      destruct (H' e0 I0) as [J0 E0]. destruct (g2_image e0 Q (F e0 J0) (H e0 J0)) as (P & EP & _ & NP). fold (f e0) in EP. rewrite E0 in EP. rewrite EP in NP.
      destruct b as [|X Y]; [contradiction (NP eq_refl)|]. rewrite <- (map_length dec2 l').
      apply (map2_count X Y); [|apply nodup_dec2; [exact N'|apply Forall_forall; intros e I; exact (F e (proj1 (H' e I)))]|].
      + apply (no2_2 X Y). rewrite <- EP. exact (cpt_on P).
      + intros u I. apply in_map_iff in I. destruct I as (e & <- & I). exact (proj2 (H' e I)). }
  rewrite list_sum_const, map_length in C. apply Nat2Z.inj_le in C. rewrite Nat2Z.inj_mul in C. change (Z.of_nat 14) with 14 in C.
  assert (P0 : 0 < order) by reflexivity. revert C S P0. clear. generalize order h2cof. intros q N C S P0. nia.
Qed.
