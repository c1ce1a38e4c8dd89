(** epair is the pairing of SpecPairing. *)
From Coq Require Import ZArith Znumtheory List Bool Lia Ring Field.
From Coq Require Import Permutation.
From Verif Require Import ModelPrim ModelWord ModelScalar ModelFp ModelTower ModelCurve ModelKeys FpProof FpProof2 TowerRefine TowerRefine3 CurveRefine CurveRefine2 ModelPairing PairSteps PairLoop.
From Verif Require Import RingPow SpecField FieldProof TowerProof TowerProof2 SpecCurve AbGroup CurveProof CurveMaps CurveInst
  SubgroupProof Orders Cofactor CurveBase GenProof PairCocycle PairLine PairField PairUnits PairTwist PairBilin PairFinal PairComp SpecPairing.
Import ListNotations.
Local Open Scope Z_scope.
Add Field F_fieldPS : F_field.
Add Field F2_fieldPS : F2_field.
Add Field F12_fieldPS : F12_field.

Lemma quot_uniq a b c : F12mul c b = F12_1 -> F12quot a b = F12mul c a.
Proof.
  intros H. assert (N : b <> F12_0) by (intros Z; rewrite Z in H; apply F12_1_neq_0; rewrite <- H; ring).
  unfold F12quot. transitivity (F12mul (F12mul a (F12inv b)) (F12mul c b)); [rewrite H; ring|]. field. exact N.
Qed.
Lemma untwist_tt (Q : E2) : untwist (cpt (b := b2) Q) = tt Q.
Proof.
  unfold untwist, tt, tp. destruct (cpt (b := b2) Q) as [|x y]; [reflexivity|]. cbn [pmap].
  assert (W2 : F12mul F12w F12w = w2) by (unfold F12w, w2; apply F12_eq; f12_unf; apply F6_eq; f6_unf; ring).
  assert (W3 : F12mul F12w (F12mul F12w F12w) = w3) by (rewrite W2; unfold F12w, w2, w3; apply F12_eq; f12_unf; apply F6_eq; f6_unf; ring).
  rewrite W3, W2. rewrite (quot_uniq (emb2 x) w2 tw2 tw2_w2), (quot_uniq (emb2 y) w3 tw3 tw3_w3). reflexivity.
Qed.
Lemma pmuln_tt (Q : E2) n : pmuln n (tt Q) = tt (zmul (Z.of_nat n) Q).
Proof.
  induction n as [|n IH]; [reflexivity|]. cbn [pmuln]. rewrite IH, zmul_S, g_comm. symmetry. exact (tt_op _ _).
Qed.
Lemma vertical_ev (A : E2) (x : Fp) : vertical (tt A) (i1 x) <> F12_0 /\ ev (vertical (tt A) (i1 x)) = gid.
Proof.
  destruct (tt A) as [|u v] eqn:E; cbn [vertical]; [split; [exact F12_1_neq_0|exact PairUnits.ev_1]|].
  split; [exact (tt_v_nz x A u v E)|exact (tt_v_ev x A u v E)].
Qed.
Lemma chord_ev (A B : E2) (x y : Fp) : y <> F0 -> chord (tt A) (tt B) (i1 x) (i1 y) <> F12_0 /\ ev (chord (tt A) (tt B) (i1 x) (i1 y)) = lc x y A B.
Proof.
  intros Y. rewrite lc_def. pose proof (tt_l_nz A B x y Y) as NL. pose proof (vertical_ev A x) as VA. pose proof (vertical_ev B x) as VB.
  revert NL VA VB. unfold chord, line. destruct (tt A) as [|u1 v1]; [destruct (tt B) as [|u2 v2]|destruct (tt B) as [|u2 v2]]; cbn [vertical]; intros NL VA VB.
  - split; [exact NL|reflexivity].
  - destruct VB as [V1 V2]. split; [exact V1|]. rewrite V2. symmetry. exact PairUnits.ev_1.
  - destruct VA as [V1 V2]. split; [exact V1|]. rewrite V2. symmetry. exact PairUnits.ev_1.
  - revert NL. change (@padd K12) with (@padd KF12). destruct (padd (K := KF12) (Aff u1 v1) (Aff u2 v2)) as [|u3 v3].
    + intros _. destruct VA as [V1 V2]. split; [exact V1|]. rewrite V2. symmetry. exact PairUnits.ev_1.
    + intros NL.
      assert (E : F12sub (F12sub (i1 y) v1) (F12mul (slope (K := K12) u1 v1 u2 v2) (F12sub (i1 x) u1)) =
        lin KF12 (slope (K := KF12) u1 v1 u2 v2) (F12sub v1 (F12mul (slope (K := KF12) u1 v1 u2 v2) u1)) (i1 x) (i1 y)).
      { change (slope (K := K12) u1 v1 u2 v2) with (slope (K := KF12) u1 v1 u2 v2). generalize (slope (K := KF12) u1 v1 u2 v2). intros s. unfold lin. cbn [KF12 ksub kmul car] in *.
        generalize (i1 x) (i1 y). intros X Y'. change (@eq Fp12 (F12sub (F12sub Y' v1) (F12mul s (F12sub X u1))) (F12sub (F12sub Y' (F12mul s X)) (F12sub v1 (F12mul s u1)))). ring. }
      rewrite E. split; [exact NL|reflexivity].
Qed.
Lemma miller_ev (Q : E2) (x y : Fp) n : y <> F0 -> miller n (tt Q) (i1 x) (i1 y) <> F12_0 /\ ev (miller n (tt Q) (i1 x) (i1 y)) = mf (lc x y) n Q.
Proof.
  intros Y. induction n as [|n [N IH]]; [split; [exact F12_1_neq_0|exact PairUnits.ev_1]|].
  cbn [miller mf]. rewrite !pmuln_tt. destruct (chord_ev (zmul (Z.of_nat n) Q) Q x y Y) as [CN CE]. destruct (vertical_ev (zmul (Z.of_nat (S n)) Q) x) as [VN VE].
  revert N IH CN CE VN VE. generalize (miller n (tt Q) (i1 x) (i1 y)) (chord (tt (zmul (Z.of_nat n) Q)) (tt Q) (i1 x) (i1 y)) (vertical (tt (zmul (Z.of_nat (S n)) Q)) (i1 x)).
  intros m c v N IH CN CE VN VE. unfold F12quot. pose proof (F12_inv_nz v VN) as IN. pose proof (F12_mul_nz c _ CN IN) as QN.
  split; [apply F12_mul_nz; assumption|].
  assert (VI : ev (F12inv v) = gid).
  { transitivity (gop (ev v) (ev (F12inv v))); [rewrite VE; symmetry; apply g_id|]. rewrite <- ev_mul by assumption.
    assert (X : F12mul v (F12inv v) = F12_1) by (field; exact VN). rewrite X. exact PairUnits.ev_1. }
  rewrite (ev_mul m _ N QN), (ev_mul c _ CN IN), VI, g_id_r, IH, CE. reflexivity.
Qed.
Lemma Xn_abs : Z.to_nat z_abs = Xn.
Proof. rewrite <- (Nat2Z.id Xn), Xn_z. reflexivity. Qed.
Theorem ate_epair (P : E1) (Q : E2) : uval (epair P Q) = ate (cpt (b := b1) P) (cpt (b := b2) Q).
Proof.
  unfold epair, ate. destruct (cpt (b := b1) P) as [|x y] eqn:E; [reflexivity|]. destruct (E1_pt P x y E) as [_ Y].
  rewrite Xn_abs, untwist_tt. change (emb1 x) with (i1 x). change (emb1 y) with (i1 y). destruct (miller_ev Q x y Xn Y) as [N M]. rewrite <- M.
  change pairing_exp with (3 * (modulus ^ 12 - 1) / order). rewrite <- fexp_eq.
  revert N. generalize (miller Xn (tt Q) (i1 x) (i1 y)). intros m N. rewrite ev_def.
  assert (I : F12inv m = uval (ginv (toU m))) by (rewrite uval_inv, uval_toU by exact N; reflexivity). rewrite I.
  rewrite <- uval_zmul by exact (Z.lt_le_incl _ _ fexp_pos). rewrite zmul_inv. reflexivity.
Qed.
(** * non-degeneracy on the subgroups of order r *)
Lemma epair_gen a b : epair (zmul a G1gen) (zmul b G2gen) = zmul (a * b) (epair G1gen G2gen).
Proof.
  rewrite epair_zmul_l, epair_zmul_r; [symmetry; apply zmul_mul|exact G2gen_r|].
  rewrite <- zmul_mul, Z.mul_comm, zmul_mul, G2gen_r. apply zmul_id.
Qed.
Theorem epair_nondeg (P : E1) (Q : E2) : zmul order P = gid -> zmul order Q = gid -> epair P Q = gid -> P = gid \/ Q = gid.
Proof.
  intros HP HQ H. destruct (sub1_cyclic P HP) as [a ->]. destruct (sub2_complete Q HQ) as [c ->]. rewrite epair_gen in H.
  apply (zmul_prime order) in H; [|exact order_prime|apply epair_r|exact gen_pair_nz].
  apply prime_mult in H; [|exact order_prime]. destruct H as [H|H]; [left|right]; apply (zmul_divide order); auto using G1gen_r, G2gen_r.
Qed.
(** * products of pairings *)
Definition ate_prod (L : list (E1 * E2)) : Fp12 :=
  fold_right (fun PQ a => F12mul (ate (cpt (b := b1) (fst PQ)) (cpt (b := b2) (snd PQ))) a) F12_1 L.
Lemma ate_esum L : uval (esum L) = ate_prod L.
Proof.
  unfold esum, gsum. induction L as [|[P Q] L IH]; [reflexivity|]. cbn [map fold_right ate_prod fst snd]. rewrite uval_op, ate_epair, IH. reflexivity.
Qed.
Lemma gsum_cons {G : abgroup} (x : G) l : gsum (x :: l) = gop x (gsum l). Proof. reflexivity. Qed.
Lemma esum_perm L L' : Permutation L L' -> esum L = esum L'.
Proof.
  induction 1 as [|x l l' H IH|x y l|l l1 l2 H1 IH1 H2 IH2].
  - reflexivity.
  - unfold esum in *. cbn [map]. rewrite !gsum_cons, IH. reflexivity.
  - unfold esum. cbn [map]. rewrite !gsum_cons, <- !g_assoc. apply (f_equal (fun z => gop z _)). apply g_comm.
  - congruence.
Qed.
Lemma Forall2_perm {A B} (R : A -> B -> Prop) l l' : Permutation l l' -> forall M, Forall2 R l M -> exists M', Permutation M M' /\ Forall2 R l' M'.
Proof.
  induction 1 as [|x l l' H IH|x y l|l l1 l2 H1 IH1 H2 IH2]; intros M F.
  - inversion F. exists nil. split; constructor.
  - inversion F as [|? b ? M0 Hx F0]; subst. destruct (IH M0 F0) as (M' & P & F'). exists (b :: M'). split; constructor; assumption.
  - inversion F as [|? b ? M0 Hx F0]; subst. inversion F0 as [|? c ? M1 Hy F1]; subst. exists (c :: b :: M1). split; [apply perm_swap|repeat constructor; assumption].
  - destruct (IH1 M F) as (M' & P & F'). destruct (IH2 M' F') as (M2 & P2 & F2). exists M2. split; [exact (Permutation_trans P P2)|exact F2].
Qed.
Lemma calc1 p q P Q : rep1g p P -> rep2g q Q -> zmul order Q = gid -> exists f, calculate (add_pair [] p q) = Ok f /\ rep12 f (uval (epair P Q)).
Proof.
  intros HP HQ O. destruct (pairing_ok [(p, q)] [(P, Q)]) as (f & Hf & R); [constructor; [split; [exact HP|split; [exact HQ|exact O]]|constructor]|].
  exists f. split; [exact Hf|]. revert R. unfold esum. cbn [map fst snd]. rewrite gsum_cons. change (gsum []) with (gid (a := U12)). rewrite g_id_r. exact (fun R => R).
Qed.
(** * small facts *)
Lemma rep12_one : rep12 fp12_one F12_1. Proof. split; [exact canon12_one|exact dec12_one]. Qed.
Lemma rep12_zero : rep12 fp12_zero F12_0. Proof. split; [exact canon12_zero|exact dec12_zero]. Qed.
Lemma rep12_mul' f g a b : rep12 f a -> rep12 g b -> rep12 (fp12_mul f g) (F12mul a b).
Proof. intros [C D] [C' D']. split; [apply canon12_mul; assumption|]. rewrite dec12_mul, D, D' by assumption. reflexivity. Qed.
Lemma rep12_add' f g a b : rep12 f a -> rep12 g b -> rep12 (fp12_add f g) (F12add a b).
Proof. intros [C D] [C' D']. split; [apply canon12_add; assumption|]. rewrite dec12_add, D, D' by assumption. reflexivity. Qed.
Lemma equal12_rep f g a b : rep12 f a -> rep12 g b -> fp12_equal f g = true <-> a = b.
Proof. intros [C <-] [C' <-]. rewrite equal12_ok by assumption. apply F12eqb_eq. Qed.
Lemma F12_mul_1_r a : F12mul a F12_1 = a. Proof. ring. Qed.
Lemma F12pow_mul a b n : F12pow (F12mul a b) n = F12mul (F12pow a n) (F12pow b n). Proof. exact (rpow_mult F12_ring a b n). Qed.
Lemma g_inv_id' {G : abgroup} : ginv (gid : G) = gid. Proof. symmetry. apply g_inv_unique. apply g_id. Qed.
Lemma esum_r L : zmul order (esum L) = gid.
Proof.
  induction L as [|[P Q] L IH]; [apply zmul_id|]. unfold esum in *. cbn [map fst snd]. rewrite gsum_cons, zmul_op, IH, epair_r. apply g_id.
Qed.
Lemma G1gen_dbl_nz : gop G1gen G1gen <> gid.
Proof.
  assert (E : gop G1gen G1gen = zmul 2 G1gen) by (change 2 with (1 + 1); rewrite zmul_add, zmul_1; reflexivity). rewrite E. intros H.
  apply (zmul_prime order) in H; [|exact order_prime|exact G1gen_r|exact G1gen_nz]. apply Z.divide_pos_le in H; [|reflexivity]. revert H. vm_compute. intros H. apply H. reflexivity.
Qed.
Lemma two_nz12 : F12add F12_1 F12_1 <> F12_0.
Proof. intros E. apply F2_neq_0. exact (f_equal (fun a => re (co0 (lo a))) E). Qed.
Lemma affine_z1 p (P : E1) : rep1g p P -> P <> gid -> jz (g1_affine p) = fp_one.
Proof.
  intros R N. destruct (cpt (b := b1) P) as [|u v] eqn:E; [elim N; apply curve_eq; exact E|]. unfold rep1g, rep1 in R. rewrite E in R.
  destruct (j_affine_coords fp_ops KFp canon dec fp_represents KFp_field p u v dec_inj R) as (_ & _ & Z). exact Z.
Qed.
Lemma affine_z2 p (P : E2) : rep2g p P -> P <> gid -> jz (g2_affine p) = fp2_one.
Proof.
  intros R N. destruct (cpt (b := b2) P) as [|u v] eqn:E; [elim N; apply curve_eq; exact E|]. unfold rep2g, rep2c in R. rewrite E in R.
  destruct (j_affine_coords fp2_ops KFp2 canon2 dec2 fp2_represents KFp2_field p u v dec2_inj R) as (_ & _ & Z). exact Z.
Qed.
Lemma A1_eq x y x' y' : x = x' -> y = y' -> @Aff KFp x y = @Aff KFp x' y'. Proof. intros -> ->. reflexivity. Qed.
Lemma A2_eq x y x' y' : x = x' -> y = y' -> @Aff KFp2 x y = @Aff KFp2 x' y'. Proof. intros -> ->. reflexivity. Qed.
Lemma one_sq1 u : u = Fmul u (Fmul F1 F1). Proof. ring. Qed.
Lemma one_cb1 u : u = Fmul u (Fmul F1 (Fmul F1 F1)). Proof. ring. Qed.
Lemma one_sq2 u : u = F2mul u (F2mul F2_1 F2_1). Proof. ring. Qed.
Lemma one_cb2 u : u = F2mul u (F2mul F2_1 (F2mul F2_1 F2_1)). Proof. ring. Qed.
Lemma apair_of pq PQ : rep1g (fst pq) (fst PQ) -> rep2g (snd pq) (snd PQ) -> jz (fst pq) = fp_one -> jz (snd pq) = fp2_one -> zmul order (snd PQ) = gid -> apair pq PQ.
Proof.
  destruct pq as [p q], PQ as [P Q]. cbn [fst snd]. intros HP HQ Z1 Z2 O. unfold apair. cbn [fst snd]. unfold affq.
  unfold rep1g, rep1 in HP. destruct HP as [(X1 & Y1 & _) J1]. rewrite Z1 in J1.
  unfold rep2g, rep2c in HQ. destruct HQ as [(X2 & Y2 & _) J2]. rewrite Z2 in J2 |- *.
  split; [exact X1|]. split; [exact Y1|]. split; [|split; [split; [exact X2|]; split; [exact Y2|]|split; [split; [exact canon2_one|exact dec2_one]|exact O]]].
  - unfold fp_one in J1. rewrite dec_R1 in J1. destruct (cpt (b := b1) P) as [|u v]; cbn [jacobian] in J1; [exfalso; exact (F1_nz J1)|]. destruct J1 as (_ & A & B).
    rewrite A, B. apply A1_eq; [exact (one_sq1 u)|exact (one_cb1 v)].
  - rewrite dec2_one in J2. destruct (cpt (b := b2) Q) as [|u v]; cbn [jacobian] in J2; [exfalso; exact (F2_1_neq_0 J2)|]. destruct J2 as (_ & A & B).
    rewrite A, B. apply A2_eq; [exact (one_sq2 u)|exact (one_cb2 v)].
Qed.
