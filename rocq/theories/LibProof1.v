(** The library on limbs (ModelLimbLib.v) refines the value-level model: the tower of fields. *)
From Coq Require Import ZArith List Bool Lia.
From Verif Require Import SpecBytes ModelWord ModelScalar ModelDiv ModelPrim ModelFp ModelTower ModelCurve ModelCodec ModelMap PortArith ModelLimb ModelLimbLib SpecLimb.
From Verif Require Import ScalarProof BytesProof CarryProof DivProof LimbProof.
Import ListNotations.
Local Open Scope Z_scope.

Lemma rP_pair {A B C D} (R : A -> B -> Prop) (S : C -> D -> Prop) a b c d : R a b -> S c d -> rP R S (a, c) (b, d).
Proof. intros H K. split; assumption. Qed.
Lemma mk2_r a z b w : rF a z -> rF b w -> r2 (lmk2 a b) (mk2 z w). Proof. intros. split; assumption. Qed.
Lemma mk6_r a z b w c v : r2 a z -> r2 b w -> r2 c v -> r6 (lmk6 a b c) (mk6 z w v). Proof. intros. split; assumption. Qed.
Lemma mk12_r a z b w : r6 a z -> r6 b w -> r12 (lmk12 a b) (mk12 z w). Proof. intros. split; assumption. Qed.
Lemma andb_r a b c d : a = b -> c = d -> a && c = b && d. Proof. intros -> ->. reflexivity. Qed.
Lemma orb_r a b c d : a = b -> c = d -> a || c = b || d. Proof. intros -> ->. reflexivity. Qed.
Lemma negb_r a b : a = b -> negb a = negb b. Proof. intros ->. reflexivity. Qed.
Lemma app_r (a b c d : list Z) : a = b -> c = d -> a ++ c = b ++ d. Proof. intros -> ->. reflexivity. Qed.

Create HintDb rel discriminated.
#[export] Hint Constants Opaque : rel.
#[export] Hint Variables Opaque : rel.
#[export] Hint Resolve mk2_r mk6_r mk12_r rP_pair | 0 : rel.
#[export] Hint Resolve r2_0 r2_1 r6_0 r6_1 r6_2 r12_0 r12_1 andb_r orb_r negb_r app_r : rel.

(** one step at a branch: the conditions agree *)
Ltac rel_if :=
  match goal with
  | |- ?R (if ?c then _ else _) (if ?d then _ else _) => replace c with d; [destruct d|symmetry; solve [eauto 60 with rel nocore]]
  end.
Ltac rel := solve [match goal with |- ?x = ?x => exact eq_refl end|eauto 200 with rel nocore].

(** * Constants *)
Definition small (z : Z) : bool := (0 <=? z) && (z <? R384).
Definition small2 (z : fp2) : bool := small (c0 z) && small (c1 z).
Lemma limbs6_r z : small z = true -> rF (limbs6 z) z.
Proof.
  unfold small. intros H. apply andb_true_iff in H. destruct H as [H1 H2]. apply Z.leb_le in H1. apply Z.ltb_lt in H2. unfold limbs6, rF, six.
  split; [split; [apply limbs_of_length|apply limbs_of_words]|]. apply limbs_of_small. split; [exact H1|exact H2].
Qed.
Lemma limbs2_r z : small2 z = true -> r2 (limbs2 z) z.
Proof. unfold small2. intros H. apply andb_true_iff in H. destruct H. split; apply limbs6_r; assumption. Qed.

(** * The base field *)
Section B.
Context (b : backend) (Hb : backend_ok b).
Lemma bin_r f g : ok2 f g -> forall x z y w, rF x z -> rF y w -> rF (f x y) (g z w).
Proof. intros H x z y w [S <-] [T <-]. exact (H x y S T). Qed.
Lemma una_r f g : ok1 f g -> forall x z, rF x z -> rF (f x) (g z).
Proof. intros H x z [S <-]. exact (H x S). Qed.
Lemma zero_r : rF l_zero fp_zero. Proof. split; [exact l0_six|reflexivity]. Qed.
Lemma one_r : rF R1l fp_one. Proof. split; [exact R1l_six|reflexivity]. Qed.
Lemma isZero_r x z : rF x z -> l_isZero x = fp_isZero z. Proof. intros [S <-]. exact (l_isZero_ok x S). Qed.
Lemma isOne_r x z : rF x z -> l_isOne x = fp_isOne z. Proof. intros [S <-]. exact (l_isOne_ok x S). Qed.
Lemma isValid_r x z : rF x z -> l_isValid x = fp_isValid z. Proof. intros [S <-]. exact (l_isValid_ok x S). Qed.
Lemma equal_r x z y w : rF x z -> rF y w -> l_equal x y = fp_equal z w. Proof. intros [S <-] [T <-]. exact (l_equal_ok x y S T). Qed.
Lemma sign_r x z : rF x z -> l_sign b x = fp_sign z. Proof. intros [S <-]. exact (l_sign_ok b Hb x S). Qed.
Lemma isQNR_r x z : rF x z -> l_isQNR b x = fp_isQNR z. Proof. intros [S <-]. exact (l_isQNR_ok b Hb x S). Qed.
Lemma isLex_r x z : rF x z -> l_isLexLargest b x = fp_isLexLargest z. Proof. intros [S <-]. exact (l_isLexLargest_ok b Hb x S). Qed.
Lemma inv_r x z : rF x z -> rF (l_inv b x) (fp_inverse z).
Proof.
  intros [S <-]. pose proof (l_inverse_ok b Hb x S) as H. unfold l_inv, fp_inverse. destruct (l_inverse b x) as [y|].
  - destruct H as [T ->]. split; [exact T|reflexivity].
  - rewrite H. exact zero_r.
Qed.
Lemma sqrt_r x z : rF x z -> rP eq rF (l_sqrt b x) (fp_sqrt z).
Proof. intros [S <-]. destruct (l_sqrt_ok b Hb x S) as (E & T & V). split; [exact E|]. split; assumption. Qed.
Lemma toBE_r x z mont : rF x z -> l_toBytesBE b x mont = fp_toBytesBE z mont. Proof. intros [S <-]. exact (proj1 (l_toBytes_ok b Hb x mont S)). Qed.
Lemma toLE_r x z mont : rF x z -> l_toBytesLE b x mont = fp_toBytesLE z mont. Proof. intros [S <-]. exact (proj2 (l_toBytes_ok b Hb x mont S)). Qed.
Lemma fromBE_r a check mont : bytes a -> length a = 48%nat -> rO rF (l_fromBytesBE b a check mont) (fp_fromBytesBE a check mont).
Proof.
  intros Ba La. pose proof (l_fromBytesBE_ok b Hb a check mont Ba La) as H. destruct (l_fromBytesBE b a check mont) as [x|]; [destruct H as [S ->]; split; [exact S|reflexivity]|rewrite H; exact I].
Qed.
Lemma fromLE_r a check mont : bytes a -> length a = 48%nat -> rO rF (l_fromBytesLE b a check mont) (fp_fromBytesLE a check mont).
Proof.
  intros Ba La. pose proof (l_fromBytesLE_ok b Hb a check mont Ba La) as H. destruct (l_fromBytesLE b a check mont) as [x|]; [destruct H as [S ->]; split; [exact S|reflexivity]|rewrite H; exact I].
Qed.
Lemma modPrime_r k : words k -> (6 <= length k)%nat -> rU rF (lib_modPrime b k) (modPrime k).
Proof.
  intros H L. destruct (bn_divn_safe_ok k MODl H (proj2 MODl_six)) as (q & r & E & _ & Hr & _ & Lr & _ & _).
  { change (length MODl) with 6%nat. split; [lia|exact L]. }
  { change (length MODl - 1)%nat with 5%nat. rewrite MODl_top. split; reflexivity. }
  unfold lib_modPrime, modPrime. rewrite E. exact (l_toMont_ok b Hb r (conj Lr Hr)).
Qed.
Lemma exp_r {A B} (R : A -> B -> Prop) one one' sq sq' mul mul' x x' s :
  R one one' -> (forall x x', R x x' -> R (sq x) (sq' x')) -> (forall x x' y y', R x x' -> R y y' -> R (mul x y) (mul' x' y')) -> R x x' ->
  R (gexp one sq mul x s) (gexp one' sq' mul' x' s).
Proof.
  intros H1 Hs Hm Hx. unfold gexp. generalize (Z.to_nat (bitLength s)). intros n. revert one one' H1.
  induction n as [|n IH]; intros z z' Hz; [exact Hz|]. cbn [exp_loop]. cbv zeta. apply IH. destruct (sbit s n); [apply Hm; [apply Hs, Hz|exact Hx]|apply Hs, Hz].
Qed.

Lemma p_add_r x z y w : rF x z -> rF y w -> rF (b_add b x y) (fp_add z w). Proof. exact (bin_r _ _ (ok_add b Hb) x z y w). Qed.
Lemma p_ladd_r x z y w : rF x z -> rF y w -> rF (b_ladd b x y) (fp_ladd z w). Proof. exact (bin_r _ _ (ok_ladd b Hb) x z y w). Qed.
Lemma p_sub_r x z y w : rF x z -> rF y w -> rF (b_subtract b x y) (fp_sub z w). Proof. exact (bin_r _ _ (ok_sub b Hb) x z y w). Qed.
Lemma p_mul_r x z y w : rF x z -> rF y w -> rF (b_multiply b x y) (fp_mul z w). Proof. exact (bin_r _ _ (ok_mul b Hb) x z y w). Qed.
Lemma p_double_r x z : rF x z -> rF (b_double b x) (fp_double z). Proof. exact (una_r _ _ (ok_double b Hb) x z). Qed.
Lemma p_ldouble_r x z : rF x z -> rF (b_ldouble b x) (fp_ldouble z). Proof. exact (una_r _ _ (ok_ldouble b Hb) x z). Qed.
Lemma p_neg_r x z : rF x z -> rF (b_negate b x) (fp_neg z). Proof. exact (una_r _ _ (ok_neg b Hb) x z). Qed.
Lemma p_sqr_r x z : rF x z -> rF (b_square b x) (fp_sqr z). Proof. exact (una_r _ _ (ok_sqr b Hb) x z). Qed.
Lemma toMont_r x z : rF x z -> rF (l_toMont b x) (fp_toMont z). Proof. exact (una_r _ _ (l_toMont_ok b Hb) x z). Qed.
Lemma fromMont_r x z : rF x z -> rF (l_fromMont b x) (fp_fromMont z). Proof. exact (una_r _ _ (l_fromMont_ok b Hb) x z). Qed.
Lemma phi_r x z : rF x z -> rF (l_phi b x) (fp_phi z). Proof. exact (una_r _ _ (l_phi_ok b Hb) x z). Qed.
End B.
#[export] Hint Resolve zero_r one_r isZero_r isOne_r isValid_r equal_r sign_r isQNR_r isLex_r inv_r sqrt_r toBE_r toLE_r fromBE_r fromLE_r
  p_add_r p_ladd_r p_sub_r p_mul_r p_double_r p_ldouble_r p_neg_r p_sqr_r toMont_r fromMont_r phi_r : rel.
Lemma negativeOne2_r : r2 lib_negativeOne2 negativeOne2. Proof. apply limbs2_r. vm_compute. reflexivity. Qed.
Lemma psiX_r : r2 lib_psiX psiX. Proof. apply limbs2_r. vm_compute. reflexivity. Qed.
Lemma psiY_r : r2 lib_psiY psiY. Proof. apply limbs2_r. vm_compute. reflexivity. Qed.
Lemma frb0_r : r2 lib_frb0 frb0. Proof. apply limbs2_r. vm_compute. reflexivity. Qed.
Lemma frb1_r : r2 lib_frb1 frb1. Proof. apply limbs2_r. vm_compute. reflexivity. Qed.
Lemma B2_r : r2 l2_B fp2_B. Proof. apply limbs2_r. vm_compute. reflexivity. Qed.
Lemma B_r : rF lib_B B. Proof. apply limbs6_r. vm_compute. reflexivity. Qed.
Lemma twoInv_r : rF lib_twoInv twoInv. Proof. apply limbs6_r. vm_compute. reflexivity. Qed.
#[export] Hint Resolve negativeOne2_r psiX_r psiY_r frb0_r frb1_r B2_r B_r twoInv_r : rel.

(** * fp2, fp6, fp12 *)
Ltac relf := intros; cbv zeta; repeat rel_if; rel.
Section T.
Context (b : backend) (Hb : backend_ok b).

Lemma fp2_zero_r  : r2 l2_zero fp2_zero.
Proof. unfold l2_zero, fp2_zero. relf. Qed.
#[local] Hint Resolve fp2_zero_r : rel.
Lemma fp2_one_r  : r2 l2_one fp2_one.
Proof. unfold l2_one, fp2_one. relf. Qed.
#[local] Hint Resolve fp2_one_r : rel.
Lemma fp2_isOne_r x x' : r2 x x' -> (l2_isOne x) = (fp2_isOne x').
Proof. unfold l2_isOne, fp2_isOne. relf. Qed.
#[local] Hint Resolve fp2_isOne_r : rel.
Lemma fp2_isZero_r x x' : r2 x x' -> (l2_isZero x) = (fp2_isZero x').
Proof. unfold l2_isZero, fp2_isZero. relf. Qed.
#[local] Hint Resolve fp2_isZero_r : rel.
Lemma fp2_equal_r x x' y y' : r2 x x' -> r2 y y' -> (l2_equal x y) = (fp2_equal x' y').
Proof. unfold l2_equal, fp2_equal. relf. Qed.
#[local] Hint Resolve fp2_equal_r : rel.
Lemma fp2_add_r x x' y y' : r2 x x' -> r2 y y' -> r2 (l2_add b x y) (fp2_add x' y').
Proof. unfold l2_add, fp2_add. relf. Qed.
#[local] Hint Resolve fp2_add_r : rel.
Lemma fp2_sub_r x x' y y' : r2 x x' -> r2 y y' -> r2 (l2_sub b x y) (fp2_sub x' y').
Proof. unfold l2_sub, fp2_sub. relf. Qed.
#[local] Hint Resolve fp2_sub_r : rel.
Lemma fp2_mul_r x x' y y' : r2 x x' -> r2 y y' -> r2 (l2_mul b x y) (fp2_mul x' y').
Proof. unfold l2_mul, fp2_mul. relf. Qed.
#[local] Hint Resolve fp2_mul_r : rel.
Lemma fp2_dbl_r x x' : r2 x x' -> r2 (l2_dbl b x) (fp2_dbl x').
Proof. unfold l2_dbl, fp2_dbl. relf. Qed.
#[local] Hint Resolve fp2_dbl_r : rel.
Lemma fp2_neg_r x x' : r2 x x' -> r2 (l2_neg b x) (fp2_neg x').
Proof. unfold l2_neg, fp2_neg. relf. Qed.
#[local] Hint Resolve fp2_neg_r : rel.
Lemma fp2_conj_r x x' : r2 x x' -> r2 (l2_conj b x) (fp2_conj x').
Proof. unfold l2_conj, fp2_conj. relf. Qed.
#[local] Hint Resolve fp2_conj_r : rel.
Lemma fp2_sqr_r x x' : r2 x x' -> r2 (l2_sqr b x) (fp2_sqr x').
Proof. unfold l2_sqr, fp2_sqr. relf. Qed.
#[local] Hint Resolve fp2_sqr_r : rel.
Lemma fp2_mulXi_r x x' : r2 x x' -> r2 (l2_mulXi b x) (fp2_mulXi x').
Proof. unfold l2_mulXi, fp2_mulXi. relf. Qed.
#[local] Hint Resolve fp2_mulXi_r : rel.
Lemma fp2_mulByB_r x x' : r2 x x' -> r2 (l2_mulByB b x) (fp2_mulByB x').
Proof. unfold l2_mulByB, fp2_mulByB. relf. Qed.
#[local] Hint Resolve fp2_mulByB_r : rel.
Lemma fp2_inv_r x x' : r2 x x' -> r2 (l2_inv b x) (fp2_inv x').
Proof. unfold l2_inv, fp2_inv. relf. Qed.
#[local] Hint Resolve fp2_inv_r : rel.
Lemma fp2_sign_r x x' : r2 x x' -> l2_sign b x = fp2_sign x'.
Proof.
  intros H. pose proof (sign_r b Hb _ _ (r2_0 _ _ H)) as S0. pose proof (sign_r b Hb _ _ (r2_1 _ _ H)) as S1.
  unfold l2_sign, fp2_sign. rewrite (isZero_r _ _ (r2_0 _ _ H)). destruct (fp_isZero (c0 x')); [exact S1|exact S0].
Qed.
#[local] Hint Resolve fp2_sign_r : rel.
Lemma fp2_mulByFq_r x x' y y' : r2 x x' -> rF y y' -> r2 (l2_mulByFq b x y) (fp2_mulByFq x' y').
Proof. unfold l2_mulByFq, fp2_mulByFq. relf. Qed.
#[local] Hint Resolve fp2_mulByFq_r : rel.
Lemma fp2_frob_r x x' (y : Z) : r2 x x' -> r2 (l2_frob b x y) (fp2_frob x' y).
Proof. intros H. unfold l2_frob, fp2_frob. destruct (y mod 2 =? 1); rel. Qed.
#[local] Hint Resolve fp2_frob_r : rel.
Lemma fp2_exp_r x x' (y : list Z) : r2 x x' -> r2 (l2_exp b x y) (fp2_exp x' y).
Proof. intros H. unfold l2_exp, fp2_exp. apply exp_r; [rel|intros; rel|intros; rel|exact H]. Qed.
#[local] Hint Resolve fp2_exp_r : rel.
Lemma fp2_sqrt_r x x' : r2 x x' -> rP eq r2 (l2_sqrt b x) (fp2_sqrt x').
Proof. intros H. unfold l2_sqrt, fp2_sqrt. cbv zeta. rel_if; [apply rP_pair; [reflexivity|rel]|apply rP_pair; rel]. Qed.
#[local] Hint Resolve fp2_sqrt_r : rel.
Lemma fp2_isQNR_r x x' : r2 x x' -> (l2_isQNR b x) = (fp2_isQNR x').
Proof. unfold l2_isQNR, fp2_isQNR. relf. Qed.
#[local] Hint Resolve fp2_isQNR_r : rel.
Lemma fp2_isLexLargest_r x x' : r2 x x' -> (l2_isLexLargest b x) = (fp2_isLexLargest x').
Proof. unfold l2_isLexLargest, fp2_isLexLargest. relf. Qed.
#[local] Hint Resolve fp2_isLexLargest_r : rel.
Lemma fp2_toBytesBE_r x x' (y : bool) : r2 x x' -> (l2_toBytesBE b x y) = (fp2_toBytesBE x' y).
Proof. unfold l2_toBytesBE, fp2_toBytesBE. relf. Qed.
#[local] Hint Resolve fp2_toBytesBE_r : rel.
Lemma fp2_toBytesLE_r x x' (y : bool) : r2 x x' -> (l2_toBytesLE b x y) = (fp2_toBytesLE x' y).
Proof. unfold l2_toBytesLE, fp2_toBytesLE. relf. Qed.
#[local] Hint Resolve fp2_toBytesLE_r : rel.
Lemma fp6_zero_r  : r6 l6_zero fp6_zero.
Proof. unfold l6_zero, fp6_zero. relf. Qed.
#[local] Hint Resolve fp6_zero_r : rel.
Lemma fp6_one_r  : r6 l6_one fp6_one.
Proof. unfold l6_one, fp6_one. relf. Qed.
#[local] Hint Resolve fp6_one_r : rel.
Lemma fp6_isOne_r x x' : r6 x x' -> (l6_isOne x) = (fp6_isOne x').
Proof. unfold l6_isOne, fp6_isOne. relf. Qed.
#[local] Hint Resolve fp6_isOne_r : rel.
Lemma fp6_isZero_r x x' : r6 x x' -> (l6_isZero x) = (fp6_isZero x').
Proof. unfold l6_isZero, fp6_isZero. relf. Qed.
#[local] Hint Resolve fp6_isZero_r : rel.
Lemma fp6_equal_r x x' y y' : r6 x x' -> r6 y y' -> (l6_equal x y) = (fp6_equal x' y').
Proof. unfold l6_equal, fp6_equal. relf. Qed.
#[local] Hint Resolve fp6_equal_r : rel.
Lemma fp6_add_r x x' y y' : r6 x x' -> r6 y y' -> r6 (l6_add b x y) (fp6_add x' y').
Proof. unfold l6_add, fp6_add. relf. Qed.
#[local] Hint Resolve fp6_add_r : rel.
Lemma fp6_sub_r x x' y y' : r6 x x' -> r6 y y' -> r6 (l6_sub b x y) (fp6_sub x' y').
Proof. unfold l6_sub, fp6_sub. relf. Qed.
#[local] Hint Resolve fp6_sub_r : rel.
Lemma fp6_mul_r x x' y y' : r6 x x' -> r6 y y' -> r6 (l6_mul b x y) (fp6_mul x' y').
Proof. unfold l6_mul, fp6_mul. relf. Qed.
#[local] Hint Resolve fp6_mul_r : rel.
Lemma fp6_dbl_r x x' : r6 x x' -> r6 (l6_dbl b x) (fp6_dbl x').
Proof. unfold l6_dbl, fp6_dbl. relf. Qed.
#[local] Hint Resolve fp6_dbl_r : rel.
Lemma fp6_neg_r x x' : r6 x x' -> r6 (l6_neg b x) (fp6_neg x').
Proof. unfold l6_neg, fp6_neg. relf. Qed.
#[local] Hint Resolve fp6_neg_r : rel.
Lemma fp6_sqr_r x x' : r6 x x' -> r6 (l6_sqr b x) (fp6_sqr x').
Proof. unfold l6_sqr, fp6_sqr. relf. Qed.
#[local] Hint Resolve fp6_sqr_r : rel.
Lemma fp6_mulV_r x x' : r6 x x' -> r6 (l6_mulV b x) (fp6_mulV x').
Proof. unfold l6_mulV, fp6_mulV. relf. Qed.
#[local] Hint Resolve fp6_mulV_r : rel.
Lemma fp6_inv_r x x' : r6 x x' -> r6 (l6_inv b x) (fp6_inv x').
Proof. unfold l6_inv, fp6_inv. relf. Qed.
#[local] Hint Resolve fp6_inv_r : rel.
Lemma fp6_mulBy01Assign_r x x' y y' u u' : r6 x x' -> r2 y y' -> r2 u u' -> r6 (l6_mulBy01Assign b x y u) (fp6_mulBy01Assign x' y' u').
Proof. unfold l6_mulBy01Assign, fp6_mulBy01Assign. relf. Qed.
#[local] Hint Resolve fp6_mulBy01Assign_r : rel.
Lemma fp6_mulBy01_r x x' y y' u u' : r6 x x' -> r2 y y' -> r2 u u' -> r6 (l6_mulBy01 b x y u) (fp6_mulBy01 x' y' u').
Proof. unfold l6_mulBy01, fp6_mulBy01. relf. Qed.
#[local] Hint Resolve fp6_mulBy01_r : rel.
Lemma fp6_mulBy1_r x x' y y' : r6 x x' -> r2 y y' -> r6 (l6_mulBy1 b x y) (fp6_mulBy1 x' y').
Proof. unfold l6_mulBy1, fp6_mulBy1. relf. Qed.
#[local] Hint Resolve fp6_mulBy1_r : rel.
Lemma fp6_mulByBase_r x x' y y' : r6 x x' -> r2 y y' -> r6 (l6_mulByBase b x y) (fp6_mulByBase x' y').
Proof. unfold l6_mulByBase, fp6_mulByBase. relf. Qed.
#[local] Hint Resolve fp6_mulByBase_r : rel.
Lemma fp6_exp_r x x' (y : list Z) : r6 x x' -> r6 (l6_exp b x y) (fp6_exp x' y).
Proof. intros H. unfold l6_exp, fp6_exp. apply exp_r; [rel|intros; rel|intros; rel|exact H]. Qed.
#[local] Hint Resolve fp6_exp_r : rel.
Lemma coeff_r l (i : Z) : forallb small2 l = true -> r2 (lib_coeff (map limbs2 l) i) (coeff l i).
Proof.
  intros H. unfold lib_coeff, coeff. generalize (Z.to_nat i). induction l as [|c l IH]; intros [|n]; cbn [map nth]; try rel.
  - apply limbs2_r. cbn [forallb] in H. apply andb_true_iff in H. apply H.
  - apply IH. cbn [forallb] in H. apply andb_true_iff in H. apply H.
Qed.
Lemma coeff61_r i : r2 (lib_coeff lib_frobeniusCoeffs61 i) (coeff frobeniusCoeffs61 i). Proof. apply coeff_r. vm_compute. reflexivity. Qed.
Lemma coeff62_r i : r2 (lib_coeff lib_frobeniusCoeffs62 i) (coeff frobeniusCoeffs62 i). Proof. apply coeff_r. vm_compute. reflexivity. Qed.
Lemma coeff12_r i : r2 (lib_coeff lib_frobeniusCoeffs12 i) (coeff frobeniusCoeffs12 i). Proof. apply coeff_r. vm_compute. reflexivity. Qed.
#[local] Hint Resolve coeff61_r coeff62_r coeff12_r : rel.
Lemma fp6_frob_r x x' (y : Z) : r6 x x' -> r6 (l6_frob b x y) (fp6_frob x' y).
Proof. intros H. unfold l6_frob, fp6_frob. cbv zeta. destruct (y mod 6 =? 0); [rel|]. destruct (y mod 6 =? 3); rel. Qed.
#[local] Hint Resolve fp6_frob_r : rel.
Lemma fp6_frobAssign_r x x' (y : Z) : r6 x x' -> r6 (l6_frobAssign b x y) (fp6_frobAssign x' y).
Proof. intros H. unfold l6_frobAssign, fp6_frobAssign. cbv zeta. destruct (y mod 6 =? 0); [rel|]. destruct (y mod 6 =? 3); rel. Qed.
#[local] Hint Resolve fp6_frobAssign_r : rel.
Lemma fp6_toBytesBE_r x x' (y : bool) : r6 x x' -> (l6_toBytesBE b x y) = (fp6_toBytesBE x' y).
Proof. unfold l6_toBytesBE, fp6_toBytesBE. relf. Qed.
#[local] Hint Resolve fp6_toBytesBE_r : rel.
Lemma fp6_toBytesLE_r x x' (y : bool) : r6 x x' -> (l6_toBytesLE b x y) = (fp6_toBytesLE x' y).
Proof. unfold l6_toBytesLE, fp6_toBytesLE. relf. Qed.
#[local] Hint Resolve fp6_toBytesLE_r : rel.
Lemma fp12_zero_r  : r12 l12_zero fp12_zero.
Proof. unfold l12_zero, fp12_zero. relf. Qed.
#[local] Hint Resolve fp12_zero_r : rel.
Lemma fp12_one_r  : r12 l12_one fp12_one.
Proof. unfold l12_one, fp12_one. relf. Qed.
#[local] Hint Resolve fp12_one_r : rel.
Lemma fp12_isOne_r x x' : r12 x x' -> (l12_isOne x) = (fp12_isOne x').
Proof. unfold l12_isOne, fp12_isOne. relf. Qed.
#[local] Hint Resolve fp12_isOne_r : rel.
Lemma fp12_isZero_r x x' : r12 x x' -> (l12_isZero x) = (fp12_isZero x').
Proof. unfold l12_isZero, fp12_isZero. relf. Qed.
#[local] Hint Resolve fp12_isZero_r : rel.
Lemma fp12_equal_r x x' y y' : r12 x x' -> r12 y y' -> (l12_equal x y) = (fp12_equal x' y').
Proof. unfold l12_equal, fp12_equal. relf. Qed.
#[local] Hint Resolve fp12_equal_r : rel.
Lemma fp12_add_r x x' y y' : r12 x x' -> r12 y y' -> r12 (l12_add b x y) (fp12_add x' y').
Proof. unfold l12_add, fp12_add. relf. Qed.
#[local] Hint Resolve fp12_add_r : rel.
Lemma fp12_sub_r x x' y y' : r12 x x' -> r12 y y' -> r12 (l12_sub b x y) (fp12_sub x' y').
Proof. unfold l12_sub, fp12_sub. relf. Qed.
#[local] Hint Resolve fp12_sub_r : rel.
Lemma fp12_mul_r x x' y y' : r12 x x' -> r12 y y' -> r12 (l12_mul b x y) (fp12_mul x' y').
Proof. unfold l12_mul, fp12_mul. relf. Qed.
#[local] Hint Resolve fp12_mul_r : rel.
Lemma fp12_dbl_r x x' : r12 x x' -> r12 (l12_dbl b x) (fp12_dbl x').
Proof. unfold l12_dbl, fp12_dbl. relf. Qed.
#[local] Hint Resolve fp12_dbl_r : rel.
Lemma fp12_neg_r x x' : r12 x x' -> r12 (l12_neg b x) (fp12_neg x').
Proof. unfold l12_neg, fp12_neg. relf. Qed.
#[local] Hint Resolve fp12_neg_r : rel.
Lemma fp12_conj_r x x' : r12 x x' -> r12 (l12_conj b x) (fp12_conj x').
Proof. unfold l12_conj, fp12_conj. relf. Qed.
#[local] Hint Resolve fp12_conj_r : rel.
Lemma fp12_sqr_r x x' : r12 x x' -> r12 (l12_sqr b x) (fp12_sqr x').
Proof. unfold l12_sqr, fp12_sqr. relf. Qed.
#[local] Hint Resolve fp12_sqr_r : rel.
Lemma fp12_inv_r x x' : r12 x x' -> r12 (l12_inv b x) (fp12_inv x').
Proof. unfold l12_inv, fp12_inv. relf. Qed.
#[local] Hint Resolve fp12_inv_r : rel.
Lemma fp4Square_r x x' y y' : r2 x x' -> r2 y y' -> rP r2 r2 (lib_fp4Square b x y) (fp4Square x' y').
Proof. unfold lib_fp4Square, fp4Square. relf. Qed.
#[local] Hint Resolve fp4Square_r : rel.
Lemma fp12_cycSqr_r x x' : r12 x x' -> r12 (l12_cycSqr b x) (fp12_cycSqr x').
Proof. 
  intros H. unfold l12_cycSqr, fp12_cycSqr. cbv zeta.
  assert (H1 : rP r2 r2 (lib_fp4Square b (ld0 (le0 x)) (ld1 (le1 x))) (fp4Square (d0 (e0 x')) (d1 (e1 x')))) by rel.
  assert (H2 : rP r2 r2 (lib_fp4Square b (ld0 (le1 x)) (ld2 (le0 x))) (fp4Square (d0 (e1 x')) (d2 (e0 x')))) by rel.
  assert (H3 : rP r2 r2 (lib_fp4Square b (ld1 (le0 x)) (ld2 (le1 x))) (fp4Square (d1 (e0 x')) (d2 (e1 x')))) by rel.
  destruct (lib_fp4Square b (ld0 (le0 x)) (ld1 (le1 x))) as [t3 t4], (fp4Square (d0 (e0 x')) (d1 (e1 x'))) as [t3' t4'].
  destruct (lib_fp4Square b (ld0 (le1 x)) (ld2 (le0 x))) as [t5 t6], (fp4Square (d0 (e1 x')) (d2 (e0 x'))) as [t5' t6'].
  destruct (lib_fp4Square b (ld1 (le0 x)) (ld2 (le1 x))) as [t7 t8], (fp4Square (d1 (e0 x')) (d2 (e1 x'))) as [t7' t8'].
  destruct H1 as [A1 A2], H2 as [A3 A4], H3 as [A5 A6]. cbn [fst snd] in *. rel.
 Qed.
#[local] Hint Resolve fp12_cycSqr_r : rel.
Lemma fp12_mulBy014_r x x' y y' u u' v v' : r12 x x' -> r2 y y' -> r2 u u' -> r2 v v' -> r12 (l12_mulBy014 b x y u v) (fp12_mulBy014 x' y' u' v').
Proof. unfold l12_mulBy014, fp12_mulBy014. relf. Qed.
#[local] Hint Resolve fp12_mulBy014_r : rel.
Lemma fp12_exp_r x x' (y : list Z) : r12 x x' -> r12 (l12_exp b x y) (fp12_exp x' y).
Proof. intros H. unfold l12_exp, fp12_exp. apply exp_r; [rel|intros; rel|intros; rel|exact H]. Qed.
#[local] Hint Resolve fp12_exp_r : rel.
Lemma fp12_cycExp_r x x' (y : list Z) : r12 x x' -> r12 (l12_cycExp b x y) (fp12_cycExp x' y).
Proof. intros H. unfold l12_cycExp, fp12_cycExp. apply exp_r; [rel|intros; rel|intros; rel|exact H]. Qed.
#[local] Hint Resolve fp12_cycExp_r : rel.
Lemma fp12_isGtValid_r x x' : r12 x x' -> (l12_isGtValid b x) = (fp12_isGtValid x').
Proof. unfold l12_isGtValid, fp12_isGtValid. relf. Qed.
#[local] Hint Resolve fp12_isGtValid_r : rel.
Lemma fp12_frob_opt_r x x' (y : Z) : r12 x x' -> rO r12 (l12_frob_opt b x y) (fp12_frob_opt x' y).
Proof. intros H. unfold l12_frob_opt, fp12_frob_opt, l12_frob_with, fp12_frob_with. cbv zeta.
  destruct (y =? 0); [red; rel|]. destruct (y =? 6); [red; rel|]. destruct (y <? 12); [red; rel|exact I]. Qed.
#[local] Hint Resolve fp12_frob_opt_r : rel.
Lemma fp12_frob_r x x' (y : Z) : r12 x x' -> r12 (l12_frob b x y) (fp12_frob x' y).
Proof. intros H. pose proof (fp12_frob_opt_r x x' y H) as K. unfold l12_frob, fp12_frob. destruct (l12_frob_opt b x y), (fp12_frob_opt x' y); try contradiction; assumption. Qed.
#[local] Hint Resolve fp12_frob_r : rel.
Lemma fp12_frobAssign_opt_r x x' (y : Z) : r12 x x' -> rO r12 (l12_frobAssign_opt b x y) (fp12_frobAssign_opt x' y).
Proof. intros H. unfold l12_frobAssign_opt, fp12_frobAssign_opt, l12_frob_with, fp12_frob_with. cbv zeta.
  destruct (y =? 0); [red; rel|]. destruct (y =? 6); [red; rel|]. destruct (y <? 12); [red; rel|exact I]. Qed.
#[local] Hint Resolve fp12_frobAssign_opt_r : rel.
Lemma fp12_frobAssign_r x x' (y : Z) : r12 x x' -> r12 (l12_frobAssign b x y) (fp12_frobAssign x' y).
Proof. intros H. pose proof (fp12_frobAssign_opt_r x x' y H) as K. unfold l12_frobAssign, fp12_frobAssign. destruct (l12_frobAssign_opt b x y), (fp12_frobAssign_opt x' y); try contradiction; assumption. Qed.
#[local] Hint Resolve fp12_frobAssign_r : rel.
Lemma fp12_toBytesBE_r x x' (y : bool) : r12 x x' -> (l12_toBytesBE b x y) = (fp12_toBytesBE x' y).
Proof. unfold l12_toBytesBE, fp12_toBytesBE. relf. Qed.
#[local] Hint Resolve fp12_toBytesBE_r : rel.
Lemma fp12_toBytesLE_r x x' (y : bool) : r12 x x' -> (l12_toBytesLE b x y) = (fp12_toBytesLE x' y).
Proof. unfold l12_toBytesLE, fp12_toBytesLE. relf. Qed.
#[local] Hint Resolve fp12_toBytesLE_r : rel.
Lemma sub_span_bytes off n a : bytes a -> bytes (sub_span off n a).
Proof.
  unfold sub_span, bytes. rewrite !Forall_forall. intros H x I. apply H. rewrite <- (firstn_skipn off a). apply in_or_app. right.
  rewrite <- (firstn_skipn n (skipn off a)). apply in_or_app. left. exact I.
Qed.
Lemma sub_span_len off n a : (off + n <= length a)%nat -> length (sub_span off n a) = n.
Proof. intros H. unfold sub_span. rewrite firstn_length, skipn_length. lia. Qed.

Lemma fp2_fromBytesBE_r a check mont : bytes a -> length a = 96%nat -> rO r2 (l2_fromBytesBE b a check mont) (fp2_fromBytesBE a check mont).
Proof.
  intros Ba La. unfold l2_fromBytesBE, fp2_fromBytesBE.
  pose proof (fromBE_r b Hb (sub_span 0 48 a) check mont (sub_span_bytes _ _ a Ba) (sub_span_len 0 48 a ltac:(rewrite La; repeat constructor))) as H0.
  pose proof (fromBE_r b Hb (sub_span 48 48 a) check mont (sub_span_bytes _ _ a Ba) (sub_span_len 48 48 a ltac:(rewrite La; repeat constructor))) as H1.
  destruct (l_fromBytesBE b (sub_span 0 48 a) check mont), (fp_fromBytesBE (sub_span 0 48 a) check mont); try contradiction;
  destruct (l_fromBytesBE b (sub_span 48 48 a) check mont), (fp_fromBytesBE (sub_span 48 48 a) check mont); try contradiction; try exact I.
  red. unfold rO in *. rel.
Qed.
Lemma fp6_fromBytesBE_r a check mont : bytes a -> length a = 288%nat -> rO r6 (l6_fromBytesBE b a check mont) (fp6_fromBytesBE a check mont).
Proof.
  intros Ba La. unfold l6_fromBytesBE, fp6_fromBytesBE.
  pose proof (fp2_fromBytesBE_r (sub_span 0 96 a) check mont (sub_span_bytes _ _ a Ba) (sub_span_len 0 96 a ltac:(rewrite La; repeat constructor))) as H0.
  pose proof (fp2_fromBytesBE_r (sub_span 96 96 a) check mont (sub_span_bytes _ _ a Ba) (sub_span_len 96 96 a ltac:(rewrite La; repeat constructor))) as H1.
  pose proof (fp2_fromBytesBE_r (sub_span 192 96 a) check mont (sub_span_bytes _ _ a Ba) (sub_span_len 192 96 a ltac:(rewrite La; repeat constructor))) as H2.
  destruct (l2_fromBytesBE b (sub_span 0 96 a) check mont), (fp2_fromBytesBE (sub_span 0 96 a) check mont); try contradiction;
  destruct (l2_fromBytesBE b (sub_span 96 96 a) check mont), (fp2_fromBytesBE (sub_span 96 96 a) check mont); try contradiction;
  destruct (l2_fromBytesBE b (sub_span 192 96 a) check mont), (fp2_fromBytesBE (sub_span 192 96 a) check mont); try contradiction; try exact I.
  red. unfold rO in *. rel.
Qed.
Lemma fp12_fromBytesBE_r a check mont : bytes a -> length a = 576%nat -> rO r12 (l12_fromBytesBE b a check mont) (fp12_fromBytesBE a check mont).
Proof.
  intros Ba La. unfold l12_fromBytesBE, fp12_fromBytesBE.
  pose proof (fp6_fromBytesBE_r (sub_span 0 288 a) check mont (sub_span_bytes _ _ a Ba) (sub_span_len 0 288 a ltac:(rewrite La; repeat constructor))) as H0.
  pose proof (fp6_fromBytesBE_r (sub_span 288 288 a) check mont (sub_span_bytes _ _ a Ba) (sub_span_len 288 288 a ltac:(rewrite La; repeat constructor))) as H1.
  destruct (l6_fromBytesBE b (sub_span 0 288 a) check mont), (fp6_fromBytesBE (sub_span 0 288 a) check mont); try contradiction;
  destruct (l6_fromBytesBE b (sub_span 288 288 a) check mont), (fp6_fromBytesBE (sub_span 288 288 a) check mont); try contradiction; try exact I.
  red. unfold rO in *. rel.
Qed.
Lemma fp2_fromBytesLE_r a check mont : bytes a -> length a = 96%nat -> rO r2 (l2_fromBytesLE b a check mont) (fp2_fromBytesLE a check mont).
Proof.
  intros Ba La. unfold l2_fromBytesLE, fp2_fromBytesLE.
  pose proof (fromLE_r b Hb (sub_span 0 48 a) check mont (sub_span_bytes _ _ a Ba) (sub_span_len 0 48 a ltac:(rewrite La; repeat constructor))) as H0.
  pose proof (fromLE_r b Hb (sub_span 48 48 a) check mont (sub_span_bytes _ _ a Ba) (sub_span_len 48 48 a ltac:(rewrite La; repeat constructor))) as H1.
  destruct (l_fromBytesLE b (sub_span 0 48 a) check mont), (fp_fromBytesLE (sub_span 0 48 a) check mont); try contradiction;
  destruct (l_fromBytesLE b (sub_span 48 48 a) check mont), (fp_fromBytesLE (sub_span 48 48 a) check mont); try contradiction; try exact I.
  red. unfold rO in *. rel.
Qed.
Lemma fp6_fromBytesLE_r a check mont : bytes a -> length a = 288%nat -> rO r6 (l6_fromBytesLE b a check mont) (fp6_fromBytesLE a check mont).
Proof.
  intros Ba La. unfold l6_fromBytesLE, fp6_fromBytesLE.
  pose proof (fp2_fromBytesLE_r (sub_span 0 96 a) check mont (sub_span_bytes _ _ a Ba) (sub_span_len 0 96 a ltac:(rewrite La; repeat constructor))) as H0.
  pose proof (fp2_fromBytesLE_r (sub_span 96 96 a) check mont (sub_span_bytes _ _ a Ba) (sub_span_len 96 96 a ltac:(rewrite La; repeat constructor))) as H1.
  pose proof (fp2_fromBytesLE_r (sub_span 192 96 a) check mont (sub_span_bytes _ _ a Ba) (sub_span_len 192 96 a ltac:(rewrite La; repeat constructor))) as H2.
  destruct (l2_fromBytesLE b (sub_span 0 96 a) check mont), (fp2_fromBytesLE (sub_span 0 96 a) check mont); try contradiction;
  destruct (l2_fromBytesLE b (sub_span 96 96 a) check mont), (fp2_fromBytesLE (sub_span 96 96 a) check mont); try contradiction;
  destruct (l2_fromBytesLE b (sub_span 192 96 a) check mont), (fp2_fromBytesLE (sub_span 192 96 a) check mont); try contradiction; try exact I.
  red. unfold rO in *. rel.
Qed.
Lemma fp12_fromBytesLE_r a check mont : bytes a -> length a = 576%nat -> rO r12 (l12_fromBytesLE b a check mont) (fp12_fromBytesLE a check mont).
Proof.
  intros Ba La. unfold l12_fromBytesLE, fp12_fromBytesLE.
  pose proof (fp6_fromBytesLE_r (sub_span 0 288 a) check mont (sub_span_bytes _ _ a Ba) (sub_span_len 0 288 a ltac:(rewrite La; repeat constructor))) as H0.
  pose proof (fp6_fromBytesLE_r (sub_span 288 288 a) check mont (sub_span_bytes _ _ a Ba) (sub_span_len 288 288 a ltac:(rewrite La; repeat constructor))) as H1.
  destruct (l6_fromBytesLE b (sub_span 0 288 a) check mont), (fp6_fromBytesLE (sub_span 0 288 a) check mont); try contradiction;
  destruct (l6_fromBytesLE b (sub_span 288 288 a) check mont), (fp6_fromBytesLE (sub_span 288 288 a) check mont); try contradiction; try exact I.
  red. unfold rO in *. rel.
Qed.
End T.
#[export] Hint Resolve fp2_zero_r fp2_one_r fp2_isOne_r fp2_isZero_r fp2_equal_r fp2_add_r fp2_sub_r fp2_mul_r fp2_dbl_r fp2_neg_r fp2_conj_r fp2_sqr_r fp2_mulXi_r fp2_mulByB_r fp2_inv_r fp2_sign_r fp2_mulByFq_r fp2_frob_r fp2_exp_r fp2_sqrt_r fp2_isQNR_r fp2_isLexLargest_r fp2_toBytesBE_r fp2_toBytesLE_r fp6_zero_r fp6_one_r fp6_isOne_r fp6_isZero_r fp6_equal_r fp6_add_r fp6_sub_r fp6_mul_r fp6_dbl_r fp6_neg_r fp6_sqr_r fp6_mulV_r fp6_inv_r fp6_mulBy01Assign_r fp6_mulBy01_r fp6_mulBy1_r fp6_mulByBase_r fp6_exp_r fp6_frob_r fp6_frobAssign_r fp6_toBytesBE_r fp6_toBytesLE_r fp12_zero_r fp12_one_r fp12_isOne_r fp12_isZero_r fp12_equal_r fp12_add_r fp12_sub_r fp12_mul_r fp12_dbl_r fp12_neg_r fp12_conj_r fp12_sqr_r fp12_inv_r fp4Square_r fp12_cycSqr_r fp12_mulBy014_r fp12_exp_r fp12_cycExp_r fp12_isGtValid_r fp12_frob_opt_r fp12_frob_r fp12_frobAssign_opt_r fp12_frobAssign_r fp12_toBytesBE_r fp12_toBytesLE_r fp2_fromBytesBE_r fp6_fromBytesBE_r fp12_fromBytesBE_r fp2_fromBytesLE_r fp6_fromBytesLE_r fp12_fromBytesLE_r : rel.
