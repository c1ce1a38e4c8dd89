(** C05, C06, C07, C14, C15, C16, C17: word arithmetic, the portable field arithmetic, namespace scalar, hex. *)
From Coq Require Import ZArith List Bool Lia.
From Verif Require Import ModelWord ModelScalar ModelPrim PortArith SpecField SpecBytes ScalarProof BytesProof FpProof AsmSpec CarryProof MaddProof ScalarProof2 ModelFp ModelDiv DivProof DivProof2.
Import ListNotations.
Local Open Scope Z_scope.

(** * C05 *)
(** the low word is always right; with the returned carry the value is right exactly unless y = 2^64-1 meets a carry *)
Theorem C05_add64 : forall x y c, word x -> word y -> c = 0 \/ c = 1 ->
  fst (Add64 x y c) = (x + y + c) mod 2 ^ 64 /\
  (fst (Add64 x y c) + 2 ^ 64 * snd (Add64 x y c) = x + y + c <-> ~ (y = 2 ^ 64 - 1 /\ c = 1)).
Proof. intros x y c Hx Hy Hc. split; [apply Add64_sum|]. exact (Add64_carry_iff x y c Hx Hy Hc). Qed.
Theorem C05_sub64 : forall x y c, word x -> word y -> c = 0 \/ c = 1 ->
  fst (Sub64 x y c) = (x - y - c) mod 2 ^ 64 /\
  (fst (Sub64 x y c) - 2 ^ 64 * snd (Sub64 x y c) = x - y - c <-> ~ (y = 2 ^ 64 - 1 /\ c = 1)).
Proof. intros x y c Hx Hy Hc. split; [apply Sub64_diff|]. exact (Sub64_borrow_iff x y c Hx Hy Hc). Qed.
Theorem C05_mul64 : forall x y, word x -> word y ->
  word (fst (Mul64 x y)) /\ word (snd (Mul64 x y)) /\ fst (Mul64 x y) * 2 ^ 64 + snd (Mul64 x y) = x * y.
Proof. intros x y Hx Hy. destruct (Mul64_ok x y Hx Hy) as (h & l & E & Hh & Hl & _ & V & _). rewrite E. cbn [fst snd]. auto. Qed.
(** the comment above Add64 promises the carry unconditionally *)
Theorem C05_documented_contract_refuted :
  ~ (forall x y c, word x -> word y -> c = 0 \/ c = 1 -> fst (Add64 x y c) + 2 ^ 64 * snd (Add64 x y c) = x + y + c).
Proof.
  intros H. specialize (H 5 (2 ^ 64 - 1) 1). vm_compute in H.
  assert (X : 5 = 18446744073709551621); [apply H; auto; split; discriminate || reflexivity|discriminate X].
Qed.
Example C05_examples :
  Add64 (2 ^ 64 - 1) 1 0 = (0, 1) /\ Add64 (2 ^ 64 - 1) 0 1 = (0, 1) /\ Add64 0 (2 ^ 64 - 1) 1 = (0, 0) /\
  Sub64 0 1 0 = (2 ^ 64 - 1, 1) /\ Sub64 3 (2 ^ 64 - 1) 1 = (3, 0) /\ Mul64 (2 ^ 63) 6 = (3, 0).
Proof. vm_compute. repeat split. Qed.

(** * C06: six limbs; [safe] = no carry (borrow) arrives at an all-ones limb of the second operand among the lower five *)
Definition carry_arrives (x y : list Z) (i : nat) : Prop := W ^ Z.of_nat i <= val (firstn i x) + val (firstn i y).
Definition borrow_arrives (x y : list Z) (i : nat) : Prop := val (firstn i x) < val (firstn i y).
Definition add_lossless (x y : list Z) : Prop := forall i, (i < 5)%nat -> nth i y 0 = 2 ^ 64 - 1 -> ~ carry_arrives x y i.
Definition sub_lossless (x y : list Z) : Prop := forall i, (i < 5)%nat -> nth i y 0 = 2 ^ 64 - 1 -> ~ borrow_arrives x y i.
Lemma add_lossless_safe x y : add_lossless x y <-> carry_safe 5 x y 0.
Proof. unfold add_lossless, carry_safe, carry_arrives, limb. change (2 ^ 64 - 1) with (W - 1). split; intros H i Hi E; specialize (H i Hi E); lia. Qed.
Lemma sub_lossless_safe x y : sub_lossless x y <-> borrow_safe 5 x y 0.
Proof. unfold sub_lossless, borrow_safe, borrow_arrives, limb. change (2 ^ 64 - 1) with (W - 1). split; intros H i Hi E; specialize (H i Hi E); lia. Qed.
Definition wordsb (x : list Z) : bool := forallb (fun a => (0 <=? a) && (a <? W)) x.
Lemma wordsb_ok x : wordsb x = true -> words x.
Proof.
  intros H. apply Forall_forall. intros a I. unfold wordsb in H. rewrite forallb_forall in H. specialize (H a I).
  apply andb_true_iff in H. destruct H as [A B]. apply Z.leb_le in A. apply Z.ltb_lt in B. split; auto.
Qed.
Definition canonical (x : list Z) : Prop := length x = 6%nat /\ words x /\ val x < modulus.
Lemma canonicalb_ok x : (Nat.eqb (length x) 6 && wordsb x && (val x <? modulus))%bool = true -> canonical x.
Proof.
  intros H. apply andb_true_iff in H. destruct H as [H C]. apply andb_true_iff in H. destruct H as [A B].
  split; [apply Nat.eqb_eq; auto|]. split; [apply wordsb_ok; auto|apply Z.ltb_lt; auto].
Qed.
Lemma canonical_six x : canonical x -> six x. Proof. intros (L & H & _). split; auto. Qed.
Lemma canonical_canon x : canonical x -> canon (val x).
Proof. intros (L & H & B). split; [apply val_nonneg; auto|exact B]. Qed.


Lemma canonical_of z v : six z -> val z = v -> canon v -> canonical z /\ val z = v.
Proof. intros (L & H) E C. split; [|exact E]. split; [exact L|]. split; [exact H|]. rewrite E. apply C. Qed.

Lemma canonical_top y : canonical y -> limb y 5 <> W - 1.
Proof.
  intros (L & H & B) E. destruct (list6 y L) as (a & b & c & d & e & f & ->). unfold limb in E. cbn [nth] in E. subst f.
  six_word H. unfold word in *. revert B. cbn [val]. unfold modulus, W in *. lia.
Qed.
Lemma borrow_safe_6 x y : canonical y -> borrow_safe 5 x y 0 -> borrow_safe 6 x y 0.
Proof.
  intros C H i Hi E. destruct (Nat.eq_dec i 5) as [->|]; [elim (canonical_top y C E)|]. apply H; [lia|auto].
Qed.
Theorem C06_add : forall x y, canonical x -> canonical y -> add_lossless x y ->
  canonical (p_add x y) /\ val (p_add x y) = (val x + val y) mod modulus.
Proof.
  intros x y Hx Hy S. apply add_lossless_safe in S.
  destruct (p_add_ok x y (canonical_six _ Hx) (canonical_six _ Hy) S) as (Z & V).
  destruct (fp_add_ok (val x) (val y) (canonical_canon _ Hx) (canonical_canon _ Hy)) as (C & _ & E).
  change modulus with MODULUS. rewrite <- E. apply canonical_of; auto.
Qed.
Theorem C06_double : forall x, canonical x -> add_lossless x x ->
  canonical (p_double x) /\ val (p_double x) = (2 * val x) mod modulus.
Proof.
  intros x Hx S. apply add_lossless_safe in S.
  destruct (p_double_ok x (canonical_six _ Hx) S) as (Z & V).
  destruct (fp_add_ok (val x) (val x) (canonical_canon _ Hx) (canonical_canon _ Hx)) as (C & _ & E).
  change modulus with MODULUS. rewrite <- Z.add_diag, <- E. apply canonical_of; auto.
Qed.
Theorem C06_subtract : forall x y, canonical x -> canonical y -> sub_lossless x y ->
  canonical (p_subtract x y) /\ val (p_subtract x y) = (val x - val y) mod modulus.
Proof.
  intros x y Hx Hy S. apply sub_lossless_safe, (borrow_safe_6 _ _ Hy) in S.
  destruct (p_sub_ok x y (canonical_six _ Hx) (canonical_six _ Hy) S) as (Z & V).
  destruct (fp_sub_ok (val x) (val y) (canonical_canon _ Hx) (canonical_canon _ Hy)) as (C & _ & E).
  change modulus with MODULUS. rewrite <- E. apply canonical_of; auto.
Qed.
Theorem C06_negate : forall x, canonical x -> sub_lossless MODl x ->
  canonical (p_negate x) /\ val (p_negate x) = (- val x) mod modulus.
Proof.
  intros x Hx S. apply sub_lossless_safe in S.
  destruct (p_neg_ok x (canonical_six _ Hx) S) as (Z & V).
  destruct (fp_neg_ok (val x) (canonical_canon _ Hx)) as (C & _ & E).
  change modulus with MODULUS. rewrite <- E. apply canonical_of; auto.
Qed.
(** the unreduced variants, on any six limbs: right modulo 2^384 if and only if no carry is lost *)
Theorem C06_unreduced_iff : forall x y, length x = 6%nat -> words x -> length y = 6%nat -> words y ->
  (val (p_ladd x y) = (val x + val y) mod 2 ^ 384 <-> add_lossless x y) /\
  (val (p_ldouble x) = (2 * val x) mod 2 ^ 384 <-> add_lossless x x) /\
  (val (p_lsubtract x y) = (val x - val y) mod 2 ^ 384 <-> sub_lossless x y).
Proof.
  intros x y Lx Hx Ly Hy. rewrite !add_lossless_safe, sub_lossless_safe. rewrite <- Z.add_diag.
  split; [apply p_ladd_iff; split; auto|]. split; [apply p_ldouble_iff; split; auto|apply p_lsub_iff; split; auto].
Qed.
(** The conditions are also necessary. *)
Lemma lost_nz d : 0 <= d < modulus -> (modulus | W * d) -> d = 0.
Proof.
  intros B D. apply Z.gauss in D; [|vm_compute; reflexivity]. destruct (Z.eq_dec d 0) as [|N]; [assumption|].
  apply Z.divide_pos_le in D; lia.
Qed.
Lemma congr_div a b t : a = b mod modulus -> (exists q, a = b + t + q * modulus) -> (modulus | t).
Proof. intros E (q & F). rewrite Z.mod_eq in E by discriminate. exists (- (b / modulus) - q). lia. Qed.
Lemma add_chain_lost x y : canonical x -> canonical y ->
  exists d, six (fst (add_chain x y)) /\ val (fst (add_chain x y)) = val x + val y - W * d /\ 0 <= d < modulus /\ (d = 0 <-> add_lossless x y).
Proof.
  intros (Lx & Hx & Bx) (Ly & Hy & By). pose proof (val_nonneg x Hx) as Nx. pose proof (val_nonneg y Hy) as Ny. unfold add_chain. rewrite add_loop_l, !slice_all by auto.
  destruct (add_l_spec x y 0 Hx Hy ltac:(congruence) ltac:(left; reflexivity)) as (z & k & d & E & Hz & Lz & Hk & Hd & V & I1 & I2).
  rewrite E. cbn [fst snd]. rewrite Lx in *. pose proof (val_bound z Hz) as Bz. rewrite Lz in Bz.
  assert (P2 : 2 * modulus < W ^ Z.of_nat 6) by reflexivity. assert (WP : 4 <= W) by discriminate. assert (K : k = 0) by (destruct Hk; [assumption|]; subst k; lia). subst k.
  exists d. split; [split; auto|]. split; [lia|]. split; [nia|]. rewrite add_lossless_safe, I1. split; [apply carry_safe_le; lia|].
  intros S i Hi Eo. destruct (Nat.eq_dec i 5) as [->|]; [|apply S; [lia|exact Eo]]. exfalso. exact (canonical_top y (conj Ly (conj Hy By)) Eo).
Qed.
Lemma reduce_congr z : six z -> exists q, val (reduce_once z) = val z + q * modulus.
Proof. intros S. destruct (reduce_once_ok z S) as (_ & V). change MODULUS with modulus in V. rewrite V. destruct (val z <? modulus); [exists 0|exists (-1)]; lia. Qed.
Theorem C06_add_iff : forall x y, canonical x -> canonical y -> (val (p_add x y) = (val x + val y) mod modulus <-> add_lossless x y).
Proof.
  intros x y Hx Hy. split; [|intros S; apply (C06_add x y Hx Hy S)]. intros E. destruct (add_chain_lost x y Hx Hy) as (d & S & V & B & I). apply I, lost_nz; [exact B|].
  apply Z.divide_opp_r. destruct (reduce_congr _ S) as (q & Q). apply (congr_div _ _ _ E). exists q. unfold p_add. rewrite Q, V. ring.
Qed.
Theorem C06_double_iff : forall x, canonical x -> (val (p_double x) = (2 * val x) mod modulus <-> add_lossless x x).
Proof. intros x Hx. rewrite <- (C06_add_iff x x Hx Hx), <- Z.add_diag. reflexivity. Qed.
Lemma sub_chain_lost x y : canonical x \/ x = MODl -> canonical y ->
  exists d k, sub_chain x y = (fst (sub_chain x y), k) /\ six (fst (sub_chain x y)) /\ bit k /\ val (fst (sub_chain x y)) - R384 * k = val x - val y + W * d /\ 0 <= d < modulus /\ (d = 0 <-> sub_lossless x y).
Proof.
  intros Cx (Ly & Hy & By). assert (Hx' : six x /\ val x <= modulus).
  { destruct Cx as [C| ->]; [split; [exact (canonical_six x C)|apply Z.lt_le_incl, C]|split; [exact MODl_six|discriminate]]. }
  destruct Hx' as ((Lx & Hx) & Bx). pose proof (val_nonneg x Hx) as Nx. pose proof (val_nonneg y Hy) as Ny. unfold sub_chain. rewrite sub_loop_l, !slice_all by auto.
  destruct (sub_l_spec x y 0 Hx Hy ltac:(congruence) ltac:(left; reflexivity)) as (z & k & d & E & Hz & Lz & Hk & Hd & V & I1 & I2).
  rewrite E. cbn [fst snd]. rewrite Lx in *. rewrite <- R384_W in V. pose proof (val_bound z Hz) as Bz. rewrite Lz, <- R384_W in Bz.
  assert (P2 : R384 + modulus < W * modulus) by reflexivity. assert (WP : 4 <= W) by discriminate. assert (RP : 0 < R384) by reflexivity.
  exists d, k. split; [reflexivity|]. split; [split; auto|]. split; [exact Hk|]. split; [lia|].
  assert (UB : W * d < W * modulus) by (destruct Hk; subst k; lia). split; [split; [exact Hd|clear - UB WP; nia]|]. rewrite sub_lossless_safe, I1. split; [apply borrow_safe_le; lia|].
  apply borrow_safe_6. exact (conj Ly (conj Hy By)).
Qed.
Theorem C06_subtract_iff : forall x y, canonical x -> canonical y -> (val (p_subtract x y) = (val x - val y) mod modulus <-> sub_lossless x y).
Proof.
  intros x y Hx Hy. split; [|intros S; apply (C06_subtract x y Hx Hy S)]. intros E. destruct (sub_chain_lost x y (or_introl Hx) Hy) as (d & k & EC & S & Hk & V & B & I). apply I, lost_nz; [exact B|].
  apply (congr_div _ _ _ E). unfold p_subtract. rewrite EC. destruct Hk as [->| ->]; cbn [Z.eqb].
  - exists 0. lia.
  - exists 1. destruct (add_chain_six _ MODl S MODl_six) as (_ & (_ & A) & _). rewrite A by (apply no_ones_carry_safe, MODl_no_ones). rewrite MODl_val. change MODULUS with modulus.
    pose proof (six_bound _ S) as Bz. pose proof (val_nonneg x (proj1 (proj2 Hx))) as Nx. destruct Hy as (_ & _ & By). assert (RP : 0 < R384) by reflexivity. assert (P2 : modulus < R384) by reflexivity.
    replace (val (fst (sub_chain x y)) + modulus) with (val x - val y + W * d + 1 * modulus + 1 * R384) by (clear - V; lia). rewrite Z.mod_add by (clear - RP; lia). apply Z.mod_small. assert (0 <= W * d) by (apply Z.mul_nonneg_nonneg; [discriminate|apply B]). lia.
Qed.
Theorem C06_negate_iff : forall x, canonical x -> (val (p_negate x) = (- val x) mod modulus <-> sub_lossless MODl x).
Proof.
  intros x Hx. split; [|intros S; apply (C06_negate x Hx S)]. intros E. destruct (sub_chain_lost MODl x (or_intror eq_refl) Hx) as (d & k & EC & S & Hk & V & B & I). apply I.
  unfold p_negate in E. rewrite six_zero in E by apply Hx. destruct (Z.eqb_spec (val x) 0) as [Z|N].
  - apply I. intros i Hi O. exfalso. assert (X : x = repeat 0 6).
    { destruct Hx as (Lx & Wx & _). apply (val_inj x (repeat 0 6) Wx); [repeat constructor; discriminate|exact Lx|rewrite Z; reflexivity]. }
    subst x. clear - Hi O. do 5 (destruct i as [|i]; [discriminate O|]). lia.
  - apply lost_nz; [exact B|]. apply (congr_div _ _ _ E). exists 1. rewrite EC in E. rewrite MODl_val in V. change MODULUS with modulus in V.
    pose proof (six_bound _ S) as Bz. destruct Hx as (_ & _ & Bx). assert (RP : 0 < R384) by reflexivity. destruct Hk as [->| ->]; [lia|]. exfalso. destruct B as [B _]. assert (0 < W) by reflexivity. nia.
Qed.
(** a simple sufficient condition: the second operand has no all-ones limb *)
Theorem C06_no_all_ones_limb : forall x y, Forall (fun l => l <> 2 ^ 64 - 1) y -> add_lossless x y /\ sub_lossless x y.
Proof.
  intros x y F. split; [apply add_lossless_safe, no_ones_carry_safe; exact F|apply sub_lossless_safe, no_ones_borrow_safe; exact F].
Qed.
(** failing canonical operands: 1 + (2^128 - 1) is computed as 0 (in the other order correctly as 2^128) *)
Definition w1 : list Z := [1; 0; 0; 0; 0; 0].
Definition wff : list Z := [2 ^ 64 - 1; 2 ^ 64 - 1; 0; 0; 0; 0].
Definition w8f : list Z := [2 ^ 63; 2 ^ 64 - 1; 0; 0; 0; 0].
Lemma w_canonical : canonical w1 /\ canonical wff /\ canonical w8f.
Proof. split; [|split]; apply canonicalb_ok; vm_compute; reflexivity. Qed.
Theorem C06_add_refuted : exists x y, canonical x /\ canonical y /\
  val (p_add x y) <> (val x + val y) mod modulus /\ p_add x y <> p_add y x.
Proof.
  exists w1, wff. destruct w_canonical as (A & B & _). split; [exact A|]. split; [exact B|].
  split; vm_compute; discriminate.
Qed.
Theorem C06_double_refuted : exists x, canonical x /\ val (p_double x) <> (2 * val x) mod modulus.
Proof. exists w8f. split; [apply w_canonical|]. vm_compute. discriminate. Qed.
Theorem C06_subtract_refuted : exists x y, canonical x /\ canonical y /\ val (p_subtract x y) <> (val x - val y) mod modulus.
Proof. exists w1, wff. destruct w_canonical as (A & B & _). split; [exact A|]. split; [exact B|]. vm_compute. discriminate. Qed.
Theorem C06_negate_refuted : exists x, canonical x /\ val (p_negate x) <> (- val x) mod modulus.
Proof. exists wff. split; [apply w_canonical|]. vm_compute. discriminate. Qed.
Example C06_example :
  canonical w1 /\ add_lossless wff w1 /\ p_add wff w1 = [0; 0; 1; 0; 0; 0] /\ ~ add_lossless w1 wff /\ p_add w1 wff = [0; 0; 0; 0; 0; 0].
Proof.
  split; [apply w_canonical|]. split; [apply C06_no_all_ones_limb; repeat constructor; discriminate|].
  split; [reflexivity|]. split; [|reflexivity].
  intros H. apply (H 1%nat); [lia|reflexivity|]. unfold carry_arrives. vm_compute. discriminate.
Qed.

(** * C07 *)
(** for all six-limb operands with y + p <= 2^384 (all canonical ones): the value the x86 routines store (C02/C03) *)
Theorem C07_multiply : forall x y, length x = 6%nat -> words x -> length y = 6%nat -> words y -> val y + modulus <= 2 ^ 384 ->
  length (p_multiply x y) = 6%nat /\ words (p_multiply x y) /\ val (p_multiply x y) = fp_mul (val x) (val y).
Proof. intros x y Lx Hx Ly Hy B. destruct (p_multiply_ok x y (conj Lx Hx) (conj Ly Hy) B) as ((L & H) & V). auto. Qed.
Theorem C07_multiply_montgomery : forall x y, canonical x -> canonical y ->
  canonical (p_multiply x y) /\ (val (p_multiply x y) * 2 ^ 384) mod modulus = (val x * val y) mod modulus.
Proof.
  intros x y Hx Hy. pose proof (canonical_canon _ Hx) as (X1 & X2). pose proof (canonical_canon _ Hy) as (Y1 & Y2).
  assert (B : val y + MODULUS <= R384) by (assert (MODULUS + MODULUS <= R384) by discriminate; lia).
  destruct (p_multiply_ok x y (canonical_six _ Hx) (canonical_six _ Hy) B) as (S & V).
  destruct (fp_mul_spec (val x) (val y)) as (C & k & E).
  { split; [apply Z.mul_nonneg_nonneg; auto|]. apply Z.mul_lt_mono_nonneg; auto. assert (MODULUS < R384) by reflexivity. lia. }
  destruct (canonical_of _ _ S V C) as (D & _). split; [exact D|]. rewrite V. rewrite Z.mul_comm. change (2 ^ 384) with R384. rewrite E.
  change modulus with MODULUS. rewrite Z.mul_comm with (n := MODULUS). apply Z_mod_plus_full.
Qed.
(** the doubled partial products of _square lose a carry: squaring disagrees with multiplying *)
Definition wsq : list Z := [2 ^ 64 - 2; 2 ^ 63 + 1; 0; 0; 0; 0].
Theorem C07_square_refuted : exists x, canonical x /\ p_square x <> p_multiply x x.
Proof.
  exists wsq. split; [apply canonicalb_ok; vm_compute; reflexivity|].
  vm_compute. discriminate.
Qed.
(** it is right unless one of ten doubled products of limbs, modulo 2^128, is within 3 * 2^64 of 2^128 *)
Definition no_top_product (x : list Z) : Prop :=
  forall i j, (i < j < 5)%nat -> (2 * (nth i x 0 * nth j x 0)) mod 2 ^ 128 < 2 ^ 128 - 3 * 2 ^ 64.
Theorem C07_square : forall x, canonical x -> no_top_product x -> p_square x = p_multiply x x.
Proof.
  intros x Hx F. pose proof (canonical_six _ Hx) as S. pose proof Hx as (L & H & B).
  destruct (p_square_ok x S F B) as ((L1 & H1) & V1).
  destruct (p_multiply_ok x x S S) as ((L2 & H2) & V2).
  { change modulus with MODULUS in B. assert (MODULUS + MODULUS <= R384) by discriminate. lia. }
  apply val_inj; auto; congruence.
Qed.
(** in particular when all limbs are below 2^63 *)
Theorem C07_square_small_limbs : forall x, canonical x -> Forall (fun l => l < 2 ^ 63) x ->
  p_square x = p_multiply x x.
Proof.
  intros x Hx F. apply C07_square; [exact Hx|]. destruct Hx as (L & H & _). intros i j Hij.
  assert (Q : forall k, (k < 5)%nat -> 0 <= nth k x 0 < 2 ^ 63).
  { intros k Hk. assert (I : In (nth k x 0) x) by (apply nth_In; lia). unfold words in H. rewrite Forall_forall in F, H.
    specialize (F _ I). specialize (H _ I). unfold word in H. lia. }
  pose proof (Q i ltac:(lia)). pose proof (Q j ltac:(lia)). rewrite Z.mod_small; nia.
Qed.
Example C07_example : canonical [2 ^ 64 - 1; 2 ^ 64 - 7; 0; 7; 2 ^ 63 + 5; 1] /\ no_top_product [2 ^ 64 - 1; 2 ^ 64 - 7; 0; 7; 2 ^ 63 + 5; 1].
Proof.
  split; [apply canonicalb_ok; vm_compute; reflexivity|]. intros i j Hij.
  do 5 (destruct i as [|i]; [do 5 (destruct j as [|j]; [try lia; vm_compute; reflexivity|]); lia|]). lia.
Qed.

(** * C14: any number of limbs N >= M >= 1, any contents; the divisor's top limb non-zero and below 2^63, which holds
    for both moduli used in the library *)
Theorem C14_division : forall a b, words a -> words b -> (1 <= length b <= length a)%nat -> 0 < limb b (length b - 1) < 2 ^ 63 ->
  exists q r, bn_divn_safe a b = Ok (q, r) /\ words q /\ words r /\ length q = length a /\ length r = length b /\
    val q = val a / val b /\ val r = val a mod val b.
Proof.
  intros a b Ha Hb L T. destruct (bn_divn_safe_ok a b Ha Hb L T) as (q & r & E & Hq & Hr & Lq & Lr & V & B).
  exists q, r. split; [exact E|]. split; [exact Hq|]. split; [exact Hr|]. split; [exact Lq|]. split; [exact Lr|]. exact (divn_mod a b q r Hr V B).
Qed.
Theorem C14_modPrime : forall k, words k -> (6 <= length k)%nat ->
  exists x, modPrime k = Ok x /\ canon x /\ dec x = Fof (val k).
Proof. exact modPrime_ok. Qed.
(** with a divisor whose top bit is set the write goes below the buffer *)
Theorem C14_large_divisor_refuted :
  ~ (forall a b, words a -> words b -> (1 <= length b <= length a)%nat -> 0 < limb b (length b - 1) -> exists q r, bn_divn_safe a b = Ok (q, r)).
Proof.
  intros H. destruct (H [1] [2 ^ 63]) as (q & r & E); [apply wordsb_ok; reflexivity|apply wordsb_ok; reflexivity|split; auto|reflexivity|].
  vm_compute in E. discriminate E.
Qed.
(** with the top bit set the shift by 63 makes the divisor one limb longer: the division is right when the shifted dividend has at
    least as many limbs, and otherwise writes below the buffer *)
Theorem C14_large_divisor : forall a b, words a -> words b -> (1 <= length b <= length a)%nat -> 2 ^ 63 <= limb b (length b - 1) ->
  ((length b < length a)%nat \/ 2 <= limb a (length a - 1) ->
   exists q r, bn_divn_safe a b = Ok (q, r) /\ words q /\ words r /\ length q = length a /\ length r = length b /\
     val q = val a / val b /\ val r = val a mod val b) /\
  (length b = length a -> limb a (length a - 1) < 2 -> bn_divn_safe a b = OutOfBounds).
Proof.
  intros a b Ha Hb L T. destruct (divn_big a b Ha Hb L T) as (P & N). split.
  - intros G. destruct (P G) as (q & r & E & Hq & Hr & Lq & Lr & V & B). exists q, r. split; [exact E|]. split; [exact Hq|]. split; [exact Hr|]. split; [exact Lq|]. split; [exact Lr|].
    exact (divn_mod a b q r Hr V B).
  - intros E U. apply N. intros [G|G]; lia.
Qed.
(** divisor 0: the condition of the first loop (scalar.cpp:272) holds in every round, so the loop never ends (no number of rounds is enough) *)
Theorem C14_zero_divisor : forall rounds a b digit, words a -> words b -> length a = length b -> val b = 0 -> div_top rounds a b digit = None.
Proof.
  intros n. induction n as [|n IH]; intros a b c Ha Hb L Z; [reflexivity|]. cbn [div_top].
  unfold bn_subn_low. destruct (subn_loop_ok a b 0 Ha Hb L ltac:(left; reflexivity)) as (l & cy & -> & Hl & Ll & _). cbn [fst].
  rewrite (IH l b _ Hl Hb) by congruence. rewrite dv_cmp_ok by auto. rewrite Z. pose proof (val_nonneg a Ha).
  destruct (Z.compare_spec (val a) 0); [reflexivity|lia|reflexivity].
Qed.
(** otherwise the loop ends after exactly floor(a / b) rounds (the last test included: floor(a / b) + 1 tests), which is not bounded by a constant
    unless the leading limbs of a and b are comparable *)
Theorem C14_first_loop : forall tests a b digit, words a -> words b -> length a = length b -> 0 < val b ->
  (div_top tests a b digit <> None <-> val a / val b < Z.of_nat tests).
Proof.
  intros n. induction n as [|n IH]; intros a b c Ha Hb L P.
  - split; [intros N; destruct (N eq_refl)|]. pose proof (Z.div_pos (val a) (val b) (val_nonneg a Ha) P). lia.
  - cbn [div_top]. rewrite dv_cmp_ok by auto. pose proof (val_nonneg a Ha) as A0.
    assert (STEP : val b <= val a -> (div_top n (fst (bn_subn_low a b)) b ((c + 1) mod W) <> None <-> val a / val b < Z.of_nat (S n))).
    { intros G. unfold bn_subn_low. destruct (subn_loop_ok a b 0 Ha Hb L ltac:(left; reflexivity)) as (l & cy & -> & Hl & Ll & Hcy & V). cbn [fst].
      pose proof (val_bound l Hl) as Bl. rewrite Ll in Bl. pose proof (val_bound a Ha).
      assert (cy = 0) by (destruct Hcy; subst cy; [reflexivity|lia]). subst cy.
      rewrite (IH l b _ Hl Hb) by (congruence || exact P).
      replace (val a) with (val l + 1 * val b) by lia. rewrite Z.div_add by lia. lia. }
    destruct (Z.compare_spec (val a) (val b)) as [E|E|E]; [apply STEP; lia| |apply STEP; lia].
    rewrite Z.div_small by lia. split; [lia|discriminate].
Qed.
(** a divisor with a zero top limb is still handled when the limb below has its top bit set (with a smaller limb there the loops of the
    code run as often as the quotient is large; the bounded loops of the model say nothing about that case) *)
Theorem C14_zero_top_limb : forall a b, words a -> words b -> (2 <= length b <= length a)%nat -> limb b (length b - 1) = 0 -> 2 ^ 63 <= limb b (length b - 2) ->
  exists q r, bn_divn_safe a b = Ok (q, r) /\ words q /\ words r /\ length q = length a /\ length r = length b /\
    val q = val a / val b /\ val r = val a mod val b.
Proof.
  intros a b Ha Hb L Z T. destruct (length b) as [|[|t]] eqn:Lb; [lia|lia|]. replace (S (S t) - 1)%nat with (S t) in Z by lia. replace (S (S t) - 2)%nat with t in T by lia.
  destruct (divn_zero_top a b t Ha Hb Lb ltac:(lia) Z T) as (q & r & E & Hq & Hr & Lq & Lr & V & B). rewrite Lb in Lr.
  exists q, r. split; [exact E|]. split; [exact Hq|]. split; [exact Hr|]. split; [exact Lq|]. split; [exact Lr|]. exact (divn_mod a b q r Hr V B).
Qed.
Example C14_loop_nontrivial : val [7; 0; 0] / val [2; 0; 0] = 3 /\ div_top 3 [7; 0; 0] [2; 0; 0] 0 = None /\ div_top 4 [7; 0; 0] [2; 0; 0] 0 = Some ([1; 0; 0], 3) /\
  val [0; 1] / val [2; 0] = 2 ^ 63 /\ div_top 9 [7; 1] [0; 0] 0 = None.
Proof. vm_compute. repeat split. Qed.
Example C14_large_nontrivial :
  bn_divn_safe [5; 2; 1] [3; 2 ^ 64 - 1] = Ok ([1; 0; 0], [2; 3]) /\ bn_divn_safe [5; 2 ^ 64 - 1] [3; 2 ^ 63] = Ok ([1; 0], [2; 2 ^ 63 - 1]) /\
  bn_divn_safe [5; 2] [3; 2 ^ 63] = Ok ([0; 0], [5; 2]) /\ bn_divn_safe [5; 1] [3; 2 ^ 63] = OutOfBounds /\
  bn_divn_safe [5; 7; 9] [2 ^ 63; 0] = Ok ([14; 18; 0], [5; 0]).
Proof. split; [vm_compute; reflexivity|]. split; [vm_compute; reflexivity|]. split; [vm_compute; reflexivity|]. split; vm_compute; reflexivity. Qed.
Example C14_examples :
  words [0; 0; 2 ^ 61] /\ words [2 ^ 64 - 1; 2 ^ 61] /\
  bn_divn_safe [0; 0; 2 ^ 61] [2 ^ 64 - 1; 2 ^ 61] = Ok ([2 ^ 64 - 8; 0; 0], [2 ^ 64 - 8; 8]) /\
  bn_divn_safe [3; 0; 2 ^ 63] [1; 0; 2 ^ 61] = Ok ([3; 0; 0], [0; 0; 2 ^ 61]).
Proof. split; [apply wordsb_ok; reflexivity|]. split; [apply wordsb_ok; reflexivity|]. split; vm_compute; reflexivity. Qed.

(** * C15 *)
(** at limb i no carry of the lower limbs meets an all-ones limb of b *)
Definition sum_lossless (n : nat) (a b : list Z) : Prop := forall i, (i < n)%nat -> nth i b 0 = 2 ^ 64 - 1 -> ~ carry_arrives a b i.
Lemma sum_lossless_safe n a b : sum_lossless n a b <-> carry_safe n a b 0.
Proof. unfold sum_lossless, carry_safe, carry_arrives, limb. change (2 ^ 64 - 1) with (W - 1). split; intros H i Hi E; specialize (H i Hi E); lia. Qed.
Theorem C15_add_exact : forall NC a b, words a -> words b -> (Nat.max (length b) (length a) <= NC)%nat ->
  sum_lossless (Nat.max (length b) (length a)) a b -> val a + val b < 2 ^ (64 * Z.of_nat (Nat.max (length b) (length a))) ->
  exists c, scalar_add NC a b = Ok c /\ words c /\ length c = NC /\ val c = val a + val b.
Proof.
  intros NC a b Ha Hb L S B. apply scalar_add_exact; auto; [apply sum_lossless_safe; auto|].
  change W with (2 ^ 64). rewrite <- Z.pow_mul_r by lia. exact B.
Qed.
(** a sum that needs one limb more: thrown, or (when the result has two spare limbs) the carry lands one limb too high *)
Theorem C15_add_overflow : forall NC a b, words a -> words b -> (Nat.max (length b) (length a) <= NC)%nat ->
  sum_lossless (Nat.max (length b) (length a)) a b -> W ^ Z.of_nat (Nat.max (length b) (length a)) <= val a + val b ->
  scalar_add NC a b = Throw \/
  (exists c, scalar_add NC a b = Ok c /\ (Nat.max (length b) (length a) + 2 <= NC)%nat /\
     val c = val a + val b + (W - 1) * W ^ Z.of_nat (Nat.max (length b) (length a))).
Proof.
  intros NC a b Ha Hb L Sl B. pose proof (scalar_add_overflow NC a b Ha Hb L (proj1 (sum_lossless_safe _ _ _) Sl) B) as H.
  destruct (Nat.leb_spec NC (Nat.max (length b) (length a) + 1)); [left; exact H|right].
  destruct H as (c & E & _ & _ & V). exists c. split; [exact E|]. split; [lia|]. rewrite V.
  replace (Nat.max (length b) (length a) + 1)%nat with (S (Nat.max (length b) (length a))) by lia. rewrite pow_S. ring.
Qed.
Theorem C15_add_iff : forall NC a b, words a -> words b -> (Nat.max (length b) (length a) <= NC)%nat ->
  ((exists c, scalar_add NC a b = Ok c /\ val c = val a + val b) <->
   sum_lossless (Nat.max (length b) (length a)) a b /\ val a + val b < 2 ^ (64 * Z.of_nat (Nat.max (length b) (length a)))).
Proof.
  intros NC a b Ha Hb L. split; [|intros (S & B); destruct (C15_add_exact NC a b Ha Hb L S B) as (c & E & _ & _ & V); exists c; auto].
  intros (c & E & V). rewrite sum_lossless_safe. rewrite Z.pow_mul_r by lia. change (2 ^ 64) with W.
  assert (BN : val a + val b < 2 * W ^ Z.of_nat (Nat.max (length b) (length a))).
  { pose proof (val_bound a Ha) as B1. pose proof (val_bound b Hb) as B2.
    assert (W ^ Z.of_nat (length a) <= W ^ Z.of_nat (Nat.max (length b) (length a))) by (apply Z.pow_le_mono_r; [reflexivity|lia]).
    assert (W ^ Z.of_nat (length b) <= W ^ Z.of_nat (Nat.max (length b) (length a))) by (apply Z.pow_le_mono_r; [reflexivity|lia]). lia. }
  destruct (scalar_add_gen NC a b Ha Hb L) as (z & k & d & Hz & Lz & Hk & Hd & V' & I & E'). rewrite E in E'.
  set (N := Nat.max (length b) (length a)) in *. pose proof (val_bound z Hz) as Bz. rewrite Lz in Bz. destruct Hk as [-> | ->]; cbn [Z.eqb] in E'.
  - injection E' as ->. rewrite val_pad in V. assert (WP : 0 < W) by reflexivity. assert (D : d = 0) by (clear - V V' WP; nia). split; [apply I, D|lia].
  - exfalso. destruct (Nat.leb_spec NC (N + 1)) as [|G]; [discriminate E'|]. injection E' as ->.
    rewrite <- Lz in V at 2. rewrite set_nth_app0 in V by lia. rewrite Lz in V. replace (N + 1)%nat with (S N) in V by lia. rewrite pow_S in V.
    assert (WP : 4 <= W) by discriminate. clear - V WP BN Bz. nia.
Qed.
Theorem C15_add_too_short : forall NC a b, (NC < Nat.max (length b) (length a))%nat -> scalar_add NC a b = Throw.
Proof. intros NC a b. apply scalar_add_short. Qed.
Theorem C15_add_refuted : exists a b c, words a /\ words b /\ val a + val b < 2 ^ 256 /\
  length a = 4%nat /\ length b = 4%nat /\ scalar_add 4 a b = Ok c /\ val c <> val a + val b.
Proof.
  exists [1; 0; 0; 0], [2 ^ 64 - 1; 2 ^ 64 - 1; 0; 0], [0; 0; 0; 0].
  split; [apply wordsb_ok; reflexivity|]. split; [apply wordsb_ok; reflexivity|]. split; [reflexivity|].
  split; [reflexivity|]. split; [reflexivity|]. split; [vm_compute; reflexivity|]. vm_compute. discriminate.
Qed.
(** row i of the schoolbook product adds a * b_i * 2^(64 i) to a * (b mod 2^(64 i)) *)
Definition rows_lossless (NC : nat) (a b : list Z) : Prop := forall i, (i < length b)%nat ->
  sum_lossless NC (limbs_of NC (val a * val (firstn i b))) (limbs_of NC (val a * nth i b 0 * W ^ Z.of_nat i)).
Theorem C15_multiply : forall NC a b, words a -> words b -> (length a + length b <= NC)%nat ->
  exists c, scalar_multiply NC a b = Ok c /\ words c /\ length c = NC /\ val c <= val a * val b /\
    (rows_lossless NC a b -> val c = val a * val b).
Proof.
  intros NC a b Ha Hb L. destruct (scalar_multiply_ok NC a b Ha Hb L) as (c & E & Hc & Lc & B & X).
  exists c. repeat (split; [assumption|]). intros R. apply X. intros i Hi. apply sum_lossless_safe. exact (R i Hi).
Qed.
Lemma mul_loop_iff NC a b : words a -> words b -> (length a + length b <= NC)%nat -> forall n i c, (i + n = length b)%nat ->
  words c -> length c = NC -> 0 <= val c <= val a * val (firstn i b) ->
  forall c', mul_loop n i NC a b c = Ok c' -> val c' = val a * val b -> val c = val a * val (firstn i b) /\
    forall j, (i <= j < length b)%nat -> carry_safe NC (limbs_of NC (val a * val (firstn j b))) (limbs_of NC (val a * limb b j * W ^ Z.of_nat j)) 0.
Proof.
  intros Ha Hb LN n. induction n as [|n IH]; intros i c L Hc Lc B c' R V0.
  - cbn [mul_loop] in R. injection R as <-. rewrite firstn_all2 by lia. split; [exact V0|]. intros j Hj. lia.
  - cbn [mul_loop] in R.
    destruct (mul_row_ok a (limb b i) i Ha (limb_word b i Hb) (length a) 0 (repeat 0 NC)) as (buf & EB & Hbuf & Lbuf & V).
    + apply words_repeat0.
    + reflexivity.
    + rewrite repeat_length. lia.
    + intros k Hk. unfold limb. apply nth_repeat.
    + rewrite EB in R. rewrite repeat_length in Lbuf. rewrite val_repeat0 in V. cbn [firstn val] in V. rewrite Z.sub_0_r, Z.add_0_l in V.
      assert (F : val a * val (firstn (S i) b) = val a * val (firstn i b) + val buf).
      { rewrite (limb_firstn b i) by lia. rewrite val_app, firstn_length, Nat.min_l by lia. cbn [val]. rewrite V. ring. }
      assert (U : val a * val (firstn (S i) b) < W ^ Z.of_nat NC).
      { pose proof (val_bound a Ha). pose proof (val_bound (firstn (S i) b) (words_firstn _ _ Hb)) as B2.
        rewrite firstn_length, Nat.min_l in B2 by lia.
        assert (W ^ Z.of_nat (length a) * W ^ Z.of_nat (S i) <= W ^ Z.of_nat NC).
        { rewrite <- Z.pow_add_r by lia. apply Z.pow_le_mono_r; [reflexivity|lia]. }
        eapply Z.lt_le_trans; [|eassumption]. apply Z.mul_lt_mono_nonneg; lia. }
      pose proof (val_nonneg buf Hbuf).
      destruct (scalar_add_gen NC c buf Hc Hbuf) as (z & k & d & Hz & Lz & Hk & Hd & V' & I & EA); [lia|]. rewrite EA in R.
      rewrite Lc, Lbuf, Nat.max_id in *.
      pose proof (val_nonneg z Hz) as Hz0. pose proof (Wpow_pos NC). pose proof W_pos.
      assert (k = 0) by (destruct Hk; nia). subst k. cbn [Z.eqb] in R. rewrite Nat.sub_diag, app_nil_r in R.
      destruct (IH (S i) z ltac:(lia) Hz Lz ltac:(nia) c' R V0) as (Ez & SJ). rewrite F in Ez.
      assert (WD : 0 <= W * d) by (apply Z.mul_nonneg_nonneg; lia).
      assert (Ec : val c = val a * val (firstn i b)) by lia. assert (D : d = 0) by nia.
      split; [exact Ec|]. intros j Hj. destruct (Nat.eq_dec j i) as [->|]; [|apply SJ; lia].
      rewrite <- Ec, <- V. rewrite <- Lc at 2. rewrite <- Lbuf at 2. rewrite !limbs_of_of_val by auto. apply I, D.
Qed.
Theorem C15_multiply_iff : forall NC a b, words a -> words b -> (length a + length b <= NC)%nat ->
  exists c, scalar_multiply NC a b = Ok c /\ words c /\ length c = NC /\ val c <= val a * val b /\ (val c = val a * val b <-> rows_lossless NC a b).
Proof.
  intros NC a b Ha Hb L. destruct (C15_multiply NC a b Ha Hb L) as (c & E & Hc & Lc & B & X).
  exists c. repeat (split; [assumption|]). split; [|exact X]. intros V i Hi. apply sum_lossless_safe.
  refine (proj2 (mul_loop_iff NC a b Ha Hb L (length b) 0 (repeat 0 NC) eq_refl (words_repeat0 _) (repeat_length _ _) _ c E V) i (conj (Nat.le_0_l i) Hi)).
  rewrite val_repeat0. cbn [firstn val]. lia.
Qed.
Theorem C15_multiply_by_word : forall NC a x, words a -> word x -> (length a + 1 <= NC)%nat ->
  exists c, scalar_multiply NC a [x] = Ok c /\ length c = NC /\ val c = val a * x.
Proof.
  intros NC a x Ha Hx L. destruct (scalar_multiply_ok NC a [x] Ha ltac:(constructor; auto) L) as (c & E & Hc & Lc & B & X).
  exists c. repeat (split; [assumption|]). rewrite (X (rows_safe_one NC a x)). cbn [val]. ring.
Qed.
Theorem C15_multiply_refuted : exists a b c, words a /\ words b /\ length a = 2%nat /\ length b = 2%nat /\
  scalar_multiply 4 a b = Ok c /\ val c <> val a * val b.
Proof.
  exists [2 ^ 64 - 1; 2 ^ 64 - 1], [2 ^ 64 - 1; 1]. eexists. 
  split; [apply wordsb_ok; reflexivity|].
  split; [apply wordsb_ok; reflexivity|].
  split; [reflexivity|]. split; [reflexivity|]. split; [vm_compute; reflexivity|]. vm_compute. discriminate.
Qed.
(** an undersized result array is written out of bounds *)
Theorem C15_multiply_bounds_refuted : exists a b, words a /\ words b /\ scalar_multiply 1 a b = OutOfBounds.
Proof.
  exists [2; 3], [5]. split; [apply wordsb_ok; reflexivity|].
  split; [apply wordsb_ok; reflexivity|reflexivity].
Qed.
Example C15_examples :
  sum_lossless 2 [2 ^ 64 - 1; 5] [2; 7] /\ scalar_add 3 [2 ^ 64 - 1; 5] [2; 7] = Ok [1; 13; 0] /\
  scalar_add 2 [2 ^ 64 - 1] [1] = Throw /\ scalar_add 3 [2 ^ 64 - 1] [1] = Ok [0; 0; 1] /\
  rows_lossless 4 [2 ^ 64 - 1; 3] [7; 11] /\ scalar_multiply 4 [2 ^ 64 - 1; 3] [7; 11] = Ok [2 ^ 64 - 7; 16; 44; 0].
Proof.
  split. { intros i Hi E. destruct i as [|[|i]]; try discriminate E. lia. }
  split; [reflexivity|]. split; [reflexivity|]. split; [reflexivity|]. split; [|reflexivity].
  intros i Hi. cbn [length] in Hi. intros j Hj E.
  destruct i as [|[|i]]; [| |lia]; destruct j as [|[|[|[|j]]]]; try lia; vm_compute in E; discriminate E.
Qed.

(** * C16 *)
Theorem C16_bytes_round_trip : forall n b, bytes b -> length b = (8 * n)%nat ->
  toBytesLE (fromBytesLE n b) = b /\ toBytesBE (fromBytesBE n b) = b.
Proof. intros n b Hb L. split; [apply toLE_fromLE; auto|apply toBE_fromBE; auto]. Qed.
Theorem C16_limbs_round_trip : forall s, words s ->
  fromBytesLE (length s) (toBytesLE s) = s /\ fromBytesBE (length s) (toBytesBE s) = s /\ toBytesBE s = rev (toBytesLE s).
Proof. intros s H. split; [apply fromLE_toLE; auto|]. split; [apply fromBE_toBE; auto|apply toBytesBE_rev; auto]. Qed.
Theorem C16_bytes_value : forall s, words s ->
  toBytesLE s = int_le (8 * length s) (val s) /\ toBytesBE s = int_be (8 * length s) (val s).
Proof. intros s H. split; [apply toBytesLE_ok; auto|apply toBytesBE_ok; auto]. Qed.
Theorem C16_limbs_value : forall n b, bytes b -> length b = (8 * n)%nat ->
  val (fromBytesLE n b) = le_int b /\ val (fromBytesBE n b) = be_int b.
Proof. intros n b Hb L. split; [apply fromBytesLE_ok; auto|apply fromBytesBE_ok; auto]. Qed.
Theorem C16_cmp_equal : forall a b, words a -> words b -> length a = length b ->
  scalar_cmp a b = (val a ?= val b) /\ scalar_equal a b = (val a =? val b).
Proof. intros a b Ha Hb L. split; [apply scalar_cmp_ok; auto|apply scalar_equal_ok; auto]. Qed.
(** the least k with val s < 2^k *)
Theorem C16_bitLength : forall s, words s ->
  0 <= bitLength s /\ forall k, 0 <= k -> (val s < 2 ^ k <-> bitLength s <= k).
Proof.
  intros s H. destruct (bitLength_bound s H) as (B0 & B1). split; [auto|]. pose proof (val_nonneg s H) as V.
  intros k Hk. split.
  - intros L. rewrite (bitLength_ok s H). destruct (Z.eqb_spec (val s) 0); [lia|]. 
    apply Z.log2_lt_pow2 in L; lia.
  - intros L. eapply Z.lt_le_trans; [exact B1|]. apply Z.pow_le_mono_r; lia.
Qed.
Theorem C16_bit : forall s i, words s -> sbit s i = Z.testbit (val s) (Z.of_nat i).
Proof. intros. apply sbit_ok; auto. Qed.
Theorem C16_rsh : forall s k, words s -> 0 <= k ->
  length (rsh s k) = length s /\ words (rsh s k) /\ val (rsh s k) = val s / 2 ^ k.
Proof. intros s k H Hk. destruct (rsh_ok s k H Hk) as (A & B & C). split; [exact B|]. split; [exact A|exact C]. Qed.
Example C16_examples :
  words [7; 2 ^ 63] /\ bitLength [7; 2 ^ 63] = 128 /\ rsh [7; 2 ^ 63] 65 = [2 ^ 62; 0] /\ rsh [7; 5] 1 = [2 ^ 63 + 3; 2] /\
  scalar_cmp [7; 2 ^ 63] [8; 5] = Gt /\ toBytesBE [258] = [0; 0; 0; 0; 0; 0; 1; 2] /\ fromBytesLE 1 [2; 1; 0; 0; 0; 0; 0; 0] = [258].
Proof. split; [apply wordsb_ok; reflexivity|]. vm_compute. repeat split. Qed.

(** * C17: [hex_of s b]: s is a hexadecimal spelling of b, two digits per byte, either case *)
Theorem C17_round_trip : forall b, bytes b -> hexToBytes (bytesToHex b) = Ok b.
Proof. intros b H. destruct (bytesToHex_ok b H) as (s & -> & E). apply hexToBytes_prefixed; auto. Qed.
Theorem C17_output_is_hex : forall b, bytes b -> exists s, bytesToHex b = 48 :: 120 :: s /\ hex_of s b.
Proof. exact bytesToHex_ok. Qed.
Theorem C17_decode_prefixed : forall s b, hex_of s b -> hexToBytes (48 :: 120 :: s) = Ok b.
Proof. exact hexToBytes_prefixed. Qed.
Theorem C17_decode_plain : forall s b, hex_of s b -> b <> [] -> hexToBytes s = Ok b.
Proof. exact hexToBytes_plain. Qed.
(** the empty string and "0" are read past the end *)
Theorem C17_empty_string_refuted : ~ (forall s, exists b, hexToBytes s = Ok b).
Proof. intros H. destruct (H []) as [b E]. discriminate E. Qed.
(** "aB09" *)
Example C17_example : hex_of [97; 66; 48; 57] [171; 9] /\ hexToBytes [97; 66; 48; 57] = Ok [171; 9].
Proof.
  split; [|reflexivity].
  constructor; [right; vm_compute; split; [split; discriminate|left; reflexivity]|right; vm_compute; split; [split; discriminate|right; reflexivity]|lia|].
  constructor; [left; vm_compute; split; [split; discriminate|reflexivity]|left; vm_compute; split; [split; discriminate|reflexivity]|lia|constructor].
Qed.

Definition props_scalar := (C05_add64, C05_sub64, C05_mul64, C05_documented_contract_refuted, C06_add, C06_double, C06_subtract, C06_negate, C06_unreduced_iff, C06_add_iff, C06_double_iff, C06_subtract_iff, C06_negate_iff, C06_no_all_ones_limb, C06_add_refuted, C06_double_refuted, C06_subtract_refuted, C06_negate_refuted, C07_multiply, C07_multiply_montgomery, C07_square_refuted, C07_square, C07_square_small_limbs, C14_division, C14_modPrime, C14_large_divisor_refuted, C14_large_divisor, C14_zero_divisor, C14_first_loop, C14_zero_top_limb, C15_add_exact, C15_add_overflow, C15_add_iff, C15_add_too_short, C15_add_refuted, C15_multiply, C15_multiply_iff, C15_multiply_by_word, C15_multiply_refuted, C15_multiply_bounds_refuted, C16_bytes_round_trip, C16_limbs_round_trip, C16_bytes_value, C16_limbs_value, C16_cmp_equal, C16_bitLength, C16_bit, C16_rsh, C17_round_trip, C17_output_is_hex, C17_decode_prefixed, C17_decode_plain, C17_empty_string_refuted).
Print Assumptions props_scalar.
