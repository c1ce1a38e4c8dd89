(** Property C76: the x86-64 field routines on operands that need not be below p: exactly when the stored integer is congruent to
    the result modulo p, and exactly when it is the canonical representative.  [congr a b]: a and b agree modulo p. *)
From Coq Require Import ZArith List Lia.
From Verif Require Import ModelWord ModelPrim SpecField X86 AsmCode AsmProof1 AsmSpec Properties_Asm FpProof WideProof.
Import ListNotations.
Local Open Scope Z_scope.

Theorem C76_add : forall s, args2 s 5 -> let x := fp_at (mem s) (rsi s) in let y := fp_at (mem s) (rdx s) in
  exists z, stores asm_add s 5 z /\ (congr z (x + y) <-> x + y < 2 ^ 384) /\ (0 <= z < modulus <-> (x + y) mod 2 ^ 384 < 2 * modulus).
Proof.
  intros s (W1 & W2 & O1 & O2 & O3) x y. exists (fp_add x y). split; [exact (asm_add_ok s W1 W2 O1 O2 O3)|].
  exact (wide_add x y (words_at_range _ _ W1) (words_at_range _ _ W2)).
Qed.
Theorem C76_double : forall s, args1 s 5 -> let x := fp_at (mem s) (rsi s) in
  exists z, stores asm_double s 5 z /\ (congr z (2 * x) <-> 2 * x < 2 ^ 384) /\ (0 <= z < modulus <-> (2 * x) mod 2 ^ 384 < 2 * modulus).
Proof.
  intros s (W1 & O1 & O2) x. exists (fp_double x). split; [exact (asm_double_ok s W1 O1 O2)|].
  rewrite fp_double_add, <- Z.add_diag. exact (wide_add x x (words_at_range _ _ W1) (words_at_range _ _ W1)).
Qed.
Theorem C76_subtract : forall s, args2 s 5 -> let x := fp_at (mem s) (rsi s) in let y := fp_at (mem s) (rdx s) in
  exists z, stores asm_subtract s 5 z /\ (congr z (x - y) <-> y - x <= modulus) /\ (0 <= z < modulus <-> - modulus <= x - y < modulus).
Proof.
  intros s (W1 & W2 & O1 & O2 & O3) x y. exists (fp_sub x y). split; [exact (asm_subtract_ok s W1 W2 O1 O2 O3)|].
  exact (wide_sub x y (words_at_range _ _ W1) (words_at_range _ _ W2)).
Qed.
(** The operand 0, for which p itself would be stored, is treated by the caller (arithmetic.cpp:119-128). *)
Theorem C76_negate : forall s, words_at (mem s) (rsi s) -> let x := fp_at (mem s) (rsi s) in
  exists z, stores asm_negate s 0 z /\ (congr z (- x) <-> x <= modulus) /\ (0 <= z < modulus <-> 0 < x <= modulus).
Proof.
  intros s W1 x. exists (fp_rawneg x). split; [exact (asm_negate_ok s W1)|]. exact (wide_neg x (words_at_range _ _ W1)).
Qed.
(** The multipliers add to x*y the multiple m*p that makes it divisible by 2^384; the quotient t must fit in six limbs. *)
Theorem C76_multiply : forall code s m t, is_multiplier code -> args2 s 17 ->
  let x := fp_at (mem s) (rsi s) in let y := fp_at (mem s) (rdx s) in
  0 <= m < 2 ^ 384 -> t * 2 ^ 384 = x * y + m * modulus ->
  exists z, stores code s 17 z /\ (congr (z * 2 ^ 384) (x * y) <-> t < 2 ^ 384) /\ (0 <= z < modulus <-> t mod 2 ^ 384 < 2 * modulus).
Proof.
  intros code s m t C A x y Hm E. exists (fp_mul x y). split; [exact (multiplier_ok code s C A)|].
  destruct A as (W1 & W2 & _). exact (wide_mul x y (words_at_range _ _ W1) (words_at_range _ _ W2) m t Hm E).
Qed.
Theorem C76_multiply_exists : forall x y, exists m t, 0 <= m < 2 ^ 384 /\ t * 2 ^ 384 = x * y + m * modulus.
Proof.
  intros x y. destruct (mont_exact (x * y)) as (q & v & Hq & _ & E). exists q, v. split; [exact Hq|]. rewrite Z.mul_comm. exact E.
Qed.
(** Every product below 2^384 * (2^384 - p) is right, and "around 4p" (C04) is 3p for a canonical result. *)
Theorem C76_multiply_range : forall code s, is_multiplier code -> args2 s 17 ->
  let x := fp_at (mem s) (rsi s) in let y := fp_at (mem s) (rdx s) in
  x * y <= 2 ^ 384 * (2 ^ 384 - modulus) -> exists z, stores code s 17 z /\ congr (z * 2 ^ 384) (x * y).
Proof.
  intros code s C A x y L. destruct (C76_multiply_exists x y) as (m & t & Hm & E).
  destruct (C76_multiply code s m t C A Hm E) as (z & S & (_ & K) & _). exists z. split; [exact S|]. apply K.
  assert (P : 0 < modulus) by reflexivity. assert (PR : 0 < 2 ^ 384) by reflexivity. fold x y in E. clear -L Hm E P PR.
  assert (m * modulus < 2 ^ 384 * modulus) by (apply Z.mul_lt_mono_pos_r; lia).
  apply Z.mul_lt_mono_pos_r with (2 ^ 384); [exact PR|]. rewrite E. lia.
Qed.
Theorem C76_multiply_3p : forall code s, is_multiplier code -> args2 s 17 ->
  let x := fp_at (mem s) (rsi s) in let y := fp_at (mem s) (rdx s) in
  x <= 3 * modulus -> y <= 3 * modulus -> exists z, stores code s 17 z /\ 0 <= z < modulus /\ congr (z * 2 ^ 384) (x * y).
Proof.
  intros code s C A x y Hx Hy. apply (C02_multiply code s C A). destruct A as (W1 & W2 & _).
  pose proof (words_at_range _ _ W1) as B1. pose proof (words_at_range _ _ W2) as B2. fold x in B1 |- *. fold y in B2 |- *.
  apply Z.le_lt_trans with (3 * modulus * (3 * modulus)); [apply Z.mul_le_mono_nonneg; lia|reflexivity].
Qed.
(** The carry is lost for the largest operands. *)
Theorem C76_multiply_refuted : exists s z, args2 s 17 /\ stores asm_multiply s 17 z /\
  ~ congr (z * 2 ^ 384) (fp_at (mem s) (rsi s) * fp_at (mem s) (rdx s)).
Proof.
  assert (A : args2 (ex_state 3000 (2 ^ 384 - 1) (2 ^ 384 - 1)) 17) by (apply ex_args; lia).
  exists (ex_state 3000 (2 ^ 384 - 1) (2 ^ 384 - 1)). eexists. split; [exact A|].
  split; [exact (multiplier_ok _ _ (ex_intro _ true (ex_intro _ true eq_refl)) A)|].
  unfold congr. vm_compute. discriminate.
Qed.

(** arithmetic.hpp:26-29: "at most ONE _ladd/_lsubstract/_ldouble is allowed before passing the result to _multiply".  This holds
    for _ladd (and _ldouble): sums of two canonical operands may be multiplied. *)
Theorem C76_ladd_multiply : forall code s a b c d, is_multiplier code -> args2 s 17 ->
  0 <= a < modulus -> 0 <= b < modulus -> 0 <= c < modulus -> 0 <= d < modulus ->
  fp_at (mem s) (rsi s) = (a + b) mod 2 ^ 384 -> fp_at (mem s) (rdx s) = (c + d) mod 2 ^ 384 ->
  exists z, stores code s 17 z /\ 0 <= z < modulus /\ congr (z * 2 ^ 384) ((a + b) * (c + d)).
Proof.
  intros code s a b c d C A Ha Hb Hc Hd E1 E2. pose proof M9 as N. rewrite Z.mod_small in E1, E2 by lia.
  rewrite <- E1, <- E2. apply C76_multiply_3p; [exact C|exact A|lia|lia].
Qed.
(** It does not hold for _lsubtract: if the difference of canonical operands is negative and the other factor is not 0, the product is
    always wrong. *)
Theorem C76_lsubtract_multiply : forall code s a b c, is_multiplier code -> args2 s 17 ->
  0 <= a < modulus -> 0 <= b < modulus -> 0 <= c < modulus ->
  fp_at (mem s) (rsi s) = (a - b) mod 2 ^ 384 -> fp_at (mem s) (rdx s) = c ->
  exists z, stores code s 17 z /\ 0 <= z < modulus /\ (congr (z * 2 ^ 384) ((a - b) * c) <-> b <= a \/ c = 0).
Proof.
  intros code s a b c C A Ha Hb Hc E1 E2. pose proof M9 as N.
  assert (D : 0 <= (a - b) mod 2 ^ 384 < 2 ^ 384) by (apply Z.mod_pos_bound; reflexivity).
  destruct (C02_multiply code s C A) as (z & S & Bz & K).
  { rewrite E1, E2, (Z.mul_comm modulus). apply Z.mul_lt_mono_nonneg; lia. }
  exists z. split; [exact S|]. split; [exact Bz|]. rewrite E1, E2 in K. unfold congr. rewrite K.
  destruct (Z.le_gt_cases b a) as [L|L].
  - rewrite (Z.mod_small (a - b) (2 ^ 384)) by lia. split; [intros _; left; exact L|reflexivity].
  - assert (E : (a - b) mod 2 ^ 384 = a - b + 2 ^ 384) by (symmetry; apply Z.mod_unique_pos with (-1); lia). rewrite E.
    split; [|intros [H|H]; [lia|rewrite H, !Z.mul_0_r; reflexivity]]. intros H. right. exact (wide_lsub (a - b) c Hc H).
Qed.
Theorem C76_unreduced : forall s,
  (words_at (mem s) (rsi s) -> words_at (mem s) (rdx s) ->
     stores asm_ladd s 0 ((fp_at (mem s) (rsi s) + fp_at (mem s) (rdx s)) mod 2 ^ 384) /\
     stores asm_lsubtract s 0 ((fp_at (mem s) (rsi s) - fp_at (mem s) (rdx s)) mod 2 ^ 384)) /\
  (words_at (mem s) (rsi s) -> stores asm_ldouble s 0 ((2 * fp_at (mem s) (rsi s)) mod 2 ^ 384)).
Proof.
  intros s. split; [intros W1 W2; split|intros W1].
  - exact (asm_ladd_ok s W1 W2).
  - exact (asm_lsubtract_ok s W1 W2).
  - rewrite <- Z.add_diag. exact (asm_ldouble_ok s W1).
Qed.

(** x = 2^384 - 1, y = 1: the sum is 2^384, stored as 0, which is wrong though canonical; 1 - (p + 2) is wrong, 1 - (p + 1) right;
    the opposite of p is 0, that of 0 would be p. *)
Example C76_example :
  args2 (ex_state 1000 (2 ^ 384 - 1) 1) 5 /\
  ex_result asm_add 1000 (2 ^ 384 - 1) 1 = Some 0 /\
  ex_result asm_add 1000 (modulus + 5) (modulus + 6) = Some (modulus + 11) /\
  ex_result asm_subtract 1000 1 (modulus + 2) = Some (2 ^ 384 - 1) /\
  ex_result asm_subtract 1000 1 (modulus + 1) = Some 0 /\
  ex_result asm_negate 1000 modulus 0 = Some 0 /\ ex_result asm_negate 1000 0 0 = Some modulus /\
  ex_result asm_lsubtract 1000 1 2 = Some (2 ^ 384 - 1).
Proof. split; [apply ex_args; lia|]. vm_compute. repeat split. Qed.

Definition props_wide := (C76_add, C76_double, C76_subtract, C76_negate, C76_multiply, C76_multiply_exists, C76_multiply_range, C76_multiply_3p, C76_multiply_refuted, C76_ladd_multiply, C76_lsubtract_multiply, C76_unreduced).
Print Assumptions props_wide.
