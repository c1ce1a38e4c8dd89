(** Properties C01-C04: the x86-64 field arithmetic.
    [run] interprets the instruction list (X86.v), the lists are src/arithmetic.s (AsmCode.v);
    [args2]/[args1]/[stores] are in AsmSpec.v. *)
From Coq Require Import ZArith List Lia.
From Verif Require Import ModelWord ModelPrim SpecField ScalarProof X86 AsmCode AsmSpec.
Import ListNotations.
Local Open Scope Z_scope.

(** C01: for canonical operands the stored result is the canonical sum, double, difference, opposite.
    Nothing is assumed about how the objects at rdi, rsi, rdx overlap each other. *)
Theorem C01_add : forall s, args2 s 5 ->
  fp_at (mem s) (rsi s) < modulus -> fp_at (mem s) (rdx s) < modulus ->
  stores asm_add s 5 ((fp_at (mem s) (rsi s) + fp_at (mem s) (rdx s)) mod modulus).
Proof. exact asm_add_mod. Qed.
Print Assumptions C01_add.
Theorem C01_double : forall s, args1 s 5 -> fp_at (mem s) (rsi s) < modulus ->
  stores asm_double s 5 ((2 * fp_at (mem s) (rsi s)) mod modulus).
Proof. exact asm_double_mod. Qed.
Print Assumptions C01_double.
Theorem C01_subtract : forall s, args2 s 5 ->
  fp_at (mem s) (rsi s) < modulus -> fp_at (mem s) (rdx s) < modulus ->
  stores asm_subtract s 5 ((fp_at (mem s) (rsi s) - fp_at (mem s) (rdx s)) mod modulus).
Proof. exact asm_subtract_mod. Qed.
Print Assumptions C01_subtract.
Theorem C01_negate : forall s, words_at (mem s) (rsi s) -> 0 < fp_at (mem s) (rsi s) < modulus ->
  stores asm_negate s 0 ((- fp_at (mem s) (rsi s)) mod modulus).
Proof. exact asm_negate_mod. Qed.
Print Assumptions C01_negate.

(** A state for the examples: x at 1000, y at 2000, z at [zp], stack pointer 9000, garbage elsewhere. *)
Definition ex_state (zp x y : Z) : state :=
  mkst 11 12 13 2000 1000 zp 14 9000 15 16 17 18 19 20 21 22 None None
    (fun a => if (1000 <=? a) && (a <? 1048) then nth (Z.to_nat ((a - 1000) / 8)) (limbs_of 6 x) 0
              else if (2000 <=? a) && (a <? 2048) then nth (Z.to_nat ((a - 2000) / 8)) (limbs_of 6 y) 0
              else 77)%bool.
Definition ex_result (code : list instr) (zp x y : Z) : option Z :=
  match run code (ex_state zp x y) with Some s' => Some (fp_at (mem s') zp) | None => None end.
Lemma ex_args zp x y n : zp + 48 <= 9000 - 8 * n -> 0 <= n <= 100 -> args2 (ex_state zp x y) n.
Proof.
  intros H N. unfold args2, words_at, off_stack.
  change (limbs_at (mem (ex_state zp x y)) (rsi (ex_state zp x y))) with (limbs_of 6 x).
  change (limbs_at (mem (ex_state zp x y)) (rdx (ex_state zp x y))) with (limbs_of 6 y).
  cbn [rdi rsi rdx rsp ex_state]. split; [apply limbs_of_words|]. split; [apply limbs_of_words|]. lia.
Qed.
(** hypotheses met with x = p-1, y = p-2 and result overwriting x; the run gives p-3 *)
Example C01_example :
  args2 (ex_state 1000 (modulus - 1) (modulus - 2)) 5 /\
  fp_at (mem (ex_state 1000 (modulus - 1) (modulus - 2))) 1000 = modulus - 1 /\
  ex_result asm_add 1000 (modulus - 1) (modulus - 2) = Some (modulus - 3) /\
  ex_result asm_subtract 1000 5 7 = Some (modulus - 2) /\
  ex_result asm_double 1000 (modulus - 1) 0 = Some (modulus - 2) /\
  ex_result asm_negate 1000 1 0 = Some (modulus - 1).
Proof.
  split; [|vm_compute; repeat split].
  apply ex_args; lia.
Qed.

(** C02: Montgomery product, for whichever multiplier is selected, for all operands with x*y < p*2^384. *)
Theorem C02_multiply : forall code s, is_multiplier code -> args2 s 17 ->
  fp_at (mem s) (rsi s) * fp_at (mem s) (rdx s) < modulus * 2 ^ 384 ->
  exists z, stores code s 17 z /\ 0 <= z < modulus /\
    (z * 2 ^ 384) mod modulus = (fp_at (mem s) (rsi s) * fp_at (mem s) (rdx s)) mod modulus.
Proof. exact multiplier_mont. Qed.
Print Assumptions C02_multiply.
(** with x = y = 2^384 - 1 and 3 (one factor not even below p) the range is still met *)
Example C02_example :
  is_multiplier asm_mul_ex /\ is_multiplier asm_multiply /\
  args2 (ex_state 2000 (2 ^ 384 - 1) 3) 17 /\
  fp_at (mem (ex_state 2000 (2 ^ 384 - 1) 3)) 1000 * fp_at (mem (ex_state 2000 (2 ^ 384 - 1) 3)) 2000 < modulus * 2 ^ 384 /\
  ex_result asm_multiply 2000 (2 ^ 384 - 1) 3 = ex_result asm_mul_ex 2000 (2 ^ 384 - 1) 3 /\
  ex_result asm_mul_ex 2000 R1 R1 = Some R1.
Proof.
  split; [exists false, true; reflexivity|]. split; [exists true, true; reflexivity|].
  split; [|vm_compute; repeat split].
  apply ex_args; lia.
Qed.

(** C03: both multipliers store the same integer, for all operands whatsoever (no range condition). *)
Theorem C03_same_product : forall code1 code2 s, is_multiplier code1 -> is_multiplier code2 -> args2 s 17 ->
  exists z, stores code1 s 17 z /\ stores code2 s 17 z.
Proof. intros. eexists. split; apply multiplier_ok; assumption. Qed.
Print Assumptions C03_same_product.
(** the largest operands, far outside the range of C02, overlapping: both routines store the same integer over y *)
Example C03_example : args2 (ex_state 2000 (2 ^ 384 - 1) (2 ^ 384 - 1)) 17 /\
  exists z, ex_result asm_multiply 2000 (2 ^ 384 - 1) (2 ^ 384 - 1) = Some z /\ ex_result asm_mul_ex 2000 (2 ^ 384 - 1) (2 ^ 384 - 1) = Some z.
Proof. split; [apply ex_args; lia|]. eexists. split; vm_compute; reflexivity. Qed.

(** C04: operands below 4p give a congruent result below 2p ... *)
Theorem C04_below_4p : forall code s, is_multiplier code -> args2 s 17 ->
  fp_at (mem s) (rsi s) < 4 * modulus -> fp_at (mem s) (rdx s) < 4 * modulus ->
  exists z, stores code s 17 z /\ 0 <= z < 2 * modulus /\
    (z * 2 ^ 384) mod modulus = (fp_at (mem s) (rsi s) * fp_at (mem s) (rdx s)) mod modulus.
Proof.
  intros code s C A Hx Hy. eexists. split; [apply multiplier_ok; assumption|].
  destruct A as (W1 & W2 & _). apply fp_mul_4p; split; auto; apply words_at_range; assumption.
Qed.
Print Assumptions C04_below_4p.
(** x = y = 4p - 2 meets the hypotheses; the stored value is between p and 2p *)
Example C04_example : args2 (ex_state 3000 (4 * modulus - 2) (4 * modulus - 2)) 17 /\
  fp_at (mem (ex_state 3000 (4 * modulus - 2) (4 * modulus - 2))) 1000 = 4 * modulus - 2 /\
  exists z, ex_result asm_multiply 3000 (4 * modulus - 2) (4 * modulus - 2) = Some z /\ modulus <= z < 2 * modulus.
Proof.
  split; [apply ex_args; lia|]. split; [vm_compute; reflexivity|]. eexists. split; [vm_compute; reflexivity|].
  split; [intros H; vm_compute in H; discriminate H|vm_compute; reflexivity].
Qed.
(** ... which is not always canonical: the header's "works fine ... smaller than around 4p" is too strong. *)
Theorem C04_canonical_below_4p_refuted :
  ~ (forall code s z, is_multiplier code -> args2 s 17 ->
       fp_at (mem s) (rsi s) < 4 * modulus -> fp_at (mem s) (rdx s) < 4 * modulus ->
       stores code s 17 z -> z < modulus).
Proof.
  intros H.
  assert (A : args2 (ex_state 3000 (4 * modulus - 2) (4 * modulus - 2)) 17).
  { apply ex_args; lia. }
  specialize (H asm_multiply _ _ (ex_intro _ true (ex_intro _ true eq_refl)) A
    ltac:(vm_compute; reflexivity) ltac:(vm_compute; reflexivity)
    (multiplier_ok _ _ (ex_intro _ true (ex_intro _ true eq_refl)) A)).
  vm_compute in H. discriminate H.
Qed.
Print Assumptions C04_canonical_below_4p_refuted.
