(** From the interpreted assembly to statements about integers modulo p (used by Properties_Asm.v). *)
From Coq Require Import ZArith List Lia.
From Verif Require Import ModelWord ModelPrim SpecField X86 AsmCode AsmTac AsmProof1 AsmProof3 AsmProof4 FpProof.
Import ListNotations.
Local Open Scope Z_scope.

(** Pointer arguments: rdi = z, rsi = x, rdx = y (System V). The objects may overlap each other in any way. *)
Definition args2 (s : state) (n : Z) : Prop :=
  words_at (mem s) (rsi s) /\ words_at (mem s) (rdx s) /\
  off_stack (rdi s) (rsp s) n /\ off_stack (rsi s) (rsp s) n /\ off_stack (rdx s) (rsp s) n.
Definition args1 (s : state) (n : Z) : Prop :=
  words_at (mem s) (rsi s) /\ off_stack (rdi s) (rsp s) n /\ off_stack (rsi s) (rsp s) n.
(** The run succeeds, stores the six limbs of [v] at rdi, keeps the callee-saved registers and the stack
    pointer, and writes nothing but the result and [n] stack words below the stack pointer. *)
Definition stores (code : list instr) (s : state) (n : Z) (v : Z) : Prop :=
  exists s', run code s = Some s' /\ fp_at (mem s') (rdi s) = v /\ words_at (mem s') (rdi s) /\
             callee_saved_kept s s' /\ only_changes s s' (rdi s) n.

Lemma words_at_range m a : words_at m a -> 0 <= fp_at m a < R384.
Proof.
  intros H. unfold fp_at, limbs_at. apply words6 in H. destruct H as (?&?&?&?&?&?).
  replace (m a) with (m (a + 0)) by (f_equal; lia). apply val6_bound; auto.
Qed.
Lemma asm_add_mod s : args2 s 5 -> fp_at (mem s) (rsi s) < modulus -> fp_at (mem s) (rdx s) < modulus ->
  stores asm_add s 5 ((fp_at (mem s) (rsi s) + fp_at (mem s) (rdx s)) mod modulus).
Proof.
  intros (W1 & W2 & O1 & O2 & O3) Hx Hy. destruct (asm_add_ok s W1 W2 O1 O2 O3) as (s' & R & V & H).
  exists s'. split; [exact R|]. split; [|exact H]. rewrite V. rewrite <- M_eq in *.
  apply fp_add_ok; split; auto; apply words_at_range; auto.
Qed.
Lemma asm_double_mod s : args1 s 5 -> fp_at (mem s) (rsi s) < modulus ->
  stores asm_double s 5 ((2 * fp_at (mem s) (rsi s)) mod modulus).
Proof.
  intros (W1 & O1 & O2) Hx. destruct (asm_double_ok s W1 O1 O2) as (s' & R & V & H).
  exists s'. split; [exact R|]. split; [|exact H]. rewrite V. rewrite <- M_eq in *. rewrite fp_double_add.
  rewrite <- Z.add_diag. apply fp_add_ok; split; auto; apply words_at_range; auto.
Qed.
Lemma asm_subtract_mod s : args2 s 5 -> fp_at (mem s) (rsi s) < modulus -> fp_at (mem s) (rdx s) < modulus ->
  stores asm_subtract s 5 ((fp_at (mem s) (rsi s) - fp_at (mem s) (rdx s)) mod modulus).
Proof.
  intros (W1 & W2 & O1 & O2 & O3) Hx Hy. destruct (asm_subtract_ok s W1 W2 O1 O2 O3) as (s' & R & V & H).
  exists s'. split; [exact R|]. split; [|exact H]. rewrite V. rewrite <- M_eq in *.
  apply fp_sub_ok; split; auto; apply words_at_range; auto.
Qed.
(** arithmetic.cpp:119-128 calls __negate only for x <> 0 *)
Lemma asm_negate_mod s : words_at (mem s) (rsi s) -> 0 < fp_at (mem s) (rsi s) < modulus ->
  stores asm_negate s 0 ((- fp_at (mem s) (rsi s)) mod modulus).
Proof.
  intros W1 Hx. destruct (asm_negate_ok s W1) as (s' & R & V & H).
  exists s'. split; [exact R|]. split; [|exact H]. rewrite V. rewrite <- M_eq in *.
  rewrite <- (proj2 (proj2 (fp_neg_ok (fp_at (mem s) (rsi s)) ltac:(split; lia)))).
  unfold fp_neg. destruct (Z.eqb_spec (fp_at (mem s) (rsi s)) 0); [lia|reflexivity].
Qed.
Definition is_multiplier (code : list instr) : Prop := exists d b, code = resolve_blsmul d b.
Lemma multiplier_ok code s : is_multiplier code -> args2 s 17 ->
  stores code s 17 (fp_mul (fp_at (mem s) (rsi s)) (fp_at (mem s) (rdx s))).
Proof.
  intros (d & b & ->) (W1 & W2 & O1 & O2 & O3). unfold resolve_blsmul, stores.
  destruct d; [apply asm_multiply_ok; auto|]. destruct b; [apply asm_mul_ex_ok; auto|apply asm_multiply_ok; auto].
Qed.
Lemma multiplier_mont code s : is_multiplier code -> args2 s 17 ->
  fp_at (mem s) (rsi s) * fp_at (mem s) (rdx s) < modulus * 2 ^ 384 ->
  exists z, stores code s 17 z /\ 0 <= z < modulus /\
    (z * 2 ^ 384) mod modulus = (fp_at (mem s) (rsi s) * fp_at (mem s) (rdx s)) mod modulus.
Proof.
  intros C A L. eexists. split; [apply multiplier_ok; auto|].
  destruct A as (W1 & W2 & _). pose proof (words_at_range _ _ W1). pose proof (words_at_range _ _ W2).
  change (2 ^ 384) with R384 in *. rewrite <- M_eq in *.
  destruct (fp_mul_spec (fp_at (mem s) (rsi s)) (fp_at (mem s) (rdx s))) as [B [k E]]; [nia|].
  split; [exact B|]. rewrite Z.mul_comm, E, Z.mul_comm, (Z.mul_comm MODULUS k), Z.mod_add by (rewrite M_eq; discriminate).
  reflexivity.
Qed.
(** operands below 4p: congruent and below 2p, but possibly not canonical *)
Lemma fp_mul_4p x y : 0 <= x < 4 * modulus -> 0 <= y < 4 * modulus ->
  0 <= fp_mul x y < 2 * modulus /\ (fp_mul x y * 2 ^ 384) mod modulus = (x * y) mod modulus.
Proof.
  intros Hx Hy. change (2 ^ 384) with R384. rewrite <- M_eq in *. pose proof R_M. pose proof M_pos. pose proof R_pos.
  destruct (fp_mul_gen x y) as (q & v & Hq & Ev & Hv & E).
  { split; [nia|]. apply Z.lt_le_trans with (4 * MODULUS * (4 * MODULUS)); [nia|].
    replace (4 * MODULUS * (4 * MODULUS)) with (16 * (MODULUS * MODULUS)) by ring. nia. }
  assert (x * y < 16 * (MODULUS * MODULUS)) by nia.
  assert (R384 * v < 16 * (MODULUS * MODULUS) + R384 * MODULUS) by nia.
  assert (v < 3 * MODULUS) by nia.
  rewrite E. destruct (Z.ltb_spec v MODULUS).
  - split; [lia|]. rewrite Z.mul_comm, Ev, Z.mod_add by lia. reflexivity.
  - split; [lia|]. replace ((v - MODULUS) * R384) with (x * y + (q - R384) * MODULUS) by lia. rewrite Z.mod_add by lia. reflexivity.
Qed.
