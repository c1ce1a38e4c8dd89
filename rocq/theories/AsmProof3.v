(** * __multiply of src/arithmetic.s (lines 279-897): Montgomery product *)

From Coq Require Import ZArith List Lia.
From Verif Require Import ModelWord ModelPrim X86 AsmCode AsmTac AsmProof1 AsmProof2.
Import ListNotations.
Local Open Scope Z_scope.
Ltac msolve tac :=
  match goal with
  | |- upd _ _ _ _ = _ => rd tac; reflexivity
  | |- _ \/ _ => tac
  end.
Lemma asm_multiply_ok : forall s,
  words_at (mem s) (rsi s) -> words_at (mem s) (rdx s) ->
  off_stack (rdi s) (rsp s) 17 -> off_stack (rsi s) (rsp s) 17 -> off_stack (rdx s) (rsp s) 17 ->
  exists s', run asm_multiply s = Some s' /\
    fp_at (mem s') (rdi s) = fp_mul (fp_at (mem s) (rsi s)) (fp_at (mem s) (rdx s)) /\
    words_at (mem s') (rdi s) /\ callee_saved_kept s s' /\ only_changes s s' (rdi s) 17.
Proof.
  intros s. destr_state s. start. intros Wx Wy Oz Ox Oy.
  apply words6 in Wx. destruct Wx as (Wx0 & Wx1 & Wx2 & Wx3 & Wx4 & Wx5).
  apply words6 in Wy. destruct Wy as (Wy0 & Wy1 & Wy2 & Wy3 & Wy4 & Wy5).
  unfold off_stack in *.
  apply wp_run. unfold asm_multiply.
  apply wp_app. unfold asm_multiply_prologue.
  do 30 stp. rewrite ?Z.lxor_nilpotent. apply wp_nil.
  apply asm_multiply_i0_ok with (x0 := m (vsi + 0)) (y0 := m (vd + 0)) (y1 := m (vd + 8)) (y2 := m (vd + 16)) (y3 := m (vd + 24)) (y4 := m (vd + 32)) (y5 := m (vd + 40)); try assumption; try (msolve ltac:(clear -Ox Oz Oy; lia)).
  intros; match goal with H : val _ = _ |- _ => rename H into ROW0 end.
  apply asm_multiply_i1_ok with (x1 := m (vsi + 8)) (y0 := m (vd + 0)) (y1 := m (vd + 8)) (y2 := m (vd + 16)) (y3 := m (vd + 24)) (y4 := m (vd + 32)) (y5 := m (vd + 40)); try assumption; try (msolve ltac:(clear -Ox Oz Oy; lia)).
  intros; match goal with H : val _ = _ |- _ => rename H into ROW1 end.
  apply asm_multiply_i2_ok with (x2 := m (vsi + 16)) (y0 := m (vd + 0)) (y1 := m (vd + 8)) (y2 := m (vd + 16)) (y3 := m (vd + 24)) (y4 := m (vd + 32)) (y5 := m (vd + 40)); try assumption; try (msolve ltac:(clear -Ox Oz Oy; lia)).
  intros; match goal with H : val _ = _ |- _ => rename H into ROW2 end.
  apply asm_multiply_i3_ok with (x3 := m (vsi + 24)) (y0 := m (vd + 0)) (y1 := m (vd + 8)) (y2 := m (vd + 16)) (y3 := m (vd + 24)) (y4 := m (vd + 32)) (y5 := m (vd + 40)); try assumption; try (msolve ltac:(clear -Ox Oz Oy; lia)).
  intros; match goal with H : val _ = _ |- _ => rename H into ROW3 end.
  apply asm_multiply_i4_ok with (x4 := m (vsi + 32)) (y0 := m (vd + 0)) (y1 := m (vd + 8)) (y2 := m (vd + 16)) (y3 := m (vd + 24)) (y4 := m (vd + 32)) (y5 := m (vd + 40)); try assumption; try (msolve ltac:(clear -Ox Oz Oy; lia)).
  intros; match goal with H : val _ = _ |- _ => rename H into ROW4 end.
  apply asm_multiply_i5_ok with (x5 := m (vsi + 40)) (y0 := m (vd + 0)) (y1 := m (vd + 8)) (y2 := m (vd + 16)) (y3 := m (vd + 24)) (y4 := m (vd + 32)) (y5 := m (vd + 40)); try assumption; try (msolve ltac:(clear -Ox Oz Oy; lia)).
  intros; match goal with H : val _ = _ |- _ => rename H into ROW5 end.
  rd ltac:(clear -Ox Oz Oy; lia).
  eapply asm_multiply_red_i0_ok; try eassumption; try (msolve ltac:(clear -Ox Oz Oy; lia)).
  intros; match goal with H : W * val _ = _ |- _ => rename H into RED0 end.
  eapply asm_multiply_red_i1_ok; try eassumption; try (msolve ltac:(clear -Ox Oz Oy; lia)).
  intros; match goal with H : W * val _ = _ |- _ => rename H into RED1 end.
  eapply asm_multiply_red_i2_ok; try eassumption; try (msolve ltac:(clear -Ox Oz Oy; lia)).
  intros; match goal with H : W * val _ = _ |- _ => rename H into RED2 end.
  eapply asm_multiply_red_i3_ok; try eassumption; try (msolve ltac:(clear -Ox Oz Oy; lia)).
  intros; match goal with H : W * val _ = _ |- _ => rename H into RED3 end.
  eapply asm_multiply_red_i4_ok with (u6 := o5_4); try eassumption; try (msolve ltac:(clear -Ox Oz Oy; lia)).
  intros; match goal with H : W * val _ = _ |- _ => rename H into RED4 end.
  eapply asm_multiply_red_i5_ok with (u6 := o6_4); try eassumption; try (msolve ltac:(clear -Ox Oz Oy; lia)).
  intros; match goal with H : W * val _ = _ |- _ => rename H into RED5 end.
  assert (MAIN : R384 * (val [o1_10; o2_10; o3_10; o4_10; o5_10; o6_10] + R384 * k_4) =
    val [m (vsi + 0); m (vsi + 8); m (vsi + 16); m (vsi + 24); m (vsi + 32); m (vsi + 40)] * val [m (vd + 0); m (vd + 8); m (vd + 16); m (vd + 24); m (vd + 32); m (vd + 40)] + val [q; q0; q1; q2; q3; q4] * MODULUS).
  { clear -ROW0 ROW1 ROW2 ROW3 ROW4 ROW5 RED0 RED1 RED2 RED3 RED4 RED5.
    rewrite val6_split. generalize dependent (val [m (vd + 0); m (vd + 8); m (vd + 16); m (vd + 24); m (vd + 32); m (vd + 40)]). intros Y.
    generalize (m (vsi + 0) * Y) (m (vsi + 8) * Y) (m (vsi + 16) * Y) (m (vsi + 24) * Y) (m (vsi + 32) * Y) (m (vsi + 40) * Y).
    intros. unfold val, MODULUS, R384, W in *. lia. }
  assert (BU : 0 <= val [o1_10; o2_10; o3_10; o4_10; o5_10; o6_10] < R384) by (apply val6_bound; assumption).
  assert (BQ : 0 <= val [q; q0; q1; q2; q3; q4] < R384) by (apply val6_bound; assumption).
  pose proof (fp_mul_char _ _ _ _ _ BQ BU MAIN) as FM.
  clear ROW0 ROW1 ROW2 ROW3 ROW4 ROW5 RED0 RED1 RED2 RED3 RED4 RED5 MAIN BQ.
  apply wp_app. unfold asm_multiply_modular_reduction.
  do 12 (stp; rd ltac:(clear -Ox Oz Oy; lia); repeat abs1). apply wp_nil.
  unfold asm_multiply_out.
  do 26 (stp; rd ltac:(clear -Ox Oz Oy; lia)).
  finish ltac:(clear -Ox Oz Oy; lia).
  pose proof (chain_sub6 _ _ _ _ _ _ _ _ _ _ _ _ _ _ _ _ _ _ _ _ _ _ _ _ E E0 E1 E2 E3 E4) as HD.
  rewrite MODULUS_val in HD.
  clear E E0 E1 E2 E3 E4.
  split; [|split; [|split; [repeat split; (reflexivity || (clear; lia))|]]].
  - assert (BD : 0 <= val [s; s0; s1; s2; s3; s4] < R384) by (apply val6_bound; assumption).
    rewrite FM. clear -HD BD BU Bc4. unfold bit in Bc4.
    destruct (Z.eqb_spec c4 0) as [->|N].
    + destruct (Z.ltb_spec (val [o1_10; o2_10; o3_10; o4_10; o5_10; o6_10]) MODULUS); lia.
    + assert (c4 = 1) by lia. subst c4.
      destruct (Z.ltb_spec (val [o1_10; o2_10; o3_10; o4_10; o5_10; o6_10]) MODULUS); [reflexivity|lia].
  - destruct (c4 =? 0); apply words_mk; assumption.
  - clear. frame.
Qed.
