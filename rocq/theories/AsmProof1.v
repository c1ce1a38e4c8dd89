(** The additive routines of arithmetic.s store exactly the values of ModelPrim. *)
From Coq Require Import ZArith List Lia.
From Verif Require Import ModelWord ModelPrim X86 AsmCode AsmTac.
Import ListNotations.
Local Open Scope Z_scope.
Lemma words6 : forall m a, words_at m a ->
  word (m (a + 0)) /\ word (m (a + 8)) /\ word (m (a + 16)) /\ word (m (a + 24)) /\ word (m (a + 32)) /\ word (m (a + 40)).
Proof.
  intros m a H. unfold words_at, limbs_at in H. rewrite Z.add_0_r.
  repeat match goal with H : Forall _ (_ :: _) |- _ => inversion H; clear H; subst end.
  auto 8.
Qed.
Lemma val6_bound : forall a b c d e f, word a -> word b -> word c -> word d -> word e -> word f ->
  0 <= val [a; b; c; d; e; f] < R384.
Proof. unfold word, val, W, R384. intros. lia. Qed.
Lemma chain_add6 : forall x0 x1 x2 x3 x4 x5 y0 y1 y2 y3 y4 y5 s0 s1 s2 s3 s4 s5 c0 c1 c2 c3 c4 c5,
  s0 + W * c0 = x0 + y0 -> s1 + W * c1 = x1 + y1 + c0 -> s2 + W * c2 = x2 + y2 + c1 ->
  s3 + W * c3 = x3 + y3 + c2 -> s4 + W * c4 = x4 + y4 + c3 -> s5 + W * c5 = x5 + y5 + c4 ->
  val [s0; s1; s2; s3; s4; s5] + R384 * c5 =
  val [x0; x1; x2; x3; x4; x5] + val [y0; y1; y2; y3; y4; y5].
Proof. unfold val, W, R384. intros. lia. Qed.
Lemma chain_sub6 : forall x0 x1 x2 x3 x4 x5 y0 y1 y2 y3 y4 y5 s0 s1 s2 s3 s4 s5 c0 c1 c2 c3 c4 c5,
  s0 - W * c0 = x0 - y0 -> s1 - W * c1 = x1 - y1 - c0 -> s2 - W * c2 = x2 - y2 - c1 ->
  s3 - W * c3 = x3 - y3 - c2 -> s4 - W * c4 = x4 - y4 - c3 -> s5 - W * c5 = x5 - y5 - c4 ->
  val [s0; s1; s2; s3; s4; s5] - R384 * c5 =
  val [x0; x1; x2; x3; x4; x5] - val [y0; y1; y2; y3; y4; y5].
Proof. unfold val, W, R384. intros. lia. Qed.
Lemma MODULUS_val : val [13402431016077863595; 2210141511517208575; 7435674573564081700;
  7239337960414712511; 5412103778470702295; 1873798617647539866] = MODULUS.
Proof. reflexivity. Qed.
Lemma mod_unique_add : forall s c t, 0 <= s < R384 -> s + R384 * c = t -> t mod R384 = s.
Proof. intros s c t Hs E. symmetry. apply (Z.mod_unique t R384 c s); [left; exact Hs|lia]. Qed.
Lemma mod_unique_sub : forall s c t, 0 <= s < R384 -> s - R384 * c = t -> t mod R384 = s.
Proof. intros s c t Hs E. symmetry. apply (Z.mod_unique t R384 (-c) s); [left; exact Hs|lia]. Qed.

Lemma words_mk : forall a b c d e f, word a -> word b -> word c -> word d -> word e -> word f ->
  Forall word [a; b; c; d; e; f].
Proof. intros. repeat (apply Forall_cons; [assumption|]). apply Forall_nil. Qed.

Ltac destr_state s :=
  destruct s as [va vb vc vd vsi vdi vbp vsp v8 v9 v10 v11 v12 v13 v14 v15 vcf vof m].
Ltac start :=
  cbn [rax rbx rcx rdx rsi rdi rbp rsp r8 r9 r10 r11 r12 r13 r14 r15 cf ovf mem] in *.
Ltac fp_at_0 := unfold fp_at, limbs_at.

(** result of a run: memory outside z and the stack window *)
Ltac frame := intros a Ha1 Ha2; repeat (rewrite upd_other by lia); reflexivity.
Ltac finish tac :=
  apply wp_nil; unfold callee_saved_kept, only_changes, words_at, fp_at, limbs_at; start;
  rd tac; rewrite ?Z.add_0_r, ?Z.sub_0_r in *.

Lemma asm_add_ok : forall s,
  words_at (mem s) (rsi s) -> words_at (mem s) (rdx s) -> 
  off_stack (rdi s) (rsp s) 5 -> off_stack (rsi s) (rsp s) 5 -> off_stack (rdx s) (rsp s) 5 -> 
  exists s', run asm_add s = Some s' /\
    fp_at (mem s') (rdi s) = fp_add (fp_at (mem s) (rsi s)) (fp_at (mem s) (rdx s)) /\
    words_at (mem s') (rdi s) /\ callee_saved_kept s s' /\ only_changes s s' (rdi s) 5.
Proof.
  intros s. destr_state s. start. intros Wx Wy Oz Ox Oy.
  apply words6 in Wx. destruct Wx as (Wx0 & Wx1 & Wx2 & Wx3 & Wx4 & Wx5).
  apply words6 in Wy. destruct Wy as (Wy0 & Wy1 & Wy2 & Wy3 & Wy4 & Wy5).
  unfold off_stack in *.
  apply wp_run. unfold asm_add.
  do 52 (stp; rd ltac:(clear -Ox Oz Oy; lia); repeat abs1).
  finish ltac:(clear -Ox Oz Oy; lia).
  pose proof (chain_add6 _ _ _ _ _ _ _ _ _ _ _ _ _ _ _ _ _ _ _ _ _ _ _ _ E E0 E1 E2 E3 E4) as HS.
  pose proof (chain_sub6 _ _ _ _ _ _ _ _ _ _ _ _ _ _ _ _ _ _ _ _ _ _ _ _ E5 E6 E7 E8 E9 E10) as HD.
  rewrite MODULUS_val in HD.
  clear E E0 E1 E2 E3 E4 E5 E6 E7 E8 E9 E10.
  split; [|split; [|split; [repeat split; (reflexivity || lia)|frame]]].
  - pose proof (val6_bound _ _ _ _ _ _ Ws Ws0 Ws1 Ws2 Ws3 Ws4) as BS.
    pose proof (val6_bound _ _ _ _ _ _ Ws5 Ws6 Ws7 Ws8 Ws9 Ws10) as BD.
    unfold fp_add. rewrite (mod_unique_add _ _ _ BS HS).
    unfold bit in Bc10. destruct (Z.eqb_spec c10 0) as [->|N].
    + destruct (Z.ltb_spec (val [s; s0; s1; s2; s3; s4]) MODULUS); lia.
    + assert (c10 = 1) by lia. subst c10.
      destruct (Z.ltb_spec (val [s; s0; s1; s2; s3; s4]) MODULUS); [reflexivity|lia].
  - destruct (c10 =? 0); apply words_mk; assumption.
Qed.

Lemma asm_double_ok : forall s,
  words_at (mem s) (rsi s) -> 
  off_stack (rdi s) (rsp s) 5 -> off_stack (rsi s) (rsp s) 5 -> 
  exists s', run asm_double s = Some s' /\
    fp_at (mem s') (rdi s) = fp_double (fp_at (mem s) (rsi s)) /\
    words_at (mem s') (rdi s) /\ callee_saved_kept s s' /\ only_changes s s' (rdi s) 5.
Proof.
  intros s. destr_state s. start. intros Wx Oz Ox.
  apply words6 in Wx. destruct Wx as (Wx0 & Wx1 & Wx2 & Wx3 & Wx4 & Wx5).
  unfold off_stack in *.
  apply wp_run. unfold asm_double.
  do 52 (stp; rd ltac:(clear -Ox Oz; lia); repeat abs1).
  finish ltac:(clear -Ox Oz; lia).
  pose proof (chain_add6 _ _ _ _ _ _ _ _ _ _ _ _ _ _ _ _ _ _ _ _ _ _ _ _ E E0 E1 E2 E3 E4) as HS.
  pose proof (chain_sub6 _ _ _ _ _ _ _ _ _ _ _ _ _ _ _ _ _ _ _ _ _ _ _ _ E5 E6 E7 E8 E9 E10) as HD.
  rewrite MODULUS_val in HD.
  clear E E0 E1 E2 E3 E4 E5 E6 E7 E8 E9 E10.
  split; [|split; [|split; [repeat split; (reflexivity || lia)|frame]]].
  - pose proof (val6_bound _ _ _ _ _ _ Ws Ws0 Ws1 Ws2 Ws3 Ws4) as BS.
    pose proof (val6_bound _ _ _ _ _ _ Ws5 Ws6 Ws7 Ws8 Ws9 Ws10) as BD.
    unfold fp_double. rewrite (mod_unique_add _ _ _ BS HS).
    unfold bit in Bc10. destruct (Z.eqb_spec c10 0) as [->|N].
    + destruct (Z.ltb_spec (val [s; s0; s1; s2; s3; s4]) MODULUS); lia.
    + assert (c10 = 1) by lia. subst c10.
      destruct (Z.ltb_spec (val [s; s0; s1; s2; s3; s4]) MODULUS); [reflexivity|lia].
  - destruct (c10 =? 0); apply words_mk; assumption.
Qed.

Lemma asm_ladd_ok : forall s,
  words_at (mem s) (rsi s) -> words_at (mem s) (rdx s) -> 
  
  exists s', run asm_ladd s = Some s' /\
    fp_at (mem s') (rdi s) = fp_ladd (fp_at (mem s) (rsi s)) (fp_at (mem s) (rdx s)) /\
    words_at (mem s') (rdi s) /\ callee_saved_kept s s' /\ only_changes s s' (rdi s) 0.
Proof.
  intros s. destr_state s. start. intros Wx Wy.
  apply words6 in Wx. destruct Wx as (Wx0 & Wx1 & Wx2 & Wx3 & Wx4 & Wx5).
  apply words6 in Wy. destruct Wy as (Wy0 & Wy1 & Wy2 & Wy3 & Wy4 & Wy5).
  apply wp_run. unfold asm_ladd.
  do 18 (stp; rd ltac:(clear; lia); repeat abs1).
  finish ltac:(clear; lia).
  pose proof (chain_add6 _ _ _ _ _ _ _ _ _ _ _ _ _ _ _ _ _ _ _ _ _ _ _ _ E E0 E1 E2 E3 E4) as HS.
  clear E E0 E1 E2 E3 E4.
  split; [|split; [|split; [repeat split; (reflexivity || lia)|frame]]].
  - pose proof (val6_bound _ _ _ _ _ _ Ws Ws0 Ws1 Ws2 Ws3 Ws4) as BS.
    unfold fp_ladd. symmetry. exact (mod_unique_add _ _ _ BS HS).
  - apply words_mk; assumption.
Qed.

Lemma asm_ldouble_ok : forall s,
  words_at (mem s) (rsi s) -> 
  
  exists s', run asm_ldouble s = Some s' /\
    fp_at (mem s') (rdi s) = fp_ldouble (fp_at (mem s) (rsi s)) /\
    words_at (mem s') (rdi s) /\ callee_saved_kept s s' /\ only_changes s s' (rdi s) 0.
Proof.
  intros s. destr_state s. start. intros Wx.
  apply words6 in Wx. destruct Wx as (Wx0 & Wx1 & Wx2 & Wx3 & Wx4 & Wx5).
  apply wp_run. unfold asm_ldouble.
  do 18 (stp; rd ltac:(clear; lia); repeat abs1).
  finish ltac:(clear; lia).
  pose proof (chain_add6 _ _ _ _ _ _ _ _ _ _ _ _ _ _ _ _ _ _ _ _ _ _ _ _ E E0 E1 E2 E3 E4) as HS.
  clear E E0 E1 E2 E3 E4.
  split; [|split; [|split; [repeat split; (reflexivity || lia)|frame]]].
  - pose proof (val6_bound _ _ _ _ _ _ Ws Ws0 Ws1 Ws2 Ws3 Ws4) as BS.
    unfold fp_ldouble. symmetry. exact (mod_unique_add _ _ _ BS HS).
  - apply words_mk; assumption.
Qed.

Lemma asm_lsubtract_ok : forall s,
  words_at (mem s) (rsi s) -> words_at (mem s) (rdx s) -> 
  
  exists s', run asm_lsubtract s = Some s' /\
    fp_at (mem s') (rdi s) = fp_lsub (fp_at (mem s) (rsi s)) (fp_at (mem s) (rdx s)) /\
    words_at (mem s') (rdi s) /\ callee_saved_kept s s' /\ only_changes s s' (rdi s) 0.
Proof.
  intros s. destr_state s. start. intros Wx Wy.
  apply words6 in Wx. destruct Wx as (Wx0 & Wx1 & Wx2 & Wx3 & Wx4 & Wx5).
  apply words6 in Wy. destruct Wy as (Wy0 & Wy1 & Wy2 & Wy3 & Wy4 & Wy5).
  apply wp_run. unfold asm_lsubtract.
  do 18 (stp; rd ltac:(clear; lia); repeat abs1).
  finish ltac:(clear; lia).
  pose proof (chain_sub6 _ _ _ _ _ _ _ _ _ _ _ _ _ _ _ _ _ _ _ _ _ _ _ _ E E0 E1 E2 E3 E4) as HS.
  clear E E0 E1 E2 E3 E4.
  split; [|split; [|split; [repeat split; (reflexivity || lia)|frame]]].
  - pose proof (val6_bound _ _ _ _ _ _ Ws Ws0 Ws1 Ws2 Ws3 Ws4) as BS.
    unfold fp_lsub. symmetry. exact (mod_unique_sub _ _ _ BS HS).
  - apply words_mk; assumption.
Qed.

Lemma asm_negate_ok : forall s,
  words_at (mem s) (rsi s) -> 
  
  exists s', run asm_negate s = Some s' /\
    fp_at (mem s') (rdi s) = fp_rawneg (fp_at (mem s) (rsi s)) /\
    words_at (mem s') (rdi s) /\ callee_saved_kept s s' /\ only_changes s s' (rdi s) 0.
Proof.
  intros s. destr_state s. start. intros Wx.
  apply words6 in Wx. destruct Wx as (Wx0 & Wx1 & Wx2 & Wx3 & Wx4 & Wx5).
  apply wp_run. unfold asm_negate.
  do 18 (stp; rd ltac:(clear; lia); repeat abs1).
  finish ltac:(clear; lia).
  pose proof (chain_sub6 _ _ _ _ _ _ _ _ _ _ _ _ _ _ _ _ _ _ _ _ _ _ _ _ E E0 E1 E2 E3 E4) as HS.
  clear E E0 E1 E2 E3 E4.
  split; [|split; [|split; [repeat split; (reflexivity || lia)|frame]]].
  - pose proof (val6_bound _ _ _ _ _ _ Ws Ws0 Ws1 Ws2 Ws3 Ws4) as BS.
    unfold fp_rawneg. rewrite MODULUS_val in HS. symmetry. exact (mod_unique_sub _ _ _ BS HS).
  - apply words_mk; assumption.
Qed.

Lemma asm_subtract_ok : forall s,
  words_at (mem s) (rsi s) -> words_at (mem s) (rdx s) ->
  off_stack (rdi s) (rsp s) 5 -> off_stack (rsi s) (rsp s) 5 -> off_stack (rdx s) (rsp s) 5 ->
  exists s', run asm_subtract s = Some s' /\
    fp_at (mem s') (rdi s) = fp_sub (fp_at (mem s) (rsi s)) (fp_at (mem s) (rdx s)) /\
    words_at (mem s') (rdi s) /\ callee_saved_kept s s' /\ only_changes s s' (rdi s) 5.
Proof.
  intros s. destr_state s. start. intros Wx Wy Oz Ox Oy.
  apply words6 in Wx. destruct Wx as (Wx0 & Wx1 & Wx2 & Wx3 & Wx4 & Wx5).
  apply words6 in Wy. destruct Wy as (Wy0 & Wy1 & Wy2 & Wy3 & Wy4 & Wy5).
  unfold off_stack in *.
  apply wp_run. unfold asm_subtract.
  do 6 stp. rewrite Z.lxor_nilpotent.
  do 24 (stp; rd ltac:(clear -Ox Oz Oy; lia); repeat abs1).
  rewrite ?Z.add_0_r, ?Z.sub_0_r in *.
  pose proof (chain_sub6 _ _ _ _ _ _ _ _ _ _ _ _ _ _ _ _ _ _ _ _ _ _ _ _ E E0 E1 E2 E3 E4) as HD.
  pose proof (val6_bound _ _ _ _ _ _ Wx0 Wx1 Wx2 Wx3 Wx4 Wx5) as BX.
  pose proof (val6_bound _ _ _ _ _ _ Wy0 Wy1 Wy2 Wy3 Wy4 Wy5) as BY.
  pose proof (val6_bound _ _ _ _ _ _ Ws Ws0 Ws1 Ws2 Ws3 Ws4) as BD.
  clear E E0 E1 E2 E3 E4.
  destruct (Z.eqb_spec c4 0) as [->|N].
  - do 17 (stp; rd ltac:(clear -Ox Oz Oy; lia); repeat abs1).
    finish ltac:(clear -Ox Oz Oy; lia).
    assert (HS : val [s5; s6; s7; s8; s9; s10] + R384 * c9 = val [s; s0; s1; s2; s3; s4] + 0)
      by (clear -E E0 E1 E2 E3 E4; unfold val, W, R384 in *; lia).
    clear E E0 E1 E2 E3 E4.
    split; [|split; [|split; [repeat split; (reflexivity || lia)|frame]]].
    + pose proof (val6_bound _ _ _ _ _ _ Ws5 Ws6 Ws7 Ws8 Ws9 Ws10) as BS.
      unfold fp_sub. destruct (Z.ltb_spec (val [m vsi; m (vsi + 8); m (vsi + 16); m (vsi + 24); m (vsi + 32); m (vsi + 40)])
        (val [m vd; m (vd + 8); m (vd + 16); m (vd + 24); m (vd + 32); m (vd + 40)])); [lia|].
      unfold bit in *. assert (c9 = 0) by (clear -Bc10 HS HD BS BD; unfold R384 in *; lia). subst c9. lia.
    + apply words_mk; assumption.
  - assert (c4 = 1) by (unfold bit in Bc4; lia). subst c4. clear N.
    do 17 (stp; rd ltac:(clear -Ox Oz Oy; lia); repeat abs1).
    finish ltac:(clear -Ox Oz Oy; lia).
    pose proof (chain_add6 _ _ _ _ _ _ _ _ _ _ _ _ _ _ _ _ _ _ _ _ _ _ _ _ E E0 E1 E2 E3 E4) as HS.
    rewrite MODULUS_val in HS.
    clear E E0 E1 E2 E3 E4.
    split; [|split; [|split; [repeat split; (reflexivity || lia)|frame]]].
    + pose proof (val6_bound _ _ _ _ _ _ Ws5 Ws6 Ws7 Ws8 Ws9 Ws10) as BS.
      unfold fp_sub. destruct (Z.ltb_spec (val [m vsi; m (vsi + 8); m (vsi + 16); m (vsi + 24); m (vsi + 32); m (vsi + 40)])
        (val [m vd; m (vd + 8); m (vd + 16); m (vd + 24); m (vd + 32); m (vd + 40)])); [|lia].
      rewrite (mod_unique_sub _ _ _ BD HD). symmetry. exact (mod_unique_add _ _ _ BS HS).
    + apply words_mk; assumption.
Qed.
