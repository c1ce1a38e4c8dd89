(** C59: class fp on its six limbs, over the assembly or the portable arithmetic.  [six x]: six 64-bit words.
    [asm_call code x y]: the limbs left by one call of the interpreted assembly.
    C60: which multiplier is used.  C61: the ordering operators. *)
From Coq Require Import ZArith List Bool Lia.
From Verif Require Import SpecBytes SpecField SpecOrder ModelWord ModelScalar ModelPrim ModelFp ModelTower ModelCurve PortArith X86 AsmCode ModelLimb.
From Verif Require Import ScalarProof CarryProof FpProof FpProof2 InvWide AsmSpec LimbProof.
Import ListNotations.
Local Open Scope Z_scope.

(** a call leaves the same limbs whatever the addresses (also overlapping), the other registers, the rest of the memory *)
Theorem C59_assembly_calls : forall code s, In code [asm_add; asm_ladd; asm_subtract; asm_lsubtract; asm_multiply; asm_mul_ex] -> args2 s 17 ->
  exists s', run code s = Some s' /\ limbs_at (mem s') (rdi s) = asm_call code (limbs_at (mem s) (rsi s)) (limbs_at (mem s) (rdx s)).
Proof.
  intros code s H A.
  assert (A5 : args2 s 5) by (unfold args2, off_stack in *; intuition lia). assert (A0 : args2 s 0) by (unfold args2, off_stack in *; intuition lia).
  destruct H as [<-|[<-|[<-|[<-|[<-|[<-|[]]]]]]].
  - exact (any_call2 _ 5 _ s ltac:(lia) asm_add_stores A5).
  - exact (any_call2 _ 0 _ s ltac:(lia) asm_ladd_stores A0).
  - exact (any_call2 _ 5 _ s ltac:(lia) asm_subtract_stores A5).
  - exact (any_call2 _ 0 _ s ltac:(lia) asm_lsubtract_stores A0).
  - exact (any_call2 _ 17 _ s ltac:(lia) (fun s => multiplier_ok _ s mult_is) A).
  - exact (any_call2 _ 17 _ s ltac:(lia) (fun s => multiplier_ok _ s (ex_intro _ false (ex_intro _ true eq_refl))) A).
Qed.
Theorem C59_assembly_calls1 : forall code s, In code [asm_double; asm_ldouble; asm_negate] -> args1 s 5 ->
  exists s', run code s = Some s' /\ limbs_at (mem s') (rdi s) = asm_call code (limbs_at (mem s) (rsi s)) (limbs_at (mem s) (rsi s)).
Proof.
  intros code s H A. assert (A0 : args1 s 0) by (unfold args1, off_stack in *; intuition lia).
  destruct H as [<-|[<-|[<-|[]]]].
  - exact (any_call1 _ 5 _ s ltac:(lia) asm_double_stores A).
  - exact (any_call1 _ 0 _ s ltac:(lia) asm_ldouble_stores A0).
  - exact (any_call1 _ 0 _ s ltac:(lia) asm_negate_stores A0).
Qed.

(** the assembly computes the primitives of the value-level model, on all 384-bit operands *)
Theorem C59_x86_primitives : forall code, is_multiplier code -> forall x y, six x -> six y ->
  (six (b_add (x86 code) x y) /\ val (b_add (x86 code) x y) = fp_add (val x) (val y)) /\
  (six (b_ladd (x86 code) x y) /\ val (b_ladd (x86 code) x y) = (val x + val y) mod 2 ^ 384) /\
  (six (b_double (x86 code) x) /\ val (b_double (x86 code) x) = fp_double (val x)) /\
  (six (b_ldouble (x86 code) x) /\ val (b_ldouble (x86 code) x) = (2 * val x) mod 2 ^ 384) /\
  (six (b_subtract (x86 code) x y) /\ val (b_subtract (x86 code) x y) = fp_sub (val x) (val y)) /\
  (six (b_lsubtract (x86 code) x y) /\ val (b_lsubtract (x86 code) x y) = (val x - val y) mod 2 ^ 384) /\
  (six (b_negate (x86 code) x) /\ val (b_negate (x86 code) x) = fp_neg (val x)) /\
  (six (b_multiply (x86 code) x y) /\ val (b_multiply (x86 code) x y) = fp_mul (val x) (val y)) /\
  (six (b_square (x86 code) x) /\ val (b_square (x86 code) x) = fp_mul (val x) (val x)).
Proof.
  intros code M x y Hx Hy. destruct (x86_ok code M) as [H1 H2 H3 H4 H5 H6 H7 H8 H9]. rewrite <- Z.add_diag.
  exact (conj (H1 x y Hx Hy) (conj (H2 x y Hx Hy) (conj (H3 x Hx) (conj (H4 x Hx) (conj (H5 x y Hx Hy)
    (conj (H6 x y Hx Hy) (conj (H7 x Hx) (conj (H8 x y Hx Hy) (H9 x Hx))))))))).
Qed.
(** comparisons and shifts on limbs, all operands *)
Theorem C59_predicates : forall x y, six x -> six y ->
  l_isZero x = (val x =? 0) /\ l_isOne x = (val x =? R1) /\ l_equal x y = (val x =? val y) /\ l_cmp x y = (val x ?= val y) /\
  l_isValid x = (val x <? modulus) /\ l_isOdd x = Z.odd (val x) /\ l_isEven x = Z.even (val x).
Proof.
  intros x y Hx Hy. split; [exact (l_isZero_ok x Hx)|]. split; [exact (l_isOne_ok x Hx)|]. split; [exact (l_equal_ok x y Hx Hy)|].
  split; [exact (l_cmp_ok x y Hx Hy)|]. split; [rewrite l_isValid_ok by exact Hx; unfold fp_isValid, fp_cmp, Z.ltb; reflexivity|].
  split; [exact (l_isOdd_ok x Hx)|]. rewrite <- Z.negb_odd, <- l_isOdd_ok by exact Hx. unfold l_isEven, l_isOdd. symmetry. apply negb_involutive.
Qed.
Theorem C59_div2 : forall x e, six x -> word e -> six (l_div2 x e) /\ val (l_div2 x e) = val x / 2 + 2 ^ 383 * (e mod 2).
Proof. exact l_div2_ok. Qed.
Theorem C59_mul2 : forall x, six x -> six (fst (l_mul2 x)) /\ val (fst (l_mul2 x)) + 2 ^ 384 * snd (l_mul2 x) = 2 * val x.
Proof. intros x H. destruct (l_mul2_ok x H) as (S & _ & E & _). exact (conj S E). Qed.

(** the whole class over the assembly is the value-level class, so that C08-C13 speak about it *)
Theorem C59_conversions : forall code, is_multiplier code -> forall x, six x ->
  (six (l_toMont (x86 code) x) /\ val (l_toMont (x86 code) x) = fp_toMont (val x)) /\
  (six (l_fromMont (x86 code) x) /\ val (l_fromMont (x86 code) x) = fp_fromMont (val x)) /\
  (six (l_phi (x86 code) x) /\ val (l_phi (x86 code) x) = fp_phi (val x)) /\
  l_sign (x86 code) x = fp_sign (val x) /\ l_isLexLargest (x86 code) x = fp_isLexLargest (val x).
Proof.
  intros code M x Hx. pose proof (x86_ok code M) as B.
  exact (conj (l_toMont_ok _ B x Hx) (conj (l_fromMont_ok _ B x Hx) (conj (l_phi_ok _ B x Hx) (conj (l_sign_ok _ B x Hx) (l_isLexLargest_ok _ B x Hx))))).
Qed.
Theorem C59_exp_sqrt : forall code, is_multiplier code -> forall x s, six x ->
  (six (l_exp (x86 code) x s) /\ val (l_exp (x86 code) x s) = fp_exp (val x) s) /\
  (fst (l_sqrt (x86 code) x) = fst (fp_sqrt (val x)) /\ six (snd (l_sqrt (x86 code) x)) /\ val (snd (l_sqrt (x86 code) x)) = snd (fp_sqrt (val x))) /\
  l_isQNR (x86 code) x = fp_isQNR (val x).
Proof.
  intros code M x s Hx. pose proof (x86_ok code M) as B.
  exact (conj (l_exp_ok _ B x s Hx) (conj (l_sqrt_ok _ B x Hx) (l_isQNR_ok _ B x Hx))).
Qed.
Theorem C59_bytes : forall code, is_multiplier code -> forall a check mont, bytes a -> length a = 48%nat ->
  option_map val (l_fromBytesBE (x86 code) a check mont) = fp_fromBytesBE a check mont /\
  option_map val (l_fromBytesLE (x86 code) a check mont) = fp_fromBytesLE a check mont /\
  forall x, six x -> l_toBytesBE (x86 code) x mont = fp_toBytesBE (val x) mont /\ l_toBytesLE (x86 code) x mont = fp_toBytesLE (val x) mont.
Proof.
  intros code M a c m Ha L. pose proof (x86_ok code M) as B.
  pose proof (l_fromBytesBE_ok _ B a c m Ha L) as P. pose proof (l_fromBytesLE_ok _ B a c m Ha L) as Q.
  split; [destruct (l_fromBytesBE _ a c m); [destruct P as [_ ->]|rewrite P]; reflexivity|].
  split; [destruct (l_fromBytesLE _ a c m); [destruct Q as [_ ->]|rewrite Q]; reflexivity|].
  intros x Hx. exact (l_toBytes_ok _ B x m Hx).
Qed.
(** inversion, limb by limb over the assembly: no index out of bounds, and the inverse of the residue for every operand, canonical or not *)
Theorem C59_inverse : forall code, is_multiplier code -> forall x, six x ->
  exists y, l_inverse (x86 code) x = Some y /\ six y /\ val y < modulus /\ dec (val y) = Finv (dec (val x)).
Proof.
  intros code M x Hx.
  destruct (fp_inverse_opt_wide _ (six_bound x Hx)) as (z & E & Cz & D). pose proof (l_inverse_ok _ (x86_ok code M) x Hx) as P.
  destruct (l_inverse (x86 code) x) as [y|]; [|rewrite E in P; discriminate P]. destruct P as [S V]. rewrite E in V. injection V as ->.
  exists y. split; [reflexivity|]. split; [exact S|]. split; [apply Cz|exact D].
Qed.
(** over the portable arithmetic inversion is wrong for some canonical operands (lost borrow): 2^128 - 1 *)
Definition all_ones2 : list Z := [2 ^ 64 - 1; 2 ^ 64 - 1; 0; 0; 0; 0].
Definition bad_inverse : list Z := [2642838289825758774; 150065406753569263; 1609684703456342277; 13676266210839077191; 11177217204115244656; 1284479045121063566].
Lemma bad_inverse_ok : l_inverse portable all_ones2 = Some bad_inverse. Proof. vm_compute. reflexivity. Qed.
Theorem C59_inverse_portable_refuted : exists x y, six x /\ 0 < val x < modulus /\ l_inverse portable x = Some y /\ val y <> fp_inverse (val x).
Proof.
  set (y := bad_inverse).
  exists all_ones2, y. assert (S : six all_ones2) by (split; [reflexivity|repeat constructor; discriminate]). split; [exact S|].
  assert (C : canon (val all_ones2)) by (split; [discriminate|reflexivity]). split; [split; reflexivity|].
  split; [exact bad_inverse_ok|]. intros E.
  assert (X : Z.eqb (fp_mul (val all_ones2) (val y)) R1 = false) by (vm_compute; reflexivity). apply Z.eqb_neq in X.
  exact (X (inverse_check _ _ C ltac:(discriminate) E)).
Qed.
Example C59_example : six all_ones2 /\ val all_ones2 = 2 ^ 128 - 1 /\
  b_subtract (x86 asm_multiply) MODl all_ones2 <> p_subtract MODl all_ones2 /\ l_mul2 MODl = (limbs_of 6 (2 * modulus), 0) /\
  l_div2 (limbs_of 6 7) 1 = limbs_of 6 (3 + 2 ^ 383).
Proof. split; [split; [reflexivity|repeat constructor; discriminate]|]. split; [reflexivity|]. split; [vm_compute; discriminate|]. split; vm_compute; reflexivity. Qed.

(** C60: the multiplier *)
Theorem C60_always_a_multiplier : forall environ cpuid, is_multiplier (resolve environ cpuid) /\ is_multiplier (resolve_init cpuid).
Proof. intros e c. exact (conj (resolve_is e c) (resolve_init_is c)). Qed.
(** the BMI2/ADX code runs only on a CPU that reports both (leaf 7, EBX bits 8 and 19) and has leaf 7 ... *)
Theorem C60_mul_ex_iff : forall environ cpuid, (forall l, 0 <= fst (cpuid l) < 2 ^ 32 /\ 0 <= snd (cpuid l) < 2 ^ 32) ->
  (resolve environ cpuid = asm_mul_ex <->
   (forall e, In e environ -> ~ exists r, e = disable_str ++ r) /\
   7 <= fst (cpuid 0) < 2 ^ 31 /\ Z.testbit (snd (cpuid 7)) 8 = true /\ Z.testbit (snd (cpuid 7)) 19 = true).
Proof.
  intros e c B. rewrite <- (cpu_ok c B). unfold resolve.
  assert (N : asm_multiply <> asm_mul_ex) by (intro H; apply (f_equal (@length instr)) in H; vm_compute in H; discriminate H).
  destruct (existsb (has_prefix disable_str) e) eqn:X.
  - split; [intros H; elim (N H)|]. intros [H _]. apply existsb_exists in X. destruct X as (t & I & P). apply has_prefix_ok in P. elim (H t I P).
  - split.
    + destruct (cpu_has_bmi2_and_adx c); [|intros H; elim (N H)]. intros _. split; [|reflexivity]. intros t I P. apply has_prefix_ok in P.
      assert (T : existsb (has_prefix disable_str) e = true) by (apply existsb_exists; exists t; split; assumption). rewrite X in T. discriminate T.
    + intros [_ ->]. reflexivity.
Qed.
(** ... and otherwise the baseline code *)
Theorem C60_baseline : forall environ cpuid, resolve environ cpuid = asm_mul_ex \/ resolve environ cpuid = asm_multiply.
Proof. intros e c. unfold resolve. destruct (existsb _ e); [right; reflexivity|]. destruct (cpu_has_bmi2_and_adx c); [left|right]; reflexivity. Qed.
(** the two-flag summary of the selection in AsmCode.v, by which [is_multiplier] is defined, is the selection made at load time *)
Theorem C60_summary : forall environ cpuid, resolve environ cpuid = resolve_blsmul (existsb (has_prefix disable_str) environ) (cpu_has_bmi2_and_adx cpuid) /\
  resolve_init cpuid = resolve_blsmul false (cpu_has_bmi2_and_adx cpuid).
Proof. intros e c. unfold resolve, resolve_init, resolve_blsmul. destruct (existsb _ e), (cpu_has_bmi2_and_adx c); split; reflexivity. Qed.
(** the choice does not affect any result *)
Theorem C60_same_results : forall e1 c1 e2 c2 x y, six x -> six y ->
  b_multiply (x86 (resolve e1 c1)) x y = b_multiply (x86 (resolve e2 c2)) x y /\ b_square (x86 (resolve e1 c1)) x = b_multiply (x86 (resolve e2 c2)) x x.
Proof.
  intros e1 c1 e2 c2 x y Hx Hy. pose proof (x86_ok _ (resolve_is e1 c1)) as B1. pose proof (x86_ok _ (resolve_is e2 c2)) as B2. split.
  - destruct (ok_mul _ B1 x y Hx Hy) as [S1 V1]. destruct (ok_mul _ B2 x y Hx Hy) as [S2 V2]. apply six_val_inj; [exact S1|exact S2|]. rewrite V1, V2. reflexivity.
  - destruct (ok_sqr _ B1 x Hx) as [S1 V1]. destruct (ok_mul _ B2 x x Hx Hx) as [S2 V2]. apply six_val_inj; [exact S1|exact S2|]. rewrite V1, V2. reflexivity.
Qed.
(** any variable whose name merely begins with BLS_DISABLE_BMI2 has the effect: "BLS_DISABLE_BMI2X=0" *)
Example C60_prefix : resolve [[65; 61; 49]; disable_str ++ [88; 61; 48]] (fun _ => (7, 2 ^ 8 + 2 ^ 19)) = asm_multiply /\
  resolve [[65; 61; 49]] (fun _ => (7, 2 ^ 8 + 2 ^ 19)) = asm_mul_ex /\ resolve [] (fun _ => (7, 2 ^ 8)) = asm_multiply.
Proof. split; [reflexivity|]. split; reflexivity. Qed.

(** C61: operators <=> and == of fp, fp2, g1, g2 are total orders in which equivalence is identity of all limbs: fit for set and map *)
Theorem C61_total_orders : total_order six l_cmp /\ total_order (fun x => six (fst x) /\ six (snd x)) l2_cmp /\
  total_order (all3 six) l_g1_cmp /\ total_order (all3 (fun x => six (fst x) /\ six (snd x))) l_g2_cmp.
Proof.
  split; [exact l_cmp_order|]. split; [exact l2_cmp_order|]. split; [exact (j_cmp_order six l_cmp l_cmp_order)|exact (j_cmp_order six2 l2_cmp l2_cmp_order)].
Qed.
(** on canonical fp objects == is equality of field elements; the order is that of the Montgomery representatives, not of the elements *)
Theorem C61_fp_equality : forall x y, six x -> six y -> val x < modulus -> val y < modulus ->
  (l_cmp x y = Eq <-> dec (val x) = dec (val y)) /\ (l_cmp x y = Eq <-> l_equal x y = true).
Proof.
  intros x y Hx Hy Lx Ly. rewrite l_cmp_ok, l_equal_ok by assumption. unfold fp_cmp, fp_equal. rewrite Z.compare_eq_iff, Z.eqb_eq. split; [|reflexivity].
  split; [intros ->; reflexivity|]. apply dec_inj; split; solve [apply six_bound; assumption|assumption].
Qed.
Theorem C61_fp_order_refuted : exists x y, six x /\ six y /\ val x < modulus /\ val y < modulus /\
  l_cmp x y = Lt /\ fval (dec (val y)) < fval (dec (val x)).
Proof.
  exists (limbs_of 6 (2 * R1 - MODULUS)), R1l. split; [split; [reflexivity|apply limbs_of_words]|]. split; [exact R1l_six|].
  split; [vm_compute; reflexivity|]. split; [vm_compute; reflexivity|]. split; [vm_compute; reflexivity|].
  change (val R1l) with R1. rewrite dec_R1. replace (val (limbs_of 6 (2 * R1 - MODULUS))) with (fp_add R1 R1) by (vm_compute; reflexivity).
  rewrite dec_add, dec_R1 by exact canon_R1. vm_compute. reflexivity.
Qed.
(** for points == is finer than equal(): every finite point has a second object that equal() identifies with it and == does not *)
Theorem C61_g1_equality_refuted : forall x y z, canon x -> canon y -> canon z -> z <> 0 ->
  exists x' y' z', j_equal fp_ops (mkJ x y z) (mkJ x' y' z') = true /\
    l_g1_cmp (limbs_of 6 x, limbs_of 6 y, limbs_of 6 z) (limbs_of 6 x', limbs_of 6 y', limbs_of 6 z') <> Eq.
Proof.
  intros x y z Cx Cy Cz N. exists x, (fp_neg y), (fp_neg z). destruct (g1_other x y z Cx Cy Cz N) as [E D]. split; [exact E|].
  intros H. assert (L : forall v, six (limbs_of 6 v)) by (intros v; split; [apply limbs_of_length|apply limbs_of_words]).
  apply (proj1 (j_cmp_order six l_cmp l_cmp_order)) in H; [|exact (conj (L _) (conj (L _) (L _)))|exact (conj (L _) (conj (L _) (L _)))].
  assert (B : forall v, canon v -> val (limbs_of 6 v) = v) by (intros v [V1 V2]; apply limbs_of_small; rewrite <- R384_W; pose proof R_M; lia).
  apply (f_equal snd) in H. cbn [snd] in H. apply (f_equal val) in H. rewrite (B z Cz), (B _ (canon_neg z Cz)) in H. exact (D (eq_sym H)).
Qed.
Example C61_example : l_g1_cmp (l_1, l_1, l_zero) (l_1, l_zero, R1l) = Gt /\ l2_cmp (l_zero, R1l) (l_1, l_zero) = Lt.
Proof. split; reflexivity. Qed.

Definition props_limb := (C59_assembly_calls, C59_assembly_calls1, C59_x86_primitives, C59_predicates, C59_div2, C59_mul2, C59_conversions, C59_exp_sqrt, C59_bytes, C59_inverse, C59_inverse_portable_refuted, C60_always_a_multiplier, C60_mul_ex_iff, C60_baseline, C60_summary, C60_same_results, C61_total_orders, C61_fp_equality, C61_fp_order_refuted, C61_g1_equality_refuted).
Print Assumptions props_limb.
