(** C83: when do a build with the portable arithmetic (p_..., arithmetic.cpp:12-144, 197-428) and an x86-64 build agree? *)
From Coq Require Import ZArith List Bool Lia.
From Verif Require Import SpecBytes SpecField ModelWord ModelScalar ModelPrim ModelFp PortArith ModelLimb.
From Verif Require Import ScalarProof CarryProof FpProof LimbProof Properties_Scalar PortAgree.
From Verif Require X86 AsmCode AsmSpec Properties_Limb.
Import ListNotations.
Local Open Scope Z_scope.

(** every operation of the interface, on canonical operands: equal results exactly when no carry is lost; multiplication always;
    squaring at least when no product of two limbs is near 2^128 *)
Theorem C83_canonical : forall code, AsmSpec.is_multiplier code -> forall x y, canonical x -> canonical y ->
  (b_add portable x y = b_add (x86 code) x y <-> add_lossless x y) /\
  (b_double portable x = b_double (x86 code) x <-> add_lossless x x) /\
  (b_subtract portable x y = b_subtract (x86 code) x y <-> sub_lossless x y) /\
  (b_negate portable x = b_negate (x86 code) x <-> sub_lossless MODl x) /\
  b_multiply portable x y = b_multiply (x86 code) x y /\
  (no_top_product x -> b_square portable x = b_square (x86 code) x).
Proof.
  intros code M x y Hx Hy. pose proof (canonical_six _ Hx) as Sx. pose proof (canonical_six _ Hy) as Sy.
  destruct (Properties_Limb.C59_x86_primitives code M x y Sx Sy) as ((A1 & A2) & _ & (D1 & D2) & _ & (S1 & S2) & _ & (N1 & N2) & (M1 & M2) & (Q1 & Q2)).
  pose proof (canonical_canon _ Hx) as Cx. pose proof (canonical_canon _ Hy) as Cy.
  destruct (fp_add_ok _ _ Cx Cy) as (_ & _ & EA). destruct (fp_add_ok _ _ Cx Cx) as (_ & _ & ED).
  destruct (fp_sub_ok _ _ Cx Cy) as (_ & _ & ES). destruct (fp_neg_ok _ Cx) as (_ & _ & EN).
  rewrite EA in A2. rewrite fp_double_add, ED, Z.add_diag in D2. rewrite ES in S2. rewrite EN in N2.
  change MODULUS with modulus in A2, D2, S2, N2.
  assert (INJ : forall a b, six a -> six b -> val a = val b -> a = b).
  { intros a b (La & Ha) (Lb & Hb) E. apply val_inj; congruence. }
  change (b_add portable) with p_add. change (b_double portable) with p_double. change (b_subtract portable) with p_subtract.
  change (b_negate portable) with p_negate. change (b_multiply portable) with p_multiply. change (b_square portable) with p_square.
  assert (MM : forall z, canonical z -> six (p_multiply x z) /\ val (p_multiply x z) = fp_mul (val x) (val z)).
  { intros z Hz. destruct Sx as (Lx & Wx). destruct Hz as (Lz & Wz & Bz).
    destruct (C07_multiply x z Lx Wx Lz Wz) as (L & H & V); [|split; [split; assumption|exact V]].
    assert (modulus + modulus <= 2 ^ 384) by discriminate. lia. }
  split; [|split; [|split; [|split; [|split]]]].
  - split; [intros E; apply (C06_add_iff x y Hx Hy); rewrite E; exact A2|intros L].
    destruct (C06_add x y Hx Hy L) as (C & V). apply INJ; [exact (canonical_six _ C)|exact A1|congruence].
  - split; [intros E; apply (C06_double_iff x Hx); rewrite E; exact D2|intros L].
    destruct (C06_double x Hx L) as (C & V). apply INJ; [exact (canonical_six _ C)|exact D1|congruence].
  - split; [intros E; apply (C06_subtract_iff x y Hx Hy); rewrite E; exact S2|intros L].
    destruct (C06_subtract x y Hx Hy L) as (C & V). apply INJ; [exact (canonical_six _ C)|exact S1|congruence].
  - split; [intros E; apply (C06_negate_iff x Hx); rewrite E; exact N2|intros L].
    destruct (C06_negate x Hx L) as (C & V). apply INJ; [exact (canonical_six _ C)|exact N1|congruence].
  - destruct (MM y Hy) as (S & V). apply INJ; [exact S|exact M1|congruence].
  - intros T. rewrite (C07_square x Hx T). destruct (MM x Hx) as (S & V). apply INJ; [exact S|exact Q1|congruence].
Qed.
(** the three operations without reduction, on any six limbs *)
Theorem C83_unreduced : forall code, AsmSpec.is_multiplier code -> forall x y, six x -> six y ->
  (b_ladd portable x y = b_ladd (x86 code) x y <-> add_lossless x y) /\
  (b_ldouble portable x = b_ldouble (x86 code) x <-> add_lossless x x) /\
  (b_lsubtract portable x y = b_lsubtract (x86 code) x y <-> sub_lossless x y).
Proof.
  intros code M x y (Lx & Wx) (Ly & Wy).
  destruct (Properties_Limb.C59_x86_primitives code M x y (conj Lx Wx) (conj Ly Wy)) as (_ & (A1 & A2) & _ & (D1 & D2) & _ & (S1 & S2) & _).
  destruct (C06_unreduced_iff x y Lx Wx Ly Wy) as (IA & ID & IS).
  assert (INJ : forall a b, six a -> six b -> val a = val b -> a = b).
  { intros a b (La & Ha) (Lb & Hb) E. apply val_inj; congruence. }
  change (b_ladd portable) with p_ladd. change (b_ldouble portable) with p_ldouble. change (b_lsubtract portable) with p_lsubtract.
  destruct (add_chain_six x y (conj Lx Wx) (conj Ly Wy)) as (PA & _).
  destruct (add_chain_six x x (conj Lx Wx) (conj Lx Wx)) as (PD & _).
  destruct (sub_chain_six x y (conj Lx Wx) (conj Ly Wy)) as (PS & _).
  split; [|split].
  - rewrite <- IA. split; [intros ->; exact A2|intros V; apply INJ; [exact PA|exact A1|congruence]].
  - rewrite <- ID. split; [intros ->; exact D2|intros V; apply INJ; [exact PD|exact D1|congruence]].
  - rewrite <- IS. split; [intros ->; exact S2|intros V; apply INJ; [exact PS|exact S1|congruence]].
Qed.
(** the second operands for which some first operand gives a wrong result are the same for addition and subtraction: those with an
    all-ones limb, not the highest one, above a limb that is not 0 *)
Definition dangerous (y : list Z) : Prop := exists i, (0 < i < 5)%nat /\ nth i y 0 = 2 ^ 64 - 1 /\ val (firstn i y) <> 0.
Definition top_zero : list Z := [2 ^ 64 - 1; 2 ^ 64 - 1; 2 ^ 64 - 1; 2 ^ 64 - 1; 2 ^ 64 - 1; 0].
Lemma firstn_six i y : six y -> 0 <= val (firstn i y).
Proof. intros (_ & H). apply val_nonneg. rewrite <- (firstn_skipn i) in H. apply Forall_app in H. apply H. Qed.
Lemma lossy_dangerous x y : six x -> six y -> ~ add_lossless x y \/ ~ sub_lossless x y -> dangerous y.
Proof.
  intros Hx Hy LL. pose proof (fun i => firstn_six i x Hx) as Px. pose proof (fun i => firstn_six i y Hy) as Py.
  assert (D : {dangerous y} + {~ dangerous y}).
  { destruct (Exists_dec (fun i => nth i y 0 = 2 ^ 64 - 1 /\ val (firstn i y) <> 0) (seq 1 4)) as [E|N].
    - intros i. destruct (Z.eq_dec (nth i y 0) (2 ^ 64 - 1)); [|right; tauto]. destruct (Z.eq_dec (val (firstn i y)) 0); [right; tauto|left; tauto].
    - left. apply Exists_exists in E. destruct E as (i & J & E). apply in_seq in J. exists i. split; [lia|exact E].
    - right. intros (i & Hi & E). apply N, Exists_exists. exists i. split; [apply in_seq; lia|exact E]. }
  destruct D as [D|N]; [exact D|exfalso].
  assert (Z : forall i, (i < 5)%nat -> nth i y 0 = 2 ^ 64 - 1 -> val (firstn i y) = 0).
  { intros i Hi E. destruct i as [|i]; [reflexivity|]. destruct (Z.eq_dec (val (firstn (S i) y)) 0) as [V|V]; [exact V|]. exfalso. apply N. exists (S i). split; [lia|auto]. }
  destruct LL as [LL|LL]; apply LL; intros i Hi E; specialize (Z i Hi E).
  - unfold carry_arrives. rewrite Z. destruct Hx as (Lx & Wx). assert (Wf : words (firstn i x)) by (rewrite <- (firstn_skipn i) in Wx; apply Forall_app in Wx; apply Wx).
    pose proof (val_bound _ Wf) as B. rewrite firstn_length, Lx, Nat.min_l in B by lia. lia.
  - unfold borrow_arrives. rewrite Z. specialize (Px i). lia.
Qed.
Lemma dangerous_lossy y : six y -> dangerous y -> ~ add_lossless top_zero y /\ ~ sub_lossless (repeat 0 6) y.
Proof.
  intros Hy (i & Hi & E & V). pose proof (firstn_six i y Hy) as P. split; intros L; apply (L i ltac:(lia) E).
  - unfold carry_arrives. assert (T : val (firstn i top_zero) = W ^ Z.of_nat i - 1); [|lia].
    do 5 (destruct i as [|i]; [reflexivity|]). lia.
  - unfold borrow_arrives. assert (T : val (firstn i (repeat 0 6)) = 0); [|lia]. do 5 (destruct i as [|i]; [reflexivity|]). lia.
Qed.
Theorem C83_dangerous : forall code, AsmSpec.is_multiplier code -> forall y, canonical y ->
  ((exists x, canonical x /\ b_add portable x y <> b_add (x86 code) x y) <-> dangerous y) /\
  ((exists x, canonical x /\ b_subtract portable x y <> b_subtract (x86 code) x y) <-> dangerous y).
Proof.
  intros code M y Hy. pose proof (canonical_six _ Hy) as Sy. split; split.
  - intros (x & Hx & N). destruct (C83_canonical code M x y Hx Hy) as (A & _). rewrite A in N. exact (lossy_dangerous x y (canonical_six _ Hx) Sy (or_introl N)).
  - intros D. exists top_zero. assert (C : canonical top_zero) by (apply canonicalb_ok; vm_compute; reflexivity). split; [exact C|].
    destruct (C83_canonical code M top_zero y C Hy) as (A & _). rewrite A. apply (dangerous_lossy y Sy D).
  - intros (x & Hx & N). destruct (C83_canonical code M x y Hx Hy) as (_ & _ & A & _). rewrite A in N. exact (lossy_dangerous x y (canonical_six _ Hx) Sy (or_intror N)).
  - intros D. exists (repeat 0 6). assert (C : canonical (repeat 0 6)) by (apply canonicalb_ok; vm_compute; reflexivity). split; [exact C|].
    destruct (C83_canonical code M (repeat 0 6) y C Hy) as (_ & _ & A & _). rewrite A. apply (dangerous_lossy y Sy D).
Qed.
(** there are few of them: at most 4 * 2^320 of the 2^384 six-limb numbers; the operations without reduction are wrong for no others *)
Theorem C83_rare : forall code, AsmSpec.is_multiplier code ->
  (forall l, NoDup l -> (forall y, In y l -> six y /\ dangerous y) -> Z.of_nat (length l) <= 4 * 2 ^ 320) /\
  (forall x y, six x -> six y -> ~ dangerous y -> b_ladd portable x y = b_ladd (x86 code) x y /\ b_lsubtract portable x y = b_lsubtract (x86 code) x y).
Proof.
  intros code M. split.
  - intros l ND C. apply (ones_bound l ND). intros y I. destruct (C y I) as (Hy & i & Hi & E & _). split; [exact Hy|]. exists i. auto.
  - intros x y Hx Hy N. destruct (C83_unreduced code M x y Hx Hy) as (UA & _ & US).
    split; [apply UA|apply US]; intros i Hi E Q; apply N, (lossy_dangerous x y Hx Hy); [left|right]; intros L; exact (L i Hi E Q).
Qed.
(** both kinds of operands exist; the back ends differ on 1 + (2^128 - 1) and 1 - (2^128 - 1) and agree the other way round *)
Example C83_example : canonical w1 /\ canonical wff /\ ~ add_lossless w1 wff /\ add_lossless wff w1 /\ no_top_product w1 /\ dangerous wff /\ ~ dangerous w1 /\
  b_add portable w1 wff <> b_add (x86 AsmCode.asm_mul_ex) w1 wff /\ b_lsubtract portable w1 wff <> b_lsubtract (x86 AsmCode.asm_mul_ex) w1 wff /\
  b_add portable wff w1 = b_add (x86 AsmCode.asm_mul_ex) wff w1 /\ b_subtract portable (repeat 0 6) w1 <> b_lsubtract portable (repeat 0 6) w1.
Proof.
  destruct w_canonical as (A & B & _). split; [exact A|]. split; [exact B|]. split; [apply C06_example|]. split; [apply C06_example|].
  split; [intros i j (H1 & H2); do 5 (destruct j as [|j]; [do 5 (destruct i as [|i]; [vm_compute; reflexivity|]); lia|]); lia|].
  split; [exists 1%nat; split; [lia|]; split; [reflexivity|discriminate]|].
  split; [intros (i & Hi & E & _); do 5 (destruct i as [|i]; [discriminate E || lia|]); lia|].
  split; [vm_compute; discriminate|]. split; [vm_compute; discriminate|]. split; [vm_compute; reflexivity|vm_compute; discriminate].
Qed.

Definition props_port := (C83_canonical, C83_unreduced, C83_dangerous, C83_rare).
Print Assumptions props_port.
