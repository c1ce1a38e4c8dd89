(** Property C65: the assembly routines have data-independent access patterns and stay inside their objects.
    [leak] (ModelLeak.v) is the ordered sequence of memory accesses of a run; there are no jumps. *)
From Coq Require Import ZArith List Lia.
From Verif Require Import ModelWord ModelScalar ScalarProof KeysProof X86 AsmCode ModelLeak LeakProof.
Import ListNotations.
Local Open Scope Z_scope.

Definition two_operands : list (list instr) := [asm_add; asm_ladd; asm_subtract; asm_lsubtract; asm_multiply; asm_mul_ex].
Definition one_operand : list (list instr) := [asm_double; asm_ldouble; asm_negate].

(** The run succeeds from every state (no undefined flag is ever consumed) and two runs called with the same
    pointers perform the same accesses in the same order, whatever the contents of memory, the other registers
    and the flags.  Nothing is assumed about the objects: they may overlap each other or the stack. *)
Theorem C65_trace2 : forall code s1 s2, In code two_operands ->
  rdi s1 = rdi s2 -> rsi s1 = rsi s2 -> rdx s1 = rdx s2 -> rsp s1 = rsp s2 ->
  exists l, leak code s1 = Some l /\ leak code s2 = Some l.
Proof.
  intros code s1 s2 H E1 E2 E3 E4. cbn [In two_operands] in H.
  destruct H as [<-|[<-|[<-|[<-|[<-|[<-|[]]]]]]];
    [apply (check_leak true 5)|apply (check_leak true 0)|apply (check_leak true 5)|apply (check_leak true 0)
    |apply (check_leak true 17)|apply (check_leak true 17)]; auto using
    check_add, check_ladd, check_subtract, check_lsubtract, check_multiply, check_mul_ex.
Qed.
Theorem C65_trace1 : forall code s1 s2, In code one_operand ->
  rdi s1 = rdi s2 -> rsi s1 = rsi s2 -> rsp s1 = rsp s2 ->
  exists l, leak code s1 = Some l /\ leak code s2 = Some l.
Proof.
  intros code s1 s2 H E1 E2 E4. cbn [In one_operand] in H.
  destruct H as [<-|[<-|[<-|[]]]];
    [apply (check_leak false 5)|apply (check_leak false 0)|apply (check_leak false 0)]; auto using
    check_double, check_ldouble, check_negate; discriminate.
Qed.

(** Stack words used below the stack pointer. *)
Definition stack_words (code : list instr) (n : Z) : Prop :=
  (n = 5 /\ In code [asm_add; asm_double; asm_subtract]) \/
  (n = 0 /\ In code [asm_ladd; asm_ldouble; asm_lsubtract; asm_negate]) \/
  (n = 17 /\ In code [asm_multiply; asm_mul_ex]).
(** No access outside the objects: every read is of a limb of *x (rsi), of a limb of *y (rdx) or of the own
    stack words; every write is of a limb of *z (rdi) or of the own stack words; *z is never read. *)
Theorem C65_bounds : forall code n s, stack_words code n ->
  exists l, leak code s = Some l /\
    (forall a, In (Rd a) l -> rsi s <= a <= rsi s + 40 \/ (In code two_operands /\ rdx s <= a <= rdx s + 40)
                              \/ rsp s - 8 * n <= a <= rsp s - 8) /\
    (forall a, In (Wr a) l -> rdi s <= a <= rdi s + 40 \/ rsp s - 8 * n <= a <= rsp s - 8).
Proof.
  assert (A : forall two n code s, check two n code = true -> (two = true -> In code two_operands) ->
    exists l, leak code s = Some l /\
    (forall a, In (Rd a) l -> rsi s <= a <= rsi s + 40 \/ (In code two_operands /\ rdx s <= a <= rdx s + 40)
                              \/ rsp s - 8 * n <= a <= rsp s - 8) /\
    (forall a, In (Wr a) l -> rdi s <= a <= rdi s + 40 \/ rsp s - 8 * n <= a <= rsp s - 8)).
  { intros two n code s C T. destruct (check_bounds _ _ _ s C) as (l & E & B). exists l. split; [exact E|].
    split; intros a H; destruct (B _ H) as [(b & Eb & D)|(b & Eb & D)]; try discriminate; injection Eb as <-.
    - destruct D as [(k & K & [D|(D1 & D2)])|D]; [left; lia| |right; right; exact D].
      right; left. split; [apply T, D1|lia].
    - exact D. }
  intros code n s H. unfold stack_words in H. cbn [In] in H.
  destruct H as [(-> & [<-|[<-|[<-|[]]]])|[(-> & [<-|[<-|[<-|[<-|[]]]]])|(-> & [<-|[<-|[]]])]];
    [apply (A true)|apply (A false)|apply (A true)|apply (A true)|apply (A false)|apply (A true)|apply (A false)
    |apply (A true)|apply (A true)]; try discriminate; try (intros _; cbn [In two_operands]; tauto);
    auto using check_add, check_ladd, check_subtract, check_lsubtract, check_multiply, check_mul_ex,
      check_double, check_ldouble, check_negate.
Qed.

(** Example: the notion is not trivial.  A table lookup indexed by a limb has different traces for different
    data with equal pointers, while asm_negate has the same twelve accesses. *)
Definition st (m : Z -> Z) : state := mkst 0 0 0 3000 2000 1000 0 9000 0 0 0 0 0 0 0 0 None None m.
Example C65_example :
  leak [Mov (R RAX) (M RSI 0); Mov (R RBX) (M RAX 0)] (st (fun _ => 5)) = Some [Rd 2000; Rd 5] /\
  leak [Mov (R RAX) (M RSI 0); Mov (R RBX) (M RAX 0)] (st (fun _ => 6)) = Some [Rd 2000; Rd 6] /\
  leak [Adc (R RAX) (R RBX)] (st (fun _ => 6)) = None /\
  leak asm_negate (st (fun _ => 5)) =
    Some [Rd 2000; Rd 2008; Rd 2016; Rd 2024; Rd 2032; Rd 2040; Wr 1000; Wr 1008; Wr 1016; Wr 1024; Wr 1032; Wr 1040].
Proof. vm_compute. repeat split. Qed.


(** C66: scale is not constant time.  [tscale] is scale with a log of the calls of dbl and add; it computes
    the same point, and the log - which does not depend on the point - is enough to compute the scalar.
    sign, public_key and proof_of_possession call scale with the secret key. *)
Theorem C66_scale : forall (T : Type) (zero : T) dbl add x s,
  fst (tscale zero dbl add x s) = gscale zero dbl add x s.
Proof. intros. rewrite tscale_eq. reflexivity. Qed.
Theorem C66_log_reveals : exists observer : list gop -> Z,
  forall (T : Type) (zero : T) dbl add x s, words s -> observer (snd (tscale zero dbl add x s)) = val s.
Proof. exists read_ops. intros. rewrite tscale_eq. apply read_ops_ok; auto. Qed.
(** In particular two scalars have the same log exactly when they are equal as numbers (of any lengths) ... *)
Theorem C66_log_inj : forall (T U : Type) (zero : T) dbl add x (zero' : U) dbl' add' x' s s',
  words s -> words s' ->
  (snd (tscale zero dbl add x s) = snd (tscale zero' dbl' add' x' s') <-> val s = val s').
Proof. exact tscale_inj. Qed.
(** ... and the log leaks nothing beyond the scalar (the point does not influence it): number of doublings =
    position of the top bit, number of additions = number of one bits. *)
Theorem C66_log_length : forall (T : Type) (zero : T) dbl add x s, words s ->
  let log := snd (tscale zero dbl add x s) in
  Z.of_nat (length (filter (fun o => match o with GDbl => true | GAdd => false end) log)) =
    (if val s =? 0 then 0 else Z.log2 (val s) + 1) /\
  length (filter (fun o => match o with GAdd => true | GDbl => false end) log) =
    length (filter (fun i => Z.testbit (val s) (Z.of_nat i)) (seq 0 (64 * length s))).
Proof. exact tscale_counts. Qed.

(** the key 0x16 = 10110b: three additions, five doublings *)
Example C66_example :
  words [22; 0; 0; 0] /\
  tscale 0 (fun x => 2 * x) Z.add 7 [22; 0; 0; 0] = (154, [GDbl; GAdd; GDbl; GAdd; GDbl; GDbl; GAdd; GDbl]) /\
  snd (tscale 0 (fun x => 2 * x) Z.add 9 [22; 0; 0; 0]) <> snd (tscale 0 (fun x => 2 * x) Z.add 9 [23; 0; 0; 0]).
Proof. split; [apply wordsb_ok; reflexivity|]. split; [reflexivity|]. vm_compute. discriminate. Qed.

Definition props_leak := (C65_trace2, C65_trace1, C65_bounds, C66_scale, C66_log_reveals, C66_log_inj, C66_log_length).
Print Assumptions props_leak.
