(** Model of the x86-64 subset used by src/arithmetic.s (instructions mov, push, pop, add, adc, sub,
    sbb, xor, mul, mulx, adcx, adox, cmovae; 64-bit operands only).

    Simplifications, all stated here:
    - memory is a map from addresses to 64-bit words: every access of arithmetic.s is an aligned
      8-byte access (uint64_t objects and pushes), so words at distinct (aligned) addresses are disjoint;
    - effective addresses are computed in Z, i.e. objects do not wrap around the end of the address space;
    - only CF and OF exist; OF is [None] ("unknown") after add/adc/sub/sbb/mul, and an instruction that
      would read an unknown flag makes the run fail ([None]), so a successful run never depends on it;
    - retq is the end of the instruction list; the return address is not modelled. *)
From Coq Require Import ZArith List.
From Verif Require Import ModelWord.
Import ListNotations.
Local Open Scope Z_scope.

Inductive reg := RAX | RBX | RCX | RDX | RSI | RDI | RBP | RSP
               | R8 | R9 | R10 | R11 | R12 | R13 | R14 | R15.
Inductive operand :=
  | R (r : reg)                 (* register *)
  | I (z : Z)                   (* immediate *)
  | M (base : reg) (off : Z).   (* off(base) *)

(** Operand order is (destination, source), the reverse of AT&T syntax. *)
Inductive instr :=
  | Mov (dst src : operand) | Push (src : operand) | Pop (dst : reg)
  | Add (dst src : operand) | Adc (dst src : operand)
  | Sub (dst src : operand) | Sbb (dst src : operand)
  | Xor (dst src : operand)            (* only used as  xor r,r *)
  | Mul (src : operand)                (* rdx:rax := rax * src *)
  | Mulx (hi lo : reg) (src : operand) (* hi:lo := rdx * src, no flags; AT&T: mulx src,lo,hi *)
  | Adcx (dst src : operand) | Adox (dst src : operand)
  | Cmovae (dst src : operand).        (* move if CF = 0 *)

Record state := mkst {
  rax : Z; rbx : Z; rcx : Z; rdx : Z; rsi : Z; rdi : Z; rbp : Z; rsp : Z;
  r8 : Z; r9 : Z; r10 : Z; r11 : Z; r12 : Z; r13 : Z; r14 : Z; r15 : Z;
  cf : option Z; ovf : option Z; mem : Z -> Z }.

Definition get (r : reg) (s : state) : Z :=
  match r with
  | RAX => rax s | RBX => rbx s | RCX => rcx s | RDX => rdx s
  | RSI => rsi s | RDI => rdi s | RBP => rbp s | RSP => rsp s
  | R8 => r8 s | R9 => r9 s | R10 => r10 s | R11 => r11 s
  | R12 => r12 s | R13 => r13 s | R14 => r14 s | R15 => r15 s
  end.
Definition set (r : reg) (v : Z) (s : state) : state :=
  let '(mkst a b c d si di bp sp e8 e9 e10 e11 e12 e13 e14 e15 f o m) := s in
  match r with
  | RAX => mkst v b c d si di bp sp e8 e9 e10 e11 e12 e13 e14 e15 f o m
  | RBX => mkst a v c d si di bp sp e8 e9 e10 e11 e12 e13 e14 e15 f o m
  | RCX => mkst a b v d si di bp sp e8 e9 e10 e11 e12 e13 e14 e15 f o m
  | RDX => mkst a b c v si di bp sp e8 e9 e10 e11 e12 e13 e14 e15 f o m
  | RSI => mkst a b c d v di bp sp e8 e9 e10 e11 e12 e13 e14 e15 f o m
  | RDI => mkst a b c d si v bp sp e8 e9 e10 e11 e12 e13 e14 e15 f o m
  | RBP => mkst a b c d si di v sp e8 e9 e10 e11 e12 e13 e14 e15 f o m
  | RSP => mkst a b c d si di bp v e8 e9 e10 e11 e12 e13 e14 e15 f o m
  | R8 => mkst a b c d si di bp sp v e9 e10 e11 e12 e13 e14 e15 f o m
  | R9 => mkst a b c d si di bp sp e8 v e10 e11 e12 e13 e14 e15 f o m
  | R10 => mkst a b c d si di bp sp e8 e9 v e11 e12 e13 e14 e15 f o m
  | R11 => mkst a b c d si di bp sp e8 e9 e10 v e12 e13 e14 e15 f o m
  | R12 => mkst a b c d si di bp sp e8 e9 e10 e11 v e13 e14 e15 f o m
  | R13 => mkst a b c d si di bp sp e8 e9 e10 e11 e12 v e14 e15 f o m
  | R14 => mkst a b c d si di bp sp e8 e9 e10 e11 e12 e13 v e15 f o m
  | R15 => mkst a b c d si di bp sp e8 e9 e10 e11 e12 e13 e14 v f o m
  end.
Definition set_flags (c o : option Z) (s : state) : state :=
  let '(mkst a b c0 d si di bp sp e8 e9 e10 e11 e12 e13 e14 e15 _ _ m) := s in
  mkst a b c0 d si di bp sp e8 e9 e10 e11 e12 e13 e14 e15 c o m.
Definition upd (m : Z -> Z) (a v : Z) : Z -> Z := fun b => if b =? a then v else m b.
Definition set_mem (a v : Z) (s : state) : state :=
  let '(mkst x b c d si di bp sp e8 e9 e10 e11 e12 e13 e14 e15 f o m) := s in
  mkst x b c d si di bp sp e8 e9 e10 e11 e12 e13 e14 e15 f o (upd m a v).

Definition read (o : operand) (s : state) : Z :=
  match o with R r => get r s | I z => z | M b off => mem s (get b s + off) end.
Definition write (o : operand) (v : Z) (s : state) : option state :=
  match o with
  | R r => Some (set r v s)
  | I _ => None
  | M b off => Some (set_mem (get b s + off) v s)
  end.

(** 64-bit arithmetic with carry / borrow. *)
Definition addlo (a b c : Z) : Z := (a + b + c) mod W.
Definition addhi (a b c : Z) : Z := (a + b + c) / W.
Definition sublo (a b c : Z) : Z := (a - b - c) mod W.
Definition subhi (a b c : Z) : Z := - ((a - b - c) / W).
Definition mullo (a b : Z) : Z := (a * b) mod W.
Definition mulhi (a b : Z) : Z := (a * b) / W.

Definition step (i : instr) (s : state) : option state :=
  match i with
  | Mov d src => write d (read src s) s
  | Push src => Some (set RSP (get RSP s - 8) (set_mem (get RSP s - 8) (read src s) s))
  | Pop d => Some (set d (mem s (get RSP s)) (set RSP (get RSP s + 8) s))
  | Add d src =>
      let a := read d s in let b := read src s in
      write d (addlo a b 0) (set_flags (Some (addhi a b 0)) None s)
  | Adc d src =>
      match cf s with
      | Some c => let a := read d s in let b := read src s in
                  write d (addlo a b c) (set_flags (Some (addhi a b c)) None s)
      | None => None
      end
  | Sub d src =>
      let a := read d s in let b := read src s in
      write d (sublo a b 0) (set_flags (Some (subhi a b 0)) None s)
  | Sbb d src =>
      match cf s with
      | Some c => let a := read d s in let b := read src s in
                  write d (sublo a b c) (set_flags (Some (subhi a b c)) None s)
      | None => None
      end
  | Xor d src =>
      write d (Z.lxor (read d s) (read src s)) (set_flags (Some 0) (Some 0) s)
  | Mul src =>
      let a := rax s in let b := read src s in
      Some (set_flags None None (set RDX (mulhi a b) (set RAX (mullo a b) s)))
  | Mulx h l src =>
      let a := rdx s in let b := read src s in
      Some (set h (mulhi a b) (set l (mullo a b) s))
  | Adcx d src =>
      match cf s with
      | Some c => let a := read d s in let b := read src s in
                  write d (addlo a b c) (set_flags (Some (addhi a b c)) (ovf s) s)
      | None => None
      end
  | Adox d src =>
      match ovf s with
      | Some c => let a := read d s in let b := read src s in
                  write d (addlo a b c) (set_flags (cf s) (Some (addhi a b c)) s)
      | None => None
      end
  | Cmovae d src =>
      match cf s with
      | Some c => write d (if c =? 0 then read src s else read d s) s
      | None => None
      end
  end.

Fixpoint run (is : list instr) (s : state) : option state :=
  match is with
  | [] => Some s
  | i :: is => match step i s with Some s' => run is s' | None => None end
  end.

(** The six 64-bit limbs of an fp object (fp.hpp: std::array<uint64_t,6> d) at byte address [a]. *)
Definition limbs_at (m : Z -> Z) (a : Z) : list Z :=
  [m a; m (a + 8); m (a + 16); m (a + 24); m (a + 32); m (a + 40)].
Definition fp_at (m : Z -> Z) (a : Z) : Z := val (limbs_at m a).

(** System V calling convention: registers a callee must restore. *)
Definition callee_saved_kept (s s' : state) : Prop :=
  rbx s' = rbx s /\ rbp s' = rbp s /\ rsp s' = rsp s /\
  r12 s' = r12 s /\ r13 s' = r13 s /\ r14 s' = r14 s /\ r15 s' = r15 s.
(** Only the fp object at [z] and the [n] stack words below the stack pointer may differ. *)
Definition only_changes (s s' : state) (z n : Z) : Prop :=
  forall a, ~ (z <= a < z + 48) -> ~ (rsp s - 8 * n <= a < rsp s) -> mem s' a = mem s a.
(** The 6-word object at [a] does not meet the [n] stack words below [sp]. *)
Definition off_stack (a sp n : Z) : Prop := a + 48 <= sp - 8 * n \/ sp <= a.
Definition words_at (m : Z -> Z) (a : Z) : Prop := Forall word (limbs_at m a).
