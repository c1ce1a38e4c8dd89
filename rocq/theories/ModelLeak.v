(** What an execution of src/arithmetic.s shows to an observer of the memory bus: the sequence of
    addresses read and written.  The routines contain no jumps (the lists of AsmCode.v are straight-line
    transcriptions of arithmetic.s:1-1269), so the sequence of instructions is fixed and the addresses are the
    only remaining data-dependent part of the model of X86.v.
    Simplification: the latency of an instruction is not modelled; none of the instructions used (mov, push,
    pop, add, adc, sub, sbb, xor, mul, mulx, adcx, adox, cmovae) is documented to have operand-dependent latency. *)
From Coq Require Import ZArith List Bool.
From Verif Require Import ModelWord ModelScalar ModelPrim ModelFp ModelTower ModelCurve X86.
Import ListNotations.
Local Open Scope Z_scope.

Inductive event := Rd (a : Z) | Wr (a : Z).

(** Accesses made by reading / writing an operand (arithmetic.s: off(base) operands). *)
Definition rd_ev (o : operand) (s : state) : list event :=
  match o with M b off => [Rd (get b s + off)] | _ => [] end.
Definition wr_ev (o : operand) (s : state) : list event :=
  match o with M b off => [Wr (get b s + off)] | _ => [] end.
(** Accesses of one instruction; a conditional move reads its source whatever the condition. *)
Definition events (i : instr) (s : state) : list event :=
  match i with
  | Mov d src => rd_ev src s ++ wr_ev d s
  | Push src => rd_ev src s ++ [Wr (get RSP s - 8)]
  | Pop d => [Rd (get RSP s)]
  | Add d src | Adc d src | Sub d src | Sbb d src | Xor d src | Adcx d src | Adox d src
  | Cmovae d src => rd_ev d s ++ rd_ev src s ++ wr_ev d s
  | Mul src | Mulx _ _ src => rd_ev src s
  end.
(** Accesses of a run of X86.run, in order; [None] if the run fails. *)
Fixpoint leak (is : list instr) (s : state) : option (list event) :=
  match is with
  | [] => Some []
  | i :: is =>
      match step i s with
      | Some s' => match leak is s' with Some l => Some (events i s ++ l) | None => None end
      | None => None
      end
  end.

(** Point operations performed by scale (scalar.hpp:330-362; g1 and g2 have the same body): the loop of
    ModelScalar.scale_loop with the calls of add and dbl written to a log, in the order of execution. *)
Inductive gop := GAdd | GDbl.
Fixpoint tscale_loop {T} (dbl : T -> T) (add : T -> T -> T) (s : list Z) (n i : nat) (q nn : T) (log : list gop)
  : T * list gop :=
  match n with
  | O => (q, log)
  | S n =>
      let '(q, log) := if sbit s i then (add q nn, log ++ [GAdd]) else (q, log) in   (* scalar.hpp:338-341 *)
      tscale_loop dbl add s n (S i) q (dbl nn) (log ++ [GDbl])                       (* scalar.hpp:342 *)
  end.
Definition tscale {T} (zero : T) (dbl : T -> T) (add : T -> T -> T) (x : T) (s : list Z) : T * list gop :=
  tscale_loop dbl add s (Z.to_nat (bitLength s)) 0 zero x [].

(** Branches taken by fp::inverse (fp.cpp:221-323): ModelFp.inv_loop with the branch of each iteration of the loop
    fp.cpp:242-274 written to a log.  IUeven = fp.cpp:249-253, IVeven = 254-258, IUgt = 259-265, ILe = 266-272. *)
Inductive iop := IUeven | IVeven | IUgt | ILe.
Fixpoint tinv_loop (fuel : nat) (u v s r k : Z) (log : list iop) : option (Z * Z) * list iop :=
  match fuel with
  | O => (None, log)
  | S fuel =>
      if fp_isZero v then (Some (r, k), log)                                                                          (* fp.cpp:244-248 *)
      else if fp_isEven u then tinv_loop fuel (fp_div2 u) v (fp_mul2 s) r (k + 1) (log ++ [IUeven])
      else if fp_isEven v then tinv_loop fuel u (fp_div2 v) s (fp_mul2 r) (k + 1) (log ++ [IVeven])
      else match fp_cmp u v with
           | Gt => tinv_loop fuel (fp_div2 (fp_lsub u v)) v (fp_mul2 s) (fp_ladd r s) (k + 1) (log ++ [IUgt])
           | _ => tinv_loop fuel u (fp_div2 (fp_lsub v u)) (fp_ladd s r) (fp_mul2 r) (k + 1) (log ++ [ILe])
           end
  end.
(** fp.cpp:223-275; the argument 0 returns before the loop, with an empty log.  The code after the loop
    (fp.cpp:276-323, ModelFp.fp_inverse_opt) is a function of the outcome of the loop. *)
Definition tinv (x : Z) : option (Z * Z) * list iop :=
  if fp_isZero x then (None, []) else tinv_loop 768 MODULUS x 1 0 0 [].

(** g1::affine (g.cpp:315-330) with the branches of its call of fp::inverse (g.cpp:323); nothing is logged when it returns early. *)
Definition tg1_affine (p : g1) : g1 * list iop :=
  if g1_isZero p || g1_isAffine p then (p, [])
  else (g1_affine p, snd (tinv (jz p))).
(** public_key (signatures.cpp:438-441) *)
Definition tpublic_key (sk : list Z) : g1 * list iop := tg1_affine (g1_scale g1_BASE sk).
