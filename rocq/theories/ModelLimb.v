(** Class fp at the level of its six limbs (src/fp.cpp, fp.hpp), over one of the two arithmetic back ends:
    the assembly of arithmetic.s (as interpreted by X86.v) or the portable code of arithmetic.cpp (PortArith.v).
    An fp is the list of its limbs d[0], ..., d[5].  Also the selection of the x86 multiplier. *)
From Coq Require Import ZArith List Bool.
From Verif Require Import ModelWord ModelScalar ModelPrim ModelFp PortArith X86 AsmCode.
Import ListNotations.
Local Open Scope Z_scope.

(** * Back ends *)
Record backend := mkB {
  b_add : list Z -> list Z -> list Z; b_ladd : list Z -> list Z -> list Z;
  b_double : list Z -> list Z; b_ldouble : list Z -> list Z;
  b_subtract : list Z -> list Z -> list Z; b_lsubtract : list Z -> list Z -> list Z;
  b_negate : list Z -> list Z; b_multiply : list Z -> list Z -> list Z; b_square : list Z -> list Z }.

(** fp.cpp:87-90 *)
Definition l_isZero (x : list Z) : bool :=
  Z.lor (Z.lor (Z.lor (Z.lor (Z.lor (limb x 5) (limb x 4)) (limb x 3)) (limb x 2)) (limb x 1)) (limb x 0) =? 0.

(** A call of an assembly routine: x at 1000, y at 2000, result at 3000, stack pointer 9000; all other registers and
    memory cells have arbitrary fixed contents (C59 shows that none of this matters). *)
Definition call_state (x y : list Z) : state :=
  mkst 11 12 13 2000 1000 3000 14 9000 15 16 17 18 19 20 21 22 None None
    (fun a => if (1000 <=? a) && (a <? 1048) then limb x (Z.to_nat ((a - 1000) / 8))
              else if (2000 <=? a) && (a <? 2048) then limb y (Z.to_nat ((a - 2000) / 8))
              else 77)%bool.
Definition asm_call (code : list instr) (x y : list Z) : list Z :=
  match run code (call_state x y) with Some s' => limbs_at (mem s') 3000 | None => [] end.
(** arithmetic.cpp:118-128 *)
Definition x86_negate (x : list Z) : list Z := if l_isZero x then x else asm_call asm_negate x x.
(** arithmetic.s, arithmetic.cpp:118-196, 319-323 (_square calls __multiply, not the selected multiplier) *)
Definition x86 (multiplier : list instr) : backend :=
  mkB (asm_call asm_add) (asm_call asm_ladd) (fun x => asm_call asm_double x x) (fun x => asm_call asm_ldouble x x)
      (asm_call asm_subtract) (asm_call asm_lsubtract) x86_negate (asm_call multiplier) (fun x => asm_call asm_multiply x x).
(** arithmetic.cpp, the #else branches *)
Definition portable : backend :=
  mkB p_add p_ladd p_double p_ldouble p_subtract p_lsubtract p_negate p_multiply p_square.

(** * Selection of the multiplier *)
(** strncmp(s, t, strlen(t)) == 0 on zero-terminated strings (lists without the terminator) *)
Fixpoint has_prefix (t s : list Z) : bool :=
  match t, s with
  | [], _ => true
  | a :: t, b :: s => (a =? b) && has_prefix t s
  | _ :: _, [] => false
  end.
(** "BLS_DISABLE_BMI2" *)
Definition disable_str : list Z := [66; 76; 83; 95; 68; 73; 83; 65; 66; 76; 69; 95; 66; 77; 73; 50].
(** int32_t from the 32-bit register *)
Definition int32 (v : Z) : Z := if v <? 2 ^ 31 then v else v - 2 ^ 32.
(** arithmetic.cpp:153-164; [cpuid leaf] = (eax, ebx) of the leaf with subleaf 0 *)
Definition cpu_has_bmi2_and_adx (cpuid : Z -> Z * Z) : bool :=
  let nIds := int32 (fst (cpuid 0)) in
  if 7 <=? nIds then
    let info1 := int32 (snd (cpuid 7)) in
    negb (Z.land info1 (Z.shiftl 1 8) =? 0) && negb (Z.land info1 (Z.shiftl 1 19) =? 0)
  else false.
(** arithmetic.cpp:169-182: the environment is scanned up to the terminating null pointer *)
Definition resolve (environ : list (list Z)) (cpuid : Z -> Z * Z) : list instr :=
  if existsb (has_prefix disable_str) environ then asm_multiply
  else if cpu_has_bmi2_and_adx cpuid then asm_mul_ex else asm_multiply.
(** arithmetic.cpp:185-194 (not ELF): static initialisation *)
Definition resolve_init (cpuid : Z -> Z * Z) : list instr :=
  if cpu_has_bmi2_and_adx cpuid then asm_mul_ex else asm_multiply.

(** * Comparisons, shifts *)
(** fp.hpp:54-68 (cmp), 96-97 (operators <=> and ==) *)
Definition l_cmp (x y : list Z) : comparison := cmp_loop 6 x y.
(** fp.cpp:72-75 *)
Definition l_isValid (x : list Z) : bool := match l_cmp x MODl with Lt => true | _ => false end.
(** fp.cpp:77-80 *)
Definition l_isOdd (x : list Z) : bool := negb (Z.land (limb x 0) 1 =? 0).
(** fp.cpp:82-85 *)
Definition l_isEven (x : list Z) : bool := Z.land (limb x 0) 1 =? 0.
(** fp.cpp:97-100 *)
Definition l_equal (x y : list Z) : bool :=
  (limb x 0 =? limb y 0) && (limb x 1 =? limb y 1) && (limb x 2 =? limb y 2) && (limb x 3 =? limb y 3) &&
  (limb x 4 =? limb y 4) && (limb x 5 =? limb y 5).
(** fp.cpp:377-384, 386-393, 413-420 as limbs *)
Definition R1l : list Z := [0x760900000002fffd; 0xebf4000bc40c0002; 0x5f48985753c758ba; 0x77ce585370525745; 0x5c071a97a256ec6d; 0x15f65ec3fa80e493].
Definition R2l : list Z := [0xf4df1f341c341746; 0x0a76e6a609d104f1; 0x8de5476c4c95b6d5; 0x67eb88a9939d83c0; 0x9a793e85b519952d; 0x11988fe592cae3aa].
Definition glvPhi1l : list Z := [0xcd03c9e48671f071; 0x5dab22461fcda5d2; 0x587042afd3851b95; 0x8eb60ebe01bacb9e; 0x03f97d6e83d050d2; 0x18f0206554638741].
(** fp.cpp:92-95 *)
Definition l_isOne (x : list Z) : bool := l_equal x R1l.
(** uint64_t shifts *)
Definition shl64 (a k : Z) : Z := (Z.shiftl a k) mod W.
(** fp.cpp:174-182 *)
Definition l_div2 (x : list Z) (e : Z) : list Z :=
  let h i := Z.lor (Z.shiftr (limb x i) 1) (shl64 (limb x (S i)) 63) in
  [h 0%nat; h 1%nat; h 2%nat; h 3%nat; h 4%nat; Z.lor (Z.shiftr (limb x 5) 1) (shl64 e 63)].
(** fp.cpp:184-194: new value and returned bit *)
Definition l_mul2 (x : list Z) : list Z * Z :=
  let h i := Z.lor (shl64 (limb x (S i)) 1) (Z.shiftr (limb x i) 63) in
  ([shl64 (limb x 0) 1; h 0%nat; h 1%nat; h 2%nat; h 3%nat; h 4%nat], Z.shiftr (limb x 5) 63).

(** * The rest of the class, over a back end *)
Section L.
Context (b : backend).
Definition l_zero : list Z := [0; 0; 0; 0; 0; 0].
Definition l_1 : list Z := [1; 0; 0; 0; 0; 0].
(** fp.cpp:196-201, 203-208, 210-215, 102-105 *)
Definition l_toMont (x : list Z) : list Z := b_multiply b x R2l.
Definition l_fromMont (x : list Z) : list Z := b_multiply b x l_1.
Definition l_phi (x : list Z) : list Z := b_multiply b x glvPhi1l.
Definition l_sign (x : list Z) : bool := Z.land (limb (l_fromMont x) 0) 1 =? 0.
(** fp.cpp:244-278 *)
Fixpoint l_inv_loop (n : nat) (u v s r : list Z) (k : Z) : option (list Z * Z) :=
  match n with
  | O => None
  | S n =>
      if l_isZero v then Some (r, k)
      else if l_isEven u then l_inv_loop n (l_div2 u 0) v (fst (l_mul2 s)) r (k + 1)
      else if l_isEven v then l_inv_loop n u (l_div2 v 0) s (fst (l_mul2 r)) (k + 1)
      else match l_cmp u v with
           | Gt => l_inv_loop n (l_div2 (b_lsubtract b u v) 0) v (fst (l_mul2 s)) (b_ladd b r s) (k + 1)
           | _ => l_inv_loop n u (l_div2 (b_lsubtract b v u) 0) (b_ladd b s r) (fst (l_mul2 r)) (k + 1)
           end
  end.
(** fp.cpp:315-317: fpPower, default-constructed, one limb set; None = index out of the array *)
Definition l_power (power : Z) : option (list Z) :=
  let i := power / 64 in
  if (0 <=? i) && (i <? 6) then
    Some (map (fun j => if Z.of_nat j =? i then shl64 1 (power mod 64) else 0) (seq 0 6))
  else None.
(** fp.cpp:221-323; None = an array index out of bounds *)
Definition l_inverse (x : list Z) : option (list Z) :=
  if l_isZero x then Some l_zero
  else match l_inv_loop 768 MODl x l_1 l_zero 0 with
       | None => Some l_zero
       | Some (r, k) =>
           let r := match l_cmp r MODl with Lt => r | _ => b_lsubtract b r MODl end in
           let u := b_lsubtract b MODl r in
           let (u, k) := if k <=? 384 then (b_multiply b u R2l, k + 384) else (u, k) in
           let u := b_multiply b u R2l in
           if 768 <? k then Some l_zero
           else match l_power (768 - k) with
                | Some p => Some (b_multiply b u p)
                | None => None
                end
       end.
(** scalar.hpp:250-264 *)
Definition l_exp (x : list Z) (s : list Z) : list Z := gexp R1l (b_square b) (b_multiply b) x s.
(** fp.cpp:325-332 *)
Definition l_sqrt (x : list Z) : bool * list Z :=
  let c := l_exp x (limbs_of 6 pPlus1Over4) in (l_equal x (b_square b c), c).
(** fp.cpp:334-338 *)
Definition l_isQNR (x : list Z) : bool := negb (l_isOne (l_exp x (limbs_of 6 pMinus1Over2))).
(** fp.cpp:341-363 *)
Definition l_isLexLargest (x : list Z) : bool := sub_borrow (l_fromMont x) halfQ 0 =? 0.
(** fp.cpp:20-60 *)
Definition l_fromBytesBE (a : list Z) (check mont : bool) : option (list Z) :=
  let e := fromBytesBE 6 a in
  if check && negb (l_isValid e) then None else Some (if mont then l_toMont e else e).
Definition l_fromBytesLE (a : list Z) (check mont : bool) : option (list Z) :=
  let e := fromBytesLE 6 a in
  if check && negb (l_isValid e) then None else Some (if mont then l_toMont e else e).
Definition l_toBytesBE (x : list Z) (mont : bool) : list Z := toBytesBE (if mont then l_fromMont x else x).
Definition l_toBytesLE (x : list Z) (mont : bool) : list Z := toBytesLE (if mont then l_fromMont x else x).
End L.

(** * The ordering operators *)
(** two members in turn: defaulted operator<=> *)
Definition then_cmp (a b : comparison) : comparison := match a with Eq => b | _ => a end.
(** fp.hpp:164 (members c0, c1) *)
Definition l2_cmp (x y : list Z * list Z) : comparison := then_cmp (l_cmp (fst x) (fst y)) (l_cmp (snd x) (snd y)).
(** g.hpp:67 (members x, y, z of type fp) and g.hpp:134 (of type fp2) *)
Definition j_cmp {T} (cmp : T -> T -> comparison) (p q : T * T * T) : comparison :=
  let '(x, y, z) := p in let '(x', y', z') := q in then_cmp (cmp x x') (then_cmp (cmp y y') (cmp z z')).
Definition l_g1_cmp := j_cmp l_cmp.
Definition l_g2_cmp := j_cmp l2_cmp.
