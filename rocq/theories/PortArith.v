(** Model of the portable (non-x86) field arithmetic (src/arithmetic.cpp, #else branches) on limb lists,
    and of the hex codec (src/scalar.cpp). *)
From Coq Require Import ZArith List Bool.
From Verif Require Import ModelWord ModelScalar ModelPrim.
Import ListNotations.
Local Open Scope Z_scope.

Definition MODl : list Z := [0xb9feffffffffaaab; 0x1eabfffeb153ffff; 0x6730d2a0f6b0f624; 0x64774b84f38512bf; 0x4b1ba7b6434bacd7; 0x1a0111ea397fe69a].
(** the unrolled chains of Add64 / Sub64 over six limbs; the last carry is returned *)
Definition add_chain (x y : list Z) : list Z * Z := add_loop 6 0 x y 0.
Fixpoint sub_loop (n i : nat) (a b : list Z) (borrow : Z) : list Z * Z :=
  match n with
  | O => ([], borrow)
  | S n => let (ci, borrow) := Sub64 (limb a i) (limb b i) borrow in
           let (c, borrow) := sub_loop n (S i) a b borrow in (ci :: c, borrow)
  end.
Definition sub_chain (x y : list Z) : list Z * Z := sub_loop 6 0 x y 0.
(** "if z > q --> z -= q": the nested comparison from the top limb down is [cmp_loop] *)
Definition reduce_once (z : list Z) : list Z :=
  match cmp_loop 6 z MODl with Lt => z | _ => fst (sub_chain z MODl) end.
(** arithmetic.cpp:12-35 *)
Definition p_add (x y : list Z) : list Z := reduce_once (fst (add_chain x y)).
(** arithmetic.cpp:37-46 *)
Definition p_ladd (x y : list Z) : list Z := fst (add_chain x y).
(** arithmetic.cpp:48-71 *)
Definition p_double (x : list Z) : list Z := reduce_once (fst (add_chain x x)).
(** arithmetic.cpp:73-83 *)
Definition p_ldouble (x : list Z) : list Z := fst (add_chain x x).
(** arithmetic.cpp:85-104 *)
Definition p_subtract (x y : list Z) : list Z :=
  let (z, b) := sub_chain x y in if b =? 0 then z else fst (add_chain z MODl).
(** arithmetic.cpp:106-115 *)
Definition p_lsubtract (x y : list Z) : list Z := fst (sub_chain x y).
(** arithmetic.cpp:130-144 *)
Definition p_negate (x : list Z) : list Z :=
  if forallb (fun l => l =? 0) x then x else fst (sub_chain MODl x).

(** arithmetic.cpp:496-508 *)
Definition madd0 (a b c : Z) : Z :=
  let (hi, lo) := Mul64 a b in
  let (_, carry) := Add64 lo c 0 in
  fst (Add64 hi 0 carry).
(** arithmetic.cpp:510-522 *)
Definition madd1 (a b c : Z) : Z * Z :=
  let (hi, lo) := Mul64 a b in
  let (lo, carry) := Add64 lo c 0 in
  (fst (Add64 hi 0 carry), lo).
(** arithmetic.cpp:524-540 *)
Definition madd2 (a b c d : Z) : Z * Z :=
  let (hi, lo) := Mul64 a b in
  let (c_, carry) := Add64 c d 0 in
  let (hi, _) := Add64 hi 0 carry in
  let (lo, carry) := Add64 lo c_ 0 in
  (fst (Add64 hi 0 carry), lo).
(** arithmetic.cpp:617-632 *)
Definition madd3 (a b c d e : Z) : Z * Z :=
  let (hi, lo) := Mul64 a b in
  let (c_, carry) := Add64 c d 0 in
  let (hi, _) := Add64 hi 0 carry in
  let (lo, carry) := Add64 lo c_ 0 in
  (fst (Add64 hi e carry), lo).
(** arithmetic.cpp:541-561 *)
Definition madd2s (a b c d e : Z) : Z * Z * Z :=
  let (hi, lo) := Mul64 a b in
  let (lo, carry) := Add64 lo lo 0 in
  let (hi, superhi) := Add64 hi hi carry in
  let (sum, carry) := Add64 c e 0 in
  let (hi, _) := Add64 hi 0 carry in
  let (lo, carry) := Add64 lo sum 0 in
  let (hi, _) := Add64 hi 0 carry in
  let (hi, _) := Add64 hi 0 d in
  (superhi, hi, lo).
(** arithmetic.cpp:563-579 *)
Definition madd1s (a b d e : Z) : Z * Z * Z :=
  let (hi, lo) := Mul64 a b in
  let (lo, carry) := Add64 lo lo 0 in
  let (hi, superhi) := Add64 hi hi carry in
  let (lo, carry) := Add64 lo e 0 in
  let (hi, _) := Add64 hi 0 carry in
  let (hi, _) := Add64 hi 0 d in
  (superhi, hi, lo).
(** arithmetic.cpp:581-599 *)
Definition madd2sb (a b c e : Z) : Z * Z * Z :=
  let (hi, lo) := Mul64 a b in
  let (lo, carry) := Add64 lo lo 0 in
  let (hi, superhi) := Add64 hi hi carry in
  let (sum, carry) := Add64 c e 0 in
  let (hi, _) := Add64 hi 0 carry in
  let (lo, carry) := Add64 lo sum 0 in
  let (hi, _) := Add64 hi 0 carry in
  (superhi, hi, lo).
(** arithmetic.cpp:601-615 *)
Definition madd1sb (a b e : Z) : Z * Z * Z :=
  let (hi, lo) := Mul64 a b in
  let (lo, carry) := Add64 lo lo 0 in
  let (hi, superhi) := Add64 hi hi carry in
  let (lo, carry) := Add64 lo e 0 in
  let (hi, _) := Add64 hi 0 carry in
  (superhi, hi, lo).

(** rounds 1-5 of _multiply (arithmetic.cpp:221-300); round 0 (202-219) is the same computation with t = 0
    written with Mul64/madd1: madd1 v y 0 = Mul64 v y and madd2 v y c 0 = madd1 v y c (see [madd_zero]) *)
Definition p_round0 (v : Z) (y : list Z) : list Z :=
  let M := limb MODl in
  let (c1, c0) := Mul64 v (limb y 0) in
  let m := (c0 * INP) mod W in
  let c2 := madd0 m (M 0%nat) c0 in
  let (c1, c0) := madd1 v (limb y 1) c1 in
  let (c2, t0) := madd2 m (M 1%nat) c2 c0 in
  let (c1, c0) := madd1 v (limb y 2) c1 in
  let (c2, t1) := madd2 m (M 2%nat) c2 c0 in
  let (c1, c0) := madd1 v (limb y 3) c1 in
  let (c2, t2) := madd2 m (M 3%nat) c2 c0 in
  let (c1, c0) := madd1 v (limb y 4) c1 in
  let (c2, t3) := madd2 m (M 4%nat) c2 c0 in
  let (c1, c0) := madd1 v (limb y 5) c1 in
  let (t5, t4) := madd3 m (M 5%nat) c0 c2 c1 in
  [t0; t1; t2; t3; t4; t5].
Definition p_round (v : Z) (y t : list Z) : list Z :=
  let M := limb MODl in
  let (c1, c0) := madd1 v (limb y 0) (limb t 0) in
  let m := (c0 * INP) mod W in
  let c2 := madd0 m (M 0%nat) c0 in
  let (c1, c0) := madd2 v (limb y 1) c1 (limb t 1) in
  let (c2, t0) := madd2 m (M 1%nat) c2 c0 in
  let (c1, c0) := madd2 v (limb y 2) c1 (limb t 2) in
  let (c2, t1) := madd2 m (M 2%nat) c2 c0 in
  let (c1, c0) := madd2 v (limb y 3) c1 (limb t 3) in
  let (c2, t2) := madd2 m (M 3%nat) c2 c0 in
  let (c1, c0) := madd2 v (limb y 4) c1 (limb t 4) in
  let (c2, t3) := madd2 m (M 4%nat) c2 c0 in
  let (c1, c0) := madd2 v (limb y 5) c1 (limb t 5) in
  let (t5, t4) := madd3 m (M 5%nat) c0 c2 c1 in
  [t0; t1; t2; t3; t4; t5].
(** arithmetic.cpp:197-316 *)
Definition p_multiply (x y : list Z) : list Z :=
  let t := p_round0 (limb x 0) y in
  let t := p_round (limb x 1) y t in
  let t := p_round (limb x 2) y t in
  let t := p_round (limb x 3) y t in
  let t := p_round (limb x 4) y t in
  let t := p_round (limb x 5) y t in
  reduce_once t.
(** arithmetic.cpp:325-428 *)
Definition p_square (x : list Z) : list Z :=
  let M := limb MODl in
  let x0 := limb x 0 in let x1 := limb x 1 in let x2 := limb x 2 in
  let x3 := limb x 3 in let x4 := limb x 4 in let x5 := limb x 5 in
  (* round 0 *)
  let (u, p0) := Mul64 x0 x0 in
  let m := (p0 * INP) mod W in
  let C := madd0 m (M 0%nat) p0 in
  let '(t, u, v) := madd1sb x0 x1 u in
  let (C, p0) := madd2 m (M 1%nat) v C in
  let '(t, u, v) := madd1s x0 x2 t u in
  let (C, p1) := madd2 m (M 2%nat) v C in
  let '(t, u, v) := madd1s x0 x3 t u in
  let (C, p2) := madd2 m (M 3%nat) v C in
  let '(t, u, v) := madd1s x0 x4 t u in
  let (C, p3) := madd2 m (M 4%nat) v C in
  let '(_, u, v) := madd1s x0 x5 t u in
  let (p5, p4) := madd3 m (M 5%nat) v C u in
  (* round 1 *)
  let m := (p0 * INP) mod W in
  let C := madd0 m (M 0%nat) p0 in
  let (u, v) := madd1 x1 x1 p1 in
  let (C, p0) := madd2 m (M 1%nat) v C in
  let '(t, u, v) := madd2sb x1 x2 p2 u in
  let (C, p1) := madd2 m (M 2%nat) v C in
  let '(t, u, v) := madd2s x1 x3 p3 t u in
  let (C, p2) := madd2 m (M 3%nat) v C in
  let '(t, u, v) := madd2s x1 x4 p4 t u in
  let (C, p3) := madd2 m (M 4%nat) v C in
  let '(_, u, v) := madd2s x1 x5 p5 t u in
  let (p5, p4) := madd3 m (M 5%nat) v C u in
  (* round 2 *)
  let m := (p0 * INP) mod W in
  let C := madd0 m (M 0%nat) p0 in
  let (C, p0) := madd2 m (M 1%nat) p1 C in
  let (u, v) := madd1 x2 x2 p2 in
  let (C, p1) := madd2 m (M 2%nat) v C in
  let '(t, u, v) := madd2sb x2 x3 p3 u in
  let (C, p2) := madd2 m (M 3%nat) v C in
  let '(t, u, v) := madd2s x2 x4 p4 t u in
  let (C, p3) := madd2 m (M 4%nat) v C in
  let '(_, u, v) := madd2s x2 x5 p5 t u in
  let (p5, p4) := madd3 m (M 5%nat) v C u in
  (* round 3 *)
  let m := (p0 * INP) mod W in
  let C := madd0 m (M 0%nat) p0 in
  let (C, p0) := madd2 m (M 1%nat) p1 C in
  let (C, p1) := madd2 m (M 2%nat) p2 C in
  let (u, v) := madd1 x3 x3 p3 in
  let (C, p2) := madd2 m (M 3%nat) v C in
  let '(t, u, v) := madd2sb x3 x4 p4 u in
  let (C, p3) := madd2 m (M 4%nat) v C in
  let '(_, u, v) := madd2s x3 x5 p5 t u in
  let (p5, p4) := madd3 m (M 5%nat) v C u in
  (* round 4 *)
  let m := (p0 * INP) mod W in
  let C := madd0 m (M 0%nat) p0 in
  let (C, p0) := madd2 m (M 1%nat) p1 C in
  let (C, p1) := madd2 m (M 2%nat) p2 C in
  let (C, p2) := madd2 m (M 3%nat) p3 C in
  let (u, v) := madd1 x4 x4 p4 in
  let (C, p3) := madd2 m (M 4%nat) v C in
  let '(_, u, v) := madd2sb x4 x5 p5 u in
  let (p5, p4) := madd3 m (M 5%nat) v C u in
  (* round 5 *)
  let m := (p0 * INP) mod W in
  let C := madd0 m (M 0%nat) p0 in
  let (C, z0) := madd2 m (M 1%nat) p1 C in
  let (C, z1) := madd2 m (M 2%nat) p2 C in
  let (C, z2) := madd2 m (M 3%nat) p3 C in
  let (C, z3) := madd2 m (M 4%nat) p4 C in
  let (u, v) := madd1 x5 x5 p5 in
  let (z5, z4) := madd3 m (M 5%nat) v C u in
  reduce_once [z0; z1; z2; z3; z4; z5].

(** * Hex strings: characters as integers (plain char is signed; every character used here is ASCII) *)
Definition hexchar (n : Z) : Z := if n <? 10 then 48 + n else 87 + n.
(** scalar.cpp:33-45 and scalar.hpp:364-376 *)
Definition bytesToHex (b : list Z) : list Z :=
  48 :: 120 :: flat_map (fun c => [hexchar (Z.shiftr (Z.land c 0xF0) 4); hexchar (Z.land c 0x0F)]) b.
(** (s[j] % 32 + 9) % 25; C++ % truncates, [Z.rem] *)
Definition hexval (c : Z) : Z := Z.rem (Z.rem c 32 + 9) 25.
Fixpoint hex_pairs (s : list Z) : list Z :=
  match s with a :: b :: s => (hexval a * 16 + hexval b) mod 256 :: hex_pairs s | _ => [] end.
(** scalar.cpp:8-31; s[0] (and s[1] after a '0') are read without a length check *)
Definition hexToBytes (s : list Z) : outcome (list Z) :=
  match s with
  | [] => OutOfBounds
  | [c] => if c =? 48 then OutOfBounds else Ok []
  | a :: b :: r =>
      let rest := if (a =? 48) && (b =? 120) then r else s in
      if negb (Nat.eqb (Nat.modulo (length s) 2) 0) then Ok [] else Ok (hex_pairs rest)
  end.
