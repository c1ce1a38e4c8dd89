(** 64-bit words, little-endian limb lists. *)
From Coq Require Import ZArith List.
Import ListNotations.
Local Open Scope Z_scope.

Definition W : Z := 18446744073709551616.  (* 2^64 *)
Definition R384 : Z := Eval vm_compute in 2 ^ 384.

Definition word (v : Z) : Prop := 0 <= v < W.

(** Value of a little-endian limb array (std::array<uint64_t,N> everywhere in the library). *)
Fixpoint val (l : list Z) : Z :=
  match l with [] => 0 | a :: l => a + W * val l end.
(** N-limb array holding v mod 2^(64N). *)
Fixpoint limbs_of (n : nat) (v : Z) : list Z :=
  match n with O => [] | S n => v mod W :: limbs_of n (v / W) end.

(** src/arithmetic.cpp:436-445, uint64_t arithmetic wraps mod 2^64 *)
Definition Add64 (x y carry : Z) : Z * Z :=
  let sum := ((x + y) mod W + carry) mod W in
  (sum, if sum <? x then 1 else 0).
(** src/arithmetic.cpp:452-461 *)
Definition Sub64 (x y borrow : Z) : Z * Z :=
  let diff := ((x - y) mod W - borrow) mod W in
  (diff, if x <? diff then 1 else 0).
(** src/arithmetic.cpp:468-477; returns (hi, lo) *)
Definition Mul64 (x y : Z) : Z * Z := ((x * y) / W, (x * y) mod W).
