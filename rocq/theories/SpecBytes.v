(** Specification: integers as byte strings (lists of integers in [0,256)). *)
From Coq Require Import ZArith List.
Import ListNotations.
Local Open Scope Z_scope.

Definition byte (b : Z) : Prop := 0 <= b < 256.
Definition bytes (l : list Z) : Prop := Forall byte l.
(** little-endian and big-endian integer value (RFC 8017 OS2IP is [be_int]) *)
Fixpoint le_int (l : list Z) : Z :=
  match l with [] => 0 | b :: l => b + 256 * le_int l end.
Definition be_int (l : list Z) : Z := le_int (rev l).
(** n-byte encodings of v mod 256^n (RFC 8017 I2OSP is [int_be]) *)
Fixpoint int_le (n : nat) (v : Z) : list Z :=
  match n with O => [] | S n => v mod 256 :: int_le n (v / 256) end.
Definition int_be (n : nat) (v : Z) : list Z := rev (int_le n v).
