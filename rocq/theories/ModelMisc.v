(** Remaining small functions: madd, sha256::toString, the value-returning hexToBytes<N>. *)
From Coq Require Import ZArith List Bool.
From Verif Require Import ModelWord ModelScalar PortArith ModelMem.
Import ListNotations.
Local Open Scope Z_scope.

(** arithmetic.cpp:479-492; called nowhere in the library *)
Definition madd (a b t u v : Z) : Z * Z * Z :=
  let (hi, lo) := Mul64 a b in
  let (v', carry) := Add64 lo v 0 in
  let (u', carry) := Add64 hi u carry in
  let (t', _) := Add64 t 0 carry in
  (t', u', v').
(** operator<< of an unsigned int under std::hex: digits without leading zeros, "0" for zero; 8 digits are enough for 32 bits *)
Fixpoint put_hex (fuel : nat) (n : Z) : list Z :=
  match fuel with
  | O => []
  | S fuel => if n <? 16 then [hexchar n] else put_hex fuel (n / 16) ++ [hexchar (n mod 16)]
  end.
(** std::setw(w) with std::setfill('0'): padded on the left *)
Definition setw (w : nat) (s : list Z) : list Z := repeat 48 (w - length s) ++ s.
(** sha256.cpp:180-190 *)
Definition sha_toString (digest : list Z) : option (list Z) :=
  for_up 32 0 (fun i s => d <- rd digest i ;; Some (s ++ setw 2 (put_hex 8 d))) [].
(** scalar.hpp:395-402; [junk]: the uninitialised local array *)
Definition hexToBytes_array (junk s : list Z) : option (list Z) := c_hexToBytesN s junk.
