(** The strings hashed by HMAC, HKDF, key generation, EIP-2333 derivation and expand_message_xmd, as prescribed by the standards (SpecHash, SpecKeys).
    Nothing here refers to the code. *)
From Coq Require Import ZArith List Bool.
From Verif Require Import SpecBytes SpecField SpecHash SpecKeys.
Import ListNotations.
Local Open Scope Z_scope.

(** at some position, the strings of A and B are different and have the same SHA-256 *)
Definition collide (A B : list (list Z)) : Prop := exists k x y, nth_error A k = Some x /\ nth_error B k = Some y /\ x <> y /\ SHA256 x = SHA256 y.

(** RFC 2104: the key made 64 bytes long; the strings of the inner and the outer hash *)
Definition hmac_key (K : list Z) : list Z := let K0 := if Nat.ltb 64 (length K) then SHA256 K else K in K0 ++ repeat 0 (64 - length K0).
Definition hmac_inner (K text : list Z) : list Z := xor_bytes (hmac_key K) (repeat 0x36 64) ++ text.
Definition hmac_outer (K text : list Z) : list Z := xor_bytes (hmac_key K) (repeat 0x5c 64) ++ SHA256 (hmac_inner K text).
Definition hmac_hashed (K text : list Z) : list (list Z) := [hmac_inner K text; hmac_outer K text].
(** RFC 5869: extraction, and T(1) of the expansion; the strings of T(2), T(3), ... are not needed for a collision *)
Definition hkdf_hashed (salt ikm info : list Z) : list (list Z) := hmac_hashed salt ikm ++ hmac_hashed (HKDF_Extract salt ikm) (info ++ [1]).

(** key generation: the 48 bytes of candidate n; what is hashed for the candidate that is returned *)
Definition keygen_okm (ikm : list Z) (n : nat) : list Z := HKDF_Expand (HKDF_Extract (keygen_salt n) (ikm ++ [0])) (int_be 2 48) 48.
Definition keygen_hashed (ikm : list Z) (n : nat) : list (list Z) := hkdf_hashed (keygen_salt n) (ikm ++ [0]) (int_be 2 48).
(** EIP-2333: the first of the Lamport secrets and the strings hashed for it; the string compressed to the Lamport public key; the key generated from that *)
Definition lamport_hashed (ikm salt : list Z) : list (list Z) := hkdf_hashed salt ikm [] ++ firstn 1 (lamport_SK ikm salt).
Definition lamport_string (sk index : Z) : list Z :=
  concat (map SHA256 (lamport_SK (int_be 32 sk) (int_be 4 index))) ++ concat (map SHA256 (lamport_SK (flip_bits (int_be 32 sk)) (int_be 4 index))).
Definition child_hashed (sk index : Z) (n : nat) : list (list Z) :=
  lamport_hashed (int_be 32 sk) (int_be 4 index) ++ [lamport_string sk index] ++ keygen_hashed (lamport_PK sk index) n.
(** RFC 9380, 5.3.1: the string of b_0 and that of b_1; the strings of the other b_i are not needed for a collision *)
Definition xmd_string0 (m dst : list Z) (n : nat) : list Z := repeat 0 64 ++ m ++ int_be 2 (Z.of_nat n) ++ [0] ++ dst ++ int_be 1 (Z.of_nat (length dst)).
Definition xmd_hashed (m dst : list Z) (n : nat) : list (list Z) :=
  let b0 := SHA256 (xmd_string0 m dst n) in
  [xmd_string0 m dst n; b0 ++ [1] ++ dst ++ int_be 1 (Z.of_nat (length dst))].
