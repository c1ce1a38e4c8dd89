(** Model of class sha256 (src/sha256.cpp, src/sha256.hpp).  uint32_t values are integers in [0,2^32): [u32] marks the conversions;
    a sum of several uint32_t terms is reduced once at the end.  Byte buffers are lists. *)
From Coq Require Import ZArith List Bool.
Import ListNotations.
Local Open Scope Z_scope.

Definition u32 (x : Z) : Z := x mod 2 ^ 32.
Definition u64 (x : Z) : Z := x mod 2 ^ 64.
Definition u8 (x : Z) : Z := x mod 256.
(** a[i] = x *)
Fixpoint put (i : nat) (x : Z) (l : list Z) : list Z :=
  match i, l with O, _ :: l => x :: l | S i, y :: l => y :: put i x l | _, [] => [] end.

(** sha256.hpp:30-47 *)
Definition sha_K : list Z := [
        0x428a2f98; 0x71374491; 0xb5c0fbcf; 0xe9b5dba5; 
        0x3956c25b; 0x59f111f1; 0x923f82a4; 0xab1c5ed5; 
        0xd807aa98; 0x12835b01; 0x243185be; 0x550c7dc3; 
        0x72be5d74; 0x80deb1fe; 0x9bdc06a7; 0xc19bf174; 
        0xe49b69c1; 0xefbe4786; 0x0fc19dc6; 0x240ca1cc; 
        0x2de92c6f; 0x4a7484aa; 0x5cb0a9dc; 0x76f988da; 
        0x983e5152; 0xa831c66d; 0xb00327c8; 0xbf597fc7; 
        0xc6e00bf3; 0xd5a79147; 0x06ca6351; 0x14292967; 
        0x27b70a85; 0x2e1b2138; 0x4d2c6dfc; 0x53380d13; 
        0x650a7354; 0x766a0abb; 0x81c2c92e; 0x92722c85; 
        0xa2bfe8a1; 0xa81a664b; 0xc24b8b70; 0xc76c51a3; 
        0xd192e819; 0xd6990624; 0xf40e3585; 0x106aa070; 
        0x19a4c116; 0x1e376c08; 0x2748774c; 0x34b0bcb5; 
        0x391c0cb3; 0x4ed8aa4a; 0x5b9cca4f; 0x682e6ff3; 
        0x748f82ee; 0x78a5636f; 0x84c87814; 0x8cc70208; 
        0x90befffa; 0xa4506ceb; 0xbef9a3f7; 0xc67178f2
].
(** sha256.hpp:25-28 *)
Record sha := mkSha { m_data : list Z; m_blocklen : Z; m_bitlen : Z; m_state : list Z }.
(** sha256.cpp:9-19; d0 is the uninitialised content of m_data *)
Definition sha_init (d0 : list Z) : sha :=
  mkSha d0 0 0 [0x6a09e667; 0xbb67ae85; 0x3c6ef372; 0xa54ff53a; 0x510e527f; 0x9b05688c; 0x1f83d9ab; 0x5be0cd19].

(** sha256.cpp:60-83 *)
Definition sha_rotr (x n : Z) : Z := Z.lor (Z.shiftr x n) (u32 (Z.shiftl x (32 - n))).
Definition sha_choose (e f g : Z) : Z := Z.lxor (Z.land e f) (Z.land (2 ^ 32 - 1 - e) g).
Definition sha_majority (a b c : Z) : Z := Z.lor (Z.land a (Z.lor b c)) (Z.land b c).
Definition sha_sig0 (x : Z) : Z := Z.lxor (Z.lxor (sha_rotr x 7) (sha_rotr x 18)) (Z.shiftr x 3).
Definition sha_sig1 (x : Z) : Z := Z.lxor (Z.lxor (sha_rotr x 17) (sha_rotr x 19)) (Z.shiftr x 10).

(** sha256.cpp:90-94 *)
Definition sha_m16 (d : list Z) : list Z :=
  map (fun i => let j := (4 * i)%nat in
    Z.lor (Z.lor (Z.lor (u32 (Z.shiftl (nth j d 0) 24)) (Z.shiftl (nth (j + 1) d 0) 16)) (Z.shiftl (nth (j + 2) d 0) 8)) (nth (j + 3) d 0)) (seq 0 16).
(** sha256.cpp:96-100, n iterations starting at k *)
Fixpoint sha_ext (n k : nat) (m : list Z) : list Z :=
  match n with
  | O => m
  | S n => sha_ext n (S k) (m ++ [u32 (sha_sig1 (nth (k - 2) m 0) + nth (k - 7) m 0 + sha_sig0 (nth (k - 15) m 0) + nth (k - 16) m 0)])
  end.
(** sha256.cpp:107-128 *)
Definition sha_round (m : list Z) (s : list Z) (i : nat) : list Z :=
  let st k := nth k s 0 in
  let maj := sha_majority (st 0%nat) (st 1%nat) (st 2%nat) in
  let xorA := Z.lxor (Z.lxor (sha_rotr (st 0%nat) 2) (sha_rotr (st 0%nat) 13)) (sha_rotr (st 0%nat) 22) in
  let ch := sha_choose (st 4%nat) (st 5%nat) (st 6%nat) in
  let xorE := Z.lxor (Z.lxor (sha_rotr (st 4%nat) 6) (sha_rotr (st 4%nat) 11)) (sha_rotr (st 4%nat) 25) in
  let sum := u32 (nth i m 0 + nth i sha_K 0 + st 7%nat + ch + xorE) in
  let newA := u32 (xorA + maj + sum) in
  let newE := u32 (st 3%nat + sum) in
  [newA; st 0%nat; st 1%nat; st 2%nat; newE; st 4%nat; st 5%nat; st 6%nat].
(** sha256.cpp:85-134 *)
Definition sha_transform (s : sha) : sha :=
  let m := sha_ext 48 16 (sha_m16 (m_data s)) in
  let st := fold_left (sha_round m) (seq 0 64) (m_state s) in
  mkSha (m_data s) (m_blocklen s) (m_bitlen s) (map (fun i => u32 (nth i (m_state s) 0 + nth i st 0)) (seq 0 8)).
(** sha256.cpp:23-34, one iteration *)
Definition sha_byte (s : sha) (x : Z) : sha :=
  let s := mkSha (put (Z.to_nat (m_blocklen s)) x (m_data s)) (u32 (m_blocklen s + 1)) (m_bitlen s) (m_state s) in
  if m_blocklen s =? 64 then
    let s := sha_transform s in mkSha (m_data s) 0 (u64 (m_bitlen s + 512)) (m_state s)
  else s.
(** sha256.cpp:21-35, 37-40 *)
Definition sha_update (s : sha) (data : list Z) : sha := fold_left sha_byte data s.
(** sha256.cpp:143-146: the while loop *)
Fixpoint sha_zeros (fuel : nat) (i e : Z) (d : list Z) : list Z :=
  match fuel with O => d | S fuel => if i <? e then sha_zeros fuel (i + 1) e (put (Z.to_nat i) 0 d) else d end.
(** sha256.cpp:139-152: the 0x80 byte and the zeros; memset(m_data, 0, 56) is 56 single writes *)
Definition sha_pad_bit (s : sha) : sha :=
  let e := if m_blocklen s <? 56 then 56 else 64 in
  let d := sha_zeros 64 (m_blocklen s + 1) e (put (Z.to_nat (m_blocklen s)) 0x80 (m_data s)) in
  let s := mkSha d (m_blocklen s) (m_bitlen s) (m_state s) in
  if 56 <=? m_blocklen s
  then let s := sha_transform s in mkSha (sha_zeros 64 0 56 (m_data s)) (m_blocklen s) (m_bitlen s) (m_state s)
  else s.
(** sha256.cpp:156-163 *)
Definition sha_put_len (bl : Z) (d : list Z) : list Z :=
  let d := put 63 (u8 bl) d in
  let d := put 62 (u8 (Z.shiftr bl 8)) d in
  let d := put 61 (u8 (Z.shiftr bl 16)) d in
  let d := put 60 (u8 (Z.shiftr bl 24)) d in
  let d := put 59 (u8 (Z.shiftr bl 32)) d in
  let d := put 58 (u8 (Z.shiftr bl 40)) d in
  let d := put 57 (u8 (Z.shiftr bl 48)) d in
  put 56 (u8 (Z.shiftr bl 56)) d.
(** sha256.cpp:136-165 *)
Definition sha_pad (s : sha) : sha :=
  let s := sha_pad_bit s in
  let bl := u64 (m_bitlen s + m_blocklen s * 8) in
  sha_transform (mkSha (sha_put_len bl (m_data s)) (m_blocklen s) bl (m_state s)).
(** sha256.cpp:167-178; byte i + 4j of the result, listed in order *)
Definition sha_revert (s : sha) : list Z :=
  flat_map (fun j => map (fun i => Z.land (Z.shiftr (nth j (m_state s) 0) (24 - Z.of_nat i * 8)) 0xff) (seq 0 4)) (seq 0 8).
(** sha256.cpp:42-58 *)
Definition sha_digest (s : sha) : list Z := sha_revert (sha_pad s).
(** construct, update with each chunk in turn, digest (the only way the library uses the class); sha256.cpp:9-58 *)
Definition sha256_from (d0 : list Z) (chunks : list (list Z)) : list Z := sha_digest (fold_left sha_update chunks (sha_init d0)).
(** the same with the uninitialised buffer filled with zeros; the result does not depend on it (Properties_Hash) *)
Definition sha256 : list (list Z) -> list Z := sha256_from (repeat 0 64).
