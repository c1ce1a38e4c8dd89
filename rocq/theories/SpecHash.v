(** Specifications: SHA-256 (FIPS 180-4), HMAC (RFC 2104), HKDF (RFC 5869), expand_message_xmd (RFC 9380, 5.3.1).
    Messages are lists of bytes (integers in [0,256)), words integers in [0,2^32).  Nothing here refers to the code. *)
From Coq Require Import ZArith List Bool.
From Verif Require Import SpecBytes.
Import ListNotations.
Local Open Scope Z_scope.

(** ** SHA-256 *)
(** FIPS 180-4 section 3.2, 4.1.2 *)
Definition add32 (l : list Z) : Z := fold_right Z.add 0 l mod 2 ^ 32.
Definition SHR (n x : Z) : Z := Z.shiftr x n.
Definition ROTR (n x : Z) : Z := Z.lor (Z.shiftr x n) (Z.shiftl x (32 - n) mod 2 ^ 32).
Definition Ch (x y z : Z) : Z := Z.lxor (Z.land x y) (Z.land (2 ^ 32 - 1 - x) z).
Definition Maj (x y z : Z) : Z := Z.lxor (Z.lxor (Z.land x y) (Z.land x z)) (Z.land y z).
Definition Sigma0 (x : Z) : Z := Z.lxor (Z.lxor (ROTR 2 x) (ROTR 13 x)) (ROTR 22 x).
Definition Sigma1 (x : Z) : Z := Z.lxor (Z.lxor (ROTR 6 x) (ROTR 11 x)) (ROTR 25 x).
Definition sigma0 (x : Z) : Z := Z.lxor (Z.lxor (ROTR 7 x) (ROTR 18 x)) (SHR 3 x).
Definition sigma1 (x : Z) : Z := Z.lxor (Z.lxor (ROTR 17 x) (ROTR 19 x)) (SHR 10 x).
(** 4.2.2, 5.3.3: first 32 bits of the fractional parts of the cube roots of the first 64 primes, of the square roots of the first 8 *)
Fixpoint root3 (bits : nat) (acc N : Z) : Z :=
  match bits with O => acc | S b => let a := acc + 2 ^ Z.of_nat b in root3 b (if a * a * a <=? N then a else acc) N end.
Definition is_prime (n : nat) : bool := forallb (fun d => negb (Nat.eqb (Nat.modulo n d) 0)) (seq 2 (n - 2)).
Definition primes64 : list Z := map Z.of_nat (filter is_prime (seq 2 310)).
Definition K256 : list Z := map (fun p => root3 40 0 (p * 2 ^ 96) mod 2 ^ 32) primes64.
Definition H256 : list Z := map (fun p => Z.sqrt (p * 2 ^ 64) mod 2 ^ 32) (firstn 8 primes64).
(** 5.1.1: a one bit, zeros, the length in bits as 64-bit big-endian integer *)
Definition pad (m : list Z) : list Z :=
  let l := Z.of_nat (length m) in
  m ++ [0x80] ++ repeat 0 (Z.to_nat ((55 - l) mod 64)) ++ int_be 8 (8 * l).
(** the n-byte pieces of a list *)
Fixpoint pieces (k n : nat) (l : list Z) : list (list Z) :=
  match k with O => [] | S k => firstn n l :: pieces k n (skipn n l) end.
Definition blocks (l : list Z) : list (list Z) := pieces (length l / 64) 64 l.
Definition words_of (b : list Z) : list Z := map be_int (pieces 16 4 b).
(** 6.2.2 step 1: message schedule *)
Fixpoint sched (n : nat) (M : list Z) : list Z :=
  match n with
  | O => M
  | S n => let w := sched n M in let t := (16 + n)%nat in
      w ++ [add32 [sigma1 (nth (t - 2) w 0); nth (t - 7) w 0; sigma0 (nth (t - 15) w 0); nth (t - 16) w 0]]
  end.
(** steps 2-4 *)
Definition round (s : list Z) (kw : Z * Z) : list Z :=
  match s with
  | [a; b; c; d; e; f; g; h] =>
      let T1 := add32 [h; Sigma1 e; Ch e f g; fst kw; snd kw] in
      let T2 := add32 [Sigma0 a; Maj a b c] in
      [add32 [T1; T2]; a; b; c; add32 [d; T1]; e; f; g]
  | _ => s
  end.
Definition compress (H : list Z) (b : list Z) : list Z :=
  let s := fold_left round (combine K256 (sched 48 (words_of b))) H in
  map (fun x => add32 [fst x; snd x]) (combine H s).
Definition SHA256 (m : list Z) : list Z := flat_map (int_be 4) (fold_left compress (blocks (pad m)) H256).

(** ** HMAC-SHA256, RFC 2104: B = 64 *)
Definition xor_bytes (a b : list Z) : list Z := map (fun x => Z.lxor (fst x) (snd x)) (combine a b).
Definition HMAC (K text : list Z) : list Z :=
  let K0 := if Nat.ltb 64 (length K) then SHA256 K else K in
  let K0 := K0 ++ repeat 0 (64 - length K0) in
  SHA256 (xor_bytes K0 (repeat 0x5c 64) ++ SHA256 (xor_bytes K0 (repeat 0x36 64) ++ text)).

(** ** HKDF-SHA256, RFC 5869 *)
Definition HKDF_Extract (salt IKM : list Z) : list Z := HMAC salt IKM.
(** T(1) | T(2) | ... | T(n): T(i) = HMAC(PRK, T(i-1) | info | i) *)
Fixpoint HKDF_T (PRK info : list Z) (i : nat) : list Z :=
  match i with O => [] | S j => HMAC PRK (HKDF_T PRK info j ++ info ++ [Z.of_nat i]) end.
Definition HKDF_Expand (PRK info : list Z) (L : nat) : list Z :=
  firstn L (flat_map (HKDF_T PRK info) (seq 1 ((L + 31) / 32))).

(** ** expand_message_xmd, RFC 9380 *)
(** b_1 = H(b_0 | 1 | DST'), b_i = H(strxor(b_0, b_(i-1)) | i | DST') *)
Fixpoint xmd_b (b0 DST' : list Z) (i : nat) : list Z :=
  match i with
  | O => []
  | S O => SHA256 (b0 ++ [1] ++ DST')
  | S j => SHA256 (xor_bytes b0 (xmd_b b0 DST' j) ++ [Z.of_nat i] ++ DST')
  end.
Definition expand_message_xmd (msg DST : list Z) (len : nat) : option (list Z) :=
  let ell := ((len + 31) / 32)%nat in
  if (255 <? Z.of_nat ell) || (65535 <? Z.of_nat len) || (255 <? Z.of_nat (length DST)) then None
  else
    let DST' := DST ++ int_be 1 (Z.of_nat (length DST)) in
    let b0 := SHA256 (repeat 0 64 ++ msg ++ int_be 2 (Z.of_nat len) ++ [0] ++ DST') in
    Some (firstn len (flat_map (xmd_b b0 DST') (seq 1 ell))).
