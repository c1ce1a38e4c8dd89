(** Specification of key generation and derivation (BLS signature draft KeyGen, EIP-2333). *)
From Coq Require Import ZArith List Bool.
From Verif Require Import SpecField SpecBytes SpecHash SpecCodec.
Import ListNotations.
Local Open Scope Z_scope.

(** "BLS-SIG-KEYGEN-SALT-" in ASCII *)
Definition keygen_salt0 : list Z := [66; 76; 83; 45; 83; 73; 71; 45; 75; 69; 89; 71; 69; 78; 45; 83; 65; 76; 84; 45].
Definition keygen_salt (n : nat) : list Z := Nat.iter n SHA256 keygen_salt0.
(** OS2IP(HKDF-Expand(HKDF-Extract(salt, IKM | 0), key_info | I2OSP(48, 2), 48)) mod r with empty key_info and the n-th salt *)
Definition keygen_cand (ikm : list Z) (n : nat) : Z :=
  be_int (HKDF_Expand (HKDF_Extract (keygen_salt n) (ikm ++ [0])) (int_be 2 48) 48) mod order.
(** the first nonzero candidate from index n0 on is number m *)
Definition first_nonzero (ikm : list Z) (n0 m : nat) : Prop :=
  (n0 <= m)%nat /\ keygen_cand ikm m <> 0 /\ forall i, (n0 <= i < m)%nat -> keygen_cand ikm i = 0.

(** EIP-2333 *)
Definition flip_bits (l : list Z) : list Z := map (fun b => 255 - b) l.
Definition lamport_SK (ikm salt : list Z) : list (list Z) := pieces 255 32 (HKDF_Expand (HKDF_Extract salt ikm) [] (255 * 32)).
Definition lamport_PK (sk index : Z) : list Z :=
  let salt := int_be 4 index in
  let ikm := int_be 32 sk in
  SHA256 (concat (map SHA256 (lamport_SK ikm salt)) ++ concat (map SHA256 (lamport_SK (flip_bits ikm) salt))).

(** Unhardened derivation: nonce of the finite public key (x, y) *)
Definition nonce_g1 (x y : Fp) (index : Z) : Z := be_int (SHA256 (enc_g1 x y ++ int_be 4 index)) mod order.
Definition nonce_g2 (x y : Fp2) (index : Z) : Z := be_int (SHA256 (enc_g2 x y ++ int_be 4 index)) mod order.

(** The situation in which the library's 64-bit limb addition of S and k drops a carry: a carry from the lower limbs arrives at
    an all-ones limb of k. *)
Definition carry_lost (S k : Z) : Prop :=
  exists i, 0 <= i < 4 /\ (k / 2 ^ (64 * i)) mod 2 ^ 64 = 2 ^ 64 - 1 /\ 2 ^ (64 * i) <= S mod 2 ^ (64 * i) + k mod 2 ^ (64 * i).
(** no carry is dropped when adding up the keys one after the other, reducing mod r each time *)
Fixpoint sum_ok (S : Z) (ks : list Z) : Prop :=
  match ks with [] => True | k :: ks => ~ carry_lost S k /\ sum_ok ((S + k) mod order) ks end.
