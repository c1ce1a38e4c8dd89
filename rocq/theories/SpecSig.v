(** Specification: hashing to G2 (RFC 9380, suites BLS12381G2_XMD:SHA-256_SSWU_RO_) and the encoding of public keys that is signed in proofs
    of possession.  Nothing here refers to the code; E2 is the group of points of E'(Fp2). *)
From Coq Require Import String Ascii ZArith List Bool.
From Verif Require Import SpecField SpecBytes SpecHash SpecCurve AbGroup CurveInst SpecMap.
Import ListNotations.
Local Open Scope Z_scope.

(** the bytes of an ASCII string *)
Definition ascii_bytes (s : string) : list Z := map (fun c => Z.of_N (N_of_ascii c)) (list_ascii_of_string s).
Definition DST_SIG : list Z := ascii_bytes "BLS_SIG_BLS12381G2_XMD:SHA-256_SSWU_RO_NUL_".
Definition DST_POP : list Z := ascii_bytes "BLS_POP_BLS12381G2_XMD:SHA-256_SSWU_RO_POP_".
(** 5.2, hash_to_field with L = 64, m = 2: the i-th element of Fp2 read off the uniform bytes b *)
Definition os2ip_at (b : list Z) (off : nat) : Z := be_int (firstn 64 (skipn off b)).
Definition field_elt (b : list Z) (i : nat) : Fp2 := mkFp2 (Fof (os2ip_at b (128 * i))) (Fof (os2ip_at b (128 * i + 64))).
(** 3, hash_to_curve: P is the hash of msg under the tag DST *)
Definition hash_to_curve (msg DST : list Z) (P : E2) : Prop :=
  exists b (Q0 Q1 : E2), expand_message_xmd msg DST 256 = Some b /\
    map_to_curve2 (field_elt b 0) (cpt (b := b2) Q0) /\ map_to_curve2 (field_elt b 1) (cpt (b := b2) Q1) /\
    P = zmul h_eff2 (gop Q0 Q1).
(** the 96 bytes of a public key that are hashed in a proof of possession: affine coordinates, little-endian; zeros for infinity *)
Definition pop_message (P : point KFp) : list Z :=
  match P with Inf => repeat 0 96 | Aff x y => int_le 48 (fval x) ++ int_le 48 (fval y) end.
