(** Model of key generation, derivation, aggregation and serialisation in src/signatures.cpp.  Secret keys are lists of four limbs. *)
From Coq Require Import ZArith List Bool.
From Verif Require Import ModelWord ModelScalar ModelFp ModelTower ModelDiv ModelCurve ModelCodec ModelSha ModelKdf.
Import ListNotations.
Local Open Scope Z_scope.

Definition obind {A B} (x : outcome A) (f : A -> outcome B) : outcome B :=
  match x with Ok a => f a | Throw => Throw | OutOfBounds => OutOfBounds end.
(** fp::Q, src/fp.cpp:422-427 *)
Definition Ql : list Z := [0xffffffff00000001; 0x53bda402fffe5bfe; 0x3339d80809a1d805; 0x73eda753299d7d48].
(** bn_divn_safe(quotient, remainder, k, fp::Q), the remainder; e.g. signatures.cpp:216 *)
Definition reduce (k : list Z) : outcome (list Z) := obind (bn_divn_safe k Ql) (fun qr => Ok (snd qr)).

(** signatures.cpp:202-231: the while loop, at most [fuel] iterations; Ok None: not finished.  The return code of
    hkdf256_extract_expand is ignored by the code. *)
Fixpoint sk_loop (fuel : nat) (ikm salt : list Z) : outcome (option (list Z)) :=
  match fuel with
  | O => Ok None
  | S fuel =>
      let okm := snd (hkdf256_extract_expand 48 ikm salt [0; 48]) in
      let skBn := fromBytesBE 6 okm in
      obind (reduce skBn) (fun sk =>
        if negb (scalar_equal sk [0; 0; 0; 0]) then Ok (Some sk) else sk_loop fuel ikm (sha256 [salt]))
  end.
(** signatures.cpp:166-237 *)
Definition secret_key (fuel : nat) (seed : list Z) : outcome (option (list Z)) :=
  if Z.of_nat (length seed) <? 32 then Ok (Some [0; 0; 0; 0])
  else sk_loop fuel (seed ++ [0]) [66; 76; 83; 45; 83; 73; 71; 45; 75; 69; 89; 71; 69; 78; 45; 83; 65; 76; 84; 45].

(** signatures.cpp:239-250 *)
Definition ikm_to_lamport_sk (ikm salt : list Z) : list Z := snd (hkdf256_extract_expand (32 * 255) ikm salt []).
(** the loops salt[3 - i] = index >> (i * 8), e.g. signatures.cpp:264-267 *)
Definition index_bytes (index : Z) : list Z := map (fun j => u8 (Z.shiftr index ((3 - Z.of_nat j) * 8))) (seq 0 4).
(** signatures.cpp:252-297 *)
Definition parent_sk_to_lamport_pk (parentSk : list Z) (index : Z) : list Z :=
  let salt := index_bytes index in
  let ikm := toBytesBE parentSk in
  let notIkm := map (fun b => Z.lxor b 0xff) ikm in
  let lamport0 := ikm_to_lamport_sk ikm salt in
  let lamport1 := ikm_to_lamport_sk notIkm salt in
  let pk0 := flat_map (fun i => sha256 [firstn 32 (skipn (i * 32) lamport0)]) (seq 0 255) in
  let pk1 := flat_map (fun i => sha256 [firstn 32 (skipn (i * 32) lamport1)]) (seq 0 255) in
  sha256 [pk0 ++ pk1].
(** signatures.cpp:299-309 *)
Definition derive_child_sk (fuel : nat) (parentSk : list Z) (index : Z) : outcome (option (list Z)) :=
  secret_key fuel (parent_sk_to_lamport_pk parentSk index).

(** signatures.cpp:393-401 *)
Fixpoint agg_sk_loop (ret : list Z) (sks : list (list Z)) : outcome (list Z) :=
  match sks with
  | [] => Ok ret
  | sk :: sks => obind (scalar_add 4 ret sk) (fun state => obind (reduce state) (fun ret => agg_sk_loop ret sks))
  end.
(** signatures.cpp:384-404 *)
Definition aggregate_secret_keys (sks : list (list Z)) : outcome (list Z) :=
  match sks with [] => Ok [0; 0; 0; 0] | _ => agg_sk_loop [0; 0; 0; 0] sks end.
(** signatures.cpp:406-409 *)
Definition sk_to_bytes (sk : list Z) : list Z := toBytesBE sk.
(** signatures.cpp:411-436 *)
Definition sk_from_bytes (b : list Z) (modOrder : bool) : outcome (list Z) :=
  let sk := fromBytesBE 4 b in
  if modOrder then reduce sk
  else match scalar_cmp sk Ql with Lt => Ok sk | _ => Ok [0; 0; 0; 0] end.
(** signatures.cpp:438-441 *)
Definition public_key (sk : list Z) : g1 := g1_affine (g1_scale g1_BASE sk).

(** signatures.cpp:311-331 *)
Definition derive_child_sk_unhardened (parentSk : list Z) (index : Z) : outcome (list Z) :=
  let buf := g1_toCompressed (public_key parentSk) ++ index_bytes index in
  let digest := sha256 [buf] in
  obind (sk_from_bytes digest true) (fun nonce => aggregate_secret_keys [parentSk; nonce]).
(** signatures.cpp:333-357 *)
Definition derive_child_g1_unhardened (pk : g1) (index : Z) : outcome g1 :=
  let digest := sha256 [g1_toCompressed pk ++ index_bytes index] in
  obind (reduce (fromBytesBE 4 digest)) (fun remainder => Ok (g1_add pk (g1_scale g1_BASE remainder))).
(** signatures.cpp:359-382 *)
Definition derive_child_g2_unhardened (pk : g2) (index : Z) : outcome g2 :=
  let digest := sha256 [g2_toCompressed pk ++ index_bytes index] in
  obind (reduce (fromBytesBE 4 digest)) (fun remainder => Ok (g2_add pk (g2_scale g2_BASE remainder))).

(** signatures.cpp:562-570: agg_pk starts as g1({0, 0, 0}) *)
Definition aggregate_public_keys (pks : list g1) : g1 := fold_left g1_add pks (mkJ 0 0 0).
(** signatures.cpp:572-580 *)
Definition aggregate_signatures (sigs : list g2) : g2 := fold_left g2_add sigs (mkJ fp2_zero fp2_zero fp2_zero).
