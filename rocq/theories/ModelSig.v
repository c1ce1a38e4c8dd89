(** Model of hashing to G2, signing and verification (src/signatures.cpp:11-12, 497-674) and of the aggregation templates of
    include/bls12-381/signatures.hpp:148-170.  Messages and tags are lists of bytes; a span's size is the length of the list. *)
From Coq Require Import String Ascii ZArith List Bool.
From Verif Require Import ModelWord ModelScalar ModelDiv ModelFp ModelTower ModelCurve ModelCodec ModelKdf ModelKeys ModelMap ModelPairing.
Import ListNotations.
Local Open Scope Z_scope.

(** signatures.cpp:11-12; std::string as the list of its char values *)
Definition string_data (s : string) : list Z := map (fun c => Z.of_nat (nat_of_ascii c)) (list_ascii_of_string s).
Definition CIPHERSUITE_ID : list Z := string_data "BLS_SIG_BLS12381G2_XMD:SHA-256_SSWU_RO_NUL_".
Definition POP_CIPHERSUITE_ID : list Z := string_data "BLS_POP_BLS12381G2_XMD:SHA-256_SSWU_RO_POP_".

(** signatures.cpp:502-503: the 256-byte array buf after the call; init is its previous (indeterminate) content, overwritten from the
    front.  msg.size() and dst.length() are converted to int; the return code is ignored. *)
Definition message_buf (init msg dst : list Z) : outcome (list Z) :=
  obind (xmd_sh256 256 msg (s32 (Z.of_nat (length msg))) dst (s32 (Z.of_nat (length dst)))) (fun cb =>
  Ok (snd cb ++ skipn (length (snd cb)) init)).
(** signatures.cpp:510-511: fp::modPrime(scalar::fromBytesBE<8>(buf[off .. off+64])) *)
Definition buf_field (buf : list Z) (off : nat) : outcome Z := modPrime (fromBytesBE 8 (sub_span off 64 buf)).
(** signatures.cpp:510-516 (off = 0) and 518-524 (off = 128): t, swuMapG2(t), isogenyMap *)
Definition buf_point (buf : list Z) (off : nat) : outcome g2 :=
  obind (buf_field buf off) (fun t0 => obind (buf_field buf (off + 64)) (fun t1 =>
  let xy := swuMapG2 (mk2 t0 t1) in
  Ok (isogenyMap (mkJ (fst xy) (snd xy) fp2_one)))).
(** signatures.cpp:497-527, init the indeterminate content of buf *)
Definition fromMessage_init (init msg dst : list Z) : outcome g2 :=
  obind (message_buf init msg dst) (fun buf =>
  obind (buf_point buf 0) (fun p => obind (buf_point buf 128) (fun q =>
  Ok (g2_clearCofactor (g2_add p q))))).
(** with buf taken as zero-initialised; C57_uninitialised shows where that makes a difference *)
Definition fromMessage (msg dst : list Z) : outcome g2 := fromMessage_init (repeat 0 256) msg dst.
(** signatures.cpp:529-536 *)
Definition sign (sk msg : list Z) : outcome g2 := obind (fromMessage msg CIPHERSUITE_ID) (fun p => Ok (g2_scale p sk)).
(** !p.isOnCurve() || !p.inCorrectSubgroup() *)
Definition bad1 (p : g1) : bool := negb (g1_isOnCurve p) || negb (g1_inCorrectSubgroup p).
Definition bad2 (p : g2) : bool := negb (g2_isOnCurve p) || negb (g2_inCorrectSubgroup p).
(** fp12::one().equal(pairing::calculate(v)) *)
Definition is_one (v : list (g1 * g2)) : outcome bool := obind (calculate v) (fun f => Ok (fp12_equal fp12_one f)).
(** signatures.cpp:538-560 *)
Definition verify (pubkey : g1) (message : list Z) (signature : g2) : outcome bool :=
  let v := add_pair [] (g1_neg g1_BASE) signature in
  obind (fromMessage message CIPHERSUITE_ID) (fun hashedPoint =>
  let v := add_pair v pubkey hashedPoint in
  if bad1 pubkey then Ok false else if bad2 signature then Ok false else is_one v).
(** signatures.cpp:616-624: None stands for return false *)
Fixpoint agg_loop (v : list (g1 * g2)) (pubkeys : list g1) (messages : list (list Z)) : outcome (option (list (g1 * g2))) :=
  match pubkeys, messages with
  | [], _ => Ok (Some v)
  | pk :: pks, m :: ms =>
      if bad1 pk then Ok None
      else obind (fromMessage m CIPHERSUITE_ID) (fun h => agg_loop (add_pair v pk h) pks ms)
  | _ :: _, [] => OutOfBounds
  end.
(** signatures.cpp:582-628.  std::set keeps one copy of each message: its size is the number of different messages. *)
Definition aggregate_verify (pubkeys : list g1) (messages : list (list Z)) (signature : g2) (checkForDuplicateMessages : bool) : outcome bool :=
  let v := add_pair [] (g1_neg g1_BASE) signature in
  if bad2 signature then Ok false
  else if negb (length pubkeys =? length messages)%nat then Ok false
  else if checkForDuplicateMessages && negb (length (nodup (list_eq_dec Z.eq_dec) messages) =? length pubkeys)%nat then Ok false
  else obind (agg_loop v pubkeys messages) (fun r => match r with None => Ok false | Some v => is_one v end).
(** signatures.cpp:630-636 *)
Definition pop_prove (sk : list Z) : outcome g2 :=
  let pk := public_key sk in
  let msg := g1_toAffineLE pk true in
  obind (fromMessage msg POP_CIPHERSUITE_ID) (fun hashed_key => Ok (g2_scale hashed_key sk)).
(** signatures.cpp:638-660 *)
Definition pop_verify (pubkey : g1) (signature_proof : g2) : outcome bool :=
  let msg := g1_toAffineLE pubkey true in
  obind (fromMessage msg POP_CIPHERSUITE_ID) (fun hashedPoint =>
  if bad1 pubkey then Ok false else if bad2 signature_proof then Ok false else
  let v := add_pair [] (g1_neg g1_BASE) signature_proof in
  let v := add_pair v pubkey hashedPoint in
  is_one v).
(** signatures.cpp:662-674 *)
Definition pop_fast_aggregate_verify (pubkeys : list g1) (message : list Z) (signature : g2) : outcome bool :=
  if (length pubkeys =? 0)%nat then Ok false else verify (aggregate_public_keys pubkeys) message signature.

(** signatures.hpp:148-158 and 160-170: aggregation of the f(x_i) with pred(x_i, i), i counted from 0 *)
Fixpoint agg_by {T G} (add : G -> G -> G) (f : T -> G) (pred : T -> nat -> bool) (i : nat) (l : list T) (acc : G) : G :=
  match l with [] => acc | x :: l => agg_by add f pred (S i) l (if pred x i then add acc (f x) else acc) end.
Definition aggregate_public_keys_by {T} (l : list T) (f : T -> g1) (pred : T -> nat -> bool) : g1 := agg_by g1_add f pred 0 l (mkJ 0 0 0).
Definition aggregate_signatures_by {T} (l : list T) (f : T -> g2) (pred : T -> nat -> bool) : g2 :=
  agg_by g2_add f pred 0 l (mkJ fp2_zero fp2_zero fp2_zero).
