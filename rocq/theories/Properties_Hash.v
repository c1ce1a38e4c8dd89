(** C36-C38: the hash functions.  The specifications SHA256, HMAC, HKDF_Extract, HKDF_Expand, expand_message_xmd are in SpecHash. *)
From Coq Require Import ZArith List Bool Lia.
From Verif Require Import SpecBytes SpecHash ModelScalar ModelSha ModelKdf ShaProof KdfProof.
Import ListNotations.
Local Open Scope Z_scope.

(** * C36 *)
(** d0: whatever the uninitialised buffer of a new sha256 object contains; chunks: the arguments of the update calls *)
Theorem C36_sha256 : forall d0 chunks, bytes d0 -> length d0 = 64%nat -> Forall bytes chunks ->
  sha_digest (fold_left sha_update chunks (sha_init d0)) = SHA256 (concat chunks).
Proof. exact sha256_from_ok. Qed.
Theorem C36_chunking : forall d0 d1 c1 c2, bytes d0 -> length d0 = 64%nat -> bytes d1 -> length d1 = 64%nat -> Forall bytes c1 -> Forall bytes c2 ->
  concat c1 = concat c2 ->
  sha_digest (fold_left sha_update c1 (sha_init d0)) = sha_digest (fold_left sha_update c2 (sha_init d1)).
Proof. intros d0 d1 c1 c2 B0 L0 B1 L1 F1 F2 E. rewrite !C36_sha256, E by assumption. reflexivity. Qed.
(** the result is 32 bytes *)
Theorem C36_output : forall m, bytes (SHA256 m) /\ length (SHA256 m) = 32%nat.
Proof. intros m. split; [apply SHA256_bytes|apply SHA256_length]. Qed.
(** digest() finalises the object: taking the digest twice gives two different values *)
Theorem C36_digest_twice_refuted : exists s, s = fold_left sha_update [[97; 98; 99]] (sha_init (repeat 0 64)) /\ sha_digest (sha_pad s) <> sha_digest s.
Proof. eexists. split; [reflexivity|]. vm_compute. discriminate. Qed.
Example C36_abc : bytes [97; 98; 99] /\ sha256_from (repeat 7 64) [[97]; []; [98; 99]] =
  [186; 120; 22; 191; 143; 1; 207; 234; 65; 65; 64; 222; 93; 174; 34; 35; 176; 3; 97; 163; 150; 23; 122; 156; 180; 16; 255; 97; 242; 0; 21; 173] /\
  SHA256 [97; 98; 99] = [186; 120; 22; 191; 143; 1; 207; 234; 65; 65; 64; 222; 93; 174; 34; 35; 176; 3; 97; 163; 150; 23; 122; 156; 180; 16; 255; 97; 242; 0; 21; 173].
Proof.
  assert (B : bytes [97; 98; 99]) by (repeat (constructor; [unfold byte; lia|]); constructor).
  split; [exact B|]. split; [vm_compute; reflexivity|]. rewrite <- (SHA256_nf [97; 98; 99] B). vm_compute. reflexivity.
Qed.
(** two blocks *)
Example C36_448 : sha256 [[97; 98; 99; 100; 98; 99; 100; 101; 99; 100; 101; 102; 100; 101; 102; 103; 101; 102; 103; 104; 102; 103; 104; 105; 103; 104; 105; 106; 104; 105; 106; 107; 105; 106; 107; 108; 106; 107; 108; 109; 107; 108; 109; 110; 108; 109; 110; 111; 109; 110; 111; 112; 110; 111; 112; 113]] =
  [36; 141; 106; 97; 210; 6; 56; 184; 229; 192; 38; 147; 12; 62; 96; 57; 163; 60; 228; 89; 100; 255; 33; 103; 246; 236; 237; 212; 25; 219; 6; 193].
Proof. vm_compute. reflexivity. Qed.

(** * C37 *)
Theorem C37_hmac : forall key text, bytes key -> bytes text -> hkdf256_hmac text key = HMAC key text.
Proof. intros key text K T. apply hmac_ok; assumption. Qed.
Theorem C37_extract : forall salt ikm, bytes salt -> bytes ikm -> hkdf256_extract salt ikm = HKDF_Extract salt ikm.
Proof. exact extract_ok. Qed.
(** return code 0 and exactly the L bytes of the RFC *)
Theorem C37_expand : forall L prk info, bytes prk -> bytes info -> length prk = 32%nat -> 1 <= L <= 8160 ->
  hkdf256_expand L prk info = (0, HKDF_Expand prk info (Z.to_nat L)) /\ length (HKDF_Expand prk info (Z.to_nat L)) = Z.to_nat L.
Proof. intros L prk info B1 B2 Lp H. split; [apply expand_ok; assumption|apply HKDF_Expand_length]. Qed.
Theorem C37_expand_too_long : forall L prk info, 8160 < L -> hkdf256_expand L prk info = (-1, []).
Proof. exact expand_long. Qed.
Theorem C37_extract_expand : forall L key salt info, bytes key -> bytes salt -> bytes info -> 1 <= L <= 8160 ->
  hkdf256_extract_expand L key salt info = (0, HKDF_Expand (HKDF_Extract salt key) info (Z.to_nat L)).
Proof. exact extract_expand_ok. Qed.
(** RFC 5869 allows L = 0 (empty output); the code reports an error *)
Theorem C37_expand_zero_refuted : exists prk info, bytes prk /\ bytes info /\ length prk = 32%nat /\
  HKDF_Expand prk info 0 = [] /\ hkdf256_expand 0 prk info = (-3, []).
Proof. exists (repeat 7 32), []. split; [apply bytes_repeat; unfold byte; lia|]. split; [constructor|]. repeat split. Qed.
(** RFC 5869 test case 1, extraction: 13 byte salt, 22 byte key material *)
Example C37_rfc5869_1 : bytes (repeat 11 22) /\ hkdf256_extract [0; 1; 2; 3; 4; 5; 6; 7; 8; 9; 10; 11; 12] (repeat 11 22) =
  [7; 119; 9; 54; 44; 46; 50; 223; 13; 220; 63; 13; 196; 123; 186; 99; 144; 182; 199; 59; 181; 15; 156; 49; 34; 236; 132; 74; 215; 194; 179; 229].
Proof. split; [apply bytes_repeat; unfold byte; lia|]. vm_compute. reflexivity. Qed.

(** * C38 *)
(** in_len and dst_len are the true lengths *)
Theorem C38_xmd : forall buf_len input dst, bytes input -> bytes dst -> 0 <= buf_len < 2 ^ 31 ->
  xmd_sh256 buf_len input (Z.of_nat (length input)) dst (Z.of_nat (length dst)) =
    Ok (match expand_message_xmd input dst (Z.to_nat buf_len) with Some out => (0, out) | None => (-1, []) end).
Proof. exact xmd_ok. Qed.
(** the code accepts exactly the tags of at most 255 bytes and outputs of at most 8160 bytes *)
Theorem C38_limits : forall input dst n, expand_message_xmd input dst n = None <-> (255 < length dst)%nat \/ 8160 < Z.of_nat n.
Proof.
  intros input dst n. unfold expand_message_xmd.
  assert (HE : Z.of_nat ((n + 31) / 32) = (Z.of_nat n + 31) / 32) by (rewrite Nat2Z.inj_div; f_equal; lia).
  pose proof (Z.div_mod (Z.of_nat n + 31) 32 ltac:(lia)). pose proof (Z.mod_pos_bound (Z.of_nat n + 31) 32 ltac:(lia)).
  destruct (_ || _ || _) eqn:E; split; intros G; try discriminate; try reflexivity.
  - rewrite !orb_true_iff, !Z.ltb_lt in E. lia.
  - rewrite !orb_false_iff, !Z.ltb_ge in E. exfalso. lia.
Qed.
Theorem C38_output : forall input dst n out, expand_message_xmd input dst n = Some out -> length out = n.
Proof. exact xmd_length. Qed.
(** a negative input length (an int) makes the hash read outside the input *)
Theorem C38_negative_length_refuted : forall buf_len input in_len dst, 0 <= buf_len <= 8160 -> (length dst <= 255)%nat -> in_len < 0 ->
  xmd_sh256 buf_len input in_len dst (Z.of_nat (length dst)) = OutOfBounds.
Proof. exact xmd_neg_len. Qed.
Example C38_nontrivial : exists out, xmd_sh256 40 [97; 98; 99] 3 [81; 85] 2 = Ok (0, out) /\ length out = Z.to_nat 40 /\
  expand_message_xmd [97; 98; 99] [81; 85] (Z.to_nat 40) = Some out.
Proof.
  assert (B1 : bytes [97; 98; 99]) by (repeat (constructor; [unfold byte; lia|]); constructor).
  assert (B2 : bytes [81; 85]) by (repeat (constructor; [unfold byte; lia|]); constructor).
  pose proof (C38_xmd 40 _ _ B1 B2 ltac:(lia)) as E.
  destruct (expand_message_xmd [97; 98; 99] [81; 85] (Z.to_nat 40)) as [out|] eqn:X.
  - exists out. split; [exact E|]. split; [exact (C38_output _ _ _ _ X)|reflexivity].
  - exfalso. apply C38_limits in X. destruct X as [X|X]; [cbn [length] in X; lia|change (Z.of_nat (Z.to_nat 40)) with 40 in X; lia].
Qed.
(** RFC 9380, K.1: DST = "QUUX-V01-CS02-with-expander-SHA256-128", msg = "abc", len_in_bytes = 0x20 *)
Example C38_rfc9380 : expand_message_xmd [97; 98; 99]
  [81; 85; 85; 88; 45; 86; 48; 49; 45; 67; 83; 48; 50; 45; 119; 105; 116; 104; 45; 101; 120; 112; 97; 110; 100; 101; 114; 45; 83; 72; 65; 50; 53; 54; 45; 49; 50; 56] 32 =
  Some [216; 204; 171; 35; 181; 152; 92; 206; 168; 101; 198; 201; 123; 110; 91; 131; 80; 231; 148; 230; 3; 180; 185; 121; 2; 245; 58; 138; 13; 96; 86; 21].
Proof. vm_compute. reflexivity. Qed.

Definition props_hash := (C36_sha256, C36_chunking, C36_output, C36_digest_twice_refuted, C37_hmac, C37_extract, C37_expand, C37_expand_too_long, C37_extract_expand, C37_expand_zero_refuted, C38_xmd, C38_limits, C38_output, C38_negative_length_refuted).
Print Assumptions props_hash.
