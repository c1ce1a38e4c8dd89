(** Property C77: SHA-256, HMAC and HKDF touch memory and branch in a way that depends only on the lengths of their inputs, not on
    the contents (nor on what the uninitialised buffers contain).  The functions t_... of ModelTrace return, besides the result,
    the log of all element accesses (array and index), block copies (array, offset, count) and branches. *)
From Coq Require Import ZArith List Bool Lia.
From Verif Require Import SpecBytes SpecHash ModelWord ModelSha ModelKdf ModelMem ModelTrace ShaProof KdfProof MemProof MemSha Properties_Mem TraceProof.
Import ListNotations.
Local Open Scope Z_scope.

Lemma junk_ok_like u u' : ok_junk u -> ok_junk u' -> junk_like u u'.
Proof. intros (A & B & C & _) (A' & B' & C' & _). unfold junk_like, len. rewrite A, B, C, A', B', C'. repeat split. Qed.
(** Two hash computations fed with buffers of the same lengths, cut in the same way, have the same log. *)
Theorem C77_sha256 : forall u u' parts parts' chunks chunks' a out out' off, ok_junk u -> ok_junk u' ->
  Forall2 part_is (map snd parts) chunks -> Forall bytes chunks -> Forall2 part_is (map snd parts') chunks' -> Forall bytes chunks' ->
  Forall2 shape parts parts' -> length out = length out' -> 0 <= off -> off + 32 <= Z.of_nat (length out) ->
  exists log, t_sha u parts a out off [] = Some (patch out (Z.to_nat off) (SHA256 (concat chunks)), log) /\
              t_sha u' parts' a out' off [] = Some (patch out' (Z.to_nat off) (SHA256 (concat chunks')), log).
Proof.
  intros u u' parts parts' chunks chunks' a out out' off J J' P B P' B' S L O1 O2.
  destruct (er_run (t_sha u parts a out off) (patch out (Z.to_nat off) (SHA256 (concat chunks)))) as (l & E).
  { rewrite <- (C53_sha256 u (map snd parts) chunks out off J P B O1 O2). apply er_sha. }
  destruct (er_run (t_sha u' parts' a out' off) (patch out' (Z.to_nat off) (SHA256 (concat chunks')))) as (l' & E').
  { rewrite <- (C53_sha256 u' (map snd parts') chunks' out' off J' P' B' O1) by (rewrite <- L; exact O2). apply er_sha. }
  exists l. split; [exact E|]. rewrite E'. f_equal. f_equal. symmetry.
  exact (same_log len _ _ _ _ _ _ (same_sha u u' parts parts' a out out' off (junk_ok_like _ _ J J') S L) E E').
Qed.
(** One buffer: for every length there is one log for all messages of that length. *)
Theorem C77_sha256_message : forall n a b, exists log, forall u m out, ok_junk u -> bytes m -> length m = n -> length out = 32%nat ->
  t_sha u [(a, (m, 0, Z.of_nat n))] b out 0 [] = Some (SHA256 m, log).
Proof.
  intros n a b. set (u0 := mkJunk (repeat 0 64) (repeat 0 8) (repeat 0 64)). set (m0 := repeat 0 n).
  assert (J0 : ok_junk u0) by (repeat split; apply bytes_repeat; unfold byte; lia).
  assert (PI : forall m, length m = n -> Forall2 part_is (map snd [(a, (m, 0, Z.of_nat n))]) [m]).
  { intros m L. constructor; [|constructor]. unfold part_is. cbn [snd fst]. unfold rd_range. rewrite <- L, Z.add_0_l, !Z.leb_refl, (proj2 (Z.leb_le _ (Z.of_nat (length m)))) by lia.
    change (Z.to_nat 0) with O. cbn [andb Z.leb Z.compare skipn]. rewrite Nat2Z.id, firstn_all. reflexivity. }
  assert (L0 : length m0 = n) by apply repeat_length.
  assert (B0 : Forall bytes [m0]) by (constructor; [apply bytes_repeat; unfold byte; lia|constructor]).
  assert (V : forall out m : list Z, length out = 32%nat -> patch out 0 (SHA256 (concat [m])) = SHA256 m).
  { intros out m L. unfold patch. cbn [concat firstn app]. rewrite app_nil_r, skipn_all2, app_nil_r by (rewrite SHA256_length; lia). reflexivity. }
  destruct (er_run (t_sha u0 [(a, (m0, 0, Z.of_nat n))] b (repeat 0 32) 0) (SHA256 m0)) as (log & E).
  { rewrite <- (V (repeat 0 32) m0) by apply repeat_length.
    pose proof (C53_sha256 u0 (map snd [(a, (m0, 0, Z.of_nat n))]) [m0] (repeat 0 32) 0 J0 (PI m0 L0) B0 ltac:(lia) ltac:(rewrite repeat_length; lia)) as V0.
    change (Z.to_nat 0) with O in V0. rewrite <- V0. apply er_sha. }
  exists log. intros u m out J B L LO.
  destruct (C77_sha256 u0 u [(a, (m0, 0, Z.of_nat n))] [(a, (m, 0, Z.of_nat n))] [m0] [m] b (repeat 0 32) out 0 J0 J (PI m0 L0) B0 (PI m L)) as (log' & E1 & E2);
    [constructor; [exact B|constructor]| |rewrite LO; reflexivity|lia|rewrite repeat_length; lia|].
  { constructor; [|constructor]. repeat split. unfold len. cbn [fst snd]. lia. }
  rewrite E in E1. injection E1 as _ ->. rewrite E2. change (Z.to_nat 0) with O. rewrite V by exact LO. reflexivity.
Qed.
(** What the log of a hash of n bytes contains: one read of every byte of the message, in order, one write of every byte of the digest,
    n + 2 branches.  (The newest entry is the first.) *)
Theorem C77_sha256_log : forall u i j m out r log, i <> j -> t_sha u [(AUser i, (m, 0, Z.of_nat (length m)))] (AUser j) out 0 [] = Some (r, log) ->
  filter (on (AUser i)) log = rev (map (fun k => ERd (AUser i) (Z.of_nat k)) (seq 0 (length m))) /\
  filter (on (AUser j)) log = rev (flat_map (fun p => map (fun q => EWr (AUser j) (p + 4 * q)) [0; 1; 2; 3; 4; 5; 6; 7]) [0; 1; 2; 3]) /\
  length (filter is_br log) = (length m + 2)%nat.
Proof. intros u i j m out r log N E. exact (sha1_log u i j m (length m) out 0 r log N eq_refl E). Qed.
(** HMAC (and HKDF-Extract, which is HMAC): inputs and keys of equal lengths, also keys longer than a block. *)
Theorem C77_hmac : forall u u' opad opad' ipad ipad' _key _key' mac mac' ain akey inp inp' in_len key key' key_len input input' k k',
  ok_junk u -> ok_junk u' -> ok_hmac opad ipad _key mac in_len -> ok_hmac opad' ipad' _key' mac' in_len ->
  rd_range inp 0 in_len = Some input -> rd_range inp' 0 in_len = Some input' -> rd_range key 0 key_len = Some k -> rd_range key' 0 key_len = Some k' ->
  bytes input -> bytes input' -> bytes k -> bytes k' -> length inp = length inp' -> length key = length key' ->
  exists log, t_hmac u opad ipad _key mac ain inp in_len akey key key_len [] = Some (HMAC k input, log) /\
              t_hmac u' opad' ipad' _key' mac' ain inp' in_len akey key' key_len [] = Some (HMAC k' input', log).
Proof.
  intros u u' opad opad' ipad ipad' _key _key' mac mac' ain akey inp inp' in_len key key' key_len input input' k k' J J' O O' I I' K K' B1 B2 B3 B4 L1 L2.
  destruct (er_run (t_hmac u opad ipad _key mac ain inp in_len akey key key_len) (HMAC k input)) as (l & E).
  { rewrite <- (C53_hmac u opad ipad _key mac inp in_len key key_len input k J O I K B1 B3). apply er_hmac. }
  destruct (er_run (t_hmac u' opad' ipad' _key' mac' ain inp' in_len akey key' key_len) (HMAC k' input')) as (l' & E').
  { rewrite <- (C53_hmac u' opad' ipad' _key' mac' inp' in_len key' key_len input' k' J' O' I' K' B2 B4). apply er_hmac. }
  exists l. split; [exact E|]. rewrite E'. f_equal. f_equal. symmetry.
  destruct O as (O1 & O2 & O3 & O4), O' as (O1' & O2' & O3' & O4').
  refine (same_log len _ _ _ _ _ _ (same_hmac u u' opad opad' ipad ipad' _key _key' mac mac' ain inp inp' in_len akey key key' key_len (junk_ok_like _ _ J J') _ _ _ _ L1 L2) E E');
    unfold len; lia.
Qed.
(** HKDF-Expand: pseudorandom keys of 32 bytes, info and output of equal lengths. *)
Theorem C77_expand : forall u u' opad opad' ip ip' _key _key' T T' h1 h1' h2 h2' okm okm' prk prk' info info' il inf inf',
  ok_junk u -> ok_junk u' -> ok_pads opad _key ip -> ok_pads opad' _key' ip' -> length prk = 32%nat -> length prk' = 32%nat -> bytes prk -> bytes prk' ->
  rd_range info 0 il = Some inf -> rd_range info' 0 il = Some inf' -> bytes inf -> bytes inf' -> length info = length info' ->
  length T = 32%nat -> length T' = 32%nat -> Z.of_nat (length h1) = il + 1 -> Z.of_nat (length h1') = il + 1 ->
  Z.of_nat (length h2) = 32 + il + 1 -> Z.of_nat (length h2') = 32 + il + 1 -> 1 <= Z.of_nat (length okm) <= 8160 -> length okm' = length okm ->
  exists log, t_expand u opad ip _key T h1 h2 okm prk info il [] = Some ((0, HKDF_Expand prk inf (length okm)), log) /\
              t_expand u' opad' ip' _key' T' h1' h2' okm' prk' info' il [] = Some ((0, HKDF_Expand prk' inf' (length okm)), log).
Proof.
  intros u u' opad opad' ip ip' _key _key' T T' h1 h1' h2 h2' okm okm' prk prk' info info' il inf inf' J J' P P' LP LP' BP BP' I I' B B' LI LT LT' A1 A1' A2 A2' LO LO'.
  destruct (er_run (t_expand u opad ip _key T h1 h2 okm prk info il) (0, HKDF_Expand prk inf (length okm))) as (l & E).
  { rewrite <- (C53_expand u opad ip _key T h1 h2 okm prk info il inf J P LP BP I B LT A1 A2 LO). apply er_expand. }
  destruct (er_run (t_expand u' opad' ip' _key' T' h1' h2' okm' prk' info' il) (0, HKDF_Expand prk' inf' (length okm))) as (l' & E').
  { rewrite <- LO' in LO |- *. rewrite <- (C53_expand u' opad' ip' _key' T' h1' h2' okm' prk' info' il inf' J' P' LP' BP' I' B' LT' A1' A2' LO). apply er_expand. }
  exists l. split; [exact E|]. rewrite E'. f_equal. f_equal. symmetry.
  destruct P as (P1 & P2 & P3), P' as (P1' & P2' & P3').
  assert (IL : 0 <= il) by (unfold rd_range in I; destruct (Z.leb_spec 0 il); [assumption|rewrite andb_false_r in I; discriminate I]).
  refine (same_log reslen _ _ _ _ _ _ (same_expand u u' opad opad' ip ip' _key _key' T T' h1 h1' h2 h2' okm okm' prk prk' info info' il (junk_ok_like _ _ J J') _ IL _ _ _ _ _ _ _ _) E E');
    unfold len; try lia.
  intros n Hn. specialize (P3 n Hn). specialize (P3' n Hn). lia.
Qed.

(** The log sees indices and branches: hashing 3 bytes and hashing 60 bytes (two blocks) are distinguished, and an access by a secret
    index would be: a table lookup has different logs for different indices. *)
Example C77_example :
  let u := mkJunk (repeat 7 64) (repeat 7 8) (repeat 7 64) in let u' := mkJunk (repeat 9 64) (repeat 9 8) (repeat 9 64) in
  let run u m := option_map (fun p => length (snd p)) (t_sha u [(AUser 10, (m, 0, Z.of_nat (length m)))] (AUser 11) (repeat 0 32) 0 []) in
  ok_junk u /\ ok_junk u' /\ run u [97; 98; 99] = run u' [1; 2; 3] /\ run u [97; 98; 99] <> run u (repeat 5 60) /\
  (exists l l', trd (AUser 1) [10; 20; 30] 1 [] = Some (20, l) /\ trd (AUser 1) [10; 20; 30] 2 [] = Some (30, l') /\ l <> l').
Proof.
  cbv zeta. split; [repeat split; apply bytes_repeat; unfold byte; lia|]. split; [repeat split; apply bytes_repeat; unfold byte; lia|].
  split; [vm_compute; reflexivity|]. split; [vm_compute; discriminate|]. do 2 eexists. split; [reflexivity|]. split; [reflexivity|discriminate].
Qed.

Definition props_trace := (C77_sha256, C77_sha256_message, C77_sha256_log, C77_hmac, C77_expand).
Print Assumptions props_trace.
