(** C53: no out-of-bounds access.  The routines c_... of ModelMem go through checked accesses only ([rd], [wr], [rd_range], [wr_range]);
    a result [Some] says that every index used was inside its array, whatever the previous contents of output and scratch arrays,
    that every variable shift amount was below the width of the word shifted, and that no divisor was 0.
    The value returned is the one of the other properties, so those speak about the same computation. *)
From Coq Require Import ZArith List Bool Lia.
From Verif Require Import SpecBytes SpecHash SpecField ModelWord ModelScalar ModelPrim ModelFp ModelTower ModelDiv ModelCurve ModelSha ModelKdf ModelPairing ModelMem PortArith.
From Verif Require Import CarryProof ScalarProof ScalarProof2 DivProof FpProof FpProof2 InvWide ShaProof KdfProof KeysProof MemProof MemDiv MemDiv2 DivProof2 MemCurve MemSha MemHex.
Import ListNotations.
Local Open Scope Z_scope.

(** scalars of any number of limbs *)
Theorem C53_bytes : forall limbs out, length out = (8 * length limbs)%nat ->
  c_toBytesLE limbs out = Some (toBytesLE limbs) /\ c_toBytesBE limbs out = Some (toBytesBE limbs).
Proof. intros limbs out L. split; [apply c_toBytesLE_ok, L|apply c_toBytesBE_ok, L]. Qed.
Theorem C53_from_bytes : forall b out, length b = (8 * length out)%nat ->
  c_fromBytesLE b out = Some (fromBytesLE (length out) b) /\ c_fromBytesBE b out = Some (fromBytesBE (length out) b).
Proof. intros b out L. split; [apply c_fromBytesLE_ok, L|apply c_fromBytesBE_ok, L]. Qed.
Theorem C53_add : forall NC a b, c_add NC a b = Some (scalar_add NC a b).
Proof. exact c_add_ok. Qed.
Theorem C53_multiply : forall NC a b, words a -> words b -> (length a + length b <= NC)%nat -> scalar_multiply NC a b <> OutOfBounds.
Proof. intros NC a b Ha Hb L. destruct (scalar_multiply_ok NC a b Ha Hb L) as (c & E & _). rewrite E. discriminate. Qed.
Theorem C53_multiply_bounds_refuted : exists a b, words a /\ words b /\ scalar_multiply 1 a b = OutOfBounds.
Proof. exists [2; 3], [5]. split; [apply wordsb_ok; reflexivity|]. split; [apply wordsb_ok; reflexivity|reflexivity]. Qed.
Theorem C53_compare : forall a b, length a = length b ->
  c_cmp (length a) a b = Some (scalar_cmp a b) /\ c_equal a b = Some (scalar_equal a b) /\ c_bitLength a = Some (bitLength a).
Proof. intros a b L. split; [apply c_cmp_ok; lia|]. split; [apply c_equal_ok, L|apply c_bitLength_ok]. Qed.
Theorem C53_rsh : forall out inp bits, 0 <= bits -> length out = length inp -> c_rsh out inp bits = Some (rsh inp bits).
Proof. exact c_rsh_ok. Qed.
(** exponentiation and scalar multiplication; [T] is any of the classes *)
Theorem C53_exp : forall (T : Type) (one : T) sq mul x s, words s -> c_exp one sq mul x s = Some (gexp one sq mul x s).
Proof. intros T one sq mul x s. apply c_exp_ok. Qed.
Theorem C53_scale : forall (T : Type) (zero : T) dbl add x s, words s -> c_scale zero dbl add x s = Some (gscale zero dbl add x s).
Proof. intros T zero dbl add x s. apply c_scale_ok. Qed.
Theorem C53_weightedSum_g1 : forall points scalars sh bucket0, length sh <> 0%nat -> Forall (fun s => length s = length sh) scalars ->
  (forall n, Z.of_nat (length (bucket0 n)) = Z.max 0 n) -> Z.of_nat (length points) < 2 ^ 64 -> c_weightedSum fp_ops points scalars sh bucket0 = Some (g1_weightedSum points scalars).
Proof. exact (c_weightedSum_ok fp_ops). Qed.
Theorem C53_weightedSum_g2 : forall points scalars sh bucket0, length sh <> 0%nat -> Forall (fun s => length s = length sh) scalars ->
  (forall n, Z.of_nat (length (bucket0 n)) = Z.max 0 n) -> Z.of_nat (length points) < 2 ^ 64 -> c_weightedSum fp2_ops points scalars sh bucket0 = Some (g2_weightedSum points scalars).
Proof. exact (c_weightedSum_ok fp2_ops). Qed.
(** the arrays of the division: N + 2 limbs for dividend, divisor, quotient and remainder, 3 for the two local ones *)
Theorem C53_division : forall c d a b t1 t2, words a -> words b -> (1 <= length b <= length a)%nat -> 0 < limb b (length b - 1) < 2 ^ 63 ->
  length c = length a -> length d = length b -> length t1 = 3%nat -> length t2 = 3%nat ->
  exists q r, c_divn_safe c d a b t1 t2 = Some (q, r) /\ length q = length a /\ length r = length b /\ val q = val a / val b /\ val r = val a mod val b.
Proof.
  intros c d a b t1 t2 Ha Hb L T Lc Ld L1 L2. destruct (c_divn_safe_ok c d a b t1 t2 Ha Hb L T Lc Ld L1 L2) as (q & r & E & M).
  destruct (bn_divn_safe_ok a b Ha Hb L T) as (q' & r' & E' & Hq & Hr & Lq & Lr & V & B). rewrite E in E'. injection E' as <- <-.
  exists q, r. split; [exact M|]. split; [exact Lq|]. split; [exact Lr|]. exact (divn_mod a b q r Hr V B).
Qed.
(** a divisor with its top bit set: inside the arrays exactly if the dividend has more limbs or its top limb is at least 2 *)
Theorem C53_division_large : forall c d a b t1 t2, words a -> words b -> (1 <= length b <= length a)%nat -> 2 ^ 63 <= limb b (length b - 1) ->
  length c = length a -> length d = length b -> length t1 = 3%nat -> length t2 = 3%nat ->
  ((length b < length a)%nat \/ 2 <= limb a (length a - 1) ->
   exists q r, c_divn_safe c d a b t1 t2 = Some (q, r) /\ length q = length a /\ length r = length b /\ val q = val a / val b /\ val r = val a mod val b) /\
  (length b = length a -> limb a (length a - 1) < 2 -> c_divn_safe c d a b t1 t2 = None).
Proof.
  intros c d a b t1 t2 Ha Hb L T Lc Ld L1 L2. destruct (c_divn_big c d a b t1 t2 Ha Hb L T Lc Ld L1 L2) as (P & N). split.
  - intros G. destruct (P G) as (q & r & E & M). destruct (proj1 (divn_big a b Ha Hb L T) G) as (q' & r' & E' & Hq & Hr & Lq & Lr & V & B). rewrite E in E'. injection E' as <- <-.
    exists q, r. split; [exact M|]. split; [exact Lq|]. split; [exact Lr|]. exact (divn_mod a b q r Hr V B).
  - intros E U. apply N. intros [G|G]; lia.
Qed.
(** a quotient digit divided by a zero limb would be reported *)
Example C53_zero_digit : c_div_step 2 1 [0; 0] 1 (mkD [5; 3] [0; 0] [0; 0] [0; 0; 0] [0; 0; 0]) = None /\
  c_div_step 2 1 [2 ^ 62; 0] 1 (mkD [5; 3] [0; 0] [0; 0] [0; 0; 0] [0; 0; 0]) <> None.
Proof. split; [vm_compute; reflexivity|vm_compute; discriminate]. Qed.
Example C53_division_large_nontrivial :
  c_divn_safe [9; 9] [9; 9] [5; 2] [3; 2 ^ 63] [7; 7; 7] [8; 8; 8] = Some ([0; 0], [5; 2]) /\
  c_divn_safe [9; 9] [9; 9] [5; 1] [3; 2 ^ 63] [7; 7; 7] [8; 8; 8] = None.
Proof. split; vm_compute; reflexivity. Qed.
(** inversion: the only computed index is that of the limb power / 64 *)
Theorem C53_power : forall power, 0 <= power -> (c_power power <> None <-> power < 384).
Proof. exact c_power_ok. Qed.
Theorem C53_inverse : forall x, 0 <= x < 2 ^ 384 -> fp_inverse_opt x <> None.
Proof. intros x H. destruct (fp_inverse_opt_wide x H) as (y & E & _). rewrite E. discriminate. Qed.

(** hashing; [u] holds the indeterminate contents of the arrays of a hash object *)
Theorem C53_sha256 : forall u parts chunks out off, ok_junk u -> Forall2 part_is parts chunks -> Forall bytes chunks ->
  0 <= off -> off + 32 <= Z.of_nat (length out) -> H u parts out off = Some (patch out (Z.to_nat off) (SHA256 (concat chunks))).
Proof.
  intros u parts chunks out off Hu F B O1 O2. rewrite <- (firstn_skipn (Z.to_nat off) out) at 1. rewrite <- (firstn_skipn 32 (skipn (Z.to_nat off) out)).
  rewrite (H_ok u parts chunks _ _ _ off Hu F B) by (rewrite ?firstn_length, ?skipn_length; lia). unfold sha256. rewrite sha256_from_ok by (assumption || apply bytes_repeat0 || apply repeat_length).
  unfold patch. rewrite SHA256_length, skipn_skipn'. reflexivity.
Qed.
Theorem C53_hmac : forall u opad ipad _key mac inp in_len key key_len input k, ok_junk u -> ok_hmac opad ipad _key mac in_len ->
  rd_range inp 0 in_len = Some input -> rd_range key 0 key_len = Some k -> bytes input -> bytes k ->
  c_hmac u opad ipad _key mac inp in_len key key_len = Some (HMAC k input).
Proof. intros u opad ipad _key mac inp in_len key key_len input k Hu Hh Ri Rk Bi Bk. rewrite <- (hmac_ok input k Bi Bk). apply c_hmac_ok; assumption. Qed.
Theorem C53_expand : forall u opad ip _key T h1 h2 okm prk info il inf, ok_junk u -> ok_pads opad _key ip -> length prk = 32%nat -> bytes prk -> rd_range info 0 il = Some inf -> bytes inf ->
  length T = 32%nat -> Z.of_nat (length h1) = il + 1 -> Z.of_nat (length h2) = 32 + il + 1 -> 1 <= Z.of_nat (length okm) <= 8160 ->
  c_expand u opad ip _key T h1 h2 okm prk info il = Some (0, HKDF_Expand prk inf (length okm)).
Proof.
  intros u opad ip _key T h1 h2 okm prk info il inf Hu Hp Lp Bp Ri Bi LT L1 L2 LL.
  destruct (c_expand_ok u opad ip _key T h1 h2 okm prk info il inf Hu Hp ltac:(lia) ltac:(apply bytes_firstn; exact Bp) Ri Bi LT L1 L2) as (w & E & LW).
  rewrite (expand_ok _ prk inf Bp Bi Lp LL) in E, LW. cbn [fst snd] in E, LW. rewrite Nat2Z.id in E, LW.
  rewrite app_length, HKDF_Expand_length in LW. assert (w = []) as -> by (apply length_zero_iff_nil; lia). rewrite app_nil_r in E. exact E.
Qed.
Theorem C53_xmd : forall u b_0 buf inp in_len m dst, ok_junk u -> length b_0 = 32%nat -> Z.of_nat (length buf) < 2 ^ 31 ->
  bytes inp -> rd_range inp 0 in_len = Some m -> bytes dst ->
  c_xmd u b_0 buf inp in_len dst (Z.of_nat (length dst)) = Some (match expand_message_xmd m dst (length buf) with Some b => (0, b) | None => (-1, buf) end).
Proof.
  intros u b_0 buf inp in_len m dst Hu L0 Lb Bi Ri Bd. assert (Rb := Ri). rewrite rd_range_read in Rb.
  assert (Bm : bytes m). { unfold read_bytes in Rb. destruct (_ && _); [|discriminate]. injection Rb as <-. apply bytes_firstn, Bi. }
  destruct (c_xmd_ok u b_0 buf inp in_len m dst (Z.of_nat (length dst)) dst Hu L0 Lb Ri Bm (rd_range_all dst _ eq_refl) Bd) as (code & out & E1 & E2).
  rewrite (xmd_read (Z.of_nat (length buf)) inp in_len m dst Bi Bd ltac:(lia) Rb) in E1. rewrite Nat2Z.id in E1. rewrite E2. destruct (expand_message_xmd m dst (length buf)); injection E1 as <- <-; reflexivity.
Qed.

(** pairing *)
Theorem C53_pre_compute : forall tp, exists l, pre_compute tp = Ok l /\ length l = 68%nat /\ c_pre_compute (repeat ell_zero 68) tp = Some l.
Proof. exact c_pre_compute_ok. Qed.
Theorem C53_miller_loop : forall ps, 1 <= Z.of_nat (length ps) <= 2 ^ 64 -> exists f, miller_loop ps = Ok f /\ c_miller_loop ps = Some f.
Proof. exact c_miller_loop_ok. Qed.
Theorem C53_miller_loop_empty_refuted : c_miller_loop [] = None.
Proof. exact c_miller_loop_empty. Qed.
(** tables of the Frobenius maps *)
Theorem C53_frobenius6 : forall power, 0 <= power -> exists a b, c_coeff6 power = Some (a, b).
Proof. exact c_coeff6_ok. Qed.
Theorem C53_frobenius12 : forall power, 0 <= power -> (c_coeff12 power <> None <-> power < 12).
Proof. exact c_coeff12_ok. Qed.

(** hex strings *)
Theorem C53_bytesToHex : forall b, bytes b -> c_bytesToHex b = Some (bytesToHex b).
Proof. exact c_bytesToHex_ok. Qed.
Theorem C53_hexToBytes : forall s, c_hexToBytes s = match hexToBytes s with Ok b => Some b | _ => None end.
Proof. exact c_hexToBytes_ok. Qed.
Theorem C53_hexToBytes_refuted : forall s, c_hexToBytes s = None <-> s = [] \/ s = [48].
Proof. exact hexToBytes_oob. Qed.
(** the version with a fixed number of bytes reads 2N characters after the prefix, one of which may be the terminating zero *)
Theorem C53_hexToBytesN : forall s out, c_hexToBytesN s out <> None <-> (prefix_len s + 2 * length out <= length s + 1)%nat.
Proof.
  intros s out. destruct (Nat.le_gt_cases (prefix_len s + 2 * length out) (length s + 1)) as [L|L].
  - rewrite (c_hexToBytesN_ok s out L). split; [intros _; exact L|discriminate].
  - rewrite (c_hexToBytesN_oob s out L). split; [congruence|lia].
Qed.
Theorem C53_hexToBytesN_value : forall s b out, hex_of s b -> length out = length b -> c_hexToBytesN (48 :: 120 :: s) out = Some b.
Proof.
  intros s b out Hs L. assert (Ls : length s = (2 * length b)%nat) by (clear L; induction Hs; cbn [length]; lia).
  rewrite c_hexToBytesN_ok by (cbn [prefix_len Z.eqb Pos.eqb andb length]; lia). cbn [prefix_len Z.eqb Pos.eqb andb skipn app].
  rewrite L, <- Ls, firstn_app, Nat.sub_diag, firstn_all, firstn_O, app_nil_r. f_equal. exact (hex_pairs_ok s b Hs).
Qed.

(** the hypotheses hold: a hash object full of ones, a message of three bytes; a division of 6 limbs by the group order; three pairs *)
Example C53_examples :
  ok_junk (mkJunk (repeat 1 64) (repeat 1 8) (repeat 1 64)) /\ Forall2 part_is [([9; 97; 98; 99], 1, 2); ([99], 0, 1)] [[97; 98]; [99]] /\
  ok_hmac (repeat 7 96) (repeat 7 67) (repeat 7 64) (repeat 7 32) 3 /\ ok_pads (repeat 7 96) (repeat 7 64) (fun n => repeat 7 (Z.to_nat (64 + n))) /\
  (forall n, Z.of_nat (length (repeat g1_zero (Z.to_nat n))) = Z.max 0 n) /\
  (exists q r, c_divn_safe (repeat 5 3) (repeat 5 2) [1; 2; 3] [7; 9] [0; 1; 2] [3; 4; 5] = Some (q, r) /\ val r = val [1; 2; 3] mod val [7; 9]) /\
  (exists f, c_miller_loop [(g1_zero, g2_zero); (g1_zero, g2_zero); (g1_zero, g2_zero)] = Some f) /\
  c_hexToBytesN [48; 120; 97; 66; 48; 57] [0; 0] = Some [171; 9].
Proof.
  split. { split; [reflexivity|]. split; [reflexivity|]. split; [reflexivity|]. apply (bytes_repeat 1 64). unfold byte; lia. }
  split. { repeat constructor. }
  split. { repeat split. }
  split. { split; [reflexivity|]. split; [reflexivity|]. intros n Hn. rewrite repeat_length. lia. }
  split. { intros n. rewrite repeat_length. lia. }
  split. { destruct (C53_division (repeat 5 3) (repeat 5 2) [1; 2; 3] [7; 9] [0; 1; 2] [3; 4; 5]) as (q & r & E & _ & _ & _ & R); try reflexivity; [apply wordsb_ok; reflexivity|apply wordsb_ok; reflexivity|cbn [length]; lia|vm_compute; split; reflexivity|].
    exists q, r. split; [exact E|exact R]. }
  split. { destruct (C53_miller_loop [(g1_zero, g2_zero); (g1_zero, g2_zero); (g1_zero, g2_zero)]) as (f & _ & E); [split; [discriminate|discriminate]|]. exists f. exact E. }
  reflexivity.
Qed.

Definition props_mem := (C53_bytes, C53_from_bytes, C53_add, C53_multiply, C53_multiply_bounds_refuted, C53_compare, C53_rsh, C53_exp, C53_scale, C53_weightedSum_g1, C53_weightedSum_g2, C53_division, C53_division_large, C53_power, C53_inverse, C53_sha256, C53_hmac, C53_expand, C53_xmd, C53_pre_compute, C53_miller_loop, C53_miller_loop_empty_refuted, C53_frobenius6, C53_frobenius12, C53_bytesToHex, C53_hexToBytes, C53_hexToBytes_refuted, C53_hexToBytesN, C53_hexToBytesN_value).
Print Assumptions props_mem.
