(** C05, C17, continued: madd, sha256::toString and the value-returning hexToBytes<N>. *)
From Coq Require Import ZArith List Bool Lia.
From Verif Require Import ModelWord ModelScalar PortArith ModelMem ModelMisc SpecBytes ScalarProof ScalarProof2 MemHex MiscProof Properties_Scalar Properties_Mem.
Import ListNotations.
Local Open Scope Z_scope.

(** (t', u', v') = (t, u, v) + a b modulo 2^192 exactly unless u = 2^64 - 1 meets a carry from the low word *)
Theorem C05_madd : forall a b t u v, word a -> word b -> word t -> word u -> word v ->
  let '(t', u', v') := madd a b t u v in
  word t' /\ word u' /\ word v' /\
  ((2 ^ 128 * t' + 2 ^ 64 * u' + v') mod 2 ^ 192 = (2 ^ 128 * t + 2 ^ 64 * u + v + a * b) mod 2 ^ 192 <->
   ~ (u = 2 ^ 64 - 1 /\ 2 ^ 64 <= (a * b) mod 2 ^ 64 + v)).
Proof.
  intros a b t u v Ha Hb Ht Hu Hv. pose proof (madd_ok a b t u v Ha Hb Ht Hu Hv) as H. destruct (madd a b t u v) as [[t' u'] v'].
  destruct H as (H1 & H2 & H3 & H4). split; [exact H1|]. split; [exact H2|]. split; [exact H3|].
  change (2 ^ 192) with (W * (W * W)). change (2 ^ 128) with (W * W). change (2 ^ 64) with W. rewrite <- H4.
  replace (W * W * t' + W * u' + v') with ((t' * W + u') * W + v') by ring. replace (W * W * t + W * u + v + a * b) with ((t * W + u) * W + v + a * b) by ring.
  generalize ((t' * W + u') * W + v'). generalize ((t * W + u) * W + v + a * b). intros y x. clear -x y.
  assert (N : W * (W * W) <> 0) by discriminate. generalize dependent (W * (W * W)). intros n N. split; intros E.
  - rewrite Zminus_mod, E, Z.sub_diag. apply Z.mod_0_l. exact N.
  - apply Z.mod_divide in E; [|exact N]. destruct E as [k E]. replace x with (y + k * n) by lia. apply Z.mod_add. exact N.
Qed.
Theorem C05_madd_refuted : ~ (forall a b t u v, word a -> word b -> word t -> word u -> word v ->
  let '(t', u', v') := madd a b t u v in (2 ^ 128 * t' + 2 ^ 64 * u' + v') mod 2 ^ 192 = (2 ^ 128 * t + 2 ^ 64 * u + v + a * b) mod 2 ^ 192).
Proof. intros H. specialize (H 1 1 0 (2 ^ 64 - 1) (2 ^ 64 - 1)). vm_compute in H. repeat (lapply H; [clear H; intros H|split; [discriminate|reflexivity]]). discriminate H. Qed.
Example C05_madd_example : madd (2 ^ 64 - 1) (2 ^ 64 - 1) 5 6 (2 ^ 64 - 1) = (6, 5, 0).
Proof. reflexivity. Qed.

(** the string of a digest: what bytesToHex gives, without the prefix; hexToBytes reads it back *)
Theorem C17_digest_string : forall d, bytes d -> length d = 32%nat ->
  exists s, sha_toString d = Some s /\ hex_of s d /\ bytesToHex d = 48 :: 120 :: s /\ hexToBytes s = Ok d.
Proof.
  intros d B L. destruct (sha_toString_ok d B L) as (s & E & E2). exists s. destruct (C17_output_is_hex d B) as (s' & E3 & H).
  rewrite E2 in E3. injection E3 as <-. split; [exact E|]. split; [exact H|]. split; [exact E2|].
  apply C17_decode_plain; [exact H|]. intros ->. discriminate L.
Qed.
(** the value returned does not depend on the uninitialised array, and inverts every spelling *)
Theorem C17_array : forall s b junk, hex_of s b -> length junk = length b -> hexToBytes_array junk (48 :: 120 :: s) = Some b.
Proof. intros s b junk. exact (C53_hexToBytesN_value s b junk). Qed.
Theorem C17_array_junk : forall s j1 j2, length j1 = length j2 -> hexToBytes_array j1 s = hexToBytes_array j2 s.
Proof.
  intros s j1 j2 L. unfold hexToBytes_array. destruct (Nat.le_gt_cases (prefix_len s + 2 * length j1) (length s + 1)) as [H|H].
  - rewrite !c_hexToBytesN_ok by (rewrite <- ?L; exact H). rewrite L. reflexivity.
  - rewrite !c_hexToBytesN_oob by (rewrite <- ?L; lia). reflexivity.
Qed.
Example C17_digest_example : sha_toString (repeat 10 32) = Some (flat_map (fun x => [48; 97]) (repeat tt 32)) /\ bytes (repeat 10 32) /\
  hexToBytes_array [77; 88] [48; 120; 97; 66; 48; 57] = Some [171; 9].
Proof. split; [reflexivity|]. split; [|reflexivity]. apply Forall_forall. intros x H. apply repeat_spec in H. subst. split; [discriminate|reflexivity]. Qed.

Definition props_misc := (C05_madd, C05_madd_refuted, C17_digest_string, C17_array, C17_array_junk).
Print Assumptions props_misc.
