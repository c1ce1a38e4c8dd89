(** C39-C43: secret keys, derivation, aggregation, serialisation.  Specification in SpecKeys (with SpecHash, SpecCodec).
    [key k]: k is an array of four 64-bit words; val k its integer value. *)
From Coq Require Import ZArith List Bool Lia Permutation.
From Verif Require Import SpecField SpecBytes SpecHash SpecCodec SpecKeys SpecCurve.
From Verif Require Import ModelWord ModelScalar ModelFp ModelCurve ModelCodec ModelSha ModelKdf ModelKeys ScalarProof BytesProof ShaProof KdfProof KeysProof.
From Verif Require Import AbGroup CurveProof CurveInst CurveReps CurveBase GenProof CodecProof2.
Import ListNotations.
Local Open Scope Z_scope.

(** * C39 *)
Theorem C39_short_seed : forall fuel seed, (length seed < 32)%nat -> secret_key fuel seed = Ok (Some [0; 0; 0; 0]).
Proof. intros fuel seed L. unfold secret_key. rewrite (proj2 (Z.ltb_lt _ 32)) by lia. reflexivity. Qed.
(** within [fuel] iterations the code returns the first nonzero candidate if there is one among the first [fuel], else it is still looping *)
Theorem C39_keygen : forall fuel seed, bytes seed -> (32 <= length seed)%nat ->
  (exists m k, (m < fuel)%nat /\ first_nonzero seed 0 m /\ secret_key fuel seed = Ok (Some k) /\ key k /\ val k = keygen_cand seed m) \/
  ((forall i, (i < fuel)%nat -> keygen_cand seed i = 0) /\ secret_key fuel seed = Ok None).
Proof. exact secret_key_ok. Qed.
Lemma cand_range seed m : 0 <= keygen_cand seed m < order.
Proof. unfold keygen_cand. apply Z.mod_pos_bound. reflexivity. Qed.
Theorem C39_range : forall fuel seed k, bytes seed -> (32 <= length seed)%nat -> secret_key fuel seed = Ok (Some k) -> key k /\ 1 <= val k < order.
Proof.
  intros fuel seed k B L E. destruct (C39_keygen fuel seed B L) as [(m & k' & _ & (_ & NZ & _) & E' & K & V)|[_ E']]; rewrite E in E'; [|discriminate].
  injection E' as <-. split; [exact K|]. pose proof (cand_range seed m) as Bd. rewrite V. clear -NZ Bd. lia.
Qed.
Lemma salt_0 : keygen_salt 0 = keygen_salt0. Proof. reflexivity. Qed.
Lemma salt_S n : keygen_salt (S n) = SHA256 (keygen_salt n). Proof. reflexivity. Qed.
Lemma next_cand seed v : bytes seed -> sk_loop 1 (seed ++ [0]) (sha256 [keygen_salt0]) = Ok (Some v) -> first_nonzero seed 1 1 /\ val v = keygen_cand seed 1.
Proof.
  intros B E1. rewrite SHA256_nf in E1 by apply (salt_bytes 0). rewrite <- salt_0, <- salt_S in E1.
  destruct (sk_loop_ok seed B 1 1) as [(m & k' & Hm & NZ & _ & E' & _ & V)|[_ E']]; rewrite E1 in E'; [|discriminate E'].
  injection E' as <-. assert (m = 1%nat) as -> by lia. split; [|exact V]. split; [apply le_n|split; [exact NZ|intros; lia]].
Qed.
Definition seed0 : list Z := map Z.of_nat (seq 0 32).
Lemma seed0_bytes : bytes seed0.
Proof. apply Forall_forall; intros x Hx; apply in_map_iff in Hx; destruct Hx as (n & <- & Hn); apply in_seq in Hn; unfold byte; lia. Qed.
Definition cand0 := limbs_of 4 33513570078328515361166001255503190478927742634169061946335655676954268849891.
Definition cand1 := limbs_of 4 15926454122213904454507208963543799348312092371334784788973904405790746948694.
Lemma seed0_0 : secret_key 1 seed0 = Ok (Some cand0).
Proof. vm_cast_no_check (eq_refl (Ok (Some cand0))). Qed.
Lemma seed0_1 : sk_loop 1 (seed0 ++ [0]) (sha256 [keygen_salt0]) = Ok (Some cand1).
Proof. vm_cast_no_check (eq_refl (Ok (Some cand1))). Qed.
(** EIP-2333 (hkdf_mod_r) hashes the salt before the first attempt, so its key is the first nonzero candidate from index 1 on: the
    code returns a different key *)
Theorem C39_eip2333_refuted : exists seed k m, bytes seed /\ length seed = 32%nat /\ secret_key 1 seed = Ok (Some k) /\
  first_nonzero seed 1 m /\ val k <> keygen_cand seed m.
Proof.
  exists seed0, cand0, 1%nat. split; [exact seed0_bytes|]. split; [reflexivity|]. split; [exact seed0_0|].
  destruct (next_cand seed0 cand1 seed0_bytes seed0_1) as [F V]. split; [exact F|]. rewrite <- V. generalize V. clear. intros _.
  vm_compute. discriminate.
Qed.

(** the bytes 0, 1, ..., 31 meet the hypotheses: one iteration gives a key, that of C39_keygen *)
Example C39_example : bytes seed0 /\ length seed0 = 32%nat /\ secret_key 1 seed0 = Ok (Some cand0) /\ val cand0 = keygen_cand seed0 0 /\ first_nonzero seed0 0 0 /\ 1 <= val cand0 < order.
Proof.
  split; [exact seed0_bytes|]. split; [reflexivity|]. split; [exact seed0_0|].
  destruct (C39_keygen 1 seed0 seed0_bytes (le_n 32)) as [(m & k & Hm & F & E & _ & V)|[_ E]]; rewrite seed0_0 in E; [|discriminate E].
  apply (f_equal (fun o => match o with Ok (Some x) => x | _ => [] end)) in E. cbv beta iota in E. rewrite E in *. assert (m = 0%nat) by lia. subst m. split; [exact V|]. split; [exact F|].
  apply (C39_range 1 seed0 k seed0_bytes (le_n 32)). rewrite seed0_0, E. reflexivity.
Qed.

(** * C40 *)
Theorem C40_lamport : forall sk index, key sk -> parent_sk_to_lamport_pk sk index = lamport_PK (val sk) index.
Proof. exact lamport_ok. Qed.
(** the child key is the generated key of the EIP-2333 lamport public key *)
Theorem C40_derive_child : forall fuel sk index, key sk ->
  (exists m k, (m < fuel)%nat /\ first_nonzero (lamport_PK (val sk) index) 0 m /\
     derive_child_sk fuel sk index = Ok (Some k) /\ key k /\ val k = keygen_cand (lamport_PK (val sk) index) m /\ 1 <= val k < order) \/
  ((forall i, (i < fuel)%nat -> keygen_cand (lamport_PK (val sk) index) i = 0) /\ derive_child_sk fuel sk index = Ok None).
Proof.
  intros fuel sk index K. unfold derive_child_sk. rewrite lamport_ok by exact K.
  destruct (lamport_bytes (val sk) index) as [B L].
  destruct (C39_keygen fuel _ B ltac:(rewrite L; apply le_n)) as [(m & k & Hm & F & E & Kk & V)|H]; [left|right; exact H].
  exists m, k. repeat (split; [assumption|]). exact (proj2 (C39_range _ _ _ B ltac:(rewrite L; apply le_n) E)).
Qed.
Example C40_nontrivial : key [5; 0; 0; 2 ^ 62] /\ int_be 4 0x80000001 = [128; 0; 0; 1].
Proof. split; [split; [apply wordsb_ok; reflexivity|reflexivity]|reflexivity]. Qed.

(** * C41 *)
Lemma G1_mod k : zmul (k mod order) G1gen = zmul k G1gen.
Proof. apply zmul_mod; [exact G1gen_r|discriminate]. Qed.
(** (u, v): the coordinates of the parent public key.  Deriving the secret key and taking its public key, or deriving from the public
    key, give the same point, provided the addition of the nonce drops no carry *)
Theorem C41_commutes : forall sk u v index, key sk -> val sk < order -> cpt (b := b1) (zmul (val sk) G1gen) = Aff (K := KFp) u v ->
  ~ carry_lost (val sk) (nonce_g1 u v index) ->
  exists c d, derive_child_sk_unhardened sk index = Ok c /\ derive_child_g1_unhardened (public_key sk) index = Ok d /\
    key c /\ val c = (val sk + nonce_g1 u v index) mod order /\
    rep1g d (zmul (val sk + nonce_g1 u v index) G1gen) /\ rep1g (public_key c) (zmul (val sk + nonce_g1 u v index) G1gen) /\
    g1_equal (public_key c) d = true.
Proof.
  intros sk u v index K Bd E N. destruct (child_sk_ok sk u v index K Bd E N) as (c & Ec & Kc & Vc).
  destruct (child_g1_ok _ _ u v index (public_key_ok sk (proj1 K)) E) as (d & Ed & Rd). rewrite <- zmul_add in Rd.
  assert (Rc : rep1g (public_key c) (zmul (val sk + nonce_g1 u v index) G1gen)).
  { pose proof (public_key_ok c (proj1 Kc)) as R. rewrite Vc, G1_mod in R. exact R. }
  exists c, d. repeat (split; [assumption|]). apply (proj2 (rep1g_equal _ _ _ _ Rc Rd) eq_refl).
Qed.
(** deriving from any finite public key, whether or not a secret key is known *)
Theorem C41_g1 : forall pk P u v index, rep1g pk P -> cpt (b := b1) P = Aff (K := KFp) u v ->
  exists c, derive_child_g1_unhardened pk index = Ok c /\ rep1g c (gop P (zmul (nonce_g1 u v index) G1gen)).
Proof. exact child_g1_ok. Qed.
Theorem C41_g2 : forall pk P u v index, rep2g pk P -> cpt (b := b2) P = Aff (K := KFp2) u v ->
  exists c, derive_child_g2_unhardened pk index = Ok c /\ rep2g c (gop P (zmul (nonce_g2 u v index) G2gen)).
Proof. exact child_g2_ok. Qed.
Example C41_nontrivial : key [7; 0; 0; 0] /\ rep1g g1_BASE G1gen /\ rep2g g2_BASE G2gen /\ ~ carry_lost 7 (2 ^ 128 - 8) /\ carry_lost 1 (2 ^ 128 - 1).
Proof.
  split; [split; [apply wordsb_ok; reflexivity|reflexivity]|]. split; [exact BASE1_rep|]. split; [exact BASE2_rep|]. split.
  - intros (i & Hi & A & B). assert (i = 0 \/ i = 1 \/ i = 2 \/ i = 3) as [->|[->|[->| ->]]] by lia; vm_compute in A, B; try discriminate A; apply B; reflexivity.
  - exists 1. split; [split; [discriminate|reflexivity]|]. split; [vm_compute; reflexivity|vm_compute; discriminate].
Qed.

(** * C42 *)
Theorem C42_public_keys : forall pks Ps, Forall2 rep1g pks Ps -> rep1g (aggregate_public_keys pks) (gsum Ps).
Proof. exact agg_pk_ok. Qed.
Theorem C42_signatures : forall sigs Ps, Forall2 rep2g sigs Ps -> rep2g (aggregate_signatures sigs) (gsum Ps).
Proof. exact agg_sig_ok. Qed.
(** order and grouping do not matter *)
Theorem C42_permutation : forall pks qks Ps Qs, Forall2 rep1g pks Ps -> Forall2 rep1g qks Qs -> Permutation Ps Qs ->
  g1_equal (aggregate_public_keys pks) (aggregate_public_keys qks) = true.
Proof. intros pks qks Ps Qs F G H. apply (rep1g_equal _ _ _ _ (agg_pk_ok _ _ F) (agg_pk_ok _ _ G)). apply gsum_perm, H. Qed.
Theorem C42_permutation_sig : forall pks qks Ps Qs, Forall2 rep2g pks Ps -> Forall2 rep2g qks Qs -> Permutation Ps Qs ->
  g2_equal (aggregate_signatures pks) (aggregate_signatures qks) = true.
Proof. intros pks qks Ps Qs F G H. apply (rep2g_equal _ _ _ _ (agg_sig_ok _ _ F) (agg_sig_ok _ _ G)). apply gsum_perm, H. Qed.
Theorem C42_grouping : forall pks qks Ps Qs, Forall2 rep1g pks Ps -> Forall2 rep1g qks Qs ->
  g1_equal (aggregate_public_keys (pks ++ qks)) (aggregate_public_keys [aggregate_public_keys pks; aggregate_public_keys qks]) = true.
Proof.
  intros pks qks Ps Qs F G. apply (rep1g_equal _ _ (gsum (Ps ++ Qs)) (gsum [gsum Ps; gsum Qs])).
  - apply agg_pk_ok, Forall2_app; assumption.
  - apply agg_pk_ok. constructor; [apply agg_pk_ok, F|constructor; [apply agg_pk_ok, G|constructor]].
  - rewrite gsum_app. unfold gsum at 3. cbn [fold_right]. rewrite (g_comm _ (gsum Qs) gid), g_id. reflexivity.
Qed.
(** secret keys: the sum mod r, as long as no carry is dropped *)
Theorem C42_secret_keys : forall sks, Forall (fun k => key k /\ val k < order) sks -> sum_ok 0 (map val sks) ->
  exists k, aggregate_secret_keys sks = Ok k /\ key k /\ val k = fold_right Z.add 0 (map val sks) mod order.
Proof. exact agg_sk_ok. Qed.
(** ... for instance when no key has an all-ones limb *)
Theorem C42_no_ones : forall ks, Forall (fun k => 0 <= k < order /\ forall i, 1 <= i < 4 -> (k / 2 ^ (64 * i)) mod 2 ^ 64 <> 2 ^ 64 - 1) ks ->
  forall S, sum_ok S ks.
Proof.
  intros ks F. induction F as [|k ks [Hk N] F IH]; intros S; [exact I|]. split; [|apply IH].
  intros (i & Hi & E & G). destruct (Z.eq_dec i 0) as [->|]; [|apply (N i); [lia|exact E]].
  change (2 ^ (64 * 0)) with 1 in G. rewrite !Z.mod_1_r in G. lia.
Qed.
Theorem C42_homomorphism : forall sks, Forall (fun k => key k /\ val k < order) sks -> sum_ok 0 (map val sks) ->
  exists k, aggregate_secret_keys sks = Ok k /\ g1_equal (public_key k) (aggregate_public_keys (map public_key sks)) = true.
Proof.
  intros sks F S. destruct (agg_sk_ok sks F S) as (k & E & K & V). exists k. split; [exact E|].
  apply (rep1g_equal _ _ (zmul (val k) G1gen) (gsum (map (fun k => zmul k G1gen) (map val sks)))).
  - apply public_key_ok, K.
  - apply agg_pk_ok. clear S E V. induction F as [|a sks [Ka _] F IH]; constructor; [apply public_key_ok, Ka|exact IH].
  - rewrite gsum_zmul, V. apply G1_mod.
Qed.
(** without that proviso the result is wrong for some pairs of valid keys *)
Theorem C42_secret_keys_refuted : exists k1 k2, key k1 /\ key k2 /\ 0 < val k1 < order /\ 0 < val k2 < order /\
  exists k, aggregate_secret_keys [k1; k2] = Ok k /\ val k <> (val k1 + val k2) mod order.
Proof.
  exists [1; 0; 0; 0], [2 ^ 64 - 1; 2 ^ 64 - 1; 0; 0].
  split; [split; [apply wordsb_ok; reflexivity|reflexivity]|]. split; [split; [apply wordsb_ok; reflexivity|reflexivity]|].
  split; [split; reflexivity|]. split; [split; reflexivity|]. exists [0; 0; 0; 0]. split; [vm_compute; reflexivity|]. vm_compute. discriminate.
Qed.
Example C42_nontrivial : Forall2 rep1g [g1_BASE; g1_zero; g1_BASE] [G1gen; gid; G1gen] /\ sum_ok 0 [order - 1; 12345; 2 ^ 200].
Proof.
  split; [constructor; [exact BASE1_rep|constructor; [exact rep1g_zero|constructor; [exact BASE1_rep|constructor]]]|].
  apply C42_no_ones. apply Forall_forall. intros k Hk. assert (k = order - 1 \/ k = 12345 \/ k = 2 ^ 200) as [->|[->| ->]] by (cbn [In] in Hk; intuition congruence);
    (split; [split; [discriminate|reflexivity]|]); intros i Hi; clear Hk; assert (i = 1 \/ i = 2 \/ i = 3) as [->|[->| ->]] by lia; vm_compute; discriminate.
Qed.

(** * C43 *)
Theorem C43_to_bytes : forall sk, key sk -> sk_to_bytes sk = int_be 32 (val sk).
Proof. exact sk_bytes_ok. Qed.
Theorem C43_from_bytes_mod : forall b, bytes b -> length b = 32%nat -> exists k, sk_from_bytes b true = Ok k /\ key k /\ val k = be_int b mod order.
Proof. exact sk_from_mod. Qed.
Theorem C43_from_bytes : forall b, bytes b -> length b = 32%nat ->
  exists k, sk_from_bytes b false = Ok k /\ key k /\ val k = if be_int b <? order then be_int b else 0.
Proof. exact sk_from_nomod. Qed.
Theorem C43_roundtrip : forall sk m, key sk -> val sk < order -> sk_from_bytes (sk_to_bytes sk) m = Ok sk.
Proof.
  intros sk m K Bd. rewrite C43_to_bytes by exact K. pose proof (val_nonneg sk (proj1 K)) as N. pose proof (int_be_bytes 32 (val sk)) as Bb.
  assert (V : be_int (int_be 32 (val sk)) = val sk).
  { rewrite be_int_int_be by exact N. apply Z.mod_small. split; [exact N|]. apply (Z.lt_trans _ order); [exact Bd|reflexivity]. }
  destruct m.
  - destruct (C43_from_bytes_mod _ Bb (int_be_length 32 _)) as (k & E & Kk & Vk). rewrite E. f_equal. rewrite V, Z.mod_small in Vk by (split; assumption).
    apply val_inj; [apply Kk|apply K|rewrite (proj2 Kk), (proj2 K); reflexivity|exact Vk].
  - destruct (C43_from_bytes _ Bb (int_be_length 32 _)) as (k & E & Kk & Vk). rewrite E. f_equal. rewrite V, (proj2 (Z.ltb_lt _ _) Bd) in Vk.
    apply val_inj; [apply Kk|apply K|rewrite (proj2 Kk), (proj2 K); reflexivity|exact Vk].
Qed.
Example C43_nontrivial : key [5; 0; 0; 2 ^ 62] /\ val [5; 0; 0; 2 ^ 62] < order /\ sk_from_bytes (repeat 255 32) false = Ok [0; 0; 0; 0].
Proof. split; [split; [apply wordsb_ok; reflexivity|reflexivity]|]. split; [reflexivity|vm_compute; reflexivity]. Qed.

Definition props_keys := (C39_short_seed, C39_keygen, C39_range, C39_eip2333_refuted, C40_lamport, C40_derive_child, C41_commutes, C41_g1, C41_g2, C42_public_keys, C42_signatures, C42_permutation, C42_permutation_sig, C42_grouping, C42_secret_keys, C42_no_ones, C42_homomorphism, C42_secret_keys_refuted, C43_to_bytes, C43_from_bytes_mod, C43_from_bytes, C43_roundtrip).
Print Assumptions props_keys.
