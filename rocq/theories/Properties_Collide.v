(** Property C80: equal results of key generation, derivation, hashing to the curve lead back to equal arguments, unless two different strings hashed
    at the same place of the two computations have the same SHA-256, or two different values of the last reduction coincide.  The strings (SpecCollide) are
    explicit and few - two for HMAC and for the expansion, four for key generation, ten for derivation - so the disjunctions do not hold for the trivial
    reason that collisions exist.
    Notation as in Properties_Sig and Properties_Scheme. *)
From Coq Require Import ZArith Znumtheory List Bool Lia Permutation.
From Verif Require Import SpecField SpecBytes SpecHash SpecCodec SpecKeys SpecCurve SpecMap SpecSig SpecPairing.
From Verif Require Import ModelWord ModelScalar ModelFp ModelTower ModelCurve ModelCodec ModelKdf ModelKeys ModelPairing ModelSig.
From Verif Require Import ScalarProof BytesProof KeysProof FieldProof FpProof TowerRefine.
From Verif Require Import AbGroup CurveProof CurveInst CurveReps CurveBase GenProof Orders Cofactor PairUnits PairBilin PairSpec SigProof MapG1 ModelDiv ModelSha ShaProof KdfProof KeysExact Properties_Codec Properties_Sig Properties_Wire Properties_Subgroup Properties_Keys Properties_Scheme SpecCollide CollideProof.
Import ListNotations.
Local Open Scope Z_scope.

(** hkdf256_hmac: equal tags mean equal texts and keys that are equal after padding (or hashing, if long) to 64 bytes *)
Theorem C80_hmac : forall K t K' t', bytes K -> bytes K' -> bytes t -> bytes t' -> hkdf256_hmac t K = hkdf256_hmac t' K' ->
  (hmac_key K = hmac_key K' /\ t = t') \/ collide (hmac_hashed K t) (hmac_hashed K' t').
Proof. intros K t K' t' B1 B2 B3 B4 E. rewrite !hmac_ok in E by assumption. exact (hmac_inj K t K' t' E). Qed.
(** keys of different lengths can be the same key *)
Theorem C80_hmac_key_refuted : forall K t, bytes K -> bytes t -> (length K < 64)%nat -> K ++ [0] <> K /\ hkdf256_hmac t (K ++ [0]) = hkdf256_hmac t K.
Proof.
  intros K t BK Bt L. split.
  - intros E. apply (f_equal (@length Z)) in E. rewrite app_length in E. cbn in E. lia.
  - assert (BK0 : bytes (K ++ [0])) by (apply Forall_app; split; [exact BK|constructor; [split; [discriminate|reflexivity]|constructor]]). rewrite !hmac_ok by assumption.
    assert (X : hmac_key (K ++ [0]) = hmac_key K).
    { unfold hmac_key. cbv zeta. rewrite app_length. cbn [length]. rewrite !(proj2 (Nat.ltb_ge 64 _)) by lia. rewrite app_length. cbn [length].
      rewrite <- app_assoc. f_equal. change ([0] ++ repeat 0 (64 - (length K + 1))) with (repeat 0 (S (64 - (length K + 1)))). f_equal. lia. }
    change (SHA256 (hmac_outer (K ++ [0]) t) = SHA256 (hmac_outer K t)). unfold hmac_outer, hmac_inner. rewrite X. reflexivity.
Qed.

(** secret_key: two seeds with the same key *)
Theorem C80_secret_key : forall fuel fuel' s s' k, bytes s -> bytes s' -> (32 <= length s)%nat -> (32 <= length s')%nat ->
  secret_key fuel s = Ok (Some k) -> secret_key fuel' s' = Ok (Some k) ->
  exists m m', first_nonzero s 0 m /\ first_nonzero s' 0 m' /\
    (s = s' \/ collide (keygen_hashed s m) (keygen_hashed s' m') \/
     (keygen_okm s m <> keygen_okm s' m' /\ be_int (keygen_okm s m) mod order = be_int (keygen_okm s' m') mod order)).
Proof.
  intros f f' s s' k B B' L L' E E'. 
  assert (X : forall f s, bytes s -> (32 <= length s)%nat -> secret_key f s = Ok (Some k) -> exists m, first_nonzero s 0 m /\ val k = be_int (keygen_okm s m) mod order).
  { clear. intros f s B L E. destruct (C39_keygen f s B L) as [(m & k' & _ & F & E' & _ & V)|[_ E']]; rewrite E in E'; [|discriminate E'].
    injection E' as <-. exists m. split; [exact F|]. rewrite <- keygen_cand_eq. exact V. }
  destruct (X f s B L E) as (m & F & V). destruct (X f' s' B' L' E') as (m' & F' & V'). exists m, m'. split; [exact F|]. split; [exact F'|].
  destruct (list_eq_dec Z.eq_dec (keygen_okm s m) (keygen_okm s' m')) as [Y|Y]; [|right; right; split; [exact Y|rewrite <- V; exact V']].
  destruct (keygen_okm_inj s s' m m' Y) as [W|W]; [left; exact W|right; left; exact W].
Qed.

(** derive_child_sk: two children that are the same key *)
Theorem C80_derive_child_sk : forall fuel fuel' sk i sk' i' k, key sk -> key sk' -> 0 <= i < 2 ^ 32 -> 0 <= i' < 2 ^ 32 ->
  derive_child_sk fuel sk i = Ok (Some k) -> derive_child_sk fuel' sk' i' = Ok (Some k) ->
  exists m m', let PK := lamport_PK (val sk) i in let PK' := lamport_PK (val sk') i' in first_nonzero PK 0 m /\ first_nonzero PK' 0 m' /\
    ((sk = sk' /\ i = i') \/ collide (child_hashed (val sk) i m) (child_hashed (val sk') i' m') \/
     (keygen_okm PK m <> keygen_okm PK' m' /\ be_int (keygen_okm PK m) mod order = be_int (keygen_okm PK' m') mod order)).
Proof.
  intros f f' sk i sk' i' k K K' Hi Hi' E E'. unfold derive_child_sk in E, E'. rewrite lamport_ok in E, E' by assumption.
  destruct (lamport_bytes (val sk) i) as [B L]. destruct (lamport_bytes (val sk') i') as [B' L'].
  destruct (C80_secret_key f f' _ _ k B B' ltac:(rewrite L; apply le_n) ltac:(rewrite L'; apply le_n) E E') as (m & m' & F & F' & D). exists m, m'. cbv zeta. split; [exact F|]. split; [exact F'|].
  assert (R : forall x, key x -> 0 <= val x < 2 ^ 256). { intros x [Wx Lx]. pose proof (val_bound x Wx) as Bx. rewrite Lx in Bx. split; [exact (proj1 Bx)|]. exact (proj2 Bx). }
  destruct D as [D|[D|D]]; [|right; left|right; right; exact D].
  - destruct (lamport_PK_inj _ _ _ _ m m' (R sk K) (R sk' K') Hi Hi' D) as [[X1 X2]|X]; [left; split; [|exact X2]|right; left; exact X].
    apply val_inj; [exact (proj1 K)|exact (proj1 K')|rewrite (proj2 K), (proj2 K'); reflexivity|exact X1].
  - apply child_keygen. exact D.
Qed.

Lemma G1_cong a b : zmul (a mod order) G1gen = zmul (b mod order) G1gen -> a mod order = b mod order.
Proof.
  intros Q. rewrite !G1_mod in Q. assert (D : (order | a - b)) by (apply (proj1 C52_base_order); rewrite zmul_sub, Q; apply g_inv). destruct D as [q D]. replace a with (b + q * order) by lia. apply Z_mod_plus_full.
Qed.
Lemma nonce_of_eq e i : nonce_of e i = be_int (SHA256 (e ++ int_be 4 i)) mod order. Proof. reflexivity. Qed.
Lemma unhardened_collide e i i' : 0 <= i < 2 ^ 32 -> 0 <= i' < 2 ^ 32 -> be_int (SHA256 (e ++ int_be 4 i)) mod order = be_int (SHA256 (e ++ int_be 4 i')) mod order ->
  i = i' \/ collide [e ++ int_be 4 i] [e ++ int_be 4 i'] \/
  (SHA256 (e ++ int_be 4 i) <> SHA256 (e ++ int_be 4 i') /\ be_int (SHA256 (e ++ int_be 4 i)) mod order = be_int (SHA256 (e ++ int_be 4 i')) mod order).
Proof.
  intros Hi Hi' EM. remember (e ++ int_be 4 i) as t eqn:Et. remember (e ++ int_be 4 i') as t' eqn:Et'.
  destruct (list_eq_dec Z.eq_dec (SHA256 t) (SHA256 t')) as [X|X]; [|right; right; exact (conj X EM)].
  destruct (sha_eq 0 t t' [t] [t'] eq_refl eq_refl X) as [Y|Y]; [left|right; left; exact Y].
  rewrite Et, Et' in Y. apply app_inv_head in Y. exact (ints_inj 4 i i' Hi Hi' Y).
Qed.
Lemma Ok_eq {A} (x y : A) (o : outcome A) : o = Ok x -> o = Ok y -> x = y. Proof. intros -> E. injection E. auto. Qed.
(** derive_child_g1_unhardened: two children of a finite public key *)
Theorem C80_unhardened : forall pk (P : E1) u v i i' c c', rep1g pk P -> cpt (b := b1) P = Aff (K := KFp) u v -> 0 <= i < 2 ^ 32 -> 0 <= i' < 2 ^ 32 ->
  derive_child_g1_unhardened pk i = Ok c -> derive_child_g1_unhardened pk i' = Ok c' -> g1_equal c c' = true ->
  let t := enc_g1 u v ++ int_be 4 i in let t' := enc_g1 u v ++ int_be 4 i' in
  i = i' \/ collide [t] [t'] \/ (SHA256 t <> SHA256 t' /\ be_int (SHA256 t) mod order = be_int (SHA256 t') mod order).
Proof.
  intros pk P u v i i' c c' HP EP Hi Hi' E E' Q t t'. apply unhardened_collide; [exact Hi|exact Hi'|].
  destruct (child_g1_of pk P u v i HP EP) as (d & Ed & Rd). rewrite <- (Ok_eq _ _ _ E Ed) in Rd. destruct (child_g1_of pk P u v i' HP EP) as (d' & Ed' & Rd'). rewrite <- (Ok_eq _ _ _ E' Ed') in Rd'.
  apply (rep1g_equal _ _ _ _ Rd Rd') in Q. apply g_cancel in Q. rewrite !nonce_of_eq in Q. exact (G1_cong _ _ Q).
Qed.

(** xmd_sh256: equal expansions of 256 bytes *)
Theorem C80_expand : forall m dst m' dst' out, bytes m -> bytes dst -> bytes m' -> bytes dst' ->
  xmd_sh256 256 m (Z.of_nat (length m)) dst (Z.of_nat (length dst)) = Ok (0, out) -> xmd_sh256 256 m' (Z.of_nat (length m')) dst' (Z.of_nat (length dst')) = Ok (0, out) ->
  (m = m' /\ dst = dst') \/ collide (xmd_hashed m dst 256) (xmd_hashed m' dst' 256).
Proof.
  intros m dst m' dst' out Bm Bd Bm' Bd' E E'. rewrite xmd_ok in E, E' by (assumption || lia). change (Z.to_nat 256) with 256%nat in E, E'.
  destruct (expand_message_xmd m dst 256) as [o|] eqn:X; [|discriminate E]. destruct (expand_message_xmd m' dst' 256) as [o'|] eqn:X'; [|discriminate E'].
  injection E as ->. injection E' as ->. apply (xmd_inj m dst m' dst' 256 out); [apply Nat.leb_le; reflexivity|exact X|exact X'].
Qed.
(** the hash to the curve, as specified: equal points *)
Lemma hash_collide m dst m' dst' (H : E2) : hash_to_curve m dst H -> hash_to_curve m' dst' H ->
  (m = m' /\ dst = dst') \/ collide (xmd_hashed m dst 256) (xmd_hashed m' dst' 256) \/ expand_message_xmd m dst 256 <> expand_message_xmd m' dst' 256.
Proof.
  intros (b & _ & _ & E & _) (b' & _ & _ & E' & _). destruct (list_eq_dec Z.eq_dec b b') as [X|X].
  - rewrite <- X in E'. destruct (xmd_inj m dst m' dst' 256 b ltac:(apply Nat.leb_le; reflexivity) E E') as [Y|Y]; [left; exact Y|right; left; exact Y].
  - right; right. rewrite E, E'. intros Y. apply X. injection Y. auto.
Qed.
(** a signature accepted for two messages under a key other than the identity: the messages are equal, or strings hashed for them collide, or different
    expansions are sent to the same point (C79 bounds how many are) *)
Theorem C80_verify : forall pk m m' sig, coords1 pk -> coords2 sig -> message m -> message m' -> g1_isZero pk = false -> verify pk m sig = Ok true -> verify pk m' sig = Ok true ->
  m = m' \/ collide (xmd_hashed m DST_SIG 256) (xmd_hashed m' DST_SIG 256) \/
  (expand_message_xmd m DST_SIG 256 <> expand_message_xmd m' DST_SIG 256 /\ exists H : E2, hash_to_curve m DST_SIG H /\ hash_to_curve m' DST_SIG H).
Proof.
  intros pk m m' sig Cp Cs Hm Hm' NZ V V'. destruct (C48_message_binding pk m m' sig Cp Cs Hm Hm' NZ V V') as (H & H1 & H2).
  destruct (hash_collide _ _ _ _ H H1 H2) as [[X _]|[X|X]]; [left; exact X|right; left; exact X|right; right; split; [exact X|exists H; exact (conj H1 H2)]].
Qed.
(** a signature that is also a proof of possession for the same key: never without such a coincidence *)
Theorem C80_sig_pop : forall pk (P : E1) m s, message m -> rep1g pk P -> P <> gid -> coords2 s -> verify pk m s = Ok true -> pop_verify pk s = Ok true ->
  let m' := pop_message (cpt (b := b1) P) in collide (xmd_hashed m DST_SIG 256) (xmd_hashed m' DST_POP 256) \/
  (expand_message_xmd m DST_SIG 256 <> expand_message_xmd m' DST_POP 256 /\ exists H : E2, hash_to_curve m DST_SIG H /\ hash_to_curve m' DST_POP H).
Proof.
  intros pk P m s Hm HP NP Cs V V' m'. destruct (C70_sig_pop pk P m s Hm HP NP Cs V V') as (ND & H & H1 & H2).
  destruct (hash_collide _ _ _ _ H H1 H2) as [[_ X]|[X|X]]; [destruct (ND X)|left; exact X|right; split; [exact X|exists H; exact (conj H1 H2)]].
Qed.

(** the hypotheses are met: a seed, two different keys with the same tags, a message that is signed *)
Example C80_example : (bytes seed0 /\ (32 <= length seed0)%nat /\ secret_key 1 seed0 = Ok (Some cand0)) /\
  (hkdf256_hmac [1] [7] = hkdf256_hmac [1] [7; 0] /\ hmac_key [7] = hmac_key [7; 0]) /\ (exists c, derive_child_g1_unhardened g1_BASE 5 = Ok c) /\
  (exists s, sign [7; 0; 0; 0] [1; 2; 3] = Ok s /\ verify (public_key [7; 0; 0; 0]) [1; 2; 3] s = Ok true).
Proof.
  split; [split; [exact seed0_bytes|]; split; [apply le_n|exact seed0_0]|]. split; [|split].
  - split; [|reflexivity]. symmetry. apply (C80_hmac_key_refuted [7] [1]); [repeat constructor; discriminate..|apply Nat.leb_le; reflexivity].
  - destruct (cpt (b := b1) G1gen) as [|u v] eqn:X; [|destruct (child_g1_of g1_BASE G1gen u v 5 BASE1_rep X) as (c & E & _); exists c; exact E].
    discriminate X.
  - apply C47_honest; [split; [apply wordsb_ok; reflexivity|reflexivity]|split; [repeat constructor; discriminate|reflexivity]].
Qed.

Definition props_collide := (C80_hmac, C80_hmac_key_refuted, C80_secret_key, C80_derive_child_sk, C80_unhardened, C80_expand, C80_verify, C80_sig_pop).
Print Assumptions props_collide.
