(** Proofs for C80: equal results of HMAC, HKDF, key generation and derivation lead back to equal arguments or to a collision of SHA-256. *)
From Coq Require Import ZArith List Bool Lia.
From Verif Require Import SpecField SpecBytes SpecHash SpecKeys BytesProof ShaProof KdfProof KeysProof SpecCollide.
Import ListNotations.
Local Open Scope Z_scope.

Lemma app_l {A} (a b s t : list A) : length a = length b -> a ++ s = b ++ t -> a = b /\ s = t.
Proof.
  revert b. induction a as [|x a IH]; intros [|y b] L E; try discriminate L; [exact (conj eq_refl E)|]. injection E as -> E. injection L as L. destruct (IH b L E) as [-> ->]. auto.
Qed.
Lemma app_r {A} (a b s t : list A) : length s = length t -> a ++ s = b ++ t -> a = b /\ s = t.
Proof. intros L E. apply app_l; [|exact E]. apply (f_equal (@length A)) in E. rewrite !app_length in E. lia. Qed.
Lemma ints_inj n v w : 0 <= v < 256 ^ Z.of_nat n -> 0 <= w < 256 ^ Z.of_nat n -> int_be n v = int_be n w -> v = w.
Proof. intros Hv Hw E. apply (f_equal be_int) in E. rewrite !be_int_int_be in E by lia. rewrite !Z.mod_small in E by assumption. exact E. Qed.
Lemma sha_eq k x y A B : nth_error A k = Some x -> nth_error B k = Some y -> SHA256 x = SHA256 y -> x = y \/ collide A B.
Proof. intros Hx Hy E. destruct (list_eq_dec Z.eq_dec x y) as [X|X]; [left; exact X|right; exists k, x, y; auto]. Qed.
Lemma collide_l A B C D : collide A B -> collide (A ++ C) (B ++ D).
Proof.
  intros (k & x & y & X & Y & N & E). exists k, x, y. rewrite !nth_error_app1; [auto| |]; apply nth_error_Some; [rewrite Y|rewrite X]; discriminate.
Qed.
Lemma collide_r A B C D : length A = length B -> collide C D -> collide (A ++ C) (B ++ D).
Proof.
  intros L (k & x & y & X & Y & N & E). exists (length A + k)%nat, x, y. rewrite !nth_error_app2 by lia. rewrite <- L, Nat.add_comm, Nat.add_sub. auto.
Qed.
Lemma xor_inj c a : forall b, length a = length b -> (length a <= length c)%nat -> xor_bytes a c = xor_bytes b c -> a = b.
Proof.
  revert c. induction a as [|x a IH]; intros c [|y b] L Lc E; try discriminate L; [reflexivity|]. destruct c as [|z c]; [cbn in Lc; lia|].
  unfold xor_bytes in E. cbn [combine map fst snd] in E. injection E as E1 E2. injection L as L. cbn in Lc. rewrite (IH c b L ltac:(lia) E2). f_equal.
  rewrite <- (Z.lxor_0_r x), <- (Z.lxor_0_r y), <- (Z.lxor_nilpotent z), <- !Z.lxor_assoc, E1. reflexivity.
Qed.
Lemma hmac_key_length K : length (hmac_key K) = 64%nat.
Proof.
  unfold hmac_key. cbv zeta. rewrite app_length, repeat_length. destruct (Nat.ltb 64 (length K)) eqn:C; [rewrite SHA256_length; reflexivity|]. apply Nat.ltb_ge in C. lia.
Qed.
Lemma xor_key_length K c : length (xor_bytes (hmac_key K) (repeat c 64)) = 64%nat.
Proof. rewrite xor_bytes_length, hmac_key_length, repeat_length. reflexivity. Qed.
Lemma HMAC_eq K t : HMAC K t = SHA256 (hmac_outer K t). Proof. reflexivity. Qed.
Lemma hmac_inj K t K' t' : HMAC K t = HMAC K' t' -> (hmac_key K = hmac_key K' /\ t = t') \/ collide (hmac_hashed K t) (hmac_hashed K' t').
Proof.
  intros E. rewrite !HMAC_eq in E.
  destruct (sha_eq 1 _ _ (hmac_hashed K t) (hmac_hashed K' t') eq_refl eq_refl E) as [X|X]; [|right; exact X]. unfold hmac_outer in X. apply app_l in X; [|rewrite !xor_key_length; reflexivity]. destruct X as [X1 X2].
  destruct (sha_eq 0 _ _ (hmac_hashed K t) (hmac_hashed K' t') eq_refl eq_refl X2) as [Y|Y]; [left|right; exact Y]. unfold hmac_inner in Y. apply app_l in Y; [|rewrite !xor_key_length; reflexivity]. destruct Y as [_ Y].
  split; [|exact Y]. apply (xor_inj (repeat 0x5c 64)); [rewrite !hmac_key_length; reflexivity|rewrite hmac_key_length, repeat_length; apply le_n|exact X1].
Qed.
Lemma hmac_key_inj K K' : length K = length K' -> (length K <= 64)%nat -> hmac_key K = hmac_key K' -> K = K'.
Proof.
  intros L L64 E. unfold hmac_key in E. cbv zeta in E. rewrite <- L in E. rewrite (proj2 (Nat.ltb_ge 64 (length K)) L64) in E. rewrite <- L in E. exact (proj1 (app_l _ _ _ _ L E)).
Qed.
(** the first 32 bytes of an expansion *)
Lemma expand_head PRK info L : (32 <= L)%nat -> firstn 32 (HKDF_Expand PRK info L) = HMAC PRK (info ++ [1]).
Proof.
  intros HL. unfold HKDF_Expand. rewrite firstn_firstn, Nat.min_l by exact HL.
  assert (X : exists j, ((L + 31) / 32 = S j)%nat). { exists ((L - 1) / 32)%nat. replace (L + 31)%nat with ((L - 1) + 1 * 32)%nat by lia. rewrite Nat.div_add by discriminate. lia. }
  destruct X as [j ->]. cbn [seq flat_map]. change (HKDF_T PRK info 1) with (HMAC PRK (info ++ [1])). rewrite firstn_app, HMAC_length, Nat.sub_diag, firstn_O, app_nil_r.
  apply firstn_all2. rewrite HMAC_length. apply le_n.
Qed.
(** extraction followed by T(1) *)
Lemma hkdf_inj salt ikm salt' ikm' info : HMAC (HKDF_Extract salt ikm) (info ++ [1]) = HMAC (HKDF_Extract salt' ikm') (info ++ [1]) ->
  (hmac_key salt = hmac_key salt' /\ ikm = ikm') \/ collide (hkdf_hashed salt ikm info) (hkdf_hashed salt' ikm' info).
Proof.
  intros E. destruct (hmac_inj _ _ _ _ E) as [[X _]|X]; [|right; apply collide_r; [unfold hmac_hashed; cbn [length]; reflexivity|exact X]].
  unfold HKDF_Extract in X. apply hmac_key_inj in X; [|rewrite !HMAC_length; reflexivity|rewrite HMAC_length; repeat constructor].
  destruct (hmac_inj _ _ _ _ X) as [Y|Y]; [left; exact Y|right; exact (collide_l _ _ _ _ Y)].
Qed.
Lemma keygen_okm_inj s s' m m' : keygen_okm s m = keygen_okm s' m' -> s = s' \/ collide (keygen_hashed s m) (keygen_hashed s' m').
Proof.
  intros E. unfold keygen_okm in E. apply (f_equal (firstn 32)) in E. rewrite !expand_head in E by (repeat constructor).
  destruct (hkdf_inj _ _ _ _ _ E) as [[_ X]|X]; [left; exact (proj1 (app_r _ _ [0] [0] eq_refl X))|right; exact X].
Qed.
Lemma keygen_cand_eq s n : keygen_cand s n = be_int (keygen_okm s n) mod order. Proof. unfold keygen_cand, keygen_okm. reflexivity. Qed.
(** * EIP-2333 *)
Lemma pieces_head k PRK L : (32 <= L)%nat -> exists l, pieces (S k) 32 (HKDF_Expand PRK [] L) = HMAC PRK [1] :: l.
Proof. intros HL. exists (pieces k 32 (skipn 32 (HKDF_Expand PRK [] L))). rewrite <- (expand_head PRK [] L HL : _ = HMAC PRK [1]). reflexivity. Qed.
Lemma L8160 : (32 <= 255 * 32)%nat. Proof. apply Nat.leb_le. reflexivity. Qed.
Lemma lamport_SK_head ikm salt : exists l, lamport_SK ikm salt = HMAC (HKDF_Extract salt ikm) [1] :: l.
Proof. exact (pieces_head 254 (HKDF_Extract salt ikm) (255 * 32) L8160). Qed.
Local Opaque SHA256 pieces HKDF_Expand.
Lemma lamport_inj ikm salt ikm' salt' l l' :
  concat (map SHA256 (lamport_SK ikm salt)) ++ l = concat (map SHA256 (lamport_SK ikm' salt')) ++ l' -> length salt = length salt' -> (length salt <= 64)%nat ->
  (ikm = ikm' /\ salt = salt') \/ collide (lamport_hashed ikm salt) (lamport_hashed ikm' salt').
Proof.
  intros E Ls Ls64. destruct (lamport_SK_head ikm salt) as [r Er]. destruct (lamport_SK_head ikm' salt') as [r' Er']. rewrite Er, Er' in E. cbn [map concat] in E. rewrite <- !app_assoc in E.
  apply app_l in E; [|rewrite !SHA256_length; reflexivity]. destruct E as [E _].
  assert (I1 : forall i s r, lamport_SK i s = HMAC (HKDF_Extract s i) [1] :: r -> nth_error (lamport_hashed i s) 4 = Some (HMAC (HKDF_Extract s i) [1])).
  { clear. intros i s r E. unfold lamport_hashed. rewrite E. reflexivity. }
  destruct (sha_eq 4 _ _ _ _ (I1 _ _ _ Er) (I1 _ _ _ Er') E) as [X|X]; [|right; exact X].
  destruct (hkdf_inj salt ikm salt' ikm' [] X) as [[Z1 Z2]|Z]; [left; split; [exact Z2|exact (hmac_key_inj _ _ Ls Ls64 Z1)]|right; exact (collide_l _ _ _ _ Z)].
Qed.
Lemma lamport_hashed_length ikm salt : length (lamport_hashed ikm salt) = 5%nat.
Proof. unfold lamport_hashed. destruct (lamport_SK_head ikm salt) as [r ->]. reflexivity. Qed.
Lemma lamport_PK_inj sk i sk' i' m m' : 0 <= sk < 2 ^ 256 -> 0 <= sk' < 2 ^ 256 -> 0 <= i < 2 ^ 32 -> 0 <= i' < 2 ^ 32 -> lamport_PK sk i = lamport_PK sk' i' ->
  (sk = sk' /\ i = i') \/ collide (child_hashed sk i m) (child_hashed sk' i' m').
Proof.
  intros Hs Hs' Hi Hi' E. change (SHA256 (lamport_string sk i) = SHA256 (lamport_string sk' i')) in E.
  assert (L : forall s j s' j', length (lamport_hashed s j) = length (lamport_hashed s' j')) by (intros; rewrite !lamport_hashed_length; reflexivity).
  destruct (sha_eq 0 _ _ [lamport_string sk i] [lamport_string sk' i'] eq_refl eq_refl E) as [X|X]; [|right; apply collide_r; [apply L|apply collide_l; exact X]].
  unfold lamport_string in X. destruct (lamport_inj _ _ _ _ _ _ X) as [[Y1 Y2]|Y]; [rewrite !int_be_length; reflexivity|rewrite int_be_length; repeat constructor| |].
  - left. split; [exact (ints_inj 32 sk sk' Hs Hs' Y1)|exact (ints_inj 4 i i' Hi Hi' Y2)].
  - right. apply collide_l. exact Y.
Qed.
Lemma child_keygen sk i sk' i' m m' : collide (keygen_hashed (lamport_PK sk i) m) (keygen_hashed (lamport_PK sk' i') m') -> collide (child_hashed sk i m) (child_hashed sk' i' m').
Proof.
  intros X. unfold child_hashed. apply (collide_r (lamport_hashed (int_be 32 sk) (int_be 4 i)) (lamport_hashed (int_be 32 sk') (int_be 4 i'))); [rewrite !lamport_hashed_length; reflexivity|].
  apply (collide_r [lamport_string sk i] [lamport_string sk' i'] (keygen_hashed (lamport_PK sk i) m) (keygen_hashed (lamport_PK sk' i') m')); [cbn [length]; reflexivity|exact X].
Qed.
(** * expand_message_xmd *)
Lemma xmd_inj m dst m' dst' n out : (32 <= n)%nat -> expand_message_xmd m dst n = Some out -> expand_message_xmd m' dst' n = Some out ->
  (m = m' /\ dst = dst') \/ collide (xmd_hashed m dst n) (xmd_hashed m' dst' n).
Proof.
  assert (Hd : forall a d o, (32 <= n)%nat -> expand_message_xmd a d n = Some o ->
    (length d <= 255)%nat /\ Z.of_nat n < 65536 /\ firstn 32 o = SHA256 (SHA256 (xmd_string0 a d n) ++ [1] ++ d ++ int_be 1 (Z.of_nat (length d)))).
  { clear. intros m dst out Ln E. unfold expand_message_xmd in E. destruct ((255 <? Z.of_nat ((n + 31) / 32)) || (65535 <? Z.of_nat n) || (255 <? Z.of_nat (length dst))) eqn:C; [discriminate E|].
    apply orb_false_elim in C. destruct C as [C C3]. apply orb_false_elim in C. destruct C as [_ C2]. apply Z.ltb_ge in C2, C3. split; [lia|]. split; [lia|].
    assert (SI : forall (x y : list Z), Some x = Some y -> x = y) by (intros x y [= ->]; reflexivity).
    apply SI in E. rewrite <- E, firstn_firstn, Nat.min_l by exact Ln.
    assert (X : exists j, ((n + 31) / 32 = S j)%nat). { exists ((n - 1) / 32)%nat. replace (n + 31)%nat with ((n - 1) + 1 * 32)%nat by lia. rewrite Nat.div_add by discriminate. lia. }
    destruct X as [j ->]. cbn [seq flat_map xmd_b]. rewrite firstn_app, SHA256_length, Nat.sub_diag, firstn_O, app_nil_r.
    unfold xmd_string0. apply firstn_all2. rewrite SHA256_length. apply le_n. }
  intros Ln E E'. destruct (Hd _ _ _ Ln E) as (L & B & F). destruct (Hd _ _ _ Ln E') as (L' & _ & F'). rewrite F in F'. clear Hd E E' F.
  destruct (sha_eq 1 _ _ (xmd_hashed m dst n) (xmd_hashed m' dst' n) eq_refl eq_refl F') as [X|X]; [|right; exact X]. apply app_l in X; [|rewrite !SHA256_length; reflexivity]. destruct X as [X _].
  destruct (sha_eq 0 _ _ (xmd_hashed m dst n) (xmd_hashed m' dst' n) eq_refl eq_refl X) as [Y|Y]; [left|right; exact Y]. unfold xmd_string0 in Y. apply app_inv_head in Y.
  rewrite !app_assoc in Y. apply app_r in Y; [|rewrite !int_be_length; reflexivity]. destruct Y as [Y D].
  apply ints_inj in D; [|change (256 ^ Z.of_nat 1) with 256; lia..]. apply app_r in Y; [|lia]. destruct Y as [Y ->]. split; [|reflexivity].
  rewrite <- !app_assoc in Y. apply app_r in Y; [exact (proj1 Y)|]. reflexivity.
Qed.
