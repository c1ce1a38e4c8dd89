(** HMAC, HKDF and xmd models compute the RFC functions. *)
From Coq Require Import ZArith List Bool Lia.
From Verif Require Import SpecBytes BytesProof SpecHash ModelSha ModelScalar ModelKdf ShaProof.
Import ListNotations.
Local Open Scope Z_scope.

Lemma SHA256_nf m : bytes m -> sha256 [m] = SHA256 m.
Proof. intros B. rewrite sha256_ok by (repeat constructor; exact B). cbn [concat]. rewrite app_nil_r. reflexivity. Qed.
Lemma xor_byte a b : byte a -> byte b -> byte (Z.lxor a b).
Proof.
  unfold byte. intros A B. split; [apply Z.lxor_nonneg; lia|].
  destruct (Z.eq_dec (Z.lxor a b) 0) as [->|N]; [lia|].
  assert (0 <= Z.lxor a b) by (apply Z.lxor_nonneg; lia).
  apply (Z.log2_lt_pow2 _ 8); [lia|].
  pose proof (Z.log2_lxor a b ltac:(lia) ltac:(lia)).
  assert (Z.log2 a < 8) by (destruct (Z.eq_dec a 0) as [->|]; [reflexivity|apply Z.log2_lt_pow2; cbn; lia]).
  assert (Z.log2 b < 8) by (destruct (Z.eq_dec b 0) as [->|]; [reflexivity|apply Z.log2_lt_pow2; cbn; lia]). lia.
Qed.
Lemma bytes_repeat x n : byte x -> bytes (repeat x n).
Proof. intros H. induction n; constructor; auto. Qed.
Lemma xor_bytes_bytes a b : bytes a -> bytes b -> bytes (xor_bytes a b).
Proof.
  unfold xor_bytes. revert b. induction a as [|x a IH]; intros [|y b] A B; try constructor.
  - cbn [fst snd]. apply xor_byte; [inversion A|inversion B]; assumption.
  - apply IH; [inversion A|inversion B]; assumption.
Qed.
Lemma xor_pad x : forall k n, length k = n -> xor_bytes k (repeat x n) = map (fun y => Z.lxor x y) k.
Proof. unfold xor_bytes. induction k as [|y k IH]; intros [|n] L; try discriminate; [reflexivity|]. cbn [repeat combine map fst snd]. rewrite IH by (cbn in L; lia). rewrite Z.lxor_comm. reflexivity. Qed.
Lemma HMAC_length k m : length (HMAC k m) = 32%nat. Proof. apply SHA256_length. Qed.
Lemma HMAC_bytes k m : bytes (HMAC k m). Proof. apply SHA256_bytes. Qed.
Lemma hmac_ok input key : bytes input -> bytes key -> hkdf256_hmac input key = HMAC key input.
Proof.
  intros Bi Bk. unfold hkdf256_hmac, HMAC.
  replace (64 <? Z.of_nat (length key)) with (Nat.ltb 64 (length key)).
  2:{ destruct (Nat.ltb_spec 64 (length key)), (Z.ltb_spec 64 (Z.of_nat (length key))); lia. }
  replace (if Nat.ltb 64 (length key) then sha256 [key] else key) with (if Nat.ltb 64 (length key) then SHA256 key else key)
    by (destruct (Nat.ltb 64 (length key)); [rewrite SHA256_nf by exact Bk|]; reflexivity).
  set (k1 := if Nat.ltb 64 (length key) then SHA256 key else key).
  assert (Bk1 : bytes k1) by (unfold k1; destruct (Nat.ltb 64 (length key)); [apply SHA256_bytes|exact Bk]).
  assert (Lk1 : (length k1 <= 64)%nat) by (unfold k1; destruct (Nat.ltb_spec 64 (length key)); [rewrite SHA256_length|]; lia).
  set (k2 := k1 ++ repeat 0 (64 - length k1)).
  assert (Lk2 : length k2 = 64%nat) by (unfold k2; rewrite app_length, repeat_length; lia).
  assert (Bk2 : bytes k2) by (unfold k2; apply bytes_app; split; [exact Bk1|apply bytes_repeat0]).
  rewrite !xor_pad by exact Lk2.
  assert (M : forall x, byte x -> bytes (map (fun y => Z.lxor x y) k2)).
  { intros x X. rewrite <- (xor_pad x k2 64 Lk2). apply xor_bytes_bytes; [exact Bk2|apply bytes_repeat, X]. }
  rewrite (SHA256_nf (_ ++ input)) by (apply bytes_app; split; [apply M; unfold byte; lia|exact Bi]).
  rewrite SHA256_nf by (apply bytes_app; split; [apply M; unfold byte; lia|apply SHA256_bytes]). reflexivity.
Qed.
Lemma extract_ok salt ikm : bytes salt -> bytes ikm -> hkdf256_extract salt ikm = HKDF_Extract salt ikm.
Proof. intros A B. apply hmac_ok; assumption. Qed.

Lemma u8_small i : 0 <= i < 256 -> u8 i = i. Proof. apply Z.mod_small. Qed.
Lemma HKDF_T_length PRK info i : length (HKDF_T PRK info (S i)) = 32%nat. Proof. apply HMAC_length. Qed.
Lemma flat_T_length (f : nat -> list Z) : (forall i, length (f (S i)) = 32%nat) -> forall n j, length (flat_map f (seq (S j) n)) = (32 * n)%nat.
Proof. intros H. induction n as [|n IH]; intros j; [reflexivity|]. cbn [seq flat_map]. rewrite app_length, H, IH. lia. Qed.
Lemma firstn_seq_last (f : nat -> list Z) L j : (forall i, length (f (S i)) = 32%nat) -> (32 * j <= L)%nat -> (L <= 32 * S j)%nat ->
  flat_map f (seq 1 j) ++ firstn (L - 32 * j) (f (S j)) = firstn L (flat_map f (seq 1 (S j))).
Proof.
  intros H A B. rewrite seq_S, flat_map_app. cbn [flat_map Nat.add]. rewrite app_nil_r, firstn_app, (flat_T_length f H).
  rewrite (firstn_all2 (flat_map f (seq 1 j))) by (rewrite (flat_T_length f H); lia). reflexivity.
Qed.
Lemma expand_loop_ok L prk info : bytes prk -> bytes info -> forall n j, (j + n = (L + 31) / 32)%nat -> (j + n <= 255)%nat ->
  expand_loop n (Z.of_nat (S j)) (Z.of_nat L) prk info (HKDF_T prk info j) (firstn L (flat_map (HKDF_T prk info) (seq 1 j))) = (0, HKDF_Expand prk info L).
Proof.
  intros Bp Bi. unfold HKDF_Expand. pose proof (HKDF_T_length prk info) as HL.
  induction n as [|n IH]; intros j E N; cbn [expand_loop].
  - assert (j = ((L + 31) / 32)%nat) as -> by lia.
    pose proof (Nat.div_mod (L + 31) 32 ltac:(lia)). pose proof (Nat.mod_upper_bound (L + 31) 32 ltac:(lia)).
    rewrite firstn_length, (flat_T_length _ HL), Nat.min_l by lia.
    rewrite Z.eqb_refl. reflexivity.
  - assert (HjL : (32 * j < L)%nat).
    { pose proof (Nat.div_mod (L + 31) 32 ltac:(lia)). pose proof (Nat.mod_upper_bound (L + 31) 32 ltac:(lia)). lia. }
    rewrite (u8_small (Z.of_nat (S j))) by lia.
    assert (ET : (if Z.of_nat (S j) =? 1 then hkdf256_hmac (info ++ [Z.of_nat (S j)]) prk else hkdf256_hmac (HKDF_T prk info j ++ info ++ [Z.of_nat (S j)]) prk) = HKDF_T prk info (S j)).
    { assert (B1 : bytes (info ++ [Z.of_nat (S j)])) by (apply bytes_app; split; [exact Bi|repeat constructor; unfold byte; lia]).
      destruct j as [|j]; [change (Z.of_nat 1 =? 1) with true|rewrite (proj2 (Z.eqb_neq _ 1)) by lia]; cbv iota.
      - rewrite hmac_ok by assumption. reflexivity.
      - rewrite hmac_ok; [reflexivity| |exact Bp]. apply bytes_app; split; [apply HMAC_bytes|exact B1]. }
    rewrite ET. clear ET.
    rewrite (firstn_all2 (flat_map _ _)) by (rewrite (flat_T_length _ HL); lia).
    rewrite (flat_T_length _ HL).
    specialize (IH (S j) ltac:(lia) ltac:(lia)). replace (Z.of_nat (S j) + 1) with (Z.of_nat (S (S j))) by lia.
    destruct (Z.ltb_spec 32 (Z.of_nat L - Z.of_nat (32 * j))).
    + change ((32 <=? 0) || (32 <? 32)) with false. cbv iota.
      rewrite <- IH. f_equal. change (Z.to_nat 32) with 32%nat.
      rewrite (firstn_all2 (flat_map _ (seq 1 (S j)))) by (rewrite (flat_T_length _ HL); lia).
      rewrite seq_S, flat_map_app. cbn [flat_map Nat.add]. rewrite app_nil_r. f_equal. apply firstn_all2. rewrite HL. lia.
    + rewrite (proj2 (Z.leb_gt _ 0)), (proj2 (Z.ltb_ge 32 _)) by lia. cbn [orb].
      rewrite <- IH. f_equal. replace (Z.to_nat (Z.of_nat L - Z.of_nat (32 * j))) with (L - 32 * j)%nat by lia.
      apply firstn_seq_last; [exact HL|lia|lia].
Qed.
Lemma expand_ok L prk info : bytes prk -> bytes info -> length prk = 32%nat -> 1 <= L <= 8160 ->
  hkdf256_expand L prk info = (0, HKDF_Expand prk info (Z.to_nat L)).
Proof.
  intros Bp Bi Lp HL. unfold hkdf256_expand. change (255 * 32) with 8160. rewrite (proj2 (Z.ltb_ge 8160 L)) by lia.
  pose proof (Z.div_mod (L + 31) 32 ltac:(lia)). pose proof (Z.mod_pos_bound (L + 31) 32 ltac:(lia)).
  rewrite (proj2 (Z.ltb_ge _ 1)), (proj2 (Z.ltb_ge 255 _)) by lia. cbn [orb].
  rewrite firstn_all2 by lia.
  assert (E : Z.to_nat ((L + 31) / 32) = ((Z.to_nat L + 31) / 32)%nat).
  { apply Nat2Z.inj. rewrite Z2Nat.id by lia. rewrite Nat2Z.inj_div. f_equal. lia. }
  pose proof (expand_loop_ok (Z.to_nat L) prk info Bp Bi (Z.to_nat ((L + 31) / 32)) 0 E ltac:(lia)) as P.
  rewrite Z2Nat.id in P by lia. cbn [seq flat_map HKDF_T] in P. rewrite firstn_nil in P. exact P.
Qed.
Lemma expand_long L prk info : 8160 < L -> hkdf256_expand L prk info = (-1, []).
Proof. intros H. unfold hkdf256_expand. rewrite (proj2 (Z.ltb_lt (255 * 32) L)) by lia. reflexivity. Qed.
Lemma expand_zero prk info : hkdf256_expand 0 prk info = (-3, []).
Proof. reflexivity. Qed.
Lemma extract_expand_ok L key salt info : bytes key -> bytes salt -> bytes info -> 1 <= L <= 8160 ->
  hkdf256_extract_expand L key salt info = (0, HKDF_Expand (HKDF_Extract salt key) info (Z.to_nat L)).
Proof. intros. unfold hkdf256_extract_expand. rewrite extract_ok by assumption. apply expand_ok; auto; [apply HMAC_bytes|apply HMAC_length]. Qed.
Lemma HKDF_Expand_length PRK info L : length (HKDF_Expand PRK info L) = L.
Proof.
  unfold HKDF_Expand. rewrite firstn_length, (flat_T_length _ (HKDF_T_length PRK info)).
  pose proof (Nat.div_mod (L + 31) 32 ltac:(lia)). pose proof (Nat.mod_upper_bound (L + 31) 32 ltac:(lia)). lia.
Qed.
Lemma bytes_firstn n l : bytes l -> bytes (firstn n l).
Proof. revert l. induction n as [|n IH]; intros [|x l] B; [constructor|constructor|constructor|]. cbn [firstn]. inversion B; subst. constructor; [assumption|apply IH; assumption]. Qed.
Lemma bytes_flat_map {A} (f : A -> list Z) l : (forall x, In x l -> bytes (f x)) -> bytes (flat_map f l).
Proof. induction l as [|x l IH]; intros H; [constructor|]. cbn [flat_map]. apply bytes_app; split; [apply H; left; reflexivity|apply IH; intros y Y; apply H; right; exact Y]. Qed.
Lemma HKDF_Expand_bytes PRK info L : bytes (HKDF_Expand PRK info L).
Proof. unfold HKDF_Expand. apply bytes_firstn, bytes_flat_map. intros [|i] _; [constructor|apply HMAC_bytes]. Qed.

(** ** xmd *)
Lemma xor_nth : forall n a b, length a = n -> length b = n -> map (fun j => Z.lxor (nth j a 0) (nth j b 0)) (seq 0 n) = xor_bytes a b.
Proof.
  induction n as [|n IH]; intros [|x a] [|y b] La Lb; try discriminate; [reflexivity|].
  cbn [seq map nth]. rewrite <- seq_shift, map_map. unfold xor_bytes. cbn [combine map fst snd]. f_equal.
  cbn in La, Lb. fold (xor_bytes a b). rewrite <- (IH a b) by lia. reflexivity.
Qed.
Lemma xor_bytes_length a b : length (xor_bytes a b) = Nat.min (length a) (length b).
Proof. unfold xor_bytes. rewrite map_length. apply combine_length. Qed.
Lemma xor_zero : forall a n, length a = n -> xor_bytes a (repeat 0 n) = a.
Proof. intros a n L. rewrite xor_pad by exact L. rewrite <- (map_id a) at 2. apply map_ext. intros x. apply Z.lxor_0_l. Qed.
Lemma xmd_b_length b0 d i : length (xmd_b b0 d (S i)) = 32%nat.
Proof. destruct i; apply SHA256_length. Qed.
Lemma xmd_b_bytes b0 d i : bytes (xmd_b b0 d (S i)).
Proof. destruct i; apply SHA256_bytes. Qed.
Lemma xmd_loop_ok L b0 d dl : bytes b0 -> length b0 = 32%nat -> bytes d -> byte dl -> forall n j, (j + n = (L + 31) / 32)%nat -> (j + n <= 255)%nat ->
  xmd_loop n (Z.of_nat (S j)) (Z.of_nat L) b0 (if Nat.eqb j 0 then repeat 0 32 else xmd_b b0 (d ++ [dl]) j) d dl (firstn L (flat_map (xmd_b b0 (d ++ [dl])) (seq 1 j)))
  = firstn L (flat_map (xmd_b b0 (d ++ [dl])) (seq 1 ((L + 31) / 32))).
Proof.
  intros B0 L0 Bd Bl. pose proof (xmd_b_length b0 (d ++ [dl])) as HL.
  induction n as [|n IH]; intros j E N; cbn [xmd_loop].
  - rewrite <- E. rewrite Nat.add_0_r. reflexivity.
  - assert (HjL : (32 * j < L)%nat).
    { pose proof (Nat.div_mod (L + 31) 32 ltac:(lia)). pose proof (Nat.mod_upper_bound (L + 31) 32 ltac:(lia)). lia. }
    rewrite (u8_small (Z.of_nat (S j))) by lia.
    set (bi := if Nat.eqb j 0 then repeat 0 32 else xmd_b b0 (d ++ [dl]) j).
    assert (Lb : length bi = 32%nat) by (unfold bi; destruct j; [reflexivity|cbn [Nat.eqb]; apply HL]).
    assert (Bb : bytes bi) by (unfold bi; destruct j; [apply bytes_repeat0|cbn [Nat.eqb]; apply xmd_b_bytes]).
    rewrite xor_nth by assumption.
    rewrite sha256_ok.
    2:{ repeat constructor; try assumption; try apply Bl. apply bytes_app; split; [apply xor_bytes_bytes; assumption|repeat constructor; unfold byte; lia]. }
    assert (EB : SHA256 (concat [xor_bytes b0 bi ++ [Z.of_nat (S j)]; d; [dl]]) = xmd_b b0 (d ++ [dl]) (S j)).
    { cbn [concat]. rewrite app_nil_r, <- app_assoc. unfold bi. destruct j as [|j].
      - cbn [Nat.eqb]. rewrite xor_zero by exact L0. reflexivity.
      - cbn [Nat.eqb]. reflexivity. }
    rewrite EB. clear EB.
    rewrite (firstn_all2 (flat_map _ (seq 1 j))) by (rewrite (flat_T_length _ HL); lia).
    specialize (IH (S j) ltac:(lia) ltac:(lia)). cbn [Nat.eqb] in IH. replace (Z.of_nat (S j) + 1) with (Z.of_nat (S (S j))) by lia.
    rewrite <- IH. f_equal.
    replace (Z.to_nat (32 + (if Z.of_nat L - Z.of_nat (S j) * 32 <? 0 then Z.of_nat L - Z.of_nat (S j) * 32 else 0))) with (Nat.min 32 (L - 32 * j)).
    2:{ destruct (Z.ltb_spec (Z.of_nat L - Z.of_nat (S j) * 32) 0); lia. }
    destruct (Nat.le_gt_cases (L - 32 * j) 32).
    + rewrite Nat.min_r by lia. apply firstn_seq_last; [exact HL|lia|lia].
    + rewrite Nat.min_l by lia. rewrite (firstn_all2 (flat_map _ (seq 1 (S j)))) by (rewrite (flat_T_length _ HL); lia).
      rewrite seq_S, flat_map_app. cbn [flat_map Nat.add]. rewrite app_nil_r. f_equal. apply firstn_all2. rewrite HL. lia.
Qed.
Lemma read_all b : read_bytes b (Z.of_nat (length b)) = Some b.
Proof. unfold read_bytes. rewrite (proj2 (Z.leb_le 0 _)), (proj2 (Z.leb_le _ (Z.of_nat (length b)))) by lia. cbn [andb]. rewrite Nat2Z.id, firstn_all. reflexivity. Qed.
Lemma int_be2 v : 0 <= v -> int_be 2 v = [v / 256 mod 256; v mod 256].
Proof. reflexivity. Qed.
(** the general statement: the code sees the first [in_len] bytes of the input *)
Lemma xmd_read buf_len input in_len m dst : bytes input -> bytes dst -> 0 <= buf_len < 2 ^ 31 ->
  read_bytes input in_len = Some m ->
  xmd_sh256 buf_len input in_len dst (Z.of_nat (length dst)) =
    Ok (match expand_message_xmd m dst (Z.to_nat buf_len) with Some b => (0, b) | None => (-1, []) end).
Proof.
  intros Bi Bd HL R. unfold xmd_sh256, expand_message_xmd.
  assert (HE : Z.of_nat ((Z.to_nat buf_len + 31) / 32) = (buf_len + 31) / 32) by (rewrite Nat2Z.inj_div; f_equal; lia).
  rewrite HE. unfold u32. change (2 ^ 31) with 2147483648 in HL. rewrite (Z.mod_small (buf_len + 31)) by (change (2 ^ 32) with 4294967296; lia).
  rewrite (proj2 (Z.ltb_ge buf_len 0)) by lia. cbn [orb]. rewrite Z2Nat.id by lia.
  destruct (Z.ltb_spec 255 ((buf_len + 31) / 32)) as [G|G]; [reflexivity|]. cbn [orb].
  assert (HL2 : buf_len <= 8160).
  { pose proof (Z.div_mod (buf_len + 31) 32 ltac:(lia)). pose proof (Z.mod_pos_bound (buf_len + 31) 32 ltac:(lia)). lia. }
  rewrite (proj2 (Z.ltb_ge 65535 buf_len)) by lia. cbn [orb].
  destruct (Z.ltb_spec 255 (Z.of_nat (length dst))) as [D|D]; [reflexivity|].
  rewrite R, read_all.
  assert (Bm : bytes m). { unfold read_bytes in R. destruct (_ && _); [|discriminate]. injection R as <-. apply bytes_firstn, Bi. }
  rewrite (u8_small (Z.of_nat (length dst))) by lia.
  assert (Bl : byte (Z.of_nat (length dst))) by (unfold byte; lia).
  replace (int_be 1 (Z.of_nat (length dst))) with [Z.of_nat (length dst)] by (unfold int_be; cbn [int_le rev app]; rewrite Z.mod_small by lia; reflexivity).
  rewrite sha256_ok.
  2:{ constructor; [apply bytes_repeat0|]. constructor; [exact Bm|]. constructor; [|constructor; [exact Bd|constructor; [constructor; [exact Bl|constructor]|constructor]]].
      constructor; [apply Z.mod_pos_bound; lia|]. constructor; [|constructor; [unfold byte; lia|constructor]].
      change 255 with (Z.ones 8). rewrite Z.land_ones by lia. apply Z.mod_pos_bound. reflexivity. }
  replace (concat [repeat 0 64; m; [u8 (Z.shiftr buf_len 8); Z.land buf_len 255; 0]; dst; [Z.of_nat (length dst)]])
    with (repeat 0 64 ++ m ++ int_be 2 buf_len ++ [0] ++ dst ++ [Z.of_nat (length dst)]).
  2:{ cbn [concat]. rewrite int_be2 by lia. unfold u8. change 255 with (Z.ones 8). rewrite Z.land_ones, Z.shiftr_div_pow2 by lia. rewrite app_nil_r. reflexivity. }
  set (b0 := SHA256 _).
  pose proof (xmd_loop_ok (Z.to_nat buf_len) b0 dst (Z.of_nat (length dst)) (SHA256_bytes _) (SHA256_length _) Bd Bl (Z.to_nat ((buf_len + 31) / 32)) 0) as P.
  rewrite Z2Nat.id in P by lia. cbn [Nat.eqb seq flat_map] in P. rewrite firstn_nil in P. do 2 f_equal. apply P; lia.
Qed.
Lemma xmd_ok buf_len input dst : bytes input -> bytes dst -> 0 <= buf_len < 2 ^ 31 ->
  xmd_sh256 buf_len input (Z.of_nat (length input)) dst (Z.of_nat (length dst)) =
    Ok (match expand_message_xmd input dst (Z.to_nat buf_len) with Some b => (0, b) | None => (-1, []) end).
Proof. intros. apply xmd_read; auto. apply read_all. Qed.
Lemma xmd_neg_len buf_len input in_len dst : 0 <= buf_len <= 8160 -> (length dst <= 255)%nat -> in_len < 0 ->
  xmd_sh256 buf_len input in_len dst (Z.of_nat (length dst)) = OutOfBounds.
Proof.
  intros HL D N. unfold xmd_sh256, u32. rewrite (Z.mod_small (buf_len + 31)) by (change (2 ^ 32) with 4294967296; lia).
  pose proof (Z.div_mod (buf_len + 31) 32 ltac:(lia)). pose proof (Z.mod_pos_bound (buf_len + 31) 32 ltac:(lia)).
  rewrite (proj2 (Z.ltb_ge buf_len 0)), (proj2 (Z.ltb_ge 255 _)), (proj2 (Z.ltb_ge 255 _)) by lia. cbn [orb].
  unfold read_bytes at 1. rewrite (proj2 (Z.leb_gt 0 in_len)) by lia. reflexivity.
Qed.
Lemma xmd_length m dst n out : expand_message_xmd m dst n = Some out -> length out = n.
Proof.
  unfold expand_message_xmd. destruct (_ || _ || _); [discriminate|]. intros [= <-].
  rewrite firstn_length, (flat_T_length _ (xmd_b_length _ _)). change (fst (Nat.divmod (n + 31) 31 0 31)) with ((n + 31) / 32)%nat.
  pose proof (Nat.div_mod (n + 31) 32 ltac:(lia)). pose proof (Nat.mod_upper_bound (n + 31) 32 ltac:(lia)). lia.
Qed.
