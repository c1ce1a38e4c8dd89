(** Proof that the model of class sha256 computes SHA-256. *)
From Coq Require Import ZArith List Bool Lia.
From Verif Require Import SpecBytes BytesProof SpecHash ModelSha.
Import ListNotations.
Local Open Scope Z_scope.

(** ** Constants *)
Lemma K256_ok : K256 = sha_K.
Proof. vm_compute. reflexivity. Qed.
Lemma H256_ok d0 : m_state (sha_init d0) = H256.
Proof. vm_compute. reflexivity. Qed.
Lemma H256_length : length H256 = 8%nat. Proof. vm_compute. reflexivity. Qed.
Lemma sha_K_length : length sha_K = 64%nat. Proof. reflexivity. Qed.
Definition w32 (x : Z) : Prop := 0 <= x < 2 ^ 32.

(** ** Round function *)
Lemma maj_ok a b c : sha_majority a b c = Maj a b c.
Proof.
  unfold sha_majority, Maj. apply Z.bits_inj'. intros n _.
  rewrite ?Z.lor_spec, ?Z.lxor_spec, ?Z.land_spec, ?Z.lor_spec.
  destruct (Z.testbit a n), (Z.testbit b n), (Z.testbit c n); reflexivity.
Qed.
Lemma add32_app1 l x : add32 [l mod 2 ^ 32; x] = add32 [l; x].
Proof. unfold add32; cbn [fold_right]. rewrite Zplus_mod_idemp_l. reflexivity. Qed.
Lemma round_ok m s i : length s = 8%nat -> sha_round m s i = round s (nth i sha_K 0, nth i m 0).
Proof.
  intros L. do 8 (destruct s as [|? s]; [discriminate|]). destruct s; [|discriminate].
  unfold sha_round, round. cbn [nth fst snd]. rewrite maj_ok.
  unfold add32, u32; cbn [fold_right].
  change (Z.lxor (Z.lxor (sha_rotr z 2) (sha_rotr z 13)) (sha_rotr z 22)) with (Sigma0 z).
  change (Z.lxor (Z.lxor (sha_rotr z3 6) (sha_rotr z3 11)) (sha_rotr z3 25)) with (Sigma1 z3).
  change (sha_choose z3 z4 z5) with (Ch z3 z4 z5).
  generalize (Sigma0 z) (Sigma1 z3) (Ch z3 z4 z5) (Maj z z0 z1) (nth i m 0) (nth i sha_K 0); intros A B C D E F.
  rewrite !Z.add_0_r, ?Zplus_mod_idemp_l, ?Zplus_mod_idemp_r, ?Z.add_0_r.
  replace (A + D + (E + F + z6 + C + B)) with (z6 + (B + (C + (F + E))) + (A + D)) by ring.
  replace (E + F + z6 + C + B) with (z6 + (B + (C + (F + E)))) by ring. reflexivity.
Qed.
Lemma round_length s kw : length s = 8%nat -> length (round s kw) = 8%nat.
Proof. intros L. do 8 (destruct s as [|? s]; [discriminate|]). destruct s; [reflexivity|discriminate]. Qed.
Lemma fold_combine {S} (f : S -> Z * Z -> S) : forall K w s, length K = length w ->
  fold_left f (combine K w) s = fold_left (fun s i => f s (nth i K 0, nth i w 0)) (seq 0 (length w)) s.
Proof.
  induction K as [|k K IH]; intros [|x w] s L; try discriminate; [reflexivity|].
  cbn [combine fold_left length seq nth]. rewrite IH by (cbn in L; lia).
  rewrite <- (seq_shift (length w) 0). generalize (f s (k, x)). clear. generalize (seq 0 (length w)).
  induction l as [|i l IH]; intros s; [reflexivity|]. cbn [fold_left map nth]. apply IH.
Qed.
Lemma fold_rounds m : forall is s, length s = 8%nat ->
  fold_left (sha_round m) is s = fold_left (fun s i => round s (nth i sha_K 0, nth i m 0)) is s
  /\ length (fold_left (sha_round m) is s) = 8%nat.
Proof.
  induction is as [|i is IH]; intros s L; cbn [fold_left]; [auto|].
  rewrite round_ok by exact L. apply IH, round_length, L.
Qed.

(** ** Message schedule *)
Lemma sched_length n M : length (sched n M) = (n + length M)%nat.
Proof. induction n; cbn [sched]; [reflexivity|]. rewrite app_length, IHn. cbn. lia. Qed.
Lemma ext_ok M : forall n j, sha_ext n (16 + j) (sched j M) = sched (j + n) M.
Proof.
  induction n as [|n IH]; intros j; [rewrite Nat.add_0_r; reflexivity|].
  cbn [sha_ext]. replace (j + S n)%nat with (S j + n)%nat by lia. rewrite <- IH. replace (16 + S j)%nat with (S (16 + j)) by lia.
  f_equal. cbn [sched]. f_equal. f_equal. unfold add32, u32; cbn [fold_right]. f_equal.
  change (sha_sig1 ?x) with (sigma1 x). change (sha_sig0 ?x) with (sigma0 x). ring.
Qed.
Lemma ext0 n M : sha_ext n 16 M = sched n M.
Proof. exact (ext_ok M n 0). Qed.
Lemma be4 a b c d : byte a -> byte b -> byte c -> byte d ->
  Z.lor (Z.lor (Z.lor (u32 (Z.shiftl a 24)) (Z.shiftl b 16)) (Z.shiftl c 8)) d = be_int [a; b; c; d].
Proof.
  intros A B C D. unfold byte in *. unfold u32. rewrite !Z.shiftl_mul_pow2 by lia.
  rewrite Z.mod_small by (change (2 ^ 24) with 16777216; change (2 ^ 32) with 4294967296; lia).
  rewrite <- !Z.shiftl_mul_pow2 by lia.
  rewrite (Z.lor_comm (Z.shiftl a 24)), (lor_shift (Z.shiftl b 16) a 24) by (rewrite ?Z.shiftl_mul_pow2 by lia; change (2 ^ 24) with 16777216; change (2 ^ 16) with 65536; lia).
  rewrite (Z.lor_comm _ (Z.shiftl c 8)).
  replace (Z.shiftl b 16 + a * 2 ^ 24) with (Z.shiftl (b + a * 2 ^ 8) 16) by (rewrite !Z.shiftl_mul_pow2 by lia; ring).
  rewrite lor_shift by (rewrite ?Z.shiftl_mul_pow2 by lia; change (2 ^ 8) with 256; change (2 ^ 16) with 65536; lia).
  rewrite Z.lor_comm.
  replace (Z.shiftl c 8 + (b + a * 2 ^ 8) * 2 ^ 16) with (Z.shiftl (c + (b + a * 2 ^ 8) * 2 ^ 8) 8) by (rewrite !Z.shiftl_mul_pow2 by lia; ring).
  rewrite lor_shift by (change (2 ^ 8) with 256; lia).
  unfold be_int; cbn [rev app le_int]. ring.
Qed.
Lemma m16_ok d : bytes d -> length d = 64%nat -> sha_m16 d = words_of d.
Proof.
  intros B L. do 64 (destruct d as [|? d]; [discriminate|]). destruct d; [|discriminate]. clear L.
  unfold bytes in B. repeat (apply Forall_cons_iff in B; let H := fresh in destruct B as [H B]).
  unfold sha_m16, words_of. cbn [seq map pieces firstn skipn nth Nat.add Nat.mul].
  repeat (apply (f_equal2 cons); [apply be4; assumption|]). reflexivity.
Qed.
Lemma words_of_length b : length (words_of b) = 16%nat.
Proof. unfold words_of. rewrite map_length. reflexivity. Qed.

Lemma map_combine (f : Z -> Z -> Z) : forall a b, length a = length b ->
  map (fun x => f (fst x) (snd x)) (combine a b) = map (fun i => f (nth i a 0) (nth i b 0)) (seq 0 (length a)).
Proof.
  induction a as [|x a IH]; intros [|y b] L; try discriminate; [reflexivity|].
  cbn [combine map length seq nth fst snd]. rewrite <- (seq_shift (length a) 0), map_map, IH by (cbn in L; lia). reflexivity.
Qed.
Lemma transform_ok s : bytes (m_data s) -> length (m_data s) = 64%nat -> length (m_state s) = 8%nat ->
  sha_transform s = mkSha (m_data s) (m_blocklen s) (m_bitlen s) (compress (m_state s) (m_data s)).
Proof.
  intros B L S. unfold sha_transform. f_equal. rewrite m16_ok by assumption.
  rewrite ext0.
  unfold compress. rewrite K256_ok.
  set (w := sched 48 (words_of (m_data s))).
  assert (Lw : length w = 64%nat) by (unfold w; rewrite sched_length, words_of_length; reflexivity).
  rewrite fold_combine by (rewrite Lw; reflexivity). rewrite Lw.
  destruct (fold_rounds w (seq 0 64) (m_state s) S) as [E L']. rewrite E in L' |- *.
  set (t := fold_left _ _ _) in *.
  rewrite (map_combine (fun a b => add32 [a; b])) by congruence. rewrite S.
  apply map_ext. intros i. unfold add32, u32; cbn [fold_right]. rewrite Z.add_0_r. reflexivity.
Qed.
Lemma combine_len {A B} (a : list A) (b : list B) n : length a = n -> length b = n -> length (combine a b) = n.
Proof. intros E1 E2. rewrite combine_length, E1, E2. apply Nat.min_id. Qed.
Lemma fold_round_length : forall l s, length s = 8%nat -> length (fold_left round l s) = 8%nat.
Proof. induction l as [|x l IH]; intros s L; [exact L|]. apply IH, round_length, L. Qed.
Lemma compress_length H b : length H = 8%nat -> length (compress H b) = 8%nat.
Proof. intros L. unfold compress. rewrite map_length. apply combine_len; [exact L|]. apply fold_round_length, L. Qed.
Lemma compress_w32 H b : Forall w32 (compress H b).
Proof. unfold compress. apply Forall_map. apply Forall_forall. intros x _. unfold add32, w32. apply Z.mod_pos_bound. reflexivity. Qed.

(** ** Buffer *)
Lemma put_split a x y b : put (length a) x (a ++ y :: b) = a ++ x :: b.
Proof. induction a; cbn; [reflexivity|]. rewrite IHa. reflexivity. Qed.
Lemma put_app a i x b : put (length a + i) x (a ++ b) = a ++ put i x b.
Proof. induction a; cbn; [reflexivity|]. rewrite IHa. reflexivity. Qed.
Lemma zeros_ok : forall n fuel i a b c, length b = n -> i = Z.of_nat (length a) -> (n <= fuel)%nat ->
  sha_zeros fuel i (i + Z.of_nat n) (a ++ b ++ c) = a ++ repeat 0 n ++ c.
Proof.
  induction n as [|n IH]; intros fuel i a b c Lb -> Hf.
  - destruct b; [|discriminate]. destruct fuel; [reflexivity|]. cbn [sha_zeros]. rewrite (proj2 (Z.ltb_ge _ _)) by lia. reflexivity.
  - destruct b as [|y b]; [discriminate|]. destruct fuel as [|fuel]; [lia|]. cbn [sha_zeros].
    rewrite (proj2 (Z.ltb_lt _ _)) by lia. rewrite Nat2Z.id. cbn [app]. rewrite put_split.
    replace (a ++ 0 :: b ++ c) with ((a ++ [0]) ++ b ++ c) by (rewrite <- app_assoc; reflexivity).
    replace (Z.of_nat (length a) + Z.of_nat (S n)) with (Z.of_nat (length a) + 1 + Z.of_nat n) by lia.
    rewrite IH; [rewrite <- app_assoc; reflexivity|cbn in Lb; lia|rewrite app_length; cbn; lia|lia].
Qed.

Record inv (s : sha) (full : list (list Z)) (rest : list Z) : Prop := {
  i_full : Forall (fun b => length b = 64%nat) full;
  i_rest : (length rest < 64)%nat;
  i_data : exists junk, m_data s = rest ++ junk;
  i_len : length (m_data s) = 64%nat;
  i_byte : bytes (m_data s);
  i_bl : m_blocklen s = Z.of_nat (length rest);
  i_bit : m_bitlen s = (512 * Z.of_nat (length full)) mod 2 ^ 64;
  i_st : m_state s = fold_left compress full H256 }.
Lemma fold_compress_length : forall full s, length s = 8%nat -> length (fold_left compress full s) = 8%nat.
Proof. induction full as [|b f IH]; intros s L; [exact L|]. apply IH, compress_length, L. Qed.
Lemma inv_init d0 : bytes d0 -> length d0 = 64%nat -> inv (sha_init d0) [] [].
Proof. intros B L. split; try reflexivity; try assumption; [constructor|cbn; lia|exists d0; reflexivity]. Qed.
Lemma byte_ok s full rest x : inv s full rest -> byte x ->
  exists full' rest', inv (sha_byte s x) full' rest' /\ concat full' ++ rest' = (concat full ++ rest) ++ [x].
Proof.
  intros [F R [junk D] L B Bl Bit St] X.
  unfold sha_byte. cbn [m_data m_blocklen m_bitlen m_state].
  destruct junk as [|j junk]; [rewrite app_nil_r in D; rewrite D in L; lia|].
  assert (P : put (Z.to_nat (m_blocklen s)) x (m_data s) = (rest ++ [x]) ++ junk)
    by (rewrite Bl, Nat2Z.id, D, put_split, <- app_assoc; reflexivity).
  assert (BP : bytes ((rest ++ [x]) ++ junk)).
  { rewrite D in B. apply Forall_app in B. destruct B as [B1 B2]. apply Forall_cons_iff in B2. destruct B2 as [_ B2].
    apply Forall_app; split; [apply Forall_app; split; [exact B1|repeat constructor; apply X]|exact B2]. }
  assert (LP : length ((rest ++ [x]) ++ junk) = 64%nat) by (rewrite D in L; rewrite !app_length in *; cbn [length] in *; lia).
  assert (U : u32 (m_blocklen s + 1) = Z.of_nat (length (rest ++ [x])))
    by (rewrite Bl, app_length; unfold u32; cbn [length]; change (2 ^ 32) with 4294967296; rewrite Z.mod_small by lia; lia).
  rewrite P, U. clear P U.
  destruct (Z.eqb_spec (Z.of_nat (length (rest ++ [x]))) 64) as [E|E].
  - assert (junk = []) as -> by (apply length_zero_iff_nil; rewrite app_length in LP; lia). rewrite app_nil_r in *.
    exists (full ++ [rest ++ [x]]), [].
    rewrite transform_ok; cbn [m_data m_blocklen m_bitlen m_state]; [|exact BP|exact LP|rewrite St; apply fold_compress_length, H256_length].
    split; [split; cbn [m_data m_blocklen m_bitlen m_state]|].
    + apply Forall_app; split; [exact F|repeat constructor; exact LP].
    + cbn; lia.
    + eexists; reflexivity.
    + exact LP.
    + exact BP.
    + reflexivity.
    + rewrite Bit, app_length. unfold u64. rewrite Zplus_mod_idemp_l. f_equal. cbn [length]. lia.
    + rewrite fold_left_app, St. reflexivity.
    + rewrite concat_app. cbn [concat]. rewrite !app_nil_r, app_assoc. reflexivity.
  - exists full, (rest ++ [x]). split; [split; cbn [m_data m_blocklen m_bitlen m_state]|].
    + exact F.
    + rewrite app_length in *; cbn [length] in *; lia.
    + eexists; reflexivity.
    + exact LP.
    + exact BP.
    + reflexivity.
    + exact Bit.
    + exact St.
    + rewrite app_assoc. reflexivity.
Qed.
Lemma update_ok : forall m s full rest, inv s full rest -> bytes m ->
  exists full' rest', inv (sha_update s m) full' rest' /\ concat full' ++ rest' = (concat full ++ rest) ++ m.
Proof.
  induction m as [|x m IH]; intros s full rest I B; [exists full, rest; rewrite app_nil_r; auto|].
  apply Forall_cons_iff in B. destruct B as [X B].
  destruct (byte_ok s full rest x I X) as (f' & r' & I' & E).
  destruct (IH _ f' r' I' B) as (f2 & r2 & I2 & E2). exists f2, r2. split; [exact I2|].
  rewrite E2, E, <- app_assoc. reflexivity.
Qed.
Lemma updates_ok : forall ms s full rest, inv s full rest -> Forall bytes ms ->
  exists full' rest', inv (fold_left sha_update ms s) full' rest' /\ concat full' ++ rest' = (concat full ++ rest) ++ concat ms.
Proof.
  induction ms as [|m ms IH]; intros s full rest I B; [exists full, rest; rewrite app_nil_r; auto|].
  apply Forall_cons_iff in B. destruct B as [X B].
  destruct (update_ok m s full rest I X) as (f' & r' & I' & E).
  destruct (IH _ f' r' I' B) as (f2 & r2 & I2 & E2). exists f2, r2. split; [exact I2|].
  rewrite E2, E, <- app_assoc. reflexivity.
Qed.

(** ** Padding *)
Lemma last8 a b v : length a = 56%nat -> length b = 8%nat -> 0 <= v -> sha_put_len v (a ++ b) = a ++ int_be 8 v.
Proof.
  intros La Lb V. unfold sha_put_len. do 8 (destruct b as [|? b]; [discriminate|]). destruct b; [|discriminate]. clear Lb.
  assert (Q : forall k x c, put (56 + k) x (a ++ c) = a ++ put k x c) by (intros; rewrite <- La; apply put_app).
  change 63%nat with (56 + 7)%nat. rewrite Q. change 62%nat with (56 + 6)%nat. rewrite Q. change 61%nat with (56 + 5)%nat. rewrite Q.
  change 60%nat with (56 + 4)%nat. rewrite Q. change 59%nat with (56 + 3)%nat. rewrite Q. change 58%nat with (56 + 2)%nat. rewrite Q.
  change 57%nat with (56 + 1)%nat. rewrite Q. change 56%nat with (56 + 0)%nat at 1. rewrite Q. clear Q.
  f_equal. cbn [put]. unfold int_be. cbn [int_le rev app]. unfold u8. rewrite !Z.shiftr_div_pow2 by lia.
  rewrite !Z.div_div by lia. reflexivity.
Qed.
Lemma pieces_concat : forall bs, Forall (fun b => length b = 64%nat) bs -> pieces (length bs) 64 (concat bs) = bs.
Proof.
  induction bs as [|b bs IH]; intros F; [reflexivity|]. apply Forall_cons_iff in F. destruct F as [Lb F].
  cbn [length pieces concat]. rewrite firstn_app, skipn_app, Lb, Nat.sub_diag, firstn_O, skipn_O.
  rewrite (firstn_all2 b), (skipn_all2 b) by lia. cbn [app]. rewrite app_nil_r, IH by exact F. reflexivity.
Qed.
Lemma concat_length64 : forall bs, Forall (fun b : list Z => length b = 64%nat) bs -> length (concat bs) = (64 * length bs)%nat.
Proof. induction bs as [|b bs IH]; intros F; [reflexivity|]. apply Forall_cons_iff in F. destruct F as [Lb F]. cbn [concat length]. rewrite app_length, IH by exact F. lia. Qed.
Lemma blocks_concat bs : Forall (fun b => length b = 64%nat) bs -> blocks (concat bs) = bs.
Proof.
  intros F. unfold blocks. rewrite concat_length64 by exact F. rewrite Nat.mul_comm, Nat.div_mul by lia. apply pieces_concat, F.
Qed.
Lemma bytes_repeat0 n : bytes (repeat 0 n).
Proof. induction n; constructor; [unfold byte; lia|exact IHn]. Qed.
Lemma bytes_app a b : bytes (a ++ b) <-> bytes a /\ bytes b.
Proof. apply Forall_app. Qed.

Lemma int_be_eqm n v w : v mod 256 ^ Z.of_nat n = w mod 256 ^ Z.of_nat n -> int_be n v = int_be n w.
Proof. intros E. unfold int_be. f_equal. rewrite <- (int_le_mod n v (Z.of_nat n)), E, int_le_mod by lia. reflexivity. Qed.
Definition len8 (n : nat) : list Z := int_be 8 (8 * Z.of_nat n).
Lemma pad_bit_ok s full rest : inv s full rest ->
  exists full' d56 junk, sha_pad_bit s = mkSha (d56 ++ junk) (Z.of_nat (length rest)) (m_bitlen s) (fold_left compress full' H256) /\
    length d56 = 56%nat /\ length junk = 8%nat /\ bytes d56 /\ Forall (fun b => length b = 64%nat) full' /\
    pad (concat full ++ rest) = concat full' ++ d56 ++ len8 (length (concat full ++ rest)).
Proof.
  intros [F R [junk D] L B Bl Bit St]. unfold len8.
  set (len := int_be 8 (8 * Z.of_nat (length (concat full ++ rest)))).
  assert (S8 : length (m_state s) = 8%nat) by (rewrite St; apply fold_compress_length, H256_length).
  assert (Br : bytes rest) by (rewrite D in B; apply bytes_app in B; tauto).
  assert (Bj : bytes junk) by (rewrite D in B; apply bytes_app in B; tauto).
  destruct junk as [|j junk]; [rewrite app_nil_r in D; rewrite D in L; lia|].
  assert (Lj : (length rest + length junk = 63)%nat) by (rewrite D, app_length in L; cbn [length] in L; lia).
  assert (B80 : byte 0x80) by (unfold byte; lia).
  assert (Hmod : Z.to_nat ((55 - Z.of_nat (length (concat full ++ rest))) mod 64) = if Nat.ltb (length rest) 56 then (55 - length rest)%nat else (119 - length rest)%nat).
  { rewrite app_length, concat_length64 by exact F.
    destruct (Nat.ltb_spec (length rest) 56).
    - rewrite <- (Z.mod_unique_pos _ 64 (- Z.of_nat (length full)) (55 - Z.of_nat (length rest))); lia.
    - rewrite <- (Z.mod_unique_pos _ 64 (- Z.of_nat (length full) - 1) (119 - Z.of_nat (length rest))); lia. }
  unfold pad. rewrite Hmod. clear Hmod. fold len. clearbody len.
  unfold sha_pad_bit.
  replace (put (Z.to_nat (m_blocklen s)) 128 (m_data s)) with ((rest ++ [128]) ++ junk)
    by (rewrite Bl, Nat2Z.id, D, put_split, <- app_assoc; reflexivity).
  rewrite Bl.
  destruct (Nat.ltb_spec (length rest) 56) as [H|H].
  - exists full, ((rest ++ [128]) ++ repeat 0 (55 - length rest)), (skipn (55 - length rest) junk).
    rewrite (proj2 (Z.ltb_lt _ 56)) by lia. cbn [m_blocklen]. rewrite (proj2 (Z.leb_gt 56 _)) by lia.
    assert (LA : length (firstn (55 - length rest) junk) = (55 - length rest)%nat) by (rewrite firstn_length; lia).
    pose proof (zeros_ok (55 - length rest) 64 (Z.of_nat (length rest) + 1) (rest ++ [128]) (firstn (55 - length rest) junk) (skipn (55 - length rest) junk) LA) as ZO.
    replace (Z.of_nat (length rest) + 1 + Z.of_nat (55 - length rest)) with 56 in ZO by lia. rewrite firstn_skipn in ZO.
    rewrite ZO; [|rewrite app_length; cbn [length]; lia|lia]. clear ZO.
    repeat split.
    + rewrite <- !app_assoc, St. reflexivity.
    + rewrite !app_length, repeat_length; cbn [length]; lia.
    + rewrite skipn_length; lia.
    + rewrite !bytes_app; repeat split; [exact Br|repeat constructor; apply B80|apply bytes_repeat0].
    + exact F.
    + rewrite <- !app_assoc. reflexivity.
  - rewrite (proj2 (Z.ltb_ge _ 56)) by lia. cbn [m_blocklen]. rewrite (proj2 (Z.leb_le 56 _)) by lia.
    pose proof (zeros_ok (63 - length rest) 64 (Z.of_nat (length rest) + 1) (rest ++ [128]) junk []) as ZO.
    replace (Z.of_nat (length rest) + 1 + Z.of_nat (63 - length rest)) with 64 in ZO by lia. rewrite !app_nil_r in ZO.
    rewrite ZO; [|lia|rewrite app_length; cbn [length]; lia|lia]. clear ZO.
    set (b1 := (rest ++ [128]) ++ repeat 0 (63 - length rest)).
    assert (Lb1 : length b1 = 64%nat) by (unfold b1; rewrite !app_length, repeat_length; cbn [length]; lia).
    assert (Bb1 : bytes b1) by (unfold b1; rewrite !bytes_app; repeat split; [exact Br|repeat constructor; apply B80|apply bytes_repeat0]).
    exists (full ++ [b1]), (repeat 0 56), (skipn 56 b1).
    rewrite (transform_ok (mkSha b1 _ _ _)) by assumption. cbn [m_data m_blocklen m_bitlen m_state].
    pose proof (zeros_ok 56 64 0 [] (firstn 56 b1) (skipn 56 b1)) as Z0. rewrite !app_nil_l, firstn_skipn, Z.add_0_l in Z0.
    change (Z.of_nat 56) with 56 in Z0.
    rewrite Z0; [|rewrite firstn_length; lia|reflexivity|lia]. clear Z0.
    repeat split.
    + rewrite fold_left_app, St. reflexivity.
    + rewrite skipn_length; lia.
    + apply bytes_repeat0.
    + apply Forall_app; split; [exact F|]. constructor; [exact Lb1|constructor].
    + rewrite concat_app. cbn [concat]. unfold b1. replace (119 - length rest)%nat with (63 - length rest + 56)%nat by lia.
      rewrite repeat_app, app_nil_r, <- !app_assoc. reflexivity.
Qed.
Lemma pad_state s full rest : inv s full rest ->
  m_state (sha_pad s) = fold_left compress (blocks (pad (concat full ++ rest))) H256.
Proof.
  intros I. destruct (pad_bit_ok _ _ _ I) as (f & d & j & E & Ld & Lj & Bd & F & P). destruct I as [F0 R _ L B Bl Bit St].
  unfold sha_pad. rewrite E. cbn [m_data m_blocklen m_bitlen m_state]. clear E.
  set (bl := u64 _).
  assert (Hbl : 0 <= bl) by (unfold bl, u64; apply Z.mod_pos_bound; reflexivity).
  assert (Elen : int_be 8 bl = len8 (length (concat full ++ rest))).
  { apply int_be_eqm. change (256 ^ Z.of_nat 8) with (2 ^ 64). unfold bl, u64. rewrite Z.mod_mod by discriminate.
    rewrite Bit, Zplus_mod_idemp_l, app_length, concat_length64 by exact F0. f_equal. lia. }
  rewrite last8, Elen by assumption.
  assert (Llen : length (len8 (length (concat full ++ rest))) = 8%nat) by apply int_be_length.
  assert (Blen : bytes (len8 (length (concat full ++ rest)))) by apply int_be_bytes.
  rewrite P. set (len := len8 _) in *. clearbody len.
  assert (Bdl : bytes (d ++ len)) by (apply bytes_app; auto).
  assert (Ldl : length (d ++ len) = 64%nat) by (rewrite app_length; lia).
  rewrite transform_ok; cbn [m_data m_blocklen m_bitlen m_state]; [|exact Bdl|exact Ldl|apply fold_compress_length, H256_length].
  replace (concat f ++ d ++ len) with (concat (f ++ [d ++ len])) by (rewrite concat_app; cbn [concat]; rewrite app_nil_r; reflexivity).
  rewrite blocks_concat, fold_left_app; [reflexivity|].
  apply Forall_app; split; [exact F|]. constructor; [exact Ldl|constructor].
Qed.

Lemma blocks_pad_w32 l : Forall w32 (fold_left compress l H256).
Proof.
  destruct l as [|b l] using rev_ind.
  - change (fold_left compress [] H256) with H256. apply Forall_forall. intros x Hx.
    assert (A : forallb (fun x => (0 <=? x) && (x <? 2 ^ 32)) H256 = true) by (vm_compute; reflexivity).
    rewrite forallb_forall in A. specialize (A x Hx). unfold w32. lia.
  - rewrite fold_left_app. apply compress_w32.
Qed.
Lemma rev4 x : w32 x -> map (fun i => Z.land (Z.shiftr x (24 - Z.of_nat i * 8)) 255) (seq 0 4) = int_be 4 x.
Proof.
  intros X. unfold int_be. cbn [seq map int_le rev app]. change 255 with (Z.ones 8). rewrite !Z.land_ones by lia.
  rewrite !Z.shiftr_div_pow2 by (cbn; lia). rewrite !Z.div_div by lia. change (x / 2 ^ (24 - Z.of_nat 3 * 8)) with (x / 1). rewrite Z.div_1_r. reflexivity.
Qed.
Lemma revert_ok s : length (m_state s) = 8%nat -> Forall w32 (m_state s) -> sha_revert s = flat_map (int_be 4) (m_state s).
Proof.
  intros L W. unfold sha_revert. destruct s as [da bl bi st]; cbn [m_state] in *. do 8 (destruct st as [|? st]; [discriminate|]).
  destruct st; [|discriminate]. repeat (apply Forall_cons_iff in W; let H := fresh in destruct W as [H W]).
  change (seq 0 8) with [0;1;2;3;4;5;6;7]%nat. cbn [flat_map nth]. rewrite !rev4 by assumption. reflexivity.
Qed.
Theorem sha256_from_ok d0 chunks : bytes d0 -> length d0 = 64%nat -> Forall bytes chunks ->
  sha256_from d0 chunks = SHA256 (concat chunks).
Proof.
  intros B L C. unfold sha256_from, sha_digest, SHA256.
  destruct (updates_ok chunks _ [] [] (inv_init d0 B L) C) as (f & r & I & E). cbn [concat app] in E.
  pose proof (pad_state _ _ _ I) as P. rewrite E in P.
  rewrite revert_ok; rewrite P; [reflexivity|apply fold_compress_length, H256_length|apply blocks_pad_w32].
Qed.
Corollary sha256_ok chunks : Forall bytes chunks -> sha256 chunks = SHA256 (concat chunks).
Proof. apply sha256_from_ok; [apply bytes_repeat0|reflexivity]. Qed.
Lemma SHA256_length m : length (SHA256 m) = 32%nat.
Proof.
  unfold SHA256. pose proof (fold_compress_length (blocks (pad m)) H256 H256_length) as L.
  destruct (fold_left compress _ _) as [|? st]; [discriminate|].
  do 7 (destruct st as [|? st]; [discriminate|]). destruct st; [reflexivity|discriminate].
Qed.
Lemma SHA256_bytes m : bytes (SHA256 m).
Proof. unfold SHA256. generalize (fold_left compress (blocks (pad m)) H256). induction l; [constructor|]. cbn [flat_map]. apply bytes_app; split; [apply int_be_bytes|exact IHl]. Qed.
