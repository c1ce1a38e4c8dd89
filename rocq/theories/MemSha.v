(** SHA-256, HMAC and xmd of ModelMem.v stay inside their buffers and return what ModelSha.v and ModelKdf.v say. *)
From Coq Require Import ZArith List Bool Lia.
From Verif Require Import ModelWord ModelScalar ModelSha ModelKdf ModelMem SpecBytes SpecHash ShaProof KdfProof MemProof MemDiv2.
Import ListNotations.
Local Open Scope Z_scope.

Lemma put_mid : forall i pre x post v, length pre = i -> put i v (pre ++ x :: post) = pre ++ v :: post.
Proof. induction i as [|i IH]; intros pre x post v L; destruct pre as [|p pre]; try discriminate; [reflexivity|]. cbn [app put]. f_equal. apply IH. cbn [length] in L. lia. Qed.
Lemma wr_put l i v : 0 <= i < Z.of_nat (length l) -> wr l i v = Some (put (Z.to_nat i) v l).
Proof. intros Hi. destruct (split_at l (Z.to_nat i)) as (pre & x & post & -> & L); [lia|]. rewrite wr_mid, put_mid by lia. reflexivity. Qed.
Lemma put_length : forall i v l, length (put i v l) = length l.
Proof. induction i as [|i IH]; intros v l; destruct l; cbn [put length]; auto. Qed.
Lemma map_nth_all (l : list Z) n : length l = n -> map (fun i => nth i l 0) (seq 0 n) = l.
Proof.
  intros <-. induction l as [|x l IH]; [reflexivity|]. cbn [length seq map nth]. f_equal. rewrite <- seq_shift, map_map. exact IH.
Qed.
Lemma for_up_fold_inv {S} (P : S -> Prop) (g : S -> nat -> S) body : forall n k s, P s -> (forall j s, (k <= j < k + n)%nat -> P s -> body (Z.of_nat j) s = Some (g s j) /\ P (g s j)) ->
  for_up n (Z.of_nat k) body s = Some (fold_left g (seq k n) s) /\ P (fold_left g (seq k n) s).
Proof.
  induction n as [|n IH]; intros k s Ps Hb; [split; [reflexivity|exact Ps]|]. cbn [for_up seq fold_left]. destruct (Hb k s) as [-> P1]; [lia|exact Ps|].
  replace (Z.of_nat k + 1) with (Z.of_nat (Datatypes.S k)) by lia. apply IH; [exact P1|]. intros; apply Hb; [lia|assumption].
Qed.

(** ** transform *)
Lemma c_schedule_ok d m : length d = 64%nat -> length m = 64%nat -> c_schedule d m = Some (sha_ext 48 16 (sha_m16 d)).
Proof.
  intros Ld Lm. unfold c_schedule.
  assert (L16 : length (sha_m16 d) = 16%nat) by (unfold sha_m16; rewrite map_length, seq_length; reflexivity).
  rewrite <- (firstn_skipn 16 m). set (m1 := firstn 16 m). set (m2 := skipn 16 m).
  assert (L1 : length m1 = 16%nat) by (unfold m1; rewrite firstn_length; lia). assert (L2 : length m2 = 48%nat) by (unfold m2; rewrite skipn_length; lia).
  match goal with |- context [for_up 16 0 ?b _] => set (body := b) end.
  assert (E : for_up 16 0 body (m1 ++ m2) = Some (sha_m16 d ++ m2)).
  { apply (for_up_fill (fun i => let j := (4 * i)%nat in Z.lor (Z.lor (Z.lor (u32 (Z.shiftl (nth j d 0) 24)) (Z.shiftl (nth (j + 1) d 0) 16)) (Z.shiftl (nth (j + 2) d 0) 8)) (nth (j + 3) d 0)) body 0 16 0 [] m1 m2 eq_refl L1).
    intros j l Hj. unfold body. cbv zeta. rewrite (rd_nth d _ 0), (rd_nth d (4 * Z.of_nat j + 1) 0), (rd_nth d (4 * Z.of_nat j + 2) 0), (rd_nth d (4 * Z.of_nat j + 3) 0) by lia.
    replace (Z.to_nat (4 * Z.of_nat j)) with (4 * j)%nat by lia. replace (Z.to_nat (4 * Z.of_nat j + 1)) with (4 * j + 1)%nat by lia.
    replace (Z.to_nat (4 * Z.of_nat j + 2)) with (4 * j + 2)%nat by lia. replace (Z.to_nat (4 * Z.of_nat j + 3)) with (4 * j + 3)%nat by lia. reflexivity. }
  rewrite E. clear E body. clearbody m1 m2. clear Lm m1 L1.
  match goal with |- for_up 48 16 ?b _ = _ => set (body := b) end.
  assert (G : forall n k acc w, length w = n -> length acc = k -> (16 <= k)%nat -> for_up n (Z.of_nat k) body (acc ++ w) = Some (sha_ext n k acc)).
  { induction n as [|n IH]; intros k acc w Lw La Hk; destruct w as [|x w]; try discriminate; [cbn [for_up sha_ext]; rewrite app_nil_r; reflexivity|].
    cbn [for_up sha_ext]. unfold body at 1.
    assert (R : forall j, (1 <= j <= 16)%nat -> rd (acc ++ x :: w) (Z.of_nat k - Z.of_nat j) = Some (nth (k - j) acc 0)).
    { intros j Hj. rewrite (rd_nth _ _ 0) by (rewrite app_length; lia). replace (Z.to_nat (Z.of_nat k - Z.of_nat j)) with (k - j)%nat by lia. rewrite app_nth1 by lia. reflexivity. }
    pose proof (R 2%nat ltac:(lia)) as R2. pose proof (R 7%nat ltac:(lia)) as R7. pose proof (R 15%nat ltac:(lia)) as R15. pose proof (R 16%nat ltac:(lia)) as R16.
    change (Z.of_nat 2) with 2 in R2. change (Z.of_nat 7) with 7 in R7. change (Z.of_nat 15) with 15 in R15. change (Z.of_nat 16) with 16 in R16. rewrite R2, R7, R15, R16.
    rewrite wr_mid by lia. replace (Z.of_nat k + 1) with (Z.of_nat (S k)) by lia.
    match goal with |- for_up n _ _ (acc ++ ?v :: w) = _ => change (acc ++ v :: w) with (acc ++ [v] ++ w) end. rewrite app_assoc.
    apply IH; [cbn [length] in Lw; lia|rewrite app_length; cbn [length]; lia|lia]. }
  exact (G 48%nat 16%nat (sha_m16 d) m2 L2 L16 (le_n _)).
Qed.
Lemma ext_length : forall n k m, length (sha_ext n k m) = (n + length m)%nat.
Proof. induction n as [|n IH]; intros k m; [reflexivity|]. cbn [sha_ext]. rewrite IH, app_length. cbn [length]. lia. Qed.
Lemma list8 (s : list Z) : length s = 8%nat -> exists a b c d e f g h, s = [a; b; c; d; e; f; g; h].
Proof. destruct s as [|a [|b [|c [|d [|e [|f [|g [|h [|]]]]]]]]]; intros L; try discriminate L. exists a, b, c, d, e, f, g, h. reflexivity. Qed.
Lemma c_round_ok m i s : length s = 8%nat -> length m = 64%nat -> (i < 64)%nat -> c_round m (Z.of_nat i) s = Some (sha_round m s i).
Proof.
  intros Ls Lm Hi. destruct (list8 s Ls) as (a & b & c & d & e & f & g & h & ->). unfold c_round.
  rewrite (rd_nth m (Z.of_nat i) 0), (rd_nth sha_K (Z.of_nat i) 0), Nat2Z.id by (change (length sha_K) with 64%nat; lia).
  unfold sha_round. cbv zeta. generalize (nth i m 0), (nth i sha_K 0). intros mi ki. reflexivity.
Qed.
Lemma round_len m s i : length (sha_round m s i) = 8%nat. Proof. reflexivity. Qed.
Lemma c_transform_ok m st s : length m = 64%nat -> length st = 8%nat -> length (m_data s) = 64%nat -> length (m_state s) = 8%nat -> c_transform m st s = Some (sha_transform s).
Proof.
  intros Lm Lst Ld Ls. unfold c_transform, sha_transform. rewrite c_schedule_ok by assumption. set (mm := sha_ext 48 16 (sha_m16 (m_data s))).
  assert (Lmm : length mm = 64%nat) by (unfold mm; rewrite ext_length; unfold sha_m16; rewrite map_length, seq_length; reflexivity).
  rewrite (for_up_fill0 (fun i => nth i (m_state s) 0) _ st 8 Lst).
  2:{ intros j l Hj. rewrite (rd_nth _ _ 0), Nat2Z.id by lia. reflexivity. }
  rewrite map_nth_all by exact Ls.
  destruct (for_up_fold_inv (fun s => length s = 8%nat) (sha_round mm) (c_round mm) 64 0 (m_state s) Ls) as [E L].
  { intros j s0 Hj Ls0. split; [apply c_round_ok; [exact Ls0|exact Lmm|lia]|apply round_len]. }
  change (Z.of_nat 0) with 0 in E. rewrite E. clear E. cbv zeta. generalize dependent (fold_left (sha_round mm) (seq 0 64) (m_state s)). intros st' L.
  destruct (list8 _ Ls) as (a & b & c & d & e & f & g & h & ->). destruct (list8 _ L) as (a' & b' & c' & d' & e' & f' & g' & h' & ->). reflexivity.
Qed.
Definition ok_sha (s : sha) : Prop := length (m_data s) = 64%nat /\ 0 <= m_blocklen s < 64 /\ length (m_state s) = 8%nat.
Lemma transform_state s : length (m_state (sha_transform s)) = 8%nat. Proof. reflexivity. Qed.
Lemma c_update_ok m st : length m = 64%nat -> length st = 8%nat -> forall data s, ok_sha s -> c_update m st s data = Some (sha_update s data) /\ ok_sha (sha_update s data).
Proof.
  intros Lm Lst data s Hs. unfold c_update. match goal with |- for_up _ 0 ?b _ = _ /\ _ => set (body := b) end.
  assert (STEP : forall i s x, rd data i = Some x -> ok_sha s -> body i s = Some (sha_byte s x) /\ ok_sha (sha_byte s x)).
  { clear s Hs. intros i s x R (Ld & Hb & Ls). unfold body. rewrite R. rewrite wr_put by lia. unfold sha_byte. cbv zeta. cbn [m_blocklen m_data m_bitlen m_state].
    assert (U : u32 (m_blocklen s + 1) = m_blocklen s + 1) by (unfold u32; apply Z.mod_small; lia). rewrite U.
    set (d1 := put (Z.to_nat (m_blocklen s)) x (m_data s)). assert (L1 : length d1 = 64%nat) by (unfold d1; rewrite put_length; exact Ld).
    destruct (Z.eqb_spec (m_blocklen s + 1) 64) as [E|E].
    - rewrite c_transform_ok; [|exact Lm|exact Lst|exact L1|exact Ls]. split; [reflexivity|]. split; [exact L1|]. split; [cbn [m_blocklen]; lia|apply transform_state].
    - split; [reflexivity|]. split; [exact L1|]. split; [cbn [m_blocklen]; lia|exact Ls]. }
  assert (G : forall xs pre s, data = pre ++ xs -> ok_sha s -> for_up (length xs) (Z.of_nat (length pre)) body s = Some (sha_update s xs) /\ ok_sha (sha_update s xs)).
  { induction xs as [|x xs IH]; intros pre s0 E H0; [split; [reflexivity|exact H0]|]. cbn [length for_up]. unfold sha_update. cbn [fold_left]. fold (sha_update (sha_byte s0 x) xs).
    destruct (STEP (Z.of_nat (length pre)) s0 x) as [-> H1]; [rewrite E; apply rd_mid; reflexivity|exact H0|].
    replace (Z.of_nat (length pre) + 1) with (Z.of_nat (length (pre ++ [x]))) by (rewrite app_length; cbn [length]; lia).
    apply IH; [rewrite <- app_assoc; exact E|exact H1]. }
  exact (G data [] s eq_refl Hs).
Qed.
Lemma zeros_length : forall fuel i e d, length (sha_zeros fuel i e d) = length d.
Proof. induction fuel as [|fuel IH]; intros i e d; [reflexivity|]. cbn [sha_zeros]. destruct (i <? e); [rewrite IH, put_length|]; reflexivity. Qed.
Lemma c_zeros_ok : forall n fuel i e d, n = Z.to_nat (e - i) -> (n <= fuel)%nat -> 0 <= i -> e <= Z.of_nat (length d) ->
  for_up n i (fun i d => wr d i 0) d = Some (sha_zeros fuel i e d).
Proof.
  induction n as [|n IH]; intros fuel i e d En Hf Hi He.
  - destruct fuel; [reflexivity|]. cbn [for_up sha_zeros]. destruct (Z.ltb_spec i e); [lia|reflexivity].
  - destruct fuel as [|fuel]; [lia|]. cbn [for_up sha_zeros]. destruct (Z.ltb_spec i e); [|lia]. rewrite wr_put by lia. apply IH; rewrite ?put_length; lia.
Qed.
Lemma c_memset_ok d : length d = 64%nat -> wr_range d 0 (repeat 0 56) = Some (sha_zeros 64 0 56 d).
Proof.
  intros L. rewrite <- (c_zeros_ok 56 64 0 56 d eq_refl) by lia. rewrite <- (firstn_skipn 56 d). set (a := firstn 56 d). set (b := skipn 56 d).
  assert (La : length a = 56%nat) by (unfold a; rewrite firstn_length; lia).
  etransitivity; [apply (wr_range_mid [] a (repeat 0 56) b 0 eq_refl); rewrite repeat_length; lia|]. symmetry.
  exact (for_up_fill (fun _ => 0) (fun i d => wr d i 0) 0 56 0 [] a b eq_refl La (fun _ _ _ => eq_refl)).
Qed.
Lemma c_pad_ok m st s : length m = 64%nat -> length st = 8%nat -> ok_sha s -> c_pad m st s = Some (sha_pad s) /\ length (m_state (sha_pad s)) = 8%nat.
Proof.
  intros Lm Lst (Ld & Hb & Ls). split; [|reflexivity]. unfold c_pad, sha_pad. cbv zeta. rewrite wr_put by lia. set (e := if m_blocklen s <? 56 then 56 else 64).
  assert (He : m_blocklen s + 1 <= e <= 64) by (unfold e; destruct (Z.ltb_spec (m_blocklen s) 56); lia).
  rewrite (c_zeros_ok _ 64 (m_blocklen s + 1) e _ eq_refl) by (rewrite ?put_length; lia).
  assert (PB : exists d' bl sc, (if 56 <=? m_blocklen s then
          s0 <- c_transform m st (mkSha (sha_zeros 64 (m_blocklen s + 1) e (put (Z.to_nat (m_blocklen s)) 128 (m_data s))) (m_blocklen s) (m_bitlen s) (m_state s)) ;;
          d <- wr_range (m_data s0) 0 (repeat 0 56) ;; Some (mkSha d (m_blocklen s0) (m_bitlen s0) (m_state s0))
        else Some (mkSha (sha_zeros 64 (m_blocklen s + 1) e (put (Z.to_nat (m_blocklen s)) 128 (m_data s))) (m_blocklen s) (m_bitlen s) (m_state s)))
     = Some (mkSha d' (m_blocklen s) bl sc) /\ sha_pad_bit s = mkSha d' (m_blocklen s) bl sc /\ length d' = 64%nat /\ length sc = 8%nat).
  { unfold sha_pad_bit. cbv zeta. cbn [m_blocklen m_data m_bitlen m_state]. fold e. set (d1 := sha_zeros 64 (m_blocklen s + 1) e (put (Z.to_nat (m_blocklen s)) 128 (m_data s))).
    assert (L1 : length d1 = 64%nat) by (unfold d1; rewrite zeros_length, put_length; exact Ld).
    destruct (56 <=? m_blocklen s).
    - rewrite c_transform_ok; [|exact Lm|exact Lst|exact L1|exact Ls].
      change (m_data (sha_transform (mkSha d1 (m_blocklen s) (m_bitlen s) (m_state s)))) with d1. rewrite c_memset_ok by exact L1.
      eexists. eexists. eexists. split; [reflexivity|]. split; [reflexivity|]. split; [rewrite zeros_length; exact L1|reflexivity].
    - eexists. eexists. eexists. split; [reflexivity|]. split; [reflexivity|]. split; [exact L1|exact Ls]. }
  destruct PB as (d' & bl & sc & E1 & E2 & L1 & L2). cbn [m_blocklen m_data m_bitlen m_state] in E1 |- *. rewrite E1, E2. cbn [m_blocklen m_data m_bitlen m_state].
  set (v := u64 (bl + m_blocklen s * 8)). unfold sha_put_len.
  rewrite (wr_put d') by lia. change (Z.to_nat 63) with 63%nat.
  rewrite wr_put by (rewrite !put_length; lia). change (Z.to_nat 62) with 62%nat. rewrite wr_put by (rewrite !put_length; lia). change (Z.to_nat 61) with 61%nat.
  rewrite wr_put by (rewrite !put_length; lia). change (Z.to_nat 60) with 60%nat. rewrite wr_put by (rewrite !put_length; lia). change (Z.to_nat 59) with 59%nat.
  rewrite wr_put by (rewrite !put_length; lia). change (Z.to_nat 58) with 58%nat. rewrite wr_put by (rewrite !put_length; lia). change (Z.to_nat 57) with 57%nat.
  rewrite wr_put by (rewrite !put_length; lia). change (Z.to_nat 56) with 56%nat.
  apply c_transform_ok; [exact Lm|exact Lst|cbn [m_data]; rewrite !put_length; exact L1|exact L2].
Qed.
Lemma c_revert_ok s h : length (m_state s) = 8%nat -> length h = 32%nat -> c_revert s h = Some (sha_revert s).
Proof.
  intros Ls Lh. unfold c_revert, sha_revert. destruct (list8 _ Ls) as (a & b & c & d & e & f & g & hh & ->).
  do 32 (destruct h as [|? h]; [discriminate Lh|]). destruct h; [|discriminate Lh]. reflexivity.
Qed.
Lemma c_digest_ok m st s pre w post off : length m = 64%nat -> length st = 8%nat -> ok_sha s -> off = Z.of_nat (length pre) -> length w = 32%nat ->
  c_digest m st s (pre ++ w ++ post) off = Some (pre ++ sha_digest s ++ post).
Proof.
  intros Lm Lst Hs Ho Lw. unfold c_digest, sha_digest. destruct (c_pad_ok m st s Lm Lst Hs) as [-> L8]. rewrite (rd_range_mid pre w post off 32 Ho) by lia.
  rewrite c_revert_ok by assumption. apply wr_range_mid; [exact Ho|]. rewrite Lw. reflexivity.
Qed.
Definition ok_junk (u : junk) : Prop := length (u_m u) = 64%nat /\ length (u_st u) = 8%nat /\ length (u_d0 u) = 64%nat /\ bytes (u_d0 u).
Definition part_is (p : list Z * Z * Z) (c : list Z) : Prop := rd_range (fst (fst p)) (snd (fst p)) (snd p) = Some c.
Lemma H_ok u parts chunks pre w post off : ok_junk u -> Forall2 part_is parts chunks -> Forall bytes chunks -> off = Z.of_nat (length pre) -> length w = 32%nat ->
  H u parts (pre ++ w ++ post) off = Some (pre ++ sha256 chunks ++ post).
Proof.
  intros (Lm & Lst & Ld & Bd) F B Ho Lw. unfold H, c_sha.
  assert (G : forall parts chunks s, Forall2 part_is parts chunks -> ok_sha s ->
    fold_left (fun s p => s <- s ;; data <- rd_range (fst (fst p)) (snd (fst p)) (snd p) ;; c_update (u_m u) (u_st u) s data) parts (Some s) = Some (fold_left sha_update chunks s) /\ ok_sha (fold_left sha_update chunks s)).
  { clear - Lm Lst. induction parts as [|p parts IH]; intros chunks s F Hs; inversion F as [|p' c ps cs Hp F']; subst; [split; [reflexivity|exact Hs]|].
    cbn [fold_left]. unfold part_is in Hp. rewrite Hp. destruct (c_update_ok _ _ Lm Lst c s Hs) as [-> H1]. apply IH; assumption. }
  destruct (G parts chunks (sha_init (u_d0 u)) F) as [-> Hs].
  { split; [exact Ld|]. split; [cbn [sha_init m_blocklen]; lia|reflexivity]. }
  rewrite (c_digest_ok _ _ _ pre w post off Lm Lst Hs Ho Lw). fold (sha256_from (u_d0 u) chunks). unfold sha256.
  rewrite (sha256_from_ok (u_d0 u) chunks Bd Ld B), (sha256_from_ok (repeat 0 64) chunks (bytes_repeat0 64) (repeat_length _ _) B). reflexivity.
Qed.

(** ** HMAC *)
Lemma sha256_bytes chunks : Forall bytes chunks -> bytes (sha256 chunks) /\ length (sha256 chunks) = 32%nat.
Proof. intros B. unfold sha256. rewrite sha256_from_ok by (assumption || apply bytes_repeat0 || apply repeat_length). split; [apply SHA256_bytes|apply SHA256_length]. Qed.
Lemma bytes_map_xor x k : byte x -> bytes k -> bytes (map (fun y => Z.lxor x y) k).
Proof. intros Bx Bk. unfold bytes in *. rewrite Forall_map. apply (Forall_impl _ (fun y By => xor_byte x y Bx By) Bk). Qed.
Lemma rd_range_length {A} (l c : list A) off n : rd_range l off n = Some c -> 0 <= n /\ Z.of_nat (length c) = n.
Proof.
  unfold rd_range. destruct (Z.leb_spec 0 off); [|discriminate]. destruct (Z.leb_spec 0 n); [|discriminate]. destruct (Z.leb_spec (off + n) (Z.of_nat (length l))); [|discriminate].
  cbn [andb]. intros E. injection E as <-. split; [lia|]. rewrite firstn_length, skipn_length. lia.
Qed.
Lemma pads_ok (f g : Z -> Z) _key body : (forall i oi, body i oi = (k <- rd _key i ;; o <- wr (fst oi) i (f k) ;; p <- wr (snd oi) i (g k) ;; Some (o, p))) ->
  forall (kw kp op ow opost ip iw ipost : list Z), _key = kp ++ kw -> length op = length kp -> length ip = length kp -> length ow = length kw -> length iw = length kw ->
  for_up (length kw) (Z.of_nat (length kp)) body (op ++ ow ++ opost, ip ++ iw ++ ipost) = Some (op ++ map f kw ++ opost, ip ++ map g kw ++ ipost).
Proof.
  intros Hb. induction kw as [|k kw IH]; intros kp op ow opost ip iw ipost Ek Lo Li Low Liw; destruct ow as [|ox ow]; destruct iw as [|ix iw]; try discriminate; [reflexivity|].
  cbn [length for_up map app]. rewrite Hb. rewrite Ek, rd_mid by reflexivity. cbn [fst snd]. rewrite !wr_mid by lia.
  replace (Z.of_nat (length kp) + 1) with (Z.of_nat (length (kp ++ [k]))) by (rewrite app_length; cbn [length]; lia).
  pose proof (IH (kp ++ [k]) (op ++ [f k]) ow opost (ip ++ [g k]) iw ipost) as G. rewrite <- !app_assoc in G. cbn [app] in G. cbn [length] in *. apply G; rewrite ?app_length; cbn [length]; lia || exact Ek.
Qed.
Definition ok_hmac (opad ipad _key mac : list Z) (in_len : Z) : Prop :=
  length opad = 96%nat /\ Z.of_nat (length ipad) = 64 + in_len /\ length _key = 64%nat /\ length mac = 32%nat.
Lemma app_nil3 (w : list Z) : w = [] ++ w ++ []. Proof. rewrite app_nil_r. reflexivity. Qed.
Lemma c_hmac_ok u opad ipad _key mac inp in_len key key_len input k : ok_junk u -> ok_hmac opad ipad _key mac in_len ->
  rd_range inp 0 in_len = Some input -> rd_range key 0 key_len = Some k -> bytes input -> bytes k ->
  c_hmac u opad ipad _key mac inp in_len key key_len = Some (hkdf256_hmac input k).
Proof.
  intros Hu (Lo & Li & Lk & Lm) Ri Rk Bi Bk. unfold c_hmac, hkdf256_hmac. destruct (rd_range_length _ _ _ _ Ri) as [Hil Ail]. destruct (rd_range_length _ _ _ _ Rk) as [Hkl Akl]. rewrite Akl.
  assert (STEP : exists _key' key' kl, (if 64 <? key_len then k <- H u [(key, 0, key_len)] _key 0 ;; Some (k, k, 32) else Some (_key, key, key_len)) = Some (_key', key', kl) /\
     length _key' = 64%nat /\ rd_range key' 0 kl = Some (if 64 <? key_len then sha256 [k] else k) /\ kl <= 64 /\ bytes (if 64 <? key_len then sha256 [k] else k)).
  { destruct (Z.ltb_spec 64 key_len) as [C|C].
    - destruct (sha256_bytes [k]) as [B L]; [repeat constructor; exact Bk|].
      rewrite <- (firstn_skipn 32 _key). pose proof (H_ok u [(key, 0, key_len)] [k] [] (firstn 32 _key) (skipn 32 _key) 0 Hu) as E. cbn [app] in E. rewrite E; clear E.
      + eexists. eexists. eexists. split; [reflexivity|]. split; [rewrite app_length, L, skipn_length; lia|]. split; [apply (rd_range_mid [] (sha256 [k])); [reflexivity|rewrite L; reflexivity]|]. split; [lia|exact B].
      + repeat constructor. exact Rk.
      + repeat constructor. exact Bk.
      + reflexivity.
      + rewrite firstn_length. lia.
    - eexists. eexists. eexists. split; [reflexivity|]. split; [exact Lk|]. split; [exact Rk|]. split; [lia|exact Bk]. }
  destruct STEP as (_key' & key' & kl & -> & Lk' & Rk' & Hkl' & Bk'). cbn [fst snd]. cbv zeta. clear Rk Bk Akl Hkl Lk. set (k' := if 64 <? key_len then sha256 [k] else k) in *. clearbody k'. clear k key_len.
  destruct (rd_range_length _ _ _ _ Rk') as [H0 A0]. rewrite Rk'. rewrite wr_range_pre by lia. set (rest := skipn (length k') _key').
  assert (Lr : length rest = (64 - length k')%nat) by (unfold rest; rewrite skipn_length; lia).
  pose proof (wr_range_mid k' rest (repeat 0 (Z.to_nat (64 - kl))) [] kl) as E. rewrite !app_nil_r in E. rewrite E; clear E; [|lia|rewrite repeat_length, Lr; lia].
  replace (Z.to_nat (64 - kl)) with (64 - length k')%nat by lia. set (kk := k' ++ repeat 0 (64 - length k')).
  assert (Lkk : length kk = 64%nat) by (unfold kk; rewrite app_length, repeat_length; lia). assert (Bkk : bytes kk) by (unfold kk; apply bytes_app; split; [exact Bk'|apply bytes_repeat0]).
  clearbody kk. clear - Hu Lo Li Lm Ri Bi Hil Ail Lkk Bkk.
  rewrite <- (firstn_skipn 64 opad), <- (firstn_skipn 64 ipad).
  assert (Lo1 : length (firstn 64 opad) = 64%nat) by (rewrite firstn_length; lia). assert (Lo2 : length (skipn 64 opad) = 32%nat) by (rewrite skipn_length; lia).
  assert (Li1 : length (firstn 64 ipad) = 64%nat) by (rewrite firstn_length; lia). assert (Li2 : Z.of_nat (length (skipn 64 ipad)) = in_len) by (rewrite skipn_length; lia).
  generalize dependent (firstn 64 opad). generalize dependent (skipn 64 opad). generalize dependent (firstn 64 ipad). generalize dependent (skipn 64 ipad). intros i2 Li2 i1 Li1 o2 Lo2 o1 Lo1.
  match goal with |- context [for_up 64 0 ?b _] => pose proof (pads_ok (fun k => Z.lxor 0x5C k) (fun k => Z.lxor 0x36 k) kk b (fun _ _ => eq_refl) kk [] [] o1 o2 [] i1 i2 eq_refl eq_refl eq_refl ltac:(lia) ltac:(lia)) as E end.
  rewrite Lkk in E. cbn [app length] in E. change (Z.of_nat 0) with 0 in E. rewrite E; clear E. cbn [fst snd]. rewrite Ri.
  set (P := map (fun x => Z.lxor 92 x) kk). set (I := map (fun x => Z.lxor 54 x) kk).
  assert (LP : length P = 64%nat) by (unfold P; rewrite map_length; exact Lkk). assert (LI : length I = 64%nat) by (unfold I; rewrite map_length; exact Lkk).
  assert (BP : bytes P) by (apply bytes_map_xor; [unfold byte; lia|exact Bkk]). assert (BI : bytes I) by (apply bytes_map_xor; [unfold byte; lia|exact Bkk]). clearbody P I.
  pose proof (wr_range_mid I i2 input [] 64) as E. rewrite !app_nil_r in E. rewrite E; clear E; [|lia|lia].
  assert (BII : Forall bytes [I ++ input]) by (repeat constructor; apply bytes_app; split; assumption). destruct (sha256_bytes _ BII) as [BS LS].
  pose proof (H_ok u [(I ++ input, 0, 64 + in_len)] [I ++ input] P o2 [] 64 Hu) as E. rewrite !app_nil_r in E. rewrite E; clear E.
  2:{ repeat constructor. apply rd_range_all. cbn [fst snd]. rewrite app_length. lia. } 2: exact BII. 2: lia. 2: exact Lo2.
  pose proof (H_ok u [(P ++ sha256 [I ++ input], 0, 64 + 32)] [P ++ sha256 [I ++ input]] [] mac [] 0 Hu) as E. rewrite !app_nil_r in E. cbn [app] in E. apply E.
  - repeat constructor. apply rd_range_all. cbn [fst snd]. rewrite app_length, LS. lia.
  - repeat constructor. apply bytes_app; split; assumption.
  - reflexivity.
  - exact Lm.
Qed.

(** ** HKDF-Expand *)
Definition ok_pads (opad _key : list Z) (ip : Z -> list Z) : Prop := length opad = 96%nat /\ length _key = 64%nat /\ (forall n, 0 <= n -> Z.of_nat (length (ip n)) = 64 + n).
Lemma hmac_bytes input k : bytes input -> bytes k -> bytes (hkdf256_hmac input k) /\ length (hkdf256_hmac input k) = 32%nat.
Proof. intros Bi Bk. rewrite hmac_ok by assumption. split; [apply HMAC_bytes|apply HMAC_length]. Qed.
Lemma u8_byte i : byte (u8 i). Proof. unfold u8, byte. apply Z.mod_pos_bound. lia. Qed.
Lemma c_expand_loop_ok u opad ip _key L prk info il inf : ok_junk u -> ok_pads opad _key ip -> (32 <= length prk)%nat -> bytes (firstn 32 prk) -> rd_range info 0 il = Some inf -> bytes inf ->
  forall n i T h1 h2 out w, length T = 32%nat -> (i <> 1 -> bytes T) -> Z.of_nat (length h1) = il + 1 -> Z.of_nat (length h2) = 32 + il + 1 ->
  Z.of_nat (length out) + Z.of_nat (length w) = L ->
  exists w', c_expand_loop u opad ip _key n i L prk info il T h1 h2 (out ++ w) (Z.of_nat (length out)) = Some (fst (expand_loop n i L (firstn 32 prk) inf T out), snd (expand_loop n i L (firstn 32 prk) inf T out) ++ w') /\
    Z.of_nat (length (snd (expand_loop n i L (firstn 32 prk) inf T out) ++ w')) = L.
Proof.
  intros Hu (Lo & Lk & Lip) Lp Bp Ri Bi. destruct (rd_range_length _ _ _ _ Ri) as [Hil Ail].
  assert (Rp : rd_range prk 0 32 = Some (firstn 32 prk)).
  { rewrite <- (firstn_skipn 32 prk) at 1. apply (rd_range_mid [] (firstn 32 prk)); [reflexivity|rewrite firstn_length; lia]. }
  induction n as [|n IH]; intros i T h1 h2 out w LT BT L1 L2 LL.
  - exists w. cbn [c_expand_loop expand_loop]. destruct (Z.of_nat (length out) =? L); (split; [reflexivity|]; cbn [snd]; rewrite app_length; lia).
  - cbn [c_expand_loop expand_loop]. rewrite Ri.
    assert (ST : exists T' h1' h2', (if i =? 1 then h1 <- wr_range h1 0 inf ;; h1 <- wr h1 il (u8 i) ;; T <- c_hmac u opad (ip (il + 1)) _key T h1 (il + 1) prk 32 ;; Some (T, h1, h2)
        else t <- rd_range T 0 32 ;; h2 <- wr_range h2 0 t ;; h2 <- wr_range h2 32 inf ;; h2 <- wr h2 (32 + il) (u8 i) ;; T <- c_hmac u opad (ip (32 + il + 1)) _key T h2 (32 + il + 1) prk 32 ;; Some (T, h1, h2))
        = Some (T', h1', h2') /\ T' = (if i =? 1 then hkdf256_hmac (inf ++ [u8 i]) (firstn 32 prk) else hkdf256_hmac (T ++ inf ++ [u8 i]) (firstn 32 prk)) /\ length T' = 32%nat /\ bytes T' /\ length h1' = length h1 /\ length h2' = length h2).
    { assert (BI1 : bytes (inf ++ [u8 i])) by (apply bytes_app; split; [exact Bi|repeat constructor; apply u8_byte]).
      destruct (Z.eqb_spec i 1) as [E|E].
      - rewrite wr_range_pre by lia. set (r := skipn (length inf) h1). assert (Lr : length r = 1%nat) by (unfold r; rewrite skipn_length; lia).
        destruct r as [|x [|]]; try discriminate Lr. rewrite wr_mid by lia.
        destruct (hmac_bytes (inf ++ [u8 i]) (firstn 32 prk) BI1 Bp) as [BH LH].
        rewrite (c_hmac_ok u opad (ip (il + 1)) _key T (inf ++ [u8 i]) (il + 1) prk 32 (inf ++ [u8 i]) (firstn 32 prk) Hu).
        + eexists. eexists. eexists. split; [reflexivity|]. split; [reflexivity|]. split; [exact LH|]. split; [exact BH|]. split; [rewrite app_length; cbn [length]; lia|reflexivity].
        + split; [exact Lo|]. split; [apply Lip; lia|]. split; [exact Lk|exact LT].
        + apply rd_range_all. rewrite app_length. cbn [length]. lia.
        + exact Rp.
        + exact BI1.
        + exact Bp.
      - rewrite rd_range_all by (rewrite LT; reflexivity). rewrite wr_range_pre by lia. set (r := skipn (length T) h2). assert (Lr : Z.of_nat (length r) = il + 1) by (unfold r; rewrite skipn_length; lia).
        rewrite <- (firstn_skipn (length inf) r). rewrite (wr_range_mid T (firstn (length inf) r) inf) by (rewrite ?LT, ?firstn_length; lia).
        set (r' := skipn (length inf) r). assert (Lr' : length r' = 1%nat) by (unfold r'; rewrite skipn_length; lia). destruct r' as [|x [|]]; try discriminate Lr'.
        rewrite (app_assoc T), wr_mid by (rewrite app_length; lia). rewrite <- app_assoc.
        assert (BI2 : bytes (T ++ inf ++ [u8 i])) by (apply bytes_app; split; [exact (BT E)|exact BI1]).
        destruct (hmac_bytes (T ++ inf ++ [u8 i]) (firstn 32 prk) BI2 Bp) as [BH LH].
        rewrite (c_hmac_ok u opad (ip (32 + il + 1)) _key T (T ++ inf ++ [u8 i]) (32 + il + 1) prk 32 (T ++ inf ++ [u8 i]) (firstn 32 prk) Hu).
        + eexists. eexists. eexists. split; [reflexivity|]. split; [reflexivity|]. split; [exact LH|]. split; [exact BH|]. split; [reflexivity|rewrite !app_length; cbn [length]; lia].
        + split; [exact Lo|]. split; [apply Lip; lia|]. split; [exact Lk|exact LT].
        + apply rd_range_all. rewrite !app_length. cbn [length]. lia.
        + exact Rp.
        + exact BI2.
        + exact Bp. }
    destruct ST as (T' & h1' & h2' & -> & <- & LT' & BT' & L1' & L2'). cbv zeta.
    set (tw := if 32 <? L - Z.of_nat (length out) then 32 else L - Z.of_nat (length out)).
    destruct ((tw <=? 0) || (32 <? tw)) eqn:EB; [exists w; split; [reflexivity|]; cbn [snd]; rewrite app_length; lia|]. apply orb_false_elim in EB. destruct EB as [E1 E2]. apply Z.leb_gt in E1. apply Z.ltb_ge in E2.
    assert (Htw : tw <= Z.of_nat (length w)) by (unfold tw; destruct (Z.ltb_spec 32 (L - Z.of_nat (length out))); lia). clearbody tw.
    assert (RT : rd_range T' 0 tw = Some (firstn (Z.to_nat tw) T')).
    { rewrite <- (firstn_skipn (Z.to_nat tw) T') at 1. apply (rd_range_mid [] (firstn (Z.to_nat tw) T')); [reflexivity|rewrite firstn_length; lia]. }
    rewrite RT. rewrite <- (firstn_skipn (Z.to_nat tw) w). rewrite wr_range_mid by (rewrite ?firstn_length; lia). rewrite app_assoc.
    replace (Z.of_nat (length out) + tw) with (Z.of_nat (length (out ++ firstn (Z.to_nat tw) T'))) by (rewrite app_length, firstn_length; lia).
    apply IH; [exact LT'|intros _; exact BT'|lia|lia|]. rewrite app_length, firstn_length, skipn_length. lia.
Qed.
Lemma c_expand_ok u opad ip _key T h1 h2 okm prk info il inf : ok_junk u -> ok_pads opad _key ip -> (32 <= length prk)%nat -> bytes (firstn 32 prk) -> rd_range info 0 il = Some inf -> bytes inf ->
  length T = 32%nat -> Z.of_nat (length h1) = il + 1 -> Z.of_nat (length h2) = 32 + il + 1 ->
  exists w', c_expand u opad ip _key T h1 h2 okm prk info il = Some (fst (hkdf256_expand (Z.of_nat (length okm)) prk inf), snd (hkdf256_expand (Z.of_nat (length okm)) prk inf) ++ w') /\
    length (snd (hkdf256_expand (Z.of_nat (length okm)) prk inf) ++ w') = length okm.
Proof.
  intros Hu Hp Lp Bp Ri Bi LT L1 L2. unfold c_expand, hkdf256_expand. cbv zeta. destruct (255 * 32 <? _); [exists okm; split; reflexivity|].
  destruct (_ || _); [exists okm; split; reflexivity|]. assert (ET : forall n L p i, expand_loop n 1 L p i [] [] = expand_loop n 1 L p i T []) by (intros [|n] L p i; [reflexivity|]; cbn [expand_loop]; change (1 =? 1) with true; cbv iota; reflexivity). rewrite ET.
  destruct (c_expand_loop_ok u opad ip _key (Z.of_nat (length okm)) prk info il inf Hu Hp Lp Bp Ri Bi (Z.to_nat ((Z.of_nat (length okm) + 31) / 32)) 1 T h1 h2 [] okm LT) as (w' & E & LW); [congruence|exact L1|exact L2|reflexivity|].
  exists w'. split; [exact E|]. apply Nat2Z.inj. exact LW.
Qed.

(** ** xmd *)
Lemma xor_loop_ok b0 : (32 <= length b0)%nat -> forall n k pre w post, length pre = k -> length w = n -> (k + n <= 32)%nat ->
  for_up n (Z.of_nat k) (fun j b => x <- rd b0 j ;; y <- rd b j ;; wr b j (Z.lxor x y)) (pre ++ w ++ post) = Some (pre ++ map (fun j => Z.lxor (nth (k + j) b0 0) (nth j w 0)) (seq 0 n) ++ post).
Proof.
  intros L0. induction n as [|n IH]; intros k pre w post Lp Lw Hk; destruct w as [|y w]; try discriminate; [reflexivity|].
  cbn [for_up seq map app]. rewrite (rd_nth b0 _ 0) by lia. rewrite rd_mid by lia. rewrite wr_mid by lia. replace (Z.of_nat k + 1) with (Z.of_nat (S k)) by lia. rewrite Nat2Z.id, Nat.add_0_r. cbn [nth].
  match goal with |- for_up _ _ _ (pre ++ ?v :: w ++ post) = _ => change (pre ++ v :: w ++ post) with (pre ++ [v] ++ w ++ post); rewrite app_assoc end.
  rewrite IH; [|rewrite app_length; cbn [length]; lia|cbn [length] in Lw; lia|lia]. rewrite <- app_assoc. cbn [app]. rewrite <- seq_shift, map_map. do 4 f_equal.
  apply map_ext. intros j. cbn [nth]. rewrite Nat.add_succ_r. reflexivity.
Qed.
Lemma bytes_nth l i : bytes l -> byte (nth i l 0).
Proof. intros B. destruct (Nat.lt_ge_cases i (length l)) as [H|H]; [unfold bytes in B; rewrite Forall_forall in B; apply B; apply nth_In; exact H|]. rewrite nth_overflow by exact H. unfold byte; lia. Qed.
Lemma c_xmd_loop_ok u buf_len b0 dst dst_len d l : ok_junk u -> length b0 = 32%nat -> bytes b0 -> rd_range dst 0 dst_len = Some d -> bytes d -> (exists a b c, l = [a; b; c; u8 dst_len]) -> 0 <= buf_len ->
  forall n i bi x out w, 1 <= i -> length bi = 32%nat -> bytes bi -> Z.of_nat (length out) = Z.min (32 * (i - 1)) buf_len -> Z.of_nat (length out) + Z.of_nat (length w) = buf_len ->
  Z.of_nat n + i - 1 = (buf_len + 31) / 32 ->
  exists b, for_up n i (c_xmd_step u buf_len b0 dst dst_len l) (out ++ w, bi ++ [x]) = Some (xmd_loop n i buf_len b0 bi d (u8 dst_len) out, b).
Proof.
  intros Hu L0 B0 Rd Bd (la & lb & lc & El) Hbl. subst l. induction n as [|n IH]; intros i bi x out w Hi Lb Bb Lo LL Hn.
  - exists (bi ++ [x]). cbn [for_up xmd_loop]. assert (w = []) as ->. { apply length_zero_iff_nil. pose proof (Z.div_mod (buf_len + 31) 32) as DM. pose proof (Z.mod_pos_bound (buf_len + 31) 32). lia. }
    rewrite app_nil_r. reflexivity.
  - cbn [for_up xmd_loop]. unfold c_xmd_step at 1. cbn [fst snd].
    pose proof (xor_loop_ok b0 ltac:(lia) 32 0 [] bi [x] eq_refl Lb ltac:(lia)) as E. cbn [app] in E. change (Z.of_nat 0) with 0 in E. rewrite E; clear E. cbn [Nat.add].
    set (X := map (fun j => Z.lxor (nth j b0 0) (nth j bi 0)) (seq 0 32)). assert (LX : length X = 32%nat) by (unfold X; rewrite map_length, seq_length; reflexivity).
    assert (BX : bytes X). { unfold X, bytes. rewrite Forall_map, Forall_forall. intros j _. apply xor_byte; apply bytes_nth; assumption. }
    clearbody X. rewrite wr_mid by (rewrite LX; reflexivity).
    assert (BC : Forall bytes [X ++ [u8 i]; d; [u8 dst_len]]). { repeat constructor; try exact Bd; try apply u8_byte. apply bytes_app; split; [exact BX|repeat constructor; apply u8_byte]. }
    pose proof (H_ok u [(X ++ [u8 i], 0, 33); (dst, 0, dst_len); ([la; lb; lc; u8 dst_len], 3, 1)] [X ++ [u8 i]; d; [u8 dst_len]] [] X [u8 i] 0 Hu) as E. cbn [app] in E. rewrite E; clear E.
    2:{ constructor; [apply rd_range_all; rewrite app_length, LX; reflexivity|]. constructor; [exact Rd|]. constructor; [reflexivity|constructor]. } 2: exact BC. 2: reflexivity. 2: exact LX.
    destruct (sha256_bytes _ BC) as [BS LS]. set (S := sha256 [X ++ [u8 i]; d; [u8 dst_len]]) in *. clearbody S. cbv zeta.
    set (cl := 32 + (if buf_len - i * 32 <? 0 then buf_len - i * 32 else 0)).
    assert (Hlt : 32 * (i - 1) < buf_len). { pose proof (Z.div_mod (buf_len + 31) 32) as DM. pose proof (Z.mod_pos_bound (buf_len + 31) 32). lia. }
    assert (Hcl : 0 <= cl <= 32 /\ cl <= Z.of_nat (length w) /\ Z.of_nat (length out) + cl = Z.min (32 * i) buf_len). { unfold cl. destruct (Z.ltb_spec (buf_len - i * 32) 0); lia. } clearbody cl.
    assert (RS : rd_range (S ++ [u8 i]) 0 cl = Some (firstn (Z.to_nat cl) S)).
    { rewrite <- (firstn_skipn (Z.to_nat cl) S) at 1. rewrite <- app_assoc. apply (rd_range_mid [] (firstn (Z.to_nat cl) S)); [reflexivity|rewrite firstn_length; lia]. }
    rewrite RS. rewrite <- (firstn_skipn (Z.to_nat cl) w). rewrite wr_range_mid by (rewrite ?firstn_length; lia). rewrite app_assoc.
    apply IH; [lia|exact LS|exact BS|rewrite app_length, firstn_length; lia|rewrite app_length, firstn_length, skipn_length; lia|lia].
Qed.
Lemma rd_range_read l n : rd_range l 0 n = read_bytes l n.
Proof. unfold rd_range, read_bytes. cbn [Z.leb Z.compare andb Z.to_nat skipn]. rewrite Z.add_0_l. reflexivity. Qed.
Lemma c_xmd_ok u b_0 buf inp in_len m dst dst_len d : ok_junk u -> length b_0 = 32%nat -> Z.of_nat (length buf) < 2 ^ 31 ->
  rd_range inp 0 in_len = Some m -> bytes m -> rd_range dst 0 dst_len = Some d -> bytes d ->
  exists code out, xmd_sh256 (Z.of_nat (length buf)) inp in_len dst dst_len = Ok (code, out) /\
    c_xmd u b_0 buf inp in_len dst dst_len = Some (code, if code =? 0 then out else buf).
Proof.
  intros Hu L0 Hb Ri Bm Rd Bd. unfold c_xmd, xmd_sh256. cbv zeta. set (bl := Z.of_nat (length buf)) in *. rewrite <- !rd_range_read, Ri, Rd.
  destruct ((bl <? 0) || (255 <? u32 (bl + 31) / 32) || (255 <? dst_len)) eqn:EB; [exists (-1), []; split; reflexivity|].
  assert (U : u32 (bl + 31) = bl + 31) by (unfold u32; apply Z.mod_small; lia). rewrite U in *.
  assert (BC : Forall bytes [repeat 0 64; m; [u8 (Z.shiftr bl 8); Z.land bl 255; 0]; d; [u8 dst_len]]).
  { assert (byte (Z.land bl 255)) by (change 255 with (Z.ones 8); rewrite Z.land_ones by lia; unfold byte; apply Z.mod_pos_bound; lia). repeat (constructor; try assumption; try apply u8_byte; try apply bytes_repeat0; try (unfold byte; lia)). }
  destruct (sha256_bytes _ BC) as [BS LS].
  pose proof (H_ok u [(repeat 0 64, 0, 64); (inp, 0, in_len); ([u8 (Z.shiftr bl 8); Z.land bl 255; 0; u8 dst_len], 0, 3); (dst, 0, dst_len); ([u8 (Z.shiftr bl 8); Z.land bl 255; 0; u8 dst_len], 3, 1)]
     [repeat 0 64; m; [u8 (Z.shiftr bl 8); Z.land bl 255; 0]; d; [u8 dst_len]] [] b_0 [] 0 Hu) as E. cbn [app] in E. rewrite !app_nil_r in E. rewrite E; clear E.
  2:{ constructor; [apply rd_range_all; rewrite repeat_length; reflexivity|]. constructor; [exact Ri|]. constructor; [reflexivity|]. constructor; [exact Rd|]. constructor; [reflexivity|constructor]. } 2: exact BC. 2: reflexivity. 2: exact L0.
  set (S := sha256 [repeat 0 64; m; [u8 (Z.shiftr bl 8); Z.land bl 255; 0]; d; [u8 dst_len]]) in *. clearbody S.
  destruct (c_xmd_loop_ok u bl S dst dst_len d [u8 (Z.shiftr bl 8); Z.land bl 255; 0; u8 dst_len] Hu LS BS Rd Bd ltac:(eexists; eexists; eexists; reflexivity) ltac:(unfold bl; lia) (Z.to_nat ((bl + 31) / 32)) 1 (repeat 0 32) 0 [] buf) as [b E].
  - lia.
  - apply repeat_length.
  - apply bytes_repeat0.
  - cbn [length]. unfold bl. lia.
  - reflexivity.
  - rewrite Z2Nat.id; [lia|]. apply Z.div_pos; unfold bl; lia.
  - change (repeat 0 32 ++ [0]) with (repeat 0 33) in E. cbn [app] in E. rewrite E. eexists. eexists. split; reflexivity.
Qed.
