(** Proofs about key generation, derivation and aggregation. *)
From Coq Require Import ZArith List Bool Lia Permutation.
From Verif Require Import SpecField SpecBytes SpecHash SpecCodec SpecKeys SpecCurve BytesProof.
From Verif Require Import ModelWord ModelScalar ScalarProof ScalarProof2 CarryProof ModelDiv DivProof ModelFp ModelTower ModelCurve ModelCodec ModelSha ModelKdf ModelKeys ShaProof KdfProof.
From Verif Require Import FieldProof TowerProof ModelPrim FpProof FpProof2 TowerRefine AbGroup CurveProof CurveRefine CurveRefine2 CurveInst CurveReps CurveBase CodecProof CodecProof2.
Import ListNotations.
Local Open Scope Z_scope.

Definition key (k : list Z) : Prop := words k /\ length k = 4%nat.
Lemma wordsb_ok x : forallb (fun w => (0 <=? w) && (w <? W)) x = true -> words x.
Proof. intros H. apply Forall_forall. intros w Hw. rewrite forallb_forall in H. specialize (H w Hw). unfold word. lia. Qed.
Lemma Ql_words : words Ql. Proof. apply wordsb_ok. reflexivity. Qed.
Lemma Ql_val : val Ql = order. Proof. reflexivity. Qed.
Lemma reduce_ok k : words k -> (4 <= length k)%nat -> exists r, reduce k = Ok r /\ key r /\ val r = val k mod order.
Proof.
  intros Hk L. destruct (bn_divn_safe_ok k Ql Hk Ql_words) as (q & r & E & Hq & Hr & Lq & Lr & V & Bd).
  - cbn [Ql length]. lia.
  - split; reflexivity.
  - exists r. unfold reduce. rewrite E. cbn [obind snd]. split; [reflexivity|]. split; [split; [exact Hr|exact Lr]|].
    rewrite <- Ql_val. apply (divn_mod k Ql q r); auto.
Qed.
Lemma order_small : order < W ^ 4 /\ 2 * order < W ^ 4 /\ 0 < order. Proof. repeat split; reflexivity. Qed.

(** ** KeyGen *)
Lemma salt_bytes n : bytes (keygen_salt n).
Proof.
  destruct n; [|apply SHA256_bytes]. unfold keygen_salt, keygen_salt0; cbn [Nat.iter].
  repeat (constructor; [unfold byte; lia|]). constructor.
Qed.
Lemma sk_loop_ok ikm : bytes ikm -> forall fuel j,
  (exists m k, (j <= m < j + fuel)%nat /\ keygen_cand ikm m <> 0 /\ (forall i, (j <= i < m)%nat -> keygen_cand ikm i = 0) /\
     sk_loop fuel (ikm ++ [0]) (keygen_salt j) = Ok (Some k) /\ key k /\ val k = keygen_cand ikm m) \/
  ((forall i, (j <= i < j + fuel)%nat -> keygen_cand ikm i = 0) /\ sk_loop fuel (ikm ++ [0]) (keygen_salt j) = Ok None).
Proof.
  intros B. induction fuel as [|fuel IH]; intros j; [right; split; [intros; lia|reflexivity]|].
  cbn [sk_loop].
  rewrite extract_expand_ok; [|apply bytes_app; split; [exact B|repeat constructor; unfold byte; lia]|apply salt_bytes|repeat constructor; unfold byte; lia|lia].
  cbn [snd]. set (okm := HKDF_Expand _ _ _).
  assert (Lo : length okm = 48%nat) by apply HKDF_Expand_length.
  assert (Bo : bytes okm) by apply HKDF_Expand_bytes.
  destruct (reduce_ok (fromBytesBE 6 okm)) as (k & E & K & V).
  { apply fromBytesBE_words; [exact Bo|exact Lo]. }
  { rewrite fromBytesBE_length. lia. }
  rewrite (fromBytesBE_ok 6 okm Bo Lo) in V. 
  assert (Vc : val k = keygen_cand ikm j) by (unfold keygen_cand; change (int_be 2 48) with [0; 48]; exact V).
  rewrite E. cbn [obind].
  rewrite scalar_equal_ok; [|apply K|apply wordsb_ok; reflexivity|apply K].
  change (val [0; 0; 0; 0]) with 0. rewrite Vc.
  destruct (Z.eqb_spec (keygen_cand ikm j) 0) as [Z0|NZ]; cbn [negb].
  - rewrite SHA256_nf by apply salt_bytes. change (SHA256 (keygen_salt j)) with (keygen_salt (S j)).
    destruct (IH (S j)) as [(m & k' & Hm & C1 & C2 & E' & K' & V')|[C E']].
    + left. exists m, k'. split; [lia|]. split; [exact C1|]. split; [|auto]. intros i Hi. destruct (Nat.eq_dec i j) as [->|]; [exact Z0|apply C2; lia].
    + right. split; [|exact E']. intros i Hi. destruct (Nat.eq_dec i j) as [->|]; [exact Z0|apply C; lia].
  - left. exists j, k. split; [lia|]. split; [exact NZ|]. split; [intros; lia|]. split; [reflexivity|]. split; [exact K|exact Vc].
Qed.
Lemma secret_key_ok fuel seed : bytes seed -> (32 <= length seed)%nat ->
  (exists m k, (m < fuel)%nat /\ first_nonzero seed 0 m /\ secret_key fuel seed = Ok (Some k) /\ key k /\ val k = keygen_cand seed m) \/
  ((forall i, (i < fuel)%nat -> keygen_cand seed i = 0) /\ secret_key fuel seed = Ok None).
Proof.
  intros B L. unfold secret_key. rewrite (proj2 (Z.ltb_ge _ 32)) by lia.
  destruct (sk_loop_ok seed B fuel 0) as [(m & k & Hm & C1 & C2 & E & K & V)|[C E]].
  - left. exists m, k. split; [lia|]. split; [split; [lia|split; [exact C1|exact C2]]|]. auto.
  - right. split; [intros i Hi; apply C; lia|exact E].
Qed.

(** ** Lamport *)
Lemma index_bytes_ok i : index_bytes i = int_be 4 i.
Proof.
  unfold index_bytes, int_be. cbn [seq map int_le rev app]. unfold u8. rewrite !Z.shiftr_div_pow2 by (cbn; lia). rewrite !Z.div_div by lia.
  change (i / 2 ^ ((3 - Z.of_nat 3) * 8)) with (i / 1). rewrite Z.div_1_r. reflexivity.
Qed.
Lemma flip_ok l : bytes l -> map (fun b => Z.lxor b 0xff) l = flip_bits l.
Proof.
  intros B. unfold flip_bits. apply map_ext_in. intros x Hx. unfold bytes in B. rewrite Forall_forall in B. specialize (B x Hx). unfold byte in B.
  assert (A : forallb (fun n => Z.lxor (Z.of_nat n) 255 =? 255 - Z.of_nat n) (seq 0 256) = true) by (vm_compute; reflexivity).
  rewrite forallb_forall in A. specialize (A (Z.to_nat x)). rewrite Z2Nat.id in A by lia. apply Z.eqb_eq, A. apply in_seq. lia.
Qed.
Lemma flip_bytes l : bytes l -> bytes (flip_bits l).
Proof. intros B. unfold flip_bits. apply Forall_map. eapply Forall_impl; [|exact B]. unfold byte. intros x Hx. cbv beta. lia. Qed.
Lemma skipn_add {A} (l : list A) : forall a b, skipn a (skipn b l) = skipn (b + a) l.
Proof. induction l as [|x l IH]; intros a b; [rewrite !skipn_nil; reflexivity|]. destruct b; [reflexivity|]. cbn [skipn Nat.add]. apply IH. Qed.
Lemma pieces_map n l : forall k j, pieces k n (skipn (j * n) l) = map (fun i => firstn n (skipn (i * n) l)) (seq j k).
Proof.
  induction k as [|k IH]; intros j; [reflexivity|]. cbn [pieces seq map]. f_equal. rewrite skipn_add. rewrite <- IH. f_equal. f_equal. lia.
Qed.
Lemma pieces_map0 n l k : pieces k n l = map (fun i => firstn n (skipn (i * n) l)) (seq 0 k).
Proof. exact (pieces_map n l k 0). Qed.
Lemma pieces_bytes n : forall k l, bytes l -> Forall bytes (pieces k n l).
Proof.
  induction k as [|k IH]; intros l B; [constructor|]. cbn [pieces]. rewrite <- (firstn_skipn n l) in B. apply bytes_app in B.
  constructor; [tauto|apply IH; tauto].
Qed.
Lemma lamport_half ikm salt : bytes ikm -> bytes salt ->
  flat_map (fun i => sha256 [firstn 32 (skipn (i * 32) (ikm_to_lamport_sk ikm salt))]) (seq 0 255) = concat (map SHA256 (lamport_SK ikm salt)).
Proof.
  intros Bi Bs. unfold ikm_to_lamport_sk. rewrite extract_expand_ok; [|exact Bi|exact Bs|constructor|lia]. cbn [snd].
  unfold lamport_SK. change (Z.to_nat (32 * 255)) with (255 * 32)%nat. set (okm := HKDF_Expand _ _ _).
  assert (Bo : bytes okm) by apply HKDF_Expand_bytes.
  rewrite flat_map_concat_map. f_equal. rewrite pieces_map0, map_map. apply map_ext. intros i. apply SHA256_nf.
  apply bytes_firstn. rewrite <- (firstn_skipn (i * 32) okm) in Bo. apply bytes_app in Bo. tauto.
Qed.
Lemma concat_SHA_bytes l : bytes (concat (map SHA256 l)).
Proof. induction l; [constructor|]. cbn [map concat]. apply bytes_app; split; [apply SHA256_bytes|exact IHl]. Qed.
Lemma lamport_ok sk index : key sk -> parent_sk_to_lamport_pk sk index = lamport_PK (val sk) index.
Proof.
  intros [Hs Ls].
  assert (E1 : toBytesBE sk = int_be 32 (val sk)) by (rewrite toBytesBE_ok, Ls by exact Hs; reflexivity).
  pose proof (index_bytes_ok index) as E2. pose proof (int_be_bytes 4 index) as B2. pose proof (int_be_bytes 32 (val sk)) as B1.
  unfold parent_sk_to_lamport_pk, lamport_PK. rewrite E1, E2. clear E1 E2.
  generalize dependent (int_be 4 index). generalize dependent (int_be 32 (val sk)). intros ikm B1 salt B2.
  rewrite (flip_ok ikm B1), (lamport_half ikm salt B1 B2), (lamport_half (flip_bits ikm) salt (flip_bytes ikm B1) B2).
  apply SHA256_nf. apply bytes_app; split; apply concat_SHA_bytes.
Qed.
Lemma lamport_bytes sk i : bytes (lamport_PK sk i) /\ length (lamport_PK sk i) = 32%nat.
Proof. split; [apply SHA256_bytes|apply SHA256_length]. Qed.

(** ** Secret key aggregation *)

Lemma W_pow64 i : W ^ Z.of_nat i = 2 ^ (64 * Z.of_nat i).
Proof. change W with (2 ^ 64). rewrite <- Z.pow_mul_r by lia. reflexivity. Qed.
Lemma firstn_val s i : words s -> (i <= length s)%nat -> val (firstn i s) = val s mod 2 ^ (64 * Z.of_nat i).
Proof.
  intros Hs Li. rewrite <- (firstn_skipn i s) at 2. rewrite val_app, firstn_length, Nat.min_l by exact Li. rewrite <- W_pow64.
  rewrite (Z.mul_comm (W ^ _)), Z.mod_add by (apply Z.pow_nonzero; [discriminate|lia]). symmetry. apply Z.mod_small.
  pose proof (val_bound (firstn i s) (words_firstn i s Hs)) as Bd. rewrite firstn_length, Nat.min_l in Bd by exact Li. exact Bd.
Qed.
Lemma limb_val s i : words s -> (i < length s)%nat -> limb s i = (val s / 2 ^ (64 * Z.of_nat i)) mod 2 ^ 64.
Proof.
  intros Hs Li. pose proof (limb_firstn s i Li) as E. pose proof (firstn_val s i Hs ltac:(lia)) as E1. pose proof (firstn_val s (S i) Hs ltac:(lia)) as E2.
  rewrite E, val_app, E1 in E2. rewrite firstn_length, Nat.min_l in E2 by lia. cbn [val] in E2. rewrite Z.mul_0_r, Z.add_0_r in E2.
  rewrite W_pow64 in E2. replace (64 * Z.of_nat (S i)) with (64 * Z.of_nat i + 64) in E2 by lia.
  rewrite Z.pow_add_r in E2 by lia.
  assert (0 < 2 ^ (64 * Z.of_nat i)) by (apply Z.pow_pos_nonneg; lia).
  rewrite Z.rem_mul_r in E2 by (try lia; discriminate). nia.
Qed.
Lemma add4_ok a b : key a -> key b -> val a + val b < W ^ 4 -> ~ carry_lost (val a) (val b) ->
  exists c, scalar_add 4 a b = Ok c /\ key c /\ val c = val a + val b.
Proof.
  intros [Ha La] [Hb Lb] S N. destruct (scalar_add_exact 4 a b Ha Hb) as (c & E & Hc & Lc & V).
  - rewrite La, Lb. cbn; lia.
  - rewrite La, Lb. change (Nat.max 4 4) with 4%nat. intros i Hi Hl.
    destruct (Z.lt_ge_cases (val (firstn i a) + val (firstn i b) + 0) (W ^ Z.of_nat i)) as [L|G]; [exact L|exfalso; apply N].
    exists (Z.of_nat i). split; [lia|]. rewrite <- !firstn_val, <- limb_val by (auto; lia). split; [exact Hl|]. rewrite W_pow64 in G. lia.
  - rewrite La, Lb. exact S.
  - exists c. split; [exact E|]. split; [split; assumption|exact V].
Qed.
Definition zsum (l : list Z) : Z := fold_right Z.add 0 l.
Lemma agg_loop_ok : forall sks ret, key ret -> val ret < order -> Forall (fun k => key k /\ val k < order) sks ->
  sum_ok (val ret) (map val sks) ->
  exists k, agg_sk_loop ret sks = Ok k /\ key k /\ val k = (val ret + zsum (map val sks)) mod order.
Proof.
  destruct order_small as (O1 & O2 & O3).
  induction sks as [|sk sks IH]; intros ret Kr Br F S; cbn [agg_sk_loop].
  - exists ret. split; [reflexivity|]. split; [exact Kr|]. cbn [map zsum fold_right]. rewrite Z.add_0_r. symmetry. apply Z.mod_small. split; [apply val_nonneg, Kr|exact Br].
  - apply Forall_cons_iff in F. destruct F as [[Ks Bs] F]. destruct S as [S1 S2].
    destruct (add4_ok ret sk Kr Ks ltac:(clear - O2 Br Bs; lia) S1) as (c & E & Kc & V). rewrite E. cbn [obind].
    destruct (reduce_ok c) as (r & E2 & K2 & V2); [apply Kc|rewrite (proj2 Kc); lia|]. rewrite E2. cbn [obind].
    rewrite V in V2. fold (map val sks) in S2. rewrite <- V2 in S2.
    destruct (IH r K2) as (k & E3 & K3 & V3); [rewrite V2; apply Z.mod_pos_bound; exact O3|exact F|exact S2|].
    exists k. split; [exact E3|]. split; [exact K3|]. rewrite V3, V2. cbn [map zsum fold_right]. rewrite Zplus_mod_idemp_l. f_equal. unfold zsum. ring.
Qed.
Lemma key0 : key [0; 0; 0; 0]. Proof. split; [apply wordsb_ok; reflexivity|reflexivity]. Qed.
Lemma agg_sk_ok sks : Forall (fun k => key k /\ val k < order) sks -> sum_ok 0 (map val sks) ->
  exists k, aggregate_secret_keys sks = Ok k /\ key k /\ val k = zsum (map val sks) mod order.
Proof.
  intros F S. destruct sks as [|sk sks]; [exists [0; 0; 0; 0]; split; [reflexivity|]; split; [exact key0|reflexivity]|].
  exact (agg_loop_ok (sk :: sks) [0; 0; 0; 0] key0 ltac:(reflexivity) F S).
Qed.

(** ** Serialisation *)
Lemma sk_bytes_ok sk : key sk -> sk_to_bytes sk = int_be 32 (val sk).
Proof. intros [Hs Ls]. unfold sk_to_bytes. rewrite toBytesBE_ok, Ls by exact Hs. reflexivity. Qed.
Lemma from_bytes_key b : bytes b -> length b = 32%nat -> key (fromBytesBE 4 b) /\ val (fromBytesBE 4 b) = be_int b.
Proof. intros B L. split; [split; [apply fromBytesBE_words; assumption|apply fromBytesBE_length]|apply fromBytesBE_ok; assumption]. Qed.
Lemma sk_from_mod b : bytes b -> length b = 32%nat -> exists k, sk_from_bytes b true = Ok k /\ key k /\ val k = be_int b mod order.
Proof.
  intros B L. destruct (from_bytes_key b B L) as [[H1 H2] H3]. unfold sk_from_bytes.
  destruct (reduce_ok _ H1 ltac:(rewrite H2; lia)) as (r & E & K & V). exists r. rewrite E, V, H3. auto.
Qed.
Lemma sk_from_nomod b : bytes b -> length b = 32%nat ->
  exists k, sk_from_bytes b false = Ok k /\ key k /\ val k = if be_int b <? order then be_int b else 0.
Proof.
  intros B L. destruct (from_bytes_key b B L) as [[H1 H2] H3]. unfold sk_from_bytes.
  rewrite scalar_cmp_ok by (try exact Ql_words; try exact H1; rewrite H2; reflexivity). rewrite H3, Ql_val.
  unfold Z.ltb. destruct (be_int b ?= order) eqn:C; eexists; (split; [reflexivity|]); (split; [|try exact H3; reflexivity]); try exact key0. split; assumption.
Qed.

(** ** Unhardened derivation *)
Lemma public_key_ok sk : words sk -> rep1g (public_key sk) (zmul (val sk) G1gen).
Proof. intros H. apply rep1g_affine, rep1g_scale; [exact BASE1_rep|exact H]. Qed.
Lemma g1_enc_E pk (P : E1) u v : rep1g pk P -> cpt (b := b1) P = A1 u v -> g1_toCompressed pk = enc_g1 u v.
Proof. intros H E. apply g1_enc; [unfold rep1g in H; rewrite E in H; exact H|rewrite <- E; apply cpt_on]. Qed.
Lemma g2_enc_E pk (P : E2) u v : rep2g pk P -> cpt (b := b2) P = A2 u v -> g2_toCompressed pk = enc_g2 u v.
Proof. intros H E. apply g2_enc; [unfold rep2g in H; rewrite E in H; exact H|rewrite <- E; apply cpt_on]. Qed.
Lemma enc_g1_bytes u v : bytes (enc_g1 u v). Proof. apply int_be_bytes. Qed.
Lemma enc_g2_bytes u v : bytes (enc_g2 u v). Proof. apply bytes_app; split; apply int_be_bytes. Qed.
Lemma nonce_digest e index : bytes e -> exists r, reduce (fromBytesBE 4 (sha256 [e ++ index_bytes index])) = Ok r /\ key r /\ val r = be_int (SHA256 (e ++ int_be 4 index)) mod order.
Proof.
  intros B. rewrite index_bytes_ok, SHA256_nf by (apply bytes_app; split; [exact B|apply int_be_bytes]).
  set (d := SHA256 _). pose proof (SHA256_bytes _ : bytes d) as Bd. pose proof (SHA256_length _ : length d = 32%nat) as Ld. clearbody d.
  destruct (from_bytes_key d Bd Ld) as [[H1 H2] H3].
  destruct (reduce_ok _ H1 ltac:(rewrite H2; lia)) as (r & E & K & V). exists r. rewrite E, V, H3. auto.
Qed.
Lemma child_g1_ok pk (P : E1) u v index : rep1g pk P -> cpt (b := b1) P = A1 u v ->
  exists c, derive_child_g1_unhardened pk index = Ok c /\ rep1g c (gop P (zmul (nonce_g1 u v index) G1gen)).
Proof.
  intros H E. unfold derive_child_g1_unhardened. rewrite (g1_enc_E pk P u v H E).
  destruct (nonce_digest (enc_g1 u v) index (enc_g1_bytes u v)) as (r & Er & [Kr _] & V). rewrite Er. cbn [obind].
  eexists. split; [reflexivity|]. apply rep1g_add; [exact H|]. unfold nonce_g1. rewrite <- V. apply rep1g_scale; [exact BASE1_rep|exact Kr].
Qed.
Lemma child_g2_ok pk (P : E2) u v index : rep2g pk P -> cpt (b := b2) P = A2 u v ->
  exists c, derive_child_g2_unhardened pk index = Ok c /\ rep2g c (gop P (zmul (nonce_g2 u v index) G2gen)).
Proof.
  intros H E. unfold derive_child_g2_unhardened. rewrite (g2_enc_E pk P u v H E).
  destruct (nonce_digest (enc_g2 u v) index (enc_g2_bytes u v)) as (r & Er & [Kr _] & V). rewrite Er. cbn [obind].
  eexists. split; [reflexivity|]. apply rep2g_add; [exact H|]. unfold nonce_g2. rewrite <- V. apply rep2g_scale; [exact BASE2_rep|exact Kr].
Qed.
Lemma carry_lost_0 k : 0 <= k -> ~ carry_lost 0 k.
Proof.
  intros K (i & Hi & _ & G). assert (0 < 2 ^ (64 * i)) by (apply Z.pow_pos_nonneg; lia).
  rewrite Z.mod_0_l in G by lia. pose proof (Z.mod_pos_bound k (2 ^ (64 * i)) ltac:(lia)). lia.
Qed.
Lemma child_sk_ok sk u v index : key sk -> val sk < order -> cpt (b := b1) (zmul (val sk) G1gen) = A1 u v ->
  ~ carry_lost (val sk) (nonce_g1 u v index) ->
  exists c, derive_child_sk_unhardened sk index = Ok c /\ key c /\ val c = (val sk + nonce_g1 u v index) mod order.
Proof.
  intros K Bk E N. unfold derive_child_sk_unhardened. rewrite (g1_enc_E _ _ u v (public_key_ok sk (proj1 K)) E).
  destruct (nonce_digest (enc_g1 u v) index (enc_g1_bytes u v)) as (r & Er & Kr & V).
  unfold sk_from_bytes. rewrite Er. cbn [obind].
  assert (V' : val r = nonce_g1 u v index) by (unfold nonce_g1; exact V). clear V. rename V' into V.
  assert (Bn : nonce_g1 u v index < order) by (apply Z.mod_pos_bound; reflexivity).
  set (nn := nonce_g1 u v index) in *. clearbody nn.
  destruct order_small as (_ & _ & O3).
  assert (V0 : 0 <= val sk) by (apply val_nonneg, K).
  destruct (agg_sk_ok [sk; r]) as (c & Ec & Kc & Vc).
  - constructor; [auto|]. constructor; [|constructor]. split; [exact Kr|]. rewrite V. exact Bn.
  - cbn [map sum_ok]. split; [apply carry_lost_0; exact V0|]. rewrite Z.add_0_l, Z.mod_small, V by (split; assumption). auto.
  - exists c. split; [exact Ec|]. split; [exact Kc|]. rewrite Vc. cbn [map zsum fold_right]. rewrite V, Z.add_0_r. reflexivity.
Qed.

(** ** Aggregation of points *)
Lemma rep1g_000 : rep1g (mkJ 0 0 0) gid.
Proof. destruct rep1g_zero as [(C1 & C2 & C3) J]. split; [split; [exact C1|split; [exact C1|exact C1]]|exact J]. Qed.
Lemma rep2g_000 : rep2g (mkJ fp2_zero fp2_zero fp2_zero) gid.
Proof. destruct rep2g_zero as [(C1 & C2 & C3) J]. split; [split; [exact C1|split; [exact C1|exact C1]]|exact J]. Qed.
Lemma fold_add1 pks (Ps : list E1) : Forall2 rep1g pks Ps -> forall a (A : E1), rep1g a A -> rep1g (fold_left g1_add pks a) (gop A (gsum Ps)).
Proof.
  intros F. induction F as [|p P pks Ps H F IH]; intros a A Ha; cbn [fold_left gsum fold_right]; [rewrite g_id_r; exact Ha|].
  fold (gsum Ps). rewrite <- g_assoc. apply IH, rep1g_add; assumption.
Qed.
Lemma fold_add2 pks (Ps : list E2) : Forall2 rep2g pks Ps -> forall a (A : E2), rep2g a A -> rep2g (fold_left g2_add pks a) (gop A (gsum Ps)).
Proof.
  intros F. induction F as [|p P pks Ps H F IH]; intros a A Ha; cbn [fold_left gsum fold_right]; [rewrite g_id_r; exact Ha|].
  fold (gsum Ps). rewrite <- g_assoc. apply IH, rep2g_add; assumption.
Qed.
Lemma agg_pk_ok pks (Ps : list E1) : Forall2 rep1g pks Ps -> rep1g (aggregate_public_keys pks) (gsum Ps).
Proof. intros F. rewrite <- (g_id _ (gsum Ps)). apply fold_add1; [exact F|exact rep1g_000]. Qed.
Lemma agg_sig_ok pks (Ps : list E2) : Forall2 rep2g pks Ps -> rep2g (aggregate_signatures pks) (gsum Ps).
Proof. intros F. rewrite <- (g_id _ (gsum Ps)). apply fold_add2; [exact F|exact rep2g_000]. Qed.
Lemma gsum_perm {G : abgroup} (l l' : list G) : Permutation l l' -> gsum l = gsum l'.
Proof.
  induction 1 as [|x l l' _ IH|x y l|l l' l'' _ IH1 _ IH2]; cbn [gsum fold_right]; [reflexivity|unfold gsum in IH; rewrite IH; reflexivity|apply g_swap|congruence].
Qed.
Lemma gsum_app {G : abgroup} (l l' : list G) : gsum (l ++ l') = gop (gsum l) (gsum l').
Proof. induction l as [|x l IH]; cbn [app gsum fold_right]; [symmetry; apply g_id|]. unfold gsum in IH |- *. rewrite IH, g_assoc. reflexivity. Qed.
Lemma gsum_zmul {G : abgroup} (g : G) ks : gsum (map (fun k => zmul k g) ks) = zmul (zsum ks) g.
Proof. induction ks as [|k ks IH]; [reflexivity|]. cbn [map gsum fold_right zsum]. fold (zsum ks). rewrite zmul_add, <- IH. reflexivity. Qed.
