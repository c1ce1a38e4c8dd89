(** Hashing to G2 and signature verification: the code against the specification. *)
From Coq Require Import String Ascii ZArith Znumtheory List Bool Lia Permutation.
From Verif Require Import SpecField SpecBytes SpecHash SpecCurve SpecMap SpecSig SpecPairing.
From Verif Require Import ModelWord ModelScalar ModelDiv ModelFp ModelTower ModelCurve ModelCodec ModelKdf ModelKeys ModelMap ModelPairing ModelSig.
From Verif Require Import ScalarProof BytesProof DivProof ShaProof KdfProof KeysProof FieldProof TowerProof TowerProof2 FpProof FpCodec TowerRefine TowerRefine2 TowerRefine3.
From Verif Require Import AbGroup CurveProof CurveRefine CurveInst CurveReps CurveBase GenProof Orders Cofactor CodecProof MapProof MapG2.
From Verif Require Import PairUnits PairBilin PairLoop PairSpec.
Import ListNotations.
Local Open Scope Z_scope.

(** * Tags and message bytes *)
Lemma string_data_ok s : string_data s = ascii_bytes s.
Proof. unfold string_data, ascii_bytes. apply map_ext. intros c. unfold nat_of_ascii. apply N_nat_Z. Qed.
Lemma ascii_bytes_ok s : bytes (ascii_bytes s).
Proof.
  unfold ascii_bytes, bytes. apply Forall_forall. intros x H. apply in_map_iff in H. destruct H as (c & <- & _).
  pose proof (N_ascii_bounded c). unfold byte. lia.
Qed.
Lemma ID_eq : CIPHERSUITE_ID = DST_SIG. Proof. apply string_data_ok. Qed.
Lemma POP_eq : POP_CIPHERSUITE_ID = DST_POP. Proof. apply string_data_ok. Qed.
Lemma DST_SIG_bytes : bytes DST_SIG. Proof. apply ascii_bytes_ok. Qed.
Lemma DST_POP_bytes : bytes DST_POP. Proof. apply ascii_bytes_ok. Qed.
Lemma DST_SIG_len : length DST_SIG = 43%nat. Proof. reflexivity. Qed.
Lemma DST_POP_len : length DST_POP = 43%nat. Proof. reflexivity. Qed.
Lemma s32_small n : 0 <= n < 2 ^ 31 -> s32 n = n.
Proof. intros H. unfold s32. change (2 ^ 31) with 2147483648 in *. change (2 ^ 32) with 4294967296. rewrite Z.mod_small by lia. lia. Qed.
Lemma read_short m : Z.of_nat (length m) < 2 ^ 31 -> read_bytes m (s32 (Z.of_nat (length m))) = Some m.
Proof. intros H. rewrite s32_small by lia. apply read_all. Qed.
Lemma bytes_firstn n l : bytes l -> bytes (firstn n l). 
Proof. intros H. apply Forall_forall. intros x Hx. apply (proj1 (Forall_forall _ _) H). rewrite <- (firstn_skipn n l). apply in_or_app. left. exact Hx. Qed.
Lemma bytes_skipn n l : bytes l -> bytes (skipn n l).
Proof. intros H. apply Forall_forall. intros x Hx. apply (proj1 (Forall_forall _ _) H). rewrite <- (firstn_skipn n l). apply in_or_app. right. exact Hx. Qed.
Lemma xmd_bytes m dst n out : expand_message_xmd m dst n = Some out -> bytes out.
Proof.
  unfold expand_message_xmd. destruct (_ || _ || _); [discriminate|]. intros [= <-]. apply bytes_firstn. unfold bytes. apply Forall_flat_map.
  apply Forall_forall. intros i Hi. apply in_seq in Hi. destruct i as [|i]; [lia|]. apply xmd_b_bytes.
Qed.
Lemma xmd_256 m dst : (length dst <= 255)%nat -> exists out, expand_message_xmd m dst 256 = Some out.
Proof.
  intros L. unfold expand_message_xmd. rewrite (proj2 (Z.ltb_ge 255 (Z.of_nat (length dst)))) by lia. eexists. reflexivity.
Qed.

(** * fromMessage *)
Lemma buf_field_ok b off : bytes b -> (off + 64 <= length b)%nat -> exists x, buf_field b off = Ok x /\ canon x /\ dec x = Fof (os2ip_at b off).
Proof.
  intros Hb L. unfold buf_field, os2ip_at. fold (sub_span off 64 b). set (c := sub_span off 64 b).
  assert (Bc : bytes c) by (apply bytes_firstn, bytes_skipn, Hb).
  assert (Lc : length c = (8 * 8)%nat) by (unfold c, sub_span; rewrite firstn_length, skipn_length; lia).
  pose proof (fromBytesBE_length 8 c) as L8. 
  destruct (modPrime_ok (fromBytesBE 8 c)) as (x & E & C & D).
  - exact (fromBytesBE_words 8 c Bc Lc).
  - rewrite L8. do 2 apply le_S. apply le_n.
  - exists x. split; [exact E|]. split; [exact C|]. rewrite D, fromBytesBE_ok by assumption. reflexivity.
Qed.
Lemma buf_point_ok b off : bytes b -> (off + 128 <= length b)%nat -> exists p (P : E2), buf_point b off = Ok p /\
  map_to_curve2 (mkFp2 (Fof (os2ip_at b off)) (Fof (os2ip_at b (off + 64)))) (cpt (b := b2) P) /\ rep2g p P.
Proof.
  intros Hb L. destruct (buf_field_ok b off Hb ltac:(lia)) as (x & Ex & Cx & Dx). destruct (buf_field_ok b (off + 64) Hb ltac:(lia)) as (y & Ey & Cy & Dy).
  destruct (swu_iso2 (mk2 x y) (conj Cx Cy)) as (P & HM & HR). exists (isogenyMap (mkJ (fst (swuMapG2 (mk2 x y))) (snd (swuMapG2 (mk2 x y))) fp2_one)), P.
  split; [|split; [|exact HR]].
  - unfold buf_point. rewrite Ex, Ey. reflexivity.
  - rewrite <- Dx, <- Dy. exact HM.
Qed.
Lemma fromMessage_init_ok init msg m dst : bytes msg -> bytes dst -> (length dst <= 255)%nat -> length init = 256%nat ->
  read_bytes msg (s32 (Z.of_nat (length msg))) = Some m ->
  exists h (H : E2), fromMessage_init init msg dst = Ok h /\ hash_to_curve m dst H /\ rep2g h H.
Proof.
  intros Bm Bd Ld Li Hr. destruct (xmd_256 m dst Ld) as (b & Eb). pose proof (xmd_length _ _ _ _ Eb) as Lb. pose proof (xmd_bytes _ _ _ _ Eb) as Bb.
  assert (EB : message_buf init msg dst = Ok b).
  { unfold message_buf. rewrite (s32_small (Z.of_nat (length dst))) by (change (2 ^ 31) with 2147483648; lia).
    rewrite (xmd_read 256 msg _ m dst Bm Bd) by (try assumption; change (2 ^ 31) with 2147483648; lia). change (Z.to_nat 256) with 256%nat. rewrite Eb.
    cbn [obind snd]. rewrite Lb, <- Li, skipn_all, app_nil_r. reflexivity. }
  destruct (buf_point_ok b 0 Bb ltac:(rewrite Lb; lia)) as (p & P & Ep & MP & RP). destruct (buf_point_ok b 128 Bb ltac:(rewrite Lb; lia)) as (q & Q & Eq & MQ & RQ).
  exists (g2_clearCofactor (g2_add p q)), (zmul h_eff2 (gop P Q)). split; [|split].
  - unfold fromMessage_init. rewrite EB. cbn [obind]. rewrite Ep. cbn [obind]. rewrite Eq. reflexivity.
  - exists b, P, Q. split; [exact Eb|]. split; [exact MP|]. split; [exact MQ|reflexivity].
  - exact (g2_clear_heff _ _ (rep2g_add p q P Q RP RQ)).
Qed.
Lemma E2_cpt (P Q : E2) : cpt (b := b2) P = cpt (b := b2) Q -> P = Q.
Proof. exact (curve_eq KFp2 b2 P Q). Qed.
Lemma hash_fun m dst (P Q : E2) : hash_to_curve m dst P -> hash_to_curve m dst Q -> P = Q.
Proof.
  intros (b & P0 & P1 & Eb & M0 & M1 & ->) (b' & Q0 & Q1 & Eb' & N0 & N1 & ->). rewrite Eb in Eb'. injection Eb' as <-.
  rewrite (E2_cpt P0 Q0 (map2_fun _ _ _ M0 N0)), (E2_cpt P1 Q1 (map2_fun _ _ _ M1 N1)). reflexivity.
Qed.
Lemma hash_order m dst (P : E2) : hash_to_curve m dst P -> zmul order P = gid.
Proof. intros (b & P0 & P1 & _ & _ & _ & ->). apply heff2_order. Qed.
Lemma hash_ex m dst : bytes m -> bytes dst -> (length dst <= 255)%nat -> exists P : E2, hash_to_curve m dst P.
Proof.
  intros Bm Bd Ld. destruct (xmd_256 m dst Ld) as (b & Eb). pose proof (xmd_length _ _ _ _ Eb) as Lb. pose proof (xmd_bytes _ _ _ _ Eb) as Bb.
  destruct (buf_point_ok b 0 Bb ltac:(rewrite Lb; lia)) as (p & P & Ep & MP & RP). destruct (buf_point_ok b 128 Bb ltac:(rewrite Lb; lia)) as (q & Q & Eq & MQ & RQ).
  exists (zmul h_eff2 (gop P Q)), b, P, Q. split; [exact Eb|]. split; [exact MP|]. split; [exact MQ|reflexivity].
Qed.

(** * The pairing equation *)
Definition lsum (L : list (Z * E2)) : E2 := gsum (map (fun aH => zmul (fst aH) (snd aH)) L).
Definition lpairs (L : list (Z * E2)) : list (E1 * E2) := map (fun aH => (zmul (fst aH) G1gen, snd aH)) L.
Definition lord (L : list (Z * E2)) : Prop := Forall (fun aH => zmul order (snd aH) = gid) L.
Lemma zord {G : abgroup} a (P : G) : zmul order P = gid -> zmul order (zmul a P) = gid.
Proof. intros H. rewrite <- zmul_mul, Z.mul_comm, zmul_mul, H. apply zmul_id. Qed.
Lemma lsum_order L : lord L -> zmul order (lsum L) = gid.
Proof.
  induction 1 as [|[a H] L HH HL IH]; [apply zmul_id|]. unfold lsum in *. cbn [map fst snd] in *. rewrite gsum_cons, zmul_op, IH, (zord a H HH). apply g_id.
Qed.
Lemma esum_cons P Q L : esum ((P, Q) :: L) = gop (epair P Q) (esum L). Proof. reflexivity. Qed.
Lemma lpairs_esum L : lord L -> esum (lpairs L) = epair G1gen (lsum L).
Proof.
  induction 1 as [|[a H] L HH HL IH]; [symmetry; apply epair_id_r|].
  change (lpairs ((a, H) :: L)) with ((zmul a G1gen, H) :: lpairs L). rewrite esum_cons, IH.
  change (lsum ((a, H) :: L)) with (gop (zmul a H) (lsum L)). cbn [fst snd] in HH.
  rewrite epair_add_r by (try apply zord; try apply lsum_order; assumption). rewrite epair_zmul_l, epair_zmul_r by exact HH. reflexivity.
Qed.
Lemma inv_m1 {G : abgroup} (P : G) : ginv P = zmul (-1) P. Proof. reflexivity. Qed.
Lemma check_core S L : zmul order S = gid -> lord L -> esum ((ginv G1gen, S) :: lpairs L) = gid <-> S = lsum L.
Proof.
  intros OS OL. rewrite esum_cons, (lpairs_esum L OL), inv_m1, epair_zmul_l, <- epair_zmul_r by exact OS.
  rewrite <- epair_add_r by (try apply zord; try apply lsum_order; assumption). rewrite <- inv_m1. split.
  - intros E. assert (O : zmul order (gop (ginv S) (lsum L)) = gid) by (rewrite zmul_op, (lsum_order L OL), zmul_inv, OS, g_inv_0; apply g_id).
    destruct (epair_nondeg _ _ G1gen_r O E) as [X|X].
    + exfalso. exact (G1gen_nz X).
    + symmetry. apply g_sub0. rewrite g_comm. exact X.
  - intros ->. rewrite g_inv_l. apply epair_id_r.
Qed.
Lemma is_one_ok l M : Forall2 rpair l M -> exists b, is_one (add_pairs [] l) = Ok b /\ (b = true <-> esum M = gid).
Proof.
  intros H. destruct (pairing_ok l M H) as (f & Hf & R). exists (fp12_equal fp12_one f). split.
  - unfold is_one. rewrite Hf. reflexivity.
  - rewrite (equal12_rep fp12_one f _ _ rep12_one R). split.
    + intros E. apply uval_inj. symmetry. exact E.
    + intros ->. reflexivity.
Qed.
(** coordinates are reduced, as everywhere in the library *)
Definition coords1 (p : g1) : Prop := canon (jx p) /\ canon (jy p) /\ canon (jz p).
Definition coords2 (p : g2) : Prop := canon2 (jx p) /\ canon2 (jy p) /\ canon2 (jz p).
Lemma bad_split a b : negb a || negb b = false <-> a = true /\ b = true.
Proof. destruct a, b; cbn; intuition congruence. Qed.
Lemma bad1_ok p : coords1 p -> bad1 p = false <-> exists a, rep1g p (zmul a G1gen).
Proof.
  intros (C1 & C2 & C3). unfold bad1. rewrite bad_split. split.
  - intros [O S]. destruct (rep1g_ex p C1 C2 C3 O) as (P & HP). apply (g1_inCorrectSubgroup_ok p P HP) in S. destruct (sub1_cyclic P S) as (a & ->). exists a. exact HP.
  - intros (a & H). split; [exact (rep1g_onCurve _ _ H)|]. apply (g1_inCorrectSubgroup_ok p _ H). apply zord, G1gen_r.
Qed.
Lemma bad2_ok p : coords2 p -> bad2 p = false <-> exists S : E2, rep2g p S /\ zmul order S = gid.
Proof.
  intros (C1 & C2 & C3). unfold bad2. rewrite bad_split. split.
  - intros [O S]. destruct (rep2g_ex p C1 C2 C3 O) as (P & HP). apply (g2_inCorrectSubgroup_ok p P HP) in S. exists P. exact (conj HP S).
  - intros (P & H & O). split; [exact (rep2g_onCurve _ _ H)|]. exact (proj2 (g2_inCorrectSubgroup_ok p _ H) O).
Qed.
Lemma negG : rep1g (g1_neg g1_BASE) (ginv G1gen). Proof. exact (rep1g_neg _ _ BASE1_rep). Qed.
(** a list of keys and hashed messages passes the check against a signature *)
Lemma check_list sig S ps L : rep2g sig S -> zmul order S = gid ->
  Forall2 (fun pq aH => rep1g (fst pq) (zmul (fst aH) G1gen) /\ rep2g (snd pq) (snd aH)) ps L -> lord L ->
  exists b, is_one (add_pairs (add_pair [] (g1_neg g1_BASE) sig) ps) = Ok b /\ (b = true <-> S = lsum L).
Proof.
  intros HS OS F OL. destruct (is_one_ok ((g1_neg g1_BASE, sig) :: ps) ((ginv G1gen, S) :: lpairs L)) as (b & E & Hb).
  - constructor; [exact (conj negG (conj HS OS))|]. clear -F OL. induction F as [|pq aH ps L [H1 H2] F IH]; [constructor|].
    inversion OL as [|? ? O1 O2]; subst. constructor; [exact (conj H1 (conj H2 O1))|exact (IH O2)].
  - exists b. split; [exact E|]. rewrite Hb. apply check_core; assumption.
Qed.
Definition accept (pk : g1) (sig : g2) (h : g2) : outcome bool :=
  if bad1 pk then Ok false else if bad2 sig then Ok false else is_one (add_pair (add_pair [] (g1_neg g1_BASE) sig) pk h).
Lemma accept_ok pk sig h (H : E2) : coords1 pk -> coords2 sig -> rep2g h H -> zmul order H = gid ->
  exists b, accept pk sig h = Ok b /\ (b = true <-> exists a, rep1g pk (zmul a G1gen) /\ rep2g sig (zmul a H)).
Proof.
  intros Cp Cs Hh OH. unfold accept. destruct (bad1 pk) eqn:Bp.
  - exists false. split; [reflexivity|]. split; [discriminate|]. intros (a & Ha & _). exfalso.
    rewrite (proj2 (bad1_ok pk Cp) (ex_intro _ a Ha)) in Bp. discriminate Bp.
  - apply (bad1_ok pk Cp) in Bp. destruct Bp as (a & Ha). destruct (bad2 sig) eqn:Bs.
    + exists false. split; [reflexivity|]. split; [discriminate|]. intros (a' & _ & Hs). exfalso.
      rewrite (proj2 (bad2_ok sig Cs) (ex_intro _ _ (conj Hs (zord a' H OH)))) in Bs. discriminate Bs.
    + apply (bad2_ok sig Cs) in Bs. destruct Bs as (S & HS & OS).
      destruct (check_list sig S [(pk, h)] [(a, H)] HS OS) as (b & E & Hb).
      * constructor; [exact (conj Ha Hh)|constructor].
      * constructor; [exact OH|constructor].
      * exists b. split; [exact E|]. rewrite Hb. change (lsum [(a, H)]) with (gop (zmul a H) gid). rewrite g_id_r. split.
        -- intros ->. exists a. exact (conj Ha HS).
        -- intros (a' & Ha' & Hs'). rewrite (rep2g_fun sig S _ HS Hs').
           assert (E' : zmul a G1gen = zmul a' G1gen) by exact (rep1g_fun pk _ _ Ha Ha').
           assert (X : zmul (a - a') G1gen = gid) by (rewrite zmul_sub, E'; apply g_inv).
           assert (D : (order | a - a')) by exact (zmul_prime order _ G1gen order_prime G1gen_r G1gen_nz X). destruct D as (k & Dk). replace a with (a' + k * order) by (clear -Dk; lia).
           rewrite zmul_add, (zmul_mul k order H), OH, zmul_id, g_id_r. reflexivity.
Qed.
Lemma dlog_eq a a' (H : E2) : zmul order H = gid -> zmul a G1gen = zmul a' G1gen -> zmul a H = zmul a' H.
Proof.
  intros OH E. assert (X : zmul (a - a') G1gen = gid) by (rewrite zmul_sub, E; apply g_inv).
  assert (D : (order | a - a')) by exact (zmul_prime order _ G1gen order_prime G1gen_r G1gen_nz X). destruct D as (k & Dk). replace a with (a' + k * order) by (clear -Dk; lia).
  rewrite zmul_add, (zmul_mul k order H), OH, zmul_id, g_id_r. reflexivity.
Qed.

(** * verify *)
(** a message: bytes, fewer than 2^31 of them *)
Definition message (m : list Z) : Prop := bytes m /\ Z.of_nat (length m) < 2 ^ 31.
Lemma init_len : length (repeat 0 256) = 256%nat. Proof. apply repeat_length. Qed.
Lemma len43 (dst : list Z) : length dst = 43%nat -> (length dst <= 255)%nat. Proof. intros ->. lia. Qed.
Lemma sig_hash msg m : bytes msg -> read_bytes msg (s32 (Z.of_nat (length msg))) = Some m ->
  exists h (H : E2), fromMessage msg CIPHERSUITE_ID = Ok h /\ hash_to_curve m DST_SIG H /\ rep2g h H /\ zmul order H = gid.
Proof.
  intros Bm Hr. rewrite ID_eq. destruct (fromMessage_init_ok (repeat 0 256) msg m DST_SIG Bm DST_SIG_bytes (len43 _ DST_SIG_len) init_len Hr) as (h & H & E & HH & HR).
  exists h, H. split; [exact E|]. split; [exact HH|]. split; [exact HR|exact (hash_order _ _ _ HH)].
Qed.
Lemma pop_hash msg : message msg ->
  exists h (H : E2), fromMessage msg POP_CIPHERSUITE_ID = Ok h /\ hash_to_curve msg DST_POP H /\ rep2g h H /\ zmul order H = gid.
Proof.
  intros [Bm Lm]. rewrite POP_eq.
  destruct (fromMessage_init_ok (repeat 0 256) msg msg DST_POP Bm DST_POP_bytes (len43 _ DST_POP_len) init_len (read_short _ Lm)) as (h & H & E & HH & HR).
  exists h, H. split; [exact E|]. split; [exact HH|]. split; [exact HR|exact (hash_order _ _ _ HH)].
Qed.
Lemma verify_read pk msg m sig : coords1 pk -> coords2 sig -> bytes msg -> read_bytes msg (s32 (Z.of_nat (length msg))) = Some m ->
  exists b (H : E2), verify pk msg sig = Ok b /\ hash_to_curve m DST_SIG H /\ (b = true <-> exists a, rep1g pk (zmul a G1gen) /\ rep2g sig (zmul a H)).
Proof.
  intros Cp Cs Bm Hr. destruct (sig_hash msg m Bm Hr) as (h & H & E & HH & HR & OH). destruct (accept_ok pk sig h H Cp Cs HR OH) as (b & Eb & Hb).
  exists b, H. split; [|exact (conj HH Hb)]. unfold verify. rewrite E. exact Eb.
Qed.
Lemma verify_ok pk m sig : coords1 pk -> coords2 sig -> message m ->
  exists b (H : E2), verify pk m sig = Ok b /\ hash_to_curve m DST_SIG H /\ (b = true <-> exists a, rep1g pk (zmul a G1gen) /\ rep2g sig (zmul a H)).
Proof. intros Cp Cs [Bm Lm]. exact (verify_read pk m m sig Cp Cs Bm (read_short m Lm)). Qed.
Lemma sign_ok sk m : words sk -> message m -> exists s (H : E2), sign sk m = Ok s /\ hash_to_curve m DST_SIG H /\ rep2g s (zmul (val sk) H) /\ zmul order H = gid.
Proof.
  intros Wk [Bm Lm]. destruct (sig_hash m m Bm (read_short m Lm)) as (h & H & E & HH & HR & OH). exists (g2_scale h sk), H.
  split; [unfold sign; rewrite E; reflexivity|]. split; [exact HH|]. split; [exact (rep2g_scale h H sk HR Wk)|exact OH].
Qed.
Lemma rep1g_coords p (P : E1) : rep1g p P -> coords1 p.
Proof. intros H. exact (proj1 H). Qed.
Lemma rep2g_coords p (P : E2) : rep2g p P -> coords2 p.
Proof. intros H. exact (proj1 H). Qed.

(** * aggregate_verify *)
Definition keys_of (pks : list g1) (T : list (Z * E2)) : Prop := Forall2 (fun pk aH => rep1g pk (zmul (fst aH) G1gen)) pks T.
Definition hashes_of (ms : list (list Z)) (T : list (Z * E2)) : Prop := Forall2 (fun m aH => hash_to_curve m DST_SIG (snd aH)) ms T.
Lemma hashes_order ms T : hashes_of ms T -> lord T.
Proof. induction 1 as [|m aH ms T H F IH]; constructor; [exact (hash_order _ _ _ H)|exact IH]. Qed.
Lemma lsum_uniq ms pks T T' : keys_of pks T -> keys_of pks T' -> hashes_of ms T -> hashes_of ms T' -> lsum T = lsum T'.
Proof.
  intros K. revert ms T'. induction K as [|pk [a H] pks T Ka K IH]; intros ms T' K' Hh Hh'.
  - inversion K'; subst. reflexivity.
  - inversion K' as [|? [a' H'] ? T1 Ka' K1]; subst. inversion Hh as [|m ? ms1 ? Hm Hh1]; subst. inversion Hh' as [|? ? ? ? Hm' Hh1']; subst.
    cbn [fst snd] in *. change (lsum ((a, H) :: T)) with (gop (zmul a H) (lsum T)). change (lsum ((a', H') :: T1)) with (gop (zmul a' H') (lsum T1)).
    rewrite (IH ms1 T1 K1 Hh1 Hh1'). pose proof (hash_fun _ _ _ _ Hm Hm') as <-.
    rewrite (dlog_eq a a' H (hash_order _ _ _ Hm) (rep1g_fun pk _ _ Ka Ka')). reflexivity.
Qed.
Lemma agg_loop_ok pks : forall ms v, Forall coords1 pks -> Forall message ms -> length pks = length ms -> exists r, agg_loop v pks ms = Ok r /\
  ((exists T ps, r = Some (add_pairs v ps) /\ keys_of pks T /\ hashes_of ms T /\
      Forall2 (fun pq aH => rep1g (fst pq) (zmul (fst aH) G1gen) /\ rep2g (snd pq) (snd aH)) ps T) \/
   (r = None /\ ~ exists T, keys_of pks T)).
Proof.
  induction pks as [|pk pks IH]; intros ms v Cp Hm L.
  - destruct ms; [|discriminate L]. exists (Some v). split; [reflexivity|]. left. exists [], []. repeat constructor.
  - destruct ms as [|m ms]; [discriminate L|]. inversion Cp as [|? ? Cp1 Cp2]; subst. inversion Hm as [|? ? [Bm Lm] Hm2]; subst. injection L as L.
    cbn [agg_loop]. destruct (bad1 pk) eqn:Bp.
    + exists None. split; [reflexivity|]. right. split; [reflexivity|]. intros (T & K). inversion K as [|? aH ? ? K1 K2]; subst.
      rewrite (proj2 (bad1_ok pk Cp1) (ex_intro (fun a => rep1g pk (zmul a G1gen)) (fst aH) K1)) in Bp. discriminate Bp.
    + apply (bad1_ok pk Cp1) in Bp. destruct Bp as (a & Ha). destruct (sig_hash m m Bm (read_short m Lm)) as (h & H & E & HH & HR & OH).
      rewrite E. cbn [obind]. destruct (IH ms (add_pair v pk h) Cp2 Hm2 L) as (r & Er & [(T & ps & -> & K & Hs & F)|[-> N]]).
      * exists (Some (add_pairs (add_pair v pk h) ps)). split; [exact Er|]. left. exists ((a, H) :: T), ((pk, h) :: ps). split; [reflexivity|].
        split; [constructor; [exact Ha|exact K]|]. split; [constructor; [exact HH|exact Hs]|]. constructor; [exact (conj Ha HR)|exact F].
      * exists None. split; [exact Er|]. right. split; [reflexivity|]. intros (T & K). inversion K as [|? aH ? T1 K1 K2]; subst. apply N. exists T1. exact K2.
Qed.
Lemma nodup_len (l : list (list Z)) : length (nodup (list_eq_dec Z.eq_dec) l) = length l <-> NoDup l.
Proof.
  split.
  - intros H. apply (NoDup_incl_NoDup (l := nodup (list_eq_dec Z.eq_dec) l)); [apply NoDup_nodup|rewrite H; apply le_n|]. intros x Hx. apply (nodup_In (list_eq_dec Z.eq_dec)). exact Hx.
  - intros H. rewrite nodup_fixed_point by exact H. reflexivity.
Qed.
Lemma aggregate_ok pks ms sig chk : Forall coords1 pks -> Forall message ms -> coords2 sig ->
  exists b, aggregate_verify pks ms sig chk = Ok b /\ (b = true <-> length pks = length ms /\ (chk = true -> NoDup ms) /\
    exists T, keys_of pks T /\ hashes_of ms T /\ rep2g sig (lsum T)).
Proof.
  intros Cp Hm Cs. unfold aggregate_verify. destruct (bad2 sig) eqn:Bs.
  { exists false. split; [reflexivity|]. split; [discriminate|]. intros (_ & _ & T & _ & Hs & HS). exfalso.
    rewrite (proj2 (bad2_ok sig Cs) (ex_intro _ _ (conj HS (lsum_order T (hashes_order ms T Hs))))) in Bs. discriminate Bs. }
  apply (bad2_ok sig Cs) in Bs. destruct Bs as (S & HS & OS).
  destruct (Nat.eqb_spec (length pks) (length ms)) as [L|L]; cbn [negb].
  2:{ exists false. split; [reflexivity|]. split; [discriminate|]. intros (L' & _). exfalso. exact (L L'). }
  destruct (chk && negb (length (nodup (list_eq_dec Z.eq_dec) ms) =? length pks)%nat) eqn:D.
  { exists false. split; [reflexivity|]. split; [discriminate|]. intros (_ & N & _). exfalso. apply andb_prop in D. destruct D as [-> D].
    rewrite L, (proj2 (Nat.eqb_eq _ _) (proj2 (nodup_len ms) (N eq_refl))) in D. discriminate D. }
  assert (N : chk = true -> NoDup ms).
  { intros ->. cbn [andb] in D. rewrite L in D. apply nodup_len. apply Nat.eqb_eq. destruct (_ =? _)%nat; [reflexivity|discriminate D]. }
  destruct (agg_loop_ok pks ms (add_pair [] (g1_neg g1_BASE) sig) Cp Hm L) as (r & Er & [(T & ps & -> & K & Hs & F)|[-> NK]]); rewrite Er; cbn [obind].
  - destruct (check_list sig S ps T HS OS F (hashes_order ms T Hs)) as (b & Eb & Hb). exists b. split; [exact Eb|]. rewrite Hb. split.
    + intros ->. split; [exact L|]. split; [exact N|]. exists T. exact (conj K (conj Hs HS)).
    + intros (_ & _ & T' & K' & Hs' & HS'). rewrite (rep2g_fun sig _ _ HS HS'). exact (lsum_uniq ms pks T' T K' K Hs' Hs).
  - exists false. split; [reflexivity|]. split; [discriminate|]. intros (_ & _ & T & K & _). exfalso. apply NK. exists T. exact K.
Qed.

(** * Proofs of possession *)
Lemma fpLE_bytes x m : bytes (fp_toBytesLE x m) /\ length (fp_toBytesLE x m) = 48%nat.
Proof.
  unfold fp_toBytesLE. rewrite toBytesLE_ok, limbs_of_length by apply limbs_of_words. split; [apply int_le_bytes|apply int_le_length].
Qed.
Lemma popmsg_message p : message (g1_toAffineLE p true).
Proof.
  unfold g1_toAffineLE, j_toAffine. destruct (j_isZero fp_ops p).
  - split; [|rewrite repeat_length; reflexivity]. apply Forall_forall. intros x Hx. apply repeat_spec in Hx. subst x. split; [apply Z.le_refl|reflexivity].
  - destruct (fpLE_bytes (jx (j_affine fp_ops p)) true) as [B1 L1]. destruct (fpLE_bytes (jy (j_affine fp_ops p)) true) as [B2 L2]. split.
    + exact (proj2 (Forall_app byte _ _) (conj B1 B2)).
    + rewrite app_length, L1, L2. reflexivity.
Qed.
Lemma popmsg_ok p (P : E1) : rep1g p P -> g1_toAffineLE p true = pop_message (cpt (b := b1) P).
Proof.
  intros H. unfold g1_toAffineLE, j_toAffine. fold (g1_isZero p). destruct (g1_isZero p) eqn:Z.
  - apply (rep1g_isZero p P H) in Z. subst P. reflexivity.
  - assert (N : P <> gid) by (intros E; rewrite (proj2 (rep1g_isZero p P H) E) in Z; discriminate Z).
    destruct (affine_1 p P H N) as (C1 & C2 & ->). cbn [pop_message].
    change (j_affine fp_ops p) with (g1_affine p). cbv zeta. rewrite !fp_toBytesLE_int by assumption. reflexivity.
Qed.
Lemma pop_verify_ok pk sig : coords1 pk -> coords2 sig -> exists b, pop_verify pk sig = Ok b /\
  (b = true <-> exists a (H : E2), rep1g pk (zmul a G1gen) /\ hash_to_curve (pop_message (cpt (b := b1) (zmul a G1gen))) DST_POP H /\ rep2g sig (zmul a H)).
Proof.
  intros Cp Cs. destruct (pop_hash _ (popmsg_message pk)) as (h & H & E & HH & HR & OH). destruct (accept_ok pk sig h H Cp Cs HR OH) as (b & Eb & Hb).
  exists b. split; [unfold pop_verify; rewrite E; exact Eb|]. rewrite Hb. split.
  - intros (a & Ha & Hs). exists a, H. split; [exact Ha|]. split; [|exact Hs]. rewrite <- (popmsg_ok pk _ Ha). exact HH.
  - intros (a & H' & Ha & HH' & Hs). exists a. split; [exact Ha|]. rewrite <- (popmsg_ok pk _ Ha) in HH'. rewrite (hash_fun _ _ _ _ HH HH'). exact Hs.
Qed.
Lemma pop_prove_ok sk : words sk -> exists s (H : E2), pop_prove sk = Ok s /\ hash_to_curve (pop_message (cpt (b := b1) (zmul (val sk) G1gen))) DST_POP H /\ rep2g s (zmul (val sk) H).
Proof.
  intros Wk. destruct (pop_hash _ (popmsg_message (public_key sk))) as (h & H & E & HH & HR & OH). exists (g2_scale h sk), H.
  split; [unfold pop_prove; rewrite E; reflexivity|]. split; [|exact (rep2g_scale h H sk HR Wk)]. rewrite <- (popmsg_ok _ _ (public_key_ok sk Wk)). exact HH.
Qed.
(** * Aggregation with accessor and predicate *)
Fixpoint selected {T} (pred : T -> nat -> bool) (i : nat) (l : list T) : list T :=
  match l with [] => [] | x :: l => if pred x i then x :: selected pred (S i) l else selected pred (S i) l end.
Lemma agg_by_fold {T G} (add : G -> G -> G) (f : T -> G) pred l : forall i acc, agg_by add f pred i l acc = fold_left add (map f (selected pred i l)) acc.
Proof. induction l as [|x l IH]; intros i acc; [reflexivity|]. cbn [agg_by selected]. rewrite IH. destruct (pred x i); reflexivity. Qed.
(** * The truncated message length *)
Lemma fromMessage_read init msg msg' dst : read_bytes msg (s32 (Z.of_nat (length msg))) = read_bytes msg' (s32 (Z.of_nat (length msg'))) ->
  fromMessage_init init msg dst = fromMessage_init init msg' dst.
Proof. intros H. unfold fromMessage_init, message_buf, xmd_sh256. rewrite H. reflexivity. Qed.
Lemma fromMessage_oob init msg dst : (length dst <= 255)%nat -> s32 (Z.of_nat (length msg)) < 0 -> fromMessage_init init msg dst = OutOfBounds.
Proof.
  intros Ld N. unfold fromMessage_init, message_buf. rewrite (s32_small (Z.of_nat (length dst))) by (change (2 ^ 31) with 2147483648; lia).
  rewrite xmd_neg_len by lia. reflexivity.
Qed.
Lemma fromMessage_longtag init msg msg' dst : 255 < Z.of_nat (length dst) < 2 ^ 31 -> fromMessage_init init msg dst = fromMessage_init init msg' dst.
Proof.
  intros L. unfold fromMessage_init, message_buf, xmd_sh256. rewrite (s32_small (Z.of_nat (length dst))) by lia.
  rewrite (proj2 (Z.ltb_lt 255 (Z.of_nat (length dst)))) by lia. rewrite !orb_true_r. reflexivity.
Qed.
Lemma fromMessage_init_irrel init init' msg dst : bytes msg -> bytes dst -> (length dst <= 255)%nat -> length init = 256%nat -> length init' = 256%nat -> 
  fromMessage_init init msg dst = fromMessage_init init' msg dst.
Proof.
  intros Bm Bd Ld L L'. unfold fromMessage_init, message_buf. rewrite (s32_small (Z.of_nat (length dst))) by (change (2 ^ 31) with 2147483648; lia).
  destruct (read_bytes msg (s32 (Z.of_nat (length msg)))) as [m|] eqn:E.
  - rewrite (xmd_read 256 msg _ m dst Bm Bd) by (try assumption; change (2 ^ 31) with 2147483648; lia). change (Z.to_nat 256) with 256%nat.
    destruct (xmd_256 m dst Ld) as (b & Eb). rewrite Eb. cbn [obind snd]. rewrite (xmd_length _ _ _ _ Eb).
    rewrite !skipn_all2 by (rewrite ?L, ?L'; apply le_n). reflexivity.
  - assert (X : xmd_sh256 256 msg (s32 (Z.of_nat (length msg))) dst (Z.of_nat (length dst)) = OutOfBounds).
    { unfold xmd_sh256. rewrite E, (proj2 (Z.ltb_ge 255 (Z.of_nat (length dst)))) by lia. reflexivity. }
    rewrite X. reflexivity.
Qed.
Lemma s32_wrap n : 2 ^ 31 <= n < 2 ^ 32 + 2 ^ 31 -> s32 n = n - 2 ^ 32.
Proof.
  intros H. unfold s32. change (2 ^ 31) with 2147483648 in *. change (2 ^ 32) with 4294967296 in *.
  replace (n + 2147483648) with (n - 2147483648 + 1 * 4294967296) by lia. rewrite Z.mod_add by lia. rewrite Z.mod_small by lia. lia.
Qed.
(** * Every point has a representation; a point of order 3 *)
Lemma rep1_ex (P : E1) : exists p, rep1g p P.
Proof.
  destruct (cpt (b := b1) P) as [|x y] eqn:E.
  - exists g1_zero. rewrite (curve_eq KFp b1 P (gid : E1) E). exact rep1g_zero.
  - exists (mkJ (enc x) (enc y) fp_one). unfold rep1g, rep1. rewrite E. rewrite <- (dec_enc x) at 2. rewrite <- (dec_enc y) at 2.
    exact (rep_aff fp_ops KFp canon dec fp_represents KFp_field (enc x) (enc y) (canon_enc x) (canon_enc y)).
Qed.
Lemma order3 : exists T : E1, zmul order T <> gid /\ zmul 3 T = gid.
Proof.
  destruct E1_struct as (T & T' & H3 & _ & HO & _). exists T. split; [|exact H3]. intros H0.
  assert (X : zmul order (gop G1gen T) = gid) by (rewrite zmul_op, G1gen_r, H0; apply g_id).
  apply HO in X. apply Z.divide_pos_le in X; [|reflexivity]. revert X. vm_compute. intros X. exact (X eq_refl).
Qed.
