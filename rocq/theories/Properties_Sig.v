(** C47-C51, C57 and the aggregation templates of C42: hashing to G2, signatures, proofs of possession.
    hash_to_curve m DST H (SpecSig): the point H of E'(Fp2) is the hash of m under RFC 9380.
    rep1g p P, rep2g q Q: the g1 (g2) value p (q) denotes the curve point P (Q); coords1, coords2: coordinates below p;
    key k: four 64-bit words with value val k; message m: fewer than 2^31 bytes. *)
From Coq Require Import ZArith Znumtheory List Bool Lia Permutation.
From Verif Require Import SpecField SpecBytes SpecHash SpecCurve SpecMap SpecSig SpecPairing.
From Verif Require Import ModelWord ModelScalar ModelFp ModelTower ModelCurve ModelKdf ModelKeys ModelPairing ModelSig.
From Verif Require Import ScalarProof BytesProof KeysProof FieldProof FpProof TowerRefine.
From Verif Require Import AbGroup CurveProof CurveInst CurveReps CurveBase GenProof Orders Cofactor PairUnits PairBilin PairSpec SigProof MapG1 Properties_Codec.
Import ListNotations.
Local Open Scope Z_scope.

(** * C47 *)
(** the specification is a function on byte strings, with values in the subgroup *)
Theorem C47_spec_total : forall m dst, bytes m -> bytes dst -> (length dst <= 255)%nat ->
  exists H : E2, hash_to_curve m dst H /\ zmul order H = gid /\ forall H', hash_to_curve m dst H' -> H' = H.
Proof.
  intros m dst Bm Bd Ld. destruct (hash_ex m dst Bm Bd Ld) as (H & HH). exists H. split; [exact HH|]. split; [exact (hash_order _ _ _ HH)|].
  intros H' HH'. exact (hash_fun _ _ _ _ HH' HH).
Qed.
Theorem C47_fromMessage : forall m dst, message m -> bytes dst -> (length dst <= 255)%nat ->
  exists h (H : E2), fromMessage m dst = Ok h /\ hash_to_curve m dst H /\ rep2g h H /\ g2_isOnCurve h = true /\ g2_inCorrectSubgroup h = true.
Proof.
  intros m dst [Bm Lm] Bd Ld. destruct (fromMessage_init_ok (repeat 0 256) m m dst Bm Bd Ld init_len (read_short m Lm)) as (h & H & E & HH & HR).
  exists h, H. split; [exact E|]. split; [exact HH|]. split; [exact HR|]. split; [exact (rep2g_onCurve _ _ HR)|]. apply (g2_inCorrectSubgroup_ok _ _ HR). exact (hash_order _ _ _ HH).
Qed.
Theorem C47_sign : forall sk m, key sk -> message m -> exists s (H : E2), sign sk m = Ok s /\ hash_to_curve m DST_SIG H /\ rep2g s (zmul (val sk) H).
Proof. intros sk m [Wk _] Hm. destruct (sign_ok sk m Wk Hm) as (s & H & E & HH & HR & _). exists s, H. auto. Qed.
Theorem C47_honest : forall sk m, key sk -> message m -> exists s, sign sk m = Ok s /\ verify (public_key sk) m s = Ok true.
Proof.
  intros sk m [Wk _] Hm. destruct (sign_ok sk m Wk Hm) as (s & H & E & HH & HR & _). exists s. split; [exact E|].
  destruct (verify_ok (public_key sk) m s (rep1g_coords _ _ (public_key_ok sk Wk)) (rep2g_coords _ _ HR) Hm) as (b & H' & Ev & HH' & Hb).
  rewrite Ev. apply (f_equal Ok), Hb. exists (val sk). split; [exact (public_key_ok sk Wk)|]. rewrite (hash_fun _ _ _ _ HH' HH). exact HR.
Qed.
Example C47_nontrivial : key [5; 0; 0; 2 ^ 62] /\ message (repeat 97 1000) /\ length DST_SIG = 43%nat.
Proof.
  split; [split; [apply wordsb_ok; reflexivity|reflexivity]|]. split; [|reflexivity].
  split; [apply Forall_forall; intros x Hx; apply repeat_spec in Hx; subst x; split; [discriminate|reflexivity]|reflexivity].
Qed.

(** * C48 *)
(** exactly what verify accepts *)
Theorem C48_accepts : forall pk m sig, coords1 pk -> coords2 sig -> message m ->
  exists b (H : E2), verify pk m sig = Ok b /\ hash_to_curve m DST_SIG H /\ (b = true <-> exists a, rep1g pk (zmul a G1gen) /\ rep2g sig (zmul a H)).
Proof. exact verify_ok. Qed.
(** the same as an equation between pairings *)
Theorem C48_equation : forall pk m sig (H : E2), coords1 pk -> coords2 sig -> message m -> hash_to_curve m DST_SIG H ->
  (verify pk m sig = Ok true <-> exists (P : E1) (S : E2), rep1g pk P /\ rep2g sig S /\ zmul order P = gid /\ zmul order S = gid /\
     ate (cpt (b := b1) P) (cpt (b := b2) H) = ate (cpt (b := b1) G1gen) (cpt (b := b2) S)).
Proof.
  intros pk m sig H Cp Cs Hm HH. destruct (verify_ok pk m sig Cp Cs Hm) as (b & H' & Ev & HH' & Hb). rewrite Ev.
  pose proof (hash_fun _ _ _ _ HH HH') as <-. pose proof (hash_order _ _ _ HH) as OH.
  assert (X : Ok b = Ok true <-> b = true) by (split; [intros [= ->]; reflexivity|intros ->; reflexivity]). rewrite X, Hb. clear X Ev Hb b. split.
  - intros (a & Ha & Hs). exists (zmul a G1gen), (zmul a H). split; [exact Ha|]. split; [exact Hs|]. split; [exact (zord a _ G1gen_r)|]. split; [exact (zord a _ OH)|].
    rewrite <- !ate_epair. rewrite epair_zmul_l, epair_zmul_r by exact OH. reflexivity.
  - intros (P & S & HP & HS & OP & OS & E). destruct (sub1_cyclic P OP) as (a & ->). exists a. split; [exact HP|].
    rewrite <- !ate_epair in E. apply uval_inj in E. rewrite epair_zmul_l, <- epair_zmul_r in E by exact OH.
    assert (Z : epair G1gen (gop (zmul a H) (ginv S)) = gid).
    { assert (OI : zmul order (ginv S) = gid) by (rewrite zmul_inv, OS; apply g_inv_id'). rewrite epair_add_r by (try exact OI; exact (zord a _ OH)).
      rewrite E, inv_m1, epair_zmul_r by exact OS. rewrite <- inv_m1. apply g_inv. }
    assert (OI : zmul order (gop (zmul a H) (ginv S)) = gid) by (rewrite zmul_op, zmul_inv, OS, (zord a _ OH), g_inv_0; apply g_id).
    destruct (epair_nondeg _ _ G1gen_r OI Z) as [Y|Y]; [exfalso; exact (G1gen_nz Y)|]. rewrite (g_sub0 _ _ Y). exact HS.
Qed.
Lemma accepted pk m sig : coords1 pk -> coords2 sig -> message m -> verify pk m sig = Ok true ->
  exists (H : E2) a, hash_to_curve m DST_SIG H /\ rep1g pk (zmul a G1gen) /\ rep2g sig (zmul a H).
Proof.
  intros Cp Cs Hm V. destruct (verify_ok pk m sig Cp Cs Hm) as (b & H & Ev & HH & Hb). rewrite V in Ev. injection Ev as <-.
  destruct (proj1 Hb eq_refl) as (a & Ha & Hs). exists H, a. auto.
Qed.
Theorem C48_unique : forall pk m s1 s2, coords1 pk -> coords2 s1 -> coords2 s2 -> message m -> verify pk m s1 = Ok true -> verify pk m s2 = Ok true -> g2_equal s1 s2 = true.
Proof.
  intros pk m s1 s2 Cp C1 C2 Hm V1 V2. destruct (accepted pk m s1 Cp C1 Hm V1) as (H & a & HH & Ha & Hs). destruct (accepted pk m s2 Cp C2 Hm V2) as (H' & a' & HH' & Ha' & Hs').
  pose proof (hash_fun _ _ _ _ HH HH') as <-. apply (rep2g_equal _ _ _ _ Hs Hs'). exact (dlog_eq a a' H (hash_order _ _ _ HH) (rep1g_fun pk _ _ Ha Ha')).
Qed.
Theorem C48_checked : forall pk m sig, coords1 pk -> coords2 sig -> message m -> verify pk m sig = Ok true ->
  g1_isOnCurve pk = true /\ g1_inCorrectSubgroup pk = true /\ g2_isOnCurve sig = true /\ g2_inCorrectSubgroup sig = true.
Proof.
  intros pk m sig Cp Cs Hm V. destruct (accepted pk m sig Cp Cs Hm V) as (H & a & HH & Ha & Hs). split; [exact (rep1g_onCurve _ _ Ha)|].
  split; [apply (g1_inCorrectSubgroup_ok _ _ Ha), zord, G1gen_r|]. split; [exact (rep2g_onCurve _ _ Hs)|]. apply (g2_inCorrectSubgroup_ok _ _ Hs), zord. exact (hash_order _ _ _ HH).
Qed.
(** verify depends on the points only, not on the coordinates chosen *)
Theorem C48_representation : forall pk pk' m s s' (P : E1) (S : E2), message m -> rep1g pk P -> rep1g pk' P -> rep2g s S -> rep2g s' S -> verify pk m s = verify pk' m s'.
Proof.
  intros pk pk' m s s' P S Hm Hp Hp' Hs Hs'.
  destruct (verify_ok pk m s (rep1g_coords _ _ Hp) (rep2g_coords _ _ Hs) Hm) as (b & H & E & HH & Hb).
  destruct (verify_ok pk' m s' (rep1g_coords _ _ Hp') (rep2g_coords _ _ Hs') Hm) as (b' & H' & E' & HH' & Hb'). pose proof (hash_fun _ _ _ _ HH HH') as <-.
  rewrite E, E'. apply (f_equal Ok), eq_true_iff_eq. rewrite Hb, Hb'. split; intros (a & Ha & Hx); exists a.
  - rewrite <- (rep1g_fun _ _ _ Hp Ha), <- (rep2g_fun _ _ _ Hs Hx). exact (conj Hp' Hs').
  - rewrite <- (rep1g_fun _ _ _ Hp' Ha), <- (rep2g_fun _ _ _ Hs' Hx). exact (conj Hp Hs).
Qed.
(** a signature valid for a key other than the identity is valid for another message only if the messages have the same hash *)
Theorem C48_message_binding : forall pk m m' sig, coords1 pk -> coords2 sig -> message m -> message m' -> g1_isZero pk = false ->
  verify pk m sig = Ok true -> verify pk m' sig = Ok true -> exists H : E2, hash_to_curve m DST_SIG H /\ hash_to_curve m' DST_SIG H.
Proof.
  intros pk m m' sig Cp Cs Hm Hm' NZ V V'. destruct (accepted pk m sig Cp Cs Hm V) as (H & a & HH & Ha & Hs). destruct (accepted pk m' sig Cp Cs Hm' V') as (H' & a' & HH' & Ha' & Hs').
  assert (E : zmul a H = zmul a H').
  { rewrite (rep2g_fun _ _ _ Hs Hs'). symmetry. exact (dlog_eq a a' H' (hash_order _ _ _ HH') (rep1g_fun pk _ _ Ha Ha')). }
  assert (ND : ~ (order | a)).
  { intros [k ->]. assert (Z : zmul (k * order) G1gen = gid) by (rewrite zmul_mul, G1gen_r; apply zmul_id).
    rewrite Z in Ha. rewrite (proj2 (rep1g_isZero _ _ Ha) eq_refl) in NZ. discriminate NZ. }
  assert (EH : H = H').
  { destruct (g_dec E2 H H') as [X|X]; [exact X|]. exfalso. apply ND. apply (zmul_prime order a (gop H (ginv H')) order_prime).
    - rewrite zmul_op, zmul_inv, (hash_order _ _ _ HH), (hash_order _ _ _ HH'), g_inv_0. apply g_id.
    - intros Y. apply X, g_sub0, Y.
    - rewrite zmul_op, zmul_inv, E. apply g_inv. }
  exists H. split; [exact HH|]. rewrite EH. exact HH'.
Qed.
(** a signature on a message whose hash is not the identity determines the key *)
Theorem C48_key_binding : forall pk pk' m sig (H : E2), coords1 pk -> coords1 pk' -> coords2 sig -> message m -> hash_to_curve m DST_SIG H -> H <> gid ->
  verify pk m sig = Ok true -> verify pk' m sig = Ok true -> g1_equal pk pk' = true.
Proof.
  intros pk pk' m sig H Cp Cp' Cs Hm HH NZ V V'. destruct (accepted pk m sig Cp Cs Hm V) as (H1 & a & HH1 & Ha & Hs). destruct (accepted pk' m sig Cp' Cs Hm V') as (H2 & a' & HH2 & Ha' & Hs').
  pose proof (hash_fun _ _ _ _ HH HH1) as <-. pose proof (hash_fun _ _ _ _ HH HH2) as <-. apply (rep1g_equal _ _ _ _ Ha Ha').
  assert (X : zmul (a - a') H = gid) by (rewrite zmul_sub, (rep2g_fun _ _ _ Hs Hs'); apply g_inv).
  destruct (zmul_prime order _ H order_prime (hash_order _ _ _ HH) NZ X) as (k & Dk). replace a with (a' + k * order) by (clear -Dk; lia).
  rewrite zmul_add, (zmul_mul k order), G1gen_r, zmul_id, g_id_r. reflexivity.
Qed.
(** the hypotheses hold for honest signatures; off-curve keys are rejected *)
Example C48_nontrivial : (exists pk s, coords1 pk /\ coords2 s /\ g1_isZero pk = false /\ message [104; 105] /\ verify pk [104; 105] s = Ok true) /\
  coords1 (mkJ 0 0 fp_one) /\ g1_isOnCurve (mkJ 0 0 fp_one) = false.
Proof.
  assert (K : key [1; 0; 0; 0]) by (split; [apply wordsb_ok; reflexivity|reflexivity]).
  assert (M : message [104; 105]) by (split; [repeat constructor; discriminate|reflexivity]).
  split.
  - destruct (C47_sign _ _ K M) as (s & H & E & _ & HR). destruct (C47_honest _ _ K M) as (s' & E' & V). rewrite E in E'. injection E' as <-.
    pose proof (public_key_ok _ (proj1 K)) as PK. exists (public_key [1; 0; 0; 0]), s. split; [exact (rep1g_coords _ _ PK)|]. split; [exact (rep2g_coords _ _ HR)|].
    split; [|split; [exact M|exact V]]. destruct (g1_isZero (public_key [1; 0; 0; 0])) eqn:Z; [|reflexivity]. exfalso. exact (G1gen_nz (proj1 (rep1g_isZero _ _ PK) Z)).
  - exact (conj (conj canon_0 (conj canon_0 canon_R1)) off_00).
Qed.

(** * C49 *)
Theorem C49_identity : forall pk m sig, rep1g pk gid -> coords2 sig -> message m -> exists b, verify pk m sig = Ok b /\ (b = true <-> rep2g sig gid).
Proof.
  intros pk m sig Hp Cs Hm. destruct (verify_ok pk m sig (rep1g_coords _ _ Hp) Cs Hm) as (b & H & E & HH & Hb). exists b. split; [exact E|]. rewrite Hb. split.
  - intros (a & Ha & Hs). pose proof (rep1g_fun _ _ _ Ha Hp) as X. change (gid : E1) with (zmul 0 G1gen) in X.
    rewrite (dlog_eq a 0 H (hash_order _ _ _ HH) X) in Hs. exact Hs.
  - intros Hs. exists 0. exact (conj Hp Hs).
Qed.
Theorem C49_identity_verifies : forall m, message m -> verify g1_zero m g2_zero = Ok true.
Proof.
  intros m Hm. destruct (C49_identity g1_zero m g2_zero rep1g_zero (rep2g_coords _ _ rep2g_zero) Hm) as (b & E & Hb). rewrite E. apply (f_equal Ok), Hb, rep2g_zero.
Qed.
(** conversely, the identity signature verifies only for the identity key or a message whose hash is the identity *)
Theorem C49_identity_signature : forall pk m sig (H : E2), coords1 pk -> rep2g sig gid -> message m -> hash_to_curve m DST_SIG H -> H <> gid ->
  verify pk m sig = Ok true -> rep1g pk gid.
Proof.
  intros pk m sig H Cp Hs Hm HH NZ V. destruct (accepted pk m sig Cp (rep2g_coords _ _ Hs) Hm V) as (H' & a & HH' & Ha & Hs').
  pose proof (hash_fun _ _ _ _ HH HH') as <-. pose proof (rep2g_fun _ _ _ Hs' Hs) as X.
  destruct (zmul_prime order _ H order_prime (hash_order _ _ _ HH) NZ X) as (k & ->). rewrite zmul_mul, G1gen_r, zmul_id in Ha. exact Ha.
Qed.
Theorem C49_pop_identity : forall pk sig, rep1g pk gid -> coords2 sig -> exists b, pop_verify pk sig = Ok b /\ (b = true <-> rep2g sig gid).
Proof.
  intros pk sig Hp Cs. destruct (pop_verify_ok pk sig (rep1g_coords _ _ Hp) Cs) as (b & E & Hb). exists b. split; [exact E|]. rewrite Hb. split.
  - intros (a & H & Ha & HH & Hs). pose proof (rep1g_fun _ _ _ Ha Hp) as X. change (gid : E1) with (zmul 0 G1gen) in X.
    rewrite (dlog_eq a 0 H (hash_order _ _ _ HH) X) in Hs. exact Hs.
  - intros Hs. destruct (pop_hash _ (popmsg_message pk)) as (h & H & _ & HH & _ & _). exists 0, H. split; [exact Hp|]. split; [|exact Hs].
    exact (eq_ind _ (fun m => hash_to_curve m DST_POP H) HH _ (popmsg_ok pk gid Hp)).
Qed.
Theorem C49_aggregate_identity : forall m, message m -> aggregate_verify [g1_zero] [m] g2_zero true = Ok true.
Proof.
  intros m Hm. destruct (aggregate_ok [g1_zero] [m] g2_zero true) as (b & E & Hb).
  - constructor; [exact (rep1g_coords _ _ rep1g_zero)|constructor].
  - constructor; [exact Hm|constructor].
  - exact (rep2g_coords _ _ rep2g_zero).
  - rewrite E. apply (f_equal Ok), Hb. split; [reflexivity|]. split; [intros _; constructor; [intros []|constructor]|].
    destruct (sig_hash m m (proj1 Hm) (read_short m (proj2 Hm))) as (h & H & _ & HH & _). exists [(0, H)].
    split; [constructor; [exact rep1g_zero|constructor]|]. split; [constructor; [exact HH|constructor]|].
    change (lsum [(0, H)]) with (gop (gid : E2) gid). rewrite g_id. exact rep2g_zero.
Qed.
Example C49_nontrivial : rep1g g1_zero gid /\ rep1g (mkJ 0 0 0) gid /\ message [] /\ rep2g g2_BASE G2gen /\ G2gen <> gid.
Proof. split; [exact rep1g_zero|]. split; [exact rep1g_000|]. split; [split; [constructor|reflexivity]|]. exact (conj BASE2_rep G2gen_nz). Qed.

(** * C50 *)
(** exactly what aggregate_verify accepts; the list T holds the discrete logarithm of each key and the hash of each message *)
Theorem C50_accepts : forall pks ms sig chk, Forall coords1 pks -> Forall message ms -> coords2 sig ->
  exists b, aggregate_verify pks ms sig chk = Ok b /\ (b = true <-> length pks = length ms /\ (chk = true -> NoDup ms) /\
    exists T : list (Z * E2), Forall2 (fun pk aH => rep1g pk (zmul (fst aH) G1gen)) pks T /\ Forall2 (fun m aH => hash_to_curve m DST_SIG (snd aH)) ms T /\
      rep2g sig (gsum (map (fun aH => zmul (fst aH) (snd aH)) T))).
Proof. exact aggregate_ok. Qed.
Theorem C50_rejects_length : forall pks ms sig chk, length pks <> length ms -> aggregate_verify pks ms sig chk = Ok false.
Proof. intros pks ms sig chk L. unfold aggregate_verify. destruct (bad2 sig); [reflexivity|]. rewrite (proj2 (Nat.eqb_neq _ _) L). reflexivity. Qed.
Theorem C50_rejects_duplicates : forall pks ms sig, ~ NoDup ms -> aggregate_verify pks ms sig true = Ok false.
Proof.
  intros pks ms sig N. unfold aggregate_verify. destruct (bad2 sig); [reflexivity|]. destruct (Nat.eqb_spec (length pks) (length ms)) as [L|L]; [|reflexivity]. cbn [negb andb].
  destruct (Nat.eqb_spec (length (nodup (list_eq_dec Z.eq_dec) ms)) (length pks)) as [E|E]; [|reflexivity]. exfalso. apply N, nodup_len. congruence.
Qed.
Theorem C50_checked : forall pks ms sig chk, Forall coords1 pks -> Forall message ms -> coords2 sig -> aggregate_verify pks ms sig chk = Ok true ->
  Forall (fun pk => g1_isOnCurve pk = true /\ g1_inCorrectSubgroup pk = true) pks /\ g2_isOnCurve sig = true /\ g2_inCorrectSubgroup sig = true.
Proof.
  intros pks ms sig chk Cp Hm Cs V. destruct (aggregate_ok pks ms sig chk Cp Hm Cs) as (b & E & Hb). rewrite V in E. injection E as <-.
  destruct (proj1 Hb eq_refl) as (_ & _ & T & K & Hs & HS). split; [|split; [exact (rep2g_onCurve _ _ HS)|apply (g2_inCorrectSubgroup_ok _ _ HS), lsum_order, (hashes_order ms), Hs]].
  clear -K. induction K as [|pk aH pks T H K IH]; [constructor|]. constructor; [|exact IH]. split; [exact (rep1g_onCurve _ _ H)|]. apply (g1_inCorrectSubgroup_ok _ _ H), zord, G1gen_r.
Qed.
(** the aggregate of honest signatures is accepted, for all lists of keys and messages *)
Theorem C50_honest : forall kms sigs chk, Forall (fun km => key (fst km) /\ message (snd km)) kms -> Forall2 (fun km s => sign (fst km) (snd km) = Ok s) kms sigs ->
  (chk = true -> NoDup (map snd kms)) ->
  aggregate_verify (map (fun km => public_key (fst km)) kms) (map snd kms) (aggregate_signatures sigs) chk = Ok true.
Proof.
  intros kms sigs chk Hk Hs N.
  assert (X : exists T, keys_of (map (fun km => public_key (fst km)) kms) T /\ hashes_of (map snd kms) T /\ Forall2 rep2g sigs (map (fun aH => zmul (fst aH) (snd aH)) T)).
  { clear N chk. induction Hs as [|[sk m] s kms sigs E Hs IH]; [exists []; repeat constructor|]. inversion Hk as [|? ? [K M] Hk']; subst. cbn [fst snd] in *.
    destruct (IH Hk') as (T & K1 & K2 & K3). destruct (sign_ok sk m (proj1 K) M) as (s' & H & E' & HH & HR & _). rewrite E in E'. injection E' as <-. exists ((val sk, H) :: T).
    split; [constructor; [exact (public_key_ok sk (proj1 K))|exact K1]|]. split; [constructor; [exact HH|exact K2]|]. cbn [map fst snd]. constructor; [exact HR|exact K3]. }
  destruct X as (T & K1 & K2 & K3). pose proof (agg_sig_ok sigs _ K3) as HS.
  destruct (aggregate_ok (map (fun km => public_key (fst km)) kms) (map snd kms) (aggregate_signatures sigs) chk) as (b & E & Hb).
  - clear -K1. induction K1 as [|pk aH pks T H K IH]; constructor; [exact (rep1g_coords _ _ H)|exact IH].
  - clear -Hk. induction Hk as [|[sk m] kms [_ M] Hk IH]; constructor; [exact M|exact IH].
  - exact (rep2g_coords _ _ HS).
  - rewrite E. apply (f_equal Ok), Hb. split; [rewrite !map_length; reflexivity|]. split; [exact N|]. exists T. exact (conj K1 (conj K2 HS)).
Qed.
(** the order of the (key, message) pairs is irrelevant *)
Lemma agg_pairs l T : keys_of (map fst l) T -> hashes_of (map snd l) T -> Forall2 (fun km aH => rep1g (fst km) (zmul (fst aH) G1gen) /\ hash_to_curve (snd km) DST_SIG (snd aH)) l T.
Proof. revert T. induction l as [|[pk m] l IH]; intros T K H; inversion K; subst; inversion H; subst; constructor; auto. Qed.
Lemma agg_unpair l T : Forall2 (fun (km : g1 * list Z) aH => rep1g (fst km) (zmul (fst aH) G1gen) /\ hash_to_curve (snd km) DST_SIG (snd aH)) l T -> keys_of (map fst l) T /\ hashes_of (map snd l) T.
Proof. induction 1 as [|km aH l T [H1 H2] H [I1 I2]]; split; constructor; assumption. Qed.
Theorem C50_permutation : forall (l l' : list (g1 * list Z)) sig chk, Forall (fun km => coords1 (fst km) /\ message (snd km)) l -> coords2 sig -> Permutation l l' ->
  aggregate_verify (map fst l) (map snd l) sig chk = aggregate_verify (map fst l') (map snd l') sig chk.
Proof.
  intros l l' sig chk Hl Cs P. assert (Hl' : Forall (fun km => coords1 (fst km) /\ message (snd km)) l') by exact (Permutation_Forall P Hl).
  assert (S1 : forall l : list (g1 * list Z), Forall (fun km => coords1 (fst km) /\ message (snd km)) l -> Forall coords1 (map fst l) /\ Forall message (map snd l)).
  { clear. induction 1 as [|km l [H1 H2] H [I1 I2]]; split; constructor; assumption. }
  destruct (S1 l Hl) as [A1 A2]. destruct (S1 l' Hl') as [A1' A2']. destruct (aggregate_ok _ _ sig chk A1 A2 Cs) as (b & E & Hb). destruct (aggregate_ok _ _ sig chk A1' A2' Cs) as (b' & E' & Hb').
  rewrite E, E'. apply (f_equal Ok), eq_true_iff_eq. rewrite Hb, Hb'. clear -P.
  assert (S2 : forall (l l' : list (g1 * list Z)), Permutation l l' -> 
    length (map fst l) = length (map snd l) /\ (chk = true -> NoDup (map snd l)) /\ (exists T, keys_of (map fst l) T /\ hashes_of (map snd l) T /\ rep2g sig (lsum T)) ->
    length (map fst l') = length (map snd l') /\ (chk = true -> NoDup (map snd l')) /\ (exists T, keys_of (map fst l') T /\ hashes_of (map snd l') T /\ rep2g sig (lsum T))).
  { clear. intros l l' P (_ & N & T & K & H & S). split; [rewrite !map_length; reflexivity|]. split; [intros C; exact (Permutation_NoDup (Permutation_map snd P) (N C))|].
    destruct (Forall2_perm _ l l' P T (agg_pairs l T K H)) as (T' & PT & F). destruct (agg_unpair l' T' F) as [K' H']. exists T'. split; [exact K'|]. split; [exact H'|].
    unfold lsum. rewrite <- (gsum_perm _ _ (Permutation_map (fun aH => zmul (fst aH) (snd aH)) PT)). exact S. }
  split; apply S2; [exact P|exact (Permutation_sym P)].
Qed.
(** with no keys at all, exactly the identity is accepted as a signature *)
Theorem C50_empty : forall sig chk, coords2 sig -> exists b, aggregate_verify [] [] sig chk = Ok b /\ (b = true <-> rep2g sig gid).
Proof.
  intros sig chk Cs. destruct (aggregate_ok [] [] sig chk (Forall_nil _) (Forall_nil _) Cs) as (b & E & Hb). exists b. split; [exact E|]. rewrite Hb. split.
  - intros (_ & _ & T & K & _ & HS). inversion K; subst. exact HS.
  - intros HS. split; [reflexivity|]. split; [intros _; constructor|]. exists []. split; [constructor|]. split; [constructor|exact HS].
Qed.
(** a single pair: the same as verify *)
Theorem C50_single : forall pk m sig chk, coords1 pk -> message m -> coords2 sig -> aggregate_verify [pk] [m] sig chk = verify pk m sig.
Proof.
  intros pk m sig chk Cp Hm Cs. destruct (verify_ok pk m sig Cp Cs Hm) as (b & H & E & HH & Hb).
  destruct (aggregate_ok [pk] [m] sig chk (Forall_cons _ Cp (Forall_nil _)) (Forall_cons _ Hm (Forall_nil _)) Cs) as (b' & E' & Hb').
  rewrite E, E'. apply (f_equal Ok), eq_true_iff_eq. rewrite Hb, Hb'. split.
  - intros (_ & _ & T & K & Hs & HS). inversion K as [|? [a H'] ? ? K1 K2]; subst. inversion K2; subst. inversion Hs as [|? ? ? ? Hs1 _]; subst. cbn [fst snd] in *.
    pose proof (hash_fun _ _ _ _ HH Hs1) as <-. exists a. split; [exact K1|]. change (lsum [(a, H)]) with (gop (zmul a H) gid) in HS. rewrite g_id_r in HS. exact HS.
  - intros (a & Ha & Hs). split; [reflexivity|]. split; [intros _; constructor; [intros []|constructor]|]. exists [(a, H)]. split; [constructor; [exact Ha|constructor]|].
    split; [constructor; [exact HH|constructor]|]. change (lsum [(a, H)]) with (gop (zmul a H) gid). rewrite g_id_r. exact Hs.
Qed.
Example C50_nontrivial : let kms := [([7; 0; 0; 0], [1; 2]); ([9; 1; 0; 0], [3]); ([7; 0; 0; 0], [])] in
  Forall (fun km => key (fst km) /\ message (snd km)) kms /\ NoDup (map snd kms) /\ exists sigs, Forall2 (fun km s => sign (fst km) (snd km) = Ok s) kms sigs.
Proof.
  intros kms.
  assert (F : Forall (fun km => key (fst km) /\ message (snd km)) kms).
  { repeat constructor; cbn [fst snd]; try discriminate. }
  split; [exact F|]. split; [repeat constructor; cbn; intuition discriminate|].
  clearbody kms. induction F as [|[sk m] kms [K M] F IH]; [exists []; constructor|]. destruct IH as (sigs & H). destruct (C47_sign sk m K M) as (s & _ & E & _).
  exists (s :: sigs). constructor; [exact E|exact H].
Qed.

(** * C51 *)
Theorem C51_pop_accepts : forall pk sig, coords1 pk -> coords2 sig -> exists b, pop_verify pk sig = Ok b /\
  (b = true <-> exists a (H : E2), rep1g pk (zmul a G1gen) /\ hash_to_curve (pop_message (cpt (b := b1) (zmul a G1gen))) DST_POP H /\ rep2g sig (zmul a H)).
Proof. exact pop_verify_ok. Qed.
Theorem C51_pop_honest : forall sk, key sk -> exists s, pop_prove sk = Ok s /\ pop_verify (public_key sk) s = Ok true.
Proof.
  intros sk [Wk _]. destruct (pop_prove_ok sk Wk) as (s & H & E & HH & HR). exists s. split; [exact E|].
  destruct (pop_verify_ok (public_key sk) s (rep1g_coords _ _ (public_key_ok sk Wk)) (rep2g_coords _ _ HR)) as (b & Ev & Hb). rewrite Ev. apply (f_equal Ok), Hb.
  exists (val sk), H. split; [exact (public_key_ok sk Wk)|]. exact (conj HH HR).
Qed.
(** a key has only one valid proof *)
Theorem C51_pop_unique : forall pk s1 s2, coords1 pk -> coords2 s1 -> coords2 s2 -> pop_verify pk s1 = Ok true -> pop_verify pk s2 = Ok true -> g2_equal s1 s2 = true.
Proof.
  intros pk s1 s2 Cp C1 C2 V1 V2. destruct (pop_verify_ok pk s1 Cp C1) as (x & X & Hx). destruct (pop_verify_ok pk s2 Cp C2) as (y & Y & Hy).
  rewrite V1 in X. injection X as <-. rewrite V2 in Y. injection Y as <-. destruct (proj1 Hx eq_refl) as (a & H & Ha & HH & Hs). destruct (proj1 Hy eq_refl) as (a' & H' & Ha' & HH' & Hs').
  pose proof (rep1g_fun pk _ _ Ha Ha') as E. rewrite <- E in HH'. pose proof (hash_fun _ _ _ _ HH HH') as <-. apply (rep2g_equal _ _ _ _ Hs Hs').
  exact (dlog_eq a a' H (hash_order _ _ _ HH) E).
Qed.
(** the message signed in a proof determines the key *)
Theorem C51_pop_message_injective : forall P Q : E1, pop_message (cpt (b := b1) P) = pop_message (cpt (b := b1) Q) -> P = Q.
Proof.
  intros P Q E. destruct (rep1_ex P) as (p & Hp). destruct (rep1_ex Q) as (q & Hq). rewrite <- (popmsg_ok p P Hp), <- (popmsg_ok q Q Hq) in E.
  destruct C34_g1_affine_LE as (A & _). destruct (A p P false true Hp) as (_ & _ & x & Ex & Hx). destruct (A q Q false true Hq) as (_ & _ & y & Ey & Hy).
  rewrite E, Ey in Ex. injection Ex as <-. exact (rep1g_fun y P Q Hx Hy).
Qed.
Theorem C51_fast_empty : forall m sig, pop_fast_aggregate_verify [] m sig = Ok false.
Proof. reflexivity. Qed.
(** exactly what fast aggregate verification accepts, for keys on the curve *)
Theorem C51_fast_accepts : forall pks (Ps : list E1) m sig, pks <> [] -> Forall2 rep1g pks Ps -> coords2 sig -> message m ->
  exists b (H : E2), pop_fast_aggregate_verify pks m sig = Ok b /\ hash_to_curve m DST_SIG H /\ (b = true <-> exists a, gsum Ps = zmul a G1gen /\ rep2g sig (zmul a H)).
Proof.
  intros pks Ps m sig N HP Cs Hm. pose proof (agg_pk_ok pks Ps HP) as HA. destruct (verify_ok _ m sig (rep1g_coords _ _ HA) Cs Hm) as (b & H & E & HH & Hb).
  exists b, H. split; [|split; [exact HH|]].
  - destruct pks as [|pk pks]; [exfalso; apply N; reflexivity|]. exact E.
  - rewrite Hb. split; intros (a & Ha & Hs); exists a; split; try exact Hs.
    + exact (rep1g_fun _ _ _ HA Ha).
    + rewrite <- Ha. exact HA.
Qed.
Theorem C51_fast_honest : forall sks m sigs, sks <> [] -> Forall key sks -> message m -> Forall2 (fun sk s => sign sk m = Ok s) sks sigs ->
  pop_fast_aggregate_verify (map public_key sks) m (aggregate_signatures sigs) = Ok true.
Proof.
  intros sks m sigs N K Hm Hs. destruct (sig_hash m m (proj1 Hm) (read_short m (proj2 Hm))) as (h & H & _ & HH & _).
  assert (X : Forall2 rep1g (map public_key sks) (map (fun k => zmul k G1gen) (map val sks)) /\ Forall2 rep2g sigs (map (fun k => zmul k H) (map val sks))).
  { clear N. induction Hs as [|sk s sks sigs E Hs IH]; [split; constructor|]. inversion K as [|? ? [Wk Lk] K']; subst. destruct (IH K') as [I1 I2].
    destruct (sign_ok sk m Wk Hm) as (s' & H' & E' & HH' & HR & _). rewrite E in E'. injection E' as <-. pose proof (hash_fun _ _ _ _ HH HH') as <-.
    split; constructor; [exact (public_key_ok sk Wk)|exact I1|exact HR|exact I2]. }
  destruct X as [X1 X2]. pose proof (agg_sig_ok _ _ X2) as HS. rewrite gsum_zmul in HS.
  destruct (C51_fast_accepts (map public_key sks) _ m (aggregate_signatures sigs) ltac:(destruct sks; [exfalso; apply N; reflexivity|discriminate]) X1 (rep2g_coords _ _ HS) Hm) as (b & H' & E & HH' & Hb).
  rewrite E. apply (f_equal Ok), Hb. exists (zsum (map val sks)). split; [apply gsum_zmul|]. pose proof (hash_fun _ _ _ _ HH HH') as <-. exact HS.
Qed.
(** only the sum of the keys is checked: for every honest key and message there is an accepted list of two keys, neither of which is in the subgroup *)
Theorem C51_individual_keys_refuted : forall sk m, key sk -> message m -> exists pk1 pk2 s, sign sk m = Ok s /\
  g1_inCorrectSubgroup pk1 = false /\ g1_inCorrectSubgroup pk2 = false /\ pop_fast_aggregate_verify [pk1; pk2] m s = Ok true.
Proof.
  intros sk m [Wk _] Hm. destruct order3 as (T & NT & _). destruct (rep1_ex T) as (t & Ht). destruct (sign_ok sk m Wk Hm) as (s & H & E & HH & HR & OH).
  pose proof (rep1g_add _ _ _ _ (public_key_ok sk Wk) Ht) as R1. pose proof (rep1g_neg _ _ Ht) as R2.
  exists (g1_add (public_key sk) t), (g1_neg t), s. split; [exact E|]. split; [|split].
  - apply not_true_is_false. intros X. apply (g1_inCorrectSubgroup_ok _ _ R1) in X. apply NT. rewrite zmul_op, (zord (val sk) _ G1gen_r), g_id in X. exact X.
  - apply not_true_is_false. intros X. apply (g1_inCorrectSubgroup_ok _ _ R2) in X. apply NT. rewrite zmul_inv in X. apply g_inv_inj. rewrite X. symmetry. apply g_inv_0.
  - destruct (C51_fast_accepts [g1_add (public_key sk) t; g1_neg t] [gop (zmul (val sk) G1gen) T; ginv T] m s ltac:(discriminate)
      ltac:(constructor; [exact R1|constructor; [exact R2|constructor]]) (rep2g_coords _ _ HR) Hm) as (b & H' & Ev & HH' & Hb).
    rewrite Ev. apply (f_equal Ok), Hb. exists (val sk). split.
    + rewrite !gsum_cons, g_assoc, <- (g_assoc _ T), g_inv, g_id. apply g_id_r.
    + pose proof (hash_fun _ _ _ _ HH HH') as <-. exact HR.
Qed.
(** without proofs of possession: a second key chosen after the first makes the owner of sk able to sign alone for both *)
Theorem C51_rogue_key : forall pk1 (P1 : E1) sk m, rep1g pk1 P1 -> key sk -> message m ->
  exists pk2 s, sign sk m = Ok s /\ rep1g pk2 (gop (zmul (val sk) G1gen) (ginv P1)) /\ pop_fast_aggregate_verify [pk1; pk2] m s = Ok true.
Proof.
  intros pk1 P1 sk m H1 [Wk _] Hm. destruct (sign_ok sk m Wk Hm) as (s & H & E & HH & HR & OH). pose proof (rep1g_sub _ _ _ _ (public_key_ok sk Wk) H1) as R2.
  exists (g1_sub (public_key sk) pk1), s. split; [exact E|]. split; [exact R2|].
  destruct (C51_fast_accepts [pk1; g1_sub (public_key sk) pk1] [P1; gop (zmul (val sk) G1gen) (ginv P1)] m s ltac:(discriminate)
      ltac:(constructor; [exact H1|constructor; [exact R2|constructor]]) (rep2g_coords _ _ HR) Hm) as (b & H' & Ev & HH' & Hb).
  rewrite Ev. apply (f_equal Ok), Hb. exists (val sk). split.
  + rewrite !gsum_cons, (g_comm _ _ (ginv P1)), g_assoc, <- g_assoc, g_inv, g_id. apply g_id_r.
  + pose proof (hash_fun _ _ _ _ HH HH') as <-. exact HR.
Qed.
Example C51_nontrivial : Forall key [[7; 0; 0; 0]; [0; 0; 1; 0]] /\ (exists sigs, Forall2 (fun sk s => sign sk [1] = Ok s) [[7; 0; 0; 0]; [0; 0; 1; 0]] sigs) /\
  Forall2 rep1g [g1_BASE; g1_zero] [G1gen; gid] /\ rep1g g1_BASE G1gen.
Proof.
  assert (K : Forall key [[7; 0; 0; 0]; [0; 0; 1; 0]]) by (repeat constructor; discriminate).
  assert (M : message [1]) by (split; [repeat constructor; discriminate|reflexivity]).
  split; [exact K|]. split.
  - generalize dependent ([[7; 0; 0; 0]; [0; 0; 1; 0]]). intros ks K. induction K as [|sk ks Hk K (sigs & IH)]; [exists []; constructor|].
    destruct (C47_sign sk [1] Hk M) as (s & _ & E & _). exists (s :: sigs). constructor; [exact E|exact IH].
  - split; [constructor; [exact BASE1_rep|constructor; [exact rep1g_zero|constructor]]|exact BASE1_rep].
Qed.

(** * C57 *)
(** msg.size() becomes a signed 32-bit length: from 2^31 bytes on it is negative and the hash reads out of bounds ... *)
Theorem C57_out_of_bounds_refuted : forall pk m sig sk, 2 ^ 31 <= Z.of_nat (length m) < 2 ^ 32 -> verify pk m sig = OutOfBounds /\ sign sk m = OutOfBounds.
Proof.
  intros pk m sig sk L. assert (X : fromMessage m CIPHERSUITE_ID = OutOfBounds).
  { apply fromMessage_oob; [rewrite ID_eq; apply len43, DST_SIG_len|]. rewrite s32_wrap by lia. lia. }
  unfold verify, sign. rewrite X. split; reflexivity.
Qed.
(** ... and from 2^32 bytes on only a prefix is hashed: different messages get the same signature *)
Theorem C57_prefix_refuted : forall m dst, 2 ^ 32 <= Z.of_nat (length m) < 2 ^ 32 + 2 ^ 31 ->
  fromMessage m dst = fromMessage (firstn (Z.to_nat (Z.of_nat (length m) - 2 ^ 32)) m) dst.
Proof.
  intros m dst L. apply fromMessage_read. rewrite s32_wrap by lia. set (k := Z.of_nat (length m) - 2 ^ 32).
  assert (Lf : length (firstn (Z.to_nat k) m) = Z.to_nat k) by (apply firstn_length_le; unfold k; lia).
  assert (Bk : 0 <= k < 2 ^ 31) by (unfold k; lia). rewrite Lf, Z2Nat.id by lia. rewrite s32_small by exact Bk.
  unfold read_bytes. rewrite Lf, Z2Nat.id by lia. rewrite (proj2 (Z.leb_le 0 k)), (proj2 (Z.leb_le k k)), (proj2 (Z.leb_le k _)) by (unfold k; lia). cbn [andb].
  rewrite firstn_all2 with (l := firstn (Z.to_nat k) m) by (rewrite Lf; apply le_n). reflexivity.
Qed.
Theorem C57_same_signature_refuted : forall pk sig sk m e, message m -> bytes e -> Z.of_nat (length e) = 2 ^ 32 ->
  verify pk (m ++ e) sig = verify pk m sig /\ sign sk (m ++ e) = sign sk m.
Proof.
  intros pk sig sk m e [Bm Lm] Be Le.
  assert (X : fromMessage (m ++ e) CIPHERSUITE_ID = fromMessage m CIPHERSUITE_ID).
  { assert (LL : Z.of_nat (length (m ++ e)) = Z.of_nat (length m) + 2 ^ 32) by (rewrite app_length, Nat2Z.inj_add, Le; reflexivity).
    rewrite C57_prefix_refuted by lia. apply (f_equal (fun x => fromMessage x CIPHERSUITE_ID)). rewrite LL. replace (Z.to_nat (Z.of_nat (length m) + 2 ^ 32 - 2 ^ 32)) with (length m) by lia.
    rewrite firstn_app, firstn_all, Nat.sub_diag, firstn_O. apply app_nil_r. }
  unfold verify, sign. rewrite X. split; reflexivity.
Qed.
(** fromMessage ignores the error for tags longer than 255 bytes: the result then comes from uninitialised memory and does not depend on the message *)
Theorem C57_long_tag_refuted : forall init m m' dst, 255 < Z.of_nat (length dst) < 2 ^ 31 -> fromMessage_init init m dst = fromMessage_init init m' dst.
Proof. exact fromMessage_longtag. Qed.
(** for shorter tags the previous content of the buffer does not matter *)
Theorem C57_uninitialised : forall init init' m dst, bytes m -> bytes dst -> (length dst <= 255)%nat -> length init = 256%nat -> length init' = 256%nat ->
  fromMessage_init init m dst = fromMessage_init init' m dst.
Proof. exact fromMessage_init_irrel. Qed.
Example C57_nontrivial : (exists m, bytes m /\ Z.of_nat (length m) = 2 ^ 31) /\ (exists e, bytes e /\ Z.of_nat (length e) = 2 ^ 32) /\ (exists dst, bytes dst /\ Z.of_nat (length dst) = 256).
Proof.
  assert (X : forall n, 0 <= n -> exists m, bytes m /\ Z.of_nat (length m) = n).
  { intros n H. exists (repeat 1 (Z.to_nat n)). split; [|rewrite repeat_length; apply Z2Nat.id; exact H].
    apply Forall_forall. intros x Hx. apply repeat_spec in Hx. subst x. split; [discriminate|reflexivity]. }
  split; [|split]; apply X; discriminate.
Qed.

(** * C42: aggregation with accessor and predicate *)
Definition chosen {T} (pred : T -> nat -> bool) (l : list T) : list T := map fst (filter (fun xi => pred (fst xi) (snd xi)) (combine l (seq 0 (length l)))).
Lemma chosen_ok {T} (pred : T -> nat -> bool) (l : list T) : forall i, map fst (filter (fun xi => pred (fst xi) (snd xi)) (combine l (seq i (length l)))) = selected pred i l.
Proof. induction l as [|x l IH]; intros i; [reflexivity|]. cbn [length seq combine filter selected fst snd]. destruct (pred x i); cbn [map fst]; rewrite IH; reflexivity. Qed.
Theorem C42_selected_keys : forall T (l : list T) f pred, aggregate_public_keys_by l f pred = aggregate_public_keys (map f (chosen pred l)).
Proof. intros T l f pred. unfold aggregate_public_keys_by, chosen. rewrite agg_by_fold, chosen_ok. reflexivity. Qed.
Theorem C42_selected_signatures : forall T (l : list T) f pred, aggregate_signatures_by l f pred = aggregate_signatures (map f (chosen pred l)).
Proof. intros T l f pred. unfold aggregate_signatures_by, chosen. rewrite agg_by_fold, chosen_ok. reflexivity. Qed.
Example C42_selected_nontrivial : chosen (fun _ i => Nat.even i) [10; 20; 30; 40] = [10; 30].
Proof. reflexivity. Qed.

Definition props_sig := (C47_spec_total, C47_fromMessage, C47_sign, C47_honest, C48_accepts, C48_equation, C48_unique, C48_checked, C48_representation, C48_message_binding, C48_key_binding, C49_identity, C49_identity_verifies, C49_identity_signature, C49_pop_identity, C49_aggregate_identity, C50_accepts, C50_rejects_length, C50_rejects_duplicates, C50_checked, C50_honest, C50_permutation, C50_empty, C50_single, C51_pop_accepts, C51_pop_honest, C51_pop_unique, C51_pop_message_injective, C51_fast_empty, C51_fast_accepts, C51_fast_honest, C51_individual_keys_refuted, C51_rogue_key, C57_out_of_bounds_refuted, C57_prefix_refuted, C57_same_signature_refuted, C57_long_tag_refuted, C57_uninitialised, C42_selected_keys, C42_selected_signatures).
Print Assumptions props_sig.
