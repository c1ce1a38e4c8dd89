(** C68-C71: relations between the verification functions and what can be computed from accepted signatures; unhardened derivation; domain
    separation; keys as identifiers.
    Notation as in Properties_Sig: rep1g p P, rep2g q Q: the g1 (g2) value denotes the curve point; coords1, coords2: coordinates below p;
    key k: four 64-bit words; message m: fewer than 2^31 bytes. *)
From Coq Require Import ZArith Znumtheory List Bool Lia Permutation.
From Verif Require Import SpecField SpecBytes SpecHash SpecCodec SpecKeys SpecCurve SpecMap SpecSig SpecPairing.
From Verif Require Import ModelWord ModelScalar ModelFp ModelTower ModelCurve ModelCodec ModelKdf ModelKeys ModelPairing ModelSig.
From Verif Require Import ScalarProof BytesProof KeysProof FieldProof FpProof TowerRefine.
From Verif Require Import AbGroup CurveProof CurveInst CurveReps CurveBase GenProof Orders Cofactor PairUnits PairBilin PairSpec SigProof MapG1 ModelDiv ModelSha ShaProof KdfProof KeysExact Properties_Codec Properties_Sig Properties_Wire.
Import ListNotations.
Local Open Scope Z_scope.

Lemma verify_iff pk m sig (H : E2) : coords1 pk -> coords2 sig -> message m -> hash_to_curve m DST_SIG H ->
  exists b, verify pk m sig = Ok b /\ (b = true <-> exists a, rep1g pk (zmul a G1gen) /\ rep2g sig (zmul a H)).
Proof. intros Cp Cs Hm HH. destruct (verify_ok pk m sig Cp Cs Hm) as (b & H' & E & HH' & Hb). pose proof (hash_fun _ _ _ _ HH HH') as <-. exists b. exact (conj E Hb). Qed.
Lemma msg_hash m : message m -> exists H : E2, hash_to_curve m DST_SIG H /\ zmul order H = gid.
Proof. intros Hm. destruct (sig_hash m m (proj1 Hm) (read_short m (proj2 Hm))) as (h & H & _ & HH & _). exists H. exact (conj HH (hash_order _ _ _ HH)). Qed.
Lemma verify_intro pk m sig (H : E2) a : message m -> hash_to_curve m DST_SIG H -> rep1g pk (zmul a G1gen) -> rep2g sig (zmul a H) -> verify pk m sig = Ok true.
Proof.
  intros Hm HH Hp Hs. destruct (verify_iff pk m sig H (rep1g_coords _ _ Hp) (rep2g_coords _ _ Hs) Hm HH) as (b & E & Hb). rewrite E. apply (f_equal Ok), Hb. exists a. exact (conj Hp Hs).
Qed.
Lemma G1_dlog a a' : zmul a G1gen = zmul a' G1gen -> (order | a - a').
Proof. intros E. apply (zmul_prime order _ G1gen order_prime G1gen_r G1gen_nz). rewrite zmul_sub, E. apply g_inv. Qed.
Lemma zmul_order_dvd {G : abgroup} k (P : G) : zmul order P = gid -> (order | k) -> zmul k P = gid.
Proof. intros O [q ->]. rewrite zmul_mul, O. apply zmul_id. Qed.

(** * C68 *)
(** sums, multiples and negatives of accepted signatures are accepted for the sums, multiples and negatives of the keys *)
Theorem C68_add : forall pk1 pk2 m s1 s2, coords1 pk1 -> coords1 pk2 -> coords2 s1 -> coords2 s2 -> message m ->
  verify pk1 m s1 = Ok true -> verify pk2 m s2 = Ok true -> verify (g1_add pk1 pk2) m (g2_add s1 s2) = Ok true.
Proof.
  intros pk1 pk2 m s1 s2 C1 C2 D1 D2 Hm V1 V2. destruct (accepted pk1 m s1 C1 D1 Hm V1) as (H & a & HH & Ha & Hs). destruct (accepted pk2 m s2 C2 D2 Hm V2) as (H' & a' & HH' & Ha' & Hs').
  pose proof (hash_fun _ _ _ _ HH HH') as <-. apply (verify_intro _ m _ H (a + a') Hm HH); rewrite zmul_add; [exact (rep1g_add _ _ _ _ Ha Ha')|exact (rep2g_add _ _ _ _ Hs Hs')].
Qed.
Theorem C68_scale : forall pk m s k, coords1 pk -> coords2 s -> message m -> words k -> verify pk m s = Ok true -> verify (g1_scale pk k) m (g2_scale s k) = Ok true.
Proof.
  intros pk m s k C D Hm Wk V. destruct (accepted pk m s C D Hm V) as (H & a & HH & Ha & Hs).
  apply (verify_intro _ m _ H (val k * a) Hm HH); rewrite zmul_mul; [exact (rep1g_scale _ _ k Ha Wk)|exact (rep2g_scale _ _ k Hs Wk)].
Qed.
Theorem C68_negate : forall pk m s (P : E1) (S : E2), message m -> rep1g pk P -> rep2g s S -> verify (g1_neg pk) m (g2_neg s) = verify pk m s.
Proof.
  intros pk m s P S Hm HP HS. destruct (msg_hash m Hm) as (H & HH & OH). pose proof (rep1g_neg _ _ HP) as NP. pose proof (rep2g_neg _ _ HS) as NS.
  destruct (verify_iff pk m s H (rep1g_coords _ _ HP) (rep2g_coords _ _ HS) Hm HH) as (b & E & Hb).
  destruct (verify_iff _ m _ H (rep1g_coords _ _ NP) (rep2g_coords _ _ NS) Hm HH) as (b' & E' & Hb'). rewrite E, E'. apply (f_equal Ok), eq_true_iff_eq. rewrite Hb, Hb'.
  split; intros (a & Ha & Hs); exists (- a); rewrite !zmul_opp.
  - rewrite <- (rep1g_fun _ _ _ NP Ha), <- (rep2g_fun _ _ _ NS Hs), !g_inv_inv. exact (conj HP HS).
  - rewrite <- (rep1g_fun _ _ _ HP Ha), <- (rep2g_fun _ _ _ HS Hs). exact (conj NP NS).
Qed.
(** a signature for a multiple of a key gives one for the key, if the factor is not divisible by r *)
Theorem C68_unscale : forall pk m s k (P : E1) (S : E2), message m -> words k -> ~ (order | val k) -> rep1g pk P -> zmul order P = gid -> rep2g s S -> zmul order S = gid ->
  verify (g1_scale pk k) m (g2_scale s k) = verify pk m s.
Proof.
  intros pk m s k P S Hm Wk Nk HP OP HS OS. destruct (msg_hash m Hm) as (H & HH & OH). pose proof (rep1g_scale _ _ k HP Wk) as NP. pose proof (rep2g_scale _ _ k HS Wk) as NS.
  destruct (verify_iff pk m s H (rep1g_coords _ _ HP) (rep2g_coords _ _ HS) Hm HH) as (b & E & Hb).
  destruct (verify_iff _ m _ H (rep1g_coords _ _ NP) (rep2g_coords _ _ NS) Hm HH) as (b' & E' & Hb'). rewrite E, E'. apply (f_equal Ok), eq_true_iff_eq. rewrite Hb, Hb'. split.
  - intros (a & Ha & Hs). destruct (sub1_cyclic P OP) as (c & ->). exists c. split; [exact HP|].
    pose proof (rep1g_fun _ _ _ NP Ha) as E1. pose proof (rep2g_fun _ _ _ NS Hs) as E2'. rewrite <- zmul_mul in E1.
    rewrite <- (dlog_eq _ _ H OH E1), zmul_mul in E2'.
    destruct (g_dec CurveInst.E2 S (zmul c H)) as [X|X]; [rewrite <- X; exact HS|]. exfalso. apply Nk. apply (zmul_prime order (val k) (gop S (ginv (zmul c H))) order_prime).
    + rewrite zmul_op, zmul_inv, OS, (zord c _ OH), g_inv_0. apply g_id.
    + intros Y. apply X, g_sub0, Y.
    + rewrite zmul_op, zmul_inv, E2'. apply g_inv.
  - intros (a & Ha & Hs). exists (val k * a). rewrite !zmul_mul. rewrite (rep1g_fun _ _ _ HP Ha) in NP. rewrite (rep2g_fun _ _ _ HS Hs) in NS. exact (conj NP NS).
Qed.

(** ** aggregates *)
Lemma agg_elim pks ms sig chk : Forall coords1 pks -> Forall message ms -> coords2 sig -> aggregate_verify pks ms sig chk = Ok true ->
  length pks = length ms /\ (chk = true -> NoDup ms) /\ exists T, keys_of pks T /\ hashes_of ms T /\ rep2g sig (lsum T).
Proof. intros Cp Hm Cs V. destruct (aggregate_ok pks ms sig chk Cp Hm Cs) as (b & E & Hb). rewrite V in E. injection E as <-. exact (proj1 Hb eq_refl). Qed.
Lemma keys_coords pks T : keys_of pks T -> Forall coords1 pks.
Proof. induction 1 as [|pk aH pks T H K IH]; constructor; [exact (rep1g_coords _ _ H)|exact IH]. Qed.
Lemma Forall2_length {A B} (R : A -> B -> Prop) l l' : Forall2 R l l' -> length l = length l'.
Proof. induction 1; cbn [length]; congruence. Qed.
Lemma agg_intro pks ms sig chk T : Forall message ms -> (chk = true -> NoDup ms) -> keys_of pks T -> hashes_of ms T -> rep2g sig (lsum T) -> aggregate_verify pks ms sig chk = Ok true.
Proof.
  intros Hm N K Hs S. destruct (aggregate_ok pks ms sig chk (keys_coords _ _ K) Hm (rep2g_coords _ _ S)) as (b & E & Hb). rewrite E. apply (f_equal Ok), Hb.
  split; [rewrite (Forall2_length _ _ _ K), (Forall2_length _ _ _ Hs); reflexivity|]. split; [exact N|]. exists T. exact (conj K (conj Hs S)).
Qed.
Lemma nochk (ms : list (list Z)) : false = true -> NoDup ms. Proof. discriminate. Qed.
Lemma lsum_app T T' : lsum (T ++ T') = gop (lsum T) (lsum T').
Proof. unfold lsum. rewrite map_app. apply gsum_app. Qed.
Lemma lsum_cons a H T : lsum ((a, H) :: T) = gop (zmul a H) (lsum T). Proof. reflexivity. Qed.
Lemma agg_bool pks ms sig chk : Forall coords1 pks -> Forall message ms -> coords2 sig -> exists b, aggregate_verify pks ms sig chk = Ok b.
Proof. intros Cp Hm Cs. destruct (aggregate_ok pks ms sig chk Cp Hm Cs) as (b & E & _). exists b. exact E. Qed.
Lemma ok_ext (x y : outcome bool) : (exists b, x = Ok b) -> (exists b, y = Ok b) -> (x = Ok true <-> y = Ok true) -> x = y.
Proof.
  intros [b ->] [c ->] E. destruct b; [symmetry; apply E; reflexivity|]. destruct c; [apply E; reflexivity|reflexivity].
Qed.
(** two accepted aggregates can be aggregated ... *)
Theorem C68_concat : forall pks ms s pks' ms' s' c c', Forall coords1 pks -> Forall message ms -> coords2 s -> Forall coords1 pks' -> Forall message ms' -> coords2 s' ->
  aggregate_verify pks ms s c = Ok true -> aggregate_verify pks' ms' s' c' = Ok true -> aggregate_verify (pks ++ pks') (ms ++ ms') (g2_add s s') false = Ok true.
Proof.
  intros pks ms s pks' ms' s' c c' Cp Hm Cs Cp' Hm' Cs' V V'. destruct (agg_elim _ _ _ _ Cp Hm Cs V) as (_ & _ & T & K & Hs & S). destruct (agg_elim _ _ _ _ Cp' Hm' Cs' V') as (_ & _ & T' & K' & Hs' & S').
  apply (agg_intro _ _ _ _ (T ++ T')); [apply Forall_app; exact (conj Hm Hm')|discriminate|exact (Forall2_app K K')|exact (Forall2_app Hs Hs')|]. rewrite lsum_app. exact (rep2g_add _ _ _ _ S S').
Qed.
(** ... and an accepted part can be taken out again *)
Theorem C68_cancel : forall pks ms s (S : E2) pks' ms' s' c', Forall coords1 pks -> Forall message ms -> length pks = length ms -> rep2g s S ->
  Forall coords1 pks' -> Forall message ms' -> coords2 s' -> aggregate_verify pks' ms' s' c' = Ok true ->
  aggregate_verify (pks ++ pks') (ms ++ ms') (g2_add s s') false = aggregate_verify pks ms s false.
Proof.
  intros pks ms s S pks' ms' s' c' Cp Hm L HS Cp' Hm' Cs' V'. destruct (agg_elim _ _ _ _ Cp' Hm' Cs' V') as (L' & _ & T' & K' & Hs' & S').
  pose proof (rep2g_add _ _ _ _ HS S') as HA.
  assert (CA : Forall coords1 (pks ++ pks')) by (apply Forall_app; exact (conj Cp Cp')). assert (MA : Forall message (ms ++ ms')) by (apply Forall_app; exact (conj Hm Hm')).
  apply ok_ext; [exact (agg_bool _ _ _ _ CA MA (rep2g_coords _ _ HA))|exact (agg_bool _ _ _ _ Cp Hm (rep2g_coords _ _ HS))|]. split.
  - intros V. destruct (agg_elim _ _ _ _ CA MA (rep2g_coords _ _ HA) V) as (_ & _ & T & K & Hs & SA).
    apply Forall2_app_inv_l in K. destruct K as (T1 & T2 & K1 & K2 & ->). apply Forall2_app_inv_l in Hs. destruct Hs as (T3 & T4 & Hs1 & Hs2 & ET).
    assert (LT : length T1 = length T3) by (rewrite <- (Forall2_length _ _ _ K1), <- (Forall2_length _ _ _ Hs1); exact L).
    assert (X : T1 = T3 /\ T2 = T4).
    { clear -ET LT. revert T3 LT ET. induction T1 as [|x T1 IH]; intros [|y T3] LT ET; try discriminate LT; [exact (conj eq_refl ET)|]. injection ET as -> ET. injection LT as LT. destruct (IH T3 LT ET) as [-> ->]. auto. }
    destruct X as [<- <-]. apply (agg_intro _ _ _ _ T1 Hm (nochk _) K1 Hs1). rewrite lsum_app, (lsum_uniq ms' pks' T2 T' K2 K' Hs2 Hs') in SA.
    rewrite <- (g_cancel_r _ _ _ (rep2g_fun _ _ _ HA SA)). exact HS.
  - intros V. exact (C68_concat _ _ _ _ _ _ _ _ Cp Hm (rep2g_coords _ _ HS) Cp' Hm' Cs' V V').
Qed.
(** an aggregate accepted with and without a pair: the key or the hash of the message is the identity *)
Theorem C68_participation : forall pk m pks ms s c c' (H : E2), coords1 pk -> message m -> hash_to_curve m DST_SIG H -> Forall coords1 pks -> Forall message ms -> coords2 s ->
  aggregate_verify (pk :: pks) (m :: ms) s c = Ok true -> aggregate_verify pks ms s c' = Ok true -> rep1g pk gid \/ H = gid.
Proof.
  intros pk m pks ms s c c' H Cp Hm HH Cps Hms Cs V V'. destruct (agg_elim _ _ _ _ (Forall_cons _ Cp Cps) (Forall_cons _ Hm Hms) Cs V) as (_ & _ & T & K & Hs & S).
  destruct (agg_elim _ _ _ _ Cps Hms Cs V') as (_ & _ & T' & K' & Hs' & S'). inversion K as [|? [a H'] ? T1 K1 K2]; subst. inversion Hs as [|? ? ? ? Hs1 Hs2]; subst. cbn [fst snd] in *.
  pose proof (hash_fun _ _ _ _ HH Hs1) as <-. pose proof (hash_order _ _ _ HH) as OH. pose proof (rep2g_fun _ _ _ S S') as E. rewrite lsum_cons, (lsum_uniq ms pks T1 T' K2 K' Hs2 Hs') in E.
  assert (Z : zmul a H = gid) by (apply (g_cancel_r (lsum T')); rewrite E, g_id; reflexivity).
  destruct (g_dec CurveInst.E2 H gid) as [X|X]; [right; exact X|left]. pose proof (zmul_prime order a H order_prime OH X Z) as D. rewrite (zmul_order_dvd a _ G1gen_r D) in K1. exact K1.
Qed.
(** keys that sign the same message can be added *)
Theorem C68_merge : forall pk1 pk2 (P1 P2 : E1) m pks ms s, rep1g pk1 P1 -> rep1g pk2 P2 -> zmul order P1 = gid -> zmul order P2 = gid -> message m -> Forall coords1 pks -> Forall message ms -> coords2 s ->
  aggregate_verify (pk1 :: pk2 :: pks) (m :: m :: ms) s false = aggregate_verify (g1_add pk1 pk2 :: pks) (m :: ms) s false.
Proof.
  intros pk1 pk2 P1 P2 m pks ms s H1 H2 O1 O2 Hm Cp Hms Cs. pose proof (rep1g_add _ _ _ _ H1 H2) as HA.
  assert (CL : Forall coords1 (pk1 :: pk2 :: pks)) by exact (Forall_cons _ (rep1g_coords _ _ H1) (Forall_cons _ (rep1g_coords _ _ H2) Cp)).
  assert (CR : Forall coords1 (g1_add pk1 pk2 :: pks)) by exact (Forall_cons _ (rep1g_coords _ _ HA) Cp).
  assert (ML : Forall message (m :: m :: ms)) by exact (Forall_cons _ Hm (Forall_cons _ Hm Hms)). assert (MR : Forall message (m :: ms)) by exact (Forall_cons _ Hm Hms).
  apply ok_ext; [exact (agg_bool _ _ _ _ CL ML Cs)|exact (agg_bool _ _ _ _ CR MR Cs)|]. split; intros V.
  - destruct (agg_elim _ _ _ _ CL ML Cs V) as (_ & _ & T & K & Hs & S). inversion K as [|? [a H] ? T1 K1 K2]; subst. inversion K2 as [|? [a' H'] ? T2 K3 K4]; subst.
    inversion Hs as [|? ? ? ? Hs1 Hs2]; subst. inversion Hs2 as [|? ? ? ? Hs3 Hs4]; subst. cbn [fst snd] in *. pose proof (hash_fun _ _ _ _ Hs1 Hs3) as <-.
    apply (agg_intro _ _ _ _ ((a + a', H) :: T2) MR (nochk _)).
    + constructor; [|exact K4]. cbn [fst]. rewrite zmul_add. exact (rep1g_add _ _ _ _ K1 K3).
    + constructor; [exact Hs1|exact Hs4].
    + rewrite !lsum_cons, <- g_assoc, <- zmul_add in S. exact S.
  - destruct (agg_elim _ _ _ _ CR MR Cs V) as (_ & _ & T & K & Hs & S). inversion K as [|? [a H] ? T1 K1 K2]; subst. inversion Hs as [|? ? ? ? Hs1 Hs2]; subst. cbn [fst snd] in *.
    destruct (sub1_cyclic P1 O1) as (x & ->). destruct (sub1_cyclic P2 O2) as (y & ->).
    apply (agg_intro _ _ _ _ ((x, H) :: (y, H) :: T1) ML (nochk _)).
    + constructor; [exact H1|constructor; [exact H2|exact K2]].
    + constructor; [exact Hs1|constructor; [exact Hs1|exact Hs2]].
    + rewrite !lsum_cons, <- g_assoc, <- zmul_add. rewrite lsum_cons in S. pose proof (rep1g_fun _ _ _ HA K1) as E. rewrite <- zmul_add in E.
      rewrite (dlog_eq _ _ H (hash_order _ _ _ Hs1) E). exact S.
Qed.
(** for keys in the subgroup, fast aggregate verification is aggregate verification with the message repeated *)
Lemma repeat_hash m (H : E2) n T : hash_to_curve m DST_SIG H -> hashes_of (repeat m n) T -> T = map (fun a => (a, H)) (map fst T) /\ length T = n.
Proof.
  intros HH. revert T. induction n as [|n IH]; intros T Hs; cbn [repeat] in Hs; inversion Hs as [|? [a H'] ? T1 Hs1 Hs2]; subst; [split; reflexivity|]. cbn [snd] in Hs1. pose proof (hash_fun _ _ _ _ HH Hs1) as <-.
  destruct (IH _ Hs2) as [E L]. cbn [map fst length]. rewrite <- E, L. split; reflexivity.
Qed.
Lemma lsum_same (H : E2) ks : lsum (map (fun a => (a, H)) ks) = zmul (zsum ks) H.
Proof. unfold lsum. rewrite map_map. cbn [fst snd]. apply gsum_zmul. Qed.
Lemma keys_same pks (H : E2) ks : keys_of pks (map (fun a => (a, H)) ks) <-> Forall2 (fun pk a => rep1g pk (zmul a G1gen)) pks ks.
Proof.
  split; revert pks; induction ks as [|a ks IH]; intros pks K; cbn [map] in *; inversion K; subst; constructor; auto; apply IH; assumption.
Qed.
Lemma keys_reps pks ks : Forall2 (fun pk a => rep1g pk (zmul a G1gen)) pks ks -> Forall2 rep1g pks (map (fun a => zmul a G1gen) ks).
Proof. induction 1; constructor; assumption. Qed.
Theorem C68_fast : forall pks m s, pks <> [] -> Forall (fun pk => coords1 pk /\ g1_isOnCurve pk = true /\ g1_inCorrectSubgroup pk = true) pks -> message m -> coords2 s ->
  pop_fast_aggregate_verify pks m s = aggregate_verify pks (repeat m (length pks)) s false.
Proof.
  intros pks m s N F Hm Cs. destruct (msg_hash m Hm) as (H & HH & OH).
  assert (X : exists ks, Forall2 (fun pk a => rep1g pk (zmul a G1gen)) pks ks).
  { clear N. induction F as [|pk pks (C & O & I) F (ks & IH)]; [exists []; constructor|].
    destruct (rep1g_ex pk (proj1 C) (proj1 (proj2 C)) (proj2 (proj2 C)) O) as (P & HP). apply (g1_inCorrectSubgroup_ok _ _ HP) in I. destruct (sub1_cyclic P I) as (a & ->). exists (a :: ks). constructor; assumption. }
  destruct X as (ks & X). pose proof (keys_reps _ _ X) as XR.
  assert (C : Forall coords1 pks) by (clear -F; induction F as [|pk pks (C & _) F IH]; constructor; assumption).
  assert (M : Forall message (repeat m (length pks))) by (apply Forall_forall; intros x Hx; apply repeat_spec in Hx; subst x; exact Hm).
  destruct (C51_fast_accepts pks _ m s N XR Cs Hm) as (b & H' & E & HH' & Hb). pose proof (hash_fun _ _ _ _ HH HH') as <-.
  apply ok_ext; [exists b; exact E|exact (agg_bool _ _ _ _ C M Cs)|]. rewrite E. split.
  - intros [= ->]. destruct (proj1 Hb eq_refl) as (a & Ea & Hs). rewrite gsum_zmul in Ea. apply (agg_intro _ _ _ _ (map (fun a => (a, H)) ks) M (nochk _)).
    + apply keys_same. exact X.
    + rewrite (Forall2_length _ _ _ X). clear -HH. induction ks as [|a ks IH]; cbn [length repeat map]; constructor; assumption.
    + rewrite lsum_same, (dlog_eq _ _ H OH Ea). exact Hs.
  - intros V. destruct (agg_elim _ _ _ _ C M Cs V) as (_ & _ & T & K & Hs & S). destruct (repeat_hash m H _ T HH Hs) as [ET _]. rewrite ET in K, S. rewrite lsum_same in S. apply keys_same in K.
    apply (f_equal Ok), Hb. exists (zsum (map fst T)). split; [|exact S]. rewrite <- gsum_zmul. f_equal. clear -K XR. pose proof (keys_reps _ _ K) as K'. revert K' XR.
    generalize (map (fun k => zmul k G1gen) ks) as A. generalize (map (fun k => zmul k G1gen) (map fst T)) as B. clear. induction pks as [|pk pks IH]; intros B A HB HA; inversion HA; inversion HB; subst; [reflexivity|].
    f_equal; [eapply rep1g_fun; eassumption|apply IH; assumption].
Qed.
(** without that check it accepts more: two keys outside the subgroup, rejected by aggregate_verify *)
Theorem C68_fast_refuted : forall sk m, key sk -> message m -> exists pk1 pk2 s, coords1 pk1 /\ coords1 pk2 /\ coords2 s /\ sign sk m = Ok s /\
  pop_fast_aggregate_verify [pk1; pk2] m s = Ok true /\ aggregate_verify [pk1; pk2] [m; m] s false = Ok false.
Proof.
  intros sk m [Wk _] Hm. destruct order3 as (T & NT & _). destruct (rep1_ex T) as (t & Ht). destruct (sign_ok sk m Wk Hm) as (s & H & E & HH & HR & OH).
  pose proof (rep1g_add _ _ _ _ (public_key_ok sk Wk) Ht) as R1. pose proof (rep1g_neg _ _ Ht) as R2.
  exists (g1_add (public_key sk) t), (g1_neg t), s. split; [exact (rep1g_coords _ _ R1)|]. split; [exact (rep1g_coords _ _ R2)|]. split; [exact (rep2g_coords _ _ HR)|]. split; [exact E|]. split.
  - destruct (C51_fast_accepts [g1_add (public_key sk) t; g1_neg t] [gop (zmul (val sk) G1gen) T; ginv T] m s ltac:(discriminate)
      ltac:(constructor; [exact R1|constructor; [exact R2|constructor]]) (rep2g_coords _ _ HR) Hm) as (b & H' & Ev & HH' & Hb).
    rewrite Ev. apply (f_equal Ok), Hb. exists (val sk). split.
    + rewrite !gsum_cons, g_assoc, <- (g_assoc _ T), g_inv, g_id. apply g_id_r.
    + pose proof (hash_fun _ _ _ _ HH HH') as <-. exact HR.
  - assert (C : Forall coords1 [g1_add (public_key sk) t; g1_neg t]) by (constructor; [exact (rep1g_coords _ _ R1)|constructor; [exact (rep1g_coords _ _ R2)|constructor]]).
    assert (M : Forall message [m; m]) by (repeat constructor; apply Hm).
    destruct (agg_bool _ _ s false C M (rep2g_coords _ _ HR)) as (b & Eb). destruct b; [exfalso|exact Eb]. destruct (C50_checked _ _ _ _ C M (rep2g_coords _ _ HR) Eb) as (F & _).
    inversion F as [|? ? _ F']; subst. inversion F' as [|? ? [_ X] _]; subst. apply (g1_inCorrectSubgroup_ok _ _ R2) in X. apply NT. rewrite zmul_inv in X. apply g_inv_inj. rewrite X. symmetry. apply g_inv_0.
Qed.
(** only the sum of the signatures matters: for all signers and messages there are two signatures, each rejected, whose aggregate is accepted *)
Theorem C68_sum_refuted : forall sk1 sk2 m1 m2, key sk1 -> key sk2 -> message m1 -> message m2 -> exists s1 s2, coords2 s1 /\ coords2 s2 /\
  verify (public_key sk1) m1 s1 = Ok false /\ verify (public_key sk2) m2 s2 = Ok false /\
  aggregate_verify [public_key sk1; public_key sk2] [m1; m2] (aggregate_signatures [s1; s2]) false = Ok true.
Proof.
  intros sk1 sk2 m1 m2 [W1 _] [W2 _] M1 M2. destruct (sign_ok sk1 m1 W1 M1) as (s1 & H1 & E1 & HH1 & R1 & O1). destruct (sign_ok sk2 m2 W2 M2) as (s2 & H2 & E2' & HH2 & R2 & O2).
  pose proof (rep2g_add _ _ _ _ R1 BASE2_rep) as A1. pose proof (rep2g_sub _ _ _ _ R2 BASE2_rep) as A2.
  exists (g2_add s1 g2_BASE), (g2_sub s2 g2_BASE). split; [exact (rep2g_coords _ _ A1)|]. split; [exact (rep2g_coords _ _ A2)|]. split; [|split].
  - destruct (verify_iff (public_key sk1) m1 _ H1 (rep1g_coords _ _ (public_key_ok sk1 W1)) (rep2g_coords _ _ A1) M1 HH1) as (b & E & Hb). rewrite E. apply (f_equal Ok). apply not_true_is_false. intros B. apply Hb in B.
    destruct B as (a & Ha & Hs). pose proof (rep2g_fun _ _ _ A1 Hs) as X. rewrite <- (dlog_eq _ _ H1 O1 (rep1g_fun _ _ _ (public_key_ok sk1 W1) Ha)) in X. apply G2gen_nz. apply (g_cancel (zmul (val sk1) H1)). rewrite X, g_id_r. reflexivity.
  - destruct (verify_iff (public_key sk2) m2 _ H2 (rep1g_coords _ _ (public_key_ok sk2 W2)) (rep2g_coords _ _ A2) M2 HH2) as (b & E & Hb). rewrite E. apply (f_equal Ok). apply not_true_is_false. intros B. apply Hb in B.
    destruct B as (a & Ha & Hs). pose proof (rep2g_fun _ _ _ A2 Hs) as X. rewrite <- (dlog_eq _ _ H2 O2 (rep1g_fun _ _ _ (public_key_ok sk2 W2) Ha)) in X. apply G2gen_nz. apply g_inv_inj. apply (g_cancel (zmul (val sk2) H2)).
    rewrite X, g_inv_0, g_id_r. reflexivity.
  - apply (agg_intro _ _ _ _ [(val sk1, H1); (val sk2, H2)]); [constructor; [exact M1|constructor; [exact M2|constructor]]|discriminate| | |].
    + constructor; [exact (public_key_ok sk1 W1)|constructor; [exact (public_key_ok sk2 W2)|constructor]].
    + constructor; [exact HH1|constructor; [exact HH2|constructor]].
    + pose proof (agg_sig_ok _ _ (Forall2_cons _ _ A1 (Forall2_cons _ _ A2 (Forall2_nil _)))) as A. rewrite !gsum_cons in A. rewrite !lsum_cons.
      change (lsum []) with (gid : CurveInst.E2). change (gsum []) with (gid : CurveInst.E2) in A. rewrite !g_id_r in *. rewrite g_swap4, g_inv, g_id_r in A. exact A.
Qed.
Example C68_nontrivial : exists pk m s, coords1 pk /\ coords2 s /\ message m /\ ~ rep1g pk gid /\ verify pk m s = Ok true /\ aggregate_verify [pk] [m] s true = Ok true /\
  g1_isOnCurve pk = true /\ g1_inCorrectSubgroup pk = true /\ words [5; 0; 0; 7] /\ ~ (order | val [5; 0; 0; 7]).
Proof.
  assert (W : words [1; 0; 0; 0]) by (repeat constructor; discriminate). assert (M : message [104; 105]) by (split; [repeat constructor; discriminate|reflexivity]).
  destruct (sign_ok [1; 0; 0; 0] [104; 105] W M) as (s & H & E & HH & HR & OH). pose proof (public_key_ok _ W) as P.
  pose proof (verify_intro _ _ _ _ _ M HH P HR) as V. pose proof (rep1g_coords _ _ P) as C. change (val [1; 0; 0; 0]) with 1 in P, HR. rewrite zmul_1 in P.
  exists (public_key [1; 0; 0; 0]), [104; 105], s. split; [exact C|]. split; [exact (rep2g_coords _ _ HR)|]. split; [exact M|]. split; [intros X; exact (G1gen_nz (rep1g_fun _ _ _ P X))|].
  split; [exact V|]. split; [|split; [exact (rep1g_onCurve _ _ P)|split; [exact (proj2 (g1_inCorrectSubgroup_ok _ _ P) G1gen_r)|split]]].
  - rewrite C50_single; [exact V|exact C|exact M|exact (rep2g_coords _ _ HR)].
  - repeat constructor; discriminate.
  - intros D. apply Z.mod_divide in D; [|discriminate]. vm_compute in D. discriminate D.
Qed.

(** * C69: unhardened derivation *)
(** the nonce that derivation adds, computed from the 48 bytes of the parent public key *)
Definition nonce_of (pkb : list Z) (index : Z) : Z := be_int (SHA256 (pkb ++ int_be 4 index)) mod order.
(** deriving along a path of indices, for secret keys and for public keys *)
Fixpoint derive_path {A} (step : A -> Z -> outcome A) (x : A) (path : list Z) : outcome A :=
  match path with [] => Ok x | i :: path => obind (step x i) (fun c => derive_path step c path) end.
(** the secret key k' is reached from k along the path in the arithmetic mod r; no intermediate key is 0 and no addition drops a carry (C42) *)
Inductive leads : Z -> list Z -> Z -> Prop :=
| leads_nil k : leads k [] k
| leads_cons k i path k' u v : cpt (b := b1) (zmul k G1gen) = Aff (K := KFp) u v -> ~ carry_lost k (nonce_of (enc_g1 u v) i) ->
    leads ((k + nonce_of (enc_g1 u v) i) mod order) path k' -> leads k (i :: path) k'.
Lemma nonce_eq u v i : nonce_g1 u v i = nonce_of (enc_g1 u v) i. Proof. unfold nonce_g1, nonce_of. reflexivity. Qed.
Lemma G1_mod k : zmul (k mod order) G1gen = zmul k G1gen.
Proof. apply zmul_mod; [exact G1gen_r|discriminate]. Qed.
Lemma nonce_key u v i : exists n, key n /\ val n = nonce_of (enc_g1 u v) i.
Proof. destruct (nonce_digest (enc_g1 u v) i (enc_g1_bytes u v)) as (n & _ & Kn & Vn). exists n. unfold nonce_of. exact (conj Kn Vn). Qed.
Lemma child_sk_of sk u v i : key sk -> val sk < order -> cpt (b := b1) (zmul (val sk) G1gen) = Aff (K := KFp) u v -> ~ carry_lost (val sk) (nonce_of (enc_g1 u v) i) ->
  exists c, derive_child_sk_unhardened sk i = Ok c /\ key c /\ val c = (val sk + nonce_of (enc_g1 u v) i) mod order.
Proof. rewrite <- nonce_eq. exact (child_sk_ok sk u v i). Qed.
Lemma child_g1_of pk (P : E1) u v i : rep1g pk P -> cpt (b := b1) P = Aff (K := KFp) u v -> exists c, derive_child_g1_unhardened pk i = Ok c /\ rep1g c (gop P (zmul (nonce_of (enc_g1 u v) i) G1gen)).
Proof. rewrite <- nonce_eq. exact (child_g1_ok pk P u v i). Qed.
Theorem C69_path : forall sk path k', key sk -> val sk < order -> leads (val sk) path k' ->
  exists c q, derive_path derive_child_sk_unhardened sk path = Ok c /\ key c /\ val c = k' /\ derive_path derive_child_g1_unhardened (public_key sk) path = Ok q /\ rep1g q (zmul k' G1gen) /\ g1_equal (public_key c) q = true.
Proof.
  intros sk path k' K Bk L. assert (X : forall pk, rep1g pk (zmul (val sk) G1gen) -> exists c q, derive_path derive_child_sk_unhardened sk path = Ok c /\ key c /\ val c = k' /\ derive_path derive_child_g1_unhardened pk path = Ok q /\ rep1g q (zmul k' G1gen) /\ g1_equal (public_key c) q = true);
    [|exact (X _ (public_key_ok sk (proj1 K)))].
  remember (val sk) as k eqn:Ek. revert sk K Bk Ek. induction L as [k|k i path k' u v E N L IH]; intros sk K Bk -> pk Hpk.
  - exists sk, pk. pose proof (public_key_ok sk (proj1 K)) as P. split; [reflexivity|]. split; [exact K|]. split; [reflexivity|]. split; [reflexivity|]. split; [exact Hpk|]. apply (rep1g_equal _ _ _ _ P Hpk). reflexivity.
  - destruct (child_sk_of sk u v i K Bk E N) as (c & Ec & Kc & Vc). destruct (child_g1_of pk _ u v i Hpk E) as (d & Ed & Rd). rewrite <- zmul_add, <- G1_mod in Rd.
    cbn [derive_path]. rewrite Ec, Ed. cbn [obind]. apply (IH c Kc); [apply Z.mod_pos_bound; reflexivity|symmetry; exact Vc|exact Rd].
Qed.
(** the parent secret key can be computed from a child secret key and the parent public key *)
Theorem C69_recover : forall sk i u v, key sk -> val sk < order -> cpt (b := b1) (zmul (val sk) G1gen) = Aff (K := KFp) u v -> ~ carry_lost (val sk) (nonce_of (enc_g1 u v) i) ->
  exists c, derive_child_sk_unhardened sk i = Ok c /\ val sk = (val c - nonce_of (g1_toCompressed (public_key sk)) i) mod order.
Proof.
  intros sk i u v K Bk E N. destruct (child_sk_of sk u v i K Bk E N) as (c & Ec & Kc & Vc). exists c. split; [exact Ec|]. rewrite (g1_enc_E _ _ u v (public_key_ok sk (proj1 K)) E), Vc.
  clear E N Ec Vc. generalize (nonce_of (enc_g1 u v) i) as n. intros n. rewrite Zminus_mod_idemp_l, Z.add_simpl_r. symmetry. apply Z.mod_small. split; [apply val_nonneg, K|exact Bk].
Qed.
(** one child secret key gives all its siblings *)
Theorem C69_siblings : forall sk i j u v, key sk -> val sk < order -> cpt (b := b1) (zmul (val sk) G1gen) = Aff (K := KFp) u v ->
  ~ carry_lost (val sk) (nonce_of (enc_g1 u v) i) -> ~ carry_lost (val sk) (nonce_of (enc_g1 u v) j) ->
  exists c d, derive_child_sk_unhardened sk i = Ok c /\ derive_child_sk_unhardened sk j = Ok d /\
    val d = (val c - nonce_of (g1_toCompressed (public_key sk)) i + nonce_of (g1_toCompressed (public_key sk)) j) mod order.
Proof.
  intros sk i j u v K Bk E N N'. destruct (C69_recover sk i u v K Bk E N) as (c & Ec & Vc). destruct (child_sk_of sk u v j K Bk E N') as (d & Ed & Kd & Vd). exists c, d. split; [exact Ec|]. split; [exact Ed|].
  rewrite <- (g1_enc_E _ _ u v (public_key_ok sk (proj1 K)) E) in Vd. rewrite Vd. clear -Vc. revert Vc.
  generalize (nonce_of (g1_toCompressed (public_key sk)) i) as n, (nonce_of (g1_toCompressed (public_key sk)) j) as n'. intros n' n Vc. rewrite Vc at 1. rewrite Zplus_mod_idemp_l. reflexivity.
Qed.
(** whoever sees a signature for a public key can compute a signature of the same message for each of its unhardened children, and back:
    t is the signature made with the (public) nonce as secret key *)
Theorem C69_related : forall pk (P : E1) u v i m s (S : E2), message m -> rep1g pk P -> cpt (b := b1) P = Aff (K := KFp) u v -> rep2g s S ->
  exists n q t, key n /\ val n = nonce_of (g1_toCompressed pk) i /\ derive_child_g1_unhardened pk i = Ok q /\ sign n m = Ok t /\ verify q m (g2_add s t) = verify pk m s.
Proof.
  intros pk P u v i m s S Hm HP E HS. destruct (nonce_key u v i) as (n & Kn & Vn). destruct (child_g1_of pk P u v i HP E) as (q & Eq & Rq).
  destruct (sign_ok n m (proj1 Kn) Hm) as (t & H & Et & HH & Rt & OH). exists n, q, t. split; [exact Kn|]. split; [rewrite (g1_enc_E pk P u v HP E); exact Vn|]. split; [exact Eq|]. split; [exact Et|].
  rewrite <- Vn in Rq. pose proof (rep2g_add _ _ _ _ HS Rt) as RA.
  destruct (verify_iff pk m s H (rep1g_coords _ _ HP) (rep2g_coords _ _ HS) Hm HH) as (b & Ev & Hb).
  destruct (verify_iff q m _ H (rep1g_coords _ _ Rq) (rep2g_coords _ _ RA) Hm HH) as (b' & Ev' & Hb'). rewrite Ev, Ev'. apply (f_equal Ok), eq_true_iff_eq. rewrite Hb, Hb'. split.
  - intros (a & Ha & Hs). exists (a - val n). pose proof (rep1g_fun _ _ _ Rq Ha) as X. pose proof (rep2g_fun _ _ _ RA Hs) as Y. rewrite !zmul_sub, <- X, <- Y, !g_assoc, !g_inv, !g_id_r. exact (conj HP HS).
  - intros (a & Ha & Hs). exists (a + val n). rewrite !zmul_add, <- (rep1g_fun _ _ _ HP Ha), <- (rep2g_fun _ _ _ HS Hs). exact (conj Rq RA).
Qed.
(** a key that is the identity has two representations, (0,1,0) and (0,0,0), with different encodings: their children differ *)
Lemma child_id pk r i : rep1g pk gid -> words r -> reduce (fromBytesBE 4 (sha256 [g1_toCompressed pk ++ index_bytes i])) = Ok r ->
  exists c, derive_child_g1_unhardened pk i = Ok c /\ rep1g c (zmul (val r) G1gen).
Proof.
  intros H W E. exists (g1_add pk (g1_scale g1_BASE r)). split; [unfold derive_child_g1_unhardened; rewrite E; reflexivity|].
  pose proof (rep1g_add _ _ _ _ H (rep1g_scale _ _ r BASE1_rep W)) as R. rewrite g_id in R. exact R.
Qed.
Theorem C69_identity_refuted : exists c d, g1_equal g1_zero (mkJ 0 0 0) = true /\
  derive_child_g1_unhardened g1_zero 0 = Ok c /\ derive_child_g1_unhardened (mkJ 0 0 0) 0 = Ok d /\ g1_equal c d = false.
Proof.
  destruct (child_id g1_zero [3401218236177868259; 6969136334686797075; 2376280544017582364; 2914241599132374832] 0 rep1g_zero) as (c & Ec & Rc);
    [repeat constructor; discriminate|vm_compute; reflexivity|].
  destruct (child_id (mkJ 0 0 0) [6390205279384773771; 8431391124375853543; 11357474023885694887; 2663804719069439973] 0 rep1g_000) as (d & Ed & Rd);
    [repeat constructor; discriminate|vm_compute; reflexivity|].
  exists c, d. split; [exact (proj2 (rep1g_equal _ _ _ _ rep1g_zero rep1g_000) eq_refl)|]. split; [exact Ec|]. split; [exact Ed|].
  apply not_true_is_false. intros X. apply (rep1g_equal _ _ _ _ Rc Rd) in X. apply G1_dlog, Z.mod_divide in X; [|discriminate]. vm_compute in X. discriminate X.
Qed.
Definition gen_bytes : list Z := int_be 48 (0x17f1d3a73197d7942695638c4fa9ac0fc3688c4f9774b905a14e3a3f171bac586c55e83ff97a1aeffb3af00adb22c6bb + 2 ^ 383).
Lemma gen_nonce : nonce_of gen_bytes 42 = 12096964588983592186405158079910308792106192786903519985070639570551371811687.
Proof. unfold nonce_of. rewrite <- SHA256_nf by (apply bytes_app; split; apply int_be_bytes). vm_compute. reflexivity. Qed.
Lemma gen_carry : ~ carry_lost 1 12096964588983592186405158079910308792106192786903519985070639570551371811687.
Proof.
  intros (i & Hi & E & _). assert (i = 0 \/ i = 1 \/ i = 2 \/ i = 3) as [->|[->|[->| ->]]] by (clear -Hi; lia); vm_compute in E; discriminate E.
Qed.
(** the generator, as the public key of the secret key 1, and its child with index 42 *)
Example C69_nontrivial : exists u v, cpt (b := b1) (zmul 1 G1gen) = Aff (K := KFp) u v /\ ~ carry_lost 1 (nonce_of (enc_g1 u v) 42) /\
  leads 1 [42] 12096964588983592186405158079910308792106192786903519985070639570551371811688.
Proof.
  rewrite zmul_1. destruct (cpt (b := b1) G1gen) as [|u v] eqn:E; [exfalso; apply G1gen_nz, curve_eq; exact E|]. exists u, v. split; [reflexivity|].
  pose proof (g1_enc_E _ _ u v BASE1_rep E) as B. rewrite (proj2 (proj2 C32_nontrivial)) in B. fold gen_bytes in B.
  assert (N : ~ carry_lost 1 (nonce_of (enc_g1 u v) 42)) by (rewrite <- B, gen_nonce; exact gen_carry). split; [exact N|].
  apply (leads_cons 1 42 [] _ u v); [rewrite zmul_1; exact E|exact N|]. rewrite <- B, gen_nonce. apply leads_nil.
Qed.

(** * C70: domain separation *)
(** the string hashed first by expand_message_xmd (RFC 9380, 5.3.1: Z_pad | msg | l_i_b_str | 0 | DST_prime) and the one hashed for the first 32 bytes of the output *)
Definition xmd_input (m dst : list Z) (n : Z) : list Z := repeat 0 64 ++ m ++ int_be 2 n ++ [0] ++ dst ++ int_be 1 (Z.of_nat (length dst)).
Definition xmd_input1 (m dst : list Z) (n : Z) : list Z := SHA256 (xmd_input m dst n) ++ [1] ++ dst ++ int_be 1 (Z.of_nat (length dst)).
Lemma app_l {A} (a b s t : list A) : length a = length b -> a ++ s = b ++ t -> a = b /\ s = t.
Proof.
  revert b. induction a as [|x a IH]; intros [|y b] L E; try discriminate L; [exact (conj eq_refl E)|]. injection E as -> E. injection L as L. destruct (IH b L E) as [-> ->]. auto.
Qed.
Lemma app_r {A} (a b s t : list A) : length s = length t -> a ++ s = b ++ t -> a = b /\ s = t.
Proof. intros L E. apply app_l; [|exact E]. apply (f_equal (@length A)) in E. rewrite !app_length in E. lia. Qed.
Lemma int_be_inj n v w : 0 <= v < 256 ^ Z.of_nat n -> 0 <= w < 256 ^ Z.of_nat n -> int_be n v = int_be n w -> v = w.
Proof. intros Hv Hw E. apply (f_equal be_int) in E. rewrite !be_int_int_be in E by lia. rewrite !Z.mod_small in E by assumption. exact E. Qed.
Lemma tail_inj (a b dst dst' : list Z) : (length dst <= 255)%nat -> (length dst' <= 255)%nat ->
  a ++ dst ++ int_be 1 (Z.of_nat (length dst)) = b ++ dst' ++ int_be 1 (Z.of_nat (length dst')) -> a = b /\ dst = dst'.
Proof.
  intros L L' E. rewrite !app_assoc in E. apply app_r in E; [|rewrite !int_be_length; reflexivity]. destruct E as [E X].
  apply int_be_inj in X; [|change (256 ^ Z.of_nat 1) with 256; lia..]. apply app_r in E; [exact E|lia].
Qed.
Theorem C70_input_injective : forall m m' dst dst' n n', (length dst <= 255)%nat -> (length dst' <= 255)%nat -> 0 <= n < 65536 -> 0 <= n' < 65536 ->
  xmd_input m dst n = xmd_input m' dst' n' -> m = m' /\ dst = dst' /\ n = n'.
Proof.
  intros m m' dst dst' n n' L L' Hn Hn' E. unfold xmd_input in E. apply app_inv_head in E. rewrite (app_assoc (int_be 2 n)), (app_assoc (int_be 2 n')), (app_assoc m), (app_assoc m') in E.
  apply tail_inj in E; [|exact L|exact L']. destruct E as [E ->]. rewrite !app_assoc in E. apply app_r in E; [|reflexivity]. destruct E as [E _].
  apply app_r in E; [|rewrite !int_be_length; reflexivity]. destruct E as [-> E]. apply int_be_inj in E; [auto|exact Hn|exact Hn'].
Qed.
Lemma Some_inj {A} (x y : A) : Some x = Some y -> x = y. Proof. intros [= ->]. reflexivity. Qed.
Lemma xmd_head m dst n out : (32 <= n)%nat -> expand_message_xmd m dst n = Some out -> (length dst <= 255)%nat /\ Z.of_nat n < 65536 /\ firstn 32 out = SHA256 (xmd_input1 m dst (Z.of_nat n)).
Proof.
  intros Ln E. unfold expand_message_xmd in E. destruct ((255 <? Z.of_nat ((n + 31) / 32)) || (65535 <? Z.of_nat n) || (255 <? Z.of_nat (length dst))) eqn:C; [discriminate E|].
  apply orb_false_elim in C. destruct C as [C C3]. apply orb_false_elim in C. destruct C as [_ C2]. apply Z.ltb_ge in C2, C3. split; [lia|]. split; [lia|].
  apply Some_inj in E. rewrite <- E, firstn_firstn, Nat.min_l by exact Ln.
  assert (X : exists j, ((n + 31) / 32 = S j)%nat). { exists ((n - 1) / 32)%nat. replace (n + 31)%nat with ((n - 1) + 1 * 32)%nat by lia. rewrite Nat.div_add by discriminate. lia. }
  destruct X as [j ->]. cbn [seq flat_map xmd_b]. rewrite firstn_app, SHA256_length, Nat.sub_diag, firstn_O, app_nil_r.
  unfold xmd_input1, xmd_input. apply firstn_all2. rewrite SHA256_length. apply le_n.
Qed.
(** equal first 32 bytes of output: equal arguments, or one of two explicit pairs of strings is a collision of SHA-256 *)
Theorem C70_collision : forall m m' dst dst' n n' out out', bytes m -> bytes m' -> bytes dst -> bytes dst' -> 32 <= n < 2 ^ 31 -> 32 <= n' < 2 ^ 31 ->
  xmd_sh256 n m (Z.of_nat (length m)) dst (Z.of_nat (length dst)) = Ok (0, out) -> xmd_sh256 n' m' (Z.of_nat (length m')) dst' (Z.of_nat (length dst')) = Ok (0, out') ->
  firstn 32 out = firstn 32 out' ->
  (m = m' /\ dst = dst' /\ n = n') \/
  (xmd_input m dst n <> xmd_input m' dst' n' /\ SHA256 (xmd_input m dst n) = SHA256 (xmd_input m' dst' n')) \/
  (xmd_input1 m dst n <> xmd_input1 m' dst' n' /\ SHA256 (xmd_input1 m dst n) = SHA256 (xmd_input1 m' dst' n')).
Proof.
  intros m m' dst dst' n n' out out' Bm Bm' Bd Bd' Hn Hn' E E' F.
  assert (X : forall a d k o, bytes a -> bytes d -> 32 <= k < 2 ^ 31 -> xmd_sh256 k a (Z.of_nat (length a)) d (Z.of_nat (length d)) = Ok (0, o) ->
    (length d <= 255)%nat /\ k < 65536 /\ firstn 32 o = SHA256 (xmd_input1 a d k)).
  { clear. intros a d k o Ba Bd Hk E. rewrite xmd_ok in E by (assumption || (clear -Hk; lia)). destruct (expand_message_xmd a d (Z.to_nat k)) as [o'|] eqn:X; [|discriminate E].
    injection E as ->. destruct (xmd_head a d (Z.to_nat k) o ltac:(clear -Hk; lia) X) as (A & B & C). rewrite Z2Nat.id in B, C by (clear -Hk; lia). auto. }
  destruct (X _ _ _ _ Bm Bd Hn E) as (L & Ln & Ho). destruct (X _ _ _ _ Bm' Bd' Hn' E') as (L' & Ln' & Ho'). clear X E E'. rewrite Ho, Ho' in F.
  destruct (list_eq_dec Z.eq_dec (xmd_input1 m dst n) (xmd_input1 m' dst' n')) as [I1|N1]; [|right; right; exact (conj N1 F)].
  destruct (list_eq_dec Z.eq_dec (xmd_input m dst n) (xmd_input m' dst' n')) as [I0|N0]; [left; apply C70_input_injective; [exact L|exact L'|clear -Hn Ln; lia|clear -Hn' Ln'; lia|exact I0]|].
  right; left. split; [exact N0|]. unfold xmd_input1 in I1. apply app_l in I1; [exact (proj1 I1)|rewrite !SHA256_length; reflexivity].
Qed.
(** a point accepted both as a signature and as a proof of possession for the same key, which is not the identity: the two messages, under the two
    different tags, hash to the same point *)
Theorem C70_sig_pop : forall pk (P : E1) m s, message m -> rep1g pk P -> P <> gid -> coords2 s -> verify pk m s = Ok true -> pop_verify pk s = Ok true ->
  DST_SIG <> DST_POP /\ exists H : E2, hash_to_curve m DST_SIG H /\ hash_to_curve (pop_message (cpt (b := b1) P)) DST_POP H.
Proof.
  intros pk P m s Hm HP NP Cs V V'. split; [intros X; vm_compute in X; discriminate X|]. pose proof (rep1g_coords _ _ HP) as Cp. destruct (accepted pk m s Cp Cs Hm V) as (H & a & HH & Ha & Hs).
  destruct (pop_verify_ok pk s Cp Cs) as (b & E & Hb). rewrite V' in E. injection E as <-. destruct (proj1 Hb eq_refl) as (a' & H' & Ha' & HH' & Hs').
  pose proof (rep1g_fun _ _ _ HP Ha) as ->. rewrite <- (rep1g_fun _ _ _ Ha Ha') in HH'. exists H. split; [exact HH|].
  pose proof (hash_order _ _ _ HH) as O. pose proof (hash_order _ _ _ HH') as O'. pose proof (rep2g_fun _ _ _ Hs Hs') as X. rewrite <- (dlog_eq _ _ H' O' (rep1g_fun _ _ _ Ha Ha')) in X.
  destruct (g_dec CurveInst.E2 H H') as [<-|N]; [exact HH'|exfalso]. apply NP, zmul_order_dvd; [exact G1gen_r|].
  apply (zmul_prime order a (gop H (ginv H')) order_prime).
  - rewrite zmul_op, zmul_inv, O, O', g_inv_0. apply g_id.
  - intros Y. apply N, g_sub0, Y.
  - rewrite zmul_op, zmul_inv, X. apply g_inv.
Qed.
Example C70_nontrivial : bytes [104; 105] /\ bytes DST_SIG /\ length DST_SIG = 43%nat /\ length DST_POP = 43%nat /\ xmd_input [104; 105] DST_SIG 256 <> xmd_input [104; 105] DST_POP 256 /\
  exists out, xmd_sh256 256 [104; 105] 2 DST_SIG 43 = Ok (0, out).
Proof.
  assert (B : bytes [104; 105]) by (repeat constructor; discriminate). split; [exact B|]. split; [exact DST_SIG_bytes|]. split; [reflexivity|]. split; [reflexivity|]. split.
  - intros X. apply C70_input_injective in X; [|vm_compute; repeat constructor..|split; [discriminate|reflexivity]|split; [discriminate|reflexivity]]. destruct X as (_ & X & _). vm_compute in X. discriminate X.
  - destruct (xmd_256 [104; 105] DST_SIG ltac:(vm_compute; repeat constructor)) as (out & E). exists out.
    rewrite (xmd_ok 256 [104; 105] DST_SIG B DST_SIG_bytes ltac:(split; [discriminate|reflexivity]) : xmd_sh256 256 [104; 105] 2 DST_SIG 43 = _). change (Z.to_nat 256) with 256%nat. rewrite E. reflexivity.
Qed.

(** * C71: keys as identifiers *)
Lemma zmul_eq_mod {G : abgroup} a b (P : G) : zmul order P = gid -> P <> gid -> zmul a P = zmul b P <-> a mod order = b mod order.
Proof.
  intros O N. split; intros E.
  - assert (D : (order | a - b)) by (apply (zmul_prime order _ P order_prime O N); rewrite zmul_sub, E; apply g_inv). destruct D as [q Eq]. replace a with (b + q * order) by (clear -Eq; lia). apply Z.mod_add. discriminate.
  - rewrite <- (zmul_mod order a P), <- (zmul_mod order b P) by (exact O || discriminate). rewrite E. reflexivity.
Qed.
(** two secret keys have the same public key exactly if they agree mod r ... *)
Theorem C71_public_key : forall sk sk', key sk -> key sk' -> g1_equal (public_key sk) (public_key sk') = true <-> val sk mod order = val sk' mod order.
Proof.
  intros sk sk' [W _] [W' _]. rewrite (rep1g_equal _ _ _ _ (public_key_ok sk W) (public_key_ok sk' W')). exact (zmul_eq_mod _ _ _ G1gen_r G1gen_nz).
Qed.
Theorem C71_identity : forall sk, key sk -> g1_isZero (public_key sk) = true <-> val sk mod order = 0.
Proof.
  intros sk [W _]. rewrite (rep1g_isZero _ _ (public_key_ok sk W)), <- (zmul_eq_mod (val sk) 0 _ G1gen_r G1gen_nz). rewrite zmul_0. reflexivity.
Qed.
(** ... and then also the same encoding *)
Theorem C71_bytes : forall sk sk', key sk -> key sk' -> val sk mod order <> 0 -> val sk' mod order <> 0 ->
  g1_toCompressed (public_key sk) = g1_toCompressed (public_key sk') <-> val sk mod order = val sk' mod order.
Proof.
  intros sk sk' [W _] [W' _] N N'. rewrite <- (zmul_eq_mod _ _ _ G1gen_r G1gen_nz).
  assert (X : forall k, k mod order <> 0 -> zmul k G1gen <> gid) by (intros k Hk Z; apply Hk, (zmul_eq_mod k 0 _ G1gen_r G1gen_nz); exact Z).
  split; [exact (C32_g1_injective _ _ _ _ (public_key_ok sk W) (public_key_ok sk' W') (X _ N) (X _ N'))|]. intros E.
  destruct (cpt (b := b1) (zmul (val sk) G1gen)) as [|u v] eqn:C; [exfalso; apply (X _ N), curve_eq; exact C|].
  rewrite (g1_enc_E _ _ u v (public_key_ok sk W) C). symmetry. apply (g1_enc_E _ _ u v (public_key_ok sk' W')). rewrite <- E. exact C.
Qed.
(** the same for signatures of a message that does not hash to the identity *)
Theorem C71_sign : forall sk sk' m (H : E2), key sk -> key sk' -> message m -> hash_to_curve m DST_SIG H -> H <> gid ->
  exists s s', sign sk m = Ok s /\ sign sk' m = Ok s' /\ (g2_equal s s' = true <-> val sk mod order = val sk' mod order) /\
    (verify (public_key sk') m s = Ok true <-> val sk mod order = val sk' mod order).
Proof.
  intros sk sk' m H [W _] [W' _] Hm HH NH. destruct (sign_ok sk m W Hm) as (s & H1 & E & HH1 & R & O). destruct (sign_ok sk' m W' Hm) as (s' & H2 & E' & HH2 & R' & _).
  pose proof (hash_fun _ _ _ _ HH HH1) as <-. pose proof (hash_fun _ _ _ _ HH HH2) as <-. exists s, s'. split; [exact E|]. split; [exact E'|]. split.
  - rewrite (rep2g_equal _ _ _ _ R R'). exact (zmul_eq_mod _ _ _ O NH).
  - pose proof (public_key_ok sk' W') as P. destruct (verify_iff _ m s H (rep1g_coords _ _ P) (rep2g_coords _ _ R) Hm HH) as (b & Ev & Hb). rewrite Ev. split.
    + intros [= ->]. destruct (proj1 Hb eq_refl) as (a & Ha & Hs). pose proof (rep1g_fun _ _ _ P Ha) as X. pose proof (rep2g_fun _ _ _ R Hs) as Y.
      apply (zmul_eq_mod _ _ _ G1gen_r G1gen_nz) in X. apply (zmul_eq_mod _ _ _ O NH) in Y. rewrite X. exact Y.
    + intros X. apply (f_equal Ok), Hb. exists (val sk'). split; [exact P|]. rewrite <- (proj2 (zmul_eq_mod _ _ H O NH) X). exact R.
Qed.
(** distinct four-word keys with the same public key exist: k and k + r *)
Theorem C71_words_refuted : exists sk sk', key sk /\ key sk' /\ sk <> sk' /\ 0 < val sk < order /\ g1_equal (public_key sk) (public_key sk') = true.
Proof.
  exists [1; 0; 0; 0], (limbs_of 4 (order + 1)). assert (K : key [1; 0; 0; 0]) by (split; [repeat constructor; discriminate|reflexivity]).
  assert (K' : key (limbs_of 4 (order + 1))) by (split; [apply limbs_of_words|apply limbs_of_length]). split; [exact K|]. split; [exact K'|]. split; [intros X; vm_compute in X; discriminate X|]. split; [split; reflexivity|].
  apply (C71_public_key _ _ K K'). vm_compute. reflexivity.
Qed.
Example C71_nontrivial : key [1; 0; 0; 0] /\ key [5; 0; 0; 7] /\ val [1; 0; 0; 0] mod order <> 0 /\ val [5; 0; 0; 7] mod order <> 0 /\ val [1; 0; 0; 0] mod order <> val [5; 0; 0; 7] mod order /\
  message [104; 105] /\ exists H : E2, hash_to_curve [104; 105] DST_SIG H /\ H <> gid.
Proof.
  assert (M : message [104; 105]) by (split; [repeat constructor; discriminate|reflexivity]).
  split; [split; [repeat constructor; discriminate|reflexivity]|]. split; [split; [repeat constructor; discriminate|reflexivity]|]. split; [vm_compute; discriminate|]. split; [vm_compute; discriminate|]. split; [vm_compute; discriminate|]. split; [exact M|].
  destruct C67_nontrivial as (H & _ & HH & NH & _). exists H. exact (conj HH NH).
Qed.

(** * C41, C42: what happens exactly when carries are dropped *)
(** each addition falls short by 0, 2^128, 2^192 or their sum *)
Theorem C42_deficit : forall sks, Forall (fun k => key k /\ val k < order) sks ->
  exists k L, aggregate_secret_keys sks = Ok k /\ key k /\ val k < order /\ length L = length sks /\ Forall (fun l => l = 0 \/ l = 2 ^ 128 \/ l = 2 ^ 192 \/ l = 2 ^ 128 + 2 ^ 192) L /\
    val k = (fold_right Z.add 0 (map val sks) - fold_right Z.add 0 L) mod order.
Proof.
  intros sks F. assert (X : aggregate_secret_keys sks = agg_sk_loop [0; 0; 0; 0] sks) by (destruct sks; reflexivity).
  destruct (agg_loop_exact sks [0; 0; 0; 0] key0 ltac:(reflexivity) F) as (k & L & E & K & Bk & V & D & Ll & _). exists k, L. rewrite X. split; [exact E|]. split; [exact K|]. split; [exact Bk|]. split; [exact Ll|]. split.
  - revert D. apply Forall_impl. intros l [H|[H|[H|[H|[]]]]]; auto.
  - exact V.
Qed.
Lemma zsum_bound L : Forall (fun l => In l deficits) L -> 0 <= zsum L <= Z.of_nat (length L) * 2 ^ 193.
Proof.
  induction 1 as [|l L H D IH]; [split; discriminate|]. change (zsum (l :: L)) with (l + zsum L). cbn [length]. apply deficit_bound in H. clear -IH H. lia.
Qed.
(** the condition sum_ok of C42 is also necessary (for fewer than 2^61 keys) *)
Theorem C42_exact : forall sks, Forall (fun k => key k /\ val k < order) sks -> Z.of_nat (length sks) < 2 ^ 61 ->
  exists k, aggregate_secret_keys sks = Ok k /\ key k /\ (val k = fold_right Z.add 0 (map val sks) mod order <-> sum_ok 0 (map val sks)) /\
    (g1_equal (public_key k) (aggregate_public_keys (map public_key sks)) = true <-> sum_ok 0 (map val sks)).
Proof.
  intros sks F Hl. assert (X : aggregate_secret_keys sks = agg_sk_loop [0; 0; 0; 0] sks) by (destruct sks; reflexivity).
  destruct (agg_loop_exact sks [0; 0; 0; 0] key0 ltac:(reflexivity) F) as (k & L & E & K & Bk & V & D & Ll & N). exists k. rewrite X. split; [exact E|]. split; [exact K|].
  change (val [0; 0; 0; 0]) with 0 in *. rewrite Z.add_0_l in V. fold (zsum (map val sks)).
  assert (A : val k = zsum (map val sks) mod order <-> sum_ok 0 (map val sks)).
  { rewrite N. split; intros Y.
    - rewrite V in Y. pose proof (zsum_bound L D) as Bd. rewrite Ll in Bd. assert (DV : (order | zsum L)).
      { apply Z.mod_divide; [discriminate|]. replace (zsum L) with (zsum (map val sks) - (zsum (map val sks) - zsum L)) by ring. rewrite Zminus_mod, Y, Z.sub_diag. reflexivity. }
      destruct (Z.eq_dec (zsum L) 0) as [Z0|Z0]; [exact Z0|exfalso]. apply Z.divide_pos_le in DV; [|lia]. assert (O : 2 ^ 254 < order) by reflexivity. change (2 ^ 254) with (2 ^ 61 * 2 ^ 193) in O.
      clear -Bd DV O Hl. assert (Z.of_nat (length sks) * 2 ^ 193 <= 2 ^ 61 * 2 ^ 193) by (apply Z.mul_le_mono_nonneg_r; [discriminate|lia]). lia.
    - rewrite V, Y, Z.sub_0_r. reflexivity. }
  split; [exact A|]. rewrite <- A.
  rewrite (rep1g_equal _ _ (zmul (val k) G1gen) (gsum (map (fun k => zmul k G1gen) (map val sks))) (public_key_ok k (proj1 K))).
  - rewrite gsum_zmul, (zmul_eq_mod _ _ _ G1gen_r G1gen_nz), (Z.mod_small (val k)) by (split; [apply val_nonneg, K|exact Bk]). reflexivity.
  - apply agg_pk_ok. clear -F. induction F as [|a sks [Ka _] F IH]; constructor; [apply public_key_ok, Ka|exact IH].
Qed.
(** so is the condition of C41: the derived secret key belongs to the derived public key exactly if no carry is dropped *)
Theorem C41_exact : forall sk u v i, key sk -> val sk < order -> cpt (b := b1) (zmul (val sk) G1gen) = Aff (K := KFp) u v ->
  exists c d, derive_child_sk_unhardened sk i = Ok c /\ derive_child_g1_unhardened (public_key sk) i = Ok d /\ key c /\ val c < order /\
    (g1_equal (public_key c) d = true <-> ~ carry_lost (val sk) (nonce_of (enc_g1 u v) i)).
Proof.
  intros sk u v i K Bk E. destruct (child_g1_of (public_key sk) _ u v i (public_key_ok sk (proj1 K)) E) as (d & Ed & Rd).
  pose proof (g1_enc_E _ _ u v (public_key_ok sk (proj1 K)) E) as Ee.
  destruct (nonce_digest (enc_g1 u v) i (enc_g1_bytes u v)) as (n & En & Kn & Vn). assert (Vn' : val n = nonce_of (enc_g1 u v) i) by (unfold nonce_of; exact Vn). clear Vn.
  assert (Bn : val n < order) by (rewrite Vn'; apply Z.mod_pos_bound; reflexivity). rewrite <- Vn' in *. clear Vn'.
  destruct (agg_loop_exact [sk; n] [0; 0; 0; 0] key0 ltac:(reflexivity)) as (c & L & Ec & Kc & Bc & _).
  { constructor; [exact (conj K Bk)|constructor; [exact (conj Kn Bn)|constructor]]. }
  destruct (C42_exact [sk; n]) as (c' & Ec' & _ & A & _); [constructor; [exact (conj K Bk)|constructor; [exact (conj Kn Bn)|constructor]]|reflexivity|].
  change (aggregate_secret_keys [sk; n]) with (agg_sk_loop [0; 0; 0; 0] [sk; n]) in Ec'. rewrite Ec in Ec'. injection Ec' as <-.
  exists c, d. split; [|split; [exact Ed|split; [exact Kc|split; [exact Bc|]]]].
  - unfold derive_child_sk_unhardened. rewrite Ee. unfold sk_from_bytes. rewrite En. exact Ec.
  - rewrite (rep1g_equal _ _ _ _ (public_key_ok c (proj1 Kc)) Rd), <- zmul_add, (zmul_eq_mod _ _ _ G1gen_r G1gen_nz), (Z.mod_small (val c)) by (split; [apply val_nonneg, Kc|exact Bc]).
    cbn [map fold_right sum_ok] in A. rewrite Z.add_0_r in A. rewrite A. assert (V0 : 0 <= val sk) by apply val_nonneg, K. rewrite Z.add_0_l, (Z.mod_small (val sk)) by (split; [exact V0|exact Bk]).
    split; [intros (_ & H & _); exact H|]. intros H. split; [apply carry_lost_0; exact V0|]. split; [exact H|exact I].
Qed.
Example C42_exact_nontrivial : key [1; 0; 0; 0] /\ key [2 ^ 64 - 1; 2 ^ 64 - 1; 0; 0] /\ val [2 ^ 64 - 1; 2 ^ 64 - 1; 0; 0] < order /\
  ~ sum_ok 0 [1; 2 ^ 128 - 1] /\ sum_ok 0 [2 ^ 128 - 1; 1].
Proof.
  split; [split; [apply wordsb_ok; reflexivity|reflexivity]|]. split; [split; [apply wordsb_ok; reflexivity|reflexivity]|]. split; [reflexivity|]. split.
  - intros (_ & H & _). apply H. exists 1. split; [split; [discriminate|reflexivity]|]. split; [reflexivity|]. vm_compute. discriminate.
  - cbn [sum_ok]. split; [apply carry_lost_0; discriminate|]. split; [|exact I]. intros (i & Hi & E & _). assert (i = 0 \/ i = 1 \/ i = 2 \/ i = 3) as [->|[->|[->| ->]]] by (clear -Hi; lia); vm_compute in E; discriminate E.
Qed.
(** the order of the keys can matter *)
Theorem C42_order_refuted : exists k1 k2, key k1 /\ key k2 /\ 0 < val k1 < order /\ 0 < val k2 < order /\ aggregate_secret_keys [k1; k2] <> aggregate_secret_keys [k2; k1].
Proof.
  exists [1; 0; 0; 0], [2 ^ 64 - 1; 2 ^ 64 - 1; 0; 0]. split; [split; [apply wordsb_ok; reflexivity|reflexivity]|]. split; [split; [apply wordsb_ok; reflexivity|reflexivity]|].
  split; [split; reflexivity|]. split; [split; reflexivity|]. intros E. vm_compute in E. discriminate E.
Qed.
(** signing with the aggregated key gives the aggregate of the signatures, exactly if no carry is dropped *)
Theorem C42_sign : forall sks sigs m (H : E2), Forall (fun k => key k /\ val k < order) sks -> Z.of_nat (length sks) < 2 ^ 61 -> message m -> hash_to_curve m DST_SIG H -> H <> gid ->
  Forall2 (fun k s => sign k m = Ok s) sks sigs ->
  exists k s, aggregate_secret_keys sks = Ok k /\ sign k m = Ok s /\ (g2_equal s (aggregate_signatures sigs) = true <-> sum_ok 0 (map val sks)).
Proof.
  intros sks sigs m H F Hl Hm HH NH FS. destruct (C42_exact sks F Hl) as (k & E & K & A & _). destruct (C42_deficit sks F) as (k' & L & E' & _ & Bk & _). rewrite E in E'. injection E' as <-.
  destruct (sign_ok k m (proj1 K) Hm) as (s & H' & Es & HH' & R & O). pose proof (hash_fun _ _ _ _ HH HH') as <-. exists k, s. split; [exact E|]. split; [exact Es|]. rewrite <- A.
  assert (RS : Forall2 rep2g sigs (map (fun a => zmul a H) (map val sks))).
  { clear -FS F Hm HH. induction FS as [|a s sks sigs Ha FS IH]; [constructor|]. apply Forall_cons_iff in F. destruct F as [[Ka _] F]. constructor; [|exact (IH F)].
    destruct (sign_ok a m (proj1 Ka) Hm) as (s' & H' & Es & HH' & R & _). pose proof (hash_fun _ _ _ _ HH HH') as <-. rewrite Ha in Es. injection Es as <-. exact R. }
  rewrite (rep2g_equal _ _ _ _ R (agg_sig_ok _ _ RS)), gsum_zmul, (zmul_eq_mod _ _ _ O NH), (Z.mod_small (val k)) by (split; [apply val_nonneg, K|exact Bk]). reflexivity.
Qed.

(** * C72: secret keys that are not below r *)
Lemma add_zero sk : key sk -> scalar_add 4 [0; 0; 0; 0] sk = Ok sk.
Proof.
  intros K. destruct (add4_ok [0; 0; 0; 0] sk key0 K) as (c & E & Kc & V).
  - change (val [0; 0; 0; 0]) with 0. pose proof (val_bound sk (proj1 K)) as B. rewrite (proj2 K) in B. exact (proj2 B).
  - apply carry_lost_0, val_nonneg, K.
  - rewrite E. f_equal. apply val_inj; [apply Kc|apply K|rewrite (proj2 K); apply Kc|exact V].
Qed.
Lemma reduce_mod sk sk' : key sk -> key sk' -> val sk mod order = val sk' mod order -> reduce sk = reduce sk'.
Proof.
  intros K K' E. destruct (reduce_ok sk (proj1 K)) as (r & Er & Kr & Vr); [rewrite (proj2 K); lia|]. destruct (reduce_ok sk' (proj1 K')) as (r' & Er' & Kr' & Vr'); [rewrite (proj2 K'); lia|].
  rewrite Er, Er'. f_equal. apply val_inj; [apply Kr|apply Kr'|rewrite (proj2 Kr'); apply Kr|rewrite Vr, Vr'; exact E].
Qed.
(** aggregation returns (does not throw) if all keys after the first are below r, and uses the first one mod r *)
Theorem C72_aggregate_returns : forall sk sks, key sk -> Forall (fun k => key k /\ val k < order) sks -> exists k, aggregate_secret_keys (sk :: sks) = Ok k /\ key k /\ val k < order.
Proof.
  intros sk sks K F. unfold aggregate_secret_keys. cbn [agg_sk_loop]. rewrite (add_zero sk K). cbn [obind]. destruct (reduce_ok sk (proj1 K)) as (r & Er & Kr & Vr); [rewrite (proj2 K); lia|]. rewrite Er. cbn [obind].
  destruct (agg_loop_exact sks r Kr) as (k & L & E & Kk & Bk & _); [rewrite Vr; apply Z.mod_pos_bound; reflexivity|exact F|]. exists k. auto.
Qed.
Theorem C72_aggregate_first : forall sk sk' sks, key sk -> key sk' -> val sk mod order = val sk' mod order -> aggregate_secret_keys (sk :: sks) = aggregate_secret_keys (sk' :: sks).
Proof.
  intros sk sk' sks K K' E. unfold aggregate_secret_keys. cbn [agg_sk_loop]. rewrite (add_zero sk K), (add_zero sk' K'). cbn [obind]. rewrite (reduce_mod sk sk' K K' E). reflexivity.
Qed.
(** otherwise it can throw *)
Theorem C72_aggregate_throws_refuted : exists k1 k2, key k1 /\ key k2 /\ val k1 < order /\ aggregate_secret_keys [k1; k2] = Throw /\ exists k, aggregate_secret_keys [k2; k1] = Ok k.
Proof.
  exists [0; 0; 0; 2 ^ 62], [0; 0; 0; 3 * 2 ^ 62]. split; [split; [apply wordsb_ok; reflexivity|reflexivity]|]. split; [split; [apply wordsb_ok; reflexivity|reflexivity]|]. split; [reflexivity|].
  split; [vm_compute; reflexivity|]. eexists. vm_compute. reflexivity.
Qed.
(** unhardened derivation uses the secret key mod r only *)
Theorem C72_derive : forall sk sk' i, key sk -> key sk' -> val sk mod order = val sk' mod order -> val sk mod order <> 0 ->
  derive_child_sk_unhardened sk i = derive_child_sk_unhardened sk' i.
Proof.
  intros sk sk' i K K' E N. assert (N' : val sk' mod order <> 0) by (rewrite <- E; exact N). unfold derive_child_sk_unhardened. rewrite (proj2 (C71_bytes sk sk' K K' N N') E).
  destruct (sk_from_bytes (sha256 [g1_toCompressed (public_key sk') ++ index_bytes i]) true) as [n| |]; [|reflexivity..]. cbn [obind]. exact (C72_aggregate_first sk sk' [n] K K' E).
Qed.
(** hardened derivation and serialisation do not: their input is the 32 bytes of the words *)
Theorem C72_bytes : forall sk sk', key sk -> key sk' -> sk_to_bytes sk = sk_to_bytes sk' -> sk = sk'.
Proof.
  intros sk sk' K K' E. rewrite !sk_bytes_ok in E by assumption. pose proof (val_bound sk (proj1 K)) as B. pose proof (val_bound sk' (proj1 K')) as B'. rewrite (proj2 K) in B. rewrite (proj2 K') in B'.
  apply val_inj; [apply K|apply K'|rewrite (proj2 K'); apply K|]. apply (int_be_inj 32); assumption.
Qed.
Example C72_nontrivial : key (limbs_of 4 (order + 1)) /\ order <= val (limbs_of 4 (order + 1)) /\ val (limbs_of 4 (order + 1)) mod order = val [1; 0; 0; 0] mod order /\ val (limbs_of 4 (order + 1)) mod order <> 0.
Proof.
  split; [split; [apply limbs_of_words|apply limbs_of_length]|]. rewrite limbs_of_small by (split; [discriminate|reflexivity]). split; [discriminate|]. split; [vm_compute; reflexivity|vm_compute; discriminate].
Qed.

Definition props_scheme := (C68_add, C68_scale, C68_negate, C68_unscale, C68_concat, C68_cancel, C68_participation, C68_merge, C68_fast, C68_fast_refuted, C68_sum_refuted, C69_path, C69_recover, C69_siblings, C69_related, C69_identity_refuted, C70_input_injective, C70_collision, C70_sig_pop, C71_public_key, C71_identity, C71_bytes, C71_sign, C71_words_refuted, C42_deficit, C42_exact, C41_exact, C42_order_refuted, C42_sign, C72_aggregate_returns, C72_aggregate_first, C72_aggregate_throws_refuted, C72_derive, C72_bytes).
Print Assumptions props_scheme.
