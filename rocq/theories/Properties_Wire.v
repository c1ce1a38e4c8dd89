(** C67: signatures and keys as byte strings.  stands1 b P, stands2 s P (SpecWire): the compressed string stands for the point P.
    wire_accepts: the key string and the signature string decode and the decoded values verify. *)
From Coq Require Import String ZArith Znumtheory List Bool Lia.
From Verif Require Import SpecField SpecBytes SpecCurve SpecMap SpecSig SpecWire.
From Verif Require Import ModelWord ModelScalar ModelFp ModelTower ModelCurve ModelCodec ModelKeys ModelSig.
From Verif Require Import ScalarProof BytesProof KeysProof FieldProof AbGroup CurveProof CurveInst CurveReps CurveBase GenProof Orders Cofactor SigProof.
From Verif Require Import CodecProof2 HashVec WireProof Properties_Codec Properties_Sig.
Import ListNotations. Notation length := List.length.
Local Open Scope Z_scope.

Definition wire_accepts (pkb m sb : list Z) : Prop :=
  exists pk s, g1_fromCompressed pkb = Some pk /\ g2_fromCompressed sb = Some s /\ verify pk m s = Ok true.
(** exactly which strings are accepted *)
Theorem C67_accepts : forall pkb m sb (H : E2), bytes pkb -> length pkb = 48%nat -> bytes sb -> length sb = 96%nat -> message m -> hash_to_curve m DST_SIG H ->
  (wire_accepts pkb m sb <-> exists a, stands1 pkb (zmul a G1gen) /\ stands2 sb (zmul a H)).
Proof.
  intros pkb m sb H Bp Lp Bs Ls Hm HH. split.
  - intros (pk & s & Ep & Es & V). destruct (dec1_rep pkb pk Bp Lp Ep) as [P RP]. destruct (dec2_rep sb s Bs Ls Es) as [S RS].
    destruct (accepted pk m s (rep1g_coords _ _ RP) (rep2g_coords _ _ RS) Hm V) as (H' & a & HH' & Ha & Hs). pose proof (hash_fun _ _ _ _ HH HH') as <-.
    exists a. split; [apply (dec1_iff _ _ Bp Lp); exists pk; auto|apply (dec2_iff _ _ Bs Ls); exists s; auto].
  - intros (a & S1 & S2). apply (dec1_iff _ _ Bp Lp) in S1. apply (dec2_iff _ _ Bs Ls) in S2. destruct S1 as (pk & Ep & R1). destruct S2 as (s & Es & R2).
    exists pk, s. split; [exact Ep|]. split; [exact Es|]. destruct (verify_ok pk m s (rep1g_coords _ _ R1) (rep2g_coords _ _ R2) Hm) as (b & H' & E & HH' & Hb).
    pose proof (hash_fun _ _ _ _ HH HH') as <-. rewrite E. apply (f_equal Ok), Hb. exists a. auto.
Qed.
(** compressed keys and signatures of honest signers are accepted *)
Theorem C67_roundtrip : forall sk m (H : E2), key sk -> ~ (order | val sk) -> message m -> hash_to_curve m DST_SIG H -> H <> gid ->
  exists s, sign sk m = Ok s /\ wire_accepts (g1_toCompressed (public_key sk)) m (g2_toCompressed s).
Proof.
  intros sk m H [Wk _] ND Hm HH NH. destruct (sign_ok sk m Wk Hm) as (s & H' & E & HH' & HR & OH). pose proof (hash_fun _ _ _ _ HH HH') as <-.
  exists s. split; [exact E|].
  destruct (comp1 _ _ (public_key_ok sk Wk)) as (B1 & L1 & S1). { intros Z. exact (ND (zmul_prime order _ _ order_prime G1gen_r G1gen_nz Z)). }
  destruct (comp2 _ _ HR) as (B2 & L2 & S2). { intros Z. exact (ND (zmul_prime order _ _ order_prime OH NH Z)). }
  apply (C67_accepts _ _ _ H B1 L1 B2 L2 Hm HH). exists (val sk). auto.
Qed.
(** the strings accepted for a key string and a message stand for one point *)
Lemma accepted_point pkb m s1 s2 : bytes pkb -> length pkb = 48%nat -> bytes s1 -> length s1 = 96%nat -> bytes s2 -> length s2 = 96%nat -> message m ->
  wire_accepts pkb m s1 -> wire_accepts pkb m s2 -> exists P : E2, stands2 s1 P /\ stands2 s2 P.
Proof.
  intros Bp Lp B1 L1 B2 L2 Hm A1 A2. destruct (sig_hash m m (proj1 Hm) (read_short m (proj2 Hm))) as (h & H & _ & HH & _ & OH).
  apply (C67_accepts _ _ _ H Bp Lp B1 L1 Hm HH) in A1. apply (C67_accepts _ _ _ H Bp Lp B2 L2 Hm HH) in A2.
  destruct A1 as (a & P1 & S1). destruct A2 as (a' & P2 & S2). exists (zmul a H). split; [exact S1|].
  apply (dec1_iff _ _ Bp Lp) in P1. apply (dec1_iff _ _ Bp Lp) in P2. destruct P1 as (q & E & R). destruct P2 as (q' & E' & R'). rewrite E in E'. injection E' as <-.
  rewrite (dlog_eq a a' H OH (rep1g_fun _ _ _ R R')). exact S2.
Qed.
(** how far two accepted finite strings can differ: only by p in the first 48 bytes, so there are at most two *)
Theorem C67_malleability : forall pkb m b c b' c', bytes pkb -> length pkb = 48%nat -> bytes (b ++ c) -> length b = 48%nat -> length c = 48%nat ->
  bytes (b' ++ c') -> length b' = 48%nat -> length c' = 48%nat -> message m ->
  Z.testbit (be_int b) 382 = false -> Z.testbit (be_int b') 382 = false -> wire_accepts pkb m (b ++ c) -> wire_accepts pkb m (b' ++ c') ->
  c = c' /\ (be_int b' = be_int b \/ be_int b' = be_int b + modulus \/ be_int b = be_int b' + modulus).
Proof.
  intros pkb m b c b' c' Bp Lp B1 L1 L2 B2 L1' L2' Hm F F' A1 A2.
  destruct (accepted_point pkb m (b ++ c) (b' ++ c') Bp Lp B1 ltac:(rewrite app_length, L1, L2; reflexivity) B2 ltac:(rewrite app_length, L1', L2'; reflexivity) Hm A1 A2) as (P & S1 & S2).
  exact (stands2_fin b c b' c' P L1 L1' F F' S1 S2).
Qed.
(** with x below p in both there is one string *)
Theorem C67_canonical_unique : forall pkb m b c b' c', bytes pkb -> length pkb = 48%nat -> bytes (b ++ c) -> length b = 48%nat -> length c = 48%nat ->
  bytes (b' ++ c') -> length b' = 48%nat -> length c' = 48%nat -> message m ->
  Z.testbit (be_int b) 382 = false -> Z.testbit (be_int b') 382 = false -> be_int b mod 2 ^ 381 < modulus -> be_int b' mod 2 ^ 381 < modulus ->
  wire_accepts pkb m (b ++ c) -> wire_accepts pkb m (b' ++ c') -> b ++ c = b' ++ c'.
Proof.
  intros pkb m b c b' c' Bp Lp B1 L1 L2 B2 L1' L2' Hm F F' C C' A1 A2.
  destruct (accepted_point pkb m (b ++ c) (b' ++ c') Bp Lp B1 ltac:(rewrite app_length, L1, L2; reflexivity) B2 ltac:(rewrite app_length, L1', L2'; reflexivity) Hm A1 A2) as (P & S1 & S2).
  destruct A1 as (_ & s & _ & E1 & _). destruct A2 as (_ & s' & _ & E2 & _). apply Forall_app in B1. apply Forall_app in B2. destruct B1 as [X1 X2]. destruct B2 as [Y1 Y2].
  rewrite <- (C33_g2_canonical b c s X1 L1 X2 L2 E1 F C), <- (C33_g2_canonical b' c' s' Y1 L1' Y2 L2' E2 F' C').
  assert (B1' : bytes (b ++ c)) by (apply Forall_app; auto). assert (B2' : bytes (b' ++ c')) by (apply Forall_app; auto).
  apply (dec2_iff _ _ B1' ltac:(rewrite app_length, L1, L2; reflexivity)) in S1. apply (dec2_iff _ _ B2' ltac:(rewrite app_length, L1', L2'; reflexivity)) in S2.
  destruct S1 as (q & Eq & Rq). destruct S2 as (q' & Eq' & Rq'). rewrite E1 in Eq. injection Eq as <-. rewrite E2 in Eq'. injection Eq' as <-.
  destruct (cpt (b := b2) P) as [|x y] eqn:Ec.
  - exfalso. assert (Z0 : P = gid) by (apply curve_eq; exact Ec). subst P. pose proof (C33_g2_accepts b c s X1 L1 X2 L2 E1) as [_ [[Z _]|[_ (_ & Q & y & RQ & CQ & _)]]].
    + rewrite F in Z. discriminate Z.
    + rewrite (rep2g_fun _ _ _ RQ Rq) in CQ. discriminate CQ.
  - rewrite (C32_g2_format s P x y Rq Ec), (C32_g2_format s' P x y Rq' Ec). reflexivity.
Qed.
(** for every message (with a hash other than the identity) some signer's signature has two accepted strings *)
Theorem C67_unique_refuted : forall m (H : E2), message m -> hash_to_curve m DST_SIG H -> H <> gid ->
  exists sk s1 s2, key sk /\ 0 < val sk < order /\ bytes s1 /\ bytes s2 /\ length s1 = 96%nat /\ length s2 = 96%nat /\ s1 <> s2 /\
    wire_accepts (g1_toCompressed (public_key sk)) m s1 /\ wire_accepts (g1_toCompressed (public_key sk)) m s2.
Proof.
  intros m H Hm HH NH. destruct (hit H 5 (hash_order _ _ _ HH) NH) as (a & Ra & Ea).
  assert (W4 : 0 <= a < W ^ Z.of_nat 4) by (split; [apply Ra|apply (Z.lt_trans _ order); [apply Ra|reflexivity]]).
  pose proof (limbs_of_small 4 a W4) as V. pose proof (limbs_of_words 4 a) as Wk.
  assert (N5 : (zmul 5 G2gen : E2) <> gid) by exact (finite2 _ _ _ pt5).
  assert (NA : a <> 0) by (intros ->; apply N5; rewrite <- Ea; reflexivity).
  destruct (two_enc2 (zmul 5 G2gen) X5 Y5 pt5 x5_small) as (s1 & s2 & ND & B1 & B2 & L1 & L2 & S1 & S2). rewrite <- Ea in S1, S2.
  exists (limbs_of 4 a), s1, s2. split; [split; [exact Wk|apply limbs_of_length]|]. rewrite V. split; [clear - Ra NA; lia|].
  split; [exact B1|]. split; [exact B2|]. split; [exact L1|]. split; [exact L2|]. split; [exact ND|].
  pose proof (public_key_ok (limbs_of 4 a) Wk) as R. rewrite V in R.
  destruct (comp1 _ _ R) as (Bp & Lp & Sp). { intros Z. apply (zmul_prime order _ _ order_prime G1gen_r G1gen_nz) in Z. apply Z.divide_pos_le in Z; clear - Z Ra NA; lia. }
  split; apply (C67_accepts _ _ _ H Bp Lp); auto; exists a; auto.
Qed.
(** strings with the infinity flags set are accepted for every message, whatever the other bits *)
Theorem C67_infinity_refuted : forall pkb m b c, bytes pkb -> length pkb = 48%nat -> bytes b -> length b = 48%nat -> bytes c -> length c = 48%nat -> message m ->
  Z.testbit (be_int pkb) 383 = true -> Z.testbit (be_int pkb) 382 = true -> Z.testbit (be_int b) 383 = true -> Z.testbit (be_int b) 382 = true ->
  wire_accepts pkb m (b ++ c).
Proof.
  intros pkb m b c Bp Lp Bb Lb Bc Lc Hm P3 P2 B3 B2. exists g1_zero, g2_zero.
  split; [exact (proj1 C33_infinity_junk_refuted pkb Bp Lp P3 P2)|]. split; [exact (proj2 C33_infinity_junk_refuted b c Bb Lb Bc Lc B3 B2)|].
  exact (C49_identity_verifies m Hm).
Qed.
(** * Affine strings, with curve check; o is the Montgomery option *)
Definition affine_accepts (from1 : list Z -> bool -> bool -> option g1) (from2 : list Z -> bool -> bool -> option g2) (o : bool) (pkb m sb : list Z) : Prop :=
  exists pk s, from1 pkb true o = Some pk /\ from2 sb true o = Some s /\ verify pk m s = Ok true.
(** every honest key and signature is accepted; the accepted signature string is determined by key string and message, the key string by
    the signature string and a message whose hash is not the identity *)
Definition affine_wire (to1 : g1 -> bool -> list Z) (from1 : list Z -> bool -> bool -> option g1)
    (to2 : g2 -> bool -> list Z) (from2 : list Z -> bool -> bool -> option g2) : Prop :=
  (forall o sk m, key sk -> message m -> exists s, sign sk m = Ok s /\ affine_accepts from1 from2 o (to1 (public_key sk) o) m (to2 s o)) /\
  (forall o pkb m s1 s2, bytes pkb -> length pkb = 96%nat -> bytes s1 -> length s1 = 192%nat -> bytes s2 -> length s2 = 192%nat -> message m ->
     affine_accepts from1 from2 o pkb m s1 -> affine_accepts from1 from2 o pkb m s2 -> s1 = s2) /\
  (forall o pkb pkb' m sb (H : E2), bytes pkb -> length pkb = 96%nat -> bytes pkb' -> length pkb' = 96%nat -> bytes sb -> length sb = 192%nat -> message m ->
     hash_to_curve m DST_SIG H -> H <> gid -> affine_accepts from1 from2 o pkb m sb -> affine_accepts from1 from2 o pkb' m sb -> pkb = pkb').
Lemma affine_wire_gen to1 from1 to2 from2 : affine_codec 48 rep1g to1 from1 -> affine_codec 96 rep2g to2 from2 ->
  (forall p q (P : E1) o, rep1g p P -> rep1g q P -> to1 p o = to1 q o) -> (forall p q (P : E2) o, rep2g p P -> rep2g q P -> to2 p o = to2 q o) ->
  affine_wire to1 from1 to2 from2.
Proof.
  intros (A1 & I1 & _) (A2 & I2 & _) T1 T2. split; [|split].
  - intros o sk m [Wk Lk] Hm. destruct (sign_ok sk m Wk Hm) as (s & H & E & HH & HR & OH). exists s. split; [exact E|].
    destruct (A1 _ _ true o (public_key_ok sk Wk)) as (_ & _ & q & Eq & Rq). destruct (A2 _ _ true o HR) as (_ & _ & t & Et & Rt).
    exists q, t. split; [exact Eq|]. split; [exact Et|]. destruct (verify_ok q m t (rep1g_coords _ _ Rq) (rep2g_coords _ _ Rt) Hm) as (b & H' & Ev & HH' & Hb).
    rewrite Ev. apply (f_equal Ok), Hb. pose proof (hash_fun _ _ _ _ HH HH') as <-. exists (val sk). auto.
  - intros o pkb m s1 s2 Bp Lp B1 L1 B2 L2 Hm (pk & s & Ep & Es & V) (pk' & s' & Ep' & Es' & V'). rewrite Ep in Ep'. injection Ep' as <-.
    destruct (I1 pkb o pk Bp Lp Ep) as [[P RP] _]. destruct (I2 s1 o s B1 L1 Es) as [[S RS] W1]. destruct (I2 s2 o s' B2 L2 Es') as [[S' RS'] W2].
    rewrite <- W1, <- W2. apply (T2 _ _ S); [exact RS|].
    assert (X : g2_equal s s' = true) by exact (C48_unique pk m s s' (rep1g_coords _ _ RP) (rep2g_coords _ _ RS) (rep2g_coords _ _ RS') Hm V V').
    apply (rep2g_equal _ _ _ _ RS RS') in X. rewrite X. exact RS'.
  - intros o pkb pkb' m sb H Bp Lp Bp' Lp' Bs Ls Hm HH NH (pk & s & Ep & Es & V) (pk' & s' & Ep' & Es' & V'). rewrite Es in Es'. injection Es' as <-.
    destruct (I1 pkb o pk Bp Lp Ep) as [[P RP] W1]. destruct (I1 pkb' o pk' Bp' Lp' Ep') as [[P' RP'] W2]. destruct (I2 sb o s Bs Ls Es) as [[S RS] _].
    rewrite <- W1, <- W2. apply (T1 _ _ P); [exact RP|].
    assert (X : g1_equal pk pk' = true) by exact (C48_key_binding pk pk' m s H (rep1g_coords _ _ RP) (rep1g_coords _ _ RP') (rep2g_coords _ _ RS) Hm HH NH V V').
    apply (rep1g_equal _ _ _ _ RP RP') in X. rewrite X. exact RP'.
Qed.
Theorem C67_affine_BE : affine_wire g1_toAffineBE g1_fromAffineBE g2_toAffineBE g2_fromAffineBE.
Proof. exact (affine_wire_gen _ _ _ _ C34_g1_affine_BE C34_g2_affine_BE (fun p q P o => toA1 48 _ p q P o) (fun p q P o => toA2 96 _ p q P o)). Qed.
Theorem C67_affine_LE : affine_wire g1_toAffineLE g1_fromAffineLE g2_toAffineLE g2_fromAffineLE.
Proof. exact (affine_wire_gen _ _ _ _ C34_g1_affine_LE C34_g2_affine_LE (fun p q P o => toA1 48 _ p q P o) (fun p q P o => toA2 96 _ p q P o)). Qed.
(** the hash of "hi" under the signature tag is a finite point, so the hypotheses above hold for it *)
Example C67_nontrivial : exists H : E2, message [104; 105] /\ hash_to_curve [104; 105] DST_SIG H /\ H <> gid /\ key [5; 0; 0; 2 ^ 62] /\ ~ (order | val [5; 0; 0; 2 ^ 62]).
Proof.
  destruct vh_hash as (H & HH & C). exists H. split; [split; [repeat constructor; discriminate|reflexivity]|]. split; [exact HH|].
  split; [exact (finite2 _ _ _ C)|]. split; [split; [apply wordsb_ok; reflexivity|reflexivity]|].
  intros D. apply Z.mod_divide in D; [|discriminate]. vm_compute in D. discriminate D.
Qed.
(** the vector of RFC 9380, J.10.1, for the empty message, fits the specification of hash_to_curve *)
Example C47_rfc_vector : exists H : E2, hash_to_curve [] (ascii_bytes "QUUX-V01-CS02-with-BLS12381G2_XMD:SHA-256_SSWU_RO_") H /\
  cpt (b := b2) H = Aff (K := KFp2)
    (mkFp2 (Fof 0x0141ebfbdca40eb85b87142e130ab689c673cf60f1a3e98d69335266f30d9b8d4ac44c1038e9dcdd5393faf5c41fb78a) (Fof 0x05cb8437535e20ecffaef7752baddf98034139c38452458baeefab379ba13dff5bf5dd71b72418717047f5b0f37da03d))
    (mkFp2 (Fof 0x0503921d7f6a12805e72940b963c0cf3471c7b2a524950ca195d11062ee75ec076daf2d4bc358c4b190c0c98064fdd92) (Fof 0x12424ac32561493f3fe3c260708a12b7c620e7be00099a974e259ddc7d1f6395c3c811cdd19f1e8dbf3e9ecfdcbab8d6)).
Proof. exact va_hash. Qed.

Definition props_wire := (C67_accepts, C67_roundtrip, C67_malleability, C67_canonical_unique, C67_unique_refuted, C67_infinity_refuted, C67_affine_BE, C67_affine_LE).
Print Assumptions props_wire.
