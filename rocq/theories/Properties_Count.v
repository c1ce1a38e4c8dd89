(** Property C79: how many inputs the reductions, the maps to the curves and the hash to G2 send to the same value.
    has_size S n (SpecCount.v): S has n elements.  A list without repetitions stands for any finite set of inputs.
    p = modulus, r = order; canon e: e is below p; rep1g / rep2g p P: the Jacobian triple p denotes the point P. *)
From Coq Require Import ZArith List Bool Lia Uint63 Ring Field.
From Verif Require Import SpecField FieldProof RingPow TowerProof TowerProof2 ModelWord ModelPrim ModelScalar ModelFp ModelTower FpProof FpProof2 TowerRefine TowerRefine3 ModelCurve SpecCurve AbGroup CurveProof CurveRefine CurveInst CurveBase CurveReps CodecProof2 Endo SubgroupProof GenProof GroupCount Orders Cofactor I63 I63b.
From Verif Require Import ModelMap SpecMap MapProof MapComp MapConst MapG1.
From Verif Require Import GenProof GroupCount Orders Cofactor CodecProof2 MapG2 MapCount MapCount2 MapCount3 SpecBytes BytesProof KeysProof DivProof ModelDiv ModelKeys ModelKdf ModelSig SpecSig SigProof SpecCount ScalarProof SpecHash KdfProof MapCount4.
Import ListNotations.
Local Open Scope Z_scope.

(** The number of elements is unique. *)
Theorem C79_size_unique : forall (A : Type) (S : A -> Prop) n m, 0 <= n -> 0 <= m -> has_size S n -> has_size S m -> n = m.
Proof. intros A S n m Hn Hm H1 H2. apply Z.le_antisymm; apply (size_le S); assumption. Qed.

(** * reductions *)
(** fp::modPrime of 64 bytes: every field element comes from 2^512/p strings, rounded down or up; 2^512/p is more than 2^131 *)
Theorem C79_modPrime : forall x, canon x -> 
  has_size (fun b => bytes b /\ length b = 64%nat /\ modPrime (fromBytesBE 8 b) = Ok x) (2 ^ 512 / modulus + if fval (dec x) <? 2 ^ 512 mod modulus then 1 else 0) /\ 2 ^ 131 < 2 ^ 512 / modulus.
Proof.
  intros x Cx. split; [|vm_compute; reflexivity]. rewrite <- pow64. 
  apply (has_size_ext (fun b => bytes b /\ length b = 64%nat /\ be_int b mod modulus = fval (dec x))).
  - intros b. split; intros (Bb & Lb & E); (split; [exact Bb|]; split; [exact Lb|]); apply (modPrime_residue b x Bb Lb Cx); exact E.
  - apply residue_size; [reflexivity|apply fval_range|rewrite pow64; vm_compute; discriminate].
Qed.
(** the 48 bytes of key generation modulo r: every residue comes from 2^384/r strings, rounded down or up; 2^384/r is more than 2^129 *)
Theorem C79_secret_key : forall k, key k -> val k < order ->
  has_size (fun b => bytes b /\ length b = 48%nat /\ reduce (fromBytesBE 6 b) = Ok k) (2 ^ 384 / order + if val k <? 2 ^ 384 mod order then 1 else 0) /\ 2 ^ 129 < 2 ^ 384 / order.
Proof.
  intros k K Hk. split; [|vm_compute; reflexivity]. change (2 ^ 384) with (256 ^ Z.of_nat 48).
  apply (has_size_ext (fun b => bytes b /\ length b = 48%nat /\ be_int b mod order = val k)).
  - intros b. split; intros (Bb & Lb & E); (split; [exact Bb|]; split; [exact Lb|]); apply (reduce_residue 6 b k ltac:(lia) Bb Lb K); exact E.
  - apply residue_size; [reflexivity|split; [apply val_nonneg, K|exact Hk]|vm_compute; discriminate].
Qed.
(** sk_from_bytes with modOrder, and the nonce of unhardened derivation (a digest modulo r): keys below 2^256 mod r come from three strings, the others from two *)
Theorem C79_sk_from_bytes : forall k, key k -> val k < order ->
  has_size (fun b => bytes b /\ length b = 32%nat /\ sk_from_bytes b true = Ok k) (if val k <? 2 ^ 256 mod order then 3 else 2).
Proof.
  intros k K Hk. replace (if val k <? 2 ^ 256 mod order then 3 else 2) with (256 ^ Z.of_nat 32 / order + if val k <? 256 ^ Z.of_nat 32 mod order then 1 else 0).
  - apply (has_size_ext (fun b => bytes b /\ length b = 32%nat /\ be_int b mod order = val k)).
    + intros b. split; intros (Bb & Lb & E); (split; [exact Bb|]; split; [exact Lb|]); apply (sk_residue b k Bb Lb K); exact E.
    + apply residue_size; [reflexivity|split; [apply val_nonneg, K|exact Hk]|vm_compute; discriminate].
  - change (256 ^ Z.of_nat 32) with (2 ^ 256). change (2 ^ 256 / order) with 2. destruct (val k <? 2 ^ 256 mod order); reflexivity.
Qed.
(** so the keys obtained from uniform 32-byte strings are not close to uniform *)
Theorem C79_sk_from_bytes_refuted : exists k k', key k /\ key k' /\ val k < order /\ val k' < order /\
  has_size (fun b => bytes b /\ length b = 32%nat /\ sk_from_bytes b true = Ok k) 3 /\ has_size (fun b => bytes b /\ length b = 32%nat /\ sk_from_bytes b true = Ok k') 2.
Proof.
  assert (W : forall d, 0 <= d < 2 ^ 62 -> key [1; 0; 0; d]) by (intros d D; split; [repeat constructor; unfold word; change W with (2 ^ 64); lia|reflexivity]).
  exists [1; 0; 0; 0], [1; 0; 0; 2 ^ 62 - 1]. 
  assert (K1 : key [1; 0; 0; 0]) by (apply W; lia). assert (K2 : key [1; 0; 0; 2 ^ 62 - 1]) by (apply W; lia).
  split; [exact K1|]. split; [exact K2|]. split; [vm_compute; reflexivity|]. split; [vm_compute; reflexivity|].
  split; [exact (C79_sk_from_bytes _ K1 eq_refl)|exact (C79_sk_from_bytes _ K2 eq_refl)].
Qed.

(** * simplified SWU *)
(** at most four inputs have the same image, six for the one abscissa B/(Z A) that is the image of 0 *)
Theorem C79_swuMapG1 : forall x y l, NoDup l -> Forall canon l -> (forall e, In e l -> swuMapG1 e = (x, y)) ->
  (length l <= 6)%nat /\ (Fmul (dec x) (Fmul Z1 A1') <> B1' -> (length l <= 4)%nat).
Proof.
  intros x y l ND F H. assert (HS : forall u, In u (map dec l) -> sswu (K := KFp) sgn0_1 A1' B1' Z1 u (dec x) (dec y)).
  { intros u I. apply in_map_iff in I. destruct I as (e & <- & I). rewrite Forall_forall in F. destruct (swu1_ok e (F e I)) as (a & b & [_ Da] & [_ Db] & S). rewrite (H e I) in Da, Db. cbn [fst snd] in Da, Db. rewrite Da, Db. exact S. }
  pose proof (nodup_dec l ND F) as ND'. rewrite <- (map_length dec l). split.
  - exact (sswu_six KFp KFp_field A1' B1' Z1 (n1_A num1_ok) (n1_B num1_ok) (n1_Z num1_ok) HX1 sgn0_1 sgn0_1_neg _ _ _ ND' HS).
  - intros N. refine (sswu_four KFp KFp_field A1' B1' Z1 (n1_A num1_ok) (n1_B num1_ok) (n1_Z num1_ok) HX1 sgn0_1 sgn0_1_neg _ _ _ _ ND' HS).
    intros E. apply N. rewrite E. change (Fmul (Fmul B1' (Finv (Fmul Z1 A1'))) (Fmul Z1 A1') = B1'). rewrite <- v1_eq. exact (n1_v num1_ok).
Qed.
Theorem C79_swuMapG2 : forall x y l, NoDup l -> Forall canon2 l -> (forall e, In e l -> swuMapG2 e = (x, y)) ->
  (length l <= 6)%nat /\ (F2mul (dec2 x) (F2mul Z2 A2') <> B2' -> (length l <= 4)%nat).
Proof.
  intros x y l ND F H. assert (HS : forall u, In u (map dec2 l) -> sswu (K := KFp2) sgn0_2 A2' B2' Z2 u (dec2 x) (dec2 y)).
  { intros u I. apply in_map_iff in I. destruct I as (e & <- & I). rewrite Forall_forall in F. destruct (swu2_ok e (F e I)) as (a & b & [_ Da] & [_ Db] & S). rewrite (H e I) in Da, Db. cbn [fst snd] in Da, Db. rewrite Da, Db. exact S. }
  pose proof (nodup_dec2 l ND F) as ND'. rewrite <- (map_length dec2 l). split.
  - exact (sswu_six KFp2 KFp2_field A2' B2' Z2 (n2_A num2_ok) (n2_B num2_ok) (n2_Z num2_ok) HX2 sgn0_2 sgn0_2_neg _ _ _ ND' HS).
  - intros N. refine (sswu_four KFp2 KFp2_field A2' B2' Z2 (n2_A num2_ok) (n2_B num2_ok) (n2_Z num2_ok) HX2 sgn0_2 sgn0_2_neg _ _ _ _ ND' HS).
    intros E. apply N. rewrite E. change (F2mul (F2mul B2' (F2inv (F2mul Z2 A2'))) (F2mul Z2 A2') = B2'). rewrite <- v2_eq. exact (n2_v num2_ok).
Qed.
(** it is not injective *)
Theorem C79_swu_collision_refuted : exists e, canon e /\ e <> 0 /\ swuMapG1 e = swuMapG1 0.
Proof. exact swu_collision. Qed.

(** * mapToCurve *)
(** of the p elements of Fp, at most 47 p / r are mapped to the same point of G1 *)
Theorem C79_g1_mapToCurve : forall (Q : E1) l, NoDup l -> Forall canon l -> (forall e, In e l -> rep1g (g1_mapToCurve e) Q) -> Z.of_nat (length l) * order <= 47 * modulus.
Proof. intros Q l ND F H. pose proof (g1_map_count Q l ND F H) as C. eapply Z.le_trans; [exact C|]. vm_compute. discriminate. Qed.
(** of the p^2 elements of Fp2, at most 15 p^2 / r are mapped to the same point of G2 *)
Theorem C79_g2_mapToCurve : forall (Q : E2) l, NoDup l -> Forall canon2 l -> (forall e, In e l -> rep2g (g2_mapToCurve e) Q) -> Z.of_nat (length l) * order <= 15 * modulus ^ 2.
Proof.
  intros Q l ND F H. pose proof (g2_map_count Q l ND F H) as C. eapply Z.le_trans; [apply Z.mul_le_mono_nonneg_r; [discriminate|exact C]|]. vm_compute. discriminate.
Qed.

(** * hashing to G2 *)
(** of the 2^2048 possible results of expand_message_xmd, at most 15 2^2048 / r lead to the same point *)
Theorem C79_strings : forall (Q : E2) l, NoDup l ->
  (forall b, In b l -> bytes b /\ length b = 256%nat /\ exists p q, buf_point b 0 = Ok p /\ buf_point b 128 = Ok q /\ rep2g (g2_clearCofactor (g2_add p q)) Q) ->
  Z.of_nat (length l) * order <= 15 * 2 ^ 2048.
Proof.
  intros Q l ND H. assert (C := hash_count Q l ND). eapply Z.le_trans; [|exact hash_bound]. apply Z.mul_le_mono_nonneg_r; [discriminate|]. apply C.
  intros b I. destruct (H b I) as (Bb & Lb & p & q & E1 & E2 & R). split; [exact Bb|]. split; [exact Lb|]. eexists. split; [exact (hash_of_eq b p q E1 E2)|exact R].
Qed.
(** messages: g2::fromMessage gives the same point for at most 15 2^2048 / r messages with different expansions *)
Theorem C79_fromMessage : forall (Q : E2) dst l, bytes dst -> (length dst <= 255)%nat -> NoDup (map (fun m => expand_message_xmd m dst 256) l) ->
  (forall m, In m l -> message m /\ exists h, fromMessage m dst = Ok h /\ rep2g h Q) -> Z.of_nat (length l) * order <= 15 * 2 ^ 2048.
Proof. intros Q dst l Bd Ld ND H. apply (fromMessage_count Q dst l Bd Ld ND). intros m I. destruct (H m I) as [[Bm Lm] X]. auto. Qed.

(** the hypotheses are met: two inputs with the same image, a point that is hit, a key *)
Example C79_example : (exists e, NoDup [0; e] /\ Forall canon [0; e] /\ forall e', In e' [0; e] -> swuMapG1 e' = (fst (swuMapG1 0), snd (swuMapG1 0))) /\
  (exists Q : E2, rep2g (g2_mapToCurve (mk2 1 2)) Q) /\ key [5; 0; 0; 0] /\ val [5; 0; 0; 0] < order /\ 5 <? 2 ^ 384 mod order = true.
Proof.
  split; [|split; [|split; [|split; vm_compute; reflexivity]]].
  - destruct swu_collision as (e & C & N & E). exists e. split; [constructor; [intros [X|[]]; apply N; exact X|constructor; [intros []|constructor]]|].
    split; [constructor; [exact canon_0|constructor; [exact C|constructor]]|]. intros e' [<-|[<-|[]]]; [apply surjective_pairing|rewrite E; apply surjective_pairing].
  - assert (C : canon2 (mk2 1 2)) by (split; vm_compute; split; try discriminate; reflexivity). destruct (map2_rep _ C) as (P & _ & R). eexists. exact R.
  - split; [repeat constructor; unfold word; change W with (2 ^ 64); lia|reflexivity].
Qed.

Definition props_count := (C79_size_unique, C79_modPrime, C79_secret_key, C79_sk_from_bytes, C79_sk_from_bytes_refuted, C79_swuMapG1, C79_swuMapG2, C79_swu_collision_refuted, C79_g1_mapToCurve, C79_g2_mapToCurve, C79_strings, C79_fromMessage).
Print Assumptions props_count.
