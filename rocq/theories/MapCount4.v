(** Counting byte strings: residues, and the 256-byte strings from which hashing to G2 computes the same point. *)
From Coq Require Import ZArith List Bool Lia Uint63 Ring Field.
From Verif Require Import SpecField FieldProof RingPow TowerProof TowerProof2 ModelWord ModelPrim ModelScalar ModelFp ModelTower FpProof FpProof2 TowerRefine TowerRefine3 ModelCurve SpecCurve AbGroup CurveProof CurveRefine CurveInst CurveBase CurveReps CodecProof2 Endo SubgroupProof GenProof GroupCount Orders Cofactor I63 I63b.
From Verif Require Import ModelMap SpecMap MapProof MapComp MapConst MapG1.
From Verif Require Import GenProof GroupCount Orders Cofactor CodecProof2 MapG2 MapCount MapCount2 MapCount3 SpecBytes BytesProof KeysProof DivProof ModelDiv ModelKeys ModelKdf ModelSig SpecSig SigProof SpecCount ScalarProof SpecHash KdfProof.
From Coq Require Import Znumtheory.
Import ListNotations.
Local Open Scope Z_scope.
Add Field Fp_fieldMC : F_field.

(** * finite sets *)
Lemma zrange_le (N : Z) (l : list Z) : 0 <= N -> NoDup l -> (forall x, In x l -> 0 <= x < N) -> Z.of_nat (length l) <= N.
Proof.
  intros HN ND H. assert (I : incl l (map Z.of_nat (seq 0 (Z.to_nat N)))).
  { intros x Hx. apply H in Hx. apply in_map_iff. exists (Z.to_nat x). split; [lia|]. apply in_seq. lia. }
  apply (NoDup_incl_length ND) in I. rewrite map_length, seq_length in I. lia.
Qed.
Lemma nodup_map {A B} (f : A -> B) (l : list A) : NoDup l -> (forall a b, In a l -> In b l -> f a = f b -> a = b) -> NoDup (map f l).
Proof.
  induction 1 as [|a l N ND IH]; intros H; cbn [map]; constructor.
  - intros I. apply in_map_iff in I. destruct I as (b & E & I). apply N. rewrite (H a b (or_introl eq_refl) (or_intror I) (eq_sym E)). exact I.
  - apply IH. intros x y Hx Hy. apply H; right; assumption.
Qed.
Lemma fibersZ {A B} (deq : forall b b' : B, {b = b'} + {b <> b'}) (f : A -> B) (N1 N2 : Z) (l : list A) : 0 <= N2 -> NoDup l ->
  Z.of_nat (length (nodup deq (map f l))) <= N1 -> (forall b l', NoDup l' -> (forall a, In a l' -> In a l /\ f a = b) -> Z.of_nat (length l') <= N2) -> Z.of_nat (length l) <= N1 * N2.
Proof.
  intros P2 ND L1 L2. pose proof (fibers deq f (fun _ => Z.to_nat N2) (nodup deq (map f l)) l ND) as F.
  rewrite list_sum_const in F. assert (G : (length l <= Z.to_nat N2 * length (nodup deq (map f l)))%nat).
  { apply F; [intros a I; apply nodup_In, in_map, I|]. intros b l' N' H'. pose proof (L2 b l' N' H'). lia. }
  apply Nat2Z.inj_le in G. rewrite Nat2Z.inj_mul, Z2Nat.id in G by exact P2. nia.
Qed.
(** strings in two parts *)
Lemma split_count (c : nat) (P : list Z -> list Z -> Prop) (N1 N2 : Z) : 0 <= N2 ->
  (forall l, NoDup l -> (forall a, In a l -> exists b, P a b) -> Z.of_nat (length l) <= N1) ->
  (forall a l, NoDup l -> (forall b, In b l -> P a b) -> Z.of_nat (length l) <= N2) ->
  forall l, NoDup l -> (forall s, In s l -> P (firstn c s) (skipn c s)) -> Z.of_nat (length l) <= N1 * N2.
Proof.
  intros P2 H1 H2 l ND H. apply (fibersZ (list_eq_dec Z.eq_dec) (firstn c) N1 N2 l P2 ND).
  - apply H1; [apply NoDup_nodup|]. intros a I. apply nodup_In, in_map_iff in I. destruct I as (s & <- & I). exists (skipn c s). exact (H s I).
  - intros a l' N' H'. rewrite <- (map_length (skipn c) l'). apply (H2 a).
    + apply nodup_map; [exact N'|]. intros s t Hs Ht E. destruct (H' s Hs) as [_ Es]. destruct (H' t Ht) as [_ Et]. rewrite <- (firstn_skipn c s), <- (firstn_skipn c t), Es, Et, E. reflexivity.
    + intros b I. apply in_map_iff in I. destruct I as (s & <- & I). destruct (H' s I) as [J <-]. exact (H s J).
Qed.

(** * residues *)
Lemma be_int_inj a b : bytes a -> bytes b -> length a = length b -> be_int a = be_int b -> a = b.
Proof. intros Ba Bb L E. rewrite <- (int_be_be_int a Ba), <- (int_be_be_int b Bb), L, E. reflexivity. Qed.
Lemma strings_le n l : NoDup l -> (forall b, In b l -> bytes b /\ length b = n) -> Z.of_nat (length l) <= 256 ^ Z.of_nat n.
Proof.
  intros ND H. rewrite <- (map_length be_int l). apply zrange_le; [apply Z.pow_nonneg; lia| |].
  - apply nodup_map; [exact ND|]. intros a b Ha Hb. destruct (H a Ha), (H b Hb). apply be_int_inj; congruence.
  - intros x I. apply in_map_iff in I. destruct I as (b & <- & I). destruct (H b I) as [Bb Lb]. rewrite <- Lb. apply be_int_bound, Bb.
Qed.
Lemma residue_le n m x l : 0 < m -> NoDup l -> (forall b, In b l -> bytes b /\ length b = n /\ be_int b mod m = x) -> Z.of_nat (length l) <= 256 ^ Z.of_nat n / m + 1.
Proof.
  intros Hm ND H. rewrite <- (map_length (fun b => be_int b / m) l). assert (PP : 0 < 256 ^ Z.of_nat n) by (apply Z.pow_pos_nonneg; lia).
  pose proof (Z.div_pos (256 ^ Z.of_nat n) m ltac:(lia) Hm) as Q0. apply zrange_le; [lia| |].
  - apply nodup_map; [exact ND|]. intros a b Ha Hb E. destruct (H a Ha) as (Ba & La & Ra), (H b Hb) as (Bb & Lb & Rb). apply be_int_inj; [assumption..|congruence|].
    rewrite (Z.div_mod (be_int a) m), (Z.div_mod (be_int b) m), E, Ra, Rb by lia. reflexivity.
  - intros y I. apply in_map_iff in I. destruct I as (b & <- & I). destruct (H b I) as (Bb & Lb & _). pose proof (be_int_bound b Bb) as R. rewrite Lb in R.
    split; [apply Z.div_pos; lia|]. apply Z.lt_succ_r. apply Z.div_le_mono; lia.
Qed.
Lemma residue_size n m x : 0 < m -> 0 <= x < m -> m <= 256 ^ Z.of_nat n ->
  has_size (fun b => bytes b /\ length b = n /\ be_int b mod m = x) (256 ^ Z.of_nat n / m + if x <? 256 ^ Z.of_nat n mod m then 1 else 0).
Proof.
  intros Hm Hx Hn. set (N := 256 ^ Z.of_nat n) in *. set (c := N / m + if x <? N mod m then 1 else 0).
  pose proof (Z.div_mod N m ltac:(lia)) as DM. pose proof (Z.mod_pos_bound N m Hm) as MB.
  assert (CB : forall k, k < c <-> x + m * k < N).
  { intros k. unfold c. destruct (Z.ltb_spec x (N mod m)); split; intros; nia. }
  assert (IN : forall k, 0 <= k < c -> 0 <= x + m * k < N) by (intros k [K1 K2]; apply CB in K2; nia).
  exists (fun k => int_be n (x + m * k)). split; [|split].
  - intros k K. specialize (IN k K). split; [apply int_be_bytes|]. split; [apply int_be_length|]. rewrite be_int_int_be by lia. fold N. rewrite (Z.mod_small (x + m * k) N) by lia.
    rewrite Z.mul_comm, Z.mod_add by lia. apply Z.mod_small. lia.
  - intros k k' K K' E. apply (f_equal be_int) in E. rewrite !be_int_int_be in E by (apply IN in K; apply IN in K'; lia). fold N in E.
    rewrite !Z.mod_small in E by (apply IN; assumption). nia.
  - intros b (Bb & Lb & Rb). exists (be_int b / m). pose proof (be_int_bound b Bb) as R. rewrite Lb in R. fold N in R. pose proof (Z.div_mod (be_int b) m ltac:(lia)) as D. rewrite Rb in D.
    split.
    + split; [apply Z.div_pos; lia|]. apply CB. lia.
    + replace (x + m * (be_int b / m)) with (be_int b) by lia. rewrite <- Lb. apply int_be_be_int, Bb.
Qed.
Lemma has_size_ext {A} (S T : A -> Prop) n : (forall a, S a <-> T a) -> has_size S n -> has_size T n.
Proof. intros H (f & F1 & F2 & F3). exists f. split; [intros k K; apply H, F1, K|]. split; [exact F2|]. intros a Ta. apply F3, H, Ta. Qed.

(** * the reductions of the library *)
Lemma modPrime_residue b x : bytes b -> length b = 64%nat -> canon x -> (modPrime (fromBytesBE 8 b) = Ok x <-> be_int b mod modulus = fval (dec x)).
Proof.
  intros Bb Lb Cx. destruct (modPrime_ok (fromBytesBE 8 b)) as (y & E & C & D); [exact (fromBytesBE_words 8 b Bb Lb)|rewrite fromBytesBE_length; lia|].
  rewrite fromBytesBE_ok in D by assumption. rewrite E. split.
  - intros X. injection X as <-. rewrite D. reflexivity.
  - intros X. f_equal. apply dec_inj; [exact C|exact Cx|]. rewrite D. apply fval_inj. rewrite <- X. reflexivity.
Qed.
Lemma Ok_inj {A} (x y : A) : Ok x = Ok y -> x = y. Proof. intros H. injection H. auto. Qed.
Lemma skipn_add {A} : forall a b (l : list A), skipn (a + b) l = skipn b (skipn a l).
Proof. induction a as [|a IH]; intros b l; [reflexivity|]. destruct l as [|x l]; [cbn [Nat.add skipn]; destruct b; reflexivity|]. cbn [Nat.add skipn]. apply IH. Qed.
Lemma buf_field_fst s : length s = 128%nat -> buf_field s 0 = modPrime (fromBytesBE 8 (firstn 64 s)). Proof. reflexivity. Qed.
Lemma buf_field_snd s : length s = 128%nat -> buf_field s 64 = modPrime (fromBytesBE 8 (skipn 64 s)).
Proof. intros L. unfold buf_field, sub_span. f_equal. f_equal. apply firstn_all2. rewrite skipn_length. lia. Qed.
Lemma sub_span_hi (b : list Z) o k : sub_span (128 + o) k b = sub_span o k (skipn 128 b).
Proof. unfold sub_span. rewrite skipn_add. reflexivity. Qed.
Lemma buf_point_hi b : buf_point b 128 = buf_point (skipn 128 b) 0.
Proof. unfold buf_point, buf_field. change (sub_span 128 64 b) with (sub_span (128 + 0) 64 b). change (128 + 64)%nat with (128 + 64)%nat. rewrite !sub_span_hi. reflexivity. Qed.
Lemma buf_point_lo b : buf_point (firstn 128 b) 0 = buf_point b 0.
Proof.
  unfold buf_point, buf_field, sub_span. change (0 + 64)%nat with 64%nat. change (skipn 0 (firstn 128 b)) with (firstn 128 b). change (skipn 0 b) with b.
  rewrite (firstn_firstn b 64 128), (skipn_firstn_comm 64 128 b), (firstn_firstn (skipn 64 b) 64 (128 - 64)). reflexivity.
Qed.
Definition pq : Z := 2 ^ 512 / modulus + 1.
Lemma pow64 : 256 ^ Z.of_nat 64 = 2 ^ 512. Proof. vm_compute. reflexivity. Qed.
(** strings of 128 bytes with the same pair of field elements *)
Lemma field_pair_count x0 x1 l : canon x0 -> canon x1 -> NoDup l -> (forall s, In s l -> bytes s /\ length s = 128%nat /\ buf_field s 0 = Ok x0 /\ buf_field s 64 = Ok x1) -> Z.of_nat (length l) <= pq * pq.
Proof.
  intros C0 C1 ND H.
  pose (P := fun a b : list Z => (bytes a /\ length a = 64%nat /\ be_int a mod modulus = fval (dec x0)) /\ (bytes b /\ length b = 64%nat /\ be_int b mod modulus = fval (dec x1))).
  assert (Mp : 0 < modulus) by reflexivity.
  apply (split_count 64 P).
  - vm_compute. discriminate.
  - intros l1 N1 H1. unfold pq. rewrite <- pow64. apply (residue_le 64 modulus (fval (dec x0))); [exact Mp|exact N1|]. intros a I. destruct (H1 a I) as (b & Pa & _). exact Pa.
  - intros a l2 N2 H2. unfold pq. rewrite <- pow64. apply (residue_le 64 modulus (fval (dec x1))); [exact Mp|exact N2|]. intros b I. exact (proj2 (H2 b I)).
  - exact ND.
  - intros s I. destruct (H s I) as (Bs & Ls & E0 & E1). rewrite buf_field_fst in E0 by exact Ls. rewrite buf_field_snd in E1 by exact Ls.
    assert (B0 : bytes (firstn 64 s)) by (apply bytes_firstn, Bs). assert (B1 : bytes (skipn 64 s)) by (apply bytes_skipn, Bs).
    assert (L0 : length (firstn 64 s) = 64%nat) by (rewrite firstn_length; lia). assert (L1 : length (skipn 64 s) = 64%nat) by (rewrite skipn_length; lia).
    split; (split; [assumption|]; split; [assumption|]); [exact (proj1 (modPrime_residue _ _ B0 L0 C0) E0)|exact (proj1 (modPrime_residue _ _ B1 L1 C1) E1)].
Qed.
Definition ofield (b : list Z) (o : nat) : Z := match buf_field b o with Ok x => x | _ => 0 end.
Lemma ofield_ok b o : bytes b -> (o + 64 <= length b)%nat -> buf_field b o = Ok (ofield b o) /\ canon (ofield b o).
Proof. intros Bb L. unfold ofield. destruct (buf_field_ok b o Bb L) as (x & E & C & _). rewrite E. split; [reflexivity|exact C]. Qed.
Lemma fp2_dec (a b : fp2) : {a = b} + {a <> b}. Proof. decide equality; apply Z.eq_dec. Qed.
Lemma buf_point_eq s x0 x1 : buf_field s 0 = Ok x0 -> buf_field s 64 = Ok x1 -> buf_point s 0 = Ok (isogenyMap (mkJ (fst (swuMapG2 (mk2 x0 x1))) (snd (swuMapG2 (mk2 x0 x1))) fp2_one)).
Proof. intros E0 E1. unfold buf_point. change (0 + 64)%nat with 64%nat. rewrite E0, E1. reflexivity. Qed.
Lemma map_of_iso e (P : E2) : rep2g (isogenyMap (mkJ (fst (swuMapG2 e)) (snd (swuMapG2 e)) fp2_one)) P -> rep2g (g2_mapToCurve e) (zmul h_eff2 P).
Proof. intros H. unfold g2_mapToCurve. cbv zeta. exact (g2_clear_heff _ _ H). Qed.
(** strings of 128 bytes whose point has a given multiple *)
Lemma half_count (Q : E2) l : NoDup l -> (forall s, In s l -> bytes s /\ length s = 128%nat /\ exists p (P : E2), buf_point s 0 = Ok p /\ rep2g p P /\ zmul h_eff2 P = Q) -> Z.of_nat (length l) <= (14 * h2cof) * (pq * pq).
Proof.
  intros ND H. apply (fibersZ fp2_dec (fun s => mk2 (ofield s 0) (ofield s 64))); [vm_compute; discriminate|exact ND| |].
  - apply (g2_map_count Q); [apply NoDup_nodup| |].
    + apply Forall_forall. intros e I. apply nodup_In, in_map_iff in I. destruct I as (s & <- & I). destruct (H s I) as (Bs & Ls & _).
      split; [exact (proj2 (ofield_ok s 0 Bs ltac:(lia)))|exact (proj2 (ofield_ok s 64 Bs ltac:(lia)))].
    + intros e I. apply nodup_In, in_map_iff in I. destruct I as (s & <- & I). destruct (H s I) as (Bs & Ls & p & P & Ep & RP & HQ). rewrite <- HQ.
      destruct (ofield_ok s 0 Bs ltac:(lia)) as [E0 _]. destruct (ofield_ok s 64 Bs ltac:(lia)) as [E1 _].
      rewrite (buf_point_eq s _ _ E0 E1) in Ep. apply Ok_inj in Ep. subst p. exact (map_of_iso _ _ RP).
  - intros e l' N' H'. destruct l' as [|s0 l0]; [vm_compute; discriminate|]. remember (s0 :: l0) as l'. assert (I0 : In s0 l') by (subst l'; left; reflexivity). clear Heql'.
    destruct (H' s0 I0) as [J0 <-]. destruct (H s0 J0) as (B0 & L0 & _).
    apply (field_pair_count (ofield s0 0) (ofield s0 64)); [exact (proj2 (ofield_ok s0 0 B0 ltac:(lia)))|exact (proj2 (ofield_ok s0 64 B0 ltac:(lia)))|exact N'|].
    intros s I. destruct (H' s I) as [J E]. destruct (H s J) as (Bs & Ls & _). destruct (ofield_ok s 0 Bs ltac:(lia)) as [E0 _]. destruct (ofield_ok s 64 Bs ltac:(lia)) as [E1 _].
    split; [exact Bs|]. split; [exact Ls|]. injection E as X0 X1. rewrite E0, E1, X0, X1. split; reflexivity.
Qed.
(** strings of 256 bytes with the same point *)
Definition hash_of (b : list Z) : outcome g2 := obind (buf_point b 0) (fun p => obind (buf_point b 128) (fun q => Ok (g2_clearCofactor (g2_add p q)))).
Lemma hash_of_eq b p q : buf_point b 0 = Ok p -> buf_point b 128 = Ok q -> hash_of b = Ok (g2_clearCofactor (g2_add p q)).
Proof. intros E1 E2. unfold hash_of. rewrite E1, E2. reflexivity. Qed.
Lemma hash_of_ok b (Q : E2) h : bytes b -> length b = 256%nat -> hash_of b = Ok h -> rep2g h Q ->
  exists p q (P P' : E2), buf_point b 0 = Ok p /\ buf_point b 128 = Ok q /\ rep2g p P /\ rep2g q P' /\ gop (zmul h_eff2 P) (zmul h_eff2 P') = Q.
Proof.
  intros Bb Lb E R. destruct (buf_point_ok b 0 Bb ltac:(lia)) as (p & P & Ep & _ & RP). destruct (buf_point_ok b 128 Bb ltac:(lia)) as (q & P' & Eq & _ & RQ).
  exists p, q, P, P'. split; [exact Ep|]. split; [exact Eq|]. split; [exact RP|]. split; [exact RQ|].
  rewrite (hash_of_eq b p q Ep Eq) in E. apply Ok_inj in E. subst h. rewrite <- zmul_op.
  exact (rep2g_fun _ _ _ (g2_clear_heff _ _ (rep2g_add _ _ _ _ RP RQ)) R).
Qed.
Lemma hash_count (Q : E2) l : NoDup l -> (forall b, In b l -> bytes b /\ length b = 256%nat /\ exists h, hash_of b = Ok h /\ rep2g h Q) ->
  Z.of_nat (length l) <= 256 ^ Z.of_nat 128 * ((14 * h2cof) * (pq * pq)).
Proof.
  intros ND H.
  pose (W := fun a b : list Z => (bytes a /\ length a = 128%nat) /\ (bytes b /\ length b = 128%nat) /\
    exists p q (P P' : E2), buf_point a 0 = Ok p /\ buf_point b 0 = Ok q /\ rep2g p P /\ rep2g q P' /\ gop (zmul h_eff2 P) (zmul h_eff2 P') = Q).
  apply (split_count 128 W).
  - vm_compute. discriminate.
  - intros l1 N1 H1. apply strings_le; [exact N1|]. intros a I. destruct (H1 a I) as (b & Pa & _). exact Pa.
  - intros a l2 N2 H2. destruct l2 as [|b0 l0]; [vm_compute; discriminate|]. remember (b0 :: l0) as l2. assert (I0 : In b0 l2) by (subst l2; left; reflexivity). clear Heql2.
    destruct (H2 b0 I0) as (_ & _ & p & _ & P & _ & Ep & _ & RP & _).
    apply (half_count (gop (ginv (zmul h_eff2 P)) Q)); [exact N2|]. intros s I. destruct (H2 s I) as (_ & (Bs & Ls) & p' & q & P1 & P' & Ep' & Eq & RP1 & RQ & HQ).
    split; [exact Bs|]. split; [exact Ls|]. exists q, P'. split; [exact Eq|]. split; [exact RQ|].
    rewrite Ep in Ep'. apply Ok_inj in Ep'. subst p'. rewrite (rep2g_fun _ _ _ RP RP1), <- HQ, <- g_assoc, g_inv_l, g_id. reflexivity.
  - exact ND.
  - intros b I. destruct (H b I) as (Bb & Lb & h & Eh & Rh). destruct (hash_of_ok b Q h Bb Lb Eh Rh) as (p & q & P & P' & Ep & Eq & RP & RQ & HQ).
    split; [split; [apply bytes_firstn, Bb|rewrite firstn_length; lia]|]. split; [split; [apply bytes_skipn, Bb|rewrite skipn_length; lia]|].
    exists p, q, P, P'. rewrite buf_point_lo, <- buf_point_hi. auto 10.
Qed.
Lemma hash_bound : 256 ^ Z.of_nat 128 * ((14 * h2cof) * (pq * pq)) * order <= 15 * 2 ^ 2048.
Proof. vm_compute. discriminate. Qed.
(** * the remaining reductions *)
Lemma key_inj k k' : key k -> key k' -> val k = val k' -> k = k'.
Proof. intros [W L] [W' L'] E. apply val_inj; [exact W|exact W'|rewrite L, L'; reflexivity|exact E]. Qed.
Lemma reduce_residue n b k : (4 <= n)%nat -> bytes b -> length b = (8 * n)%nat -> key k -> (reduce (fromBytesBE n b) = Ok k <-> be_int b mod order = val k).
Proof.
  intros Hn Bb Lb K. destruct (reduce_ok (fromBytesBE n b)) as (r & E & Kr & V); [exact (fromBytesBE_words n b Bb Lb)|rewrite fromBytesBE_length; exact Hn|].
  rewrite fromBytesBE_ok in V by assumption. rewrite E, <- V. split; [intros X; injection X as <-; reflexivity|]. intros X. f_equal. exact (key_inj _ _ Kr K X).
Qed.
Lemma sk_residue b k : bytes b -> length b = 32%nat -> key k -> (sk_from_bytes b true = Ok k <-> be_int b mod order = val k).
Proof.
  intros Bb Lb K. destruct (sk_from_mod b Bb Lb) as (r & E & Kr & V). rewrite E, <- V. split; [intros X; apply Ok_inj in X; rewrite X; reflexivity|]. intros X. f_equal. exact (key_inj _ _ Kr K X).
Qed.
Lemma size_le {A} (S : A -> Prop) n m : 0 <= n -> 0 <= m -> has_size S n -> has_size S m -> n <= m.
Proof.
  intros Hn Hm (f & F1 & F2 & _) (g & _ & _ & G3). assert (I : incl (map f (zlist n)) (map g (zlist m))).
  { intros a H. apply in_map_iff in H. destruct H as (k & <- & H). apply zlist_in in H. destruct (G3 _ (F1 k H)) as (k' & K' & <-). apply in_map, zlist_in, K'. }
  apply NoDup_incl_length in I.
  - rewrite !map_length in I. apply Nat2Z.inj_le in I. rewrite !zlist_len in I by assumption. exact I.
  - apply nodup_map; [apply zlist_nodup|]. intros k k' Hk Hk'. apply zlist_in in Hk. apply zlist_in in Hk'. apply F2; assumption.
Qed.
(** * a collision of the simplified SWU map *)
Lemma m1_root : exists u : Fp, u <> F0 /\ sgn0_1 u = false /\ Fmul Z1 (Fmul u u) = Fopp F1.
Proof.
  set (u := Fmul nz1 zi1). assert (E : Fmul Z1 (Fmul u u) = Fopp F1).
  { unfold u. rewrite zi1_eq. assert (N := n1_Z num1_ok). assert (Q := n1_n num1_ok). transitivity (Fmul Z1 (Fmul (Fmul nz1 nz1) (Fmul (Finv Z1) (Finv Z1)))); [ring|]. rewrite Q. field. exact N. }
  assert (NU : u <> F0) by (intros X; rewrite X in E; apply (f_equal fval) in E; vm_compute in E; discriminate E).
  destruct (sgn0_1 u) eqn:S; [|exists u; auto]. exists (Fopp u). split; [|split].
  - intros X. apply NU. transitivity (Fopp (Fopp u)); [ring|rewrite X; ring].
  - rewrite (sgn0_1_neg u NU), S. reflexivity.
  - rewrite <- E. ring.
Qed.
Lemma pair_dec (p q : Z * Z) : canon (fst p) -> canon (snd p) -> canon (fst q) -> canon (snd q) -> dec (fst p) = dec (fst q) -> dec (snd p) = dec (snd q) -> p = q.
Proof. destruct p as [a b], q as [c d]. cbn [fst snd]. intros C1 C2 C3 C4 E1 E2. rewrite (dec_inj a c C1 C3 E1), (dec_inj b d C2 C4 E2). reflexivity. Qed.
Lemma swu_collision : exists e, canon e /\ e <> 0 /\ swuMapG1 e = swuMapG1 0.
Proof.
  destruct m1_root as (u & NU & S & E). exists (enc u). split; [apply canon_enc|]. split; [intros X; apply NU; rewrite <- (dec_enc u), X; exact dec_0|].
  destruct (swu1_ok (enc u) (canon_enc u)) as (x & y & [Cx Dx] & [Cy Dy] & HS). rewrite dec_enc in HS. destruct (swu1_ok 0 canon_0) as (x' & y' & [Cx' Dx'] & [Cy' Dy'] & HS'). rewrite dec_0 in HS'.
  destruct (sswu_fun KFp KFp_field A1' B1' sgn0_1 Z1 F0 sgn0_1_neg _ _ _ _ zero_sswu HS') as [X1 X2].
  assert (HU : sswu (K := KFp) sgn0_1 A1' B1' Z1 u v1 sv1).
  { destruct zero_sswu as (_ & Z2 & Z3). assert (X0 : sswu_x1 (K := KFp) A1' B1' Z1 u = v1).
    { unfold sswu_x1. cbv zeta. destruct (keq _ _) as [_|N]; [symmetry; exact v1_eq|]. exfalso. apply N. change (Fadd (Fmul (Fmul Z1 (Fmul u u)) (Fmul Z1 (Fmul u u))) (Fmul Z1 (Fmul u u)) = F0). rewrite E. ring. }
    unfold sswu. cbv zeta. rewrite X0. split; [left; split; [exists sv1; exact (n1_s num1_ok)|reflexivity]|]. split; [exact Z2|]. rewrite S, Z3. reflexivity. }
  destruct (sswu_fun KFp KFp_field A1' B1' sgn0_1 Z1 u sgn0_1_neg _ _ _ _ HU HS) as [Y1 Y2].
  exact (pair_dec _ _ Cx Cy Cx' Cy' (eq_trans Dx (eq_trans (eq_sym Y1) (eq_trans X1 (eq_sym Dx')))) (eq_trans Dy (eq_trans (eq_sym Y2) (eq_trans X2 (eq_sym Dy'))))).
Qed.
(** * messages *)
Lemma message_buf_xmd init m dst b : bytes m -> Z.of_nat (length m) < 2 ^ 31 -> bytes dst -> (length dst <= 255)%nat -> length init = 256%nat -> expand_message_xmd m dst 256 = Some b ->
  message_buf init m dst = Ok b.
Proof.
  intros Bm Lm Bd Ld Li Eb. pose proof (xmd_length _ _ _ _ Eb) as Lb. unfold message_buf.
  rewrite (s32_small (Z.of_nat (length dst))), (s32_small (Z.of_nat (length m))) by (change (2 ^ 31) with 2147483648 in *; lia).
  rewrite (xmd_ok 256 m dst Bm Bd) by (change (2 ^ 31) with 2147483648; lia). change (Z.to_nat 256) with 256%nat. rewrite Eb. cbn [obind snd]. rewrite Lb, <- Li, skipn_all, app_nil_r. reflexivity.
Qed.
Lemma obind_Ok {A B} (x : A) (f : A -> outcome B) : obind (Ok x) f = f x. Proof. reflexivity. Qed.
Lemma fromMessage_hash_of init m dst b : message_buf init m dst = Ok b -> fromMessage_init init m dst = hash_of b.
Proof. intros E. unfold fromMessage_init, hash_of. rewrite E, obind_Ok. reflexivity. Qed.
Lemma fromMessage_count (Q : E2) dst (l : list (list Z)) : bytes dst -> (length dst <= 255)%nat -> NoDup (map (fun m => expand_message_xmd m dst 256) l) ->
  (forall m, In m l -> bytes m /\ Z.of_nat (length m) < 2 ^ 31 /\ exists h, fromMessage m dst = Ok h /\ rep2g h Q) -> Z.of_nat (length l) * order <= 15 * 2 ^ 2048.
Proof.
  intros Bd Ld ND H. set (x := fun m => match expand_message_xmd m dst 256 with Some b => b | None => [] end).
  assert (X : forall m, expand_message_xmd m dst 256 = Some (x m)) by (intros m; unfold x; destruct (xmd_256 m dst Ld) as (b & E); rewrite E; reflexivity).
  assert (C : Z.of_nat (length (map x l)) <= 256 ^ Z.of_nat 128 * ((14 * h2cof) * (pq * pq))).
  { apply (hash_count Q).
    - assert (EM : map (fun m => expand_message_xmd m dst 256) l = map (@Some (list Z)) (map x l)) by (rewrite map_map; apply map_ext; exact X).
      rewrite EM in ND. exact (NoDup_map_inv _ _ ND).
    - intros b I. apply in_map_iff in I. destruct I as (m & <- & I). destruct (H m I) as (Bm & Lm & h & Eh & Rh). pose proof (X m) as E.
      split; [exact (xmd_bytes _ _ _ _ E)|]. split; [exact (xmd_length _ _ _ _ E)|]. exists h. split; [|exact Rh].
      rewrite <- (fromMessage_hash_of (repeat 0 256) m dst (x m)); [exact Eh|]. apply message_buf_xmd; [exact Bm|exact Lm|exact Bd|exact Ld|apply repeat_length|exact E]. }
  rewrite map_length in C. pose proof hash_bound as B. assert (P0 : 0 < order) by reflexivity.
  revert C B P0. generalize (256 ^ Z.of_nat 128 * (14 * h2cof * (pq * pq))) (15 * 2 ^ 2048) order. clear. intros N M q C B P0. nia.
Qed.
