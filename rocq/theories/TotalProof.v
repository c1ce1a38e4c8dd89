(** When the functions of the signature scheme return: the points given to them play no role, whatever their coordinates. *)
From Coq Require Import ZArith List Bool Lia.
From Verif Require Import SpecField SpecBytes SpecHash SpecCurve SpecMap SpecSig.
From Verif Require Import ModelWord ModelScalar ModelFp ModelTower ModelCurve ModelCodec ModelKdf ModelKeys ModelPairing ModelSig.
From Verif Require Import ScalarProof BytesProof KeysProof FpProof CurveInst SigProof MemCurve.
Import ListNotations.
Local Open Scope Z_scope.

(** the byte count, kept in 32 bits, is not negative as a signed number *)
Definition hashable (m : list Z) : Prop := Z.of_nat (length m) mod 2 ^ 32 < 2 ^ 31.

Lemma s32_mod n : 0 <= n -> s32 n = if n mod 2 ^ 32 <? 2 ^ 31 then n mod 2 ^ 32 else n mod 2 ^ 32 - 2 ^ 32.
Proof.
  intros Hn. unfold s32. rewrite Zplus_mod. change (2 ^ 31 mod 2 ^ 32) with 2147483648. change (2 ^ 31) with 2147483648. change (2 ^ 32) with 4294967296.
  pose proof (Z.mod_pos_bound n 4294967296 eq_refl) as B. set (r := n mod 4294967296) in *. clearbody r.
  destruct (Z.ltb_spec r 2147483648).
  - rewrite Z.mod_small by lia. lia.
  - rewrite <- (Z.mod_unique (r + 2147483648) 4294967296 1 (r - 2147483648)) by lia. lia.
Qed.
Lemma hashable_read m : hashable m -> exists m', read_bytes m (s32 (Z.of_nat (length m))) = Some m'.
Proof.
  intros H. unfold hashable in H. rewrite s32_mod by lia. rewrite (proj2 (Z.ltb_lt _ _) H). unfold read_bytes.
  pose proof (Z.mod_pos_bound (Z.of_nat (length m)) (2 ^ 32) eq_refl) as B. pose proof (Z.mod_le (Z.of_nat (length m)) (2 ^ 32) ltac:(lia) eq_refl) as L.
  rewrite (proj2 (Z.leb_le 0 _)), (proj2 (Z.leb_le _ (Z.of_nat (length m)))) by lia. eexists. reflexivity.
Qed.
Lemma fromMessage_iff m dst : bytes m -> bytes dst -> (length dst <= 255)%nat ->
  (hashable m -> exists h, fromMessage m dst = Ok h) /\ (~ hashable m -> fromMessage m dst = OutOfBounds).
Proof.
  intros Bm Bd Ld. split.
  - intros H. destruct (hashable_read m H) as (m' & R).
    destruct (fromMessage_init_ok (repeat 0 256) m m' dst Bm Bd Ld init_len R) as (h & P & E & _). exists h. exact E.
  - intros H. apply fromMessage_oob; [exact Ld|]. unfold hashable in H. rewrite s32_mod by lia.
    rewrite (proj2 (Z.ltb_ge _ _)) by lia. pose proof (Z.mod_pos_bound (Z.of_nat (length m)) (2 ^ 32) eq_refl). lia.
Qed.
Lemma sig_hash m : bytes m -> (hashable m -> exists h, fromMessage m CIPHERSUITE_ID = Ok h) /\ (~ hashable m -> fromMessage m CIPHERSUITE_ID = OutOfBounds).
Proof. intros Bm. rewrite ID_eq. apply fromMessage_iff; [exact Bm|exact DST_SIG_bytes|exact (len43 _ DST_SIG_len)]. Qed.
Lemma hashable_short m : Z.of_nat (length m) < 2 ^ 31 -> hashable m.
Proof. intros H. unfold hashable. rewrite Z.mod_small by lia. exact H. Qed.
Lemma hashable_dec m : {hashable m} + {~ hashable m}.
Proof. unfold hashable. apply Z_lt_dec. Qed.

Lemma calculate_total ps : Z.of_nat (length ps) <= 2 ^ 64 -> exists f, calculate ps = Ok f.
Proof.
  intros L. unfold calculate. destruct ps as [|p ps]; [eexists; reflexivity|].
  destruct (c_miller_loop_ok (p :: ps)) as (f & E & _); [cbn [length] in *; lia|]. rewrite E. cbn [obind]. eexists. reflexivity.
Qed.
Lemma is_one_total ps : Z.of_nat (length ps) <= 2 ^ 64 -> exists b, is_one ps = Ok b.
Proof. intros L. unfold is_one. destruct (calculate_total ps L) as (f & E). rewrite E. cbn [obind]. eexists. reflexivity. Qed.
Lemma add_pair_length ps p q : (length (add_pair ps p q) <= S (length ps))%nat.
Proof. unfold add_pair. destruct (_ || _); [lia|]. rewrite app_length. cbn [length]. lia. Qed.

Lemma verify_total pk m sig : bytes m -> (hashable m -> exists b, verify pk m sig = Ok b) /\ (~ hashable m -> verify pk m sig = OutOfBounds).
Proof.
  intros Bm. destruct (sig_hash m Bm) as [A B]. unfold verify. cbv zeta. split; intros H.
  - destruct (A H) as (h & ->). cbn [obind]. destruct (bad1 pk); [eexists; reflexivity|]. destruct (bad2 sig); [eexists; reflexivity|].
    apply is_one_total. pose proof (add_pair_length (add_pair [] (g1_neg g1_BASE) sig) pk h). pose proof (add_pair_length [] (g1_neg g1_BASE) sig). cbn [length] in *.
    apply Z.le_trans with 2; [lia|discriminate].
  - rewrite (B H). reflexivity.
Qed.
Lemma sign_total sk m : bytes m -> (hashable m -> exists s, sign sk m = Ok s) /\ (~ hashable m -> sign sk m = OutOfBounds).
Proof.
  intros Bm. destruct (sig_hash m Bm) as [A B]. unfold sign. split; intros H.
  - destruct (A H) as (h & ->). cbn [obind]. eexists. reflexivity.
  - rewrite (B H). reflexivity.
Qed.
Lemma agg_loop_total pks : forall ms v, length pks = length ms -> Forall (fun m => bytes m /\ hashable m) ms ->
  exists r, agg_loop v pks ms = Ok r /\ forall v', r = Some v' -> (length v' <= length v + length pks)%nat.
Proof.
  induction pks as [|pk pks IH]; intros ms v L F; destruct ms as [|m ms]; try discriminate L; cbn [agg_loop].
  - exists (Some v). split; [reflexivity|]. intros v' E. injection E as <-. cbn [length]. lia.
  - destruct (bad1 pk). { exists None. split; [reflexivity|]. discriminate. }
    apply Forall_cons_iff in F as [[Bm Hm] F]. destruct (proj1 (sig_hash m Bm) Hm) as (h & ->). cbn [obind].
    injection L as L. destruct (IH ms (add_pair v pk h) L F) as (r & E & B). exists r. split; [exact E|].
    intros v' Ev. specialize (B v' Ev). pose proof (add_pair_length v pk h). cbn [length]. lia.
Qed.
Lemma aggregate_total pks ms sig chk : Forall (fun m => bytes m /\ hashable m) ms -> Z.of_nat (length pks) < 2 ^ 64 ->
  exists b, aggregate_verify pks ms sig chk = Ok b.
Proof.
  intros F L. unfold aggregate_verify. cbv zeta. destruct (bad2 sig); [eexists; reflexivity|].
  destruct (Nat.eqb_spec (length pks) (length ms)) as [E|E]; [|eexists; reflexivity]. cbn [negb].
  destruct (chk && _); [eexists; reflexivity|].
  destruct (agg_loop_total pks ms (add_pair [] (g1_neg g1_BASE) sig) E F) as (r & -> & B). cbn [obind].
  destruct r as [v|]; [|eexists; reflexivity]. apply is_one_total. specialize (B v eq_refl).
  pose proof (add_pair_length [] (g1_neg g1_BASE) sig) as A. cbn [length] in A. lia.
Qed.

Lemma word_bytes_le_shape w : bytes (word_bytes_le w) /\ length (word_bytes_le w) = 8%nat.
Proof.
  split; [|reflexivity]. unfold word_bytes_le. apply Forall_forall. intros x Hx. apply in_map_iff in Hx as (k & <- & _).
  pose proof (Z.mod_pos_bound (w / 2 ^ k) 256 eq_refl). unfold byte. lia.
Qed.
Lemma toBytesLE_shape s : bytes (toBytesLE s) /\ length (toBytesLE s) = (8 * length s)%nat.
Proof.
  unfold toBytesLE. induction s as [|w s [IH1 IH2]]; [split; [constructor|reflexivity]|]. cbn [flat_map length].
  destruct (word_bytes_le_shape w) as [B L]. split; [apply Forall_app; auto|]. rewrite app_length, L, IH2. lia.
Qed.
Lemma limbs_of_length n x : length (limbs_of n x) = n.
Proof. revert x. induction n; intros x; cbn [limbs_of length]; [reflexivity|now rewrite IHn]. Qed.
Lemma pop_message_shape pk : bytes (g1_toAffineLE pk true) /\ length (g1_toAffineLE pk true) = 96%nat.
Proof.
  unfold g1_toAffineLE, j_toAffine. destruct (j_isZero fp_ops pk).
  - split; [|apply repeat_length]. apply Forall_forall. intros x Hx. apply repeat_spec in Hx. subst x. split; [discriminate|reflexivity].
  - cbv zeta. generalize (j_affine fp_ops pk). intros r. unfold fp_toBytesLE.
    generalize (fp_fromMont (jx r)) (fp_fromMont (jy r)). intros a b.
    destruct (toBytesLE_shape (limbs_of 6 a)) as [B1 L1]. destruct (toBytesLE_shape (limbs_of 6 b)) as [B2 L2].
    split; [apply Forall_app; auto|]. rewrite app_length, L1, L2, !limbs_of_length. reflexivity.
Qed.
Lemma pop_hash pk : exists h, fromMessage (g1_toAffineLE pk true) POP_CIPHERSUITE_ID = Ok h.
Proof.
  destruct (pop_message_shape pk) as [B L]. rewrite POP_eq. apply fromMessage_iff; [exact B|exact DST_POP_bytes|exact (len43 _ DST_POP_len)|].
  apply hashable_short. rewrite L. reflexivity.
Qed.
Lemma pop_verify_total pk sig : exists b, pop_verify pk sig = Ok b.
Proof.
  unfold pop_verify. cbv zeta. destruct (pop_hash pk) as (h & ->). cbn [obind]. destruct (bad1 pk); [eexists; reflexivity|].
  destruct (bad2 sig); [eexists; reflexivity|]. apply is_one_total.
  pose proof (add_pair_length (add_pair [] (g1_neg g1_BASE) sig) pk h). pose proof (add_pair_length [] (g1_neg g1_BASE) sig). cbn [length] in *.
  apply Z.le_trans with 2; [lia|discriminate].
Qed.
Lemma pop_prove_total sk : exists s, pop_prove sk = Ok s.
Proof. unfold pop_prove. cbv zeta. destruct (pop_hash (public_key sk)) as (h & ->). cbn [obind]. eexists. reflexivity. Qed.
Lemma fast_total pks m sig : bytes m -> hashable m -> exists b, pop_fast_aggregate_verify pks m sig = Ok b.
Proof. intros B H. unfold pop_fast_aggregate_verify. destruct (_ =? _)%nat; [eexists; reflexivity|]. apply verify_total; assumption. Qed.
