(** C78: the reduction modulo the group order is not constant time.  [treduce], [taggregate_secret_keys] and
    [tderive_child_sk_unhardened] (ModelDivLog.v) are the functions of the library with a log of the branches of bn_divn_low. *)
From Coq Require Import ZArith List Bool Lia.
From Verif Require Import SpecField SpecBytes SpecHash SpecCodec SpecKeys SpecCurve FieldProof TowerProof CurveProof AbGroup CurveInst CurveReps CurveBase.
From Verif Require Import ModelWord ModelScalar ScalarProof ModelFp ModelDiv ModelCurve ModelCodec ModelSha ModelKeys KeysProof Properties_Scheme ModelDivLog DivLogProof.
Import ListNotations.
Local Open Scope Z_scope.

(** The logged functions return what the functions without log return, for all arguments. *)
Theorem C78_same_results : (forall k, fst (treduce k) = reduce k) /\ (forall sks, fst (taggregate_secret_keys sks) = aggregate_secret_keys sks) /\
  (forall sk i, fst (tderive_child_sk_unhardened sk i) = derive_child_sk_unhardened sk i).
Proof. exact (conj treduce_er (conj taggregate_er tchild_er)). Qed.

(** The reduction of a number of 4+j limbs starts with floor(k / (r 2^(64j))) rounds of the while loop; for four limbs (keys, digests) this
    is the quotient floor(k / r), in {0, 1, 2}, and there are no further branches.  For each of the j other digits follows one round:
    the comparison of the leading limbs, n corrections of the estimated digit, and the three branches of the subtraction. *)
Theorem C78_rounds : forall k j, words k -> length k = (4 + j)%nat ->
  exists rounds, snd (treduce k) = repeat (BTop true) (Z.to_nat (val k / (order * 2 ^ (64 * Z.of_nat j)))) ++ [BTop false] ++ concat rounds /\
    length rounds = j /\
    Forall (fun l => exists e n g m k, l = BEq e :: repeat (BLower true) n ++ [BLower false; BLong g; BMore m; BBack k]) rounds.
Proof. intros k j H L. rewrite <- W_pow64. exact (treduce_rounds k j H L). Qed.
(** hence two four-limb numbers have the same log exactly if they have the same quotient *)
Theorem C78_four_limbs : forall k k', key k -> key k' -> (snd (treduce k) = snd (treduce k') <-> val k / order = val k' / order).
Proof.
  intros k k' K K'. destruct (treduce4 k K) as (r & -> & _). destruct (treduce4 k' K') as (r' & -> & _). cbn [snd].
  pose proof (Z.div_pos (val k) order (val_nonneg _ (proj1 K)) eq_refl). pose proof (Z.div_pos (val k') order (val_nonneg _ (proj1 K')) eq_refl).
  split; [|intros ->; reflexivity]. intros E. apply (f_equal (@length _)) in E. rewrite !app_length, !repeat_length in E. lia.
Qed.

(** Aggregation: for each key, one round exactly if the sum so far plus the key reaches the order. *)
Theorem C78_aggregate : forall sks, Forall (fun k => key k /\ val k < order) sks -> sum_ok 0 (map val sks) ->
  snd (taggregate_secret_keys sks) = wraps 0 (map val sks).
Proof. intros sks F S. destruct sks as [|sk sks]; [reflexivity|]. exact (tagg_log (sk :: sks) [0; 0; 0; 0] key0 eq_refl F S). Qed.

(** Unhardened derivation: the log tells whether the secret key is below the threshold r - nonce, where the nonce is a hash of the
    public key and the index, known to everyone: each derived index compares the secret key with another public number. *)
Theorem C78_child : exists observer : list dbr -> bool, forall sk u v i,
  key sk -> val sk < order -> cpt (b := b1) (zmul (val sk) G1gen) = Aff (K := KFp) u v -> ~ carry_lost (val sk) (nonce_of (enc_g1 u v) i) ->
  observer (snd (tderive_child_sk_unhardened sk i)) = (order - nonce_of (g1_toCompressed (public_key sk)) i <=? val sk).
Proof.
  exists (fun l => match rev l with BTop false :: BTop true :: _ => true | _ => false end).
  intros sk u v i K Bk E N. pose proof (g1_enc_E _ _ u v (public_key_ok sk (proj1 K)) E) as Ee. unfold tderive_child_sk_unhardened. cbv zeta. rewrite Ee.
  destruct (nonce_digest (enc_g1 u v) i (enc_g1_bytes u v)) as (n & En & Kn & Vn). assert (Vn' : val n = nonce_of (enc_g1 u v) i) by (unfold nonce_of; exact Vn). clear Vn.
  assert (Bn : val n < order) by (rewrite Vn'; apply Z.mod_pos_bound; reflexivity). rewrite <- Vn' in *. clear Vn'.
  pose proof (treduce_er (fromBytesBE 4 (sha256 [enc_g1 u v ++ index_bytes i]))) as Et. rewrite En in Et.
  destruct (treduce (fromBytesBE 4 (sha256 [enc_g1 u v ++ index_bytes i]))) as [o l]. cbn [fst] in Et. subst o. cbn [tbind].
  assert (V0 : 0 <= val sk) by apply val_nonneg, K. assert (V1 : 0 <= val n) by apply val_nonneg, Kn.
  assert (L : snd (taggregate_secret_keys [sk; n]) = [BTop false] ++ wrap (val sk + val n)).
  { change (taggregate_secret_keys [sk; n]) with (tagg_sk_loop [0; 0; 0; 0] [sk; n]). rewrite (tagg_log [sk; n] [0; 0; 0; 0] key0 eq_refl).
    - cbn [map wraps]. change (val [0; 0; 0; 0]) with 0. rewrite Z.add_0_l, (Z.mod_small (val sk)), app_nil_r by (split; assumption). f_equal.
      unfold wrap. rewrite (proj2 (Z.leb_gt order (val sk))) by exact Bk. reflexivity.
    - constructor; [exact (conj K Bk)|constructor; [exact (conj Kn Bn)|constructor]].
    - cbn [map sum_ok]. change (val [0; 0; 0; 0]) with 0. split; [apply carry_lost_0; exact V0|]. rewrite Z.add_0_l, (Z.mod_small (val sk)) by (split; assumption). exact (conj N I). }
  destruct (taggregate_secret_keys [sk; n]) as [o l']. cbn [snd] in *. rewrite L. clear - V0 V1.
  rewrite rev_app_distr. unfold wrap. replace (order - val n <=? val sk) with (order <=? val sk + val n) by (destruct (Z.leb_spec order (val sk + val n)), (Z.leb_spec (order - val n) (val sk)); lia).
  destruct (order <=? val sk + val n); cbn [rev app]; [reflexivity|]. destruct (rev l); reflexivity.
Qed.

(** 5 + (r - 3) wraps, 5 + (r - 6) does not; digests below r, between r and 2r, above 2r; two six-limb numbers that agree in the
    top digit and differ in the digits below it *)
Definition limbs4 (x : Z) : list Z := map (fun i => (x / 2 ^ (64 * i)) mod 2 ^ 64) [0; 1; 2; 3].
Example C78_example :
  snd (taggregate_secret_keys [limbs4 5; limbs4 (order - 3)]) = [BTop false; BTop true; BTop false] /\
  snd (taggregate_secret_keys [limbs4 5; limbs4 (order - 6)]) = [BTop false; BTop false] /\
  map (fun k => snd (treduce (limbs4 k))) [order - 1; order; 2 ^ 256 - 1] =
    [[BTop false]; [BTop true; BTop false]; [BTop true; BTop true; BTop false]] /\
  treduce (repeat 0 6) = (Ok [0; 0; 0; 0], [BTop false; BEq false; BLower false; BLong false; BMore true; BBack false; BEq false; BLower false; BLong false; BMore true; BBack false]) /\
  snd (treduce ([0; 0] ++ limbs4 (order - 1))) = [BTop false; BEq true; BLower false; BLong true; BMore false; BBack false; BEq true; BLower false; BLong true; BMore true; BBack false].
Proof. vm_compute. repeat split. Qed.

Definition props_divlog := (C78_same_results, C78_rounds, C78_four_limbs, C78_aggregate, C78_child).
Print Assumptions props_divlog.
