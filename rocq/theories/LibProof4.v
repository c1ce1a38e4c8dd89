(** The library on limbs refines the value-level model: hashing, keys, signatures. *)
From Coq Require Import ZArith List Bool Lia.
From Verif Require Import SpecBytes SpecHash SpecSig ModelWord ModelScalar ModelDiv ModelPrim ModelFp ModelTower ModelCurve ModelCodec ModelSha ModelKdf ModelKeys ModelMap ModelPairing ModelSig PortArith ModelLimb ModelLimbLib SpecLimb.
From Verif Require Import ScalarProof BytesProof CarryProof KdfProof SigProof MapCount4 LimbProof LibProof1 LibProof2 LibProof3.
Import ListNotations.
Local Open Scope Z_scope.

Lemma message_buf_ok m dst : message m -> bytes dst -> (length dst <= 255)%nat -> exists buf, message_buf (repeat 0 256) m dst = Ok buf /\ bytes buf /\ length buf = 256%nat.
Proof.
  intros [Bm Lm] Bd Ld. destruct (xmd_256 m dst Ld) as [buf E]. exists buf. split; [apply message_buf_xmd; try assumption; apply repeat_length|].
  split; [exact (xmd_bytes _ _ _ _ E)|exact (xmd_length _ _ _ _ E)].
Qed.
Section T.
Context (b : backend) (Hb : backend_ok b).
#[local] Opaque xmd_sh256 swuMapG2 isogenyMap.
Lemma buf_field_r buf off : bytes buf -> (off + 64 <= length buf)%nat -> rU rF (lib_buf_field b buf off) (buf_field buf off).
Proof.
  intros Bb Lb. pose proof (sub_span_bytes off 64 buf Bb) as B1. pose proof (sub_span_len off 64 buf Lb) as L1. unfold lib_buf_field, buf_field.
  apply (modPrime_r b Hb); [exact (fromBytesBE_words 8 _ B1 L1)|]. rewrite fromBytesBE_length. lia.
Qed.
Lemma buf_point_r buf off : bytes buf -> (off + 128 <= length buf)%nat -> rU rG2 (lib_buf_point b buf off) (buf_point buf off).
Proof.
  intros Bb Lb. unfold lib_buf_point, buf_point. apply (obind_r rF _); [apply buf_field_r; [exact Bb|lia]|]. intros t0 t0' T0.
  apply (obind_r rF _); [apply buf_field_r; [exact Bb|lia]|]. intros t1 t1' T1. cbv zeta. destruct (swuMapG2_r b Hb _ _ (mk2_r _ _ _ _ T0 T1)) as [X Y].
  red. apply (isogenyMap_r b Hb). exact (g2_mk _ _ _ _ _ _ X Y fp2_one_r).
Qed.
Lemma fromMessage_r m dst : message m -> bytes dst -> (length dst <= 255)%nat -> rU rG2 (lib_fromMessage b m dst) (fromMessage m dst).
Proof.
  intros Hm Bd Ld. destruct (message_buf_ok m dst Hm Bd Ld) as (buf & E & Bb & Lb). unfold lib_fromMessage, fromMessage, lib_fromMessage_init, fromMessage_init. rewrite E, !obind_Ok.
  apply (obind_r rG2 _); [apply buf_point_r; [exact Bb|lia]|]. intros p p' P. apply (obind_r rG2 _); [apply buf_point_r; [exact Bb|lia]|]. intros q q' Q. red. rel.
Qed.
Lemma fromMessage_sig m : message m -> rU rG2 (lib_fromMessage b m CIPHERSUITE_ID) (fromMessage m CIPHERSUITE_ID).
Proof. intros Hm. rewrite ID_eq. apply fromMessage_r; [exact Hm|exact DST_SIG_bytes|rewrite DST_SIG_len; lia]. Qed.
Lemma fromMessage_pop m : message m -> rU rG2 (lib_fromMessage b m POP_CIPHERSUITE_ID) (fromMessage m POP_CIPHERSUITE_ID).
Proof. intros Hm. rewrite POP_eq. apply fromMessage_r; [exact Hm|exact DST_POP_bytes|rewrite DST_POP_len; lia]. Qed.
#[local] Opaque lib_fromMessage fromMessage.
Lemma sign_sig_r sk m : message m -> rU rG2 (lib_sign b sk m) (sign sk m).
Proof. intros Hm. unfold lib_sign, sign. apply (obind_r rG2 _); [apply fromMessage_sig, Hm|]. intros p p' P. red. rel. Qed.
Lemma bad1_r p p' : rG1 p p' -> lib_bad1 b p = bad1 p'. Proof. intros P. unfold lib_bad1, bad1. rel. Qed.
Lemma bad2_r p p' : rG2 p p' -> lib_bad2 b p = bad2 p'. Proof. intros P. unfold lib_bad2, bad2. rel. Qed.
Lemma is_one_r v v' : Forall2 (rP rG1 rG2) v v' -> rU eq (lib_is_one b v) (is_one v').
Proof. intros V. unfold lib_is_one, is_one. apply (obind_r r12 _); [apply calculate_r; assumption|]. intros f f' F. red. rel. Qed.
Lemma rU_eq {A} (x y : outcome A) : rU eq x y -> x = y.
Proof. destruct x, y; cbn [rU]; try contradiction; congruence. Qed.
Lemma base_pair_r s s' : rG2 s s' -> Forall2 (rP rG1 rG2) (lib_add_pair b [] (lg1_neg b lg1_BASE) s) (add_pair [] (g1_neg g1_BASE) s').
Proof. intros S. apply add_pair_r; [exact Hb|constructor|rel|exact S]. Qed.
Lemma verify_r p p' m s s' : rG1 p p' -> message m -> rG2 s s' -> rU eq (lib_verify b p m s) (verify p' m s').
Proof.
  intros P Hm S. unfold lib_verify, verify. cbv zeta. apply (obind_r rG2 _); [apply fromMessage_sig, Hm|]. intros h h' H.
  rewrite (bad1_r p p' P), (bad2_r s s' S). destruct (bad1 p'); [exact eq_refl|]. destruct (bad2 s'); [exact eq_refl|]. apply is_one_r. apply add_pair_r; [exact Hb|apply base_pair_r, S|exact P|exact H].
Qed.
Lemma agg_loop_r pks pks' : Forall2 rG1 pks pks' -> forall ms v v', Forall message ms -> Forall2 (rP rG1 rG2) v v' ->
  rU (rO (Forall2 (rP rG1 rG2))) (lib_agg_loop b v pks ms) (agg_loop v' pks' ms).
Proof.
  induction 1 as [|p p' pks pks' P _ IH]; intros ms v v' Hm V; [exact V|]. cbn [lib_agg_loop agg_loop]. destruct Hm as [|m ms M Hm]; [exact I|].
  rewrite (bad1_r p p' P). destruct (bad1 p'); [exact I|]. apply (obind_r rG2 _); [apply fromMessage_sig, M|]. intros h h' H. apply IH; [exact Hm|]. apply add_pair_r; assumption.
Qed.
Lemma aggregate_verify_r pks pks' ms s s' check : Forall2 rG1 pks pks' -> Forall message ms -> rG2 s s' ->
  rU eq (lib_aggregate_verify b pks ms s check) (aggregate_verify pks' ms s' check).
Proof.
  intros P Hm S. unfold lib_aggregate_verify, aggregate_verify. cbv zeta. rewrite (bad2_r s s' S), (Forall2_len _ _ _ P). destruct (bad2 s'); [exact eq_refl|].
  match goal with |- rU eq (if ?c then _ else _) _ => destruct c end; [exact eq_refl|].
  match goal with |- rU eq (if ?c then _ else _) _ => destruct c end; [exact eq_refl|].
  apply (obind_r (rO (Forall2 (rP rG1 rG2))) _); [apply agg_loop_r; [exact P|exact Hm|apply base_pair_r, S]|]. intros [v|] [v'|] V; try contradiction; [apply is_one_r, V|exact eq_refl].
Qed.
Lemma public_key_r sk : rG1 (lib_public_key b sk) (public_key sk). Proof. unfold lib_public_key, public_key. rel. Qed.
Lemma pop_prove_r sk : rU rG2 (lib_pop_prove b sk) (pop_prove sk).
Proof.
  unfold lib_pop_prove, pop_prove. cbv zeta. rewrite (g1_toAffineLE_r b Hb _ _ true (public_key_r sk)). apply (obind_r rG2 _); [apply fromMessage_pop, popmsg_message|].
  intros p p' P. red. rel.
Qed.
Lemma pop_verify_r p p' s s' : rG1 p p' -> rG2 s s' -> rU eq (lib_pop_verify b p s) (pop_verify p' s').
Proof.
  intros P S. unfold lib_pop_verify, pop_verify. cbv zeta. rewrite (g1_toAffineLE_r b Hb _ _ true P). apply (obind_r rG2 _); [apply fromMessage_pop, popmsg_message|].
  intros h h' H. rewrite (bad1_r p p' P), (bad2_r s s' S). destruct (bad1 p'); [exact eq_refl|]. destruct (bad2 s'); [exact eq_refl|]. apply is_one_r. apply add_pair_r; [exact Hb|apply base_pair_r, S|exact P|exact H].
Qed.
Lemma fold_r {A B} (R : A -> B -> Prop) f f' : (forall x x' y y', R x x' -> R y y' -> R (f x y) (f' x' y')) -> forall l l', Forall2 R l l' -> forall a a', R a a' -> R (fold_left f l a) (fold_left f' l' a').
Proof. intros Hf l l'. induction 1 as [|x x' l l' X _ IH]; intros a a' K; [exact K|]. cbn [fold_left]. apply IH, Hf; assumption. Qed.
Lemma aggregate_public_keys_r l l' : Forall2 rG1 l l' -> rG1 (lib_aggregate_public_keys b l) (aggregate_public_keys l').
Proof.
  intros H. unfold lib_aggregate_public_keys, aggregate_public_keys. apply (fold_r rG1); [intros; rel|exact H|]. exact (g1_mk _ _ _ _ _ _ zero_r zero_r zero_r).
Qed.
Lemma aggregate_signatures_r l l' : Forall2 rG2 l l' -> rG2 (lib_aggregate_signatures b l) (aggregate_signatures l').
Proof. intros H. unfold lib_aggregate_signatures, aggregate_signatures. apply (fold_r rG2); [intros; rel|exact H|]. rel. Qed.
Lemma pop_fast_r pks pks' m s s' : Forall2 rG1 pks pks' -> message m -> rG2 s s' -> rU eq (lib_pop_fast_aggregate_verify b pks m s) (pop_fast_aggregate_verify pks' m s').
Proof.
  intros P Hm S. unfold lib_pop_fast_aggregate_verify, pop_fast_aggregate_verify. rewrite (Forall2_len _ _ _ P). destruct (length pks' =? 0)%nat; [exact eq_refl|].
  apply verify_r; [apply aggregate_public_keys_r, P|exact Hm|exact S].
Qed.
#[local] Opaque sha256 reduce sk_from_bytes aggregate_secret_keys.
Lemma derive_sk_r sk index : lib_derive_child_sk_unhardened b sk index = derive_child_sk_unhardened sk index.
Proof.
  unfold lib_derive_child_sk_unhardened, derive_child_sk_unhardened. cbv zeta. rewrite (g1_toCompressed_r b Hb _ _ (public_key_r sk)). exact eq_refl.
Qed.
Lemma reduce_r {A B} (R : A -> B -> Prop) x f f' : (forall r, rU R (f r) (f' r)) -> rU R (obind (reduce x) f) (obind (reduce x) f').
Proof. intros H. destruct (reduce x); [apply H|exact I|exact I]. Qed.
Lemma derive_g1_r p p' index : rG1 p p' -> rU rG1 (lib_derive_child_g1_unhardened b p index) (derive_child_g1_unhardened p' index).
Proof.
  intros P. unfold lib_derive_child_g1_unhardened, derive_child_g1_unhardened. cbv zeta. rewrite (g1_toCompressed_r b Hb _ _ P). apply reduce_r. intros r. red. rel.
Qed.
Lemma derive_g2_r p p' index : rG2 p p' -> rU rG2 (lib_derive_child_g2_unhardened b p index) (derive_child_g2_unhardened p' index).
Proof.
  intros P. unfold lib_derive_child_g2_unhardened, derive_child_g2_unhardened. cbv zeta. rewrite (g2_toCompressed_r b Hb _ _ P). apply reduce_r. intros r. red. rel.
Qed.
Lemma agg_by_r {T A B} (R : A -> B -> Prop) add add' (f : T -> A) (f' : T -> B) pred : (forall x x' y y', R x x' -> R y y' -> R (add x y) (add' x' y')) -> (forall t, R (f t) (f' t)) ->
  forall l i a a', R a a' -> R (agg_by add f pred i l a) (agg_by add' f' pred i l a').
Proof. intros Ha Hf. induction l as [|t l IH]; intros i a a' K; [exact K|]. cbn [agg_by]. apply IH. destruct (pred t i); [apply Ha; [exact K|apply Hf]|exact K]. Qed.
Lemma aggregate_public_keys_by_r {T} l (f : T -> lg1) f' pred : (forall t, rG1 (f t) (f' t)) -> rG1 (lib_aggregate_public_keys_by b l f pred) (aggregate_public_keys_by l f' pred).
Proof.
  intros H. unfold lib_aggregate_public_keys_by, aggregate_public_keys_by. apply (agg_by_r rG1); [intros; rel|exact H|]. exact (g1_mk _ _ _ _ _ _ zero_r zero_r zero_r).
Qed.
Lemma aggregate_signatures_by_r {T} l (f : T -> lg2) f' pred : (forall t, rG2 (f t) (f' t)) -> rG2 (lib_aggregate_signatures_by b l f pred) (aggregate_signatures_by l f' pred).
Proof. intros H. unfold lib_aggregate_signatures_by, aggregate_signatures_by. apply (agg_by_r rG2); [intros; rel|exact H|]. rel. Qed.
End T.
