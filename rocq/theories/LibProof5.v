(** The library on limbs: limbs are determined by values; whole calls from byte strings to the answer. *)
From Coq Require Import ZArith List Bool Lia.
From Verif Require Import SpecBytes SpecHash SpecSig ModelWord ModelScalar ModelDiv ModelPrim ModelFp ModelTower ModelCurve ModelCodec ModelSha ModelKdf ModelKeys ModelMap ModelPairing ModelSig PortArith ModelLimb ModelLimbLib SpecLimb.
From Verif Require Import ScalarProof BytesProof CarryProof KdfProof SigProof LimbProof LibProof1 LibProof2 LibProof3 LibProof4.
Import ListNotations.
Local Open Scope Z_scope.

Lemma rF_inj x y z : rF x z -> rF y z -> x = y.
Proof. intros [S V] [S' V']. apply six_val_inj; [exact S|exact S'|]. rewrite V, V'. reflexivity. Qed.
Lemma r2_inj x y z : r2 x z -> r2 y z -> x = y.
Proof. intros [A B] [A' B']. destruct x, y. cbn in *. f_equal; eapply rF_inj; eassumption. Qed.
Lemma r6_inj x y z : r6 x z -> r6 y z -> x = y.
Proof. intros [A B C] [A' B' C']. destruct x, y. cbn in *. f_equal; eapply r2_inj; eassumption. Qed.
Lemma r12_inj x y z : r12 x z -> r12 y z -> x = y.
Proof. intros [A B] [A' B']. destruct x, y. cbn in *. f_equal; eapply r6_inj; eassumption. Qed.
Lemma rG1_inj x y z : rG1 x z -> rG1 y z -> x = y.
Proof. intros [A B C] [A' B' C']. destruct x, y. cbn in *. f_equal; eapply rF_inj; eassumption. Qed.
Lemma rG2_inj x y z : rG2 x z -> rG2 y z -> x = y.
Proof. intros [A B C] [A' B' C']. destruct x, y. cbn in *. f_equal; eapply r2_inj; eassumption. Qed.
Lemma rU_inj {A B} (R : A -> B -> Prop) x y z : (forall x y z, R x z -> R y z -> x = y) -> rU R x z -> rU R y z -> x = y.
Proof. intros I. destruct x, y, z; cbn [rU]; intros H H'; try contradiction; try reflexivity. f_equal. exact (I _ _ _ H H'). Qed.
Lemma eq_inj {A} (x y z : A) : x = z -> y = z -> x = y. Proof. congruence. Qed.

(** the value of limbs *)
Definition v2 (x : lfp2) : fp2 := mk2 (val (lc0 x)) (val (lc1 x)).
Definition words1 (p : lg1) : Prop := six (jx p) /\ six (jy p) /\ six (jz p).
Definition six2 (x : lfp2) : Prop := six (lc0 x) /\ six (lc1 x).
Definition words2 (p : lg2) : Prop := six2 (jx p) /\ six2 (jy p) /\ six2 (jz p).
Lemma words1_r p : words1 p -> rG1 p (jmap val p).
Proof. intros (A & B & C). split; split; cbn [jmap jx jy jz]; auto. Qed.
Lemma words2_r p : words2 p -> rG2 p (jmap v2 p).
Proof. intros ([A A'] & [B B'] & [C C']). split; split; split; cbn [jmap jx jy jz v2 c0 c1]; auto. Qed.
Lemma rG1_val p q : rG1 p q -> jmap val p = q.
Proof. intros [[_ A] [_ B] [_ C]]. unfold jmap. rewrite A, B, C. destruct q. reflexivity. Qed.

Section T.
Context (b : backend) (Hb : backend_ok b).
Lemma rO_some {A B} (R : A -> B -> Prop) x z a : rO R x z -> x = Some a -> exists c, z = Some c /\ R a c.
Proof. intros H ->. destruct z as [c|]; [exists c; auto|elim H]. Qed.
Lemma rO_some' {A B} (R : A -> B -> Prop) x z c : rO R x z -> z = Some c -> exists a, x = Some a /\ R a c.
Proof. intros H ->. destruct x as [a|]; [exists a; auto|elim H]. Qed.
Lemma call_verify (F : lg1 -> lg2 -> outcome bool) (F' : g1 -> g2 -> outcome bool) (f : forall p p' s s', rG1 p p' -> rG2 s s' -> rU eq (F p s) (F' p' s')) pkb sb :
  bytes pkb -> length pkb = 48%nat -> bytes sb -> length sb = 96%nat ->
  ((exists pk s, lg1_fromCompressed b pkb = Some pk /\ lg2_fromCompressed b sb = Some s /\ F pk s = Ok true) <->
   (exists pk s, g1_fromCompressed pkb = Some pk /\ g2_fromCompressed sb = Some s /\ F' pk s = Ok true)).
Proof.
  intros B1 L1 B2 L2. pose proof (g1_fromCompressed_r b Hb pkb B1 L1) as R1. pose proof (g2_fromCompressed_r b Hb sb B2 L2) as R2. split.
  - intros (pk & s & E1 & E2 & V). destruct (rO_some _ _ _ _ R1 E1) as (p' & E1' & P). destruct (rO_some _ _ _ _ R2 E2) as (s' & E2' & S).
    exists p', s'. split; [exact E1'|]. split; [exact E2'|]. rewrite <- V. symmetry. exact (rU_eq _ _ (f _ _ _ _ P S)).
  - intros (pk & s & E1 & E2 & V). destruct (rO_some' _ _ _ _ R1 E1) as (p' & E1' & P). destruct (rO_some' _ _ _ _ R2 E2) as (s' & E2' & S).
    exists p', s'. split; [exact E1'|]. split; [exact E2'|]. rewrite <- V. exact (rU_eq _ _ (f _ _ _ _ P S)).
Qed.
Lemma keys_r pkbs : Forall (fun k => bytes k /\ length k = 48%nat) pkbs -> forall pks, Forall2 (fun k p => lg1_fromCompressed b k = Some p) pkbs pks ->
  exists pks', Forall2 (fun k p => g1_fromCompressed k = Some p) pkbs pks' /\ Forall2 rG1 pks pks'.
Proof.
  induction 1 as [|k pkbs [Bk Lk] _ IH]; intros pks D; inversion D; subst; [exists []; split; constructor|].
  destruct (IH _ H3) as (ps & D' & R). destruct (rO_some _ _ _ _ (g1_fromCompressed_r b Hb k Bk Lk) H1) as (p & E & P). exists (p :: ps). split; constructor; assumption.
Qed.
Lemma keys_r' pkbs : Forall (fun k => bytes k /\ length k = 48%nat) pkbs -> forall pks, Forall2 (fun k p => g1_fromCompressed k = Some p) pkbs pks ->
  exists pks', Forall2 (fun k p => lg1_fromCompressed b k = Some p) pkbs pks' /\ Forall2 rG1 pks' pks.
Proof.
  induction 1 as [|k pkbs [Bk Lk] _ IH]; intros pks D; inversion D; subst; [exists []; split; constructor|].
  destruct (IH _ H3) as (ps & D' & R). destruct (rO_some' _ _ _ _ (g1_fromCompressed_r b Hb k Bk Lk) H1) as (p & E & P). exists (p :: ps). split; constructor; assumption.
Qed.
Lemma call_list (F : list lg1 -> lg2 -> outcome bool) (F' : list g1 -> g2 -> outcome bool)
  (f : forall p p' s s', Forall2 rG1 p p' -> rG2 s s' -> rU eq (F p s) (F' p' s')) pkbs sb :
  Forall (fun k => bytes k /\ length k = 48%nat) pkbs -> bytes sb -> length sb = 96%nat ->
  ((exists pks s, Forall2 (fun k p => lg1_fromCompressed b k = Some p) pkbs pks /\ lg2_fromCompressed b sb = Some s /\ F pks s = Ok true) <->
   (exists pks s, Forall2 (fun k p => g1_fromCompressed k = Some p) pkbs pks /\ g2_fromCompressed sb = Some s /\ F' pks s = Ok true)).
Proof.
  intros K B2 L2. pose proof (g2_fromCompressed_r b Hb sb B2 L2) as R2. split.
  - intros (pks & s & D & E2 & V). destruct (keys_r _ K _ D) as (p' & E1' & P). destruct (rO_some _ _ _ _ R2 E2) as (s' & E2' & S).
    exists p', s'. split; [exact E1'|]. split; [exact E2'|]. rewrite <- V. symmetry. exact (rU_eq _ _ (f _ _ _ _ P S)).
  - intros (pks & s & D & E2 & V). destruct (keys_r' _ K _ D) as (p' & E1' & P). destruct (rO_some' _ _ _ _ R2 E2) as (s' & E2' & S).
    exists p', s'. split; [exact E1'|]. split; [exact E2'|]. rewrite <- V. exact (rU_eq _ _ (f _ _ _ _ P S)).
Qed.
End T.
