(** Property C75: when the functions of the signature scheme return.  The points handed to them may be anything: off the curve,
    outside the subgroup, with z = 0, with coordinates not below p.  [hashable m]: the length of m, reduced to 32 bits, is
    not negative as a signed number; messages below 2^31 bytes are hashable. *)
From Coq Require Import ZArith List Bool Lia.
From Verif Require Import SpecField SpecBytes ModelWord ModelScalar ModelFp ModelTower ModelCurve ModelKeys ModelPairing ModelSig FpProof TotalProof.
Import ListNotations.
Local Open Scope Z_scope.

Theorem C75_hashable : forall m, Z.of_nat (length m) < 2 ^ 31 -> hashable m.
Proof. exact hashable_short. Qed.
(** verify and sign return exactly for hashable messages; otherwise the hash reads outside the message. *)
Theorem C75_verify : forall pk m sig, bytes m -> ((exists b, verify pk m sig = Ok b) <-> hashable m) /\ verify pk m sig <> Throw.
Proof.
  intros pk m sig B. destruct (verify_total pk m sig B) as [T F]. destruct (hashable_dec m) as [H|H].
  - destruct (T H) as (b & E). split; [split; [intros _; exact H|intros _; exists b; exact E]|rewrite E; discriminate].
  - rewrite (F H). split; [split; [intros (b & E); discriminate E|contradiction]|discriminate].
Qed.
Theorem C75_sign : forall sk m, bytes m -> ((exists s, sign sk m = Ok s) <-> hashable m) /\ sign sk m <> Throw.
Proof.
  intros sk m B. destruct (sign_total sk m B) as [T F]. destruct (hashable_dec m) as [H|H].
  - destruct (T H) as (b & E). split; [split; [intros _; exact H|intros _; exists b; exact E]|rewrite E; discriminate].
  - rewrite (F H). split; [split; [intros (b & E); discriminate E|contradiction]|discriminate].
Qed.
(** lists of keys and messages of any (also different) lengths *)
Theorem C75_aggregate_verify : forall pks ms sig chk, Forall (fun m => bytes m /\ hashable m) ms -> Z.of_nat (length pks) < 2 ^ 64 ->
  exists b, aggregate_verify pks ms sig chk = Ok b.
Proof. exact aggregate_total. Qed.
Theorem C75_fast_aggregate_verify : forall pks m sig, bytes m -> hashable m -> exists b, pop_fast_aggregate_verify pks m sig = Ok b.
Proof. exact fast_total. Qed.
Theorem C75_pop : (forall sk, exists s, pop_prove sk = Ok s) /\ (forall pk proof, exists b, pop_verify pk proof = Ok b).
Proof. split; [exact pop_prove_total|exact pop_verify_total]. Qed.
Theorem C75_pairing : forall ps, Z.of_nat (length ps) <= 2 ^ 64 -> exists f, calculate ps = Ok f.
Proof. exact calculate_total. Qed.

(** A message of 2^32 + 5 bytes is hashable (C57: only five bytes count), one of 2^32 - 1 bytes is not; a point that is no point. *)
Example C75_example : hashable [1; 2; 3] /\ (exists m, bytes m /\ Z.of_nat (length m) = 2 ^ 32 + 5 /\ hashable m) /\
  (exists m, bytes m /\ ~ hashable m) /\ g1_isOnCurve (mkJ (modulus + 1) 5 7) = false.
Proof.
  assert (X : forall n, 0 <= n -> exists m, bytes m /\ Z.of_nat (length m) = n).
  { intros n H. exists (repeat 1 (Z.to_nat n)). split; [|rewrite repeat_length; apply Z2Nat.id; exact H].
    apply Forall_forall. intros x Hx. apply repeat_spec in Hx. subst x. split; [discriminate|reflexivity]. }
  split; [reflexivity|]. split; [|split].
  - destruct (X (2 ^ 32 + 5) ltac:(discriminate)) as (m & B & L). exists m. split; [exact B|]. split; [exact L|]. unfold hashable. rewrite L. reflexivity.
  - destruct (X (2 ^ 32 - 1) ltac:(discriminate)) as (m & B & L). exists m. split; [exact B|]. unfold hashable. rewrite L. intros H. vm_compute in H. discriminate H.
  - vm_compute. reflexivity.
Qed.

Definition props_total := (C75_hashable, C75_verify, C75_sign, C75_aggregate_verify, C75_fast_aggregate_verify, C75_pop, C75_pairing).
Print Assumptions props_total.
