(** Lemmas for C83: counting six-limb numbers with an all-ones limb. *)
From Coq Require Import ZArith List Bool Lia.
From Verif Require Import ModelWord ModelScalar SpecBytes ScalarProof CarryProof.
Import ListNotations.
Local Open Scope Z_scope.

Lemma image_bound {A : Type} (f : Z -> A) n l : 0 <= n -> NoDup l -> (forall a, In a l -> exists k, 0 <= k < n /\ f k = a) -> Z.of_nat (length l) <= n.
Proof.
  intros Hn ND C. rewrite <- (Z2Nat.id n Hn). apply inj_le.
  replace (Z.to_nat n) with (length (map (fun k => f (Z.of_nat k)) (seq 0 (Z.to_nat n)))) by (rewrite map_length, seq_length; reflexivity).
  apply (NoDup_incl_length ND). intros a I. destruct (C a I) as (k & B & E). apply in_map_iff. exists (Z.to_nat k).
  rewrite Z2Nat.id by lia. split; [exact E|]. apply in_seq. lia.
Qed.
Definition ins (i : nat) (s : list Z) : list Z := firstn i s ++ (W - 1) :: skipn i s.
Lemma ins_del i y : (i < length y)%nat -> nth i y 0 = W - 1 -> ins i (firstn i y ++ skipn (S i) y) = y.
Proof.
  intros L E. unfold ins. rewrite firstn_app, skipn_app, firstn_firstn, Nat.min_id, firstn_length, Nat.min_l by lia.
  rewrite Nat.sub_diag, (skipn_all2 (firstn i y)) by (rewrite firstn_length; lia). cbn [firstn skipn app]. rewrite app_nil_r.
  rewrite <- E. clear E. revert i L. induction y as [|h y IH]; intros i L; [cbn [length] in L; lia|].
  destruct i as [|i]; [reflexivity|]. cbn [firstn skipn app nth length] in *. f_equal. apply IH. lia.
Qed.
Lemma ones_bound l : NoDup l -> (forall y, In y l -> six y /\ exists i, (0 < i < 5)%nat /\ nth i y 0 = W - 1) -> Z.of_nat (length l) <= 4 * W ^ 5.
Proof.
  intros ND C. set (B := W ^ 5) in *. assert (PB : 0 < B) by reflexivity.
  apply (image_bound (fun k => ins (S (Z.to_nat (k / B))) (limbs_of 5 (k mod B)))); [lia|exact ND|].
  intros y I. destruct (C y I) as ((L & Hy) & i & Hi & E). set (s := firstn i y ++ skipn (S i) y).
  assert (Ls : length s = 5%nat) by (unfold s; rewrite app_length, firstn_length, skipn_length, L; lia).
  assert (Hs : words s). { unfold s, words in *. apply Forall_app. split; [rewrite <- (firstn_skipn i) in Hy|rewrite <- (firstn_skipn (S i)) in Hy]; apply Forall_app in Hy; apply Hy. }
  pose proof (val_bound s Hs) as V. rewrite Ls in V. change (W ^ Z.of_nat 5) with B in V.
  destruct i as [|i]; [lia|]. exists (B * Z.of_nat i + val s). split; [split; [nia|]|].
  - assert (Z.of_nat i <= 3) by lia. nia.
  - assert (D : (B * Z.of_nat i + val s) / B = Z.of_nat i) by (symmetry; apply (Z.div_unique_pos _ _ _ (val s)); [exact V|reflexivity]).
    assert (M : (B * Z.of_nat i + val s) mod B = val s) by (symmetry; apply (Z.mod_unique_pos _ _ (Z.of_nat i)); [exact V|reflexivity]).
    cbv beta. rewrite D, M, Nat2Z.id, <- Ls, limbs_of_of_val by exact Hs. apply ins_del; [lia|exact E].
Qed.
