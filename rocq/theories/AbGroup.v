(** Abelian groups and integer multiples. *)
From Coq Require Import ZArith Znumtheory Lia List.
Import ListNotations.
Local Open Scope Z_scope.

Record abgroup := mkAb {
  gcar :> Type; gop : gcar -> gcar -> gcar; gid : gcar; ginv : gcar -> gcar;
  g_assoc : forall x y z, gop (gop x y) z = gop x (gop y z);
  g_comm : forall x y, gop x y = gop y x;
  g_id : forall x, gop gid x = x;
  g_inv : forall x, gop x (ginv x) = gid;
  g_dec : forall x y : gcar, {x = y} + {x <> y} }.
Arguments gop {_} _ _. Arguments gid {_}. Arguments ginv {_} _.
(** n x, for any integer n: x + ... + x *)
Definition zmul {G : abgroup} (n : Z) (x : G) : G :=
  match n with Z0 => gid | Zpos p => Pos.iter_op gop p x | Zneg p => ginv (Pos.iter_op gop p x) end.
(** sum of a list *)
Definition gsum {G : abgroup} (l : list G) : G := fold_right gop gid l.

Section AbG.
Context {G : abgroup}.
Implicit Types x y z : G.
Declare Scope G_scope.
Notation "x + y" := (gop x y) : G_scope. Notation "- x" := (ginv x) : G_scope. Notation "0" := gid : G_scope.
Local Open Scope G_scope.
Lemma g_id_r x : x + 0 = x. Proof. rewrite g_comm. apply g_id. Qed.
Lemma g_inv_l x : - x + x = 0. Proof. rewrite g_comm. apply g_inv. Qed.
Lemma g_cancel x y z : x + y = x + z -> y = z.
Proof. intros H. rewrite <- (g_id _ y), <- (g_id _ z), <- (g_inv_l x), !g_assoc, H. reflexivity. Qed.
Lemma g_cancel_r x y z : y + x = z + x -> y = z. Proof. rewrite !(g_comm _ _ x). apply g_cancel. Qed.
Lemma g_inv_unique x y : x + y = 0 -> y = - x. Proof. intros H. apply (g_cancel x). rewrite H, g_inv. reflexivity. Qed.
Lemma g_inv_inv x : - - x = x. Proof. symmetry. apply g_inv_unique, g_inv_l. Qed.
Lemma g_inv_0 : - 0 = (0 : G). Proof. symmetry. apply g_inv_unique, g_id. Qed.
Lemma g_swap x y z : x + (y + z) = y + (x + z). Proof. rewrite <- !g_assoc, (g_comm _ x y). reflexivity. Qed.
Lemma g_swap4 (x y z t : G) : (x + y) + (z + t) = (x + z) + (y + t). Proof. rewrite !g_assoc. f_equal. apply g_swap. Qed.
Lemma g_inv_op x y : - (x + y) = - x + - y.
Proof. symmetry. apply g_inv_unique. rewrite g_swap4, !g_inv. apply g_id. Qed.
Lemma g_inv_inj x y : - x = - y -> x = y. Proof. intros H. rewrite <- (g_inv_inv x), H. apply g_inv_inv. Qed.
Lemma g_sub0 x y : x + - y = 0 -> x = y. Proof. intros H. apply (g_cancel (- y)). rewrite g_inv_l, g_comm. exact H. Qed.

Lemma pmul_succ p x : Pos.iter_op gop (Pos.succ p) x = x + Pos.iter_op gop p x.
Proof. apply Pos.iter_op_succ. intros. symmetry. apply g_assoc. Qed.
Lemma zmul_0 x : zmul 0 x = 0. Proof. reflexivity. Qed.
Lemma zmul_1 x : zmul 1 x = x. Proof. reflexivity. Qed.
Lemma zmul_succ n x : zmul (Z.succ n) x = x + zmul n x.
Proof.
  destruct n as [|p|p]; [symmetry; apply g_id_r| |].
  - cbn [zmul]. replace (Z.succ (Zpos p)) with (Zpos (Pos.succ p)) by lia. apply pmul_succ.
  - cbn [zmul]. destruct (Pos.eq_dec p 1) as [->|N].
    + cbn. symmetry. apply g_inv.
    + replace (Z.succ (Zneg p)) with (Zneg (Pos.pred p)) by lia. cbn [zmul].
      rewrite <- (Pos.succ_pred p N) at 2. rewrite pmul_succ, g_inv_op, <- g_assoc, g_inv, g_id. reflexivity.
Qed.
Lemma zmul_pred n x : zmul (Z.pred n) x = - x + zmul n x.
Proof. rewrite <- (Z.succ_pred n) at 2. rewrite zmul_succ, <- g_assoc, g_inv_l, g_id. reflexivity. Qed.
Lemma zmul_add m n x : zmul (m + n) x = zmul m x + zmul n x.
Proof.
  revert n. induction m using Z.peano_ind; intros n.
  - rewrite Z.add_0_l. symmetry. apply g_id.
  - rewrite Z.add_succ_l, !zmul_succ, IHm, g_assoc. reflexivity.
  - rewrite Z.add_pred_l, !zmul_pred, IHm, g_assoc. reflexivity.
Qed.
Lemma zmul_opp n x : zmul (- n) x = - zmul n x.
Proof. apply g_inv_unique. rewrite <- zmul_add, Z.add_opp_diag_r. reflexivity. Qed.
Lemma zmul_sub m n x : zmul (m - n) x = zmul m x + - zmul n x.
Proof. unfold Z.sub. rewrite zmul_add, zmul_opp. reflexivity. Qed.
Lemma zmul_op n x y : zmul n (x + y) = zmul n x + zmul n y.
Proof.
  induction n using Z.peano_ind.
  - symmetry. apply g_id.
  - rewrite !zmul_succ, IHn. apply g_swap4.
  - rewrite !zmul_pred, IHn, g_inv_op. apply g_swap4.
Qed.
Lemma zmul_inv n x : zmul n (- x) = - zmul n x.
Proof. apply g_inv_unique. rewrite <- zmul_op, g_inv. induction n using Z.peano_ind; [reflexivity| |]; rewrite ?zmul_succ, ?zmul_pred, IHn, g_id_r; [reflexivity|apply g_inv_0]. Qed.
Lemma zmul_id n : zmul n (0 : G) = 0.
Proof. induction n using Z.peano_ind; [reflexivity| |]; rewrite ?zmul_succ, ?zmul_pred, IHn, g_id_r; [reflexivity|apply g_inv_0]. Qed.
Lemma zmul_mul m n x : zmul (m * n) x = zmul m (zmul n x).
Proof.
  induction m using Z.peano_ind.
  - reflexivity.
  - rewrite Z.mul_succ_l, zmul_add, zmul_succ, IHm. apply g_comm.
  - rewrite Z.mul_pred_l, zmul_sub, zmul_pred, IHm. apply g_comm.
Qed.
Lemma zmul_2 x : zmul 2 x = x + x. Proof. reflexivity. Qed.
(** orders *)
Lemma zmul_divide m n x : (m | n) -> zmul m x = 0 -> zmul n x = 0.
Proof. intros [k ->] H. rewrite zmul_mul, H. apply zmul_id. Qed.
Lemma zmul_gcd m n x : zmul m x = 0 -> zmul n x = 0 -> zmul (Z.gcd m n) x = 0.
Proof.
  intros H1 H2. destruct (Z.gcd_bezout m n (Z.gcd m n) eq_refl) as (a & c & E). rewrite <- E, zmul_add, !zmul_mul, H1, H2, !zmul_id. apply g_id.
Qed.
Lemma zmul_mod m n x : zmul m x = 0 -> m <> 0%Z -> zmul (n mod m) x = zmul n x.
Proof.
  intros H N. rewrite (Z_div_mod_eq_full n m) at 2. rewrite zmul_add, (Z.mul_comm m), zmul_mul, H, zmul_id, g_id. reflexivity.
Qed.
Lemma zmul_prime r n x : prime r -> zmul r x = 0 -> x <> 0 -> zmul n x = 0 -> (r | n).
Proof.
  intros P Hr N Hn. destruct (Zdivide_dec r n) as [|ND]; [auto|]. exfalso. apply N.
  assert (E : Z.gcd r n = 1). { apply Zgcd_1_rel_prime. apply rel_prime_sym, rel_prime_sym, prime_rel_prime; auto. }
  rewrite <- (zmul_1 x), <- E. apply zmul_gcd; auto.
Qed.
End AbG.
(** homomorphisms *)
Lemma hom_zmul (G H : abgroup) (f : G -> H) : (forall x y, f (gop x y) = gop (f x) (f y)) -> forall n x, f (zmul n x) = zmul n (f x).
Proof.
  intros Hf. assert (F0 : f gid = gid). { apply (g_cancel (f gid)). rewrite <- Hf, g_id. symmetry. rewrite g_comm. apply g_id. }
  assert (FI : forall x, f (ginv x) = ginv (f x)). { intros x. apply (g_inv_unique). rewrite <- Hf, g_inv. exact F0. }
  intros n x. induction n using Z.peano_ind.
  - exact F0.
  - rewrite zmul_succ, Hf, IHn. symmetry. apply (zmul_succ).
  - rewrite zmul_pred, Hf, FI, IHn. symmetry. apply (zmul_pred).
Qed.
