(** Symmetric 2-cocycles on abelian groups and the Miller function they define; a decision tactic for abelian group equations. *)
From Coq Require Import ZArith List Lia.
From Verif Require Import AbGroup.
Import ListNotations.
Local Open Scope Z_scope.

(** * abelian group equations *)
Inductive gexpr := gxv (n : nat) | gx0 | gxa (x y : gexpr) | gxi (x : gexpr).
Fixpoint gxd {G : abgroup} (env : list G) (e : gexpr) : G :=
  match e with gxv n => nth n env gid | gx0 => gid | gxa x y => gop (gxd env x) (gxd env y) | gxi x => ginv (gxd env x) end.
(** coefficient of variable n *)
Fixpoint gxc (e : gexpr) (n : nat) : Z :=
  match e with gxv m => if Nat.eqb m n then 1 else 0 | gx0 => 0 | gxa x y => gxc x n + gxc y n | gxi x => - gxc x n end.
Fixpoint gxs {G : abgroup} (env : list G) (c : nat -> Z) (n : nat) : G :=
  match env with [] => gid | g :: env => gop (zmul (c n) g) (gxs env c (S n)) end.
Section GX.
Context {G : abgroup}.
Implicit Types env : list G.
Lemma gxs_ext env : forall c c' n, (forall i, (n <= i < n + length env)%nat -> c i = c' i) -> gxs env c n = gxs env c' n.
Proof. induction env as [|g env IH]; intros c c' n H; cbn [gxs]; [reflexivity|]. cbn [length] in H. rewrite (H n), (IH c c' (S n)) by (intros; try apply H; lia). reflexivity. Qed.
Lemma gxs_0 env : forall n, gxs env (fun _ => 0) n = gid.
Proof. induction env as [|g env IH]; intros n; cbn [gxs]; [reflexivity|]. rewrite IH, zmul_0. apply g_id. Qed.
Lemma gxs_add env c c' : forall n, gxs env (fun i => c i + c' i) n = gop (gxs env c n) (gxs env c' n).
Proof. induction env as [|g env IH]; intros n; cbn [gxs]; [rewrite g_id; reflexivity|]. rewrite IH, zmul_add. apply g_swap4. Qed.
Lemma gxs_opp env c : forall n, gxs env (fun i => - c i) n = ginv (gxs env c n).
Proof. induction env as [|g env IH]; intros n; cbn [gxs]; [rewrite g_inv_0; reflexivity|]. rewrite IH, zmul_opp, g_inv_op. reflexivity. Qed.
Lemma gxs_var env : forall n m, gxs env (fun i => if Nat.eqb (n + m) i then 1 else 0) n = nth m env gid.
Proof.
  induction env as [|g env IH]; intros n m; cbn [gxs]; [destruct m; reflexivity|]. destruct m as [|m].
  - rewrite Nat.add_0_r, Nat.eqb_refl, zmul_1. rewrite (gxs_ext _ _ (fun _ => 0)); [rewrite gxs_0; apply g_id_r|].
    intros i Hi. destruct (Nat.eqb_spec n i); [lia|reflexivity].
  - destruct (Nat.eqb_spec (n + S m) n); [lia|]. rewrite zmul_0, g_id. cbn [nth]. rewrite <- (IH (S n) m). apply gxs_ext. intros i _. replace (n + S m)%nat with (S n + m)%nat by lia. reflexivity.
Qed.
Lemma gxd_ok env e : gxd env e = gxs env (gxc e) 0.
Proof.
  induction e; cbn [gxd gxc].
  - rewrite <- (gxs_var env 0 n). reflexivity.
  - symmetry. apply gxs_0.
  - rewrite IHe1, IHe2. symmetry. apply gxs_add.
  - rewrite IHe. symmetry. apply gxs_opp.
Qed.
Fixpoint gxeq (e e' : gexpr) (n : nat) : bool := match n with O => true | S n => Z.eqb (gxc e n) (gxc e' n) && gxeq e e' n end.
Lemma gxeq_ok env e e' : gxeq e e' (length env) = true -> gxd env e = gxd env e'.
Proof.
  intros H. rewrite !gxd_ok. apply gxs_ext. intros i Hi. revert H Hi. generalize (length env). induction n as [|n IH]; intros H Hi; [lia|].
  cbn [gxeq] in H. apply andb_prop in H as [H1 H2]. apply Z.eqb_eq in H1. destruct (Nat.eq_dec i n) as [->|]; [exact H1|]. apply IH; [exact H2|lia].
Qed.
End GX.
Ltac gx_mem x l := match l with nil => constr:(false) | x :: _ => constr:(true) | _ :: ?t => gx_mem x t end.
Ltac gx_env t l := match t with
  | gop ?a ?b => let l := gx_env a l in gx_env b l
  | ginv ?a => gx_env a l
  | gid => l
  | ?x => let m := gx_mem x l in match m with true => l | false => constr:(x :: l) end end.
Ltac gx_idx x l := match l with x :: _ => constr:(O) | _ :: ?t => let n := gx_idx x t in constr:(S n) end.
Ltac gx_reify t l := match t with
  | gop ?a ?b => let x := gx_reify a l in let y := gx_reify b l in constr:(gxa x y)
  | ginv ?a => let x := gx_reify a l in constr:(gxi x)
  | gid => constr:(gx0)
  | ?x => let n := gx_idx x l in constr:(gxv n) end.
(** prove an equation that holds in all abelian groups *)
Ltac absolve := match goal with |- @eq (gcar ?G) ?a ?b =>
  let l := gx_env a constr:(@nil (gcar G)) in let l := gx_env b l in
  let x := gx_reify a l in let y := gx_reify b l in
  change (gxd l x = gxd l y); apply gxeq_ok; reflexivity end.

(** * symmetric cocycles *)
Lemma zmul_S {H : abgroup} n (q : H) : zmul (Z.of_nat (S n)) q = gop q (zmul (Z.of_nat n) q).
Proof. rewrite Nat2Z.inj_succ. apply zmul_succ. Qed.
Section Cocycle.
Context {H U : abgroup} (c : H -> H -> U).
Notation "x + y" := (gop x y). Notation "- x" := (ginv x). Notation "0" := gid.
Hypothesis c_comm : forall a b, c a b = c b a.
Hypothesis c_id : forall a, c 0 a = 0.
Hypothesis c_coc : forall a b d, c a b + c (a + b) d = c a (b + d) + c b d.
Lemma c_4 (a b d e : H) : c a b + (c d e + c (a + b) (d + e)) = c a d + (c b e + c (a + d) (b + e)).
Proof.
  pose proof (c_coc (a + b) d e) as A1. pose proof (c_coc (a + d) b e) as A2. pose proof (c_coc a b d) as A3. pose proof (c_coc a d b) as A4.
  rewrite (g_assoc H a b d) in A1. rewrite (g_assoc H a d b) in A2. rewrite (c_comm d b), (g_comm H d b) in A4. rewrite (g_comm H d b) in A2. 
  assert (X1 : c a b + (c d e + c (a + b) (d + e)) = c a b + (c (a + b) d + c (a + (b + d)) e)) by (rewrite A1; absolve).
  assert (X2 : c a d + (c b e + c (a + d) (b + e)) = c a d + (c (a + d) b + c (a + (b + d)) e)) by (rewrite A2; absolve).
  rewrite X1, X2, <- !g_assoc, A3, A4. reflexivity.
Qed.
(** the Miller function *)
Fixpoint mf (n : nat) (q : H) : U := match n with O => 0 | S n => mf n q + c (zmul (Z.of_nat n) q) q end.
Lemma mf_add n m q : mf (n + m) q = mf n q + (mf m q + c (zmul (Z.of_nat n) q) (zmul (Z.of_nat m) q)).
Proof.
  induction m as [|m IH].
  - rewrite Nat.add_0_r. cbn [mf]. rewrite zmul_0, c_comm, c_id. absolve.
  - rewrite Nat.add_succ_r. cbn [mf]. rewrite IH. rewrite zmul_S, (g_comm H q).
    rewrite Nat2Z.inj_add, zmul_add.
    pose proof (c_coc (zmul (Z.of_nat n) q) (zmul (Z.of_nat m) q) q) as A.
    set (u := c (zmul (Z.of_nat n) q) (zmul (Z.of_nat m) q)) in *. set (v := c (zmul (Z.of_nat n) q + zmul (Z.of_nat m) q) q) in *.
    transitivity (mf n q + (mf m q + (u + v))); [absolve|]. rewrite A. absolve.
Qed.
Lemma mf_1 q : mf 1 q = 0. Proof. cbn [mf]. rewrite zmul_0, c_id. absolve. Qed.
Lemma mf_dbl n q : mf (2 * n) q = mf n q + (mf n q + c (zmul (Z.of_nat n) q) (zmul (Z.of_nat n) q)).
Proof. rewrite <- mf_add. f_equal. lia. Qed.
Lemma mf_id n : mf n 0 = 0.
Proof. induction n as [|n IH]; cbn [mf]; [reflexivity|]. rewrite IH, zmul_id, c_id. absolve. Qed.
(** linearity up to a coboundary *)
Lemma mf_lin n q q' : mf n (q + q') + zmul (Z.of_nat n) (c q q') = mf n q + (mf n q' + c (zmul (Z.of_nat n) q) (zmul (Z.of_nat n) q')).
Proof.
  induction n as [|n IH].
  - cbn [mf]. rewrite !zmul_0, c_id. absolve.
  - cbn [mf]. rewrite !zmul_S. rewrite (zmul_op _ q q').
    pose proof (c_4 (zmul (Z.of_nat n) q) (zmul (Z.of_nat n) q') q q') as A.
    rewrite (g_comm H (zmul (Z.of_nat n) q) q), (g_comm H (zmul (Z.of_nat n) q') q') in A.
    set (s := c (zmul (Z.of_nat n) q) (zmul (Z.of_nat n) q')) in *. set (t := c q q') in *.
    set (x := c (zmul (Z.of_nat n) q + zmul (Z.of_nat n) q') (q + q')) in *. set (y := c (zmul (Z.of_nat n) q) q) in *. set (z := c (zmul (Z.of_nat n) q') q') in *.
    set (w := c (q + zmul (Z.of_nat n) q) (q' + zmul (Z.of_nat n) q')) in *.
    transitivity (mf n (q + q') + zmul (Z.of_nat n) t + (t + x)); [absolve|]. rewrite IH.
    transitivity (mf n q + (mf n q' + (s + (t + x)))); [absolve|]. rewrite A. absolve.
Qed.
(** if n q = - pi q, pi multiplies c by k, and n + k kills c: linear *)
Lemma mf_hom n k q q' : (forall a b, c (- a) (- b) = - c a b) ->
  (exists p : H -> H, zmul (Z.of_nat n) q = - p q /\ zmul (Z.of_nat n) q' = - p q' /\ c (p q) (p q') = zmul k (c q q')) ->
  zmul (Z.of_nat n + k) (c q q') = 0 -> mf n (q + q') = mf n q + mf n q'.
Proof.
  intros HN (p & E1 & E2 & E3) Hk. pose proof (mf_lin n q q') as A. rewrite E1, E2, HN, E3 in A. rewrite zmul_add in Hk.
  set (u := zmul (Z.of_nat n) (c q q')) in *. set (v := zmul k (c q q')) in *. apply (g_cancel_r u). rewrite A.
  assert (- v = u) as -> by (symmetry; apply g_inv_unique; rewrite g_comm; exact Hk). absolve.
Qed.
End Cocycle.

(** a coboundary *)
Lemma mf_cob {H U : abgroup} (m : H -> U) (c : H -> H -> U) n q : m gid = gid ->
  (forall a b, c a b = gop (m a) (gop (m b) (ginv (m (gop a b))))) -> mf c n q = gop (zmul (Z.of_nat n) (m q)) (ginv (m (zmul (Z.of_nat n) q))).
Proof.
  intros M0 E. induction n as [|n IH]; cbn [mf]; [rewrite !zmul_0, M0; absolve|]. rewrite IH, E, !zmul_S, (g_comm H (zmul (Z.of_nat n) q) q). absolve.
Qed.
Lemma mf_op {H U : abgroup} (c c' : H -> H -> U) n q : mf (fun a b => gop (c a b) (c' a b)) n q = gop (mf c n q) (mf c' n q).
Proof. induction n as [|n IH]; cbn [mf]; [absolve|]. rewrite IH. absolve. Qed.
Lemma mf_ext {H U : abgroup} (c c' : H -> H -> U) n q : (forall a b, c a b = c' a b) -> mf c n q = mf c' n q.
Proof. intros E. induction n as [|n IH]; cbn [mf]; [reflexivity|]. rewrite IH, E. reflexivity. Qed.
Lemma mf_inv {H U : abgroup} (c : H -> H -> U) n q : mf (fun a b => ginv (c a b)) n q = ginv (mf c n q).
Proof. induction n as [|n IH]; cbn [mf]; [absolve|]. rewrite IH. absolve. Qed.
Lemma mf_lc {H H' U : abgroup} (f : H' -> H) (c : H -> H -> U) n q : (forall k, f (zmul k q) = zmul k (f q)) -> mf (fun a b => c (f a) (f b)) n q = mf c n (f q).
Proof. intros F. induction n as [|n IH]; cbn [mf]; [reflexivity|]. rewrite IH, F. reflexivity. Qed.
