(** Endomorphisms of an abelian group: polynomials in an endomorphism, and counting. *)
From Coq Require Import ZArith List Lia Znumtheory.
From Verif Require Import AbGroup.
Import ListNotations.
Local Open Scope Z_scope.

(** integer polynomials, low degree first *)
Fixpoint pl_add (l m : list Z) : list Z := match l, m with a :: l, b :: m => a + b :: pl_add l m | [], m => m | l, [] => l end.
Fixpoint pl_mul (l m : list Z) : list Z := match l with [] => [] | a :: l => pl_add (map (Z.mul a) m) (0 :: pl_mul l m) end.
Fixpoint pl_trim (l : list Z) : list Z :=
  match l with [] => [] | a :: l => match pl_trim l with [] => if Z.eqb a 0 then [] else [a] | t => a :: t end end.

Section Endo.
Context {G : abgroup} (s : G -> G).
Hypothesis s_op : forall x y, s (gop x y) = gop (s x) (s y).
Declare Scope en_scope. Local Open Scope en_scope.
Notation "x + y" := (gop x y) : en_scope. Notation "0" := (gid) : en_scope. Notation "- x" := (ginv x) : en_scope.
(** the polynomial l evaluated at s, applied to x *)
Fixpoint pact (l : list Z) (x : G) : G := match l with [] => 0 | a :: l => zmul a x + s (pact l x) end.
Lemma s_0 : s 0 = 0. Proof. apply (g_cancel (s 0)). rewrite <- s_op, g_id, g_id_r. reflexivity. Qed.
Lemma s_zmul n x : s (zmul n x) = zmul n (s x). Proof. apply (hom_zmul G G s s_op). Qed.
Lemma s_inv x : s (- x) = - s x. Proof. apply g_inv_unique. rewrite <- s_op, g_inv. apply s_0. Qed.
Lemma pact_0 l : pact l 0 = 0.
Proof. induction l; cbn [pact]; [reflexivity|]. rewrite zmul_id, IHl, s_0. apply g_id. Qed.
Lemma pact_op l : forall x y, pact l (x + y) = pact l x + pact l y.
Proof. induction l; intros x y; cbn [pact]; [rewrite g_id; reflexivity|]. rewrite zmul_op, IHl, s_op. apply g_swap4. Qed.
Lemma pact_s l x : pact l (s x) = s (pact l x).
Proof. induction l; cbn [pact]; [rewrite s_0; reflexivity|]. rewrite s_op, s_zmul, IHl. reflexivity. Qed.
Lemma pact_add l : forall m x, pact (pl_add l m) x = pact l x + pact m x.
Proof.
  induction l as [|a l IH]; intros [|b m] x; cbn [pact pl_add]; rewrite ?g_id, ?g_id_r; try reflexivity.
  rewrite IH, zmul_add, s_op. apply g_swap4.
Qed.
Lemma pact_scale a m x : pact (map (Z.mul a) m) x = zmul a (pact m x).
Proof. induction m as [|b m IH]; cbn [pact map]; [rewrite zmul_id; reflexivity|]. rewrite IH, zmul_op, zmul_mul, s_zmul. reflexivity. Qed.
Lemma pact_mul l : forall m x, pact (pl_mul l m) x = pact l (pact m x).
Proof.
  induction l as [|a l IH]; intros m x; cbn [pact pl_mul]; [reflexivity|]. rewrite pact_add, pact_scale. cbn [pact]. rewrite IH, zmul_0, g_id. reflexivity.
Qed.
Lemma pact_trim l x : pact (pl_trim l) x = pact l x.
Proof.
  induction l as [|a l IH]; cbn [pact pl_trim]; [reflexivity|]. rewrite <- IH. destruct (pl_trim l) as [|b t].
  - destruct (Z.eqb_spec a 0) as [->|]; cbn [pact]; rewrite ?s_0, ?zmul_0, ?g_id; reflexivity.
  - reflexivity.
Qed.
Lemma pact_eq l m x : pl_trim l = pl_trim m -> pact l x = pact m x.
Proof. intros H. rewrite <- (pact_trim l), H. apply pact_trim. Qed.
(** a polynomial in the ideal generated by f and g kills what f and g kill *)
Lemma pact_ideal A B f g h x : pl_trim (pl_add (pl_mul A f) (pl_mul B g)) = pl_trim h -> pact f x = 0 -> pact g x = 0 -> pact h x = 0.
Proof. intros E Hf Hg. rewrite <- (pact_eq _ _ _ E), pact_add, !pact_mul, Hf, Hg, !pact_0. apply g_id. Qed.
Lemma pact_const n x : pact [n] x = zmul n x. Proof. cbn [pact]. rewrite s_0. apply g_id_r. Qed.
(** on an eigenvector the polynomial is evaluated at the eigenvalue *)
Fixpoint pl_eval (l : list Z) (t : Z) : Z := match l with [] => 0%Z | a :: l => (a + t * pl_eval l t)%Z end.
Lemma pact_eigen t l x : s x = zmul t x -> pact l x = zmul (pl_eval l t) x.
Proof. intros H. induction l as [|a l IH]; cbn [pact pl_eval]; [reflexivity|]. rewrite IH, s_zmul, H, zmul_add, <- zmul_mul, Z.mul_comm. reflexivity. Qed.
End Endo.

(** ** counting *)
(** at most B elements *)
Definition atmost (T : Type) (B : Z) : Prop := forall l : list T, NoDup l -> Z.of_nat (length l) <= B.
Lemma NoDup_map_in {A B} (f : A -> B) l : (forall x y, In x l -> In y l -> f x = f y -> x = y) -> NoDup l -> NoDup (map f l).
Proof.
  induction l as [|a l IH]; intros Hi Hn; cbn [map]; [constructor|]. inversion Hn; subst. constructor.
  - rewrite in_map_iff. intros (y & E & Hy). apply Hi in E; [subst; auto|right; auto|left; auto].
  - apply IH; auto. intros x y Hx Hy. apply Hi; right; auto.
Qed.
Lemma atmost_inj T (f : T -> Z) B : 0 <= B -> (forall x y, f x = f y -> x = y) -> (forall x, 0 <= f x < B) -> atmost T B.
Proof.
  intros HB Hi Hb l Hl.
  assert (H : (length (map f l) <= length (map Z.of_nat (seq 0 (Z.to_nat B))))%nat).
  { apply NoDup_incl_length. apply NoDup_map_in; auto. intros z Hz. apply in_map_iff in Hz. destruct Hz as (x & <- & _).
    apply in_map_iff. exists (Z.to_nat (f x)). specialize (Hb x). split; [apply Z2Nat.id; lia|]. apply in_seq. cbn [Nat.add]. split; [apply Nat.le_0_l|apply Z2Nat.inj_lt; lia]. }
  rewrite !map_length, seq_length in H. rewrite <- (Z2Nat.id B HB). apply Nat2Z.inj_le, H.
Qed.
Lemma NoDup_prod {A B} (l : list A) (m : list B) : NoDup l -> NoDup m -> NoDup (list_prod l m).
Proof.
  intros Hl Hm. induction l as [|a l IH]; cbn [list_prod]; [constructor|]. inversion Hl; subst.
  assert (Hn : forall (u v : list (A * B)), NoDup u -> NoDup v -> (forall x, In x u -> ~ In x v) -> NoDup (u ++ v)).
  { clear. induction u as [|x u IH]; intros v Hu Hv Hd; cbn [app]; auto. inversion Hu; subst. constructor.
    - rewrite in_app_iff. intros [H|H]; [auto|apply (Hd x); [left; auto|auto]].
    - apply IH; auto. intros y Hy. apply Hd. right; auto. }
  apply Hn; [|apply IH; auto|].
  - apply NoDup_map_in; auto. intros x y _ _ E. congruence.
  - intros [u v] H. apply in_map_iff in H. destruct H as (z & E & _). injection E as -> ->. intros H. apply in_prod_iff in H. tauto.
Qed.
(** a family injective on [0,m) x [0,n) *)
Lemma atmost_pairs T B (f : Z -> Z -> T) m n : 0 <= m -> 0 <= n -> atmost T B ->
  (forall a b c e, 0 <= a < m -> 0 <= c < m -> 0 <= b < n -> 0 <= e < n -> f a b = f c e -> a = c /\ b = e) -> m * n <= B.
Proof.
  intros Hm Hn HB Hi.
  specialize (HB (map (fun ij => f (Z.of_nat (fst ij)) (Z.of_nat (snd ij))) (list_prod (seq 0 (Z.to_nat m)) (seq 0 (Z.to_nat n))))).
  rewrite map_length, prod_length, !seq_length, Nat2Z.inj_mul, !Z2Nat.id in HB by auto. apply HB. clear HB.
  apply NoDup_map_in; [|apply NoDup_prod; apply seq_NoDup].
  intros [i j] [k l] H1 H2 E. clear - H1 H2 E Hi Hm Hn. apply in_prod_iff in H1, H2. rewrite !in_seq in H1, H2. cbn [fst snd] in E.
  apply Hi in E; try lia. destruct E as [E1 E2]. f_equal; lia.
Qed.
(** on the r-torsion of a group with fewer than r^2 elements, an endomorphism with two possible eigenvalues has only the one it has on a point g <> 0 *)
Lemma eigen_unique (G : abgroup) (s : G -> G) B r la mu (g x : G) : (forall x y, s (gop x y) = gop (s x) (s y)) ->
  atmost G B -> prime r -> B < r * r -> ~ (r | la - mu) ->
  g <> gid -> zmul r g = gid -> s g = zmul la g ->
  zmul r x = gid -> s (gop (s x) (ginv (zmul la x))) = zmul mu (gop (s x) (ginv (zmul la x))) -> s x = zmul la x.
Proof.
  intros Hs HB Hr HBr Hlm Hg Hrg Hsg Hx Hq. set (q := gop (s x) (ginv (zmul la x))) in *.
  destruct (g_dec G q gid) as [E|NE]; [apply g_sub0; exact E|exfalso].
  assert (Hrq : zmul r q = gid).
  { unfold q. rewrite zmul_op, zmul_inv, <- (s_zmul s Hs), Hx, (s_0 s Hs), <- zmul_mul, Z.mul_comm, zmul_mul, Hx, zmul_id, g_inv_0, g_id. reflexivity. }
  assert (r > 1) by (destruct Hr; lia).
  assert (Z0 : forall a b, gop (zmul a g) (zmul b q) = gid -> (r | a) /\ (r | b)).
  { intros a b E. assert (E2 : gop (zmul (a * la) g) (zmul (b * mu) q) = gid).
    { rewrite !zmul_mul, <- Hsg, <- Hq, <- !(s_zmul s Hs), <- Hs, E, (s_0 s Hs). reflexivity. }
    assert (E3 : zmul (b * (la - mu)) q = gid).
    { assert (E4 : gop (zmul (la * a) g) (zmul (la * b) q) = gid) by (rewrite !zmul_mul, <- zmul_op, E, zmul_id; reflexivity).
      replace (b * (la - mu)) with (la * b - b * mu) by ring. rewrite zmul_sub. apply (g_cancel (zmul (la * a) g)).
      rewrite <- g_assoc, E4, g_id, g_id_r. symmetry. rewrite Z.mul_comm. rewrite g_comm in E2. apply g_inv_unique, E2. }
    apply (zmul_prime r _ _ Hr Hrq NE) in E3. apply prime_mult in E3; auto. destruct E3 as [E3|]; [|tauto]. split; [|auto].
    rewrite (zmul_divide r b q) in E; auto. rewrite g_id_r in E. apply (zmul_prime r a g Hr Hrg Hg E). }
  assert (r * r <= B); [|lia].
  apply (atmost_pairs G B (fun a b => gop (zmul a g) (zmul b q)) r r ltac:(lia) ltac:(lia) HB).
  intros a b c e Ha Hc Hb He E.
  destruct (Z0 (a - c) (b - e)) as [D1 D2].
  { rewrite !zmul_sub, g_swap4, E, <- g_inv_op, g_inv. reflexivity. }
  assert (K : forall u v, 0 <= u < r -> 0 <= v < r -> (r | u - v) -> u = v).
  { clear - H. intros u v Hu Hv D. apply Z.divide_abs_r in D. destruct (Z.eq_dec (u - v) 0); [lia|]. apply Z.divide_pos_le in D; lia. }
  split; apply K; auto.
Qed.
