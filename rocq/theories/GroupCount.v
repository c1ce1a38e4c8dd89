(** Counting the elements of a finite abelian group from elements of known order. *)
From Coq Require Import ZArith List Lia Znumtheory.
From Verif Require Import NumTheory AbGroup Endo.
Import ListNotations.
Local Open Scope Z_scope.

Section GC.
Context {G : abgroup}.
Definition exact_order (x : G) (n : Z) : Prop := zmul n x = gid /\ forall k, zmul k x = gid -> (n | k).
Lemma eo_prime q x : prime q -> zmul q x = gid -> x <> gid -> exact_order x q.
Proof. intros Hq H1 H2. split; [exact H1|]. intros k Hk. apply (zmul_prime q k x Hq H1 H2 Hk). Qed.
Lemma eo_add x y m n : Z.gcd m n = 1 -> exact_order x m -> exact_order y n -> exact_order (gop x y) (m * n).
Proof.
  intros Hg [X1 X2] [Y1 Y2]. split.
  - rewrite zmul_op, (zmul_divide m (m * n) x), (zmul_divide n (m * n) y), g_id; auto; [exists m; ring|exists n; ring].
  - intros k Hk. rewrite zmul_op in Hk.
    assert (Dm : (m | k)).
    { assert (E : zmul (n * k) x = gid).
      { apply (f_equal (zmul n)) in Hk. rewrite zmul_op, zmul_id, <- !zmul_mul in Hk. rewrite (zmul_divide n (n * k) y), g_id_r in Hk; auto. exists k; ring. }
      apply X2 in E. apply Z.gauss in E; auto. }
    assert (Dn : (n | k)).
    { assert (E : zmul (m * k) y = gid).
      { apply (f_equal (zmul m)) in Hk. rewrite zmul_op, zmul_id, <- !zmul_mul in Hk. rewrite (zmul_divide m (m * k) x), g_id in Hk; auto. exists k; ring. }
      apply Y2 in E. apply Z.gauss in E; auto. rewrite Z.gcd_comm. exact Hg. }
    destruct Dm as [u Hu]. rewrite Hu in Dn |- *. rewrite Z.mul_comm in Dn. apply Z.gauss in Dn; [|rewrite Z.gcd_comm; exact Hg]. destruct Dn as [v ->]. exists v. ring.
Qed.

Variable s : G -> G.
Hypothesis s_op : forall x y, s (gop x y) = gop (s x) (s y).
Hypothesis s_rel : forall x, pact s [1; 1; 1] x = gid.
(** x and s x are independent of order m *)
Definition indep (x : G) (m : Z) : Prop := zmul m x = gid /\ forall b c, gop (zmul b x) (zmul c (s x)) = gid -> (m | b) /\ (m | c).
Lemma s_kills m x : zmul m x = gid -> zmul m (s x) = gid.
Proof. intros H. rewrite <- (s_zmul s s_op), H. apply (s_0 s s_op). Qed.
Lemma indep_add x y m n : Z.gcd m n = 1 -> indep x m -> indep y n -> indep (gop x y) (m * n).
Proof.
  intros Hg [X1 X2] [Y1 Y2]. split.
  - rewrite zmul_op, (zmul_divide m (m * n) x), (zmul_divide n (m * n) y), g_id; auto; [exists m; ring|exists n; ring].
  - intros b c Hk. rewrite s_op, !zmul_op, g_swap4 in Hk.
    assert (E : (m | n * b) /\ (m | n * c)).
    { apply X2. apply (f_equal (zmul n)) in Hk. rewrite !zmul_op, zmul_id, <- !zmul_mul in Hk.
      rewrite (zmul_divide n (n * b) y), (zmul_divide n (n * c) (s y)), g_id, g_id_r in Hk; auto using s_kills; [exists c; ring|exists b; ring]. }
    assert (F : (n | m * b) /\ (n | m * c)).
    { apply Y2. apply (f_equal (zmul m)) in Hk. rewrite !zmul_op, zmul_id, <- !zmul_mul in Hk.
      rewrite (zmul_divide m (m * b) x), (zmul_divide m (m * c) (s x)), !g_id in Hk; auto using s_kills; [exists c; ring|exists b; ring]. }
    assert (K : forall k, (m | n * k) -> (n | m * k) -> (m * n | k)).
    { intros k D1 D2. apply Z.gauss in D1; auto. apply Z.gauss in D2; [|rewrite Z.gcd_comm; exact Hg].
      destruct D1 as [u Hu]. rewrite Hu in D2 |- *. rewrite Z.mul_comm in D2. apply Z.gauss in D2; [|rewrite Z.gcd_comm; exact Hg]. destruct D2 as [v ->]. exists v. ring. }
    destruct E, F. split; apply K; auto.
Qed.
(** for a prime q: the only possible relation is s x = k x with k^2 + k + 1 = 0 mod q *)
Lemma indep_prime q x : prime q -> zmul q x = gid -> x <> gid ->
  (forall k, (k * k + k + 1) mod q = 0 -> s x <> zmul k x) -> indep x q.
Proof.
  intros Hq Hx Hn Hk. pose proof (prime_ge_2 _ Hq) as Q2. split; [exact Hx|]. intros b c E.
  destruct (Zdivide_dec q c) as [Dc|Dc].
  { split; [|exact Dc]. rewrite (zmul_divide q c (s x)), g_id_r in E; auto using s_kills. apply (zmul_prime q b x Hq Hx Hn E). }
  exfalso. assert (Hg : rel_prime c q) by (apply rel_prime_sym, prime_rel_prime; auto).
  destruct (rel_prime_bezout _ _ Hg) as [u v B].
  assert (S1 : s x = zmul (- (u * b)) x).
  { assert (E2 : gop (zmul (u * b) x) (zmul (u * c) (s x)) = gid) by (rewrite !zmul_mul, <- zmul_op, E; apply zmul_id).
    replace (u * c) with (1 + (- v) * q) in E2 by (rewrite <- B; ring).
    rewrite zmul_add, zmul_1, (zmul_mul (- v) q), (s_kills q x Hx), zmul_id, g_id_r in E2. rewrite zmul_opp. apply g_inv_unique, E2. }
  apply (Hk (- (u * b))); [|exact S1].
  pose proof (s_rel x) as R. rewrite (pact_eigen s s_op _ _ _ S1) in R. apply (zmul_prime q _ x Hq Hx Hn) in R.
  apply Z.mod_divide; [lia|]. cbn [pl_eval] in R. eapply Z.divide_trans; [exact R|]. exists 1. ring.
Qed.
(** inert primes *)
Lemma cube_root_inert q k : prime q -> q mod 3 = 2 -> q <> 3 -> (k * k + k + 1) mod q = 0 -> False.
Proof.
  intros Hq H2 H3 E. pose proof (prime_ge_2 _ Hq) as Q2.
  assert (K3 : (k ^ 3) mod q = 1).
  { replace (k ^ 3) with (1 + (k - 1) * (k * k + k + 1)) by ring. rewrite Z.add_mod, Z.mul_mod, E, Z.mul_0_r, Z.mod_0_l, Z.add_0_r, Z.mod_mod by lia. apply Z.mod_small. lia. }
  pose proof (fermat q Hq k) as F. pose proof (Z.div_mod q 3 ltac:(lia)) as D. rewrite H2 in D.
  assert (J : 0 <= q / 3) by (apply Z.div_pos; lia).
  assert (P3 : (k ^ (3 * (q / 3))) mod q = 1).
  { destruct (Z.eq_dec (q / 3) 0) as [->|]; [cbn; apply Z.mod_small; lia|]. apply pow_mod_1; auto; lia. }
  rewrite D in F at 1. rewrite Z.pow_add_r, Z.mul_mod, P3, Z.mul_1_l, Z.mod_mod in F by lia.
  assert (E2 : (k * k + k + 1) mod q = (k ^ 2 mod q + (k mod q) + 1) mod q).
  { replace (k ^ 2) with (k * k) by ring. rewrite <- (Z.add_mod_idemp_l (_ + _)), <- (Z.add_mod_idemp_l (k * k mod q + _)), <- Z.add_mod by lia. reflexivity. }
  assert (K2 : (k ^ 2) mod q = k mod q) by exact F.
  assert (KK : k mod q = 1).
  { (* k^3 = k^2 k = k k = k *)
    replace (k ^ 3) with (k ^ 2 * k) in K3 by ring. rewrite Z.mul_mod, K2, <- Z.mul_mod in K3 by lia. replace (k * k) with (k ^ 2) in K3 by ring. rewrite <- K2. exact K3. }
  rewrite E2, K2, KK in E. destruct (Z.eq_dec q 2) as [->|N]; [discriminate E|]. rewrite Z.mod_small in E by lia. discriminate E.
Qed.
(** split primes *)
Lemma cube_root_split q k u v : prime q -> (u + v + 1) mod q = 0 -> (u * v - 1) mod q = 0 -> (k * k + k + 1) mod q = 0 -> (q | k - u) \/ (q | k - v).
Proof.
  intros Hq H1 H2 E. pose proof (prime_ge_2 _ Hq). apply prime_mult; auto. apply Z.mod_divide in H1, H2, E; try lia.
  replace ((k - u) * (k - v)) with ((k * k + k + 1) - k * (u + v + 1) + (u * v - 1)) by ring.
  apply Z.divide_add_r; [apply Z.divide_sub_r|]; auto. apply Z.divide_mul_r; auto.
Qed.
Lemma indep_inert q x : prime q -> q mod 3 = 2 -> zmul q x = gid -> x <> gid -> indep x q.
Proof. intros Hq H2 Hx Hn. apply indep_prime; auto. intros k Hk. exfalso. apply (cube_root_inert q k); auto. intros ->. discriminate H2. Qed.
Lemma indep_split q u v x : prime q -> (u + v + 1) mod q = 0 -> (u * v - 1) mod q = 0 -> zmul q x = gid -> x <> gid ->
  s x <> zmul u x -> s x <> zmul v x -> indep x q.
Proof.
  intros Hq H1 H2 Hx Hn Hu Hv. apply indep_prime; auto. intros k Hk Hs.
  destruct (cube_root_split q k u v Hq H1 H2 Hk) as [[j D]|[j D]]; [apply Hu|apply Hv]; rewrite Hs;
    [replace k with (u + j * q) by lia|replace k with (v + j * q) by lia]; rewrite zmul_add, zmul_mul, Hx, zmul_id, g_id_r; reflexivity.
Qed.

(** ** a subgroup with more than half of the elements is everything *)
Lemma NoDup_app {A} : forall (u v : list A), NoDup u -> NoDup v -> (forall x, In x u -> ~ In x v) -> NoDup (u ++ v).
Proof.
  induction u as [|x u IH]; intros v Hu Hv Hd; cbn [app]; auto. inversion Hu; subst. constructor.
  - rewrite in_app_iff. intros [H|H]; [auto|apply (Hd x); [left; auto|auto]].
  - apply IH; auto. intros y Hy. apply Hd. right; auto.
Qed.
Lemma half_all (L : list G) B : NoDup L -> (forall x y, In x L -> In y L -> In (gop x (ginv y)) L) -> atmost G B -> B < 2 * Z.of_nat (length L) -> forall x, In x L.
Proof.
  intros Hn Hc HB HL x. destruct (in_dec (g_dec G) x L) as [|N]; [assumption|exfalso].
  assert (H : NoDup (L ++ map (gop x) L)).
  { apply NoDup_app; auto.
    - apply NoDup_map_in; auto. intros a b _ _ E. apply g_cancel in E. exact E.
    - intros y Hy Hm. apply in_map_iff in Hm. destruct Hm as (z & E & Hz). apply N.
      replace x with (gop y (ginv z)); [apply Hc; auto|]. rewrite <- E, g_assoc, g_inv, g_id_r. reflexivity. }
  apply HB in H. rewrite app_length, map_length in H. lia.
Qed.
Definition zlist (n : Z) : list Z := map Z.of_nat (seq 0 (Z.to_nat n)).
Lemma zlist_in n k : In k (zlist n) <-> 0 <= k < n.
Proof.
  unfold zlist. rewrite in_map_iff. split.
  - intros (i & <- & H). apply in_seq in H. lia.
  - intros H. exists (Z.to_nat k). split; [apply Z2Nat.id; lia|]. apply in_seq. cbn [Nat.add]. split; [apply Nat.le_0_l|apply Z2Nat.inj_lt; lia].
Qed.
Lemma zlist_nodup n : NoDup (zlist n).
Proof. apply NoDup_map_in; [intros; apply Nat2Z.inj; assumption|apply seq_NoDup]. Qed.
Lemma zlist_len n : 0 <= n -> Z.of_nat (length (zlist n)) = n.
Proof. intros H. unfold zlist. rewrite map_length, seq_length. apply Z2Nat.id, H. Qed.
Definition span3 (A T : G) (t : Z * (Z * Z)) : G := gop (zmul (fst t) A) (gop (zmul (fst (snd t)) T) (zmul (snd (snd t)) (s T))).
Definition all3 (A T : G) (M m : Z) : list G := map (span3 A T) (list_prod (zlist M) (list_prod (zlist m) (zlist m))).
Lemma span3_zero A T M m : Z.gcd M m = 1 -> exact_order A M -> indep T m -> forall t, span3 A T t = gid -> (M | fst t) /\ (m | fst (snd t)) /\ (m | snd (snd t)).
Proof.
  intros Hg [A1 A2] [T1 T2] [a [b c]] E. unfold span3 in E. cbn [fst snd] in *.
  assert (D : (M | a)).
  { assert (E2 : zmul (m * a) A = gid).
    { apply (f_equal (zmul m)) in E. rewrite !zmul_op, zmul_id, <- !zmul_mul in E.
      rewrite (zmul_divide m (m * b) T), (zmul_divide m (m * c) (s T)), g_id, g_id_r in E; auto using s_kills; [exists c; ring|exists b; ring]. }
    apply A2, Z.gauss in E2; auto. }
  split; [exact D|]. rewrite (zmul_divide M a A), g_id in E by auto. apply T2, E.
Qed.
Lemma span3_sub A T t u : gop (span3 A T t) (ginv (span3 A T u)) = span3 A T (fst t - fst u, (fst (snd t) - fst (snd u), snd (snd t) - snd (snd u))).
Proof. unfold span3. cbn [fst snd]. rewrite !zmul_sub, !g_inv_op. rewrite g_swap4. f_equal. apply g_swap4. Qed.
Lemma in_all3 A T M m x : In x (all3 A T M m) <-> exists a b c, 0 <= a < M /\ 0 <= b < m /\ 0 <= c < m /\ x = span3 A T (a, (b, c)).
Proof.
  unfold all3. rewrite in_map_iff. split.
  - intros ([a [b c]] & <- & H). apply in_prod_iff in H. destruct H as [Ha H]. apply in_prod_iff in H. destruct H as [Hb Hc].
    apply zlist_in in Ha, Hb, Hc. exists a, b, c. auto.
  - intros (a & b & c & Ha & Hb & Hc & ->). exists (a, (b, c)). split; [reflexivity|]. apply in_prod_iff. split; [apply zlist_in, Ha|]. apply in_prod_iff. split; apply zlist_in; auto.
Qed.
Lemma all3_nodup A T M m : 0 < M -> 0 < m -> Z.gcd M m = 1 -> exact_order A M -> indep T m -> NoDup (all3 A T M m).
Proof.
  intros HM Hm Hg HA HT. apply NoDup_map_in.
  - intros [a [b c]] [a' [b' c']] H1 H2 E.
    apply in_prod_iff in H1, H2. destruct H1 as [Ha H1], H2 as [Ha' H2]. apply in_prod_iff in H1, H2. destruct H1 as [Hb Hc], H2 as [Hb' Hc'].
    apply zlist_in in Ha, Hb, Hc, Ha', Hb', Hc'.
    assert (E2 : span3 A T (a - a', (b - b', c - c')) = gid).
    { change (span3 A T (fst (a, (b, c)) - fst (a', (b', c')), (fst (snd (a, (b, c))) - fst (snd (a', (b', c'))), snd (snd (a, (b, c))) - snd (snd (a', (b', c'))))) = gid).
      rewrite <- span3_sub, E, g_inv. reflexivity. }
    apply (span3_zero A T M m Hg HA HT) in E2. cbn [fst snd] in E2. destruct E2 as (D1 & D2 & D3).
    assert (K : forall r u v, 0 < r -> 0 <= u < r -> 0 <= v < r -> (r | u - v) -> u = v).
    { clear. intros r u v H Hu Hv D. apply Z.divide_abs_r in D. destruct (Z.eq_dec (u - v) 0); [lia|]. apply Z.divide_pos_le in D; lia. }
    rewrite (K M a a'), (K m b b'), (K m c c') by auto. reflexivity.
  - apply NoDup_prod; [apply zlist_nodup|]. apply NoDup_prod; apply zlist_nodup.
Qed.
Lemma all3_len A T M m : 0 <= M -> 0 <= m -> Z.of_nat (length (all3 A T M m)) = M * m * m.
Proof. intros HM Hm. unfold all3. rewrite map_length, !prod_length, !Nat2Z.inj_mul, !zlist_len by auto. ring. Qed.
(** the group has exactly M m^2 elements, all of the form a A + b T + c s(T) *)
Theorem all_span A T M m B : 0 < M -> 0 < m -> Z.gcd M m = 1 -> exact_order A M -> indep T m -> atmost G B -> B < 2 * (M * m * m) ->
  forall x, In x (all3 A T M m).
Proof.
  intros HM Hm Hg HA HT HB H. apply (half_all _ B); auto.
  - apply all3_nodup; auto.
  - intros x y Hx Hy. apply in_all3 in Hx, Hy. destruct Hx as (a & b & c & Ha & Hb & Hc & ->), Hy as (a' & b' & c' & Ha' & Hb' & Hc' & ->).
    rewrite span3_sub. cbn [fst snd]. apply in_all3. exists ((a - a') mod M), ((b - b') mod m), ((c - c') mod m).
    split; [apply Z.mod_pos_bound; auto|]. split; [apply Z.mod_pos_bound; auto|]. split; [apply Z.mod_pos_bound; auto|].
    destruct HA as [A1 _], HT as [T1 _]. unfold span3. cbn [fst snd]. rewrite (zmul_mod M _ A), (zmul_mod m _ T), (zmul_mod m _ (s T)); auto using s_kills; lia.
  - rewrite all3_len by lia. exact H.
Qed.
End GC.
