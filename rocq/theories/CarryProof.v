(** Exactness of Add64/Sub64 and of the carry chains built from them. *)
From Coq Require Import ZArith List Bool Lia.
From Verif Require Import ModelWord ModelScalar ModelPrim PortArith ScalarProof.
Import ListNotations.
Local Open Scope Z_scope.

Definition bit (c : Z) : Prop := c = 0 \/ c = 1.
Lemma Add64_sum x y c : fst (Add64 x y c) = (x + y + c) mod W.
Proof. unfold Add64. cbn [fst]. apply Zplus_mod_idemp_l. Qed.
Lemma Sub64_diff x y c : fst (Sub64 x y c) = (x - y - c) mod W.
Proof. unfold Sub64. cbn [fst]. apply Zminus_mod_idemp_l. Qed.
Lemma mod_W_cases a : - W <= a < 2 * W ->
  (a < 0 /\ a mod W = a + W) \/ (0 <= a < W /\ a mod W = a) \/ (W <= a /\ a mod W = a - W).
Proof.
  intros H. destruct (Z.ltb_spec a 0); [left|right; destruct (Z.ltb_spec a W); [left|right]]; split; try lia.
  - symmetry. apply Z.mod_unique with (-1); try lia.
  - apply Z.mod_small. lia.
  - symmetry. apply Z.mod_unique with 1; lia.
Qed.
Lemma Add64_cases x y c : word x -> word y -> bit c ->
  exists s k, Add64 x y c = (s, k) /\ word s /\ bit k /\
    ((y = W - 1 /\ c = 1 /\ s = x /\ k = 0) \/ (~ (y = W - 1 /\ c = 1) /\ x + y + c = s + W * k)).
Proof.
  unfold word, bit. intros Hx Hy Hc.
  pose proof (Add64_sum x y c) as E. unfold Add64 in *. cbn [fst] in E. rewrite E.
  pose proof (mod_W_cases (x + y + c) ltac:(lia)) as D.
  eexists _, _. split; [reflexivity|]. pose proof W_pos.
  destruct (Z.ltb_spec ((x + y + c) mod W) x); lia.
Qed.
Lemma Sub64_cases x y c : word x -> word y -> bit c ->
  exists s k, Sub64 x y c = (s, k) /\ word s /\ bit k /\
    ((y = W - 1 /\ c = 1 /\ s = x /\ k = 0) \/ (~ (y = W - 1 /\ c = 1) /\ x - y - c = s - W * k)).
Proof.
  unfold word, bit. intros Hx Hy Hc.
  pose proof (Sub64_diff x y c) as E. unfold Sub64 in *. cbn [fst] in E. rewrite E.
  pose proof (mod_W_cases (x - y - c) ltac:(lia)) as D.
  eexists _, _. split; [reflexivity|]. pose proof W_pos.
  destruct (Z.ltb_spec x ((x - y - c) mod W)); lia.
Qed.
Lemma Add64_ok x y c : word x -> word y -> bit c -> ~ (y = W - 1 /\ c = 1) ->
  exists s k, Add64 x y c = (s, k) /\ word s /\ bit k /\ x + y + c = s + W * k.
Proof. intros Hx Hy Hc N. destruct (Add64_cases x y c Hx Hy Hc) as (s & k & E & Hs & Hk & [D|D]); [tauto|]. exists s, k. tauto. Qed.
Lemma Add64_carry_iff x y c : word x -> word y -> bit c ->
  (fst (Add64 x y c) + W * snd (Add64 x y c) = x + y + c <-> ~ (y = W - 1 /\ c = 1)).
Proof.
  intros Hx Hy Hc. destruct (Add64_cases x y c Hx Hy Hc) as (s & k & -> & Hs & Hk & D). cbn [fst snd].
  pose proof W_pos. unfold bit in *. destruct D as [(->&->&->&->)|(N & E)]; [|split; [tauto|lia]]. split; [lia|]. intros N. exfalso; apply N; lia.
Qed.
Lemma Sub64_borrow_iff x y c : word x -> word y -> bit c ->
  (fst (Sub64 x y c) - W * snd (Sub64 x y c) = x - y - c <-> ~ (y = W - 1 /\ c = 1)).
Proof.
  intros Hx Hy Hc. destruct (Sub64_cases x y c Hx Hy Hc) as (s & k & -> & Hs & Hk & D). cbn [fst snd].
  pose proof W_pos. unfold bit in *. destruct D as [(->&->&->&->)|(N & E)]; [|split; [tauto|lia]]. split; [lia|]. intros N. exfalso; apply N; lia.
Qed.

(** chains over two lists of the same length *)
Fixpoint add_l (a b : list Z) (c : Z) : list Z * Z :=
  match a, b with
  | x :: a, y :: b => let (s, c) := Add64 x y c in let (z, c) := add_l a b c in (s :: z, c)
  | _, _ => ([], c)
  end.
Fixpoint sub_l (a b : list Z) (c : Z) : list Z * Z :=
  match a, b with
  | x :: a, y :: b => let (s, c) := Sub64 x y c in let (z, c) := sub_l a b c in (s :: z, c)
  | _, _ => ([], c)
  end.
Definition slice (a : list Z) (i n : nat) : list Z := map (limb a) (seq i n).
Lemma add_loop_l n : forall i a b c, add_loop n i a b c = add_l (slice a i n) (slice b i n) c.
Proof.
  induction n as [|n IH]; intros; [reflexivity|]. cbn [add_loop slice seq map add_l].
  destruct (Add64 _ _ _) as [s k]. rewrite IH. reflexivity.
Qed.
Lemma sub_loop_l n : forall i a b c, sub_loop n i a b c = sub_l (slice a i n) (slice b i n) c.
Proof.
  induction n as [|n IH]; intros; [reflexivity|]. cbn [sub_loop slice seq map sub_l].
  destruct (Sub64 _ _ _) as [s k]. rewrite IH. reflexivity.
Qed.
Lemma slice_pad a n : (length a <= n)%nat -> slice a 0 n = a ++ repeat 0 (n - length a).
Proof.
  revert n. induction a as [|x a IH]; intros n L.
  - cbn [length app]. rewrite Nat.sub_0_r. unfold slice.
    replace (map (limb []) (seq 0 n)) with (map (fun _ : nat => 0) (seq 0 n)).
    + clear. generalize 0%nat. induction n; intros k; cbn; [reflexivity|]. f_equal. apply IHn.
    + apply map_ext. intros i. unfold limb. destruct i; reflexivity.
  - destruct n as [|n]; [cbn in L; lia|]. cbn [length] in *. unfold slice in *. cbn [seq map app].
    rewrite <- seq_shift, map_map. cbn [Nat.sub]. f_equal. rewrite <- IH by lia. reflexivity.
Qed.
Lemma slice_all a n : length a = n -> slice a 0 n = a.
Proof. intros <-. rewrite slice_pad by lia. rewrite Nat.sub_diag. apply app_nil_r. Qed.

(** no carry (borrow) reaches an all-ones limb of [b] below position [n] *)
Definition carry_safe (n : nat) (a b : list Z) (c : Z) : Prop :=
  forall i, (i < n)%nat -> limb b i = W - 1 -> val (firstn i a) + val (firstn i b) + c < W ^ Z.of_nat i.
Definition borrow_safe (n : nat) (a b : list Z) (c : Z) : Prop :=
  forall i, (i < n)%nat -> limb b i = W - 1 -> val (firstn i b) + c <= val (firstn i a).
Lemma carry_safe_cons n x a y b c c' s : word s -> bit c -> x + y + c = s + W * c' ->
  (carry_safe (S n) (x :: a) (y :: b) c <-> ~ (y = W - 1 /\ c = 1) /\ carry_safe n a b c').
Proof.
  unfold word, bit. intros Hs Hc E. split.
  - intros H. split.
    + intros (A & C). specialize (H 0%nat ltac:(lia) A). cbn in H. lia.
    + intros i Hi Hb. specialize (H (S i) ltac:(lia) Hb). cbn [firstn val] in H.
      rewrite Nat2Z.inj_succ, Z.pow_succ_r in H by lia. nia.
  - intros (N & H) [|i] Hi Hb.
    + cbn in Hb |- *. destruct Hc; [lia|exfalso; auto].
    + specialize (H i ltac:(lia) Hb). cbn [firstn val].
      rewrite Nat2Z.inj_succ, Z.pow_succ_r by lia. nia.
Qed.
Lemma borrow_safe_cons n x a y b c c' s : word s -> bit c -> x - y - c = s - W * c' ->
  (borrow_safe (S n) (x :: a) (y :: b) c <-> ~ (y = W - 1 /\ c = 1) /\ borrow_safe n a b c').
Proof.
  unfold word, bit. intros Hs Hc E. split.
  - intros H. split.
    + intros (A & C). specialize (H 0%nat ltac:(lia) A). cbn in H. lia.
    + intros i Hi Hb. specialize (H (S i) ltac:(lia) Hb). cbn [firstn val] in H. nia.
  - intros (N & H) [|i] Hi Hb.
    + cbn in Hb |- *. destruct Hc; [lia|exfalso; auto].
    + specialize (H i ltac:(lia) Hb). cbn [firstn val]. nia.
Qed.
Lemma pow_S k : W ^ Z.of_nat (S k) = W * W ^ Z.of_nat k.
Proof. rewrite Nat2Z.inj_succ, Z.pow_succ_r by lia. reflexivity. Qed.
Lemma Wpow_pos k : 0 < W ^ Z.of_nat k. Proof. apply Z.pow_pos_nonneg; [reflexivity|lia]. Qed.


Lemma mod_mul_zero d P : 0 < P -> ((W * d) mod (W * P) = 0 <-> d mod P = 0).
Proof. intros HP. pose proof W_pos. rewrite Z.mul_mod_distr_l by lia. nia. Qed.
Lemma one_mod_W d k : (1 + W * d) mod W ^ Z.of_nat (S k) <> 0.
Proof.
  pose proof (Wpow_pos (S k)). intros H0. apply Z.mod_divide in H0; [|lia]. destruct H0 as [q Q].
  rewrite pow_S in Q. assert (X : W * (q * W ^ Z.of_nat k - d) = 1) by lia.
  apply Z.eq_mul_1_nonneg in X; [discriminate (proj1 X)|discriminate].
Qed.

Lemma add_l_spec a : forall b c, words a -> words b -> length a = length b -> bit c ->
  exists z k d, add_l a b c = (z, k) /\ words z /\ length z = length a /\ bit k /\ 0 <= d /\
    val z + W ^ Z.of_nat (length a) * k + W * d = val a + val b + c /\
    (d = 0 <-> carry_safe (length a) a b c) /\
    ((W * d) mod W ^ Z.of_nat (length a) = 0 <-> carry_safe (pred (length a)) a b c).
Proof.
  induction a as [|x a IH]; intros [|y b] c Ha Hb L Hc; try discriminate.
  - exists [], c, 0. cbn [add_l sub_l val length pred Z.of_nat]. change (W ^ 0) with 1. unfold carry_safe, borrow_safe. split; [reflexivity|]. split; [constructor|]. split; [reflexivity|]. split; [auto|]. split; [lia|]. split; [lia|]. split; split; intros; try reflexivity; lia.
  - inversion Ha as [|? ? Hx Ha']; inversion Hb as [|? ? Hy Hb']; subst. cbn [length] in *. injection L as L.
    destruct (Add64_cases x y c Hx Hy Hc) as (s & k & E & Hs & Hk & D).
    destruct (IH b k Ha' Hb' L Hk) as (z & k' & d & E' & Hz & Lz & Hk' & Hd & V & I1 & I2).
    pose proof (Wpow_pos (length a)) as Wp. pose proof W_pos as W0.
    cbn [add_l]. rewrite E, E'. rewrite pow_S. cbn [val pred].
    destruct D as [(Y & C & S & K)|(N & S)].
    + exists (s :: z), k', (1 + W * d). cbn [val length].
      split; [reflexivity|]. split; [constructor; auto|]. split; [lia|]. split; [auto|]. split; [lia|].
      split; [subst; lia|].
      assert (NS : forall n, (0 < n)%nat -> ~ carry_safe n (x :: a) (y :: b) c).
      { intros n Hn H. specialize (H 0%nat Hn Y). cbn in H. lia. }
      split; [split; [lia|]; intros H; elim (NS _ (Nat.lt_0_succ _) H)|].
      rewrite mod_mul_zero by auto.
      destruct a as [|x' a'].
      * split; [intros _ i Hi; cbn in Hi; lia|]. intros _. apply Z.mod_1_r.
      * split; [|intros H; elim (NS (length (x' :: a')) (Nat.lt_0_succ _) H)].
        intros H. elim (one_mod_W d (length a') H).
    + exists (s :: z), k', (W * d). cbn [val length].
      split; [reflexivity|]. split; [constructor; auto|]. split; [lia|]. split; [auto|]. split; [lia|].
      split; [lia|]. split.
      * rewrite (carry_safe_cons (length a) x a y b c k s Hs Hc S). rewrite <- I1. split; [intros; split; auto; lia|]. intros (_ & ->). lia.
      * rewrite mod_mul_zero by auto. rewrite I2. destruct a as [|x' a']; [cbn; split; intros _ i Hi; lia|].
        cbn [length pred]. rewrite (carry_safe_cons (length a') x (x' :: a') y b c k s Hs Hc S). tauto.
Qed.
Lemma sub_l_spec a : forall b c, words a -> words b -> length a = length b -> bit c ->
  exists z k d, sub_l a b c = (z, k) /\ words z /\ length z = length a /\ bit k /\ 0 <= d /\
    val z - W ^ Z.of_nat (length a) * k - W * d = val a - val b - c /\
    (d = 0 <-> borrow_safe (length a) a b c) /\
    ((W * d) mod W ^ Z.of_nat (length a) = 0 <-> borrow_safe (pred (length a)) a b c).
Proof.
  induction a as [|x a IH]; intros [|y b] c Ha Hb L Hc; try discriminate.
  - exists [], c, 0. cbn [add_l sub_l val length pred Z.of_nat]. change (W ^ 0) with 1. unfold carry_safe, borrow_safe. split; [reflexivity|]. split; [constructor|]. split; [reflexivity|]. split; [auto|]. split; [lia|]. split; [lia|]. split; split; intros; try reflexivity; lia.
  - inversion Ha as [|? ? Hx Ha']; inversion Hb as [|? ? Hy Hb']; subst. cbn [length] in *. injection L as L.
    destruct (Sub64_cases x y c Hx Hy Hc) as (s & k & E & Hs & Hk & D).
    destruct (IH b k Ha' Hb' L Hk) as (z & k' & d & E' & Hz & Lz & Hk' & Hd & V & I1 & I2).
    pose proof (Wpow_pos (length a)) as Wp. pose proof W_pos as W0.
    cbn [sub_l]. rewrite E, E'. rewrite pow_S. cbn [val pred].
    destruct D as [(Y & C & S & K)|(N & S)].
    + exists (s :: z), k', (1 + W * d). cbn [val length].
      split; [reflexivity|]. split; [constructor; auto|]. split; [lia|]. split; [auto|]. split; [lia|].
      split; [subst; lia|].
      assert (NS : forall n, (0 < n)%nat -> ~ borrow_safe n (x :: a) (y :: b) c).
      { intros n Hn H. specialize (H 0%nat Hn Y). cbn in H. lia. }
      split; [split; [lia|]; intros H; elim (NS _ (Nat.lt_0_succ _) H)|].
      rewrite mod_mul_zero by auto.
      destruct a as [|x' a'].
      * split; [intros _ i Hi; cbn in Hi; lia|]. intros _. apply Z.mod_1_r.
      * split; [|intros H; elim (NS (length (x' :: a')) (Nat.lt_0_succ _) H)].
        intros H. elim (one_mod_W d (length a') H).
    + exists (s :: z), k', (W * d). cbn [val length].
      split; [reflexivity|]. split; [constructor; auto|]. split; [lia|]. split; [auto|]. split; [lia|].
      split; [lia|]. split.
      * rewrite (borrow_safe_cons (length a) x a y b c k s Hs Hc S). rewrite <- I1. split; [intros; split; auto; lia|]. intros (_ & ->). lia.
      * rewrite mod_mul_zero by auto. rewrite I2. destruct a as [|x' a']; [cbn; split; intros _ i Hi; lia|].
        cbn [length pred]. rewrite (borrow_safe_cons (length a') x (x' :: a') y b c k s Hs Hc S). tauto.
Qed.

Lemma no_ones_carry_safe n a b c : Forall (fun l => l <> W - 1) b -> carry_safe n a b c.
Proof.
  intros F i _ H. exfalso. unfold limb in H. destruct (nth_in_or_default i b 0) as [I|D].
  - rewrite Forall_forall in F. exact (F _ I H).
  - rewrite D in H. discriminate H.
Qed.
Lemma no_ones_borrow_safe n a b c : Forall (fun l => l <> W - 1) b -> borrow_safe n a b c.
Proof.
  intros F i _ H. exfalso. unfold limb in H. destruct (nth_in_or_default i b 0) as [I|D].
  - rewrite Forall_forall in F. exact (F _ I H).
  - rewrite D in H. discriminate H.
Qed.

(** ** Six limbs *)
Definition six (x : list Z) : Prop := length x = 6%nat /\ words x.
Lemma R384_W : R384 = W ^ Z.of_nat 6. Proof. reflexivity. Qed.
Lemma six_bound x : six x -> 0 <= val x < R384.
Proof. intros (L & H). rewrite R384_W, <- L. apply val_bound; auto. Qed.
Lemma MODl_six : six MODl. Proof. split; [reflexivity|]. repeat constructor; discriminate. Qed.
Lemma MODl_val : val MODl = MODULUS. Proof. reflexivity. Qed.
Lemma MODl_no_ones : Forall (fun l => l <> W - 1) MODl.
Proof. repeat constructor; discriminate. Qed.
Lemma add_chain_six x y : six x -> six y -> six (fst (add_chain x y)) /\
  (val (fst (add_chain x y)) = (val x + val y) mod R384 <-> carry_safe 5 x y 0) /\
  (carry_safe 6 x y 0 -> val (fst (add_chain x y)) + R384 * snd (add_chain x y) = val x + val y).
Proof.
  intros (Lx & Hx) (Ly & Hy). unfold add_chain. rewrite add_loop_l, !slice_all by auto.
  destruct (add_l_spec x y 0 Hx Hy ltac:(congruence) ltac:(left; reflexivity)) as (z & k & d & E & Hz & Lz & Hk & Hd & V & I1 & I2).
  rewrite E. cbn [fst snd]. rewrite Lx in *. change (pred 6) with 5%nat in I2. rewrite <- R384_W in *.
  assert (Sz : six z) by (split; congruence). pose proof (six_bound z Sz) as Bz.
  split; [auto|]. split.
  - rewrite <- I2. replace (val x + val y) with (W * d + val z + k * R384) by lia.
    rewrite Z_mod_plus_full. rewrite Zplus_mod. rewrite (Z.mod_small (val z)) by auto.
    split.
    + intros H. destruct (Z.eq_dec ((W * d) mod R384) 0) as [e|n]; [auto|exfalso].
      pose proof (Z.mod_pos_bound (W * d) R384 ltac:(reflexivity)) as B.
      set (e := (W * d) mod R384) in *. clearbody e.
      destruct (Z.ltb_spec (e + val z) R384).
      * rewrite Z.mod_small in H by lia. lia.
      * rewrite <- (Z.mod_unique (e + val z) R384 1 (e + val z - R384)) in H by lia. lia.
    + intros ->. cbn [Z.add]. symmetry. apply Z.mod_small. auto.
  - intros H. apply I1 in H. lia.
Qed.
Lemma sub_chain_six x y : six x -> six y -> six (fst (sub_chain x y)) /\
  (val (fst (sub_chain x y)) = (val x - val y) mod R384 <-> borrow_safe 5 x y 0) /\
  (borrow_safe 6 x y 0 -> bit (snd (sub_chain x y)) /\ val (fst (sub_chain x y)) - R384 * snd (sub_chain x y) = val x - val y).
Proof.
  intros (Lx & Hx) (Ly & Hy). unfold sub_chain. rewrite sub_loop_l, !slice_all by auto.
  destruct (sub_l_spec x y 0 Hx Hy ltac:(congruence) ltac:(left; reflexivity)) as (z & k & d & E & Hz & Lz & Hk & Hd & V & I1 & I2).
  rewrite E. cbn [fst snd]. rewrite Lx in *. change (pred 6) with 5%nat in I2. rewrite <- R384_W in *.
  assert (Sz : six z) by (split; congruence). pose proof (six_bound z Sz) as Bz.
  split; [auto|]. split.
  - rewrite <- I2. replace (val x - val y) with (val z - W * d + (- k) * R384) by lia.
    rewrite Z_mod_plus_full. rewrite Zminus_mod. rewrite (Z.mod_small (val z)) by auto.
    split.
    + intros H. destruct (Z.eq_dec ((W * d) mod R384) 0) as [e|n]; [auto|exfalso].
      pose proof (Z.mod_pos_bound (W * d) R384 ltac:(reflexivity)) as B.
      set (e := (W * d) mod R384) in *. clearbody e.
      destruct (Z.ltb_spec (val z - e) 0).
      * rewrite <- (Z.mod_unique (val z - e) R384 (-1) (val z - e + R384)) in H by lia. lia.
      * rewrite Z.mod_small in H by lia. lia.
    + intros ->. rewrite Z.sub_0_r. symmetry. apply Z.mod_small. auto.
  - intros H. apply I1 in H. split; [auto|lia].
Qed.
Lemma carry_safe_le m n a b c : (m <= n)%nat -> carry_safe n a b c -> carry_safe m a b c.
Proof. intros L H i Hi. apply H. lia. Qed.
Lemma borrow_safe_le m n a b c : (m <= n)%nat -> borrow_safe n a b c -> borrow_safe m a b c.
Proof. intros L H i Hi. apply H. lia. Qed.
Lemma reduce_once_ok z : six z ->
  six (reduce_once z) /\ val (reduce_once z) = if val z <? MODULUS then val z else val z - MODULUS.
Proof.
  intros Sz. pose proof (six_bound z Sz) as B. unfold reduce_once.
  change (cmp_loop 6 z MODl) with (cmp_loop 6 z MODl).
  pose proof (scalar_cmp_ok z MODl (proj2 Sz) (proj2 MODl_six) ltac:(rewrite (proj1 Sz); reflexivity)) as C.
  unfold scalar_cmp in C. rewrite (proj1 Sz), MODl_val in C. rewrite C.
  destruct (sub_chain_six z MODl Sz MODl_six) as (S1 & S2 & _). rewrite MODl_val in S2.
  assert (H : val (fst (sub_chain z MODl)) = (val z - MODULUS) mod R384).
  { apply S2. apply no_ones_borrow_safe, MODl_no_ones. }
  destruct (Z.compare_spec (val z) MODULUS) as [e|e|e], (Z.ltb_spec (val z) MODULUS); try lia; split; auto;
  rewrite H; apply Z.mod_small; assert (0 <= MODULUS) by discriminate; lia.
Qed.
Lemma p_add_ok x y : six x -> six y -> carry_safe 5 x y 0 ->
  six (p_add x y) /\ val (p_add x y) = fp_add (val x) (val y).
Proof.
  intros Hx Hy H. destruct (add_chain_six x y Hx Hy) as (S1 & S2 & _). apply S2 in H.
  destruct (reduce_once_ok _ S1) as (S3 & V). unfold p_add. split; [auto|]. rewrite V, H. reflexivity.
Qed.
Lemma p_double_ok x : six x -> carry_safe 5 x x 0 ->
  six (p_double x) /\ val (p_double x) = fp_double (val x).
Proof.
  intros Hx H. destruct (add_chain_six x x Hx Hx) as (S1 & S2 & _). apply S2 in H.
  destruct (reduce_once_ok _ S1) as (S3 & V). unfold p_double. split; [auto|]. rewrite V, H. reflexivity.
Qed.
Lemma p_ladd_iff x y : six x -> six y -> (val (p_ladd x y) = fp_ladd (val x) (val y) <-> carry_safe 5 x y 0).
Proof. intros Hx Hy. exact (proj1 (proj2 (add_chain_six x y Hx Hy))). Qed.
Lemma p_ldouble_iff x : six x -> (val (p_ldouble x) = fp_ldouble (val x) <-> carry_safe 5 x x 0).
Proof. intros Hx. exact (proj1 (proj2 (add_chain_six x x Hx Hx))). Qed.
Lemma p_lsub_iff x y : six x -> six y -> (val (p_lsubtract x y) = fp_lsub (val x) (val y) <-> borrow_safe 5 x y 0).
Proof. intros Hx Hy. exact (proj1 (proj2 (sub_chain_six x y Hx Hy))). Qed.
Lemma p_sub_ok x y : six x -> six y -> borrow_safe 6 x y 0 ->
  six (p_subtract x y) /\ val (p_subtract x y) = fp_sub (val x) (val y).
Proof.
  intros Hx Hy H. destruct (sub_chain_six x y Hx Hy) as (S1 & _ & S2). specialize (S2 H).
  unfold p_subtract. destruct (sub_chain x y) as [z b]. cbn [fst snd] in *. destruct S2 as (Hb & V).
  pose proof (six_bound _ S1). pose proof (six_bound _ Hx). pose proof (six_bound _ Hy). unfold fp_sub.
  destruct Hb; subst b; cbn [Z.eqb].
  - split; [auto|]. destruct (Z.ltb_spec (val x) (val y)); lia.
  - destruct (add_chain_six z MODl S1 MODl_six) as (S3 & S4 & _). split; [auto|].
    destruct (Z.ltb_spec (val x) (val y)); [|lia].
    rewrite (proj2 S4) by (apply no_ones_carry_safe, MODl_no_ones). rewrite MODl_val.
    f_equal. f_equal. symmetry. rewrite <- (Z.mod_unique (val x - val y) R384 (-1) (val z)); lia.
Qed.
Lemma six_zero x : words x -> forallb (fun l => l =? 0) x = (val x =? 0).
Proof.
  induction 1 as [|a l Ha Hl IH]; [reflexivity|]. cbn [forallb val]. rewrite IH.
  pose proof (val_nonneg l Hl). unfold word in Ha. pose proof W_pos.
  destruct (Z.eqb_spec a 0), (Z.eqb_spec (val l) 0), (Z.eqb_spec (a + W * val l) 0); cbn; try reflexivity; nia.
Qed.
Lemma p_neg_ok x : six x -> borrow_safe 5 MODl x 0 ->
  six (p_negate x) /\ val (p_negate x) = fp_neg (val x).
Proof.
  intros Hx H. unfold p_negate, fp_neg. rewrite six_zero by apply Hx.
  destruct (Z.eqb_spec (val x) 0); [auto|].
  destruct (sub_chain_six MODl x MODl_six Hx) as (S1 & S2 & _). split; [auto|]. rewrite MODl_val in S2. apply S2, H.
Qed.
