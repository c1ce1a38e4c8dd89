(** Correctness of the multi-limb division. *)
From Coq Require Import ZArith List Bool Lia.
From Verif Require Import ModelWord ModelScalar ModelPrim PortArith ModelFp ModelDiv SpecField FieldProof FpProof ScalarProof BytesProof CarryProof MaddProof ScalarProof2.
Import ListNotations.
Local Open Scope Z_scope.

Ltac base_tac := split; [reflexivity|]; split; [constructor|]; split; [reflexivity|]; split; [assumption|];
  cbn [val length]; change (W ^ Z.of_nat 0) with 1; lia.
Lemma modW_word x : word (x mod W). Proof. apply Z.mod_pos_bound. reflexivity. Qed.
Lemma mask_small b : 0 < b < 64 -> RLC_MASK b = Z.ones b.
Proof.
  intros H. unfold RLC_MASK. destruct (Z.leb_spec 64 b); [lia|]. rewrite Z.lor_0_l.
  rewrite (Z.mod_small b) by lia. rewrite Z.shiftl_mul_pow2, Z.mul_1_l by lia.
  rewrite Z.mod_small; [rewrite Z.ones_equiv; lia|]. split; [apply Z.pow_nonneg; lia|]. change W with (2 ^ 64). apply Z.pow_lt_mono_r; lia.
Qed.
Lemma div_small_range x k : word x -> 0 <= k <= 64 -> 0 <= x / 2 ^ (64 - k) < 2 ^ k.
Proof.
  unfold word. intros H Hk. split; [apply Z.div_pos; [lia|apply Z.pow_pos_nonneg; lia]|].
  apply Z.div_lt_upper_bound; [apply Z.pow_pos_nonneg; lia|]. rewrite <- Z.pow_add_r by lia.
  replace (64 - k + k) with 64 by lia. apply H.
Qed.
Lemma lshb_loop_ok bits : 0 < bits < 64 -> forall a carry, words a -> 0 <= carry < 2 ^ bits ->
  exists l c, lshb_loop a bits carry = (l, c) /\ words l /\ length l = length a /\ 0 <= c < 2 ^ bits /\
    val l + W ^ Z.of_nat (length a) * c = val a * 2 ^ bits + carry.
Proof.
  intros Hb a. induction a as [|x a IH]; intros carry Ha Hc.
  - exists [], carry. base_tac.
  - inversion Ha as [|? ? Hx Ha']; subst. cbn [lshb_loop].
    assert (R : Z.land (Z.shiftr x (64 - bits)) (RLC_MASK bits) = x / 2 ^ (64 - bits)).
    { rewrite mask_small, Z.land_ones, Z.shiftr_div_pow2 by lia. apply Z.mod_small. apply div_small_range; [auto|lia]. }
    assert (C : Z.lor ((Z.shiftl x bits) mod W) carry = (x * 2 ^ bits) mod W + carry).
    { rewrite Z.shiftl_mul_pow2 by lia. change W with (2 ^ 64). 
      replace ((x * 2 ^ bits) mod 2 ^ 64) with ((x mod 2 ^ (64 - bits)) * 2 ^ bits).
      - rewrite Z.lor_comm, <- Z.shiftl_mul_pow2 by lia. rewrite lor_shift by (try lia; apply Z.mod_pos_bound, Z.pow_pos_nonneg; lia).
        rewrite Z.shiftl_mul_pow2 by lia. lia.
      - replace (2 ^ 64) with (2 ^ (64 - bits) * 2 ^ bits) by (rewrite <- Z.pow_add_r by lia; f_equal; lia).
        rewrite Z.mul_mod_distr_r; auto; try (apply Z.pow_nonzero; lia). }
    rewrite R, C. destruct (IH (x / 2 ^ (64 - bits)) Ha' ltac:(apply div_small_range; [auto|lia])) as (l & c & -> & Hl & Ll & Hc' & V).
    exists ((x * 2 ^ bits) mod W + carry :: l), c.
    assert (S : x * 2 ^ bits = W * (x / 2 ^ (64 - bits)) + (x * 2 ^ bits) mod W).
    { rewrite (Z_div_mod_eq_full (x * 2 ^ bits) W) at 1. f_equal. f_equal.
      change W with (2 ^ 64). replace (2 ^ 64) with (2 ^ (64 - bits) * 2 ^ bits) by (rewrite <- Z.pow_add_r by lia; f_equal; lia).
      rewrite Z.div_mul_cancel_r; auto; apply Z.pow_nonzero; lia. }
    split; [reflexivity|]. split.
    { constructor; auto. pose proof (modW_word (x * 2 ^ bits)) as M. unfold word in *.
      assert (D : (x * 2 ^ bits) mod W = (x mod 2 ^ (64 - bits)) * 2 ^ bits).
      { change W with (2 ^ 64). replace (2 ^ 64) with (2 ^ (64 - bits) * 2 ^ bits) by (rewrite <- Z.pow_add_r by lia; f_equal; lia).
        rewrite Z.mul_mod_distr_r; auto; apply Z.pow_nonzero; lia. }
      pose proof (Z.mod_pos_bound x (2 ^ (64 - bits)) ltac:(apply Z.pow_pos_nonneg; lia)).
      assert (W = 2 ^ (64 - bits) * 2 ^ bits) by (change W with (2 ^ 64); rewrite <- Z.pow_add_r by lia; f_equal; lia).
      rewrite D in *. nia. }
    split; [cbn; congruence|]. split; [auto|]. cbn [val length]. rewrite pow_S.
    replace (W * W ^ Z.of_nat (length a) * c) with (W * (W ^ Z.of_nat (length a) * c)) by ring.
    set (X := W ^ Z.of_nat (length a) * c) in *. nia.
Qed.
Lemma subn_loop_ok a : forall b carry, words a -> words b -> length a = length b -> bit carry ->
  exists l c, subn_loop a b carry = (l, c) /\ words l /\ length l = length a /\ bit c /\
    val l - W ^ Z.of_nat (length a) * c = val a - val b - carry.
Proof.
  induction a as [|x a IH]; intros [|y b] carry Ha Hb L Hc; try discriminate.
  - exists [], carry. base_tac.
  - inversion Ha as [|? ? Hx Ha']; inversion Hb as [|? ? Hy Hb']; subst. cbn [subn_loop length] in *.
    match goal with |- context [subn_loop a b ?c] => set (c1 := c) end.
    assert (E : exists s, ((x - y) mod W - carry) mod W = s /\ word s /\ bit c1 /\ x - y - carry = s - W * c1).
    { eexists. split; [reflexivity|]. split; [apply modW_word|]. rewrite Zminus_mod_idemp_l.
      assert (K : bit c1) by (unfold c1, bit; destruct (_ || _); auto). split; [exact K|].
      unfold word, bit in *. pose proof (mod_W_cases (x - y - carry) ltac:(lia)) as D. pose proof (mod_W_cases (x - y) ltac:(lia)) as D'.
      unfold c1. destruct (Z.ltb_spec x y), Hc as [->| ->]; cbn [orb andb negb Z.eqb]; try lia.
      destruct (Z.eqb_spec ((x - y) mod W) 0); lia. }
    destruct E as (s & -> & Hs & Hk & E).
    destruct (IH b c1 Ha' Hb' ltac:(congruence) Hk) as (l & c & -> & Hl & Ll & Hc' & V).
    exists (s :: l), c. split; [reflexivity|]. split; [constructor; auto|]. split; [cbn; congruence|]. split; [auto|].
    cbn [val]. rewrite pow_S. replace (W * W ^ Z.of_nat (length a) * c) with (W * (W ^ Z.of_nat (length a) * c)) by ring. lia.
Qed.
Lemma mul1_loop_ok q : word q -> forall a carry, words a -> word carry ->
  exists l c, mul1_loop a q carry = (l, c) /\ words l /\ length l = length a /\ word c /\
    val l + W ^ Z.of_nat (length a) * c = val a * q + carry.
Proof.
  intros Hq a. induction a as [|x a IH]; intros carry Ha Hc.
  - exists [], carry. base_tac.
  - inversion Ha as [|? ? Hx Ha']; subst. cbn [mul1_loop].
    destruct (Mul64_ok x q Hx Hq) as (h & l & E & Hh & Hl & Bh & V & _). unfold Mul64 in E. injection E as Eh El. rewrite Eh, El.
    pose proof (mod_W_cases (l + carry) ltac:(unfold word in *; lia)) as D.
    set (c := (l + carry) mod W) in *. assert (Wc : word c) by apply modW_word.
    assert (F : exists k, (h + (if c <? carry then 1 else 0)) mod W = h + k /\ word (h + k) /\ l + carry = c + W * k).
    { unfold word in *. destruct (Z.ltb_spec c carry).
      - exists 1. rewrite Z.mod_small by lia. lia.
      - exists 0. rewrite Z.mod_small by lia. lia. }
    destruct F as (k & -> & Hk & F).
    destruct (IH (h + k) Ha' Hk) as (l' & c' & -> & Hl' & Ll & Hc' & V').
    exists (c :: l'), c'. split; [reflexivity|]. split; [constructor; auto|]. split; [cbn; congruence|]. split; [auto|].
    cbn [val length]. rewrite pow_S. replace (W * W ^ Z.of_nat (length a) * c') with (W * (W ^ Z.of_nat (length a) * c')) by ring. lia.
Qed.
Lemma sub1_ok a : forall carry, words a -> bit carry -> exists l c, bn_sub1_low a carry = (l, c) /\ words l /\ length l = length a /\ bit c /\
    val l - W ^ Z.of_nat (length a) * c = val a - carry.
Proof.
  induction a as [|x a IH]; intros carry Ha Hc.
  - exists [], carry. base_tac.
  - inversion Ha as [|? ? Hx Ha']; subst. cbn [bn_sub1_low]. destruct Hc; subst carry; cbn [Z.eqb].
    + exists (x :: a), 0. repeat split; auto; [left; reflexivity|lia].
    + pose proof (mod_W_cases (x - 1) ltac:(unfold word in *; lia)) as D. set (r := (x - 1) mod W) in *.
      assert (Wr : word r) by apply modW_word.
      destruct (IH (if x <? r then 1 else 0) Ha' ltac:(destruct (x <? r); [right|left]; reflexivity)) as (l & c & -> & Hl & Ll & Hc' & V).
      exists (r :: l), c. split; [reflexivity|]. split; [constructor; auto|]. split; [cbn; congruence|]. split; [auto|].
      cbn [val length]. rewrite pow_S. replace (W * W ^ Z.of_nat (length a) * c) with (W * (W ^ Z.of_nat (length a) * c)) by ring.
      assert (W1 : 1 < W) by reflexivity. revert V. unfold word in *. destruct (Z.ltb_spec x r); intros V;
        [assert (Vl : val l = val a - 1 + W ^ Z.of_nat (length a) * c) by lia|assert (Vl : val l = val a + W ^ Z.of_nat (length a) * c) by lia]; rewrite Vl; lia.
Qed.
Lemma addn_loop_ok a : forall b carry, words a -> words b -> length a = length b -> bit carry ->
  exists l c, addn_loop a b carry = (l, c) /\ words l /\ length l = length a /\ bit c /\
    val l + W ^ Z.of_nat (length a) * c = val a + val b + carry.
Proof.
  induction a as [|x a IH]; intros [|y b] carry Ha Hb L Hc; try discriminate.
  - exists [], carry. base_tac.
  - inversion Ha as [|? ? Hx Ha']; inversion Hb as [|? ? Hy Hb']; subst. cbn [addn_loop length] in *.
    pose proof (mod_W_cases (x + y) ltac:(unfold word in *; lia)) as D. set (r0 := (x + y) mod W) in *.
    assert (W0 : word r0) by apply modW_word.
    pose proof (mod_W_cases (r0 + carry) ltac:(unfold word, bit in *; lia)) as D1. set (r1 := (r0 + carry) mod W) in *.
    assert (W1 : word r1) by apply modW_word.
    match goal with |- context [addn_loop a b ?c] => set (c1 := c) end.
    assert (E : bit c1 /\ x + y + carry = r1 + W * c1).
    { assert (1 < W) by reflexivity. unfold c1, bit, word in *. destruct (Z.ltb_spec r0 x), (Z.ltb_spec r1 r0); cbn [Z.lor Pos.lor]; lia. }
    destruct E as (Hk & E).
    destruct (IH b c1 Ha' Hb' ltac:(congruence) Hk) as (l & c & -> & Hl & Ll & Hc' & V).
    exists (r1 :: l), c. split; [reflexivity|]. split; [constructor; auto|]. split; [cbn; congruence|]. split; [auto|].
    cbn [val]. rewrite pow_S. replace (W * W ^ Z.of_nat (length a) * c) with (W * (W ^ Z.of_nat (length a) * c)) by ring. lia.
Qed.
Lemma add1_ok a : forall carry, words a -> bit carry -> exists l c, bn_add1_low a carry = (l, c) /\ words l /\ length l = length a /\ bit c /\
    val l + W ^ Z.of_nat (length a) * c = val a + carry.
Proof.
  induction a as [|x a IH]; intros carry Ha Hc.
  - exists [], carry. base_tac.
  - inversion Ha as [|? ? Hx Ha']; subst. cbn [bn_add1_low]. destruct Hc; subst carry; cbn [Z.eqb].
    + exists (x :: a), 0. repeat split; auto; [left; reflexivity|lia].
    + pose proof (mod_W_cases (x + 1) ltac:(unfold word in *; lia)) as D. set (r := (x + 1) mod W) in *.
      assert (Wr : word r) by apply modW_word.
      destruct (IH (if r <? 1 then 1 else 0) Ha' ltac:(destruct (r <? 1); [right|left]; reflexivity)) as (l & c & -> & Hl & Ll & Hc' & V).
      exists (r :: l), c. split; [reflexivity|]. split; [constructor; auto|]. split; [cbn; congruence|]. split; [auto|].
      cbn [val length]. rewrite pow_S. replace (W * W ^ Z.of_nat (length a) * c) with (W * (W ^ Z.of_nat (length a) * c)) by ring.
      assert (W1 : 1 < W) by reflexivity. revert V. unfold word in *. destruct (Z.ltb_spec r 1); intros V;
        [assert (Vl : val l = val a + 1 - W ^ Z.of_nat (length a) * c) by lia|assert (Vl : val l = val a - W ^ Z.of_nat (length a) * c) by lia]; rewrite Vl; lia.
Qed.
Lemma rshb_ok bits : 0 < bits < 64 -> forall a, words a ->
  words (fst (bn_rshb_low a bits)) /\ length (fst (bn_rshb_low a bits)) = length a /\
  val (fst (bn_rshb_low a bits)) = val a / 2 ^ bits /\ snd (bn_rshb_low a bits) = val a mod 2 ^ bits.
Proof.
  intros Hb a. induction a as [|x a IH]; intros Ha.
  - cbn [bn_rshb_low fst snd val length]. rewrite Z.div_0_l, Z.mod_0_l by (apply Z.pow_nonzero; lia). repeat split; auto.
  - inversion Ha as [|? ? Hx Ha']; subst. specialize (IH Ha'). cbn [bn_rshb_low].
    destruct (bn_rshb_low a bits) as [l c]. cbn [fst snd] in *. destruct IH as (Hl & Ll & Vl & Vc).
    pose proof (Z.pow_pos_nonneg 2 bits ltac:(lia) ltac:(lia)) as P2.
    pose proof (Z.pow_pos_nonneg 2 (64 - bits) ltac:(lia) ltac:(lia)) as P3.
    assert (WW : W = 2 ^ (64 - bits) * 2 ^ bits) by (change W with (2 ^ 64); rewrite <- Z.pow_add_r by lia; f_equal; lia).
    pose proof (Z.mod_pos_bound (val a) (2 ^ bits) P2) as Bc. rewrite <- Vc in Bc.
    rewrite mask_small, Z.land_ones by lia. rewrite (Z.mod_small (64 - bits) 64) by lia.
    rewrite Z.shiftl_mul_pow2 by lia. rewrite (Z.mod_small (c * _)) by nia.
    rewrite <- (Z.shiftl_mul_pow2 c) by lia. rewrite lor_shift; try lia.
    2:{ rewrite Z.shiftr_div_pow2 by lia. split; [apply Z.div_pos; [apply Hx|lia]|]. apply Z.div_lt_upper_bound; [lia|]. rewrite Z.mul_comm, <- WW. apply Hx. }
    rewrite Z.shiftr_div_pow2 by lia.
    assert (Bx : 0 <= x / 2 ^ bits < 2 ^ (64 - bits)).
    { split; [apply Z.div_pos; [apply Hx|lia]|]. apply Z.div_lt_upper_bound; [lia|]. rewrite Z.mul_comm, <- WW. apply Hx. }
    split. { constructor; auto. unfold word. rewrite WW. nia. }
    split; [cbn; congruence|]. cbn [val]. split.
    + rewrite Vl. rewrite (Z_div_mod_eq_full (val a) (2 ^ bits)) at 2. rewrite <- Vc.
      pose proof (Z_div_mod_eq_full x (2 ^ bits)) as X. pose proof (Z.mod_pos_bound x (2 ^ bits) P2).
      apply Z.div_unique with (x mod 2 ^ bits); [lia|]. rewrite WW. rewrite X at 1. ring.
    + rewrite WW. rewrite <- Z.mul_assoc, (Z.mul_comm (2 ^ bits)), Z.mul_assoc. rewrite Z_mod_plus_full. reflexivity.
Qed.

(** windows *)
Lemma win_length a off n : (off + n <= length a)%nat -> length (win a off n) = n.
Proof. intros H. unfold win. rewrite firstn_length, skipn_length. lia. Qed.
Lemma words_skipn n s : words s -> words (skipn n s).
Proof. revert s. induction n; intros [|x s] H; cbn; auto. apply IHn. inversion H; auto. Qed.
Lemma win_words a off n : words a -> words (win a off n).
Proof. intros H. apply words_firstn, words_skipn, H. Qed.
Lemma splice_length a off w : (off + length w <= length a)%nat -> length (splice a off w) = length a.
Proof. intros H. unfold splice. rewrite !app_length, firstn_length, skipn_length. lia. Qed.
Lemma splice_words a off w : words a -> words w -> words (splice a off w).
Proof. intros Ha Hw. unfold splice. apply words_app. split; [apply words_firstn; auto|]. apply words_app. split; [auto|apply words_skipn; auto]. Qed.
Lemma skipn_add {A} (l : list A) : forall m n, skipn m (skipn n l) = skipn (n + m) l.
Proof. induction l; intros m n; [rewrite !skipn_nil; reflexivity|]. destruct n; cbn; auto. Qed.
Lemma split_win a off n : a = firstn off a ++ win a off n ++ skipn (off + n) a.
Proof.
  unfold win. rewrite <- skipn_add. rewrite (firstn_skipn n (skipn off a)). symmetry. apply firstn_skipn.
Qed.
Lemma splice_val a off w : (off + length w <= length a)%nat ->
  val (splice a off w) = val a + (val w - val (win a off (length w))) * W ^ Z.of_nat off.
Proof.
  intros H. rewrite (split_win a off (length w)) at 2. unfold splice. rewrite !val_app.
  rewrite !firstn_length, Nat.min_l by lia. rewrite win_length by auto. ring.
Qed.
Lemma limb_div a i : words a -> limb a i = (val a / W ^ Z.of_nat i) mod W.
Proof.
  intros H. destruct (Nat.ltb_spec i (length a)) as [L|L].
  - rewrite (split_win a i 1) at 2. rewrite !val_app, firstn_length, Nat.min_l by lia. rewrite win_length by lia.
    assert (E : win a i 1 = [limb a i]).
    { unfold win, limb. revert i L. clear. induction a; intros [|i] L; cbn [length skipn firstn nth] in *; try lia; auto. apply IHa. lia. }
    rewrite E. cbn [val]. pose proof (val_bound _ (words_firstn i a H)) as B. rewrite firstn_length, Nat.min_l in B by lia.
    pose proof (limb_word a i H) as Hw. unfold word in Hw. pose proof (val_nonneg _ (words_skipn (i + 1) a H)) as T. pose proof (Wpow_pos i).
    replace (val (firstn i a) + W ^ Z.of_nat i * (limb a i + W * 0 + W ^ Z.of_nat 1 * val (skipn (i + 1) a)))
      with ((limb a i + W * val (skipn (i + 1) a)) * W ^ Z.of_nat i + val (firstn i a)) by (change (W ^ Z.of_nat 1) with W; ring).
    rewrite Z.div_add_l by lia. rewrite (Z.div_small (val (firstn i a))) by lia. rewrite Z.add_0_r.
    rewrite Z.mul_comm, Z_mod_plus_full. symmetry. apply Z.mod_small. auto.
  - rewrite limb_high by auto. pose proof (val_bound a H). rewrite Z.div_small; [reflexivity|]. split; [lia|].
    eapply Z.lt_le_trans; [apply H0|]. apply Z.pow_le_mono_r; [reflexivity|lia].
Qed.

Lemma dv_cmp_ok a b : words a -> words b -> length a = length b -> dv_cmp a b = (val a ?= val b).
Proof. exact (scalar_cmp_ok a b). Qed.
Lemma div_qhat_ok bl bt t2 : word bl -> word bt -> words t2 -> length t2 = 3%nat ->
  forall fuel q, word q -> (q - Z.of_nat fuel + 1) * (bl + W * bt) <= val t2 -> (0 < fuel)%nat ->
  exists q', div_qhat fuel [bl; bt] t2 q = Some q' /\ 0 <= q' <= q /\ q' * (bl + W * bt) <= val t2 /\
    (q' = q \/ val t2 < (q' + 1) * (bl + W * bt)).
Proof.
  intros Hbl Hbt Ht L fuel. pose proof (val_nonneg t2 Ht) as T0.
  assert (B0 : 0 <= bl + W * bt) by (unfold word in *; pose proof W_pos; nia).
  assert (VB : val [bl; bt] = bl + W * bt) by (cbn [val]; ring).
  induction fuel as [|fuel IH]; intros q Hq HF F0; [lia|]. cbn [div_qhat].
  unfold bn_mul1_low. destruct (mul1_loop_ok q Hq [bl; bt] 0 ltac:(repeat (constructor; [assumption|]); constructor) word0) as (l & c & -> & Hl & Ll & Hc & V).
  rewrite dv_cmp_ok; auto.
  2:{ apply words_app. split; [auto|constructor; [auto|constructor]]. }
  2:{ rewrite app_length, Ll. cbn. auto. }
  rewrite val_app, Ll. replace (val l + W ^ Z.of_nat (length [bl; bt]) * val [c]) with ((bl + W * bt) * q).
  2:{ cbn [val]. rewrite Z.mul_0_r, Z.add_0_r. rewrite <- VB. lia. }
  destruct (Z.compare_spec ((bl + W * bt) * q) (val t2)) as [E|E|E].
  - exists q. split; [reflexivity|]. unfold word in Hq. split; [lia|]. split; [lia|auto].
  - exists q. split; [reflexivity|]. unfold word in Hq. split; [lia|]. split; [lia|auto].
  - assert (q <> 0) by (intros ->; lia). unfold word in Hq.
    destruct (IH (q - 1)) as (q' & -> & Bq & H1 & H2).
    + unfold word. lia.
    + replace (q - 1 - Z.of_nat fuel + 1) with (q - Z.of_nat (S fuel) + 1) by lia. auto.
    + destruct fuel; [|lia]. exfalso. replace (q - Z.of_nat 1 + 1) with q in HF by lia. lia.
    + exists q'. split; [reflexivity|]. split; [lia|]. split; [auto|]. right. destruct H2 as [->|H2]; [|auto].
      replace (q - 1 + 1) with q by lia. lia.
Qed.
(** the digit estimate: q true digit, q' the estimate *)
Lemma qhat_bound R b P t i k q' b2 A3 : 0 <= R -> i = t + 1 + k -> 0 <= t -> 0 <= k -> P = W ^ t -> P <= b ->
  b2 = b * W / P -> A3 = R * (W * W) / W ^ i -> 0 <= q' < W -> q' * b2 <= A3 -> q' * (b * W ^ k) < R + b * W ^ k.
Proof.
  intros HR -> Ht Hk HP Hb -> -> Hq H.
  assert (P0 : 0 < P) by (subst P; apply Z.pow_pos_nonneg; [reflexivity|auto]).
  assert (K0 : 0 < W ^ k) by (apply Z.pow_pos_nonneg; [reflexivity|auto]).
  assert (EI : W ^ (t + 1 + k) = P * W * W ^ k) by (subst P; rewrite !Z.pow_add_r, Z.pow_1_r by lia; ring).
  rewrite EI in *. set (K := W ^ k) in *. clearbody K. clear HP EI.
  pose proof W_pos as W0.
  pose proof (Z.mul_div_le (R * (W * W)) (P * W * K) ltac:(nia)) as D1.
  pose proof (Z.mod_pos_bound (b * W) P P0) as D2. pose proof (Z_div_mod_eq_full (b * W) P) as D3.
  set (A := R * (W * W) / (P * W * K)) in *. set (B := b * W / P) in *.
  (* q' B P W K <= R W W *)
  assert (E1 : (P * W * K) * (q' * B) <= R * (W * W)).
  { eapply Z.le_trans; [|exact D1]. apply Z.mul_le_mono_nonneg_l; [|exact H]. apply Z.mul_nonneg_nonneg; [apply Z.mul_nonneg_nonneg|]; lia. }
  assert (E2 : b * W <= (B + 1) * P) by lia.
  (* q' b W (W K) <= q' (B+1) P W K = q' B P W K + q' P W K <= R W W + q' P W K *)
  assert (E3 : q' * (b * W) * (W * K) <= q' * ((B + 1) * P) * (W * K)).
  { apply Z.mul_le_mono_nonneg_r; [nia|]. apply Z.mul_le_mono_nonneg_l; lia. }
  assert (E4 : q' * P * (W * K) < W * b * (W * K)).
  { apply Z.mul_lt_mono_pos_r; [nia|]. apply Z.le_lt_trans with (q' * b); [apply Z.mul_le_mono_nonneg_l; lia|]. apply Z.mul_lt_mono_pos_r; lia. }
  assert (E5 : W * W * (q' * (b * K)) < W * W * (R + b * K)) by lia.
  apply Z.mul_lt_mono_pos_l in E5; [auto|lia].
Qed.
Lemma qhat_lower R b P t i k q b2 A3 : 0 <= R -> i = t + 1 + k -> 0 <= t -> 0 <= k -> P = W ^ t -> 0 <= b -> 0 <= q ->
  b2 = b * W / P -> A3 = R * (W * W) / W ^ i -> q * (b * W ^ k) <= R -> q * b2 <= A3.
Proof.
  intros HR -> Ht Hk HP Hb Hq0 -> -> H.
  assert (P0 : 0 < P) by (subst P; apply Z.pow_pos_nonneg; [reflexivity|auto]).
  assert (K0 : 0 < W ^ k) by (apply Z.pow_pos_nonneg; [reflexivity|auto]).
  assert (EI : W ^ (t + 1 + k) = P * W * W ^ k) by (subst P; rewrite !Z.pow_add_r, Z.pow_1_r by lia; ring).
  rewrite EI in *. set (K := W ^ k) in *. clearbody K. clear HP EI. pose proof W_pos as W0.
  apply Z.div_le_lower_bound; [nia|].
  pose proof (Z.mul_div_le (b * W) P P0) as D. set (B := b * W / P) in *.
  assert (E1 : q * (P * B) * (W * K) <= q * (b * W) * (W * K)).
  { apply Z.mul_le_mono_nonneg_r; [nia|]. apply Z.mul_le_mono_nonneg_l; lia. }
  assert (E2 : q * (b * K) * (W * W) <= R * (W * W)) by (apply Z.mul_le_mono_nonneg_r; [nia|lia]). lia.
Qed.
Lemma mask64 : RLC_MASK 64 = W - 1. Proof. reflexivity. Qed.
Lemma limb_top a i : words a -> val a < W ^ Z.of_nat (S i) -> limb a i = val a / W ^ Z.of_nat i.
Proof.
  intros H B. rewrite limb_div by auto. pose proof (val_nonneg a H). pose proof (Wpow_pos i). apply Z.mod_small.
  split; [apply Z.div_pos; lia|]. apply Z.div_lt_upper_bound; [auto|]. rewrite pow_S in B. lia.
Qed.
(** limbs i, i-1 (and i-2) from the top, scaled so that missing limbs read 0 *)
Lemma div_pow_step v i : 0 <= v -> v / W ^ Z.of_nat i = W * (v / W ^ Z.of_nat (S i)) + (v / W ^ Z.of_nat i) mod W.
Proof.
  intros Hv. replace (W ^ Z.of_nat (S i)) with (W ^ Z.of_nat i * W) by (rewrite pow_S; ring). rewrite <- Z.div_div by (pose proof (Wpow_pos i); pose proof W_pos; lia).
  apply Z_div_mod_eq_full.
Qed.
Lemma two_limbs b t : words b -> val b < W ^ Z.of_nat (S t) ->
  (if Nat.eqb t 0 then 0 else limb b (t - 1)) + W * limb b t = val b * W / W ^ Z.of_nat t.
Proof.
  intros H B. rewrite (limb_top b t H B). destruct t as [|t]; cbn [Nat.eqb].
  - change (W ^ Z.of_nat 0) with 1. rewrite !Z.div_1_r. ring.
  - replace (S t - 1)%nat with t by lia. rewrite (limb_div b t H).
    replace (val b * W / W ^ Z.of_nat (S t)) with (val b / W ^ Z.of_nat t).
    + pose proof (div_pow_step (val b) t (val_nonneg b H)). lia.
    + replace (W ^ Z.of_nat (S t)) with (W ^ Z.of_nat t * W) by (rewrite pow_S; ring). symmetry. apply Z.div_mul_cancel_r; [pose proof (Wpow_pos t); lia|discriminate].
Qed.
Lemma top_two a i : words a -> (1 <= i)%nat -> val a < W ^ Z.of_nat (S i) ->
  limb a i * W + limb a (i - 1) = val a / W ^ Z.of_nat (i - 1).
Proof.
  intros H Hi B. rewrite (limb_top a i H B), (limb_div a (i - 1) H).
  pose proof (div_pow_step (val a) (i - 1) (val_nonneg a H)) as D. replace (S (i - 1)) with i in D by lia. lia.
Qed.
Lemma three_limbs a i : words a -> (1 <= i)%nat -> val a < W ^ Z.of_nat (S i) ->
  val [if Nat.ltb i 2 then 0 else limb a (i - 2); limb a (i - 1); limb a i] = val a * (W * W) / W ^ Z.of_nat i.
Proof.
  intros H Hi B. pose proof (top_two a i H Hi B) as T. cbn [val].
  replace (limb a (i - 1) + W * (limb a i + W * 0)) with (val a / W ^ Z.of_nat (i - 1)) by lia.
  destruct (Nat.ltb_spec i 2).
  - assert (i = 1%nat) by lia. subst i. change (W ^ Z.of_nat (1 - 1)) with 1. rewrite Z.div_1_r.
    change (W ^ Z.of_nat 1) with W. rewrite Z.mul_assoc, Z.div_mul by discriminate. ring.
  - destruct i as [|[|i]]; try lia. replace (S (S i) - 1)%nat with (S i) by lia. replace (S (S i) - 2)%nat with i by lia.
    rewrite (limb_div a i H). pose proof (div_pow_step (val a) i (val_nonneg a H)).
    replace (val a * (W * W) / W ^ Z.of_nat (S (S i))) with (val a / W ^ Z.of_nat i); [lia|].
    rewrite !pow_S. replace (W * (W * W ^ Z.of_nat i)) with (W ^ Z.of_nat i * (W * W)) by ring.
    symmetry. apply Z.div_mul_cancel_r; [pose proof (Wpow_pos i); lia|discriminate].
Qed.
Lemma est_pos q b2 r s : 0 <= b2 -> 0 <= r -> 0 <= s -> q <= 7 -> (q - 8 + 1) * b2 <= r + s.
Proof. intros. assert ((q - 8 + 1) * b2 <= 0) by (apply Z.mul_nonpos_nonneg; lia). lia. Qed.
Lemma est_fuel q bl bt x u v : 0 <= bl < W -> 4611686018427387904 <= bt -> 0 <= x -> 7 < q < W -> q * bt <= u * W + v ->
  (q - 8 + 1) * (bl + W * bt) <= x + W * (u * W + v).
Proof.
  intros. assert (W62 : W = 4 * 4611686018427387904) by reflexivity.
  assert ((q - 8 + 1) * bl <= W * W) by (apply Z.mul_le_mono_nonneg; lia).
  assert (W * (q * bt) <= W * (u * W + v)) by (apply Z.mul_le_mono_nonneg_l; lia).
  assert (W * W <= W * (7 * bt)) by (apply Z.mul_le_mono_nonneg_l; lia). lia.
Qed.
Lemma est_eq u v t : u = t -> 0 <= t < W -> 0 <= v -> (W - 1) * t <= u * W + v.
Proof. intros. subst. lia. Qed.
Lemma est_lt u v t : u < t -> 0 <= v < W -> 0 <= t -> u * W + v < t * W.
Proof. intros. assert ((u + 1) * W <= t * W) by (apply Z.mul_le_mono_nonneg_r; [pose proof W_pos|]; lia). lia. Qed.
Lemma est_nn u v : 0 <= u -> 0 <= v -> 0 <= u * W + v.
Proof. intros. assert (0 <= u * W) by (apply Z.mul_nonneg_nonneg; [auto|]; pose proof W_pos; lia). lia. Qed.
Lemma digit_estimate a b t k i : words a -> words b -> length b = S t -> 4611686018427387904 <= limb b t ->
  i = (t + 1 + k)%nat -> val a < val b * W ^ Z.of_nat (S k) ->
  exists q', div_qhat 8 [if Nat.eqb t 0 then 0 else limb b (t - 1); limb b t]
      [if Nat.ltb i 2 then 0 else limb a (i - 2); limb a (i - 1); limb a i]
      (if limb a i =? limb b t then RLC_MASK 64 else (limb a i * W + limb a (i - 1)) / limb b t) = Some q' /\
    word q' /\ q' * (val b * W ^ Z.of_nat k) < val a + val b * W ^ Z.of_nat k /\ val a < (q' + 1) * (val b * W ^ Z.of_nat k).
Proof.
  intros Ha Hb Lb Hn Hi HR.
  pose proof (val_nonneg a Ha) as A0. pose proof (val_bound b Hb) as [B0 B1]. rewrite Lb in B1.
  pose proof W_pos as W0. pose proof (Wpow_pos k) as K0. pose proof (Wpow_pos t) as T0.
  assert (RA : val a < W ^ Z.of_nat (S i)).
  { eapply Z.lt_le_trans; [exact HR|].
    replace (W ^ Z.of_nat (S i)) with (W ^ Z.of_nat (S t) * W ^ Z.of_nat (S k)) by (rewrite <- Z.pow_add_r by lia; f_equal; lia).
    apply Z.mul_le_mono_nonneg_r; [|lia]. pose proof (Wpow_pos (S k)). lia. }
  assert (I1 : (1 <= i)%nat) by lia.
  pose proof (limb_top b t Hb B1) as Bt. pose proof (limb_top a i Ha RA) as Ai.
  pose proof (top_two a i Ha I1 RA) as A2. pose proof (three_limbs a i Ha I1 RA) as A3. pose proof (two_limbs b t Hb B1) as B2.
  set (x := if Nat.ltb i 2 then 0 else limb a (i - 2)) in *. set (bl := if Nat.eqb t 0 then 0 else limb b (t - 1)) in *.
  assert (Hx : word x) by (unfold x; destruct (Nat.ltb i 2); [apply word0|apply limb_word, Ha]).
  assert (Hbl : word bl) by (unfold bl; destruct (Nat.eqb t 0); [apply word0|apply limb_word, Hb]).
  pose proof (limb_word b t Hb) as Hbt. pose proof (limb_word a i Ha) as Hai. pose proof (limb_word a (i - 1) Ha) as Hai1.
  assert (TB : W ^ Z.of_nat t * limb b t <= val b) by (rewrite Bt; apply Z.mul_div_le; auto).
  assert (TB1 : W ^ Z.of_nat t <= val b) by (eapply Z.le_trans; [|exact TB]; rewrite <- (Z.mul_1_r (W ^ Z.of_nat t)) at 1; apply Z.mul_le_mono_nonneg_l; lia).
  assert (BPos : 0 < val b) by lia.
  (* the top digit of a does not exceed that of b *)
  assert (TOP : limb a i <= limb b t).
  { rewrite Ai, Bt. replace (W ^ Z.of_nat i) with (W ^ Z.of_nat t * W ^ Z.of_nat (S k)) by (rewrite <- Z.pow_add_r by lia; f_equal; lia).
    replace (val b / W ^ Z.of_nat t) with (val b * W ^ Z.of_nat (S k) / (W ^ Z.of_nat t * W ^ Z.of_nat (S k))).
    - apply Z.div_le_mono; [apply Z.mul_pos_pos; apply Wpow_pos|lia].
    - apply Z.div_mul_cancel_r; [lia|pose proof (Wpow_pos (S k)); lia]. }
  set (q := val a / (val b * W ^ Z.of_nat k)).
  assert (BK : 0 < val b * W ^ Z.of_nat k) by (apply Z.mul_pos_pos; lia).
  assert (Q0 : 0 <= q) by (apply Z.div_pos; lia).
  assert (Q1 : q * (val b * W ^ Z.of_nat k) <= val a) by (unfold q; rewrite Z.mul_comm; apply Z.mul_div_le; auto).
  assert (QW : q < W) by (apply Z.div_lt_upper_bound; [auto|]; rewrite pow_S in HR; lia).
  set (q0 := if limb a i =? limb b t then RLC_MASK 64 else (limb a i * W + limb a (i - 1)) / limb b t) in *.
  assert (BT0 : 0 < limb b t) by lia.
  assert (F0 : word q0 /\ q0 * limb b t <= limb a i * W + limb a (i - 1) /\ q <= q0).
  { unfold q0. destruct (Z.eqb_spec (limb a i) (limb b t)) as [E|E].
    - rewrite mask64. unfold word in *. split; [lia|]. split; [|lia]. apply est_eq; lia.
    - unfold word in *. split; [|split].
      + split; [apply Z.div_pos; [apply est_nn; lia|auto]|]. apply Z.div_lt_upper_bound; [auto|]. apply est_lt; lia.
      + rewrite Z.mul_comm. apply Z.mul_div_le; auto.
      + apply Z.div_le_lower_bound; [auto|]. rewrite A2.
        apply Z.div_le_lower_bound; [apply Wpow_pos|].
        replace (i - 1)%nat with (t + k)%nat by lia. rewrite Nat2Z.inj_add, Z.pow_add_r by lia.
        eapply Z.le_trans; [|exact Q1].
        replace (W ^ Z.of_nat t * W ^ Z.of_nat k * (limb b t * q)) with (q * (W ^ Z.of_nat t * limb b t * W ^ Z.of_nat k)) by ring.
        apply Z.mul_le_mono_nonneg_l; [auto|]. apply Z.mul_le_mono_nonneg_r; lia. }
  destruct F0 as (F0 & F1 & F2). clearbody q0.
  assert (HA3 : val [x; limb a (i - 1); limb a i] = x + W * (limb a i * W + limb a (i - 1))) by (cbn [val]; ring).
  assert (W62 : W = 4 * 4611686018427387904) by reflexivity.
  destruct (div_qhat_ok bl (limb b t) [x; limb a (i - 1); limb a i] Hbl Hbt) with (fuel := 8%nat) (q := q0) as (q' & E & Bq & H1 & H2); auto.
  { repeat (constructor; [assumption|]). constructor. }
  { rewrite HA3. change (Z.of_nat 8) with 8. destruct (Z.le_gt_cases q0 7).
    - unfold word in *. apply est_pos; [|lia| |auto].
      + assert (0 <= W * limb b t) by (apply Z.mul_nonneg_nonneg; lia). lia.
      + apply Z.mul_nonneg_nonneg; [lia|]. apply est_nn; lia.
    - unfold word in *. apply est_fuel; auto; lia. }
  { lia. }
  exists q'. split; [exact E|]. split; [unfold word in *; lia|].
  assert (KEY : q <= q').
  { destruct H2 as [->|H2]; [auto|].
    pose proof (qhat_lower (val a) (val b) (W ^ Z.of_nat t) (Z.of_nat t) (Z.of_nat i) (Z.of_nat k) q _ _ A0 ltac:(lia) ltac:(lia) ltac:(lia) eq_refl ltac:(lia) Q0 eq_refl eq_refl Q1) as X.
    rewrite <- A3, <- B2 in X. assert (Y : q * (bl + W * limb b t) < (q' + 1) * (bl + W * limb b t)) by lia.
    apply Z.mul_lt_mono_pos_r in Y; [lia|]. unfold word in *. assert (0 < W * limb b t) by (apply Z.mul_pos_pos; lia). lia. }
  split.
  - refine (qhat_bound (val a) (val b) (W ^ Z.of_nat t) (Z.of_nat t) (Z.of_nat i) (Z.of_nat k) q' _ _ A0 ltac:(lia) ltac:(lia) ltac:(lia) eq_refl TB1 eq_refl eq_refl ltac:(unfold word in *; lia) _).
    rewrite <- A3, <- B2. exact H1.
  - apply Z.lt_le_trans with ((q + 1) * (val b * W ^ Z.of_nat k)).
    + unfold q. pose proof (Z.mul_succ_div_gt (val a) (val b * W ^ Z.of_nat k) BK). lia.
    + apply Z.mul_le_mono_nonneg_r; lia.
Qed.
Lemma div_step_ok cap a b t k i : words a -> words b -> length b = S t -> 4611686018427387904 <= limb b t ->
  i = (t + 1 + k)%nat -> (i < length a)%nat -> (S (length b) <= cap)%nat -> val a < val b * W ^ Z.of_nat (S k) ->
  exists a' q, div_step cap i a b = Ok (a', q) /\ words a' /\ length a' = length a /\ word q /\
    val a = q * (val b * W ^ Z.of_nat k) + val a' /\ val a' < val b * W ^ Z.of_nat k.
Proof.
  intros Ha Hb Lb Hn Hi La Hcap HR. destruct (digit_estimate a b t k i Ha Hb Lb Hn Hi HR) as (q & E & Hq & Q1 & Q2).
  unfold div_step. rewrite Lb. replace (S t - 1)%nat with t by lia. rewrite E.
  unfold bn_mul1_low. destruct (mul1_loop_ok q Hq b 0 Hb word0) as (d0 & c & -> & Hd0 & Ld0 & Hc & Vd0).
  replace (i - t - 1)%nat with k by lia.
  pose proof (val_nonneg a Ha) as A0. pose proof (val_nonneg b Hb) as B0.
  pose proof W_pos as W0. pose proof (Wpow_pos k) as K0.
  assert (D : exists d, (if c =? 0 then d0 else d0 ++ [c]) = d /\ words d /\ val d = val b * q /\ (length b <= length d <= S (length b))%nat).
  { destruct (Z.eqb_spec c 0) as [->|N].
    - exists d0. repeat split; auto; lia.
    - exists (d0 ++ [c]). split; [reflexivity|]. split; [apply words_app; split; [auto|constructor; [auto|constructor]]|].
      split; [rewrite val_app, Ld0; cbn [val]; lia|]. rewrite app_length. cbn. lia. }
  destruct D as (d & -> & Hd & Vd & Ld). clear Hd0 Ld0 Vd0 d0 Hc c.
  assert (G1 : Nat.leb (length d) cap = true) by (apply Nat.leb_le; lia).
  assert (G2 : Nat.leb (k + length d) (length a) = true) by (apply Nat.leb_le; lia). rewrite G1, G2. cbn [andb negb].
  apply Nat.leb_le in G2.
  unfold bn_subn_low. destruct (subn_loop_ok (win a k (length d)) d 0 (win_words _ _ _ Ha) Hd ltac:(apply win_length; auto) ltac:(left; reflexivity))
    as (w & cy & -> & Hw & Lw & Hcy & Vw).
  rewrite win_length in Lw, Vw by auto.
  set (a1 := splice a k w).
  assert (L1 : length a1 = length a) by (apply splice_length; lia).
  assert (H1 : words a1) by (apply splice_words; auto).
  assert (V1 : val a1 = val a - q * (val b * W ^ Z.of_nat k) + cy * W ^ Z.of_nat (k + length d)).
  { unfold a1. rewrite splice_val by lia. rewrite Lw. replace (val w - val (win a k (length d))) with (W ^ Z.of_nat (length d) * cy - val d) by lia.
    rewrite Vd, Nat2Z.inj_add, Z.pow_add_r by lia. ring. }
  assert (S2 : exists a2 c2, (if Nat.ltb (length d + k) (length a)
     then let (w0, carry0) := bn_sub1_low (win a1 (length d + k) (length a - (length d + k))) cy in (splice a1 (length d + k) w0, carry0)
     else (a1, cy)) = (a2, c2) /\ words a2 /\ length a2 = length a /\ bit c2 /\ val a2 = val a - q * (val b * W ^ Z.of_nat k) + c2 * W ^ Z.of_nat (length a)).
  { destruct (Nat.ltb_spec (length d + k) (length a)) as [LT|GE].
    - destruct (sub1_ok (win a1 (length d + k) (length a - (length d + k))) cy (win_words _ _ _ H1) Hcy) as (w0 & c0 & -> & Hw0 & Lw0 & Hc0 & Vw0).
      rewrite win_length in Lw0, Vw0 by lia.
      exists (splice a1 (length d + k) w0), c0. split; [reflexivity|]. split; [apply splice_words; auto|]. split; [rewrite splice_length; lia|]. split; [auto|].
      rewrite splice_val by lia. rewrite Lw0, V1.
      replace (val w0 - val (win a1 (length d + k) (length a - (length d + k)))) with (W ^ Z.of_nat (length a - (length d + k)) * c0 - cy) by lia.
      replace (W ^ Z.of_nat (length a)) with (W ^ Z.of_nat (length a - (length d + k)) * W ^ Z.of_nat (length d + k)) by (rewrite <- Z.pow_add_r by lia; f_equal; lia).
      rewrite (Nat.add_comm k). ring.
    - exists a1, cy. split; [reflexivity|]. split; [auto|]. split; [auto|]. split; [auto|]. rewrite V1.
      replace (k + length d)%nat with (length a) by lia. reflexivity. }
  destruct S2 as (a2 & c2 & -> & H2 & L2 & Hc2 & V2).
  pose proof (val_bound a2 H2) as B2. rewrite L2 in B2. pose proof (Wpow_pos (length a)) as PA.
  destruct Hc2; subst c2; cbn [Z.eqb].
  - exists a2, q. split; [reflexivity|]. split; [auto|]. split; [auto|]. split; [auto|]. split; [lia|]. lia.
  - unfold bn_addn_low.
    destruct (addn_loop_ok (win a2 k (S t)) b 0 (win_words _ _ _ H2) Hb ltac:(rewrite win_length; lia) ltac:(left; reflexivity)) as (w3 & c3 & -> & Hw3 & Lw3 & Hc3 & Vw3).
    rewrite win_length in Lw3, Vw3 by lia.
    set (a3 := splice a2 k w3).
    assert (L3 : length a3 = length a) by (unfold a3; rewrite splice_length; lia).
    assert (H3 : words a3) by (apply splice_words; auto).
    assert (V3 : val a3 = val a2 + val b * W ^ Z.of_nat k - c3 * W ^ Z.of_nat (S t + k)).
    { unfold a3. rewrite splice_val by lia. rewrite Lw3. replace (val w3 - val (win a2 k (S t))) with (val b - W ^ Z.of_nat (S t) * c3) by lia.
      rewrite Nat2Z.inj_add, Z.pow_add_r by lia. ring. }
    destruct (add1_ok (win a3 (S t + k) (length a - (S t + k))) c3 (win_words _ _ _ H3) Hc3) as (w4 & c4 & -> & Hw4 & Lw4 & Hc4 & Vw4).
    rewrite win_length in Lw4, Vw4 by lia.
    assert (L4 : length (splice a3 (S t + k) w4) = length a) by (rewrite splice_length; lia).
    assert (H4 : words (splice a3 (S t + k) w4)) by (apply splice_words; auto).
    assert (V4 : val (splice a3 (S t + k) w4) = val a - (q - 1) * (val b * W ^ Z.of_nat k) + (1 - c4) * W ^ Z.of_nat (length a)).
    { rewrite splice_val by lia. rewrite Lw4, V3, V2.
      replace (val w4 - val (win a3 (S t + k) (length a - (S t + k)))) with (c3 - W ^ Z.of_nat (length a - (S t + k)) * c4) by lia.
      replace (W ^ Z.of_nat (length a)) with (W ^ Z.of_nat (length a - (S t + k)) * W ^ Z.of_nat (S t + k)) by (rewrite <- Z.pow_add_r by lia; f_equal; lia).
      ring. }
    pose proof (val_bound _ H4) as B4. rewrite L4 in B4. pose proof (val_bound a Ha) as BA.
    set (BK := val b * W ^ Z.of_nat k) in *. set (a4 := splice a3 (S t + k) w4) in *.
    assert (NEG : val a < q * BK) by lia.
    assert (q <> 0) by (intros ->; lia).
    assert (c4 = 1). { destruct Hc4; [|auto]. subst c4. exfalso. rewrite Z.sub_0_r, Z.mul_1_l in V4.
      assert (val a - (q - 1) * BK < 0) by lia. lia. }
    subst c4. exists a4, (q - 1). split; [reflexivity|]. split; [auto|]. split; [auto|]. split; [unfold word in *; lia|]. split; lia.
Qed.
Lemma div_loop_ok cap b t : words b -> length b = S t -> 4611686018427387904 <= limb b t -> (S (length b) <= cap)%nat ->
  forall m a c, words a -> words c -> (S (t + m) <= length a)%nat -> (m <= length c)%nat -> (forall j, (j < m)%nat -> limb c j = 0) ->
  val a < val b * W ^ Z.of_nat m ->
  exists a' c', div_loop cap m a b c = Ok (a', c') /\ words a' /\ words c' /\ length a' = length a /\ length c' = length c /\
    val a' < val b /\ val c' * val b + val a' = val c * val b + val a.
Proof.
  intros Hb Lb Hn Hcap. induction m as [|m IH]; intros a c Ha Hc La Lc Z0 HR.
  - exists a, c. cbn [div_loop]. change (W ^ Z.of_nat 0) with 1 in HR. repeat split; auto; lia.
  - cbn [div_loop]. rewrite Lb. replace (S t - 1 + S m)%nat with (t + 1 + m)%nat by lia.
    destruct (div_step_ok cap a b t m (t + 1 + m) Ha Hb Lb Hn eq_refl ltac:(lia) Hcap HR) as (a1 & q & -> & H1 & L1 & Hq & V1 & B1).
    destruct (IH a1 (set_nth c m q)) as (a2 & c2 & E & H2 & Hc2 & L2 & Lc2 & B2 & V2); auto.
    + apply set_nth_words; auto.
    + lia.
    + rewrite set_nth_length. lia.
    + intros j Hj. rewrite set_nth_limb by lia. destruct (Nat.eqb_spec m j); [lia|]. apply Z0. lia.
    + exists a2, c2. split; [exact E|]. split; [auto|]. split; [auto|]. split; [lia|]. split; [rewrite set_nth_length in Lc2; lia|]. split; [auto|].
      rewrite V2, set_nth_val, (Z0 m) by lia. rewrite V1. ring.
Qed.
Lemma div_top_ok bs : words bs -> forall fuel a c, words a -> length a = length bs -> val a < Z.of_nat fuel * val bs -> 0 <= c -> c + Z.of_nat fuel <= W ->
  exists a' q, div_top fuel a bs c = Some (a', q) /\ words a' /\ length a' = length a /\ val a' < val bs /\ c <= q < c + Z.of_nat fuel /\ val a = (q - c) * val bs + val a'.
Proof.
  intros Hbs. induction fuel as [|fuel IH]; intros a c Ha La B C0 C1.
  - pose proof (val_nonneg a Ha). lia.
  - cbn [div_top]. rewrite dv_cmp_ok by auto. 
    assert (STEP : val bs <= val a -> exists a' q, div_top fuel (fst (bn_subn_low a bs)) bs ((c + 1) mod W) = Some (a', q) /\ words a' /\ length a' = length a /\ val a' < val bs /\ c <= q < c + Z.of_nat (S fuel) /\ val a = (q - c) * val bs + val a').
    { intros GE. unfold bn_subn_low. destruct (subn_loop_ok a bs 0 Ha Hbs La ltac:(left; reflexivity)) as (l & cy & -> & Hl & Ll & Hcy & V). cbn [fst].
      pose proof (val_bound l Hl) as Bl. rewrite Ll in Bl. pose proof (val_bound a Ha).
      assert (cy = 0) by (destruct Hcy; subst cy; [reflexivity|lia]). subst cy.
      assert (0 < fuel)%nat. { destruct fuel; [|lia]. change (Z.of_nat 1) with 1 in B. lia. }
      rewrite Z.mod_small by lia.
      destruct (IH l (c + 1)) as (a2 & q & E & H2 & L2 & B2 & Q2 & V2); auto; try lia.
      exists a2, q. split; [exact E|]. split; [auto|]. split; [lia|]. split; [auto|]. split; [lia|]. lia. }
    destruct (Z.compare_spec (val a) (val bs)) as [E|E|E].
    + apply STEP. lia.
    + exists a, c. split; [reflexivity|]. split; [auto|]. split; [auto|]. split; [auto|]. split; [lia|]. lia.
    + apply STEP. lia.
Qed.
Lemma rshb_0 a : words a -> fst (bn_rshb_low a 0) = a /\ snd (bn_rshb_low a 0) = 0.
Proof.
  induction a as [|x a IH]; intros H; [split; reflexivity|]. inversion H as [|? ? Hx Ha]; subst. destruct (IH Ha) as [E1 E2].
  cbn [bn_rshb_low]. destruct (bn_rshb_low a 0) as [l cy]. cbn [fst snd] in *. subst l cy. split.
  - f_equal. rewrite Z.shiftr_0_r, Z.shiftl_0_l, Z.mod_0_l by discriminate. apply Z.lor_0_r.
  - change (RLC_MASK 0) with 0. apply Z.land_0_r.
Qed.
Lemma val_repeat0 n : val (repeat 0 n) = 0.
Proof. induction n; cbn [repeat val]; lia. Qed.
Lemma limb_repeat0 n j : limb (repeat 0 n) j = 0.
Proof. unfold limb. revert j. induction n; intros [|j]; cbn; auto. Qed.
Lemma val_firstn_small a n : words a -> val a < W ^ Z.of_nat n -> val (firstn n a) = val a.
Proof.
  intros H B. destruct (Nat.le_gt_cases (length a) n) as [L|L]; [rewrite firstn_all2; auto|].
  pose proof (val_nonneg _ (words_skipn n a H)) as S0. pose proof (val_nonneg _ (words_firstn n a H)) as F0. pose proof (Wpow_pos n) as P.
  assert (V : val a = val (firstn n a) + W ^ Z.of_nat n * val (skipn n a)).
  { rewrite <- (firstn_skipn n a) at 1. rewrite val_app, firstn_length, Nat.min_l by lia. ring. }
  rewrite V in B. rewrite V. destruct (Z.eq_dec (val (skipn n a)) 0) as [->|N]; [lia|].
  assert (W ^ Z.of_nat n * 1 <= W ^ Z.of_nat n * val (skipn n a)) by (apply Z.mul_le_mono_nonneg_l; lia). lia.
Qed.
(** the body after normalisation *)
Lemma div_core cap c a b t s : words a -> words b -> length b = S t -> 4611686018427387904 <= limb b t -> (S t <= length a)%nat ->
  (S (length b) <= cap)%nat -> c = repeat 0 cap -> (length a <= cap)%nat -> 0 <= s < 64 -> (2 ^ s | val a) -> (2 ^ s | val b) ->
  exists q r, match div_top 8 a (dv_lshd b (length a - 1 - t)) (limb c (length a - 1 - t)) with
      | None => Throw
      | Some (a, q) =>
          match div_loop cap (length a - 1 - t) a (dv_rshd (dv_lshd b (length a - 1 - t)) (length a - 1 - t)) (set_nth c (length a - 1 - t) q) with
          | Ok (a, c) => Ok (c, fst (bn_rshb_low (firstn (length b) a) s))
          | Throw => Throw
          | OutOfBounds => OutOfBounds
          end
      end = Ok (q, r) /\ words q /\ words r /\ length q = cap /\ length r = length b /\
      val a = val q * val b + 2 ^ s * val r /\ 2 ^ s * val r < val b.
Proof.
  intros Ha Hb Lb Hn La Hcap -> Lcap Hs Da Db. set (m := (length a - 1 - t)%nat).
  pose proof (val_bound b Hb) as [B0 B1]. rewrite Lb in B1. pose proof (Wpow_pos m) as M0. pose proof (Wpow_pos t) as T0.
  pose proof (limb_top b t Hb B1) as BT.
  assert (TB : W ^ Z.of_nat t * limb b t <= val b) by (rewrite BT; apply Z.mul_div_le; auto).
  assert (Hbs : words (dv_lshd b m)) by (unfold dv_lshd; apply words_app; split; [apply words_repeat0|auto]).
  assert (Vbs : val (dv_lshd b m) = val b * W ^ Z.of_nat m) by (unfold dv_lshd; rewrite val_app, val_repeat0, repeat_length; ring).
  assert (Lbs : length a = length (dv_lshd b m)) by (unfold dv_lshd; rewrite app_length, repeat_length; lia).
  rewrite limb_repeat0.
  destruct (div_top_ok (dv_lshd b m) Hbs 8 a 0 Ha Lbs) as (a1 & q1 & -> & H1 & L1 & V1 & Q1 & E1).
  { pose proof (val_bound a Ha) as [_ A1]. rewrite Vbs. eapply Z.lt_le_trans; [exact A1|].
    replace (length a) with (S (t + m))%nat by (clear - La m; lia). rewrite pow_S, Nat2Z.inj_add, Z.pow_add_r by apply Nat2Z.is_nonneg. clear - TB M0 T0 Hn.
    assert (W * (W ^ Z.of_nat t * W ^ Z.of_nat m) <= 8 * (W ^ Z.of_nat t * limb b t * W ^ Z.of_nat m)); [|
      assert (W ^ Z.of_nat t * limb b t * W ^ Z.of_nat m <= val b * W ^ Z.of_nat m) by (apply Z.mul_le_mono_nonneg_r; lia);
      change (Z.of_nat 8) with 8; lia].
    assert (0 < W ^ Z.of_nat t * W ^ Z.of_nat m) by (apply Z.mul_pos_pos; auto).
    replace (8 * (W ^ Z.of_nat t * limb b t * W ^ Z.of_nat m)) with (8 * limb b t * (W ^ Z.of_nat t * W ^ Z.of_nat m)) by ring.
    apply Z.mul_le_mono_nonneg_r; [lia|]. assert (W = 4 * 4611686018427387904) by reflexivity. clear - Hn H0. lia. }
  { lia. }
  { discriminate. }
  rewrite Vbs in *. rewrite L1. fold m. unfold dv_rshd, dv_lshd at 1. rewrite skipn_app, repeat_length, Nat.sub_diag. 
  rewrite (skipn_all2 (repeat 0 m)) by (rewrite repeat_length; lia). cbn [skipn app].
  assert (Wq1 : word q1) by (unfold word; change (Z.of_nat 8) with 8 in Q1; assert (8 < W) by reflexivity; lia).
  destruct (div_loop_ok cap b t Hb Lb Hn Hcap m a1 (set_nth (repeat 0 cap) m q1)) as (a2 & c2 & -> & H2 & Hc2 & L2 & Lc2 & B2 & V2); auto.
  { apply set_nth_words; [apply words_repeat0|auto]. }
  { lia. }
  { rewrite set_nth_length, repeat_length. lia. }
  { intros j Hj. rewrite set_nth_limb by (rewrite repeat_length; lia). destruct (Nat.eqb_spec m j); [lia|]. apply limb_repeat0. }
  rewrite set_nth_length, repeat_length in Lc2.
  rewrite set_nth_val, val_repeat0, limb_repeat0 in V2 by (rewrite repeat_length; lia).
  assert (FV : val (firstn (length b) a2) = val a2).
  { apply val_firstn_small; [auto|]. pose proof (val_bound b Hb) as [_ BB]. clear - BB B2. lia. }
  assert (FW : words (firstn (length b) a2)) by (apply words_firstn; auto).
  assert (FL : length (firstn (length b) a2) = length b) by (rewrite firstn_length; clear - L2 L1 La Lb; lia).
  assert (EQ : val a = val c2 * val b + val a2) by (rewrite E1; lia).
  exists c2, (fst (bn_rshb_low (firstn (length b) a2) s)). split; [reflexivity|].
  destruct (Z.eq_dec s 0) as [->|Ns].
  - rewrite (proj1 (rshb_0 _ FW)). rewrite FV, FL. split; [auto|]. split; [auto|]. split; [auto|]. split; [auto|]. change (2 ^ 0) with 1. lia.
  - destruct (rshb_ok s ltac:(lia) _ FW) as (R1 & R2 & R3 & _). split; [auto|]. split; [auto|]. split; [auto|]. split; [rewrite R2; auto|].
    rewrite R3, FV. assert (P : 0 < 2 ^ s) by (apply Z.pow_pos_nonneg; lia).
    assert (2 ^ s * (val a2 / 2 ^ s) = val a2).
    { symmetry. apply Z_div_exact_full_2; [lia|]. apply Z.mod_divide; [lia|].
      replace (val a2) with (val a - val c2 * val b) by (clear - EQ; lia). apply Z.divide_sub_r; [auto|]. apply Z.divide_mul_r; auto. }
    clear - EQ H B2. lia.
Qed.

Lemma FE_length bs a m : words a -> words bs -> length a = length bs -> forall a2 q2, div_top 8 a bs m = Some (a2, q2) -> length a2 = length a.
Proof.
  intros Ha Hbs. revert a m Ha. generalize 8%nat as f0. induction f0 as [|f IH]; intros a m Ha L a2 q2 E; [discriminate E|]. cbn [div_top] in E.
  unfold bn_subn_low in E. destruct (subn_loop_ok a bs 0 Ha Hbs L ltac:(left; reflexivity)) as (l & cy & EQ & Hl & Ll & _). rewrite EQ in E. cbn [fst] in E.
  destruct (dv_cmp a bs).
  - rewrite <- Ll. eapply IH; [exact Hl| |exact E]. lia.
  - injection E as <- _. reflexivity.
  - rewrite <- Ll. eapply IH; [exact Hl| |exact E]. lia.
Qed.
Lemma dv_shift_back b m : dv_rshd (dv_lshd b m) m = b.
Proof. unfold dv_rshd, dv_lshd. rewrite skipn_app, repeat_length, Nat.sub_diag, skipn_all2 by (rewrite repeat_length; lia). reflexivity. Qed.
Lemma bn_divn_safe_ok a b : words a -> words b -> (1 <= length b <= length a)%nat -> 0 < limb b (length b - 1) < 9223372036854775808 ->
  exists q r, bn_divn_safe a b = Ok (q, r) /\ words q /\ words r /\ length q = length a /\ length r = length b /\
    val a = val q * val b + val r /\ val r < val b.
Proof.
  intros Ha Hb L Ht. set (top := limb b (length b - 1)) in *. set (t := (length b - 1)%nat) in *.
  assert (Lb : length b = S t) by lia.
  pose proof (val_bound b Hb) as [B0 B1]. rewrite Lb in B1. pose proof (limb_top b t Hb B1) as BT. fold top in BT.
  pose proof (Z.log2_spec top ltac:(lia)) as [G1 G2]. pose proof (Z.log2_nonneg top) as G0.
  assert (G3 : Z.log2 top < 63) by (apply Z.log2_lt_pow2; [lia|]; apply Ht).
  pose proof (val_bound a Ha) as [A0 A1]. pose proof (Wpow_pos t) as T0.
  assert (LO : W ^ Z.of_nat t * top <= val b) by (rewrite BT; apply Z.mul_div_le; auto).
  assert (HI : val b < W ^ Z.of_nat t * (top + 1)) by (rewrite BT; pose proof (Z.mul_succ_div_gt (val b) (W ^ Z.of_nat t) T0); lia).
  assert (BP : 0 < val b) by (eapply Z.lt_le_trans; [|exact LO]; apply Z.mul_pos_pos; lia).
  unfold bn_divn_safe, bn_divn_low. fold t top.
  unfold clz64. destruct (Z.eqb_spec top 0) as [|_]; [lia|]. unfold countl_zero.
  replace (64 - (63 - Z.log2 top)) with (Z.log2 top + 1) by ring. rewrite (Z.mod_small (Z.log2 top + 1)) by lia.
  assert (FIN : forall a1 b1 s, words a1 -> words b1 -> length b1 = S t -> 4611686018427387904 <= limb b1 t -> (S t <= length a1)%nat -> (length a1 <= S (length a))%nat ->
     0 <= s < 64 -> val a1 = val a * 2 ^ s -> val b1 = val b * 2 ^ s ->
     exists q r, match
        (let n := (length a1 - 1)%nat in let t := (length b1 - 1)%nat in
         if Nat.ltb n t then OutOfBounds else
         match div_top 8 a1 (dv_lshd b1 (n - t)) (limb (repeat 0 (length a + 2)) (n - t)) with
         | None => Throw
         | Some (a2, q) => match div_loop (length a + 2) (n - t) a2 (dv_rshd (dv_lshd b1 (n - t)) (n - t)) (set_nth (repeat 0 (length a + 2)) (n - t) q) with
           | Ok (a3, c) => Ok (c, fst (bn_rshb_low (firstn (length b1) a3) s)) | Throw => Throw | OutOfBounds => OutOfBounds end end)
       with Ok (q, r) => Ok (firstn (length a) q, firstn (length b) r) | Throw => Throw | OutOfBounds => OutOfBounds end = Ok (q, r) /\
       words q /\ words r /\ length q = length a /\ length r = length b /\ val a = val q * val b + val r /\ val r < val b).
  { intros a1 b1 s H1 H2 L2 N2 L1 L3 Hs V1 V2. cbv zeta. rewrite L2. replace (S t - 1)%nat with t by (clear; lia).
    destruct (Nat.ltb_spec (length a1 - 1) t); [lia|].
    assert (P : 0 < 2 ^ s) by (apply Z.pow_pos_nonneg; lia).
    destruct (div_core (length a + 2) (repeat 0 (length a + 2)) a1 b1 t s H1 H2 L2 N2 L1 ltac:(lia) eq_refl ltac:(lia) Hs) as (q & r & E & Hq & Hr & Lq & Lr & V & B).
    { exists (val a). exact V1. } { exists (val b). exact V2. }
    assert (FE : forall a2 q2, div_top 8 a1 (dv_lshd b1 (length a1 - 1 - t)) (limb (repeat 0 (length a + 2)) (length a1 - 1 - t)) = Some (a2, q2) -> length a2 = length a1) by (apply FE_length; [exact H1| |]; [unfold dv_lshd; apply words_app; split; [apply words_repeat0|auto]|unfold dv_lshd; rewrite app_length, repeat_length; clear - L1 L2; lia]).
    destruct (div_top 8 a1 _ _) as [[a2 q2]|]; [|discriminate E]. specialize (FE a2 q2 eq_refl). rewrite FE in E. rewrite L2 in E. rewrite E. clear E FE.
    rewrite V1, V2 in V. rewrite V2 in B. clear V1 V2.
    assert (VV : val a = val q * val b + val r).
    { apply Z.mul_reg_r with (2 ^ s); [lia|]. rewrite V. ring. }
    assert (BB : val r < val b) by (apply Z.mul_lt_mono_pos_l with (2 ^ s); [auto|]; rewrite (Z.mul_comm (2 ^ s) (val b)); auto).
    pose proof (val_nonneg q Hq) as Q0. pose proof (val_nonneg r Hr) as R0.
    exists (firstn (length a) q), (firstn (length b) r). split; [reflexivity|].
    split; [apply words_firstn; auto|]. split; [apply words_firstn; auto|].
    split; [rewrite firstn_length; clear - Lq; lia|]. split; [rewrite firstn_length; clear - Lr L2 Lb; lia|].
    rewrite (firstn_all2 r) by (clear - Lr L2 Lb; lia). rewrite val_firstn_small; [auto|auto|].
    assert (val q * 1 <= val q * val b) by (apply Z.mul_le_mono_nonneg_l; lia). clear - VV R0 A1 H0. lia. }
  destruct (Z.ltb_spec (Z.log2 top + 1) 63) as [LT|GE].
  - set (s := 63 - (Z.log2 top + 1)).
    assert (Hs : 0 < s < 64) by (unfold s; lia).
    assert (P : 0 < 2 ^ s) by (apply Z.pow_pos_nonneg; lia).
    assert (PP : 2 ^ Z.log2 top * 2 ^ s = 4611686018427387904).
    { rewrite <- Z.pow_add_r by lia. unfold s. replace (Z.log2 top + (63 - (Z.log2 top + 1))) with 62 by ring. reflexivity. }
    rewrite Z.pow_succ_r in G2 by auto.
    unfold bn_lshb_low.
    destruct (lshb_loop_ok s Hs a 0 Ha ltac:(split; [lia|auto])) as (a1 & ca & -> & Ha1 & La1 & Hca & Va1).
    destruct (lshb_loop_ok s Hs b 0 Hb ltac:(split; [lia|auto])) as (b1 & cb & -> & Hb1 & Lb1 & Hcb & Vb1).
    rewrite Z.add_0_r in Va1, Vb1.
    assert (UB : val b * 2 ^ s < W ^ Z.of_nat t * 9223372036854775808).
    { eapply Z.lt_le_trans; [apply Z.mul_lt_mono_pos_r; [exact P|exact HI]|]. rewrite <- Z.mul_assoc. apply Z.mul_le_mono_nonneg_l; [lia|].
      replace 9223372036854775808 with (2 * 2 ^ Z.log2 top * 2 ^ s) by (clear - PP; lia). apply Z.mul_le_mono_nonneg_r; lia. }
    assert (LB : W ^ Z.of_nat t * 4611686018427387904 <= val b * 2 ^ s).
    { rewrite <- PP. eapply Z.le_trans; [|apply Z.mul_le_mono_nonneg_r; [lia|exact LO]]. rewrite <- Z.mul_assoc. apply Z.mul_le_mono_nonneg_l; [lia|].
      apply Z.mul_le_mono_nonneg_r; lia. }
    pose proof (val_bound b1 Hb1) as [B10 B11]. rewrite Lb1 in B11. rewrite Lb in *.
    assert (WT : W ^ Z.of_nat (S t) = W ^ Z.of_nat t * W) by (rewrite pow_S; ring).
    assert (cb = 0).
    { destruct (Z.eq_dec cb 0); [auto|exfalso]. assert (W ^ Z.of_nat (S t) * 1 <= W ^ Z.of_nat (S t) * cb) by (apply Z.mul_le_mono_nonneg_l; lia).
      assert (W ^ Z.of_nat t * 9223372036854775808 <= W ^ Z.of_nat t * W) by (apply Z.mul_le_mono_nonneg_l; [lia|discriminate]). lia. }
    subst cb. rewrite Z.mul_0_r, Z.add_0_r in Vb1.
    assert (TOP : 4611686018427387904 <= limb b1 t).
    { rewrite (limb_top b1 t Hb1 B11). apply Z.div_le_lower_bound; [auto|]. lia. }
    rewrite <- Lb in *.
    unfold append at 2. cbn [Z.eqb]. unfold append.
    destruct (Z.eqb_spec ca 0) as [->|Nc].
    + rewrite Z.mul_0_r, Z.add_0_r in Va1. apply FIN; auto; lia.
    + destruct (Nat.ltb_spec (length a1) (length a + 2)); [|lia].
      apply FIN; auto.
      * apply words_app. split; [auto|]. constructor; [|constructor]. split; [lia|]. eapply Z.lt_trans; [apply Hca|]. apply (Z.pow_lt_mono_r 2 s 64); lia.
      * rewrite app_length. cbn [length]. lia.
      * rewrite app_length. cbn [length]. lia.
      * lia.
      * rewrite val_app, La1. cbn [val]. rewrite Z.mul_0_r, Z.add_0_r. exact Va1.
  - unfold append. cbn [Z.eqb]. apply FIN; auto; try lia.
    assert (E62 : Z.log2 top = 62) by lia. rewrite E62 in G1. exact G1.
Qed.
Lemma divn_mod a b q r : words r -> val a = val q * val b + val r -> val r < val b -> val q = val a / val b /\ val r = val a mod val b.
Proof.
  intros Hr E B. pose proof (val_nonneg r Hr). split.
  - apply Z.div_unique with (val r); lia.
  - apply Z.mod_unique with (val q); lia.
Qed.
Lemma MODl_top : limb MODl 5 = 1873798617647539866. Proof. reflexivity. Qed.
Lemma modPrime_ok k : words k -> (6 <= length k)%nat -> exists x, modPrime k = Ok x /\ canon x /\ dec x = Fof (val k).
Proof.
  intros H L. destruct (bn_divn_safe_ok k MODl H (proj2 MODl_six)) as (q & r & E & _ & Hr & _ & _ & V & B).
  { change (length MODl) with 6%nat. split; [lia|exact L]. }
  { change (length MODl - 1)%nat with 5%nat. rewrite MODl_top. split; reflexivity. }
  unfold modPrime. rewrite E. destruct (divn_mod k MODl q r Hr V B) as [_ E2]. rewrite MODl_val in *.
  assert (R0 : 0 <= val r < R384).
  { pose proof (val_nonneg r Hr). split; [auto|]. eapply Z.lt_trans; [exact B|reflexivity]. }
  destruct (toMont_ok (val r) R0) as [C D]. exists (fp_toMont (val r)). split; [reflexivity|]. split; [exact C|]. rewrite D. rewrite E2.
  apply Fof_eq. apply Z.mod_mod. discriminate.
Qed.
