(** scalar::add, scalar::multiply and the hex codec. *)
From Coq Require Import ZArith List Bool Lia.
From Verif Require Import ModelWord ModelScalar ModelPrim PortArith SpecBytes ScalarProof CarryProof MaddProof.
Import ListNotations.
Local Open Scope Z_scope.

Lemma firstn_pad_val a m i : val (firstn i (a ++ repeat 0 m)) = val (firstn i a).
Proof.
  rewrite firstn_app, val_app.
  replace (val (firstn (i - length a) (repeat 0 m))) with 0; [lia|].
  generalize (i - length a)%nat. intros k. revert m.
  induction k; intros [|m]; cbn; auto. rewrite <- IHk. reflexivity.
Qed.
Lemma limb_pad b m i : limb (b ++ repeat 0 m) i = limb b i.
Proof.
  unfold limb. destruct (Nat.ltb_spec i (length b)); [apply app_nth1; auto|].
  rewrite app_nth2 by auto. rewrite (nth_overflow b) by auto. apply nth_repeat.
Qed.
Lemma carry_safe_pad n a b c m m' : carry_safe n (a ++ repeat 0 m) (b ++ repeat 0 m') c <-> carry_safe n a b c.
Proof. unfold carry_safe. split; intros H i Hi; specialize (H i Hi); rewrite limb_pad, !firstn_pad_val in *; auto. Qed.
Lemma set_nth_length l : forall i v, length (set_nth l i v) = length l.
Proof. induction l; intros [|i] v; cbn; auto. Qed.
Lemma set_nth_words l : forall i v, words l -> word v -> words (set_nth l i v).
Proof. induction l; intros [|i] v H Hv; inversion H; subst; cbn; constructor; auto. apply IHl; auto. Qed.
Lemma set_nth_limb l : forall i j v, (i < length l)%nat -> limb (set_nth l i v) j = if Nat.eqb i j then v else limb l j.
Proof.
  unfold limb. induction l; intros [|i] [|j] v H; cbn in *; try lia; auto. rewrite IHl by lia. reflexivity.
Qed.
Lemma set_nth_val l : forall i v, (i < length l)%nat -> val (set_nth l i v) = val l + (v - limb l i) * W ^ Z.of_nat i.
Proof.
  induction l; intros [|i] v H; cbn [length set_nth val] in *; try lia.
  - unfold limb. cbn. lia.
  - rewrite IHl by lia. change (limb (a :: l) (S i)) with (limb l i). rewrite pow_S. ring.
Qed.

Lemma add_loop_spec N a b : words a -> words b -> (length a <= N)%nat -> (length b <= N)%nat ->
  exists z k d, add_loop N 0 a b 0 = (z, k) /\ words z /\ length z = N /\ bit k /\ 0 <= d /\
    val z + W ^ Z.of_nat N * k + W * d = val a + val b /\ (d = 0 <-> carry_safe N a b 0).
Proof.
  intros Ha Hb La Lb. rewrite add_loop_l, !slice_pad by auto.
  destruct (add_l_spec (a ++ repeat 0 (N - length a)) (b ++ repeat 0 (N - length b)) 0) as (z & k & d & E & Hz & Lz & Hk & Hd & V & I & _).
  - apply words_app; auto using words_repeat0.
  - apply words_app; auto using words_repeat0.
  - rewrite !app_length, !repeat_length. lia.
  - left; reflexivity.
  - assert (L : length (a ++ repeat 0 (N - length a)) = N) by (rewrite app_length, repeat_length; lia).
    rewrite L in *. rewrite !val_app, !val_repeat0, !Z.mul_0_r, !Z.add_0_r in V. rewrite carry_safe_pad in I.
    exists z, k, d. auto 10.
Qed.
Lemma val_pad z n : val (z ++ repeat 0 n) = val z.
Proof. rewrite val_app, val_repeat0. lia. Qed.
Lemma set_nth_app0 z n v : (1 < n)%nat -> val (set_nth (z ++ repeat 0 n) (length z + 1) v) = val z + v * W ^ Z.of_nat (length z + 1).
Proof.
  intros H. rewrite set_nth_val by (rewrite app_length, repeat_length; lia).
  rewrite val_pad, limb_pad. unfold limb. rewrite nth_overflow by lia. ring.
Qed.
Section Add.
  Variables (NC : nat) (a b : list Z).
  Hypotheses (Ha : words a) (Hb : words b).
  Let N := Nat.max (length b) (length a).
  Lemma scalar_add_short : (NC < N)%nat -> scalar_add NC a b = Throw.
  Proof. intros H. unfold scalar_add. fold N. apply Nat.ltb_lt in H. rewrite H. reflexivity. Qed.
  Lemma scalar_add_gen : (N <= NC)%nat -> exists z k d, words z /\ length z = N /\ bit k /\ 0 <= d /\
    val z + W ^ Z.of_nat N * k + W * d = val a + val b /\ (d = 0 <-> carry_safe N a b 0) /\
    scalar_add NC a b = if k =? 0 then Ok (z ++ repeat 0 (NC - N)) else
      if Nat.leb NC (N + 1) then Throw else Ok (set_nth (z ++ repeat 0 (NC - N)) (N + 1) k).
  Proof.
    intros H. destruct (add_loop_spec N a b Ha Hb) as (z & k & d & E & Hz & Lz & Hk & Hd & V & I); [lia|lia|].
    exists z, k, d. repeat (split; [assumption|]). unfold scalar_add. fold N.
    assert (L : Nat.ltb NC N = false) by (apply Nat.ltb_ge; auto). rewrite L, E.
    destruct Hk; subst k; reflexivity.
  Qed.
  Lemma scalar_add_exact : (N <= NC)%nat -> carry_safe N a b 0 -> val a + val b < W ^ Z.of_nat N ->
    exists c, scalar_add NC a b = Ok c /\ words c /\ length c = NC /\ val c = val a + val b.
  Proof.
    intros H S B. destruct (scalar_add_gen H) as (z & k & d & Hz & Lz & Hk & Hd & V & I & ->).
    apply I in S. subst d. pose proof (val_nonneg z Hz). assert (k = 0) by (destruct Hk; nia). subst k.
    exists (z ++ repeat 0 (NC - N)). split; [reflexivity|]. split; [apply words_app; auto using words_repeat0|].
    split; [rewrite app_length, repeat_length; lia|]. rewrite val_pad. lia.
  Qed.
  Lemma scalar_add_overflow : (N <= NC)%nat -> carry_safe N a b 0 -> W ^ Z.of_nat N <= val a + val b ->
    if Nat.leb NC (N + 1) then scalar_add NC a b = Throw
    else exists c, scalar_add NC a b = Ok c /\ words c /\ length c = NC /\
           val c = val a + val b - W ^ Z.of_nat N + W ^ Z.of_nat (N + 1).
  Proof.
    intros H S B. destruct (scalar_add_gen H) as (z & k & d & Hz & Lz & Hk & Hd & V & I & ->).
    apply I in S. subst d. pose proof (val_bound z Hz) as Bz. rewrite Lz in Bz. assert (k = 1) by (destruct Hk; nia). subst k.
    cbn [Z.eqb]. destruct (Nat.leb_spec NC (N + 1)) as [L|L]; [reflexivity|].
    eexists. split; [reflexivity|]. split; [apply set_nth_words; [apply words_app; auto using words_repeat0|split; [lia|reflexivity]]|].
    split; [rewrite set_nth_length, app_length, repeat_length; lia|].
    rewrite <- Lz at 2. rewrite set_nth_app0 by lia. rewrite Lz. lia.
  Qed.
End Add.

(** multiply *)
Lemma limb_zero_above l k : words l -> (forall j, (k <= j)%nat -> limb l j = 0) -> 0 <= val l < W ^ Z.of_nat k.
Proof.
  intros H. revert k. induction H as [|x l Hx Hl IH]; intros k Z; cbn [val].
  - pose proof (Wpow_pos k). lia.
  - destruct k as [|k].
    + pose proof (Z 0%nat ltac:(lia)) as Z0. unfold limb in Z0. cbn in Z0. subst x.
      destruct (IH 0%nat) as [A B]; [intros j Hj; apply (Z (S j)); lia|]. change (W ^ Z.of_nat 0) with 1 in *. assert (E : val l = 0) by lia. rewrite E. lia.
    + destruct (IH k) as [A B]; [intros j Hj; apply (Z (S j)); lia|]. rewrite pow_S. unfold word in Hx. nia.
Qed.
Lemma mul_row_ok a bi i : words a -> word bi -> forall n j buf, words buf -> (j + n = length a)%nat ->
  (n = O \/ i + j + n < length buf)%nat ->
  (forall k, (i + j < k)%nat -> limb buf k = 0) ->
  exists buf', mul_row n j i a bi buf = Some buf' /\ words buf' /\ length buf' = length buf /\
    val buf' = val buf + (val a - val (firstn j a)) * bi * W ^ Z.of_nat i.
Proof.
  intros Ha Hbi n. induction n as [|n IH]; intros j buf Hb L B Z.
  - exists buf. cbn. repeat split; auto. rewrite firstn_all2 by lia. ring.
  - destruct B as [B|B]; [discriminate|]. cbn [mul_row].
    destruct (Mul64_ok (limb a j) bi) as (hi & lo & -> & Hhi & Hlo & Bh & E & _); auto using limb_word.
    assert (LT : Nat.ltb (i + j + 1) (length buf) = true) by (apply Nat.ltb_lt; lia). rewrite LT.
    destruct (Add64_ok (limb buf (i + j)) lo 0) as (b0 & c & -> & Hb0 & Hc & E0); auto using limb_word; [left; reflexivity|intros [_ X]; discriminate X|].
    rewrite set_nth_limb by lia. replace (Nat.eqb (i + j) (i + j + 1)) with false by (symmetry; apply Nat.eqb_neq; lia).
    rewrite (Z (i + j + 1)%nat) by lia.
    destruct (Add64_ok 0 hi c word0 Hhi Hc) as (b1 & c' & -> & Hb1 & Hc' & E1); [intros [X _]; lia|].
    assert (c' = 0) by (unfold bit, word in *; lia). subst c'.
    destruct (IH (S j) (set_nth (set_nth buf (i + j) b0) (i + j + 1) b1)) as (buf' & R & Hw & Lw & V).
    + apply set_nth_words; auto. apply set_nth_words; auto.
    + lia.
    + rewrite !set_nth_length. lia.
    + intros k Hk. rewrite set_nth_limb by (rewrite set_nth_length; lia). destruct (Nat.eqb_spec (i + j + 1) k); [lia|].
      rewrite set_nth_limb by lia. destruct (Nat.eqb_spec (i + j) k); [lia|]. apply Z. lia.
    + exists buf'. split; [auto|]. split; [auto|]. split; [rewrite Lw, !set_nth_length; auto|].
      rewrite V, set_nth_val by (rewrite set_nth_length; lia). rewrite set_nth_val by lia.
      rewrite set_nth_limb by lia. replace (Nat.eqb (i + j) (i + j + 1)) with false by (symmetry; apply Nat.eqb_neq; lia).
      rewrite (Z (i + j + 1)%nat) by lia. rewrite (limb_firstn a j) by lia. rewrite val_app. rewrite firstn_length, Nat.min_l by lia.
      cbn [val]. rewrite Z.mul_0_r, Z.add_0_r.
      replace (Z.of_nat (i + j + 1)) with (Z.of_nat (S (i + j))) by lia. rewrite pow_S.
      replace (W ^ Z.of_nat (i + j)) with (W ^ Z.of_nat i * W ^ Z.of_nat j) by (rewrite Nat2Z.inj_add, Z.pow_add_r by lia; ring).
      replace ((val a - (val (firstn j a) + W ^ Z.of_nat j * limb a j)) * bi * W ^ Z.of_nat i)
        with ((val a - val (firstn j a)) * bi * W ^ Z.of_nat i - (limb a j * bi) * (W ^ Z.of_nat i * W ^ Z.of_nat j)) by ring.
      rewrite E. generalize (W ^ Z.of_nat i * W ^ Z.of_nat j). intros P.
      generalize ((val a - val (firstn j a)) * bi * W ^ Z.of_nat i). intros Q.
      replace b0 with (limb buf (i + j) + lo - W * c) by lia. replace b1 with (hi + c) by lia. ring.
Qed.
Definition rows_safe (NC : nat) (a b : list Z) : Prop := forall i, (i < length b)%nat ->
  carry_safe NC (limbs_of NC (val a * val (firstn i b))) (limbs_of NC (val a * limb b i * W ^ Z.of_nat i)) 0.
Lemma mul_loop_ok NC a b : words a -> words b -> (length a + length b <= NC)%nat -> forall n i c, (i + n = length b)%nat ->
  words c -> length c = NC -> 0 <= val c <= val a * val (firstn i b) ->
  exists c', mul_loop n i NC a b c = Ok c' /\ words c' /\ length c' = NC /\ val c' <= val a * val b /\
    (rows_safe NC a b -> val c = val a * val (firstn i b) -> val c' = val a * val b).
Proof.
  intros Ha Hb LN n. induction n as [|n IH]; intros i c L Hc Lc B.
  - exists c. cbn. rewrite firstn_all2 in * by lia. auto 10 with zarith.
  - cbn [mul_loop].
    destruct (mul_row_ok a (limb b i) i Ha (limb_word b i Hb) (length a) 0 (repeat 0 NC)) as (buf & -> & Hbuf & Lbuf & V).
    + apply words_repeat0.
    + reflexivity.
    + rewrite repeat_length. lia.
    + intros k Hk. unfold limb. apply nth_repeat.
    + rewrite repeat_length in Lbuf. rewrite val_repeat0 in V. cbn [firstn val] in V. rewrite Z.sub_0_r, Z.add_0_l in V.
      assert (F : val a * val (firstn (S i) b) = val a * val (firstn i b) + val buf).
      { rewrite (limb_firstn b i) by lia. rewrite val_app, firstn_length, Nat.min_l by lia. cbn [val]. rewrite V. ring. }
      assert (U : val a * val (firstn (S i) b) < W ^ Z.of_nat NC).
      { pose proof (val_bound a Ha). pose proof (val_bound (firstn (S i) b) (words_firstn _ _ Hb)) as B2.
        rewrite firstn_length, Nat.min_l in B2 by lia.
        assert (W ^ Z.of_nat (length a) * W ^ Z.of_nat (S i) <= W ^ Z.of_nat NC).
        { rewrite <- Z.pow_add_r by lia. apply Z.pow_le_mono_r; [reflexivity|lia]. }
        eapply Z.lt_le_trans; [|eassumption]. apply Z.mul_lt_mono_nonneg; lia. }
      pose proof (val_nonneg buf Hbuf).
      destruct (scalar_add_gen NC c buf Hc Hbuf) as (z & k & d & Hz & Lz & Hk & Hd & V' & I & ->); [lia|].
      rewrite Lc, Lbuf, Nat.max_id in *.
      pose proof (val_nonneg z Hz) as Hz0. pose proof (Wpow_pos NC). pose proof W_pos.
      assert (k = 0) by (destruct Hk; nia). subst k. cbn [Z.eqb]. rewrite Nat.sub_diag, app_nil_r.
      destruct (IH (S i) z) as (c' & E & Hc' & Lc' & B' & X); auto; [lia|nia|].
      exists c'. repeat (split; [assumption|]). intros S Ec. apply X; [auto|].
      assert (d = 0); [|subst d; lia]. apply I. specialize (S i ltac:(lia)).
      rewrite <- Ec, <- V in S. rewrite <- Lc in S at 2. rewrite <- Lbuf in S at 2. rewrite !limbs_of_of_val in S by auto. exact S.
Qed.
Lemma scalar_multiply_ok NC a b : words a -> words b -> (length a + length b <= NC)%nat ->
  exists c, scalar_multiply NC a b = Ok c /\ words c /\ length c = NC /\ val c <= val a * val b /\
    (rows_safe NC a b -> val c = val a * val b).
Proof.
  intros Ha Hb L. destruct (mul_loop_ok NC a b Ha Hb L (length b) 0 (repeat 0 NC)) as (c & E & Hc & Lc & B & X); auto using words_repeat0, repeat_length.
  - rewrite val_repeat0. cbn. lia.
  - exists c. repeat (split; [assumption|]). intros S. apply X; auto. rewrite val_repeat0. cbn. lia.
Qed.
Lemma rows_safe_one NC a x : rows_safe NC a [x].
Proof.
  intros i Hi. cbn [length] in Hi. assert (i = 0%nat) by lia. subst i. cbn [firstn val]. rewrite Z.mul_0_r.
  intros j Hj E. rewrite Z.add_0_r.
  assert (Z0 : val (firstn j (limbs_of NC 0)) = 0).
  { clear. revert j. induction NC; intros [|j]; cbn; auto. rewrite IHNC. reflexivity. }
  rewrite Z0. rewrite Z.add_0_l.
  pose proof (val_bound (firstn j (limbs_of NC (val a * limb [x] 0 * W ^ Z.of_nat 0))) (words_firstn _ _ (limbs_of_words _ _))) as B.
  rewrite firstn_length, limbs_of_length, Nat.min_l in B by lia. lia.
Qed.

(** ** Hex *)
(** lower- and upper-case digits of a nibble, as in any ASCII table *)
Definition is_digit_of (n c : Z) : Prop :=
  (0 <= n <= 9 /\ c = 48 + n) \/ (10 <= n <= 15 /\ (c = 97 + (n - 10) \/ c = 65 + (n - 10))).
Inductive hex_of : list Z -> list Z -> Prop :=
| hex_nil : hex_of [] []
| hex_cons b s v h l : is_digit_of (v / 16) h -> is_digit_of (v mod 16) l -> 0 <= v < 256 -> hex_of s b -> hex_of (h :: l :: s) (v :: b).
Lemma Z_range_cases (P : Z -> Prop) n x : (forall k, (k < n)%nat -> P (Z.of_nat k)) -> 0 <= x < Z.of_nat n -> P x.
Proof. intros H B. rewrite <- (Z2Nat.id x) by lia. apply H. lia. Qed.
Lemma hexval_digit n c : is_digit_of n c -> hexval c = n.
Proof.
  unfold is_digit_of. intros [(B & ->)|(B & [->| ->])].
  - assert (C : n = 0 \/ n = 1 \/ n = 2 \/ n = 3 \/ n = 4 \/ n = 5 \/ n = 6 \/ n = 7 \/ n = 8 \/ n = 9) by lia.
    repeat destruct C as [->|C]; try reflexivity. subst n. reflexivity.
  - assert (C : n = 10 \/ n = 11 \/ n = 12 \/ n = 13 \/ n = 14 \/ n = 15) by lia.
    repeat destruct C as [->|C]; try reflexivity. subst n. reflexivity.
  - assert (C : n = 10 \/ n = 11 \/ n = 12 \/ n = 13 \/ n = 14 \/ n = 15) by lia.
    repeat destruct C as [->|C]; try reflexivity. subst n. reflexivity.
Qed.
Lemma hex_pairs_ok s b : hex_of s b -> hex_pairs s = b.
Proof.
  induction 1 as [|b s v h l Hh Hl Hv H IH]; [reflexivity|]. cbn [hex_pairs].
  rewrite (hexval_digit _ _ Hh), (hexval_digit _ _ Hl), IH. f_equal.
  rewrite (Z.mul_comm (v / 16)), <- Z_div_mod_eq_full. apply Z.mod_small. auto.
Qed.
Lemma hex_of_length s b : hex_of s b -> length s = (2 * length b)%nat.
Proof. induction 1; cbn [length]; lia. Qed.
Lemma hexToBytes_prefixed s b : hex_of s b -> hexToBytes (48 :: 120 :: s) = Ok b.
Proof.
  intros H. unfold hexToBytes. cbn [Z.eqb Pos.eqb andb length].
  rewrite (hex_of_length _ _ H). replace (S (S (2 * length b))) with ((1 + length b) * 2)%nat by lia.
  rewrite Nat.mod_mul by lia. cbn [Nat.eqb negb]. rewrite (hex_pairs_ok _ _ H). reflexivity.
Qed.
Lemma hexToBytes_plain s b : hex_of s b -> b <> [] -> hexToBytes s = Ok b.
Proof.
  intros H Hb. pose proof (hex_pairs_ok _ _ H) as P. pose proof (hex_of_length _ _ H) as L.
  destruct H as [|b s v h l Hh Hl Hv H]; [congruence|]. unfold hexToBytes.
  assert (X : (h =? 48) && (l =? 120) = false).
  { destruct (Z.eqb_spec l 120); [|apply andb_false_r]. subst l. unfold is_digit_of in Hl. lia. }
  rewrite X, L. rewrite Nat.mul_comm, Nat.mod_mul by lia. cbn [Nat.eqb negb]. rewrite P. reflexivity.
Qed.
Lemma hexchar_digit n : 0 <= n < 16 -> is_digit_of n (hexchar n).
Proof. intros H. unfold hexchar, is_digit_of. destruct (Z.ltb_spec n 10); lia. Qed.
Lemma hi_nibble v : 0 <= v < 256 -> Z.shiftr (Z.land v 0xF0) 4 = v / 16.
Proof.
  intros H. rewrite Z.shiftr_land, Z.shiftr_div_pow2 by lia. change (2 ^ 4) with 16. change (Z.shiftr 0xF0 4) with (Z.ones 4).
  rewrite Z.land_ones by lia. apply Z.mod_small. split; [apply Z.div_pos; lia|apply Z.div_lt_upper_bound; lia].
Qed.
Lemma lo_nibble v : Z.land v 0x0F = v mod 16.
Proof. change 0x0F with (Z.ones 4). rewrite Z.land_ones by lia. reflexivity. Qed.
Lemma bytesToHex_ok b : bytes b -> exists s, bytesToHex b = 48 :: 120 :: s /\ hex_of s b.
Proof.
  intros H. unfold bytesToHex. eexists. split; [reflexivity|].
  induction H as [|v b Hv Hb IH]; [constructor|]. cbn [flat_map app]. unfold byte in Hv.
  rewrite hi_nibble, lo_nibble by auto. constructor; auto; apply hexchar_digit.
  - split; [apply Z.div_pos; lia|apply Z.div_lt_upper_bound; lia].
  - apply Z.mod_pos_bound. lia.
Qed.
