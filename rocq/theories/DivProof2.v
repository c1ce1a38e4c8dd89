(** Division with a divisor whose top bit is set: the normalising shift by 63 gives the divisor one more limb. *)
From Coq Require Import ZArith List Bool Lia.
From Verif Require Import ModelWord ModelScalar ModelPrim ModelFp ModelDiv ModelMem PortArith ScalarProof CarryProof ScalarProof2 DivProof MemProof MemDiv MemDiv2.
Import ListNotations.
Local Open Scope Z_scope.

Lemma shl63 a n : words a -> length a = S n -> exists a1, lshb_loop a 63 0 = (a1, limb a n / 2) /\ words a1 /\ length a1 = S n /\
  val a1 + W ^ Z.of_nat (S n) * (limb a n / 2) = val a * 2 ^ 63.
Proof.
  intros Ha La. destruct (lshb_loop_ok 63 ltac:(lia) a 0 Ha ltac:(split; [lia|reflexivity])) as (a1 & ca & E & Ha1 & La1 & Hca & V).
  pose proof (val_bound a Ha) as [A0 A1]. rewrite La in *. pose proof (val_bound a1 Ha1) as [B0 B1]. rewrite La1 in B1. pose proof (Wpow_pos n) as T0.
  assert (C : ca = limb a n / 2).
  { rewrite (limb_top a n Ha A1), Z.div_div by lia. apply Z.div_unique with (val a1 / 2 ^ 63).
    - left. split; [apply Z.div_pos; lia|]. apply Z.div_lt_upper_bound; [reflexivity|]. rewrite pow_S in B1. change W with (2 ^ 63 * 2) in B1 at 1. lia.
    - assert (D : val a1 = 2 ^ 63 * (val a - W ^ Z.of_nat n * 2 * ca)) by (rewrite pow_S in V; change W with (2 ^ 63 * 2) in V at 1; lia).
      rewrite D, (Z.mul_comm (2 ^ 63)), Z.div_mul by discriminate. ring. }
  subst ca. exists a1. rewrite Z.add_0_r in V. auto.
Qed.

Definition big_ok (a b : list Z) : Prop := (length b < length a)%nat \/ 2 <= limb a (length a - 1).
Lemma top_log top : 9223372036854775808 <= top < W -> Z.log2 top = 63.
Proof. intros H. apply Z.log2_unique; [lia|]. exact H. Qed.
Lemma div2_top top : 9223372036854775808 <= top < W -> 4611686018427387904 <= top / 2 < W.
Proof. intros [H1 H2]. split; [apply Z.div_le_lower_bound; lia|]. apply Z.div_lt_upper_bound; [lia|]. assert (0 < W) by reflexivity. lia. Qed.
Lemma limb_last l x n : length l = n -> limb (l ++ [x]) n = x.
Proof. intros <-. unfold limb. rewrite app_nth2, Nat.sub_diag by lia. reflexivity. Qed.
Lemma words_snoc l x : words l -> word x -> words (l ++ [x]).
Proof. intros H X. apply words_app. split; [exact H|]. constructor; [exact X|constructor]. Qed.
Lemma half_word l n : words l -> word (limb l n / 2).
Proof.
  intros H. pose proof (limb_word l n H) as [A B]. split; [apply Z.div_pos; lia|]. apply Z.div_lt_upper_bound; [lia|]. assert (0 < W) by reflexivity. lia.
Qed.
(** dividend and divisor after the shift *)
Definition shifted (a : list Z) (n : nat) (a1 : list Z) : list Z := if limb a n / 2 =? 0 then a1 else a1 ++ [limb a n / 2].
Lemma shifted_ok a n a1 : words a -> words a1 -> length a1 = S n -> val a1 + W ^ Z.of_nat (S n) * (limb a n / 2) = val a * 2 ^ 63 ->
  words (shifted a n a1) /\ val (shifted a n a1) = val a * 2 ^ 63 /\ (length (shifted a n a1) <= S (S n))%nat /\ (S n <= length (shifted a n a1))%nat /\
  (length (shifted a n a1) = S (S n) <-> 2 <= limb a n).
Proof.
  intros Ha H1 L1 V. unfold shifted. pose proof (limb_word a n Ha) as [T0 _]. destruct (Z.eqb_spec (limb a n / 2) 0) as [E|N].
  - rewrite E, Z.mul_0_r, Z.add_0_r in V. rewrite L1. split; [exact H1|]. split; [exact V|]. split; [lia|]. split; [lia|]. split; [lia|].
    intros G. exfalso. assert (1 <= limb a n / 2) by (apply Z.div_le_lower_bound; lia). lia.
  - rewrite app_length, val_app, L1. cbn [val length]. rewrite Z.mul_0_r, Z.add_0_r. split; [apply words_snoc; [exact H1|apply half_word, Ha]|]. split; [exact V|]. split; [lia|]. split; [lia|]. split; [|lia].
    intros _. destruct (Z.lt_ge_cases (limb a n) 2) as [G|]; [|assumption]. exfalso. apply N, Z.div_small. lia.
Qed.
Lemma append_shifted a n a1 cap : length a1 = S n -> (S n < cap)%nat -> append cap a1 (limb a n / 2) = Ok (shifted a n a1).
Proof. intros L C. unfold append, shifted. destruct (_ =? 0); [reflexivity|]. rewrite L. apply Nat.ltb_lt in C. rewrite C. reflexivity. Qed.
Lemma divn_big a b : words a -> words b -> (1 <= length b <= length a)%nat -> 9223372036854775808 <= limb b (length b - 1) ->
  (big_ok a b -> exists q r, bn_divn_safe a b = Ok (q, r) /\ words q /\ words r /\ length q = length a /\ length r = length b /\ val a = val q * val b + val r /\ val r < val b) /\
  (~ big_ok a b -> bn_divn_safe a b = OutOfBounds).
Proof.
  intros Ha Hb L Ht. unfold big_ok. destruct (length b) as [|t] eqn:Lb; [lia|]. destruct (length a) as [|n] eqn:La; [lia|].
  replace (S t - 1)%nat with t in Ht by lia. replace (S n - 1)%nat with n by lia.
  unfold bn_divn_safe, bn_divn_low. rewrite La, Lb. replace (S t - 1)%nat with t by lia. set (top := limb b t) in *.
  assert (TW : 9223372036854775808 <= top < W) by (split; [exact Ht|]; apply limb_word; exact Hb).
  assert (NRM : (64 - clz64 top) mod 64 = 0).
  { unfold clz64. destruct (Z.eqb_spec top 0) as [|_]; [lia|]. unfold countl_zero. rewrite (top_log top TW). reflexivity. }
  rewrite NRM. clear NRM. change (0 <? 63) with true. cbv beta iota zeta. change (63 - 0) with 63. unfold bn_lshb_low.
  destruct (shl63 a n Ha La) as (a1 & -> & Ha1 & La1 & Va1). destruct (shl63 b t Hb Lb) as (b1 & -> & Hb1 & Lb1 & Vb1).
  rewrite !append_shifted by (auto; lia).
  destruct (shifted_ok a n a1 Ha Ha1 La1 Va1) as (Wa & Va & UA & LA & IA). destruct (shifted_ok b t b1 Hb Hb1 Lb1 Vb1) as (Wb & Vb & UB & _ & IB).
  pose proof (proj2 IB ltac:(fold top; lia)) as LB. set (A := shifted a n a1) in *.
  assert (TOP : 4611686018427387904 <= limb (shifted b t b1) (S t)).
  { unfold shifted. fold top. pose proof (div2_top top TW). destruct (Z.eqb_spec (top / 2) 0) as [|_]; [lia|]. rewrite limb_last by exact Lb1. lia. }
  set (B := shifted b t b1) in *. clearbody A B. rewrite LB. replace (S (S t) - 1)%nat with (S t) by lia. split.
  - intros G. assert (LT : (S (S t) <= length A)%nat) by (destruct G as [G|G]; [lia|apply IA in G; lia]).
    destruct (Nat.ltb_spec (length A - 1) (S t)); [lia|].
    destruct (div_core (S n + 2) (repeat 0 (S n + 2)) A B (S t) 63 Wa Wb LB TOP LT ltac:(lia) eq_refl ltac:(lia) ltac:(lia)) as (q & r & E & Hq & Hr & Lq & Lr & V & R).
    { exists (val a). exact Va. } { exists (val b). exact Vb. }
    assert (FE : forall a2 q2, div_top 8 A (dv_lshd B (length A - 1 - S t)) (limb (repeat 0 (S n + 2)) (length A - 1 - S t)) = Some (a2, q2) -> length a2 = length A) by (apply FE_length; [exact Wa| |]; [unfold dv_lshd; apply words_app; split; [apply words_repeat0|auto]|unfold dv_lshd; rewrite app_length, repeat_length; clear - LT LB; lia]).
    destruct (div_top 8 A _ _) as [[a2 q2]|]; [|discriminate E]. specialize (FE a2 q2 eq_refl). rewrite FE in E. rewrite LB in E. rewrite E. clear E FE.
    rewrite Va, Vb in V. rewrite Vb in R. pose proof (val_nonneg q Hq) as Q0. pose proof (val_nonneg r Hr) as R0. pose proof (val_bound a Ha) as [_ A1]. pose proof (val_bound b Hb) as [_ B1]. rewrite La in A1. rewrite Lb in B1.
    assert (VV : val a = val q * val b + val r) by (apply Z.mul_reg_r with (2 ^ 63); [discriminate|]; rewrite V; ring).
    assert (BB : val r < val b) by (apply Z.mul_lt_mono_pos_l with (2 ^ 63); [reflexivity|]; rewrite (Z.mul_comm (2 ^ 63) (val b)); auto).
    assert (val q * 1 <= val q * val b) by (apply Z.mul_le_mono_nonneg_l; lia).
    exists (firstn (S n) q), (firstn (S t) r). split; [reflexivity|]. split; [apply words_firstn; auto|]. split; [apply words_firstn; auto|].
    split; [rewrite firstn_length; clear - Lq; lia|]. split; [rewrite firstn_length; clear - Lr LB; lia|].
    rewrite !val_firstn_small; [auto|exact Hr|lia|exact Hq|]. clear - VV R0 A1 H0. lia.
  - intros G. destruct (Nat.ltb_spec (length A - 1) (S t)) as [|F]; [reflexivity|]. exfalso. apply G.
    destruct (Nat.eq_dec (length A) (S (S n))) as [E|E]; [right; apply IA, E|left; lia].
Qed.
(** top limb zero, the next one with its top bit set: again a shift by 63, which leaves the divisor normalised *)
Lemma divn_zero_top a b t : words a -> words b -> length b = S (S t) -> (length b <= length a)%nat -> limb b (S t) = 0 -> 9223372036854775808 <= limb b t ->
  exists q r, bn_divn_safe a b = Ok (q, r) /\ words q /\ words r /\ length q = length a /\ length r = length b /\ val a = val q * val b + val r /\ val r < val b.
Proof.
  intros Ha Hb Lb L Z0 Ht. destruct (length a) as [|n] eqn:La; [lia|]. pose proof (val_bound b Hb) as [B0 B1]. rewrite Lb in *.
  unfold bn_divn_safe, bn_divn_low. rewrite La, Lb. replace (S (S t) - 1)%nat with (S t) by lia.
  rewrite Z0. change ((64 - clz64 0) mod 64) with 0. change (0 <? 63) with true. cbv beta iota zeta. change (63 - 0) with 63. unfold bn_lshb_low.
  destruct (shl63 a n Ha La) as (a1 & -> & Ha1 & La1 & Va1). destruct (shl63 b (S t) Hb Lb) as (b1 & -> & Hb1 & Lb1 & Vb1).
  rewrite !append_shifted by (auto; lia).
  destruct (shifted_ok a n a1 Ha Ha1 La1 Va1) as (Wa & Va & UA & LA & IA). destruct (shifted_ok b (S t) b1 Hb Hb1 Lb1 Vb1) as (Wb & Vb & UB & _ & _).
  assert (EB : shifted b (S t) b1 = b1) by (unfold shifted; rewrite Z0; reflexivity). rewrite EB in *. set (A := shifted a n a1) in *. clearbody A.
  assert (TB : W ^ Z.of_nat t * 9223372036854775808 <= val b).
  { pose proof (Wpow_pos t) as T0. pose proof (limb_top b (S t) Hb B1) as E. rewrite Z0 in E. symmetry in E.
    assert (B2 : val b < W ^ Z.of_nat (S t)) by (apply Z.div_small_iff in E; [|pose proof (Wpow_pos (S t)); lia]; pose proof (Wpow_pos (S t)); lia).
    rewrite (limb_top b t Hb B2) in Ht. eapply Z.le_trans; [apply Z.mul_le_mono_nonneg_l; [lia|exact Ht]|]. apply Z.mul_div_le. exact T0. }
  assert (TOP : 4611686018427387904 <= limb b1 (S t)).
  { pose proof (val_bound b1 Hb1) as [_ B3]. rewrite Lb1 in B3. rewrite (limb_top b1 (S t) Hb1 B3). apply Z.div_le_lower_bound; [apply Wpow_pos|]. rewrite Vb, pow_S.
    change W with (2 * 9223372036854775808) at 1. change (2 ^ 63) with 9223372036854775808. lia. }
  rewrite Lb1. replace (S (S t) - 1)%nat with (S t) by lia. assert (LT : (S (S t) <= length A)%nat) by lia.
  destruct (Nat.ltb_spec (length A - 1) (S t)); [lia|].
  destruct (div_core (S n + 2) (repeat 0 (S n + 2)) A b1 (S t) 63 Wa Hb1 Lb1 TOP LT ltac:(lia) eq_refl ltac:(lia) ltac:(lia)) as (q & r & E & Hq & Hr & Lq & Lr & V & R).
  { exists (val a). exact Va. } { exists (val b). exact Vb. }
  assert (FE : forall a2 q2, div_top 8 A (dv_lshd b1 (length A - 1 - S t)) (limb (repeat 0 (S n + 2)) (length A - 1 - S t)) = Some (a2, q2) -> length a2 = length A) by (apply FE_length; [exact Wa| |]; [unfold dv_lshd; apply words_app; split; [apply words_repeat0|auto]|unfold dv_lshd; rewrite app_length, repeat_length; clear - LT Lb1; lia]).
  destruct (div_top 8 A _ _) as [[a2 q2]|]; [|discriminate E]. specialize (FE a2 q2 eq_refl). rewrite FE in E. rewrite Lb1 in E. rewrite E. clear E FE.
  rewrite Va, Vb in V. rewrite Vb in R. pose proof (val_nonneg q Hq) as Q0. pose proof (val_nonneg r Hr) as R0. pose proof (val_bound a Ha) as [_ A1]. rewrite La in A1.
  assert (VV : val a = val q * val b + val r) by (apply Z.mul_reg_r with (2 ^ 63); [discriminate|]; rewrite V; ring).
  assert (BB : val r < val b) by (apply Z.mul_lt_mono_pos_l with (2 ^ 63); [reflexivity|]; rewrite (Z.mul_comm (2 ^ 63) (val b)); auto).
  assert (val q * 1 <= val q * val b) by (apply Z.mul_le_mono_nonneg_l; lia).
  exists (firstn (S n) q), (firstn (S (S t)) r). split; [reflexivity|]. split; [apply words_firstn; auto|]. split; [apply words_firstn; auto|].
  split; [rewrite firstn_length; clear - Lq; lia|]. split; [rewrite firstn_length; clear - Lr Lb1; lia|].
  rewrite !val_firstn_small; [auto|exact Hr|lia|exact Hq|]. clear - VV R0 A1 H0. lia.
Qed.
(** the same at the level of arrays *)
Lemma for_up_none {S} (body : Z -> S -> option S) : forall n i s, (forall s, body (i + Z.of_nat n) s = None) -> for_up (Datatypes.S n) i body s = None.
Proof.
  induction n as [|n IH]; intros i s H.
  - cbn [for_up]. rewrite Z.add_0_r in H. rewrite H. reflexivity.
  - change (for_up (Datatypes.S (Datatypes.S n)) i body s) with (match body i s with Some s => for_up (Datatypes.S n) (i + 1) body s | None => None end).
    destruct (body i s); [|reflexivity]. apply IH. intros s'. replace (i + 1 + Z.of_nat n) with (i + Z.of_nat (Datatypes.S n)) by lia. apply H.
Qed.
Lemma c_lshd_below b sb : c_lshd b (Z.of_nat (S sb) + -1) (-1) = None.
Proof.
  unfold c_lshd. replace (Z.to_nat (Z.of_nat (S sb) + -1 - -1)) with (S sb) by lia. rewrite for_up_none; [reflexivity|].
  intros s. replace (Z.of_nat (S sb) + -1 - 1 - (0 + Z.of_nat sb)) with (-1) by lia. destruct (rd s _); reflexivity.
Qed.
Lemma c_append_shifted a n a1 ta : length a1 = S n -> ta <> [] -> exists ta', c_append (a1 ++ ta) (S n) (limb a n / 2) = Some (shifted a n a1 ++ ta', length (shifted a n a1)) /\
  (length (shifted a n a1) + length ta' = S n + length ta)%nat.
Proof. intros L N. rewrite <- L. exact (c_append_ok a1 ta _ N). Qed.
Lemma c_divn_big c d a b t1 t2 : words a -> words b -> (1 <= length b <= length a)%nat -> 9223372036854775808 <= limb b (length b - 1) ->
  length c = length a -> length d = length b -> length t1 = 3%nat -> length t2 = 3%nat ->
  (big_ok a b -> exists q r, bn_divn_safe a b = Ok (q, r) /\ c_divn_safe c d a b t1 t2 = Some (q, r)) /\
  (~ big_ok a b -> c_divn_safe c d a b t1 t2 = None).
Proof.
  intros Ha Hb L Ht Lc Ld L1 L2. unfold big_ok. destruct (length b) as [|t] eqn:Lb; [lia|]. destruct (length a) as [|n] eqn:La; [lia|].
  replace (S t - 1)%nat with t in Ht by lia. replace (S n - 1)%nat with n by lia.
  unfold bn_divn_safe, c_divn_safe, bn_divn_low, c_divn_low. cbv zeta. rewrite La, Lb. replace (S t - 1)%nat with t by lia. set (top := limb b t) in *.
  assert (TW : 9223372036854775808 <= top < W) by (split; [exact Ht|]; apply limb_word; exact Hb).
  assert (NRM : (64 - clz64 top) mod 64 = 0).
  { unfold clz64. destruct (Z.eqb_spec top 0) as [|_]; [lia|]. unfold countl_zero. rewrite (top_log top TW). reflexivity. }
  replace (rd_range a 0 (Z.of_nat (S n))) with (Some a) by (rewrite <- La; symmetry; apply rd_range_all; reflexivity).
  replace (rd_range b 0 (Z.of_nat (S t))) with (Some b) by (rewrite <- Lb; symmetry; apply rd_range_all; reflexivity).
  rewrite (wr_range_pre _ a) by (rewrite repeat_length; lia). rewrite (wr_range_pre _ b) by (rewrite repeat_length; lia).
  rewrite !skipn_repeat, La, Lb. replace (S n + 2 - S n)%nat with 2%nat by lia. set (tb := repeat 0 (S n + 2 - S t)).
  assert (Ltb : (S t + length tb = S n + 2)%nat) by (unfold tb; rewrite repeat_length; lia).
  replace (rd (b ++ tb) (Z.of_nat (S t) - 1)) with (Some top).
  2:{ replace (Z.of_nat (S t) - 1) with (Z.of_nat t) by lia. rewrite rd_limb, Nat2Z.id, limb_app by (rewrite ?app_length; lia). reflexivity. }
  rewrite NRM. clear NRM. change (0 <? 63) with true. cbv beta iota. change (63 - 0) with 63.
  pose proof (c_lshb_ok a (repeat 0 2) 63 ltac:(lia)) as SA. pose proof (c_lshb_ok b tb 63 ltac:(lia)) as SB. rewrite La in SA. rewrite Lb in SB. rewrite SA, SB. clear SA SB. unfold bn_lshb_low.
  destruct (shl63 a n Ha La) as (a1 & -> & Ha1 & La1 & Va1). destruct (shl63 b t Hb Lb) as (b1 & -> & Hb1 & Lb1 & Vb1).
  rewrite !append_shifted by (auto; lia). cbn [fst snd].
  destruct (c_append_shifted a n a1 (repeat 0 2) La1 ltac:(discriminate)) as (ta' & -> & Lta).
  destruct (c_append_shifted b t b1 tb Lb1) as (tb' & -> & Ltb'); [intros E; rewrite E in Ltb; cbn [length] in Ltb; lia|].
  destruct (shifted_ok a n a1 Ha Ha1 La1 Va1) as (Wa & _ & UA & LA & IA). destruct (shifted_ok b t b1 Hb Hb1 Lb1 Vb1) as (Wb & _ & UB & _ & IB).
  pose proof (proj2 IB ltac:(fold top; lia)) as LB. set (A := shifted a n a1) in *.
  assert (TOP : 4611686018427387904 <= limb (shifted b t b1) (S t)).
  { unfold shifted. fold top. pose proof (div2_top top TW). destruct (Z.eqb_spec (top / 2) 0) as [|_]; [lia|]. rewrite limb_last by exact Lb1. lia. }
  set (B := shifted b t b1) in *. clearbody A B. clear Va1 Vb1 Ht TW IB Ha1 Hb1 La1 Lb1. split.
  - intros G. assert (LT : (S (S t) <= length A)%nat) by (destruct G as [G|G]; [lia|apply IA in G; lia]).
    replace (length B - 1)%nat with (S t) by lia. destruct (Nat.ltb_spec (length A - 1) (S t)); [lia|].
    destruct (c_div_core (S n + 2) A B ta' tb' (S t) 63 (repeat 0 (S n + 2)) t1 t2 ltac:(lia) Wa Wb LB TOP LT ltac:(lia) ltac:(lia) ltac:(lia) (repeat_length _ _) L1 L2) as (q & r & rest & E1 & E2 & Lr & Lq). clear TOP.
    cbv zeta in E2. rewrite E2.
    assert (FE : forall a2 q2, div_top 8 A (dv_lshd B (length A - 1 - S t)) (limb (repeat 0 (S n + 2)) (length A - 1 - S t)) = Some (a2, q2) -> length a2 = length A) by (apply FE_length; [exact Wa| |]; [unfold dv_lshd; apply words_app; split; [apply words_repeat0|auto]|unfold dv_lshd; rewrite app_length, repeat_length; clear - LT LB; lia]).
    destruct (div_top 8 A _ _) as [[a2 q2]|]; [|discriminate E1]. specialize (FE a2 q2 eq_refl). rewrite FE in E1. rewrite E1. cbn [fst snd].
    exists (firstn (S n) q), (firstn (S t) r). split; [reflexivity|].
    replace (rd_range q 0 (Z.of_nat (S n))) with (Some (firstn (S n) q)).
    2:{ symmetry. rewrite <- (firstn_skipn (S n) q) at 1. apply (rd_range_mid []); [reflexivity|]. rewrite firstn_length. lia. }
    rewrite wr_range_pre by (rewrite firstn_length; lia). rewrite (skipn_all2 c) by (rewrite firstn_length; lia). rewrite app_nil_r.
    replace (rd_range (r ++ rest) 0 (Z.of_nat (S t))) with (Some (firstn (S t) r)).
    2:{ symmetry. rewrite <- (firstn_skipn (S t) r) at 1. rewrite <- app_assoc. apply (rd_range_mid []); [reflexivity|]. rewrite firstn_length. lia. }
    rewrite wr_range_pre by (rewrite firstn_length; lia). rewrite (skipn_all2 d) by (rewrite firstn_length; lia). rewrite app_nil_r. reflexivity.
  - intros G. assert (F : length A = S t).
    { destruct (Nat.eq_dec (length A) (S (S n))) as [E|E]; [exfalso; apply G; right; apply IA, E|]. destruct (Nat.eq_dec n t) as [->|]; [lia|]. exfalso. apply G. left. lia. }
    replace (Z.of_nat (length A) - 1 - (Z.of_nat (length B) - 1)) with (-1) by lia. rewrite LB at 1. rewrite c_lshd_below. reflexivity.
Qed.
