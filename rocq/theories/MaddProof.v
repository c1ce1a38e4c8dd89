(** The portable Montgomery multiplication and squaring. *)
From Coq Require Import ZArith List Bool Lia.
From Verif Require Import ModelWord ModelScalar ModelPrim PortArith ScalarProof CarryProof.
Import ListNotations.
Local Open Scope Z_scope.

Lemma Mul64_ok a b : word a -> word b -> exists hi lo, Mul64 a b = (hi, lo) /\ word hi /\ word lo /\ hi <= W - 2 /\
  a * b = hi * W + lo /\ hi * W + lo <= (W - 1) * (W - 1).
Proof.
  unfold word. intros Ha Hb. unfold Mul64. eexists _, _. split; [reflexivity|].
  pose proof (Z.mod_pos_bound (a * b) W ltac:(reflexivity)). pose proof (Z_div_mod_eq_full (a * b) W).
  assert (B : 0 <= a * b <= (W - 1) * (W - 1)) by nia. pose proof W_pos.
  assert (0 <= a * b / W) by (apply Z.div_pos; lia).
  assert (a * b / W < W - 1) by (apply Z.div_lt_upper_bound; [lia|]; unfold W in *; lia).
  lia.
Qed.
Ltac bit0 := left; reflexivity.
Ltac st1 H := let s := fresh "s" in let k := fresh "k" in let e := fresh "E" in
  destruct H as (s & k & e & ? & ? & ?); rewrite e; cbn [fst snd].
Ltac nzone := intros (? & ?); first [discriminate | unfold W, bit, word in *; lia].
Lemma madd1_ok a b c : word a -> word b -> word c ->
  exists hi lo, madd1 a b c = (hi, lo) /\ word hi /\ word lo /\ a * b + c = hi * W + lo.
Proof.
  intros Ha Hb Hc. unfold madd1. destruct (Mul64_ok a b Ha Hb) as (h & l & -> & Hh & Hl & B & E & _).
  destruct (Add64_ok l c 0 Hl Hc ltac:(bit0) ltac:(nzone)) as (s & k & -> & ? & Hk & E1).
  destruct (Add64_ok h 0 k Hh word0 Hk ltac:(nzone)) as (s' & k' & -> & ? & Hk' & E2). cbn [fst].
  exists s', s. split; [reflexivity|]; split; [assumption|]; split; [assumption|]. unfold word, bit, W in *. lia.
Qed.
Lemma madd0_ok a b c : word a -> word b -> word c ->
  exists lo, word (madd0 a b c) /\ word lo /\ a * b + c = madd0 a b c * W + lo.
Proof.
  intros Ha Hb Hc. destruct (madd1_ok a b c Ha Hb Hc) as (h & l & E & Hh & Hl & V).
  assert (X : madd0 a b c = fst (madd1 a b c)) by (unfold madd0, madd1; destruct (Mul64 a b); destruct (Add64 _ _ _); reflexivity).
  rewrite X, E. exists l. auto.
Qed.
Lemma madd2_ok a b c d : word a -> word b -> word c -> word d ->
  exists hi lo, madd2 a b c d = (hi, lo) /\ word hi /\ word lo /\ a * b + c + d = hi * W + lo.
Proof.
  intros Ha Hb Hc Hd. unfold madd2. destruct (Mul64_ok a b Ha Hb) as (h & l & -> & Hh & Hl & B & E & U).
  destruct (Add64_ok c d 0 Hc Hd ltac:(bit0) ltac:(nzone)) as (s & k & -> & ? & Hk & E1).
  destruct (Add64_ok h 0 k Hh word0 Hk ltac:(nzone)) as (h1 & k1 & -> & ? & Hk1 & E2).
  destruct (Add64_ok l s 0 Hl ltac:(auto) ltac:(bit0) ltac:(nzone)) as (l1 & k2 & -> & ? & Hk2 & E3).
  destruct (Add64_ok h1 0 k2 ltac:(auto) word0 Hk2 ltac:(nzone)) as (h2 & k3 & -> & ? & Hk3 & E4). cbn [fst].
  exists h2, l1. split; [reflexivity|]; split; [assumption|]; split; [assumption|]. unfold word, bit, W in *. lia.
Qed.
Lemma madd3_ok a b c d e : word a -> word b -> word c -> word d -> word e ->
  exists hi lo q, madd3 a b c d e = (hi, lo) /\ word hi /\ word lo /\ 0 <= q /\ a * b + c + d + e * W = hi * W + lo + q * (W * W).
Proof.
  intros Ha Hb Hc Hd He. unfold madd3. destruct (Mul64_ok a b Ha Hb) as (h & l & -> & Hh & Hl & B & E & U).
  destruct (Add64_ok c d 0 Hc Hd ltac:(bit0) ltac:(nzone)) as (s & k & -> & ? & Hk & E1).
  destruct (Add64_ok h 0 k Hh word0 Hk ltac:(nzone)) as (h1 & k1 & -> & ? & Hk1 & E2).
  destruct (Add64_ok l s 0 Hl ltac:(auto) ltac:(bit0) ltac:(nzone)) as (l1 & k2 & -> & ? & Hk2 & E3).
  pose proof (Z.mod_pos_bound (h1 + e + k2) W ltac:(reflexivity)). pose proof (Z_div_mod_eq_full (h1 + e + k2) W) as D.
  assert (0 <= (h1 + e + k2) / W) by (apply Z.div_pos; [unfold word, bit in *; lia|reflexivity]).
  rewrite Add64_sum.
  exists ((h1 + e + k2) mod W), l1, ((h1 + e + k2) / W). split; [reflexivity|]; split; [assumption|]; split; [assumption|]; split; [assumption|].
  revert D. generalize ((h1 + e + k2) mod W) ((h1 + e + k2) / W). intros. unfold word, bit, W in *. lia.
Qed.

(** the quotient digit makes the low word vanish *)
Lemma inp_cancel c lo m h : word lo -> m = (c * INP) mod W -> m * 0xb9feffffffffaaab + c = h * W + lo -> lo = 0.
Proof.
  unfold word. intros Hl -> E.
  assert (Z : (((c * INP) mod W) * 0xb9feffffffffaaab + c) mod W = 0).
  { rewrite Zplus_mod, Zmult_mod_idemp_l, <- Zplus_mod.
    replace (c * INP * 0xb9feffffffffaaab + c) with (c * ((INP * 0xb9feffffffffaaab + 1) / W) * W).
    - apply Z_mod_mult.
    - change (INP * 0xb9feffffffffaaab + 1) with ((INP * 0xb9feffffffffaaab + 1) / W * W) at 2 || idtac.
      assert (K : INP * 0xb9feffffffffaaab + 1 = (INP * 0xb9feffffffffaaab + 1) / W * W) by reflexivity.
      rewrite <- Z.mul_assoc. rewrite <- K. ring. }
  rewrite E in Z. rewrite Z.add_comm, Z_mod_plus_full, Z.mod_small in Z; auto.
Qed.

Lemma list6 {A} (x : list A) : length x = 6%nat -> exists a b c d e f, x = [a; b; c; d; e; f].
Proof. intros H. do 6 (destruct x as [|? x]; [discriminate H|]). destruct x; [|discriminate H]. repeat eexists. Qed.
Ltac six_word H := let L := fresh in pose proof H as L; repeat (apply Forall_cons_iff in L; destruct L as [? L]); clear L.
Lemma six_intro a b c d e f : word a -> word b -> word c -> word d -> word e -> word f -> six [a; b; c; d; e; f].
Proof. intros. split; [reflexivity|]. repeat constructor; try apply H; try apply H0; try apply H1; try apply H2; try apply H3; apply H4. Qed.

(** the six column equations of one round add up *)
Lemma round_sum t0 t1 t2 t3 t4 t5 a0 a1 a2 a3 a4 a5 n0 n1 n2 n3 n4 n5
  c0 c1 d0 d1 e0 e1 f0 f1 g0 g1 h0 h1 k0 k1 k2 k3 k4 r0 r1 r2 r3 r4 r5 q :
  a0 + t0 = c1 * W + c0 -> n0 + c0 = k0 * W ->
  a1 + c1 + t1 = d1 * W + d0 -> n1 + k0 + d0 = k1 * W + r0 ->
  a2 + d1 + t2 = e1 * W + e0 -> n2 + k1 + e0 = k2 * W + r1 ->
  a3 + e1 + t3 = f1 * W + f0 -> n3 + k2 + f0 = k3 * W + r2 ->
  a4 + f1 + t4 = g1 * W + g0 -> n4 + k3 + g0 = k4 * W + r3 ->
  a5 + g1 + t5 = h1 * W + h0 -> n5 + h0 + k4 + h1 * W = r5 * W + r4 + q * (W * W) ->
  W * (val [r0; r1; r2; r3; r4; r5] + R384 * q) =
    val [t0; t1; t2; t3; t4; t5] + val [a0; a1; a2; a3; a4; a5] + val [n0; n1; n2; n3; n4; n5].
Proof. intros. rewrite R384_W. change (W ^ Z.of_nat 6) with (W * (W * (W * (W * (W * W))))). cbn [val]. unfold W in *. lia. Qed.
Lemma val_scale v a b c d e f : v * val [a; b; c; d; e; f] = val [v * a; v * b; v * c; v * d; v * e; v * f].
Proof. cbn [val]. ring. Qed.

Definition PW : Z := R384.
Lemma p_round_ok v y t : word v -> six y -> six t -> val y + MODULUS <= R384 -> val t < val y + MODULUS ->
  six (p_round v y t) /\ val (p_round v y t) < val y + MODULUS /\
  exists m, 0 <= m < W /\ W * val (p_round v y t) = val t + v * val y + m * MODULUS.
Proof.
  intros Hv (Ly & Hy) (Lt & Ht) B Bt.
  destruct (list6 y Ly) as (y0 & y1 & y2 & y3 & y4 & y5 & ->). destruct (list6 t Lt) as (t0 & t1 & t2 & t3 & t4 & t5 & ->).
  six_word Hy. six_word Ht. six_word (proj2 MODl_six).
  unfold p_round. unfold limb, MODl. cbn [nth].
  pose proof (eq_sym MODl_val) as PM. unfold MODl in PM.
  set (p0 := 0xb9feffffffffaaab) in *. set (p1 := 0x1eabfffeb153ffff) in *. set (p2 := 0x6730d2a0f6b0f624) in *.
  set (p3 := 0x64774b84f38512bf) in *. set (p4 := 0x4b1ba7b6434bacd7) in *. set (p5 := 0x1a0111ea397fe69a) in *.
  destruct (madd1_ok v y0 t0) as (c1 & c0 & -> & ? & ? & E1); auto.
  assert (Hm : word ((c0 * INP) mod W)) by (apply Z.mod_pos_bound; reflexivity).
  remember ((c0 * INP) mod W) as m eqn:Em.
  destruct (madd0_ok m p0 c0) as (z & W0 & Hz & E2); auto.
  assert (z = 0) by (eapply inp_cancel; eauto). subst z. rewrite Z.add_0_r in E2. remember (madd0 m p0 c0) as k0 eqn:Ek. clear Ek.
  destruct (madd2_ok v y1 c1 t1) as (d1 & d0 & -> & ? & ? & E3); auto.
  destruct (madd2_ok m p1 k0 d0) as (k1 & r0 & -> & ? & ? & E4); auto.
  destruct (madd2_ok v y2 d1 t2) as (e1 & e0 & -> & ? & ? & E5); auto.
  destruct (madd2_ok m p2 k1 e0) as (k2 & r1 & -> & ? & ? & E6); auto.
  destruct (madd2_ok v y3 e1 t3) as (f1 & f0 & -> & ? & ? & E7); auto.
  destruct (madd2_ok m p3 k2 f0) as (k3 & r2 & -> & ? & ? & E8); auto.
  destruct (madd2_ok v y4 f1 t4) as (g1 & g0 & -> & ? & ? & E9); auto.
  destruct (madd2_ok m p4 k3 g0) as (k4 & r3 & -> & ? & ? & E10); auto.
  destruct (madd2_ok v y5 g1 t5) as (h1 & h0 & -> & ? & ? & E11); auto.
  destruct (madd3_ok m p5 h0 k4 h1) as (r5 & r4 & q & -> & ? & ? & Hq & E12); auto.
  pose proof (round_sum _ _ _ _ _ _ _ _ _ _ _ _ _ _ _ _ _ _ _ _ _ _ _ _ _ _ _ _ _ _ _ _ _ _ _ _ _ _ _ _ _ _
    E1 E2 E3 E4 E5 E6 E7 E8 E9 E10 E11 E12) as S.
  rewrite <- !val_scale, <- PM in S.
  assert (S6 : six [r0; r1; r2; r3; r4; r5]) by (apply six_intro; auto).
  pose proof (six_bound _ S6) as B6.
  assert (By : 0 <= val [y0; y1; y2; y3; y4; y5]) by (apply val_nonneg; auto).
  revert S B6 B Bt By. clear - Hv Hm S6 Hq.
  generalize dependent (val [r0; r1; r2; r3; r4; r5]). intros T.
  generalize (val [y0; y1; y2; y3; y4; y5]) (val [t0; t1; t2; t3; t4; t5]). intros Y t S B6 B Bt By.
  assert (PP : 0 < MODULUS) by reflexivity. assert (PR : 0 < R384) by reflexivity.
  generalize dependent MODULUS. generalize dependent R384. intros P B6 PR M S B Bt PP.
  unfold word in *.
  assert (U : W * (T + P * q) < W * (Y + M)) by nia.
  assert (U2 : T + P * q < Y + M) by (pose proof W_pos; nia).
  assert (q = 0) by nia. subst q. rewrite Z.mul_0_r, Z.add_0_r in *.
  split; [exact S6|]. split; [lia|]. exists m. split; [lia|]. exact S.
Qed.
Lemma p_round0_eq v y : word v -> six y -> p_round0 v y = p_round v y [0; 0; 0; 0; 0; 0].
Proof.
  intros Hv (Ly & Hy). destruct (list6 y Ly) as (y0 & y1 & y2 & y3 & y4 & y5 & ->). six_word Hy.
  unfold p_round0, p_round, limb. cbn [nth].
  assert (X0 : forall b, word b -> Mul64 v b = madd1 v b 0).
  { intros b Hb. destruct (madd1_ok v b 0 Hv Hb word0) as (h & l & -> & Hh & Hl & E). unfold Mul64. unfold word in *.
    rewrite Z.add_0_r in E. f_equal.
    - symmetry. apply Z.div_unique with l; lia.
    - symmetry. apply Z.mod_unique with h; lia. }
  assert (X1 : forall b c, word b -> word c -> madd1 v b c = madd2 v b c 0 /\ word (fst (madd1 v b c))).
  { intros b c Hb Hc. destruct (madd1_ok v b c Hv Hb Hc) as (h & l & -> & Hh & Hl & E).
    destruct (madd2_ok v b c 0 Hv Hb Hc word0) as (h' & l' & -> & Hh' & Hl' & E'). split; [|auto]. unfold word in *.
    assert (h = h') by nia. subst h'. f_equal. lia. }
  rewrite X0 by auto. destruct (madd1_ok v y0 0 Hv ltac:(auto) word0) as (c1 & c0 & -> & ? & ? & E1).
  assert (St : forall b c, word b -> word c -> madd1 v b c = madd2 v b c 0) by (intros; apply X1; auto).
  assert (Wd : forall b c, word b -> word c -> exists h l, madd2 v b c 0 = (h, l) /\ word h).
  { intros b c Hb Hc. rewrite <- St by auto. destruct (X1 b c Hb Hc) as [_ X]. destruct (madd1 v b c) as [h l]. eauto. }
  assert (K : forall b c, word b -> word c -> exists h l, madd1 v b c = (h, l) /\ madd2 v b c 0 = (h, l) /\ word h).
  { intros b c Hb Hc. destruct (Wd b c Hb Hc) as (h & l & E & H'). exists h, l. rewrite St; auto. }
  destruct (K y1 c1 ltac:(auto) ltac:(auto)) as (d1 & d0 & -> & -> & ?) . destruct (madd2 _ _ _ _) as [k1 r0].
  destruct (K y2 d1 ltac:(auto) ltac:(auto)) as (e1 & e0 & -> & -> & ?) . destruct (madd2 _ _ _ _) as [k2 r1].
  destruct (K y3 e1 ltac:(auto) ltac:(auto)) as (f1 & f0 & -> & -> & ?) . destruct (madd2 _ _ _ _) as [k3 r2].
  destruct (K y4 f1 ltac:(auto) ltac:(auto)) as (g1 & g0 & -> & -> & ?) . destruct (madd2 _ _ _ _) as [k4 r3].
  destruct (K y5 g1 ltac:(auto) ltac:(auto)) as (h1 & h0 & -> & -> & ?). reflexivity.
Qed.
From Verif Require Import AsmProof2.
Lemma six_rounds x0 x1 x2 x3 x4 x5 Y M t1 t2 t3 t4 t5 t6 m0 m1 m2 m3 m4 m5 :
  W * t1 = 0 + x0 * Y + m0 * M -> W * t2 = t1 + x1 * Y + m1 * M -> W * t3 = t2 + x2 * Y + m2 * M ->
  W * t4 = t3 + x3 * Y + m3 * M -> W * t5 = t4 + x4 * Y + m4 * M -> W * t6 = t5 + x5 * Y + m5 * M ->
  R384 * (t6 + R384 * 0) = val [x0; x1; x2; x3; x4; x5] * Y + val [m0; m1; m2; m3; m4; m5] * M.
Proof.
  intros. rewrite R384_W. change (W ^ Z.of_nat 6) with (W * (W * (W * (W * (W * W))))).
  rewrite <- (Z.mul_comm Y), <- (Z.mul_comm M), !val_scale. cbn [val].
  rewrite (Z.mul_comm x0), (Z.mul_comm x1), (Z.mul_comm x2), (Z.mul_comm x3), (Z.mul_comm x4), (Z.mul_comm x5) in *.
  rewrite (Z.mul_comm m0), (Z.mul_comm m1), (Z.mul_comm m2), (Z.mul_comm m3), (Z.mul_comm m4), (Z.mul_comm m5) in *.
  unfold W in *. lia.
Qed.
Lemma p_multiply_ok x y : six x -> six y -> val y + MODULUS <= R384 ->
  six (p_multiply x y) /\ val (p_multiply x y) = fp_mul (val x) (val y).
Proof.
  intros (Lx & Hx) Hy B. destruct (list6 x Lx) as (x0 & x1 & x2 & x3 & x4 & x5 & ->). six_word Hx.
  unfold p_multiply, limb. cbn [nth]. rewrite p_round0_eq by auto.
  assert (S0 : six [0; 0; 0; 0; 0; 0]) by (apply six_intro; apply word0).
  assert (BY : 0 <= val y) by (apply val_nonneg, Hy).
  destruct (p_round_ok x0 y [0; 0; 0; 0; 0; 0]) as (S1 & B1 & m0 & M0 & E0); auto.
  { change (val [0; 0; 0; 0; 0; 0]) with 0. assert (0 < MODULUS) by reflexivity. lia. }
  change (val [0; 0; 0; 0; 0; 0]) with 0 in E0.
  remember (p_round x0 y _) as T1 eqn:Eq. clear Eq.
  destruct (p_round_ok x1 y T1) as (S2 & B2 & m1 & M1 & E1); auto. remember (p_round x1 y _) as T2 eqn:Eq. clear Eq.
  destruct (p_round_ok x2 y T2) as (S3 & B3 & m2 & M2 & E2); auto. remember (p_round x2 y _) as T3 eqn:Eq. clear Eq.
  destruct (p_round_ok x3 y T3) as (S4 & B4 & m3 & M3 & E3); auto. remember (p_round x3 y _) as T4 eqn:Eq. clear Eq.
  destruct (p_round_ok x4 y T4) as (S5 & B5 & m4 & M4 & E4); auto. remember (p_round x4 y _) as T5 eqn:Eq. clear Eq.
  destruct (p_round_ok x5 y T5) as (S6 & B6 & m5 & M5 & E5); auto. remember (p_round x5 y _) as T6 eqn:Eq. clear Eq.
  pose proof (six_rounds _ _ _ _ _ _ _ _ _ _ _ _ _ _ _ _ _ _ _ _ E0 E1 E2 E3 E4 E5) as S.
  assert (Sm : six [m0; m1; m2; m3; m4; m5]) by (apply six_intro; assumption).
  destruct (reduce_once_ok T6 S6) as (R1' & R2'). split; [auto|]. rewrite R2'. symmetry.
  exact (fp_mul_char _ _ _ _ _ (six_bound _ Sm) (six_bound _ S6) S).
Qed.

(** ** Squaring: exact when no doubled product has one of the three largest values in its upper word *)
Definition spare (a b : Z) : Prop := (2 * (a * b)) mod (W * W) < W * W - 3 * W.
Definition small (a : Z) : Prop := 0 <= a < 4611686018427387904.
Lemma small_is_word a : small a -> word a. Proof. unfold small, word, W. lia. Qed.
Lemma doubled a b : word a -> word b -> spare a b -> exists h l l1 k h1 sh, Mul64 a b = (h, l) /\ Add64 l l 0 = (l1, k) /\ Add64 h h k = (h1, sh) /\
  0 <= h1 < W - 3 /\ word l1 /\ bit sh /\ 2 * (a * b) = sh * (W * W) + h1 * W + l1.
Proof.
  intros Ha Hb S. destruct (Mul64_ok a b Ha Hb) as (h & l & E & Hh & Hl & Hb2 & V & _).
  destruct (Add64_ok l l 0 Hl Hl ltac:(bit0) ltac:(nzone)) as (l1 & k & E1 & H1 & Hk & V1).
  destruct (Add64_ok h h k Hh Hh Hk) as (h1 & sh & E2 & H2 & Hsh & V2). { intros [X _]. lia. }
  exists h, l, l1, k, h1, sh. assert (D : 2 * (a * b) = sh * (W * W) + h1 * W + l1) by (rewrite V; unfold word, bit, W in *; lia).
  assert (B : 0 <= h1 < W - 3); [|auto 10].
  unfold spare in S. rewrite D in S.
  replace ((sh * (W * W) + h1 * W + l1) mod (W * W)) with (h1 * W + l1) in S.
  - unfold word, W in *. lia.
  - apply (Z.mod_unique_pos _ _ sh); [unfold word, W in *; lia|ring].
Qed.
Lemma spare_small a b : word a -> small b -> spare a b /\ 2 * (a * b) < 255211775190703847597530955573826158592.
Proof.
  intros Ha Hb. assert (0 <= 2 * (a * b) <= 2 * (18446744073709551615 * 4611686018427387903)) by (unfold word, W, small in *; nia).
  unfold spare. rewrite Z.mod_small; unfold W in *; lia.
Qed.
Lemma madd2s_ok a b c d e : word a -> word b -> word c -> bit d -> word e -> spare a b ->
  exists t hi lo, madd2s a b c d e = (t, hi, lo) /\ bit t /\ word hi /\ word lo /\ 2 * (a * b) + e + c + d * W = (hi + t * W) * W + lo.
Proof.
  intros Ha Hb Hc Hd He S. unfold madd2s. destruct (doubled a b Ha Hb S) as (h & l & l1 & k & h1 & sh & -> & -> & -> & Hh & Hl & Hs & V).
  assert (Hh' : word h1) by (unfold word, W in *; lia).
  destruct (Add64_ok c e 0 Hc He ltac:(bit0) ltac:(nzone)) as (s & k1 & -> & ? & Hk1 & E3).
  destruct (Add64_ok h1 0 k1 ltac:(auto) word0 Hk1 ltac:(nzone)) as (h2 & k2 & -> & ? & Hk2 & E4).
  destruct (Add64_ok l1 s 0 ltac:(auto) ltac:(auto) ltac:(bit0) ltac:(nzone)) as (l2 & k3 & -> & ? & Hk3 & E5).
  destruct (Add64_ok h2 0 k3 ltac:(auto) word0 Hk3 ltac:(nzone)) as (h3 & k4 & -> & ? & Hk4 & E6).
  destruct (Add64_ok h3 0 d ltac:(auto) word0 Hd ltac:(nzone)) as (h4 & k5 & -> & ? & Hk5 & E7).
  exists sh, h4, l2. split; [reflexivity|]; split; [assumption|]; split; [assumption|]; split; [assumption|]. rewrite V. clear V S Ha Hb. unfold word, bit, W in *. lia.
Qed.
Lemma madd2s_top a b c d e : word a -> small b -> word c -> bit d -> word e ->
  exists hi lo, madd2s a b c d e = (0, hi, lo) /\ word hi /\ word lo /\ 2 * (a * b) + e + c + d * W = hi * W + lo.
Proof.
  intros Ha Hb Hc Hd He. pose proof (small_is_word _ Hb) as Hb'. destruct (spare_small a b Ha Hb) as (S & Q).
  destruct (madd2s_ok a b c d e Ha Hb' Hc Hd He S) as (t & hi & lo & E & Ht & Hh & Hl & V).
  assert (t = 0); [|subst t; exists hi, lo; split; [exact E|]; split; [exact Hh|]; split; [exact Hl|]; rewrite V; ring].
  clear E. revert V Q. generalize (a * b). intros. unfold word, bit, W in *. lia.
Qed.
Lemma madd2sb_ok a b c e : word a -> word b -> word c -> word e -> spare a b ->
  exists t hi lo, madd2sb a b c e = (t, hi, lo) /\ bit t /\ word hi /\ word lo /\ 2 * (a * b) + e + c = (hi + t * W) * W + lo.
Proof.
  intros Ha Hb Hc He S. unfold madd2sb. destruct (doubled a b Ha Hb S) as (h & l & l1 & k & h1 & sh & -> & -> & -> & Hh & Hl & Hs & V).
  assert (Hh' : word h1) by (unfold word, W in *; lia).
  destruct (Add64_ok c e 0 Hc He ltac:(bit0) ltac:(nzone)) as (s & k1 & -> & ? & Hk1 & E3).
  destruct (Add64_ok h1 0 k1 ltac:(auto) word0 Hk1 ltac:(nzone)) as (h2 & k2 & -> & ? & Hk2 & E4).
  destruct (Add64_ok l1 s 0 ltac:(auto) ltac:(auto) ltac:(bit0) ltac:(nzone)) as (l2 & k3 & -> & ? & Hk3 & E5).
  destruct (Add64_ok h2 0 k3 ltac:(auto) word0 Hk3 ltac:(nzone)) as (h3 & k4 & -> & ? & Hk4 & E6).
  exists sh, h3, l2. split; [reflexivity|]; split; [assumption|]; split; [assumption|]; split; [assumption|]. rewrite V. clear V S Ha Hb. unfold word, bit, W in *. lia.
Qed.
Lemma madd2sb_top a b c e : word a -> small b -> word c -> word e ->
  exists hi lo, madd2sb a b c e = (0, hi, lo) /\ word hi /\ word lo /\ 2 * (a * b) + e + c = hi * W + lo.
Proof.
  intros Ha Hb Hc He. pose proof (small_is_word _ Hb) as Hb'. destruct (spare_small a b Ha Hb) as (S & Q).
  destruct (madd2sb_ok a b c e Ha Hb' Hc He S) as (t & hi & lo & E & Ht & Hh & Hl & V).
  assert (t = 0); [|subst t; exists hi, lo; split; [exact E|]; split; [exact Hh|]; split; [exact Hl|]; rewrite V; ring].
  clear E. revert V Q. generalize (a * b). intros. unfold word, bit, W in *. lia.
Qed.
Lemma madd1s_ok a b d e : word a -> word b -> bit d -> word e -> spare a b ->
  exists t hi lo, madd1s a b d e = (t, hi, lo) /\ bit t /\ word hi /\ word lo /\ 2 * (a * b) + e + 0 + d * W = (hi + t * W) * W + lo.
Proof.
  intros Ha Hb Hd He S. unfold madd1s. destruct (doubled a b Ha Hb S) as (h & l & l1 & k & h1 & sh & -> & -> & -> & Hh & Hl & Hs & V).
  assert (Hh' : word h1) by (unfold word, W in *; lia).
  destruct (Add64_ok l1 e 0 ltac:(auto) ltac:(auto) ltac:(bit0) ltac:(nzone)) as (l2 & k3 & -> & ? & Hk3 & E5).
  destruct (Add64_ok h1 0 k3 ltac:(auto) word0 Hk3 ltac:(nzone)) as (h3 & k4 & -> & ? & Hk4 & E6).
  destruct (Add64_ok h3 0 d ltac:(auto) word0 Hd ltac:(nzone)) as (h4 & k5 & -> & ? & Hk5 & E7).
  exists sh, h4, l2. split; [reflexivity|]; split; [assumption|]; split; [assumption|]; split; [assumption|]. rewrite V. clear V S Ha Hb. unfold word, bit, W in *. lia.
Qed.
Lemma madd1s_top a b d e : word a -> small b -> bit d -> word e ->
  exists hi lo, madd1s a b d e = (0, hi, lo) /\ word hi /\ word lo /\ 2 * (a * b) + e + 0 + d * W = hi * W + lo.
Proof.
  intros Ha Hb Hd He. pose proof (small_is_word _ Hb) as Hb'. destruct (spare_small a b Ha Hb) as (S & Q).
  destruct (madd1s_ok a b d e Ha Hb' Hd He S) as (t & hi & lo & E & Ht & Hh & Hl & V).
  assert (t = 0); [|subst t; exists hi, lo; split; [exact E|]; split; [exact Hh|]; split; [exact Hl|]; rewrite V; ring].
  clear E. revert V Q. generalize (a * b). intros. unfold word, bit, W in *. lia.
Qed.
Lemma madd1sb_ok a b e : word a -> word b -> word e -> spare a b ->
  exists t hi lo, madd1sb a b e = (t, hi, lo) /\ bit t /\ word hi /\ word lo /\ 2 * (a * b) + e + 0 = (hi + t * W) * W + lo.
Proof.
  intros Ha Hb He S. unfold madd1sb. destruct (doubled a b Ha Hb S) as (h & l & l1 & k & h1 & sh & -> & -> & -> & Hh & Hl & Hs & V).
  assert (Hh' : word h1) by (unfold word, W in *; lia).
  destruct (Add64_ok l1 e 0 ltac:(auto) ltac:(auto) ltac:(bit0) ltac:(nzone)) as (l2 & k3 & -> & ? & Hk3 & E5).
  destruct (Add64_ok h1 0 k3 ltac:(auto) word0 Hk3 ltac:(nzone)) as (h3 & k4 & -> & ? & Hk4 & E6).
  exists sh, h3, l2. split; [reflexivity|]; split; [assumption|]; split; [assumption|]; split; [assumption|]. rewrite V. clear V S Ha Hb. unfold word, bit, W in *. lia.
Qed.
(** one round: the columns a_j added to t, then m*p, shifted down one limb; the result stays below 2^384 *)
Definition sq_step (a t r : list Z) : Prop :=
  six r /\ exists m q, 0 <= m < W /\ 0 <= q /\ W * (val r + R384 * q) = val t + val a + m * MODULUS.
Lemma sq_exact a t r A B : sq_step a t r -> val t <= A -> val a <= B -> A + B + (W - 1) * MODULUS < W * R384 ->
  exists m, 0 <= m < W /\ W * val r = val t + val a + m * MODULUS.
Proof.
  intros (Hr & m & q & Hm & Hq & E) HA HB H. exists m. split; [auto|].
  assert (q = 0); [|subst q; lia].
  pose proof (six_bound r Hr) as Br. revert H E Br Hm Hq HA HB. clear.
  assert (0 < MODULUS) by reflexivity. assert (0 < R384) by reflexivity. pose proof W_pos.
  generalize dependent MODULUS. generalize dependent R384. generalize (val r) (val t) (val a). intros. nia.
Qed.
Lemma sq_total x0 x1 x2 x3 x4 x5 M m0 m1 m2 m3 m4 m5 t1 t2 t3 t4 t5 t6 :
  W * t1 = 0 + val [x0 * x0; 2 * (x0 * x1); 2 * (x0 * x2); 2 * (x0 * x3); 2 * (x0 * x4); 2 * (x0 * x5)] + m0 * M ->
  W * t2 = t1 + val [0; x1 * x1; 2 * (x1 * x2); 2 * (x1 * x3); 2 * (x1 * x4); 2 * (x1 * x5)] + m1 * M ->
  W * t3 = t2 + val [0; 0; x2 * x2; 2 * (x2 * x3); 2 * (x2 * x4); 2 * (x2 * x5)] + m2 * M ->
  W * t4 = t3 + val [0; 0; 0; x3 * x3; 2 * (x3 * x4); 2 * (x3 * x5)] + m3 * M ->
  W * t5 = t4 + val [0; 0; 0; 0; x4 * x4; 2 * (x4 * x5)] + m4 * M ->
  W * t6 = t5 + val [0; 0; 0; 0; 0; x5 * x5] + m5 * M ->
  R384 * (t6 + R384 * 0) = val [x0; x1; x2; x3; x4; x5] * val [x0; x1; x2; x3; x4; x5] + val [m0; m1; m2; m3; m4; m5] * M.
Proof.
  intros. rewrite R384_W. change (W ^ Z.of_nat 6) with (W * (W * (W * (W * (W * W))))).
  rewrite Z.mul_0_r, Z.add_0_r.
  rewrite <- !Z.mul_assoc.
  do 5 (match goal with |- W * (W * ?r) = _ => idtac end; idtac).
  rewrite H4.
  replace (W * (W * (W * (W * (W * (t5 + val [0; 0; 0; 0; 0; x5 * x5] + m5 * M))))))
    with (W * (W * (W * (W * (W * t5 + W * (val [0; 0; 0; 0; 0; x5 * x5] + m5 * M)))))) by ring.
  rewrite H3.
  match goal with |- W * (W * (W * (W * (t4 + ?a + ?b + ?c)))) = _ =>
    replace (W * (W * (W * (W * (t4 + a + b + c))))) with (W * (W * (W * (W * t4 + W * (a + b + c))))) by ring end.
  rewrite H2.
  match goal with |- W * (W * (W * (t3 + ?a + ?b + ?c))) = _ =>
    replace (W * (W * (W * (t3 + a + b + c)))) with (W * (W * (W * t3 + W * (a + b + c)))) by ring end.
  rewrite H1.
  match goal with |- W * (W * (t2 + ?a + ?b + ?c)) = _ =>
    replace (W * (W * (t2 + a + b + c))) with (W * (W * t2 + W * (a + b + c))) by ring end.
  rewrite H0.
  match goal with |- W * (t1 + ?a + ?b + ?c) = _ =>
    replace (W * (t1 + a + b + c)) with (W * t1 + W * (a + b + c)) by ring end.
  rewrite H. clear. cbn [val]. ring.
Qed.

Lemma p_square_steps x0 x1 x2 x3 x4 x5 : word x0 -> word x1 -> word x2 -> word x3 -> word x4 -> small x5 ->
  spare x0 x1 -> spare x0 x2 -> spare x0 x3 -> spare x0 x4 -> spare x1 x2 -> spare x1 x3 -> spare x1 x4 -> spare x2 x3 -> spare x2 x4 -> spare x3 x4 ->
  exists t1 t2 t3 t4 t5 t6, p_square [x0; x1; x2; x3; x4; x5] = reduce_once t6 /\
    sq_step [x0 * x0; 2 * (x0 * x1); 2 * (x0 * x2); 2 * (x0 * x3); 2 * (x0 * x4); 2 * (x0 * x5)] [0; 0; 0; 0; 0; 0] t1 /\
    sq_step [0; x1 * x1; 2 * (x1 * x2); 2 * (x1 * x3); 2 * (x1 * x4); 2 * (x1 * x5)] t1 t2 /\
    sq_step [0; 0; x2 * x2; 2 * (x2 * x3); 2 * (x2 * x4); 2 * (x2 * x5)] t2 t3 /\
    sq_step [0; 0; 0; x3 * x3; 2 * (x3 * x4); 2 * (x3 * x5)] t3 t4 /\
    sq_step [0; 0; 0; 0; x4 * x4; 2 * (x4 * x5)] t4 t5 /\
    sq_step [0; 0; 0; 0; 0; x5 * x5] t5 t6.
Proof.
  intros X0 X1 X2 X3 X4 X5 Y01 Y02 Y03 Y04 Y12 Y13 Y14 Y23 Y24 Y34.
  pose proof (small_is_word _ X5).
  six_word (proj2 MODl_six).
  unfold p_square. unfold limb, MODl. cbn [nth].
  pose proof (eq_sym MODl_val) as PM. unfold MODl in PM.
  set (p0 := 0xb9feffffffffaaab) in *. set (p1 := 0x1eabfffeb153ffff) in *. set (p2 := 0x6730d2a0f6b0f624) in *.
  set (p3 := 0x64774b84f38512bf) in *. set (p4 := 0x4b1ba7b6434bacd7) in *. set (p5 := 0x1a0111ea397fe69a) in *.
  (* round 0 *)
  destruct (Mul64_ok x0 x0 ltac:(auto) ltac:(auto)) as (u0_0 & v0_0 & -> & ? & ? & _ & A0_0 & _).
  assert (Hm0 : word ((v0_0 * INP) mod W)) by (apply Z.mod_pos_bound; reflexivity).
  remember ((v0_0 * INP) mod W) as m0 eqn:Em0.
  destruct (madd0_ok m0 p0 v0_0 ltac:(auto) ltac:(auto) ltac:(auto)) as (z0 & ? & Hz0 & N0_0).
  assert (z0 = 0) by (eapply inp_cancel; eauto). subst z0. rewrite Z.add_0_r in N0_0. remember (madd0 m0 p0 v0_0) as k0_0 eqn:Ek. clear Ek.
  destruct (madd1sb_ok x0 x1 u0_0 ltac:(auto) ltac:(auto) ltac:(auto) ltac:(auto)) as (s0_1 & u0_1 & v0_1 & -> & ? & ? & ? & A0_1).
  destruct (madd2_ok m0 p1 v0_1 k0_0 ltac:(auto) ltac:(auto) ltac:(auto) ltac:(auto)) as (k0_1 & t1_0 & -> & ? & ? & N0_1).
  destruct (madd1s_ok x0 x2 s0_1 u0_1 ltac:(auto) ltac:(auto) ltac:(auto) ltac:(auto) ltac:(auto)) as (s0_2 & u0_2 & v0_2 & -> & ? & ? & ? & A0_2).
  destruct (madd2_ok m0 p2 v0_2 k0_1 ltac:(auto) ltac:(auto) ltac:(auto) ltac:(auto)) as (k0_2 & t1_1 & -> & ? & ? & N0_2).
  destruct (madd1s_ok x0 x3 s0_2 u0_2 ltac:(auto) ltac:(auto) ltac:(auto) ltac:(auto) ltac:(auto)) as (s0_3 & u0_3 & v0_3 & -> & ? & ? & ? & A0_3).
  destruct (madd2_ok m0 p3 v0_3 k0_2 ltac:(auto) ltac:(auto) ltac:(auto) ltac:(auto)) as (k0_3 & t1_2 & -> & ? & ? & N0_3).
  destruct (madd1s_ok x0 x4 s0_3 u0_3 ltac:(auto) ltac:(auto) ltac:(auto) ltac:(auto) ltac:(auto)) as (s0_4 & u0_4 & v0_4 & -> & ? & ? & ? & A0_4).
  destruct (madd2_ok m0 p4 v0_4 k0_3 ltac:(auto) ltac:(auto) ltac:(auto) ltac:(auto)) as (k0_4 & t1_3 & -> & ? & ? & N0_4).
  destruct (madd1s_top x0 x5 s0_4 u0_4 ltac:(auto) ltac:(auto) ltac:(auto) ltac:(auto)) as (u0_5 & v0_5 & -> & ? & ? & A0_5).
  destruct (madd3_ok m0 p5 v0_5 k0_4 u0_5 ltac:(auto) ltac:(auto) ltac:(auto) ltac:(auto) ltac:(auto)) as (t1_5 & t1_4 & q0 & -> & ? & ? & Hq0 & N0_5).
  assert (S0 : sq_step [x0 * x0; 2 * (x0 * x1); 2 * (x0 * x2); 2 * (x0 * x3); 2 * (x0 * x4); 2 * (x0 * x5)] [0; 0; 0; 0; 0; 0] [t1_0; t1_1; t1_2; t1_3; t1_4; t1_5]).
  { split; [apply six_intro; auto|]. exists m0, q0. split; [auto|]. split; [auto|]. rewrite PM, val_scale.
    refine (eq_trans (round_sum 0 0 0 0 0 0 (x0 * x0) (2 * (x0 * x1)) (2 * (x0 * x2)) (2 * (x0 * x3)) (2 * (x0 * x4)) (2 * (x0 * x5)) (m0 * p0) (m0 * p1) (m0 * p2) (m0 * p3) (m0 * p4) (m0 * p5) v0_0 u0_0 v0_1 (u0_1 + s0_1 * W) v0_2 (u0_2 + s0_2 * W) v0_3 (u0_3 + s0_3 * W) v0_4 (u0_4 + s0_4 * W) v0_5 u0_5 k0_0 k0_1 k0_2 k0_3 k0_4 t1_0 t1_1 t1_2 t1_3 t1_4 t1_5 q0 _ _ _ _ _ _ _ _ _ _ _ _) (eq_refl)); clear - A0_0 A0_1 A0_2 A0_3 A0_4 A0_5 N0_0 N0_1 N0_2 N0_3 N0_4 N0_5; revert A0_0 A0_1 A0_2 A0_3 A0_4 A0_5 N0_0 N0_1 N0_2 N0_3 N0_4 N0_5;
      repeat match goal with |- context [?x * ?y] => lazymatch y with W => fail | _ => lazymatch x with 2 => fail | _ => generalize (x * y); intro end end end; intros; lia. }
  clear A0_0 A0_1 A0_2 A0_3 A0_4 A0_5 N0_0 N0_1 N0_2 N0_3 N0_4 N0_5 Em0 Hm0 Hq0.
  (* round 1 *)
  assert (Hm1 : word ((t1_0 * INP) mod W)) by (apply Z.mod_pos_bound; reflexivity).
  remember ((t1_0 * INP) mod W) as m1 eqn:Em1.
  destruct (madd0_ok m1 p0 t1_0 ltac:(auto) ltac:(auto) ltac:(auto)) as (z1 & ? & Hz1 & N1_0).
  assert (z1 = 0) by (eapply inp_cancel; eauto). subst z1. rewrite Z.add_0_r in N1_0. remember (madd0 m1 p0 t1_0) as k1_0 eqn:Ek. clear Ek.
  destruct (madd1_ok x1 x1 t1_1 ltac:(auto) ltac:(auto) ltac:(auto)) as (u1_1 & v1_1 & -> & ? & ? & A1_1).
  destruct (madd2_ok m1 p1 v1_1 k1_0 ltac:(auto) ltac:(auto) ltac:(auto) ltac:(auto)) as (k1_1 & t2_0 & -> & ? & ? & N1_1).
  destruct (madd2sb_ok x1 x2 t1_2 u1_1 ltac:(auto) ltac:(auto) ltac:(auto) ltac:(auto) ltac:(auto)) as (s1_2 & u1_2 & v1_2 & -> & ? & ? & ? & A1_2).
  destruct (madd2_ok m1 p2 v1_2 k1_1 ltac:(auto) ltac:(auto) ltac:(auto) ltac:(auto)) as (k1_2 & t2_1 & -> & ? & ? & N1_2).
  destruct (madd2s_ok x1 x3 t1_3 s1_2 u1_2 ltac:(auto) ltac:(auto) ltac:(auto) ltac:(auto) ltac:(auto) ltac:(auto)) as (s1_3 & u1_3 & v1_3 & -> & ? & ? & ? & A1_3).
  destruct (madd2_ok m1 p3 v1_3 k1_2 ltac:(auto) ltac:(auto) ltac:(auto) ltac:(auto)) as (k1_3 & t2_2 & -> & ? & ? & N1_3).
  destruct (madd2s_ok x1 x4 t1_4 s1_3 u1_3 ltac:(auto) ltac:(auto) ltac:(auto) ltac:(auto) ltac:(auto) ltac:(auto)) as (s1_4 & u1_4 & v1_4 & -> & ? & ? & ? & A1_4).
  destruct (madd2_ok m1 p4 v1_4 k1_3 ltac:(auto) ltac:(auto) ltac:(auto) ltac:(auto)) as (k1_4 & t2_3 & -> & ? & ? & N1_4).
  destruct (madd2s_top x1 x5 t1_5 s1_4 u1_4 ltac:(auto) ltac:(auto) ltac:(auto) ltac:(auto) ltac:(auto)) as (u1_5 & v1_5 & -> & ? & ? & A1_5).
  destruct (madd3_ok m1 p5 v1_5 k1_4 u1_5 ltac:(auto) ltac:(auto) ltac:(auto) ltac:(auto) ltac:(auto)) as (t2_5 & t2_4 & q1 & -> & ? & ? & Hq1 & N1_5).
  assert (S1 : sq_step [0; x1 * x1; 2 * (x1 * x2); 2 * (x1 * x3); 2 * (x1 * x4); 2 * (x1 * x5)] [t1_0; t1_1; t1_2; t1_3; t1_4; t1_5] [t2_0; t2_1; t2_2; t2_3; t2_4; t2_5]).
  { split; [apply six_intro; auto|]. exists m1, q1. split; [auto|]. split; [auto|]. rewrite PM, val_scale.
    refine (eq_trans (round_sum t1_0 t1_1 t1_2 t1_3 t1_4 t1_5 (0) (x1 * x1) (2 * (x1 * x2)) (2 * (x1 * x3)) (2 * (x1 * x4)) (2 * (x1 * x5)) (m1 * p0) (m1 * p1) (m1 * p2) (m1 * p3) (m1 * p4) (m1 * p5) t1_0 0 v1_1 u1_1 v1_2 (u1_2 + s1_2 * W) v1_3 (u1_3 + s1_3 * W) v1_4 (u1_4 + s1_4 * W) v1_5 u1_5 k1_0 k1_1 k1_2 k1_3 k1_4 t2_0 t2_1 t2_2 t2_3 t2_4 t2_5 q1 _ _ _ _ _ _ _ _ _ _ _ _) (eq_refl)); clear - A1_1 A1_2 A1_3 A1_4 A1_5 N1_0 N1_1 N1_2 N1_3 N1_4 N1_5; revert A1_1 A1_2 A1_3 A1_4 A1_5 N1_0 N1_1 N1_2 N1_3 N1_4 N1_5;
      repeat match goal with |- context [?x * ?y] => lazymatch y with W => fail | _ => lazymatch x with 2 => fail | _ => generalize (x * y); intro end end end; intros; lia. }
  clear A1_1 A1_2 A1_3 A1_4 A1_5 N1_0 N1_1 N1_2 N1_3 N1_4 N1_5 Em1 Hm1 Hq1.
  (* round 2 *)
  assert (Hm2 : word ((t2_0 * INP) mod W)) by (apply Z.mod_pos_bound; reflexivity).
  remember ((t2_0 * INP) mod W) as m2 eqn:Em2.
  destruct (madd0_ok m2 p0 t2_0 ltac:(auto) ltac:(auto) ltac:(auto)) as (z2 & ? & Hz2 & N2_0).
  assert (z2 = 0) by (eapply inp_cancel; eauto). subst z2. rewrite Z.add_0_r in N2_0. remember (madd0 m2 p0 t2_0) as k2_0 eqn:Ek. clear Ek.
  destruct (madd2_ok m2 p1 t2_1 k2_0 ltac:(auto) ltac:(auto) ltac:(auto) ltac:(auto)) as (k2_1 & t3_0 & -> & ? & ? & N2_1).
  destruct (madd1_ok x2 x2 t2_2 ltac:(auto) ltac:(auto) ltac:(auto)) as (u2_2 & v2_2 & -> & ? & ? & A2_2).
  destruct (madd2_ok m2 p2 v2_2 k2_1 ltac:(auto) ltac:(auto) ltac:(auto) ltac:(auto)) as (k2_2 & t3_1 & -> & ? & ? & N2_2).
  destruct (madd2sb_ok x2 x3 t2_3 u2_2 ltac:(auto) ltac:(auto) ltac:(auto) ltac:(auto) ltac:(auto)) as (s2_3 & u2_3 & v2_3 & -> & ? & ? & ? & A2_3).
  destruct (madd2_ok m2 p3 v2_3 k2_2 ltac:(auto) ltac:(auto) ltac:(auto) ltac:(auto)) as (k2_3 & t3_2 & -> & ? & ? & N2_3).
  destruct (madd2s_ok x2 x4 t2_4 s2_3 u2_3 ltac:(auto) ltac:(auto) ltac:(auto) ltac:(auto) ltac:(auto) ltac:(auto)) as (s2_4 & u2_4 & v2_4 & -> & ? & ? & ? & A2_4).
  destruct (madd2_ok m2 p4 v2_4 k2_3 ltac:(auto) ltac:(auto) ltac:(auto) ltac:(auto)) as (k2_4 & t3_3 & -> & ? & ? & N2_4).
  destruct (madd2s_top x2 x5 t2_5 s2_4 u2_4 ltac:(auto) ltac:(auto) ltac:(auto) ltac:(auto) ltac:(auto)) as (u2_5 & v2_5 & -> & ? & ? & A2_5).
  destruct (madd3_ok m2 p5 v2_5 k2_4 u2_5 ltac:(auto) ltac:(auto) ltac:(auto) ltac:(auto) ltac:(auto)) as (t3_5 & t3_4 & q2 & -> & ? & ? & Hq2 & N2_5).
  assert (S2 : sq_step [0; 0; x2 * x2; 2 * (x2 * x3); 2 * (x2 * x4); 2 * (x2 * x5)] [t2_0; t2_1; t2_2; t2_3; t2_4; t2_5] [t3_0; t3_1; t3_2; t3_3; t3_4; t3_5]).
  { split; [apply six_intro; auto|]. exists m2, q2. split; [auto|]. split; [auto|]. rewrite PM, val_scale.
    refine (eq_trans (round_sum t2_0 t2_1 t2_2 t2_3 t2_4 t2_5 (0) (0) (x2 * x2) (2 * (x2 * x3)) (2 * (x2 * x4)) (2 * (x2 * x5)) (m2 * p0) (m2 * p1) (m2 * p2) (m2 * p3) (m2 * p4) (m2 * p5) t2_0 0 t2_1 0 v2_2 u2_2 v2_3 (u2_3 + s2_3 * W) v2_4 (u2_4 + s2_4 * W) v2_5 u2_5 k2_0 k2_1 k2_2 k2_3 k2_4 t3_0 t3_1 t3_2 t3_3 t3_4 t3_5 q2 _ _ _ _ _ _ _ _ _ _ _ _) (eq_refl)); clear - A2_2 A2_3 A2_4 A2_5 N2_0 N2_1 N2_2 N2_3 N2_4 N2_5; revert A2_2 A2_3 A2_4 A2_5 N2_0 N2_1 N2_2 N2_3 N2_4 N2_5;
      repeat match goal with |- context [?x * ?y] => lazymatch y with W => fail | _ => lazymatch x with 2 => fail | _ => generalize (x * y); intro end end end; intros; lia. }
  clear A2_2 A2_3 A2_4 A2_5 N2_0 N2_1 N2_2 N2_3 N2_4 N2_5 Em2 Hm2 Hq2.
  (* round 3 *)
  assert (Hm3 : word ((t3_0 * INP) mod W)) by (apply Z.mod_pos_bound; reflexivity).
  remember ((t3_0 * INP) mod W) as m3 eqn:Em3.
  destruct (madd0_ok m3 p0 t3_0 ltac:(auto) ltac:(auto) ltac:(auto)) as (z3 & ? & Hz3 & N3_0).
  assert (z3 = 0) by (eapply inp_cancel; eauto). subst z3. rewrite Z.add_0_r in N3_0. remember (madd0 m3 p0 t3_0) as k3_0 eqn:Ek. clear Ek.
  destruct (madd2_ok m3 p1 t3_1 k3_0 ltac:(auto) ltac:(auto) ltac:(auto) ltac:(auto)) as (k3_1 & t4_0 & -> & ? & ? & N3_1).
  destruct (madd2_ok m3 p2 t3_2 k3_1 ltac:(auto) ltac:(auto) ltac:(auto) ltac:(auto)) as (k3_2 & t4_1 & -> & ? & ? & N3_2).
  destruct (madd1_ok x3 x3 t3_3 ltac:(auto) ltac:(auto) ltac:(auto)) as (u3_3 & v3_3 & -> & ? & ? & A3_3).
  destruct (madd2_ok m3 p3 v3_3 k3_2 ltac:(auto) ltac:(auto) ltac:(auto) ltac:(auto)) as (k3_3 & t4_2 & -> & ? & ? & N3_3).
  destruct (madd2sb_ok x3 x4 t3_4 u3_3 ltac:(auto) ltac:(auto) ltac:(auto) ltac:(auto) ltac:(auto)) as (s3_4 & u3_4 & v3_4 & -> & ? & ? & ? & A3_4).
  destruct (madd2_ok m3 p4 v3_4 k3_3 ltac:(auto) ltac:(auto) ltac:(auto) ltac:(auto)) as (k3_4 & t4_3 & -> & ? & ? & N3_4).
  destruct (madd2s_top x3 x5 t3_5 s3_4 u3_4 ltac:(auto) ltac:(auto) ltac:(auto) ltac:(auto) ltac:(auto)) as (u3_5 & v3_5 & -> & ? & ? & A3_5).
  destruct (madd3_ok m3 p5 v3_5 k3_4 u3_5 ltac:(auto) ltac:(auto) ltac:(auto) ltac:(auto) ltac:(auto)) as (t4_5 & t4_4 & q3 & -> & ? & ? & Hq3 & N3_5).
  assert (S3 : sq_step [0; 0; 0; x3 * x3; 2 * (x3 * x4); 2 * (x3 * x5)] [t3_0; t3_1; t3_2; t3_3; t3_4; t3_5] [t4_0; t4_1; t4_2; t4_3; t4_4; t4_5]).
  { split; [apply six_intro; auto|]. exists m3, q3. split; [auto|]. split; [auto|]. rewrite PM, val_scale.
    refine (eq_trans (round_sum t3_0 t3_1 t3_2 t3_3 t3_4 t3_5 (0) (0) (0) (x3 * x3) (2 * (x3 * x4)) (2 * (x3 * x5)) (m3 * p0) (m3 * p1) (m3 * p2) (m3 * p3) (m3 * p4) (m3 * p5) t3_0 0 t3_1 0 t3_2 0 v3_3 u3_3 v3_4 (u3_4 + s3_4 * W) v3_5 u3_5 k3_0 k3_1 k3_2 k3_3 k3_4 t4_0 t4_1 t4_2 t4_3 t4_4 t4_5 q3 _ _ _ _ _ _ _ _ _ _ _ _) (eq_refl)); clear - A3_3 A3_4 A3_5 N3_0 N3_1 N3_2 N3_3 N3_4 N3_5; revert A3_3 A3_4 A3_5 N3_0 N3_1 N3_2 N3_3 N3_4 N3_5;
      repeat match goal with |- context [?x * ?y] => lazymatch y with W => fail | _ => lazymatch x with 2 => fail | _ => generalize (x * y); intro end end end; intros; lia. }
  clear A3_3 A3_4 A3_5 N3_0 N3_1 N3_2 N3_3 N3_4 N3_5 Em3 Hm3 Hq3.
  (* round 4 *)
  assert (Hm4 : word ((t4_0 * INP) mod W)) by (apply Z.mod_pos_bound; reflexivity).
  remember ((t4_0 * INP) mod W) as m4 eqn:Em4.
  destruct (madd0_ok m4 p0 t4_0 ltac:(auto) ltac:(auto) ltac:(auto)) as (z4 & ? & Hz4 & N4_0).
  assert (z4 = 0) by (eapply inp_cancel; eauto). subst z4. rewrite Z.add_0_r in N4_0. remember (madd0 m4 p0 t4_0) as k4_0 eqn:Ek. clear Ek.
  destruct (madd2_ok m4 p1 t4_1 k4_0 ltac:(auto) ltac:(auto) ltac:(auto) ltac:(auto)) as (k4_1 & t5_0 & -> & ? & ? & N4_1).
  destruct (madd2_ok m4 p2 t4_2 k4_1 ltac:(auto) ltac:(auto) ltac:(auto) ltac:(auto)) as (k4_2 & t5_1 & -> & ? & ? & N4_2).
  destruct (madd2_ok m4 p3 t4_3 k4_2 ltac:(auto) ltac:(auto) ltac:(auto) ltac:(auto)) as (k4_3 & t5_2 & -> & ? & ? & N4_3).
  destruct (madd1_ok x4 x4 t4_4 ltac:(auto) ltac:(auto) ltac:(auto)) as (u4_4 & v4_4 & -> & ? & ? & A4_4).
  destruct (madd2_ok m4 p4 v4_4 k4_3 ltac:(auto) ltac:(auto) ltac:(auto) ltac:(auto)) as (k4_4 & t5_3 & -> & ? & ? & N4_4).
  destruct (madd2sb_top x4 x5 t4_5 u4_4 ltac:(auto) ltac:(auto) ltac:(auto) ltac:(auto)) as (u4_5 & v4_5 & -> & ? & ? & A4_5).
  destruct (madd3_ok m4 p5 v4_5 k4_4 u4_5 ltac:(auto) ltac:(auto) ltac:(auto) ltac:(auto) ltac:(auto)) as (t5_5 & t5_4 & q4 & -> & ? & ? & Hq4 & N4_5).
  assert (S4 : sq_step [0; 0; 0; 0; x4 * x4; 2 * (x4 * x5)] [t4_0; t4_1; t4_2; t4_3; t4_4; t4_5] [t5_0; t5_1; t5_2; t5_3; t5_4; t5_5]).
  { split; [apply six_intro; auto|]. exists m4, q4. split; [auto|]. split; [auto|]. rewrite PM, val_scale.
    refine (eq_trans (round_sum t4_0 t4_1 t4_2 t4_3 t4_4 t4_5 (0) (0) (0) (0) (x4 * x4) (2 * (x4 * x5)) (m4 * p0) (m4 * p1) (m4 * p2) (m4 * p3) (m4 * p4) (m4 * p5) t4_0 0 t4_1 0 t4_2 0 t4_3 0 v4_4 u4_4 v4_5 u4_5 k4_0 k4_1 k4_2 k4_3 k4_4 t5_0 t5_1 t5_2 t5_3 t5_4 t5_5 q4 _ _ _ _ _ _ _ _ _ _ _ _) (eq_refl)); clear - A4_4 A4_5 N4_0 N4_1 N4_2 N4_3 N4_4 N4_5; revert A4_4 A4_5 N4_0 N4_1 N4_2 N4_3 N4_4 N4_5;
      repeat match goal with |- context [?x * ?y] => lazymatch y with W => fail | _ => lazymatch x with 2 => fail | _ => generalize (x * y); intro end end end; intros; lia. }
  clear A4_4 A4_5 N4_0 N4_1 N4_2 N4_3 N4_4 N4_5 Em4 Hm4 Hq4.
  (* round 5 *)
  assert (Hm5 : word ((t5_0 * INP) mod W)) by (apply Z.mod_pos_bound; reflexivity).
  remember ((t5_0 * INP) mod W) as m5 eqn:Em5.
  destruct (madd0_ok m5 p0 t5_0 ltac:(auto) ltac:(auto) ltac:(auto)) as (z5 & ? & Hz5 & N5_0).
  assert (z5 = 0) by (eapply inp_cancel; eauto). subst z5. rewrite Z.add_0_r in N5_0. remember (madd0 m5 p0 t5_0) as k5_0 eqn:Ek. clear Ek.
  destruct (madd2_ok m5 p1 t5_1 k5_0 ltac:(auto) ltac:(auto) ltac:(auto) ltac:(auto)) as (k5_1 & t6_0 & -> & ? & ? & N5_1).
  destruct (madd2_ok m5 p2 t5_2 k5_1 ltac:(auto) ltac:(auto) ltac:(auto) ltac:(auto)) as (k5_2 & t6_1 & -> & ? & ? & N5_2).
  destruct (madd2_ok m5 p3 t5_3 k5_2 ltac:(auto) ltac:(auto) ltac:(auto) ltac:(auto)) as (k5_3 & t6_2 & -> & ? & ? & N5_3).
  destruct (madd2_ok m5 p4 t5_4 k5_3 ltac:(auto) ltac:(auto) ltac:(auto) ltac:(auto)) as (k5_4 & t6_3 & -> & ? & ? & N5_4).
  destruct (madd1_ok x5 x5 t5_5 ltac:(auto) ltac:(auto) ltac:(auto)) as (u5_5 & v5_5 & -> & ? & ? & A5_5).
  destruct (madd3_ok m5 p5 v5_5 k5_4 u5_5 ltac:(auto) ltac:(auto) ltac:(auto) ltac:(auto) ltac:(auto)) as (t6_5 & t6_4 & q5 & -> & ? & ? & Hq5 & N5_5).
  assert (S5 : sq_step [0; 0; 0; 0; 0; x5 * x5] [t5_0; t5_1; t5_2; t5_3; t5_4; t5_5] [t6_0; t6_1; t6_2; t6_3; t6_4; t6_5]).
  { split; [apply six_intro; auto|]. exists m5, q5. split; [auto|]. split; [auto|]. rewrite PM, val_scale.
    refine (eq_trans (round_sum t5_0 t5_1 t5_2 t5_3 t5_4 t5_5 (0) (0) (0) (0) (0) (x5 * x5) (m5 * p0) (m5 * p1) (m5 * p2) (m5 * p3) (m5 * p4) (m5 * p5) t5_0 0 t5_1 0 t5_2 0 t5_3 0 t5_4 0 v5_5 u5_5 k5_0 k5_1 k5_2 k5_3 k5_4 t6_0 t6_1 t6_2 t6_3 t6_4 t6_5 q5 _ _ _ _ _ _ _ _ _ _ _ _) (eq_refl)); clear - A5_5 N5_0 N5_1 N5_2 N5_3 N5_4 N5_5; revert A5_5 N5_0 N5_1 N5_2 N5_3 N5_4 N5_5;
      repeat match goal with |- context [?x * ?y] => lazymatch y with W => fail | _ => lazymatch x with 2 => fail | _ => generalize (x * y); intro end end end; intros; lia. }
  clear A5_5 N5_0 N5_1 N5_2 N5_3 N5_4 N5_5 Em5 Hm5 Hq5.
  exists [t1_0; t1_1; t1_2; t1_3; t1_4; t1_5], [t2_0; t2_1; t2_2; t2_3; t2_4; t2_5], [t3_0; t3_1; t3_2; t3_3; t3_4; t3_5], [t4_0; t4_1; t4_2; t4_3; t4_4; t4_5], [t5_0; t5_1; t5_2; t5_3; t5_4; t5_5], [t6_0; t6_1; t6_2; t6_3; t6_4; t6_5].
  split; [reflexivity|]. auto 10.
Qed.

Lemma sq_next a t r A : sq_step a t r -> 0 <= val a <= 2 * (W * MODULUS) -> val t <= A -> A <= 4 * MODULUS ->
  (exists m, 0 <= m < W /\ W * val r = val t + val a + m * MODULUS) /\ val r <= 4 * MODULUS.
Proof.
  intros S Ha Ht HA. destruct (sq_exact a t r A (2 * (W * MODULUS)) S Ht (proj2 Ha)) as (m & Hm & E).
  { revert HA. clear. assert (H : 4 * MODULUS + 2 * (W * MODULUS) + (W - 1) * MODULUS < W * R384) by reflexivity. lia. }
  split; [exists m; auto|]. revert E Ha Ht HA Hm. clear. assert (0 < MODULUS) by reflexivity. pose proof W_pos.
  generalize dependent MODULUS. generalize (val r) (val t) (val a). intros z t0 a0 M HM. intros. assert (m * M <= (W - 1) * M) by (apply Z.mul_le_mono_nonneg_r; lia). unfold W in *. lia.
Qed.
Lemma sq_col_bound v x0 x1 x2 x3 x4 x5 c0 c1 c2 c3 c4 c5 : word v ->
  0 <= c0 <= 2 * x0 -> 0 <= c1 <= 2 * x1 -> 0 <= c2 <= 2 * x2 -> 0 <= c3 <= 2 * x3 -> 0 <= c4 <= 2 * x4 -> 0 <= c5 <= 2 * x5 ->
  val [x0; x1; x2; x3; x4; x5] < MODULUS ->
  0 <= val [v * c0; v * c1; v * c2; v * c3; v * c4; v * c5] <= 2 * (W * MODULUS).
Proof.
  intros Hv H0 H1 H2 H3 H4 H5 B. rewrite <- val_scale.
  assert (0 <= val [c0; c1; c2; c3; c4; c5] <= 2 * MODULUS - 2).
  { revert B. cbn [val]. assert (0 < MODULUS) by reflexivity. generalize dependent MODULUS. intros. unfold W in *. lia. }
  unfold word in Hv. generalize dependent (val [c0; c1; c2; c3; c4; c5]). intros c Hc.
  assert (0 < MODULUS) by reflexivity. generalize dependent MODULUS. intros M HB Hc HM. split; [apply Z.mul_nonneg_nonneg; lia|]. replace (2 * (W * M)) with (W * (2 * M)) by ring. apply Z.mul_le_mono_nonneg; lia.
Qed.
Lemma list_eq6 (a b c d e f a' b' c' d' e' f' : Z) : a = a' -> b = b' -> c = c' -> d = d' -> e = e' -> f = f' ->
  [a; b; c; d; e; f] = [a'; b'; c'; d'; e'; f'].
Proof. intros; subst; reflexivity. Qed.
Lemma p_square_ok x : six x -> (forall i j, (i < j < 5)%nat -> spare (limb x i) (limb x j)) -> val x < MODULUS ->
  six (p_square x) /\ val (p_square x) = fp_mul (val x) (val x).
Proof.
  intros (Lx & Hx) HH B. destruct (list6 x Lx) as (x0 & x1 & x2 & x3 & x4 & x5 & ->). six_word Hx.
  assert (X5 : small x5).
  { revert B. cbn [val]. unfold small, word, MODULUS, W in *. lia. }
  pose proof (HH 0%nat 1%nat ltac:(lia)) as Y01. change (spare x0 x1) in Y01.
  pose proof (HH 0%nat 2%nat ltac:(lia)) as Y02. change (spare x0 x2) in Y02.
  pose proof (HH 0%nat 3%nat ltac:(lia)) as Y03. change (spare x0 x3) in Y03.
  pose proof (HH 0%nat 4%nat ltac:(lia)) as Y04. change (spare x0 x4) in Y04.
  pose proof (HH 1%nat 2%nat ltac:(lia)) as Y12. change (spare x1 x2) in Y12.
  pose proof (HH 1%nat 3%nat ltac:(lia)) as Y13. change (spare x1 x3) in Y13.
  pose proof (HH 1%nat 4%nat ltac:(lia)) as Y14. change (spare x1 x4) in Y14.
  pose proof (HH 2%nat 3%nat ltac:(lia)) as Y23. change (spare x2 x3) in Y23.
  pose proof (HH 2%nat 4%nat ltac:(lia)) as Y24. change (spare x2 x4) in Y24.
  pose proof (HH 3%nat 4%nat ltac:(lia)) as Y34. change (spare x3 x4) in Y34.
  destruct (p_square_steps x0 x1 x2 x3 x4 x5) as (t1 & t2 & t3 & t4 & t5 & t6 & -> & S0 & S1 & S2 & S3 & S4 & S5); auto.
  assert (Z0 : val [0; 0; 0; 0; 0; 0] <= 0) by discriminate.
  assert (M2 : 4 * MODULUS <= 4 * MODULUS) by lia. assert (M0 : 0 <= 4 * MODULUS) by discriminate.

  assert (C0 : 0 <= val [x0 * x0; 2 * (x0 * x1); 2 * (x0 * x2); 2 * (x0 * x3); 2 * (x0 * x4); 2 * (x0 * x5)] <= 2 * (W * MODULUS)).
  { pose proof (sq_col_bound x0 x0 x1 x2 x3 x4 x5 x0 (2 * x1) (2 * x2) (2 * x3) (2 * x4) (2 * x5)) as Q. replace [x0 * x0; 2 * (x0 * x1); 2 * (x0 * x2); 2 * (x0 * x3); 2 * (x0 * x4); 2 * (x0 * x5)] with [x0 * x0; x0 * (2 * x1); x0 * (2 * x2); x0 * (2 * x3); x0 * (2 * x4); x0 * (2 * x5)] by (apply list_eq6; ring). apply Q; auto; unfold word in *; lia. }
  destruct (sq_next _ _ _ 0 S0 C0 Z0 M0) as ((m0 & Hm0 & E0) & B1). clear C0.
  assert (C1 : 0 <= val [0; x1 * x1; 2 * (x1 * x2); 2 * (x1 * x3); 2 * (x1 * x4); 2 * (x1 * x5)] <= 2 * (W * MODULUS)).
  { pose proof (sq_col_bound x1 x0 x1 x2 x3 x4 x5 0 x1 (2 * x2) (2 * x3) (2 * x4) (2 * x5)) as Q. replace [0; x1 * x1; 2 * (x1 * x2); 2 * (x1 * x3); 2 * (x1 * x4); 2 * (x1 * x5)] with [x1 * 0; x1 * x1; x1 * (2 * x2); x1 * (2 * x3); x1 * (2 * x4); x1 * (2 * x5)] by (apply list_eq6; ring). apply Q; auto; unfold word in *; lia. }
  destruct (sq_next _ _ _ (4 * MODULUS) S1 C1 B1 M2) as ((m1 & Hm1 & E1) & B2). clear C1.
  assert (C2 : 0 <= val [0; 0; x2 * x2; 2 * (x2 * x3); 2 * (x2 * x4); 2 * (x2 * x5)] <= 2 * (W * MODULUS)).
  { pose proof (sq_col_bound x2 x0 x1 x2 x3 x4 x5 0 0 x2 (2 * x3) (2 * x4) (2 * x5)) as Q. replace [0; 0; x2 * x2; 2 * (x2 * x3); 2 * (x2 * x4); 2 * (x2 * x5)] with [x2 * 0; x2 * 0; x2 * x2; x2 * (2 * x3); x2 * (2 * x4); x2 * (2 * x5)] by (apply list_eq6; ring). apply Q; auto; unfold word in *; lia. }
  destruct (sq_next _ _ _ (4 * MODULUS) S2 C2 B2 M2) as ((m2 & Hm2 & E2) & B3). clear C2.
  assert (C3 : 0 <= val [0; 0; 0; x3 * x3; 2 * (x3 * x4); 2 * (x3 * x5)] <= 2 * (W * MODULUS)).
  { pose proof (sq_col_bound x3 x0 x1 x2 x3 x4 x5 0 0 0 x3 (2 * x4) (2 * x5)) as Q. replace [0; 0; 0; x3 * x3; 2 * (x3 * x4); 2 * (x3 * x5)] with [x3 * 0; x3 * 0; x3 * 0; x3 * x3; x3 * (2 * x4); x3 * (2 * x5)] by (apply list_eq6; ring). apply Q; auto; unfold word in *; lia. }
  destruct (sq_next _ _ _ (4 * MODULUS) S3 C3 B3 M2) as ((m3 & Hm3 & E3) & B4). clear C3.
  assert (C4 : 0 <= val [0; 0; 0; 0; x4 * x4; 2 * (x4 * x5)] <= 2 * (W * MODULUS)).
  { pose proof (sq_col_bound x4 x0 x1 x2 x3 x4 x5 0 0 0 0 x4 (2 * x5)) as Q. replace [0; 0; 0; 0; x4 * x4; 2 * (x4 * x5)] with [x4 * 0; x4 * 0; x4 * 0; x4 * 0; x4 * x4; x4 * (2 * x5)] by (apply list_eq6; ring). apply Q; auto; unfold word in *; lia. }
  destruct (sq_next _ _ _ (4 * MODULUS) S4 C4 B4 M2) as ((m4 & Hm4 & E4) & B5). clear C4.
  assert (C5 : 0 <= val [0; 0; 0; 0; 0; x5 * x5] <= 2 * (W * MODULUS)).
  { pose proof (sq_col_bound x5 x0 x1 x2 x3 x4 x5 0 0 0 0 0 x5) as Q. replace [0; 0; 0; 0; 0; x5 * x5] with [x5 * 0; x5 * 0; x5 * 0; x5 * 0; x5 * 0; x5 * x5] by (apply list_eq6; ring). apply Q; auto; unfold word in *; lia. }
  destruct (sq_next _ _ _ (4 * MODULUS) S5 C5 B5 M2) as ((m5 & Hm5 & E5) & B6). clear C5.

  change (val [0; 0; 0; 0; 0; 0]) with 0 in E0.
  pose proof (sq_total _ _ _ _ _ _ _ _ _ _ _ _ _ _ _ _ _ _ _ E0 E1 E2 E3 E4 E5) as S.
  assert (Sm : six [m0; m1; m2; m3; m4; m5]) by (apply six_intro; assumption).
  destruct (reduce_once_ok t6 (proj1 S5)) as (R1' & R2'). split; [auto|]. rewrite R2'. symmetry.
  exact (fp_mul_char _ _ _ _ _ (six_bound _ Sm) (six_bound _ (proj1 S5)) S).
Qed.
