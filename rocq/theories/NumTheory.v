(** Elementary number theory over Z: Fermat's little theorem, modular powers and the
    Pocklington primality criterion.  Pure mathematics, no model of the code. *)
From Coq Require Import ZArith Znumtheory Lia List Bool Zpow_facts Wf_nat Ring.
From Verif Require Import RingPow.
Import ListNotations.
Local Open Scope Z_scope.

Lemma Zth : ring_theory 0 1 Z.add Z.mul Z.sub Z.opp eq.
Proof. constructor; intros; ring. Qed.

Lemma pown_Zpow x n : pown 1 Z.mul x n = x ^ Z.of_nat n.
Proof.
  induction n as [|n IH]; [reflexivity|].
  cbn [pown]. rewrite IH, Nat2Z.inj_succ, Z.pow_succ_r by lia. reflexivity.
Qed.
Lemma nmul_Zmul x n : nmul 0 Z.add n x = Z.of_nat n * x.
Proof. induction n as [|n IH]; [reflexivity|]. cbn [nmul]. rewrite IH. lia. Qed.

(** Fermat's little theorem. *)
Lemma fermat_pos l : prime l -> forall a, 0 <= a -> (a ^ l) mod l = a mod l.
Proof.
  intros Hl a Ha. pose proof (prime_ge_2 _ Hl) as H2.
  revert a Ha. apply natlike_ind.
  - rewrite Z.pow_0_l by lia. reflexivity.
  - intros a Ha IH.
    assert (Hl' : prime (Z.of_nat (Z.to_nat l))) by (rewrite Z2Nat.id by lia; exact Hl).
    destruct (prime_pow_add Zth _ Hl' a 1) as [c Hc].
    rewrite !pown_Zpow, nmul_Zmul, Z2Nat.id, Z.pow_1_l in Hc by lia.
    unfold Z.succ. rewrite Hc, (Z.mul_comm l c), Z_mod_plus_full.
    rewrite Z.add_mod, IH, <- Z.add_mod by lia. reflexivity.
Qed.

Lemma fermat l : prime l -> forall a, (a ^ l) mod l = a mod l.
Proof.
  intros Hl a. pose proof (prime_ge_2 _ Hl).
  rewrite <- (Zmod_mod a l), <- (fermat_pos l Hl (a mod l)) by (apply Z.mod_pos_bound; lia).
  rewrite Zpower_mod by lia. symmetry. rewrite Zpower_mod by lia.
  rewrite Zmod_mod. reflexivity.
Qed.

Lemma fermat_1 l : prime l -> forall a, a mod l <> 0 -> (a ^ (l - 1)) mod l = 1.
Proof.
  intros Hl a Ha. pose proof (prime_ge_2 _ Hl) as H2.
  pose proof (fermat l Hl a) as H.
  replace l with (l - 1 + 1) in H at 1 by lia.
  rewrite Z.pow_add_r, Z.pow_1_r in H by lia.
  assert (Hd : (l | a * (a ^ (l - 1) - 1))).
  { apply Z.mod_divide; [lia|].
    replace (a * (a ^ (l - 1) - 1)) with (a ^ (l - 1) * a - a) by ring.
    rewrite Zminus_mod, H, Z.sub_diag. apply Z.mod_0_l. lia. }
  apply prime_mult in Hd; auto. destruct Hd as [Hd|Hd].
  - apply Z.mod_divide in Hd; [congruence|lia].
  - destruct Hd as [k Hk]. replace (a ^ (l - 1)) with (1 + k * l) by lia.
    rewrite Z_mod_plus_full. apply Z.mod_1_l. lia.
Qed.

(** Modular power by repeated squaring. *)
Fixpoint powmod_pos (a : Z) (e : positive) (m : Z) : Z :=
  match e with
  | xH => a mod m
  | xO e => let t := powmod_pos a e m in (t * t) mod m
  | xI e => let t := powmod_pos a e m in (a * ((t * t) mod m)) mod m
  end.
Definition powmod (a e m : Z) : Z :=
  match e with Z0 => 1 mod m | Zpos e => powmod_pos a e m | Zneg _ => 0 end.

Lemma powmod_pos_ok a e m : 0 < m -> powmod_pos a e m = (a ^ Zpos e) mod m.
Proof.
  intros Hm. induction e as [e IH|e IH|]; cbn [powmod_pos]; rewrite ?IH.
  - rewrite Pos2Z.inj_xI, Z.pow_add_r, Z.pow_1_r, Z.pow_twice_r by lia.
    rewrite <- Z.mul_mod by lia. rewrite Z.mul_mod_idemp_r by lia. f_equal. ring.
  - rewrite Pos2Z.inj_xO, Z.pow_twice_r by lia. rewrite <- Z.mul_mod by lia. reflexivity.
  - rewrite Z.pow_1_r. reflexivity.
Qed.
Lemma powmod_ok a e m : 0 < m -> 0 <= e -> powmod a e m = (a ^ e) mod m.
Proof. intros. destruct e; cbn [powmod]; [reflexivity|apply powmod_pos_ok; lia|lia]. Qed.

(** Order arguments. *)
Lemma pow_mod_1 a x k l : 1 < l -> 0 <= x -> 0 <= k -> (a ^ x) mod l = 1 -> (a ^ (x * k)) mod l = 1.
Proof.
  intros. rewrite Z.pow_mul_r by lia. rewrite Zpower_mod, H2 by lia.
  rewrite Z.pow_1_l by lia. apply Z.mod_1_l. lia.
Qed.

Lemma pow_gcd_1 a x y l : 1 < l -> 0 < x -> 0 < y ->
  (a ^ x) mod l = 1 -> (a ^ y) mod l = 1 -> (a ^ Z.gcd x y) mod l = 1.
Proof.
  intros Hl Hx Hy H1 H2.
  destruct (Z.gcd_bezout x y (Z.gcd x y) eq_refl) as (u & v & Huv).
  set (g := Z.gcd x y) in *. assert (0 <= g) by apply Z.gcd_nonneg.
  set (k := Z.abs u + Z.abs v).
  assert (0 <= k) by lia. assert (Hu : 0 <= u + k * y) by nia. assert (Hv : 0 <= k * x - v) by nia.
  assert (E : x * (u + k * y) = y * (k * x - v) + g) by (rewrite <- Huv; ring).
  pose proof (pow_mod_1 a x (u + k*y) l Hl ltac:(lia) Hu H1) as E1.
  pose proof (pow_mod_1 a y (k*x - v) l Hl ltac:(lia) Hv H2) as E2.
  rewrite E, Z.pow_add_r, Z.mul_mod, E2, Z.mul_1_l, Zmod_mod in E1 by (try lia; try apply Z.mul_nonneg_nonneg; lia). exact E1.
Qed.

Lemma prime_divisor_exists n : 1 < n -> exists l, prime l /\ (l | n).
Proof.
  intros Hn. assert (Hn' : 0 <= n) by lia. revert n Hn' Hn.
  apply (Z_lt_induction (fun n => 1 < n -> exists l, prime l /\ (l | n))).
  intros n IH Hn. destruct (prime_dec n) as [Hp|Hp].
  - exists n. split; auto. apply Z.divide_refl.
  - destruct (not_prime_divide n Hn Hp) as (d & Hd1 & Hd2).
    destruct (IH d) as (l & Hl & Hl2); [lia|lia|].
    exists l. split; auto. eapply Z.divide_trans; eauto.
Qed.

Lemma composite_small_divisor n : 1 < n -> ~ prime n ->
  exists l, prime l /\ (l | n) /\ l * l <= n.
Proof.
  intros Hn Hp. destruct (not_prime_divide n Hn Hp) as (d & Hd1 & (e & He)).
  assert (1 < e) by nia.
  destruct (Z_le_gt_dec (d * d) n) as [Hle|Hgt].
  - destruct (prime_divisor_exists d) as (l & Hl & Hl2); [lia|].
    exists l. split; [exact Hl|split].
    + apply Z.divide_trans with d; auto. exists e; auto.
    + assert (l <= d) by (apply Z.divide_pos_le; [lia|auto]).
      pose proof (prime_ge_2 _ Hl). nia.
  - destruct (prime_divisor_exists e) as (l & Hl & Hl2); [lia|].
    exists l. split; [exact Hl|split].
    + apply Z.divide_trans with e; auto. exists d; rewrite He; ring.
    + assert (l <= e) by (apply Z.divide_pos_le; [lia|auto]).
      pose proof (prime_ge_2 _ Hl). assert (e < d) by nia.
      assert (l * l <= e * e) by (apply Z.mul_le_mono_nonneg; lia).
      assert (e * e <= e * d) by (apply Z.mul_le_mono_nonneg_l; lia). lia.
Qed.

(** divisors of a prime power *)
Lemma divide_prime_pow q : prime q -> forall e g, 0 <= e -> 0 < g -> (g | q ^ e) ->
  g = q ^ e \/ (0 < e /\ (g | q ^ (e - 1))).
Proof.
  intros Hq e g He Hg Hd. pose proof (prime_ge_2 _ Hq).
  destruct (Z.eq_dec e 0) as [->|He0].
  - left. rewrite Z.pow_0_r in *. apply Z.divide_1_r_nonneg; [lia|exact Hd].
  - destruct Hd as [k Hk].
    assert (0 < k) by (assert (0 < q ^ e) by (apply Z.pow_pos_nonneg; lia); nia).
    destruct (Z.eq_dec k 1) as [->|Hk1]; [left; lia|right; split; [lia|]].
    assert (Hqk : (q | k)).
    { destruct (prime_divisor_exists k) as (l & Hl & Hlk); [lia|].
      assert (Hlq : (l | q ^ e)) by (rewrite Hk; apply Z.divide_mul_l; auto).
      assert (l = q) by (eapply prime_power_prime; eauto; lia). subst l. auto. }
    destruct Hqk as [m Hm]. exists m.
    replace e with (1 + (e - 1)) in Hk by lia. rewrite Z.pow_add_r, Z.pow_1_r in Hk by lia.
    assert (q * (q ^ (e-1)) = q * (m * g)) by (rewrite Hk, Hm; ring).
    apply Z.mul_reg_l with q; lia.
Qed.

(** Multiplication of positives with a sliding window of four bits: same value as [Pos.mul], fewer
    additions (the checker has no virtual machine, so this matters for the certificates). *)
Fixpoint smul (t1 t3 t5 t7 t9 t11 t13 t15 : positive) (x : positive) : positive :=
  match x with
  | xH => t1
  | xO x => xO (smul t1 t3 t5 t7 t9 t11 t13 t15 x)
  | xI xH => t3
  | xI (xO xH) => t5
  | xI (xI xH) => t7
  | xI (xO (xO xH)) => t9
  | xI (xI (xO xH)) => t11
  | xI (xO (xI xH)) => t13
  | xI (xI (xI xH)) => t15
  | xI (xO (xO (xO x))) => t1 + xO (xO (xO (xO (smul t1 t3 t5 t7 t9 t11 t13 t15 x))))
  | xI (xI (xO (xO x))) => t3 + xO (xO (xO (xO (smul t1 t3 t5 t7 t9 t11 t13 t15 x))))
  | xI (xO (xI (xO x))) => t5 + xO (xO (xO (xO (smul t1 t3 t5 t7 t9 t11 t13 t15 x))))
  | xI (xI (xI (xO x))) => t7 + xO (xO (xO (xO (smul t1 t3 t5 t7 t9 t11 t13 t15 x))))
  | xI (xO (xO (xI x))) => t9 + xO (xO (xO (xO (smul t1 t3 t5 t7 t9 t11 t13 t15 x))))
  | xI (xI (xO (xI x))) => t11 + xO (xO (xO (xO (smul t1 t3 t5 t7 t9 t11 t13 t15 x))))
  | xI (xO (xI (xI x))) => t13 + xO (xO (xO (xO (smul t1 t3 t5 t7 t9 t11 t13 t15 x))))
  | xI (xI (xI (xI x))) => t15 + xO (xO (xO (xO (smul t1 t3 t5 t7 t9 t11 t13 t15 x))))
  end%positive.

Lemma smul_ok y x :
  (smul y (3 * y) (5 * y) (7 * y) (9 * y) (11 * y) (13 * y) (15 * y) x = x * y)%positive.
Proof.
  assert (H : forall n x, (Pos.to_nat x <= n)%nat ->
    (smul y (3 * y) (5 * y) (7 * y) (9 * y) (11 * y) (13 * y) (15 * y) x = x * y)%positive).
  { induction n as [|n IH]; intros z Hz; [lia|].
    destruct z as [z|z|]; [|cbn [smul]; rewrite IH by lia; lia|reflexivity].
    destruct z as [z|z|]; [| |cbn [smul]; lia];
    (destruct z as [z|z|]; [| |cbn [smul]; lia]);
    (destruct z as [z|z|]; [| |cbn [smul]; lia]); cbn [smul]; rewrite IH by lia; lia. }
  apply (H (Pos.to_nat x)). lia.
Qed.

(** a small strict squeeze: tables are forced by being passed through [Pos.add] *)
Definition fmulp (x y : positive) : positive :=
  let y2 := xO y in
  let y3 := (y + y2)%positive in let y5 := (y3 + y2)%positive in let y7 := (y5 + y2)%positive in
  let y9 := (y7 + y2)%positive in let y11 := (y9 + y2)%positive in
  let y13 := (y11 + y2)%positive in let y15 := (y13 + y2)%positive in
  smul y y3 y5 y7 y9 y11 y13 y15 x.
Lemma fmulp_ok x y : fmulp x y = (x * y)%positive.
Proof.
  unfold fmulp. cbv zeta.
  replace (y + y~0)%positive with (3 * y)%positive by lia.
  replace (3 * y + y~0)%positive with (5 * y)%positive by lia.
  replace (5 * y + y~0)%positive with (7 * y)%positive by lia.
  replace (7 * y + y~0)%positive with (9 * y)%positive by lia.
  replace (9 * y + y~0)%positive with (11 * y)%positive by lia.
  replace (11 * y + y~0)%positive with (13 * y)%positive by lia.
  replace (13 * y + y~0)%positive with (15 * y)%positive by lia.
  apply smul_ok.
Qed.
Definition fmul (x y : Z) : Z :=
  match x, y with
  | Z0, _ | _, Z0 => 0
  | Zpos a, Zpos b | Zneg a, Zneg b => Zpos (fmulp a b)
  | Zpos a, Zneg b | Zneg a, Zpos b => Zneg (fmulp a b)
  end.
Lemma fmul_ok x y : fmul x y = x * y.
Proof. destruct x, y; cbn [fmul]; rewrite ?fmulp_ok; reflexivity. Qed.

(** a^e modulo n by square-and-multiply (most significant bit first), where the quotients of the
    reductions are supplied; wrong quotients cannot make the result incongruent. *)
Fixpoint powh (n a acc : Z) (bits : list bool) (qs : list Z) : Z :=
  match bits, qs with
  | [], _ => acc
  | b :: bits, q :: qs =>
      let t := fmul acc acc - fmul q n in
      powh n a (if b : bool then a * t else t) bits qs
  | b :: bits, [] =>
      let t := fmul acc acc in powh n a (if b : bool then a * t else t) bits []
  end.
Definition bits_val (bits : list bool) (e : Z) : Z :=
  fold_left (fun e (b : bool) => 2 * e + (if b then 1 else 0)) bits e.
Lemma powh_ok n a bits : 0 < n -> forall qs acc e, 0 <= e -> acc mod n = (a ^ e) mod n ->
  0 <= bits_val bits e /\ powh n a acc bits qs mod n = (a ^ bits_val bits e) mod n.
Proof.
  intros Hn. induction bits as [|b bits IH]; intros qs acc e He Hacc; [split; [exact He|exact Hacc]|].
  assert (Hsq : forall q, (fmul acc acc - fmul q n) mod n = (a ^ (2 * e)) mod n).
  { intros q. rewrite !fmul_ok. rewrite Zminus_mod, Z_mod_mult, Z.sub_0_r, Zmod_mod.
    rewrite Z.mul_mod, Hacc, <- Z.mul_mod by lia. f_equal.
    replace (2 * e) with (e + e) by lia. rewrite Z.pow_add_r by lia. reflexivity. }
  assert (Hb : forall q, (if b then a * (fmul acc acc - fmul q n) else fmul acc acc - fmul q n) mod n
               = a ^ (2 * e + (if b then 1 else 0)) mod n).
  { intros q. destruct b.
    - rewrite Z.mul_mod, Hsq, <- Z.mul_mod by lia. f_equal.
      rewrite Z.pow_add_r, Z.pow_1_r by lia. ring.
    - rewrite Hsq. f_equal. f_equal. lia. }
  destruct qs as [|q qs]; cbn [powh bits_val fold_left].
  - apply IH; [destruct b; lia|]. rewrite <- (Hb 0). rewrite (fmul_ok 0 n), Z.mul_0_l, Z.sub_0_r. reflexivity.
  - apply IH; [destruct b; lia|]. apply Hb.
Qed.

(** One Pocklington witness for the prime [q] with q^e | n-1: base [a]; bits and quotients for
    a^((n-1)/q) and for a^(n-1); [inv],[k] certify gcd(a^((n-1)/q) - 1, n) = 1. *)
Record pwit := { pw_q : Z; pw_e : Z; pw_a : Z;
  pw_bits1 : list bool; pw_qs1 : list Z; pw_inv : Z; pw_k : Z;
  pw_bits2 : list bool; pw_qs2 : list Z }.
Definition pock_wit (n : Z) (w : pwit) : bool :=
  let c1 := powh n (pw_a w) 1 (pw_bits1 w) (pw_qs1 w) in
  let c2 := powh n (pw_a w) 1 (pw_bits2 w) (pw_qs2 w) in
  (0 <? pw_e w) && (((n - 1) mod (pw_q w ^ pw_e w)) =? 0) &&
  (bits_val (pw_bits1 w) 0 * pw_q w =? n - 1) &&
  (bits_val (pw_bits2 w) 0 =? n - 1) &&
  (c2 =? 1) && (fmul (c1 - 1) (pw_inv w) - fmul (pw_k w) n =? 1).

Lemma pock_wit_ok n w l : 1 < n -> prime (pw_q w) -> pock_wit n w = true ->
  prime l -> (l | n) -> (pw_q w ^ pw_e w | l - 1).
Proof.
  destruct w as [q e a b1 q1 inv kk b2 q2]. unfold pock_wit. cbn [pw_q pw_e pw_a pw_bits1 pw_qs1 pw_inv pw_k pw_bits2 pw_qs2].
  intros Hn Hq Hw Hl Hln.
  rewrite !andb_true_iff in Hw. destruct Hw as (((((He & Hqe) & Hb1) & Hb2) & Hc2) & Hg).
  apply Z.ltb_lt in He. apply Z.eqb_eq in Hqe, Hb1, Hb2, Hc2, Hg.
  pose proof (prime_ge_2 _ Hq). pose proof (prime_ge_2 _ Hl).
  destruct (powh_ok n a b1 ltac:(lia) q1 1 0 ltac:(lia) eq_refl) as [Hp1 Hc1'].
  destruct (powh_ok n a b2 ltac:(lia) q2 1 0 ltac:(lia) eq_refl) as [_ Hc2'].
  rewrite Hc2, Hb2 in Hc2'. rewrite (Z.mod_1_l n) in Hc2' by lia.
  assert (Ha : a ^ (n - 1) mod n = 1) by (symmetry; exact Hc2').
  set (c1 := powh n a 1 b1 q1) in *. set (E1 := bits_val b1 0) in *.
  assert (Hqp : 0 < q ^ e) by (apply Z.pow_pos_nonneg; lia).
  assert (Hq1 : q ^ e = q ^ (e - 1) * q).
  { replace e with ((e - 1) + 1) at 1 by lia. rewrite Z.pow_add_r, Z.pow_1_r by lia. reflexivity. }
  apply Z.mod_divide in Hqe; [|lia]. destruct Hqe as [R HR].
  assert (HRpos : 0 < R).
  { apply Z.mul_pos_cancel_r with (q ^ e); lia. }
  assert (0 < q ^ (e-1)) by (apply Z.pow_pos_nonneg; lia).
  assert (Hdiv : E1 = R * q ^ (e - 1)).
  { apply Z.mul_reg_r with q; [lia|]. rewrite Hb1, HR, Hq1. ring. }
  set (b := a ^ R).
  assert (Hbl1 : (b ^ (q ^ e)) mod l = 1).
  { unfold b. rewrite <- Z.pow_mul_r, <- HR by lia.
    destruct Hln as [k Hk]. rewrite (Zmod_div_mod l n) by (try lia; exists k; lia).
    rewrite Ha. apply Z.mod_1_l. lia. }
  assert (Hbl2 : (b ^ (q ^ (e-1))) mod l <> 1).
  { unfold b. rewrite <- Z.pow_mul_r, <- Hdiv by lia. intros Hc.
    assert (Hc1l : c1 mod l = 1).
    { rewrite <- Hc. destruct Hln as [k Hk].
      rewrite (Zmod_div_mod l n c1), (Zmod_div_mod l n (a ^ E1)) by (try lia; exists k; lia).
      f_equal. exact Hc1'. }
    assert (Hl1 : (l | 1)).
    { rewrite <- Hg, !fmul_ok. apply Z.divide_sub_r.
      - apply Z.divide_mul_l. apply Z.mod_divide; [lia|]. rewrite Zminus_mod, Hc1l.
        rewrite (Z.mod_1_l l) by lia. reflexivity.
      - apply Z.divide_mul_r. exact Hln. }
    apply Z.divide_1_r_nonneg in Hl1; lia. }
  assert (Hbl : b mod l <> 0).
  { intros Hc. rewrite Zpower_mod, Hc in Hbl1 by lia. rewrite Z.pow_0_l in Hbl1 by lia.
    rewrite Z.mod_0_l in Hbl1; lia. }
  pose proof (fermat_1 l Hl b Hbl) as Hf.
  pose proof (pow_gcd_1 b (q ^ e) (l - 1) l ltac:(lia) Hqp ltac:(lia) Hbl1 Hf) as Hgcd.
  set (g := Z.gcd (q ^ e) (l - 1)) in *.
  assert (Hgpos : 0 < g).
  { unfold g. pose proof (Z.gcd_nonneg (q^e) (l-1)).
    destruct (Z.eq_dec (Z.gcd (q^e) (l-1)) 0) as [E|]; [|lia]. apply Z.gcd_eq_0_l in E. lia. }
  destruct (divide_prime_pow q Hq e g (Z.lt_le_incl _ _ He) Hgpos) as [E|[_ [k Hk]]].
  - apply Z.gcd_divide_l.
  - rewrite <- E. apply Z.gcd_divide_r.
  - exfalso. apply Hbl2. rewrite Hk, Z.mul_comm. apply pow_mod_1; try exact Hgcd.
    + clear - H0; lia.
    + clear - Hgpos; lia.
    + assert (0 < k) as Hkp by (apply Z.mul_pos_cancel_r with g; [clear - Hgpos; lia|rewrite <- Hk; assumption]).
      clear - Hkp; lia.
Qed.

Fixpoint pock_cert (n : Z) (ws : list pwit) (F : Z) : bool :=
  match ws with
  | [] => (1 <? n) && (n <=? F * F) && (0 <? F)
  | w :: ws => pock_wit n w && (Z.gcd F (pw_q w ^ pw_e w) =? 1) && pock_cert n ws (F * pw_q w ^ pw_e w)
  end.

Definition wprime (w : pwit) : Prop := prime (pw_q w).

Lemma pock_cert_gen n ws : Forall wprime ws -> forall F, 1 < n ->
  (forall l, prime l -> (l | n) -> (F | l - 1)) -> pock_cert n ws F = true -> prime n.
Proof.
  induction ws as [|w ws IH]; intros Hws F Hn HF Hc; cbn [pock_cert] in Hc.
  - rewrite !andb_true_iff in Hc. destruct Hc as ((H1 & H2) & H3).
    apply Z.ltb_lt in H1, H3. apply Z.leb_le in H2.
    destruct (prime_dec n) as [|Hnp]; auto. exfalso.
    destruct (composite_small_divisor n Hn Hnp) as (l & Hl & Hln & Hll).
    pose proof (HF l Hl Hln) as Hd. pose proof (prime_ge_2 _ Hl).
    apply Z.divide_pos_le in Hd; [|lia].
    assert (F * F <= (l - 1) * (l - 1)) by (apply Z.mul_le_mono_nonneg; lia). lia.
  - rewrite !andb_true_iff in Hc. destruct Hc as ((H1 & H2) & H3).
    inversion Hws; subst. unfold wprime in *.
    apply Z.eqb_eq in H2.
    apply IH with (F := F * pw_q w ^ pw_e w); auto.
    intros l Hl Hln. pose proof (pock_wit_ok n w l Hn H4 H1 Hl Hln) as Hq.
    pose proof (HF l Hl Hln) as HFl.
    destruct HFl as [k Hk]. rewrite Hk in Hq.
    rewrite Z.mul_comm in Hq. apply Z.gauss in Hq; [|rewrite Z.gcd_comm; exact H2].
    destruct Hq as [m Hm]. exists m. rewrite Hk, Hm. ring.
Qed.

Theorem pocklington n ws : Forall wprime ws -> pock_cert n ws 1 = true -> prime n.
Proof.
  intros Hws Hc.
  assert (Hn : 1 < n).
  { revert Hc. generalize 1 at 1. induction Hws as [|w ws H Hws IH]; intros F Hc; cbn [pock_cert] in Hc.
    - rewrite !andb_true_iff in Hc. destruct Hc as ((H1 & _) & _). apply Z.ltb_lt in H1. exact H1.
    - rewrite !andb_true_iff in Hc. destruct Hc as (_ & H3). eapply IH; eauto. }
  apply pock_cert_gen with (ws := ws) (F := 1); auto.
  intros. apply Z.divide_1_l.
Qed.

(** Trial division, for the small primes at the leaves of the certificates. *)
Fixpoint trial (fuel : nat) (d n : Z) : bool :=
  match fuel with
  | O => false
  | S f => if n <? d * d then true else if n mod d =? 0 then false else trial f (d + 1) n
  end.
Lemma trial_ok fuel : forall d n, 1 < d -> trial fuel d n = true ->
  forall l, d <= l -> l * l <= n -> ~ (l | n).
Proof.
  induction fuel as [|f IH]; intros d n Hd Ht l Hl Hll Hdiv; cbn [trial] in Ht; [discriminate|].
  destruct (n <? d * d) eqn:E; [apply Z.ltb_lt in E; assert (d * d <= l * l) by (apply Z.mul_le_mono_nonneg; lia); lia|].
  destruct (n mod d =? 0) eqn:E2; [discriminate|]. apply Z.eqb_neq in E2.
  destruct (Z.eq_dec l d) as [->|].
  - apply E2. apply Z.mod_divide; [lia|auto].
  - exact (IH (d + 1) n ltac:(lia) Ht l ltac:(lia) Hll Hdiv).
Qed.
Definition trial_prime (n : Z) : bool := (1 <? n) && trial (Z.to_nat (Z.sqrt n + 2)) 2 n.
Theorem trial_prime_ok n : trial_prime n = true -> prime n.
Proof.
  unfold trial_prime. rewrite andb_true_iff. intros [H1 H2]. apply Z.ltb_lt in H1.
  destruct (prime_dec n) as [|Hnp]; auto. exfalso.
  destruct (composite_small_divisor n H1 Hnp) as (l & Hl & Hln & Hll).
  pose proof (prime_ge_2 _ Hl).
  exact (trial_ok _ 2 n ltac:(lia) H2 l ltac:(lia) Hll Hln).
Qed.
