(** Generic facts about powers in a commutative ring: binomial theorem and the
    "freshman's dream" modulo a prime.  Pure mathematics, no model of the code. *)
From Coq Require Import ZArith Znumtheory Lia Arith Ring Ring_theory.
Set Implicit Arguments.
Local Open Scope nat_scope.

(** Binomial coefficients by Pascal's rule. *)
Fixpoint binom (n k : nat) : nat :=
  match n, k with
  | _, O => 1
  | O, S _ => 0
  | S n', S k' => binom n' k' + binom n' k
  end.

Lemma binom_0_r n : binom n 0 = 1. Proof. destruct n; reflexivity. Qed.
Lemma binom_gt n : forall k, n < k -> binom n k = 0.
Proof. induction n; intros [|k] H; cbn; try lia. rewrite !IHn by lia. lia. Qed.
Lemma binom_nn n : binom n n = 1.
Proof. induction n; cbn; auto. rewrite IHn, binom_gt by lia. lia. Qed.
Lemma binom_absorb n : forall k, S k * binom (S n) (S k) = S n * binom n k.
Proof.
  induction n; intros k.
  - destruct k as [|k]; [reflexivity|]. cbn. destruct k; lia.
  - destruct k as [|k].
    + pose proof (IHn 0) as H0. rewrite binom_0_r in *.
      change (binom (S (S n)) 1) with (binom (S n) 0 + binom (S n) 1).
      rewrite binom_0_r. lia.
    + change (binom (S (S n)) (S (S k))) with (binom (S n) (S k) + binom (S n) (S (S k))).
      pose proof (IHn k) as H1. pose proof (IHn (S k)) as H2.
      change (binom (S n) (S k)) with (binom n k + binom n (S k)) at 2.
      change (binom (S n) (S k)) with (binom n k + binom n (S k)) in *.
      nia.
Qed.

Lemma prime_binom (l : nat) : prime (Z.of_nat l) ->
  forall k, 0 < k < l -> exists c, binom l k = l * c.
Proof.
  intros Hp k Hk.
  destruct l as [|n]; [lia|]. destruct k as [|k]; [lia|].
  pose proof (binom_absorb n k) as H.
  assert (Hd : (Z.of_nat (S n) | Z.of_nat (S k) * Z.of_nat (binom (S n) (S k)))%Z).
  { exists (Z.of_nat (binom n k)). rewrite <- !Nat2Z.inj_mul. f_equal. lia. }
  apply prime_mult in Hd; auto. destruct Hd as [Hd|Hd].
  - apply Z.divide_pos_le in Hd; lia.
  - destruct Hd as [c Hc]. exists (Z.to_nat c).
    assert (0 <= c)%Z by nia. nia.
Qed.

Section Pow.
Variable R : Type.
Variables (rO rI : R) (radd rmul rsub : R -> R -> R) (ropp : R -> R).
Hypothesis Rth : ring_theory rO rI radd rmul rsub ropp eq.
Add Ring Rring : Rth.
Local Notation "0" := rO. Local Notation "1" := rI.
Local Infix "+" := radd. Local Infix "*" := rmul. Local Infix "-" := rsub.

Fixpoint pown (x : R) (n : nat) : R := match n with O => 1 | S n => x * pown x n end.
Fixpoint nmul (n : nat) (x : R) : R := match n with O => 0 | S n => x + nmul n x end.

Lemma pown_add x m n : pown x (m + n)%nat = pown x m * pown x n.
Proof. induction m; cbn; [ring|rewrite IHm; ring]. Qed.
Lemma pown_mul x m n : pown x (m * n)%nat = pown (pown x m) n.
Proof. induction n; cbn. rewrite Nat.mul_0_r. reflexivity.
  rewrite Nat.mul_succ_r, Nat.add_comm, pown_add, IHn. reflexivity. Qed.
Lemma pown_one n : pown 1 n = 1.
Proof. induction n; cbn; [reflexivity|rewrite IHn; ring]. Qed.
Lemma pown_zero n : (n <> 0)%nat -> pown 0 n = 0.
Proof. destruct n; cbn; intros; [congruence|ring]. Qed.
Lemma pown_mult x y n : pown (x * y) n = pown x n * pown y n.
Proof. induction n; cbn; [ring|rewrite IHn; ring]. Qed.
Lemma nmul_add m n x : nmul (m + n)%nat x = nmul m x + nmul n x.
Proof. induction m; cbn; [ring|rewrite IHm; ring]. Qed.
Lemma nmul_mul m n x : nmul (m * n)%nat x = nmul m (nmul n x).
Proof. induction m; cbn; [ring|rewrite nmul_add, IHm; ring]. Qed.
Lemma nmul_radd n x y : nmul n (x + y) = nmul n x + nmul n y.
Proof. induction n; cbn; [ring|rewrite IHn; ring]. Qed.
Lemma nmul_rmul n x y : x * nmul n y = nmul n (x * y).
Proof. induction n; cbn; [ring|rewrite <- IHn; ring]. Qed.
Lemma nmul_0 n : nmul n 0 = 0.
Proof. induction n; cbn; [ring|rewrite IHn; ring]. Qed.
Lemma nmul_mul_1 n x : nmul n x = nmul n 1 * x.
Proof. induction n; cbn; [ring|rewrite IHn; ring]. Qed.

Fixpoint sumn (f : nat -> R) (n : nat) : R :=
  match n with O => 0 | S n => sumn f n + f n end.
Lemma sumn_ext f g n : (forall k, (k < n)%nat -> f k = g k) -> sumn f n = sumn g n.
Proof. induction n; cbn; intros H; auto. rewrite IHn, H; auto with arith. Qed.
Lemma sumn_plus f g n : sumn (fun k => f k + g k) n = sumn f n + sumn g n.
Proof. induction n; cbn; [ring|rewrite IHn; ring]. Qed.
Lemma sumn_mul c f n : sumn (fun k => c * f k) n = c * sumn f n.
Proof. induction n; cbn; [ring|rewrite IHn; ring]. Qed.
Lemma sumn_shift f n : sumn f (S n) = f O + sumn (fun k => f (S k)) n.
Proof. induction n; cbn; [ring|]. cbn in IHn. rewrite IHn. ring. Qed.

Lemma binomial_thm x y n :
  pown (x + y) n = sumn (fun k => nmul (binom n k) (pown x k * pown y (n - k)%nat)) (S n).
Proof.
  induction n as [|n IH]; [cbn; ring|].
  cbn [pown]. rewrite IH.
  transitivity (sumn (fun k => nmul (binom n k) (pown x (S k) * pown y (n - k)%nat)) (S n)
              + sumn (fun k => nmul (binom n k) (pown x k * pown y (S n - k)%nat)) (S n)).
  { transitivity (x * sumn (fun k => nmul (binom n k) (pown x k * pown y (n - k)%nat)) (S n)
      + y * sumn (fun k => nmul (binom n k) (pown x k * pown y (n - k)%nat)) (S n)); [ring|].
    rewrite <- !sumn_mul. f_equal; apply sumn_ext; intros k Hk; rewrite nmul_rmul; f_equal.
    - cbn [pown]. ring.
    - replace (S n - k)%nat with (S (n - k)) by lia. cbn [pown]. ring. }
  rewrite (sumn_shift (fun k => nmul (binom (S n) k) (pown x k * pown y (S n - k)%nat))).
  rewrite (sumn_shift (fun k => nmul (binom n k) (pown x k * pown y (S n - k)%nat)) n).
  rewrite (binom_0_r n), (binom_0_r (S n)).
  transitivity (nmul 1 (pown x 0 * pown y (S n - 0)%nat)
     + (sumn (fun k => nmul (binom n k) (pown x (S k) * pown y (n - k)%nat)) (S n)
     + sumn (fun k => nmul (binom n (S k)) (pown x (S k) * pown y (S n - S k)%nat)) n)); [ring|].
  f_equal.
  transitivity (sumn (fun k => nmul (binom n k) (pown x (S k) * pown y (n - k)%nat)) (S n)
     + sumn (fun k => nmul (binom n (S k)) (pown x (S k) * pown y (S n - S k)%nat)) (S n)).
  { cbn [sumn]. rewrite (binom_gt (n:=n) (k:=S n)) by lia. cbn [nmul]. ring. }
  rewrite <- sumn_plus. apply sumn_ext. intros k Hk.
  cbn [binom]. rewrite nmul_add. reflexivity.
Qed.

(** Freshman's dream: modulo the prime [l], powers are additive. *)
Lemma prime_pow_add (l : nat) : prime (Z.of_nat l) ->
  forall x y, exists c, pown (x + y) l = pown x l + pown y l + nmul l c.
Proof.
  intros Hp x y.
  assert (Hl : (2 <= l)%nat) by (apply prime_ge_2 in Hp; lia).
  rewrite binomial_thm. cbn [sumn].
  destruct l as [|l']; [lia|]. rewrite sumn_shift, binom_0_r, binom_nn.
  assert (exists c, sumn (fun k => nmul (binom (S l') (S k)) (pown x (S k) * pown y (S l' - S k)%nat)) l'
            = nmul (S l') c) as [c Hc].
  { assert (forall m, (m <= l')%nat -> exists c, sumn (fun k => nmul (binom (S l') (S k))
       (pown x (S k) * pown y (S l' - S k)%nat)) m = nmul (S l') c) as Hm.
    { induction m; intros Hm.
      - exists 0. rewrite nmul_0. reflexivity.
      - destruct IHm as [c Hc]; [lia|]. cbn [sumn]. rewrite Hc.
        destruct (prime_binom Hp (k := S m)) as [d Hd]; [lia|]. rewrite Hd, nmul_mul.
        eexists. rewrite <- nmul_radd. reflexivity. }
    apply Hm; lia. }
  exists c. rewrite Hc. rewrite Nat.sub_diag. replace (S l' - 0)%nat with (S l') by lia.
  cbn [nmul]. change (pown x 0) with 1. change (pown y 0) with 1. ring.
Qed.

End Pow.

(** Powers with integer exponents (negative exponents are not used: they give 1). *)
Section ZPow.
Variable R : Type.
Variables (rO rI : R) (radd rmul rsub : R -> R -> R) (ropp : R -> R).
Hypothesis Rth : ring_theory rO rI radd rmul rsub ropp eq.
Add Ring Rring2 : Rth.
Local Infix "*" := rmul.

Fixpoint rpow_pos (x : R) (e : positive) : R :=
  match e with
  | xH => x
  | xO e => let t := rpow_pos x e in t * t
  | xI e => let t := rpow_pos x e in x * (t * t)
  end.
Definition rpow (x : R) (n : Z) : R :=
  match n with Zpos e => rpow_pos x e | _ => rI end.

Lemma rpow_pos_pown x e : rpow_pos x e = pown rI rmul x (Pos.to_nat e).
Proof.
  induction e as [e IH|e IH|]; cbn [rpow_pos].
  - rewrite IH, Pos2Nat.inj_xI. cbn [pown]. replace (2 * Pos.to_nat e)%nat with (Pos.to_nat e + Pos.to_nat e)%nat by lia.
    rewrite (pown_add Rth). reflexivity.
  - rewrite IH, Pos2Nat.inj_xO. replace (2 * Pos.to_nat e)%nat with (Pos.to_nat e + Pos.to_nat e)%nat by lia.
    rewrite (pown_add Rth). reflexivity.
  - cbn [Pos.to_nat Pos.iter_op pown]. change (Pos.to_nat 1) with 1%nat. cbn [pown]. ring.
Qed.
Lemma rpow_pown x n : rpow x n = pown rI rmul x (Z.to_nat n).
Proof. destruct n; cbn [rpow Z.to_nat]; auto. apply rpow_pos_pown. Qed.
Lemma rpow_of_nat x n : rpow x (Z.of_nat n) = pown rI rmul x n.
Proof. rewrite rpow_pown, Nat2Z.id. reflexivity. Qed.
Lemma rpow_0 x : rpow x 0 = rI. Proof. reflexivity. Qed.
Lemma rpow_1 x : rpow x 1 = x. Proof. reflexivity. Qed.
Lemma rpow_2 x : rpow x 2 = x * x. Proof. reflexivity. Qed.
Lemma rpow_add x m n : (0 <= m)%Z -> (0 <= n)%Z -> rpow x (m + n)%Z = rpow x m * rpow x n.
Proof. intros. rewrite !rpow_pown, Z2Nat.inj_add by lia. apply (pown_add Rth). Qed.
Lemma rpow_succ x n : (0 <= n)%Z -> rpow x (n + 1)%Z = x * rpow x n.
Proof. intros. rewrite rpow_add, rpow_1 by lia. ring. Qed.
Lemma rpow_mul x m n : (0 <= m)%Z -> (0 <= n)%Z -> rpow x (m * n)%Z = rpow (rpow x m) n.
Proof. intros. rewrite !rpow_pown, Z2Nat.inj_mul by lia. apply (pown_mul Rth). Qed.
Lemma rpow_one n : rpow rI n = rI.
Proof. rewrite rpow_pown. apply (pown_one Rth). Qed.
Lemma rpow_zero n : (0 < n)%Z -> rpow rO n = rO.
Proof. intros. rewrite rpow_pown. apply (pown_zero Rth). lia. Qed.
Lemma rpow_mult x y n : rpow (x * y) n = rpow x n * rpow y n.
Proof. rewrite !rpow_pown. apply (pown_mult Rth). Qed.

(** In characteristic [l] (prime), raising to the l-th power is additive. *)
Lemma rpow_frob_add (l : Z) : prime l -> rO = nmul rO radd (Z.to_nat l) rI ->
  forall x y, rpow (radd x y) l = radd (rpow x l) (rpow y l).
Proof.
  intros Hl Hc x y. pose proof (prime_ge_2 _ Hl).
  assert (Hl' : prime (Z.of_nat (Z.to_nat l))) by (rewrite Z2Nat.id by lia; exact Hl).
  destruct (prime_pow_add Rth _ Hl' x y) as [c E].
  rewrite !rpow_pown, E, (nmul_mul_1 Rth), <- Hc. ring.
Qed.
End ZPow.
