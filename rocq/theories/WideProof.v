(** The field routines on arbitrary 384-bit operands: when the stored value is congruent to the result, when it is canonical. *)
From Coq Require Import ZArith List Lia.
From Verif Require Import ModelWord ModelPrim SpecField X86 AsmCode AsmProof1 AsmSpec FpProof FieldProof.
Local Open Scope Z_scope.

Definition congr (a b : Z) : Prop := a mod modulus = b mod modulus.
Lemma congr_diff a b k : a = b + k * modulus -> congr a b.
Proof. intros ->. unfold congr. apply Z.mod_add. discriminate. Qed.
Lemma congr_iff a b : congr a b <-> exists k, a = b + k * modulus.
Proof.
  split; [|intros (k & H); exact (congr_diff a b k H)]. intros H. exists (a / modulus - b / modulus).
  rewrite (Z.div_mod a modulus) at 1 by discriminate. unfold congr in H. rewrite H. rewrite (Z.div_mod b modulus) at 2 by discriminate. ring.
Qed.
Lemma R_not_0 : ~ congr (2 ^ 384) 0.
Proof. unfold congr. vm_compute. discriminate. Qed.
Lemma RR_not_0 : ~ congr (2 ^ 384 * 2 ^ 384) 0.
Proof. unfold congr. vm_compute. discriminate. Qed.
(** if b is a and d = 2^384 + a (up to multiples of p) they are not congruent *)
Lemma congr_R a b k : a = b + k * modulus + 2 ^ 384 -> ~ congr a b.
Proof.
  intros -> H. apply congr_iff in H. destruct H as (j & H). apply R_not_0. apply congr_diff with (k := j - k). lia.
Qed.
Lemma congr_R' a b k : a = b + k * modulus - 2 ^ 384 -> ~ congr a b.
Proof.
  intros -> H. apply congr_iff in H. destruct H as (j & H). apply R_not_0. apply congr_diff with (k := k - j). lia.
Qed.
Lemma M9 : 9 * modulus < 2 ^ 384 < 10 * modulus. Proof. split; reflexivity. Qed.

Lemma wide_lsub d c : 0 <= c < modulus -> ((d + 2 ^ 384) * c) mod modulus = (d * c) mod modulus -> c = 0.
Proof.
  intros Hc H. apply congr_iff in H. destruct H as (k & H).
  destruct (Znumtheory.prime_mult modulus modulus_prime (2 ^ 384) c) as [D|D]; [exists k; lia| |].
  - exfalso. apply R_not_0. unfold congr. rewrite Znumtheory.Zdivide_mod by exact D. reflexivity.
  - apply Znumtheory.Zdivide_mod in D. rewrite Z.mod_small in D by exact Hc. exact D.
Qed.
Section Wide.
Variables x y : Z.
Hypothesis Hx : 0 <= x < 2 ^ 384.
Hypothesis Hy : 0 <= y < 2 ^ 384.
Lemma wide_add : (congr (fp_add x y) (x + y) <-> x + y < 2 ^ 384) /\ (0 <= fp_add x y < modulus <-> (x + y) mod 2 ^ 384 < 2 * modulus).
Proof.
  pose proof M9 as N. unfold fp_add. change R384 with (2 ^ 384). rewrite M_eq. cbv zeta.
  assert (P : 0 < modulus) by reflexivity.
  assert (E : (x + y) mod 2 ^ 384 = x + y /\ x + y < 2 ^ 384 \/ (x + y) mod 2 ^ 384 = x + y - 2 ^ 384 /\ 2 ^ 384 <= x + y).
  { destruct (Z.lt_ge_cases (x + y) (2 ^ 384)); [left|right]; (split; [|assumption]); [apply Z.mod_small; lia|].
    symmetry. apply Z.mod_unique_pos with 1; lia. }
  assert (Bs : 0 <= (x + y) mod 2 ^ 384) by (apply Z.mod_pos_bound; reflexivity).
  set (s := (x + y) mod 2 ^ 384) in *. clearbody s. split.
  - destruct E as [[-> L]|[-> L]].
    + split; [intros _; exact L|intros _]. destruct (_ <? _); [reflexivity|apply congr_diff with (-1); lia].
    + split; [|intros; lia]. intros C. exfalso. destruct (_ <? _); [apply (congr_R' _ _ 0) in C|apply (congr_R' _ _ (-1)) in C]; auto; lia.
  - destruct (Z.ltb_spec s modulus); lia.
Qed.
Lemma wide_sub : (congr (fp_sub x y) (x - y) <-> y - x <= modulus) /\ (0 <= fp_sub x y < modulus <-> - modulus <= x - y < modulus).
Proof.
  pose proof M9 as N. unfold fp_sub. change R384 with (2 ^ 384). rewrite M_eq. assert (P : 0 < modulus) by reflexivity.
  destruct (Z.ltb_spec x y) as [L|L].
  - rewrite Z.add_mod_idemp_l by discriminate. destruct (Z.le_gt_cases (y - x) modulus) as [G|G].
    + rewrite Z.mod_small by lia. split; [|lia]. split; [intros _; exact G|intros _; apply congr_diff with 1; lia].
    + assert (E : (x - y + modulus) mod 2 ^ 384 = x - y + modulus + 2 ^ 384) by (symmetry; apply Z.mod_unique_pos with (-1); lia).
      rewrite E. split; [|lia]. split; [|lia]. intros C. exfalso. apply (congr_R _ _ 1) in C; auto; lia.
  - split; [|lia]. split; [lia|reflexivity].
Qed.
Lemma wide_neg : (congr (fp_rawneg x) (- x) <-> x <= modulus) /\ (0 <= fp_rawneg x < modulus <-> 0 < x <= modulus).
Proof.
  pose proof M9 as N. unfold fp_rawneg. change R384 with (2 ^ 384). rewrite M_eq. assert (P : 0 < modulus) by reflexivity.
  destruct (Z.le_gt_cases x modulus) as [G|G].
  - rewrite Z.mod_small by lia. split; [|lia]. split; [intros _; exact G|intros _; apply congr_diff with 1; lia].
  - assert (E : (modulus - x) mod 2 ^ 384 = modulus - x + 2 ^ 384) by (symmetry; apply Z.mod_unique_pos with (-1); lia).
    rewrite E. split; [|lia]. split; [|lia]. intros C. exfalso. apply (congr_R _ _ 1) in C; auto; lia.
Qed.
Lemma wide_mul m t : 0 <= m < 2 ^ 384 -> t * 2 ^ 384 = x * y + m * modulus ->
  (congr (fp_mul x y * 2 ^ 384) (x * y) <-> t < 2 ^ 384) /\ (0 <= fp_mul x y < modulus <-> t mod 2 ^ 384 < 2 * modulus).
Proof.
  intros Hm Et. pose proof M9 as N. assert (P : 0 < modulus) by reflexivity. assert (PR : 0 < 2 ^ 384) by reflexivity.
  destruct (mont_exact (x * y)) as (q & v & Hq & Eq & Ev). change R384 with (2 ^ 384) in *. rewrite M_eq in *.
  assert (Em : m = q).
  { pose proof NINV_ok' as NI. change R384 with (2 ^ 384) in NI. rewrite M_eq in NI.
    assert (D : (m - q) * modulus = (t - v) * 2 ^ 384) by lia.
    pose proof (Z.div_mod (modulus * NINV) (2 ^ 384) ltac:(discriminate)) as J. rewrite NI in J. set (j := modulus * NINV / 2 ^ 384) in *. clearbody j. clear NI.
    assert (K : m - q = 2 ^ 384 * ((m - q) * (j + 1) - (t - v) * NINV)).
    { assert (A : (m - q) * (modulus * NINV) = (t - v) * 2 ^ 384 * NINV) by (rewrite <- D; ring). rewrite J in A. lia. }
    set (k := (m - q) * (j + 1) - (t - v) * NINV) in *. clearbody k. clear -K Hm Hq PR. nia. }
  rewrite <- Em in Eq, Ev. clear q Em Hq. assert (v = t) by nia. subst v.
  unfold fp_mul. change R384 with (2 ^ 384). rewrite Eq, M_eq. replace ((x * y + m * modulus) / 2 ^ 384) with t by (rewrite <- Et, Z.div_mul by discriminate; reflexivity).
  assert (B1 : 0 <= t < 2 ^ 384 + modulus).
  { split; [nia|]. assert (x * y <= (2 ^ 384 - 1) * (2 ^ 384 - 1)) by (apply Z.mul_le_mono_nonneg; lia).
    assert (m * modulus <= (2 ^ 384 - 1) * modulus) by (apply Z.mul_le_mono_nonneg_r; lia). nia. }
  assert (E : t mod 2 ^ 384 = t /\ t < 2 ^ 384 \/ t mod 2 ^ 384 = t - 2 ^ 384 /\ 2 ^ 384 <= t).
  { destruct (Z.lt_ge_cases t (2 ^ 384)); [left|right]; (split; [|assumption]); [apply Z.mod_small; lia|].
    symmetry. apply Z.mod_unique_pos with 1; lia. }
  assert (Bs : 0 <= t mod 2 ^ 384) by (apply Z.mod_pos_bound; reflexivity).
  cbv zeta. set (s := t mod 2 ^ 384) in *. clearbody s. split.
  - destruct E as [[-> L]|[-> L]].
    + split; [intros _; exact L|intros _]. destruct (_ <? _); [apply congr_diff with m|apply congr_diff with (m - 2 ^ 384)]; lia.
    + split; [|intros; lia]. intros C. exfalso. rewrite (proj2 (Z.ltb_lt _ _)) in C by lia.
      apply congr_iff in C. destruct C as (k & C). apply RR_not_0. apply congr_diff with (m - k). lia.
  - destruct (Z.ltb_spec s modulus); lia.
Qed.
End Wide.
