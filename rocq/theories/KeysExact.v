(** Addition of two four-limb keys when carries are dropped: the sum minus 2^(64(i+1)) for each dropped carry. *)
From Coq Require Import ZArith Znumtheory List Bool Lia.
From Verif Require Import SpecField SpecBytes SpecKeys ModelWord ModelScalar ModelDiv ModelKeys ScalarProof ScalarProof2 KeysProof.
Import ListNotations.
Local Open Scope Z_scope.

Lemma Add64_exact x y c s c' : 0 <= x < W -> 0 <= y < W -> 0 <= c <= 1 -> Add64 x y c = (s, c') ->
  0 <= s < W /\ 0 <= c' <= 1 /\ exists l, 0 <= l <= 1 /\ (l = 1 <-> y = W - 1 /\ c = 1) /\ s + W * (c' + l) = x + y + c.
Proof.
  unfold Add64. intros Hx Hy Hc E. injection E as E1 E2. rewrite Zplus_mod_idemp_l in E1, E2. rewrite E1 in E2.
  assert (HW : W = 2 ^ 64) by reflexivity. assert (WP : 2 <= W) by (rewrite HW; discriminate). clear HW.
  assert (Bs : 0 <= s < W) by (rewrite <- E1; apply Z.mod_pos_bound; lia). split; [exact Bs|].
  assert (Q : s = x + y + c \/ s = x + y + c - W).
  { rewrite <- E1. destruct (Z.lt_ge_cases (x + y + c) W) as [L|G]; [left; apply Z.mod_small; lia|right].
    replace (x + y + c) with (x + y + c - W + 1 * W) at 1 by ring. rewrite Z.mod_add by lia. apply Z.mod_small. lia. }
  destruct (Z.ltb_spec s x) as [A|A]; subst c'; (split; [lia|]).
  - exists 0. split; [lia|]. destruct Q as [Q|Q]; split; lia.
  - destruct Q as [Q|Q]; [exists 0|exists 1]; (split; [lia|]); split; lia.
Qed.
Definition deficits : list Z := [0; 2 ^ 128; 2 ^ 192; 2 ^ 128 + 2 ^ 192].
Lemma key4 k : key k -> exists a b c d, k = [a; b; c; d] /\ 0 <= a < W /\ 0 <= b < W /\ 0 <= c < W /\ 0 <= d < W.
Proof.
  intros [Wk L]. destruct k as [|a [|b [|c [|d [|]]]]]; try discriminate L. exists a, b, c, d. split; [reflexivity|].
  apply Forall_cons_iff in Wk. destruct Wk as [Ha Wk]. apply Forall_cons_iff in Wk. destruct Wk as [Hb Wk]. apply Forall_cons_iff in Wk. destruct Wk as [Hc Wk].
  apply Forall_cons_iff in Wk. destruct Wk as [Hd _]. exact (conj Ha (conj Hb (conj Hc Hd))).
Qed.
Lemma carry_cases a b : key a -> key b -> val a < order -> val b < order ->
  exists c L, scalar_add 4 a b = Ok c /\ key c /\ val c = val a + val b - L /\ In L deficits /\ (L = 0 <-> ~ carry_lost (val a) (val b)).
Proof.
  intros Ka Kb Ba Bb. destruct (key4 a Ka) as (a0 & a1 & a2 & a3 & -> & A0 & A1 & A2 & A3). destruct (key4 b Kb) as (b0 & b1 & b2 & b3 & -> & B0 & B1 & B2 & B3).
  assert (B3' : a3 < 2 ^ 63 /\ b3 < 2 ^ 63).
  { cbn [val] in Ba, Bb. assert (order < 2 ^ 255) by reflexivity. change W with (2 ^ 64) in *. clear -Ba Bb H A0 A1 A2 A3 B0 B1 B2 B3. lia. }
  unfold scalar_add. cbn [length Nat.max Nat.ltb Nat.leb add_loop limb nth].
  destruct (Add64 a0 b0 0) as [s0 c1] eqn:E0. destruct (Add64 a1 b1 c1) as [s1 c2] eqn:E1. destruct (Add64 a2 b2 c2) as [s2 c3] eqn:E2. destruct (Add64 a3 b3 c3) as [s3 c4] eqn:E3.
  destruct (Add64_exact _ _ _ _ _ A0 B0 (conj (Z.le_refl 0) Z.le_0_1) E0) as (S0 & C1 & l0 & L0 & Q0 & X0).
  destruct (Add64_exact _ _ _ _ _ A1 B1 C1 E1) as (S1 & C2 & l1 & L1 & Q1 & X1).
  destruct (Add64_exact _ _ _ _ _ A2 B2 C2 E2) as (S2 & C3 & l2 & L2 & Q2 & X2).
  destruct (Add64_exact _ _ _ _ _ A3 B3 C3 E3) as (S3 & C4 & l3 & L3 & Q3 & X3). clear E0 E1 E2 E3.
  assert (Z0 : l0 = 0) by (clear -L0 Q0; lia). assert (HW : W = 2 ^ 64) by reflexivity.
  assert (Z3 : l3 = 0) by (rewrite HW in *; clear -L3 Q3 B3'; lia).
  assert (Z4 : c4 = 0) by (rewrite HW in *; clear -S3 C4 C3 L3 X3 B3' Z3; lia). subst l0 l3 c4. rewrite Z.ltb_irrefl. cbn [repeat Nat.sub app].
  exists [s0; s1; s2; s3], (2 ^ 128 * l1 + 2 ^ 192 * l2). split; [reflexivity|]. split; [split; [repeat constructor; (apply S0 || apply S1 || apply S2 || apply S3)|reflexivity]|].
  split; [cbn [val]; rewrite HW in *; clear -X0 X1 X2 X3; lia|]. split.
  { assert (l1 = 0 \/ l1 = 1) as [->| ->] by (clear -L1; lia); assert (l2 = 0 \/ l2 = 1) as [->| ->] by (clear -L2; lia); unfold deficits; cbn [In]; auto. }
  assert (V0 : forall x0 x1 x2 x3, 0 <= x0 < W -> 0 <= x1 < W -> 0 <= x2 < W -> 0 <= x3 < W -> let v := val [x0; x1; x2; x3] in
    v mod 2 ^ 64 = x0 /\ v mod 2 ^ 128 = x0 + W * x1 /\ (v / 2 ^ 64) mod 2 ^ 64 = x1 /\ (v / 2 ^ 128) mod 2 ^ 64 = x2 /\ (v / 2 ^ 192) mod 2 ^ 64 = x3).
  { intros x0 x1 x2 x3 H0 H1 H2 H3. assert (K : words [x0; x1; x2; x3]) by (repeat constructor; assumption || apply H0 || apply H1 || apply H2 || apply H3). cbv zeta.
    pose proof (firstn_val _ 1 K ltac:(cbn; lia)) as F1. pose proof (firstn_val _ 2 K ltac:(cbn; lia)) as F2. pose proof (limb_val _ 1 K ltac:(cbn; lia)) as G1. pose proof (limb_val _ 2 K ltac:(cbn; lia)) as G2.
    pose proof (limb_val _ 3 K ltac:(cbn; lia)) as G3. change (64 * Z.of_nat 1) with 64 in *. change (64 * Z.of_nat 2) with 128 in *. change (64 * Z.of_nat 3) with 192 in *.
    rewrite <- F1, <- F2, <- G1, <- G2, <- G3. cbn [firstn val limb nth]. split; [ring|]. split; [ring|]. auto. }
  destruct (V0 a0 a1 a2 a3 A0 A1 A2 A3) as (MA1 & MA2 & _). destruct (V0 b0 b1 b2 b3 B0 B1 B2 B3) as (MB1 & MB2 & MB3 & MB4 & MB5). clear V0.
  unfold carry_lost. generalize dependent (val [a0; a1; a2; a3]). generalize dependent (val [b0; b1; b2; b3]). intros vb Bb MB1 MB2 MB3 MB4 MB5 va Ba MA1 MA2. split.
  - intros Z (i & Hi & E & G). assert (T1 : l1 = 0) by (clear -Z L1 L2; lia). assert (T2 : l2 = 0) by (clear -Z L1 L2; lia).
    assert (i = 0 \/ i = 1 \/ i = 2 \/ i = 3) as [->|[->|[->| ->]]] by (clear -Hi; lia).
    + change (2 ^ (64 * 0)) with 1 in G. rewrite !Z.mod_1_r in G. lia.
    + change (64 * 1) with 64 in *. rewrite MB3 in E. rewrite MA1, MB1 in G. rewrite HW in *. clear -E G X0 S0 C1 T1 Q1. lia.
    + change (64 * 2) with 128 in *. rewrite MB4 in E. rewrite MA2, MB2 in G. rewrite HW in *. clear -E G X0 X1 S0 S1 C1 C2 T1 T2 Q2. lia.
    + change (64 * 3) with 192 in *. rewrite MB5 in E. clear -E B3'. lia.
  - intros N. assert (T1 : l1 = 0).
    { destruct (Z.eq_dec l1 1) as [->|]; [exfalso; apply N|lia]. destruct (proj1 Q1 eq_refl) as [Y1 Y2]. exists 1. split; [lia|]. change (64 * 1) with 64. rewrite MB3, MA1, MB1. rewrite HW in *. clear -Y1 Y2 X0 S0. lia. }
    assert (T2 : l2 = 0).
    { destruct (Z.eq_dec l2 1) as [->|]; [exfalso; apply N|lia]. destruct (proj1 Q2 eq_refl) as [Y1 Y2]. exists 2. split; [lia|]. change (64 * 2) with 128. rewrite MB4, MA2, MB2. rewrite HW in *. clear -Y1 Y2 X0 X1 S0 S1 T1. lia. }
    rewrite T1, T2. reflexivity.
Qed.
Lemma deficit_bound L : In L deficits -> 0 <= L < 2 ^ 193.
Proof. intros [<-|[<-|[<-|[<-|[]]]]]; split; (discriminate || reflexivity). Qed.
Lemma agg_loop_exact : forall sks ret, key ret -> val ret < order -> Forall (fun k => key k /\ val k < order) sks ->
  exists k L, agg_sk_loop ret sks = Ok k /\ key k /\ val k < order /\ val k = (val ret + zsum (map val sks) - zsum L) mod order /\ Forall (fun l => In l deficits) L /\ length L = length sks /\
    (sum_ok (val ret) (map val sks) <-> zsum L = 0).
Proof.
  destruct order_small as (O1 & O2 & O3).
  induction sks as [|sk sks IH]; intros ret Kr Br F; cbn [agg_sk_loop map sum_ok].
  - exists ret, []. split; [reflexivity|]. split; [exact Kr|]. split; [exact Br|]. cbn [zsum fold_right length]. rewrite Z.add_0_r, Z.sub_0_r. split; [symmetry; apply Z.mod_small; split; [apply val_nonneg, Kr|exact Br]|].
    split; [constructor|]. split; [reflexivity|]. split; [reflexivity|exact (fun _ => I)].
  - apply Forall_cons_iff in F. destruct F as [[Ks Bs] F].
    destruct (carry_cases ret sk Kr Ks Br Bs) as (c & l & E & Kc & V & D & N). rewrite E. cbn [obind].
    destruct (reduce_ok c) as (r & E2 & K2 & V2); [apply Kc|rewrite (proj2 Kc); lia|]. rewrite E2. cbn [obind]. rewrite V in V2.
    assert (Br2 : val r < order) by (rewrite V2; apply Z.mod_pos_bound; exact O3).
    destruct (IH r K2 Br2 F) as (k & L & E3 & K3 & B3 & V3 & D3 & L3 & N3).
    exists k, (l :: L). split; [exact E3|]. split; [exact K3|]. split; [exact B3|]. cbn [zsum fold_right length]. fold (zsum L). fold (zsum (map val sks)). split; [|split; [constructor; assumption|split; [rewrite L3; reflexivity|]]].
    + rewrite V3, V2. rewrite <- Z.add_sub_assoc, Zplus_mod_idemp_l. f_equal. ring.
    + assert (P : 0 <= zsum L) by (clear -D3; induction D3 as [|x L Hx D IH]; cbn [zsum fold_right]; [lia|]; fold (zsum L); apply deficit_bound in Hx; lia).
      pose proof (deficit_bound l D) as Bl. split.
      * intros [A B]. apply N in A. rewrite A, Z.sub_0_r in V2. rewrite <- V2 in B. apply N3 in B. clear -A B. lia.
      * intros Z. assert (A : l = 0) by (clear -Z P Bl; lia). split; [apply N, A|]. rewrite A, Z.sub_0_r in V2. rewrite <- V2. apply N3. clear -Z A. lia.
Qed.
