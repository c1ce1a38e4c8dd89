(** Counting the inputs of mapToCurve that have the same image. *)
From Coq Require Import ZArith Znumtheory List Bool Lia Ring Field.
From Verif Require Import SpecCurve AbGroup CurveProof SpecMap MapProof MapCount.
Import ListNotations.
Local Open Scope Z_scope.

Section Fibers.
Context {A B : Type} (deq : forall b b' : B, {b = b'} + {b <> b'}) (f : A -> B) (k : B -> nat).
Lemma fibers : forall (Bs : list B) (l : list A), NoDup l -> (forall a, In a l -> In (f a) Bs) ->
  (forall b l', NoDup l' -> (forall a, In a l' -> In a l /\ f a = b) -> (length l' <= k b)%nat) -> (length l <= list_sum (map k Bs))%nat.
Proof.
  induction Bs as [|b Bs IH]; intros l ND H C.
  - destruct l as [|a l]; [cbn; lia|]. destruct (H a (or_introl eq_refl)).
  - set (p := fun a => if deq (f a) b then true else false).
    assert (L : (length l <= length (filter p l) + length (filter (fun a => negb (p a)) l))%nat) by (apply split_le; intros a _; destruct (p a); [left|right]; reflexivity).
    assert (L1 : (length (filter p l) <= k b)%nat).
    { apply C; [apply NoDup_filter; exact ND|]. intros a I. apply filter_In in I. destruct I as [I E]. split; [exact I|]. unfold p in E. destruct (deq (f a) b); [assumption|discriminate]. }
    assert (L2 : (length (filter (fun a => negb (p a)) l) <= list_sum (map k Bs))%nat).
    { apply IH; [apply NoDup_filter; exact ND| |].
      - intros a I. apply filter_In in I. destruct I as [I E]. unfold p in E. destruct (deq (f a) b) as [|N]; [discriminate|]. destruct (H a I) as [X|X]; [symmetry in X; contradiction|exact X].
      - intros b' l' N' H'. apply C; [exact N'|]. intros a I. destruct (H' a I) as [X E]. apply filter_In in X. split; [apply X|exact E]. }
    cbn [map list_sum fold_right]. change (fold_right Init.Nat.add 0%nat (map k Bs)) with (list_sum (map k Bs)). lia.
Qed.
End Fibers.
Lemma list_sum_le {B} (k : B -> nat) n (l : list B) : (forall b, (k b <= n)%nat) -> (list_sum (map k l) <= n * length l)%nat.
Proof. intros H. induction l as [|b l IH]; cbn [map list_sum fold_right length]; [lia|]. change (fold_right Init.Nat.add 0%nat (map k l)) with (list_sum (map k l)). specialize (H b). lia. Qed.
Lemma list_sum_one {B} (deq : forall b b' : B, {b = b'} + {b <> b'}) v m n (l : list B) : NoDup l -> (list_sum (map (fun b => if deq b v then m + n else m) l) <= m * length l + n)%nat.
Proof.
  intros ND. assert (G : forall l, ~ In v l -> (list_sum (map (fun b => if deq b v then m + n else m) l) <= m * length l)%nat).
  { clear. induction l as [|b l IH]; intros H; cbn [map list_sum fold_right length]; [lia|]. cbn [In] in H. destruct (deq b v) as [E|_]; [tauto|]. specialize (IH ltac:(tauto)).
    change (fold_right Init.Nat.add 0%nat ?x) with (list_sum x). lia. }
  induction ND as [|b l NI ND IH]; cbn [map list_sum fold_right length]; [lia|]. change (fold_right Init.Nat.add 0%nat ?x) with (list_sum x).
  destruct (deq b v) as [E|N]; [|lia]. subst b. specialize (G l NI). lia.
Qed.

Section Poly.
Context (K : fieldOps).
Context (HF : field_theory (k0 : car K) k1 kadd kmul ksub kopp (fun x y => kmul x (kinv y)) kinv eq).
Add Field KfP : HF.
Notation "0" := (@k0 K). Notation "1" := (@k1 K).
Infix "+" := (@kadd K). Infix "*" := (@kmul K). Infix "-" := (@ksub K). Notation "- x" := (@kopp K x). Notation "/ x" := (@kinv K x).
Fixpoint quot (cs : list (car K)) (a : car K) : list (car K) :=
  match cs with [] => [] | _ :: cs' => match cs' with [] => [] | _ => peval cs' a :: quot cs' a end end.
Lemma quot_ok a x : forall cs, peval cs x - peval cs a = (x - a) * peval (quot cs a) x.
Proof.
  induction cs as [|c cs IH]; [cbn [peval quot]; ring|]. destruct cs as [|d cs]; [cbn [peval quot]; ring|].
  change (quot (c :: d :: cs) a) with (peval (d :: cs) a :: quot (d :: cs) a). change (peval (c :: d :: cs) x) with (c + x * peval (d :: cs) x). change (peval (c :: d :: cs) a) with (c + a * peval (d :: cs) a).
  change (peval (peval (d :: cs) a :: quot (d :: cs) a) x) with (peval (d :: cs) a + x * peval (quot (d :: cs) a) x).
  transitivity (x * (peval (d :: cs) x - peval (d :: cs) a) + (x - a) * peval (d :: cs) a); [ring|]. rewrite IH. ring.
Qed.
Lemma quot_len a : forall cs, length (quot cs a) = pred (length cs).
Proof. induction cs as [|c cs IH]; [reflexivity|]. destruct cs as [|d cs]; [reflexivity|]. change (quot (c :: d :: cs) a) with (peval (d :: cs) a :: quot (d :: cs) a). cbn [length] in *. rewrite IH. reflexivity. Qed.
Lemma quot_last a : forall cs, (2 <= length cs)%nat -> last (quot cs a) 0 = last cs 0.
Proof.
  induction cs as [|c cs IH]; [cbn; lia|]. destruct cs as [|d cs]; [cbn; lia|]. intros _.
  change (quot (c :: d :: cs) a) with (peval (d :: cs) a :: quot (d :: cs) a). destruct cs as [|e cs]; [cbn [quot last peval]; ring|].
  specialize (IH ltac:(cbn [length]; lia)). change (last (c :: d :: e :: cs) 0) with (last (d :: e :: cs) 0). rewrite <- IH. reflexivity.
Qed.
Lemma roots_le : forall n cs (l : list (car K)), length cs = S n -> last cs 0 <> 0 -> NoDup l -> (forall x, In x l -> peval cs x = 0) -> (length l <= n)%nat.
Proof.
  induction n as [|n IH]; intros cs l L N ND H.
  - destruct cs as [|c [|d cs]]; try discriminate L. destruct l as [|x l]; [cbn; lia|]. exfalso. apply N. rewrite <- (H x (or_introl eq_refl)). cbn [last peval]. ring.
  - destruct l as [|a l]; [cbn; lia|]. inversion ND as [|? ? NI ND']; subst. cbn [length].
    assert (Lq : (length l <= n)%nat); [|lia]. apply (IH (quot cs a) l).
    + rewrite quot_len, L. reflexivity.
    + rewrite quot_last by lia. exact N.
    + exact ND'.
    + intros x I. pose proof (quot_ok a x cs) as Q. rewrite (H x (or_intror I)), (H a (or_introl eq_refl)) in Q.
      assert (Q0 : (x - a) * peval (quot cs a) x = 0) by (rewrite <- Q; ring). destruct (mul0 K HF _ _ Q0) as [E|E]; [|exact E].
      exfalso. apply NI. rewrite <- (sub0 K HF _ _ E). exact I.
Qed.
Lemma padd2_last : forall l m : list (car K), (length m < length l)%nat -> last (padd2 K l m) 0 = last l 0 /\ length (padd2 K l m) = length l.
Proof.
  induction l as [|a l IH]; intros [|b m] H; cbn [length] in H; try lia; [split; reflexivity|]. cbn [padd2]. destruct (IH m ltac:(lia)) as [E1 E2]. split; [|cbn [length]; rewrite E2; reflexivity].
  destruct l as [|c l]; [cbn [length] in H; lia|]. destruct m as [|d m]; [reflexivity|]. cbn [padd2] in *. change (last (a + b :: c + d :: padd2 K l m) 0) with (last (c + d :: padd2 K l m) 0). rewrite E1. reflexivity.
Qed.

Context (A B Z : car K) (NA : A <> 0) (NB : B <> 0) (NZ : Z <> 0).
Context (HX : is_square (wrhs A B (B * / (Z * A)))).
Context (sgn : car K -> bool) (HGN : forall a : car K, a <> 0 -> sgn (- a) = negb (sgn a)).
Context (m : car K -> car K * car K) (Hm : forall u, sswu sgn A B Z u (fst (m u)) (snd (m u))).
Context (xn xd yn yd : list (car K)) (n : nat) (Ln : length xn = S n) (Ld : (length xd <= n)%nat) (TN : last xn 0 <> 0).
Lemma map_count (X Y : car K) (l : list (car K)) : Y <> 0 -> NoDup l -> (forall u, In u l -> rational_map xn xd yn yd (fst (m u)) (snd (m u)) = Aff X Y) -> (length l <= 4 * n + 2)%nat.
Proof.
  intros NY ND H. set (v := B * / (Z * A)). set (Bs := nodup keq (map (fun u => fst (m u)) l)).
  assert (HR : forall u, In u l -> peval xd (fst (m u)) <> 0 /\ X * peval xd (fst (m u)) = peval xn (fst (m u)) /\ peval yd (fst (m u)) <> 0 /\ Y * peval yd (fst (m u)) = snd (m u) * peval yn (fst (m u))).
  { intros u I. specialize (H u I). unfold rational_map in H. destruct (keq (peval xd (fst (m u))) 0) as [|N1]; [discriminate H|]. destruct (keq (peval yd (fst (m u))) 0) as [|N2]; [discriminate H|].
    injection H as E1 E2. split; [exact N1|]. split; [rewrite <- E1; field; exact N1|]. split; [exact N2|]. rewrite <- E2. field. exact N2. }
  assert (LB : (length Bs <= n)%nat).
  { destruct (padd2_last xn (pscale K (- X) xd)) as [P1 P2]; [unfold pscale; rewrite map_length; lia|].
    apply (roots_le n (padd2 K xn (pscale K (- X) xd))); [rewrite P2; exact Ln|rewrite P1; exact TN|apply NoDup_nodup|].
    intros x I. apply nodup_In in I. apply in_map_iff in I. destruct I as (u & <- & I). destruct (HR u I) as (_ & E & _). rewrite (padd2_ok K HF), (pscale_ok K HF), <- E. ring. }
  pose proof (fibers keq (fun u => fst (m u)) (fun x => if keq x v then (4 + 2)%nat else 4%nat) Bs l ND) as F.
  pose proof (list_sum_one keq v 4 2 Bs (NoDup_nodup _ _)) as S.
  assert (F1 : (length l <= list_sum (map (fun x => if keq x v then (4 + 2)%nat else 4%nat) Bs))%nat); [|lia].
  apply F.
  - intros u I. apply nodup_In. apply in_map_iff. exists u. split; [reflexivity|exact I].
  - intros x l' N' H'. destruct l' as [|u0 l0]; [cbn; lia|]. remember (u0 :: l0) as l'.
    assert (I0 : In u0 l') by (subst l'; left; reflexivity). clear Heql'. destruct (H' u0 I0) as [J0 E0].
    assert (HS : forall u, In u l' -> sswu sgn A B Z u x (snd (m u0))).
    { intros u I. destruct (H' u I) as [J E]. pose proof (Hm u) as S0. rewrite E in S0. replace (snd (m u0)) with (snd (m u)); [exact S0|].
      destruct (HR u J) as (_ & _ & N2 & E2). destruct (HR u0 J0) as (_ & _ & N3 & E3). rewrite E in E2, N2. rewrite E0 in E3, N3. rewrite E2 in E3.
      assert (YN : peval yn x <> 0). { intros Y0. apply NY. rewrite Y0 in E2. destruct (mul0 K HF Y (peval yd x)) as [G|G]; [rewrite E2; ring|exact G|contradiction]. }
      destruct (mul0 K HF (snd (m u) - snd (m u0)) (peval yn x)) as [G|G]; [|exact (sub0 K HF _ _ G)|contradiction].
      transitivity (snd (m u) * peval yn x - snd (m u0) * peval yn x); [ring|]. rewrite E3. ring. }
    destruct (keq x v) as [EV|NV].
    + exact (sswu_six K HF A B Z NA NB NZ HX sgn HGN x (snd (m u0)) l' N' HS).
    + exact (sswu_four K HF A B Z NA NB NZ HX sgn HGN x (snd (m u0)) l' NV N' HS).
Qed.
End Poly.

Section Kernel.
Context (G : abgroup) (L : list G) (AL : forall P, In P L) (g : G) (q h : Z) (Pq : prime q) (Gq : zmul q g = gid) (Ng : g <> gid) (Nh : ~ (q | h)).
(** at most |G| / q points have a given h-multiple *)
Lemma fiber_size (Q : G) (F : list G) : NoDup F -> (forall P, In P F -> zmul h P = Q) -> Z.of_nat (length F) * q <= Z.of_nat (length L).
Proof.
  intros NF HF. pose proof (prime_ge_2 q Pq) as Q2.
  assert (INJ : forall i j, 0 <= i < q -> 0 <= j < q -> zmul h (zmul i g) = zmul h (zmul j g) -> i = j).
  { intros i j Hi Hj E. assert (Z0 : zmul (h * (i - j)) g = gid).
    { rewrite zmul_mul. unfold Z.sub. rewrite zmul_add, zmul_op, E, <- zmul_op, <- zmul_add. replace (j + - j) with 0 by ring. rewrite zmul_0. apply zmul_id. }
    apply (zmul_prime q) in Z0; [|assumption..]. apply prime_mult in Z0; [|exact Pq]. destruct Z0 as [Z0|Z0]; [contradiction|].
    destruct (Z.eq_dec i j) as [X|X]; [exact X|]. exfalso. apply Z.divide_abs_r in Z0. apply Z.divide_pos_le in Z0; lia. }
  assert (C : forall n, Z.of_nat n <= q -> exists M : list G, NoDup M /\ length M = (n * length F)%nat /\ forall P, In P M -> exists i, 0 <= i < Z.of_nat n /\ zmul h P = gop (zmul h (zmul i g)) Q).
  { induction n as [|n IH]; intros Hn; [exists []; split; [constructor|split; [reflexivity|intros P []]]|].
    destruct IH as (M & NM & LM & HM); [lia|]. exists (map (gop (zmul (Z.of_nat n) g)) F ++ M).
    assert (HT : forall P, In P (map (gop (zmul (Z.of_nat n) g)) F) -> zmul h P = gop (zmul h (zmul (Z.of_nat n) g)) Q).
    { intros P I. apply in_map_iff in I. destruct I as (P0 & <- & I). rewrite zmul_op, (HF P0 I). reflexivity. }
    split; [|split].
    - assert (NT : NoDup (map (gop (zmul (Z.of_nat n) g)) F)).
      { clear -NF. induction NF as [|P F N NF IH]; cbn [map]; constructor; [|exact IH]. intros I. apply in_map_iff in I. destruct I as (P0 & E & I). apply g_cancel in E. subst P0. contradiction. }
      revert HT NT. generalize (map (gop (zmul (Z.of_nat n) g)) F). clear -NM HM INJ Hn. intros T HT NT. induction NT as [|P T N NT IH]; [exact NM|]. cbn [app]. constructor.
      + intros I. apply in_app_or in I. destruct I as [I|I]; [contradiction|]. destruct (HM P I) as (i & Hi & E). rewrite (HT P (or_introl eq_refl)) in E.
        apply g_cancel_r in E. apply INJ in E; lia.
      + apply IH. intros P0 I. apply HT. right. exact I.
    - rewrite app_length, map_length, LM. lia.
    - intros P I. apply in_app_or in I. destruct I as [I|I]; [exists (Z.of_nat n); split; [lia|exact (HT P I)]|]. destruct (HM P I) as (i & Hi & E). exists i. split; [lia|exact E]. }
  destruct (C (Z.to_nat q)) as (M & NM & LM & _); [rewrite Z2Nat.id by lia; lia|].
  pose proof (NoDup_incl_length NM (fun P _ => AL P) : (length M <= length L)%nat) as LE. rewrite LM in LE. apply Nat2Z.inj_le in LE. rewrite Nat2Z.inj_mul, Z2Nat.id in LE by lia. lia.
Qed.
End Kernel.
