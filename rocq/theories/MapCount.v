(** How many inputs the simplified SWU map sends to the same point, and how many byte strings a reduction sends to the same residue. *)
From Coq Require Import ZArith List Bool Lia Ring Field.
From Verif Require Import SpecBytes SpecCurve CurveProof SpecMap.
Import ListNotations.
Local Open Scope Z_scope.

Section AtMost.
Context {A : Type}.
Definition two (P : A -> Prop) : Prop := forall a b c, P a -> P b -> P c -> a = b \/ a = c \/ b = c.
Lemma two_le (p : A -> bool) (l : list A) : NoDup l -> two (fun a => In a l /\ p a = true) -> (length (filter p l) <= 2)%nat.
Proof.
  intros ND T. pose proof (NoDup_filter p ND) as NF.
  assert (I : forall a, In a (filter p l) -> In a l /\ p a = true) by (intros a H; apply filter_In; exact H).
  revert NF I. generalize (filter p l). intros [|a [|b [|c m]]] NF I; cbn [length]; try lia. exfalso.
  inversion NF as [|? ? N1 N2]; subst. inversion N2 as [|? ? N3 N4]; subst.
  destruct (T a b c) as [E|[E|E]]; try (apply I; cbn [In]; tauto); subst; cbn [In] in *; tauto.
Qed.
Lemma split_le (p q : A -> bool) (l : list A) : (forall a, In a l -> p a = true \/ q a = true) -> (length l <= length (filter p l) + length (filter q l))%nat.
Proof.
  induction l as [|a l IH]; intros H; [cbn; lia|]. cbn [filter length]. specialize (IH (fun b Hb => H b (or_intror Hb))).
  destruct (H a (or_introl eq_refl)) as [E|E]; rewrite E; [destruct (q a)|destruct (p a)]; cbn [length]; lia.
Qed.
End AtMost.

Section Gen.
Context (K : fieldOps).
Context (HF : field_theory (k0 : car K) k1 kadd kmul ksub kopp (fun x y => kmul x (kinv y)) kinv eq).
Add Field KfC : HF.
Notation "0" := (@k0 K). Notation "1" := (@k1 K).
Infix "+" := (@kadd K). Infix "*" := (@kmul K). Infix "-" := (@ksub K). Notation "- x" := (@kopp K x). Notation "/ x" := (@kinv K x).
Context (A B Z : car K) (NA : A <> 0) (NB : B <> 0) (NZ : Z <> 0).
Context (HX : is_square (wrhs A B (B * / (Z * A)))).
Context (sgn : car K -> bool) (HGN : forall a : car K, a <> 0 -> sgn (- a) = negb (sgn a)).
Lemma mul0 (a b : car K) : a * b = 0 -> a = 0 \/ b = 0.
Proof.
  intros H. destruct (keq a 0) as [E|N]; [left; exact E|right]. transitivity (/ a * (a * b)); [field; exact N|]. rewrite H. ring.
Qed.
Lemma sub0 (a b : car K) : a - b = 0 -> a = b. Proof. intros H. transitivity ((a - b) + b); [ring|]. rewrite H. ring. Qed.
(** equal Z u^2 and equal sign: the same u *)
Lemma same_u (u v : car K) : sgn u = sgn v -> Z * ksq u = Z * ksq v -> u = v.
Proof.
  intros S E. assert (P : Z * ((u - v) * (u + v)) = 0) by (transitivity (Z * ksq u - Z * ksq v); [unfold ksq; ring|rewrite E; ring]).
  destruct (mul0 _ _ P) as [P1|P1]; [contradiction|]. destruct (mul0 _ _ P1) as [P2|P2]; [exact (sub0 _ _ P2)|].
  assert (U : u = - v) by (transitivity ((u + v) - v); [ring|rewrite P2; ring]).
  destruct (keq v 0) as [V|V]; [rewrite U, V; ring|]. exfalso. rewrite U, (HGN v V) in S. destruct (sgn v); discriminate S.
Qed.
(** m (t^2 + t) + c t + e has at most two roots *)
Lemma quad (m c e t1 t2 t3 : car K) : m <> 0 -> m * (t1 * t1 + t1) + c * t1 + e = 0 -> m * (t2 * t2 + t2) + c * t2 + e = 0 -> m * (t3 * t3 + t3) + c * t3 + e = 0 ->
  t1 = t2 \/ t1 = t3 \/ t2 = t3.
Proof.
  intros M E1 E2 E3.
  assert (P : (t1 - t2) * (m * (t1 + t2 + 1) + c) = 0) by (transitivity ((m * (t1 * t1 + t1) + c * t1 + e) - (m * (t2 * t2 + t2) + c * t2 + e)); [ring|rewrite E1, E2; ring]).
  assert (Q : (t1 - t3) * (m * (t1 + t3 + 1) + c) = 0) by (transitivity ((m * (t1 * t1 + t1) + c * t1 + e) - (m * (t3 * t3 + t3) + c * t3 + e)); [ring|rewrite E1, E3; ring]).
  destruct (mul0 _ _ P) as [P1|P1]; [left; exact (sub0 _ _ P1)|]. destruct (mul0 _ _ Q) as [Q1|Q1]; [right; left; exact (sub0 _ _ Q1)|].
  right; right. assert (S : m * (t2 - t3) = 0) by (transitivity ((m * (t1 + t2 + 1) + c) - (m * (t1 + t3 + 1) + c)); [ring|rewrite P1, Q1; ring]).
  destruct (mul0 _ _ S) as [S1|S1]; [contradiction|exact (sub0 _ _ S1)].
Qed.
Definition qd (m c e : car K) (u : car K) : bool := if keq (m * (Z * ksq u * (Z * ksq u) + Z * ksq u) + c * (Z * ksq u) + e) 0 then true else false.
Lemma qd_two (m c e : car K) (s : bool) (l : list (car K)) : m <> 0 -> NoDup l -> (forall u, In u l -> sgn u = s) -> (length (filter (qd m c e) l) <= 2)%nat.
Proof.
  intros M ND S. apply two_le; [exact ND|]. intros u v w [I1 H1] [I2 H2] [I3 H3]. unfold qd in *.
  match type of H1 with (if ?x then _ else _) = _ => destruct x as [E1|]; [|discriminate] end.
  match type of H2 with (if ?x then _ else _) = _ => destruct x as [E2|]; [|discriminate] end.
  match type of H3 with (if ?x then _ else _) = _ => destruct x as [E3|]; [|discriminate] end.
  destruct (quad m c e _ _ _ M E1 E2 E3) as [E|[E|E]]; [left|right; left|right; right]; (apply same_u; [rewrite !S by assumption; reflexivity|exact E]).
Qed.
Definition mBA : car K := - B * / A.
Lemma mBA_nz : mBA <> 0.
Proof. intros H. apply NB. transitivity (- (mBA * A)); [unfold mBA; field; exact NA|]. rewrite H. ring. Qed.
(** the three ways of reaching x *)
Lemma sswu_cases (u x y : car K) : sswu sgn A B Z u x y ->
  (x - mBA <> 0 /\ qd (x - mBA) 0 (- mBA) u = true) \/ qd mBA (- x) (mBA - x) u = true \/ (x = B * / (Z * A) /\ qd 1 0 0 u = true).
Proof.
  intros [D _]. unfold sswu_x1 in D. cbv zeta in D. unfold qd. fold mBA in D.
  assert (M := mBA_nz). revert D M. generalize mBA as m. generalize (Z * ksq u). intros t m D M.
  destruct (keq (ksq t + t) 0) as [S|S].
  - right; right. destruct D as [[_ E]|[N _]]; [|contradiction (N HX)]. split; [exact E|].
    destruct (keq _ _) as [_|N]; [reflexivity|]. exfalso. apply N. transitivity (ksq t + t); [unfold ksq; ring|exact S].
  - assert (T0 : t <> 0) by (intros E; apply S; rewrite E; unfold ksq; ring).
    assert (T1 : t + 1 <> 0) by (intros E; apply S; transitivity (t * (t + 1)); [unfold ksq; ring|rewrite E; ring]).
    destruct D as [[_ E]|[_ E]].
    + left. assert (XM : (x - m) * (ksq t + t) = m) by (rewrite E; unfold ksq in *; field; exact S). split.
      * intros N. apply M. rewrite <- XM, N. ring.
      * destruct (keq _ _) as [_|N]; [reflexivity|]. exfalso. apply N. transitivity ((x - m) * (ksq t + t) - m); [unfold ksq; ring|rewrite XM; ring].
    + right; left. destruct (keq _ _) as [_|N]; [reflexivity|]. exfalso. apply N. rewrite E. unfold ksq in *. field. exact S.
Qed.
Lemma four_aux (x : car K) (s : bool) (l : list (car K)) : NoDup l -> (forall u, In u l -> sgn u = s) ->
  (forall u, In u l -> (x - mBA <> 0 /\ qd (x - mBA) 0 (- mBA) u = true) \/ qd mBA (- x) (mBA - x) u = true) -> (length l <= 4)%nat.
Proof.
  intros ND S C. pose proof (qd_two mBA (- x) (mBA - x) _ l mBA_nz ND S) as L2. set (q2 := qd mBA (- x) (mBA - x)) in *.
  destruct (keq (x - mBA) 0) as [X|X].
  - pose proof (split_le q2 q2 l) as L. assert (G : forall u, In u l -> q2 u = true \/ q2 u = true) by (intros u I; destruct (C u I) as [[N _]|E]; [contradiction|left; exact E]).
    specialize (L G). lia.
  - pose proof (qd_two (x - mBA) 0 (- mBA) _ l X ND S) as L1. set (q1 := qd (x - mBA) 0 (- mBA)) in *.
    pose proof (split_le q1 q2 l) as L. assert (G : forall u, In u l -> q1 u = true \/ q2 u = true) by (intros u I; destruct (C u I) as [[_ E]|E]; [left|right]; exact E).
    specialize (L G). lia.
Qed.
Lemma sswu_four (x y : car K) (l : list (car K)) : x <> B * / (Z * A) -> NoDup l -> (forall u, In u l -> sswu sgn A B Z u x y) -> (length l <= 4)%nat.
Proof.
  intros NX ND H. apply (four_aux x (sgn y) l ND).
  - intros u I. destruct (H u I) as (_ & _ & E). symmetry. exact E.
  - intros u I. destruct (sswu_cases u x y (H u I)) as [E|[E|[N _]]]; [left; exact E|right; exact E|contradiction].
Qed.
Lemma sswu_six (x y : car K) (l : list (car K)) : NoDup l -> (forall u, In u l -> sswu sgn A B Z u x y) -> (length l <= 6)%nat.
Proof.
  intros ND H. assert (S : forall u, In u l -> sgn u = sgn y) by (intros u I; destruct (H u I) as (_ & _ & E); symmetry; exact E).
  set (p0 := qd 1 0 0). set (l1 := filter (fun u => negb (p0 u)) l).
  pose proof (qd_two 1 0 0 _ l (F_1_neq_0 HF) ND S) as L0. fold p0 in L0.
  assert (L : (length l <= length (filter p0 l) + length l1)%nat) by (apply split_le; intros u _; destruct (p0 u); [left|right]; reflexivity).
  assert (L1 : (length l1 <= 4)%nat); [|lia].
  apply (four_aux x (sgn y)); [apply NoDup_filter; exact ND|intros u I; apply filter_In in I; apply S; tauto|].
  intros u I. apply filter_In in I. destruct I as [I NP]. destruct (sswu_cases u x y (H u I)) as [E|[E|[_ E]]]; [left; exact E|right; exact E|]. fold p0 in E. rewrite E in NP. discriminate NP.
Qed.
End Gen.
