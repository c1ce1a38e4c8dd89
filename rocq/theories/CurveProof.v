(** The chord-and-tangent law is an abelian group law; the line functions of a triple form a cocycle. *)
From Coq Require Import ZArith Bool Eqdep_dec Field.
From Verif Require Import SpecCurve AbGroup.

Section Curve.
Variable K : fieldOps.
Notation T := (car K).
Declare Scope K_scope.
Notation "x + y" := (kadd x y) : K_scope. Notation "x - y" := (ksub x y) : K_scope. Notation "x * y" := (kmul x y) : K_scope.
Notation "- x" := (kopp x) : K_scope. Notation "0" := k0 : K_scope. Notation "1" := k1 : K_scope.
Delimit Scope K_scope with K. Local Open Scope K_scope. Bind Scope K_scope with car.
Hypothesis Kf : field_theory (k0 : T) k1 kadd kmul ksub kopp (fun x y => kmul x (kinv y)) kinv eq.
Add Field KF : Kf.
Hypothesis two_nz : (1 + 1 : T) <> 0.
Hypothesis three_nz : (1 + 1 + 1 : T) <> 0.
Variable b : T.
Hypothesis b_nz : b <> 0.

Lemma k_integral (x y : T) : x * y = 0 -> x = 0 \/ y = 0.
Proof.
  intros H. destruct (keq x 0) as [E|N]; [auto|right]. replace y with (kinv x * (x * y)) by (field; auto). rewrite H. ring.
Qed.
Lemma k_sub0 (x y : T) : x - y = 0 -> x = y. Proof. intros H. replace x with (x - y + y) by ring. rewrite H. ring. Qed.
Lemma k_sub_nz (x y : T) : x <> y -> x - y <> 0. Proof. intros H E. apply H, k_sub0, E. Qed.
Lemma k_mul_cancel (c x y : T) : c <> 0 -> c * x = c * y -> x = y.
Proof. intros N H. apply k_sub0. destruct (k_integral c (x - y)) as [E|E]; [|contradiction|exact E]. replace (c * (x - y)) with (c * x - c * y) by ring. rewrite H. ring. Qed.
Lemma k_half (x : T) : x + x = 0 -> x = 0.
Proof. intros H. destruct (k_integral (1 + 1) x); auto; [|contradiction]. rewrite <- H. ring. Qed.

Definition on (x y : T) : Prop := y * y = x * x * x + b.
(** [V l m x1 x2 x3]: the line y = l x + m meets the curve exactly in the abscissae x1, x2, x3 *)
Definition V (l m x1 x2 x3 : T) : Prop :=
  l * l = x1 + x2 + x3 /\ - (l * m + l * m) = x1 * x2 + x1 * x3 + x2 * x3 /\ m * m - b = x1 * x2 * x3.
Lemma V_on1 l m x1 x2 x3 : V l m x1 x2 x3 -> on x1 (l * x1 + m).
Proof.
  intros (H1 & H2 & H3). unfold on. 
  replace ((l * x1 + m) * (l * x1 + m)) with (l * l * (x1 * x1) - (- (l * m + l * m)) * x1 + (m * m - b) + b) by ring. rewrite H1, H2, H3. ring.
Qed.
Lemma V_12 l m x1 x2 x3 : V l m x1 x2 x3 -> V l m x2 x1 x3.
Proof. intros (H1 & H2 & H3). repeat split; [rewrite H1|rewrite H2|rewrite H3]; ring. Qed.
Lemma V_23 l m x1 x2 x3 : V l m x1 x2 x3 -> V l m x1 x3 x2.
Proof. intros (H1 & H2 & H3). repeat split; [rewrite H1|rewrite H2|rewrite H3]; ring. Qed.
Lemma V_neg l m x1 x2 x3 : V l m x1 x2 x3 -> V (- l) (- m) x1 x2 x3.
Proof. intros (H1 & H2 & H3). repeat split; [rewrite <- H1|rewrite <- H2|rewrite <- H3]; ring. Qed.
(** every point of the curve on the line is one of the three *)
Lemma V_root l m x1 x2 x3 x : V l m x1 x2 x3 -> on x (l * x + m) -> x = x1 \/ x = x2 \/ x = x3.
Proof.
  intros (H1 & H2 & H3) O. unfold on in O.
  assert (E : (x - x1) * ((x - x2) * (x - x3)) = 0).
  { replace ((x - x1) * ((x - x2) * (x - x3))) with (x * x * x - (x1 + x2 + x3) * (x * x) + (x1 * x2 + x1 * x3 + x2 * x3) * x - x1 * x2 * x3) by ring.
    rewrite <- H1, <- H2, <- H3. 
    replace (x * x * x) with (x * x * x + b - b) by ring. rewrite <- O. ring. }
  apply k_integral in E as [E|E]; [left; apply k_sub0, E|]. apply k_integral in E as [E|E]; right; [left|right]; apply k_sub0, E.
Qed.
(** a line does not touch the curve at a point of order two *)
Lemma V_nondeg l m x1 x3 : V l m x1 x1 x3 -> l * x1 + m <> 0.
Proof.
  intros H E. pose proof (V_on1 _ _ _ _ _ H) as O. unfold on in O. rewrite E in O. destruct H as (H1 & H2 & H3).
  assert (M : m = - (l * x1)) by (replace m with (l * x1 + m - l * x1) by ring; rewrite E; ring).
  rewrite M in H2. 
  assert (X : (1 + 1 + 1) * (x1 * x1) = 0).
  { assert (x1 * x1 + (1 + 1) * (x1 * x3) = (1 + 1) * x1 * (l * l)) by (replace (x1 * x1 + (1 + 1) * (x1 * x3)) with (x1 * x1 + x1 * x3 + x1 * x3) by ring; rewrite <- H2; ring).
    rewrite H1 in H. replace ((1 + 1 + 1) * (x1 * x1)) with ((1 + 1) * x1 * (x1 + x1 + x3) - (x1 * x1 + (1 + 1) * (x1 * x3))) by ring. rewrite H. ring. }
  apply k_integral in X as [X|X]; [contradiction|]. assert (x1 = 0) by (apply k_integral in X as []; auto). subst x1.
  apply b_nz. replace b with (0 * 0 * 0 + b) by ring. rewrite <- O. ring.
Qed.
(** secant and tangent *)
Lemma slope_V x1 y1 x2 y2 : on x1 y1 -> on x2 y2 -> ~ (x1 = x2 /\ y1 = - y2) ->
  let l := slope x1 y1 x2 y2 in let m := y1 - l * x1 in let x3 := l * l - x1 - x2 in
  V l m x1 x2 x3 /\ y2 = l * x2 + m.
Proof.
  intros O1 O2 N. unfold on in *. set (l := slope x1 y1 x2 y2). cbv zeta.
  assert (S : l * (x1 - x2) = y1 - y2 /\ l * (y1 + y2) = x1 * x1 + x1 * x2 + x2 * x2).
  { unfold l, slope, ksq. destruct (keq x1 x2) as [E|E].
    - subst x2. assert (Y : y1 = y2).
      { assert (X : (y1 - y2) * (y1 + y2) = 0) by (replace ((y1 - y2) * (y1 + y2)) with (y1 * y1 - y2 * y2) by ring; rewrite O1, O2; ring).
        apply k_integral in X as [X|X]; [apply k_sub0, X|]. exfalso. apply N. split; auto. apply k_sub0. rewrite <- X. ring. }
      subst y2. assert (Y0 : y1 + y1 <> 0). { intros Z. apply N. split; auto. apply k_sub0. rewrite <- Z. ring. }
      split; [ring|]. field. auto.
    - apply k_sub_nz in E. split; [field; auto|].
      apply (k_mul_cancel (x1 - x2)); [auto|]. 
      replace ((x1 - x2) * ((y1 - y2) * kinv (x1 - x2) * (y1 + y2))) with (y1 * y1 - y2 * y2) by (field; auto). rewrite O1, O2. ring. }
  clearbody l. destruct S as [S1 S2].
  assert (Y2 : y2 = l * x2 + (y1 - l * x1)).
  { replace y2 with (y1 - (y1 - y2)) by ring. rewrite <- S1. ring. }
  split; [|exact Y2]. split; [ring|]. split.
  - replace (- (l * (y1 - l * x1) + l * (y1 - l * x1))) with ((x1 + x2) * (l * l) - l * (y1 + (y1 - l * x1 + l * x2))) by ring.
    replace (y1 - l * x1 + l * x2) with y2 by (rewrite Y2; ring). rewrite S2. ring.
  - replace ((y1 - l * x1) * (y1 - l * x1) - b) with (y1 * y1 - b + l * l * (x1 * x1) - (1 + 1) * (l * x1 * y1)) by ring. rewrite O1.
    assert (Z : (1 + 1) * (l * y1) = x1 * x1 + x1 * x2 + x2 * x2 + l * l * (x1 - x2)) .
    { rewrite <- S2. replace y2 with (y1 - l * (x1 - x2)) by (rewrite S1; ring). ring. }
    replace ((1 + 1) * (l * x1 * y1)) with (x1 * ((1 + 1) * (l * y1))) by ring. rewrite Z. ring.
Qed.

(** ** addition of affine points as a relation *)
Definition adds (x1 y1 x2 y2 x3 y3 : T) (l m : T) : Prop :=
  V l m x1 x2 x3 /\ y1 = l * x1 + m /\ y2 = l * x2 + m /\ y3 = - (l * x3 + m).
Lemma adds_on x1 y1 x2 y2 x3 y3 l m : adds x1 y1 x2 y2 x3 y3 l m -> on x1 y1 /\ on x2 y2 /\ on x3 y3.
Proof.
  intros (HV & -> & -> & ->). split; [eapply V_on1; eauto|]. split; [eapply V_on1; apply V_12; eauto|].
  pose proof (V_on1 _ _ _ _ _ (V_12 _ _ _ _ _ (V_23 _ _ _ _ _ HV))) as O. unfold on in *. rewrite <- O. ring.
Qed.
Lemma adds_exists x1 y1 x2 y2 : on x1 y1 -> on x2 y2 -> ~ (x1 = x2 /\ y1 = - y2) ->
  exists x3 y3 l m, adds x1 y1 x2 y2 x3 y3 l m /\ padd (Aff x1 y1) (Aff x2 y2) = Aff x3 y3 /\ l = slope x1 y1 x2 y2.
Proof.
  intros O1 O2 N. pose proof (slope_V x1 y1 x2 y2 O1 O2 N) as [HV Y2]. cbv zeta in *. set (l := slope x1 y1 x2 y2) in *.
  exists (l * l - x1 - x2), (l * (x1 - (l * l - x1 - x2)) - y1), l, (y1 - l * x1). split; [|split; [|reflexivity]].
  - split; [exact HV|]. split; [ring|]. split; [exact Y2|]. ring.
  - unfold padd. fold l. unfold ksq. destruct (keq x1 x2) as [E|E]; [|reflexivity]. destruct (keq y1 (- y2)) as [E2|E2]; [|reflexivity]. exfalso. auto.
Qed.
Lemma adds_nondeg x1 y1 x2 y2 x3 y3 l m : adds x1 y1 x2 y2 x3 y3 l m -> ~ (x1 = x2 /\ y1 = - y2).
Proof.
  intros (HV & Y1 & Y2 & Y3) [E1 E2]. subst x2. apply (V_nondeg _ _ _ _ HV).
  apply k_half. rewrite Y1, Y2 in E2. rewrite E2 at 1. ring.
Qed.
(** the line through two points is determined *)
Lemma adds_line x1 y1 x2 y2 x3 y3 l m x3' y3' l' m' : adds x1 y1 x2 y2 x3 y3 l m -> adds x1 y1 x2 y2 x3' y3' l' m' -> l' = l /\ m' = m /\ x3' = x3 /\ y3' = y3.
Proof.
  intros H H'. pose proof (adds_nondeg _ _ _ _ _ _ _ _ H) as N. destruct H as ((A1 & A2 & A3) & B1 & B2 & B3). destruct H' as ((A1' & A2' & A3') & B1' & B2' & B3').
  assert (L : l' = l).
  { assert (E1 : (x1 - x2) * l' = (x1 - x2) * l). { replace ((x1 - x2) * l') with ((l' * x1 + m') - (l' * x2 + m')) by ring. replace ((x1 - x2) * l) with ((l * x1 + m) - (l * x2 + m)) by ring. congruence. }
    assert (E2 : (y1 + y2) * l' = (y1 + y2) * l).
    { assert (Q : forall k n x, k * k = x1 + x2 + x -> - (k * n + k * n) = x1 * x2 + x1 * x + x2 * x -> y1 = k * x1 + n -> y2 = k * x2 + n -> (y1 + y2) * k = x1 * x1 + x1 * x2 + x2 * x2).
      { intros k n x Q1 Q2 -> ->. replace ((k * x1 + n + (k * x2 + n)) * k) with (k * k * (x1 + x2) - (- (k * n + k * n))) by ring. rewrite Q1, Q2. ring. }
      rewrite (Q l' m' x3'), (Q l m x3) by assumption. reflexivity. }
    destruct (keq x1 x2) as [E|E].
    - apply (k_mul_cancel (y1 + y2)); [|exact E2]. intros Z. apply N. split; auto. apply k_sub0. rewrite <- Z. ring.
    - apply (k_mul_cancel (x1 - x2)); [|exact E1]. apply k_sub_nz, E. }
  subst l'. assert (M : m' = m). { replace m' with (y1 - l * x1) by (rewrite B1'; ring). rewrite B1. ring. } subst m'.
  assert (x3' = x3). { replace x3' with (l * l - x1 - x2) by (rewrite A1'; ring). rewrite A1. ring. } subst x3'. subst. auto.
Qed.
Lemma adds_padd x1 y1 x2 y2 x3 y3 l m : adds x1 y1 x2 y2 x3 y3 l m -> padd (Aff x1 y1) (Aff x2 y2) = Aff x3 y3 /\ l = slope x1 y1 x2 y2.
Proof.
  intros H. destruct (adds_on _ _ _ _ _ _ _ _ H) as (O1 & O2 & _).
  destruct (adds_exists x1 y1 x2 y2 O1 O2 (adds_nondeg _ _ _ _ _ _ _ _ H)) as (x & y & k & n & H' & -> & <-).
  destruct (adds_line _ _ _ _ _ _ _ _ _ _ _ _ H H') as (-> & -> & -> & ->). auto.
Qed.
Lemma adds_comm x1 y1 x2 y2 x3 y3 l m : adds x1 y1 x2 y2 x3 y3 l m -> adds x2 y2 x1 y1 x3 y3 l m.
Proof. intros (H1 & H2 & H3 & H4). split; [apply V_12, H1|auto]. Qed.
(** A + B = D gives D + (-A) = B, with the conjugate line *)
Lemma adds_cancel x1 y1 x2 y2 x3 y3 l m : adds x1 y1 x2 y2 x3 y3 l m -> adds x3 y3 x1 (- y1) x2 y2 (- l) (- m).
Proof.
  intros (H1 & -> & -> & ->). split; [apply V_neg, V_12, V_23, H1|]. repeat split; ring.
Qed.

(** ** the function l_{A,B} l_{D,C} / (x - x_D) with D = A + B *)
Definition qa (l1 l2 xd : T) : T := xd + l1 * l2.
Definition qb (l1 l2 : T) : T := - (l1 + l2).
Definition qc (l1 l2 xd yd : T) : T := xd * xd + yd * (l1 - l2) - l1 * l2 * xd.
Definition Q (al be ga x y : T) : T := x * x + al * x + be * y + ga.
Definition lin (l m x y : T) : T := y - l * x - m.
Lemma Q_line1 l1 m1 xa xb xd yd l2 x : V l1 m1 xa xb xd -> yd = - (l1 * xd + m1) ->
  Q (qa l1 l2 xd) (qb l1 l2) (qc l1 l2 xd yd) x (l1 * x + m1) = (x - xa) * (x - xb).
Proof.
  intros (H1 & H2 & H3) ->. unfold Q, qa, qb, qc.
  replace (x * x + (xd + l1 * l2) * x + - (l1 + l2) * (l1 * x + m1) + (xd * xd + - (l1 * xd + m1) * (l1 - l2) - l1 * l2 * xd))
    with (x * x + (xd - l1 * l1) * x + (xd * xd - l1 * l1 * xd + - (l1 * m1 + l1 * m1))) by ring.
  rewrite H1, H2. ring.
Qed.
Lemma Q_line2 l2 m2 xd xc xg yd l1 x : V l2 m2 xd xc xg -> yd = l2 * xd + m2 ->
  Q (qa l1 l2 xd) (qb l1 l2) (qc l1 l2 xd yd) x (l2 * x + m2) = (x - xc) * (x - xg).
Proof.
  intros (H1 & H2 & H3) ->. unfold Q, qa, qb, qc.
  replace (x * x + (xd + l1 * l2) * x + - (l1 + l2) * (l2 * x + m2) + (xd * xd + (l2 * xd + m2) * (l1 - l2) - l1 * l2 * xd))
    with (x * x + (xd - l2 * l2) * x + (xd * xd - l2 * l2 * xd + - (l2 * m2 + l2 * m2))) by ring.
  rewrite H1, H2. ring.
Qed.
Lemma Q_prod l1 m1 l2 m2 xd yd x y : on xd yd -> on x y -> yd = - (l1 * xd + m1) -> yd = l2 * xd + m2 ->
  lin l1 m1 x y * lin l2 m2 x y = (x - xd) * Q (qa l1 l2 xd) (qb l1 l2) (qc l1 l2 xd yd) x y.
Proof.
  unfold on. intros O1 O2 E1 E2. unfold lin, Q, qa, qb, qc.
  replace m1 with (- yd - l1 * xd) by (rewrite E1; ring). replace m2 with (yd - l2 * xd) by (rewrite E2; ring). clear E1 E2.
  replace ((y - l1 * x - (- yd - l1 * xd)) * (y - l2 * x - (yd - l2 * xd)))
    with (y * y - yd * yd + (x - xd) * (- (l1 + l2) * y + yd * (l1 - l2) + l1 * l2 * (x - xd))) by ring.
  rewrite O1, O2. ring.
Qed.
Section Triple.
Variables (xa ya xb yb xc yc xd yd xe ye xg yg xh yh l1 m1 l2 m2 l3 m3 l4 m4 : T).
Hypothesis H1 : adds xa ya xb yb xd yd l1 m1.
Hypothesis H2 : adds xd yd xc yc xg yg l2 m2.
Hypothesis H3 : adds xb yb xc yc xe ye l3 m3.
Hypothesis H4 : adds xa ya xe ye xh yh l4 m4.
(** on the left: l1, l2 through D; on the right: l3, l4 through E *)
Lemma N1_A : Q (qa l1 l2 xd) (qb l1 l2) (qc l1 l2 xd yd) xa ya = 0.
Proof. destruct H1 as (HV & -> & _ & E). rewrite (Q_line1 l1 m1 xa xb xd yd l2 xa HV E). ring. Qed.
Lemma N1_B : Q (qa l1 l2 xd) (qb l1 l2) (qc l1 l2 xd yd) xb yb = 0.
Proof. destruct H1 as (HV & _ & -> & E). rewrite (Q_line1 l1 m1 xa xb xd yd l2 xb HV E). ring. Qed.
Lemma N1_C : Q (qa l1 l2 xd) (qb l1 l2) (qc l1 l2 xd yd) xc yc = 0.
Proof. destruct H2 as (HV & E & -> & _). rewrite (Q_line2 l2 m2 xd xc xg yd l1 xc HV E). ring. Qed.
Lemma N2_A : Q (qa l3 l4 xe) (qb l3 l4) (qc l3 l4 xe ye) xa ya = 0.
Proof. destruct (adds_comm _ _ _ _ _ _ _ _ H4) as (HV & E & -> & _). rewrite (Q_line2 l4 m4 xe xa xh ye l3 xa HV E). ring. Qed.
Lemma N2_B : Q (qa l3 l4 xe) (qb l3 l4) (qc l3 l4 xe ye) xb yb = 0.
Proof. destruct H3 as (HV & -> & _ & E). rewrite (Q_line1 l3 m3 xb xc xe ye l4 xb HV E). ring. Qed.
Lemma N2_C : Q (qa l3 l4 xe) (qb l3 l4) (qc l3 l4 xe ye) xc yc = 0.
Proof. destruct H3 as (HV & _ & -> & E). rewrite (Q_line1 l3 m3 xb xc xe ye l4 xc HV E). ring. Qed.
Definition same_conic := qa l1 l2 xd = qa l3 l4 xe /\ qb l1 l2 = qb l3 l4 /\ qc l1 l2 xd yd = qc l3 l4 xe ye.
Lemma conic_generic : xa <> xb -> yc <> l1 * xc + m1 -> same_conic.
Proof.
  intros NX NC. pose proof N1_A as A1. pose proof N1_B as B1. pose proof N1_C as C1. pose proof N2_A as A2. pose proof N2_B as B2. pose proof N2_C as C2.
  destruct H1 as (_ & YA & YB & _). unfold same_conic.
  set (a := qa l1 l2 xd) in *. set (a' := qa l3 l4 xe) in *. set (be := qb l1 l2) in *. set (b' := qb l3 l4) in *.
  set (c := qc l1 l2 xd yd) in *. set (c' := qc l3 l4 xe ye) in *. clearbody a a' be b' c c'. unfold Q in *.
  assert (EA : (a - a') * xa + (be - b') * ya + (c - c') = 0).
  { replace ((a - a') * xa + (be - b') * ya + (c - c')) with (xa * xa + a * xa + be * ya + c - (xa * xa + a' * xa + b' * ya + c')) by ring. rewrite A1, A2. ring. }
  assert (EB : (a - a') * xb + (be - b') * yb + (c - c') = 0).
  { replace ((a - a') * xb + (be - b') * yb + (c - c')) with (xb * xb + a * xb + be * yb + c - (xb * xb + a' * xb + b' * yb + c')) by ring. rewrite B1, B2. ring. }
  assert (EC : (a - a') * xc + (be - b') * yc + (c - c') = 0).
  { replace ((a - a') * xc + (be - b') * yc + (c - c')) with (xc * xc + a * xc + be * yc + c - (xc * xc + a' * xc + b' * yc + c')) by ring. rewrite C1, C2. ring. }
  rewrite YA in EA. rewrite YB in EB.
  assert (D1 : (a - a') + (be - b') * l1 = 0).
  { destruct (k_integral (xa - xb) ((a - a') + (be - b') * l1)) as [Z|Z]; [|elim NX; apply k_sub0, Z|exact Z].
    replace ((xa - xb) * (a - a' + (be - b') * l1)) with ((a - a') * xa + (be - b') * (l1 * xa + m1) + (c - c') - ((a - a') * xb + (be - b') * (l1 * xb + m1) + (c - c'))) by ring.
    rewrite EA, EB. ring. }
  assert (D2 : (c - c') + (be - b') * m1 = 0).
  { replace (c - c' + (be - b') * m1) with ((a - a') * xa + (be - b') * (l1 * xa + m1) + (c - c') - (a - a' + (be - b') * l1) * xa) by ring. rewrite EA, D1. ring. }
  assert (D3 : be - b' = 0).
  { destruct (k_integral (yc - (l1 * xc + m1)) (be - b')) as [Z|Z]; [|elim NC; apply k_sub0, Z|exact Z].
    replace ((yc - (l1 * xc + m1)) * (be - b')) with ((a - a') * xc + (be - b') * yc + (c - c') - (a - a' + (be - b') * l1) * xc - (c - c' + (be - b') * m1)) by ring.
    rewrite EC, D1, D2. ring. }
  rewrite D3 in D1, D2. split; [apply k_sub0; rewrite <- D1; ring|]. split; [apply k_sub0, D3|]. apply k_sub0. rewrite <- D2. ring.
Qed.
(** A = B *)
Lemma conic_tangent : xa = xb -> ya = yb -> xa <> xc -> xe <> xa -> l1 <> l3 -> same_conic.
Proof.
  intros EX EY NX NE NL. pose proof N1_A as A1. pose proof N1_C as C1. pose proof N2_A as A2. pose proof N2_C as C2.
  (* derivative of both conics along the tangent at A *)
  assert (T1 : xa + xa + qa l1 l2 xd + qb l1 l2 * l1 = 0).
  { destruct H1 as ((V1 & _) & _). unfold qa, qb. rewrite <- EX in V1. replace (xa + xa + (xd + l1 * l2) + - (l1 + l2) * l1) with (xa + xa + xd - l1 * l1) by ring. rewrite V1. ring. }
  assert (T2 : xa + xa + qa l3 l4 xe + qb l3 l4 * l1 = 0).
  { apply (k_mul_cancel (xe - xa)); [apply k_sub_nz, NE|].
    assert (OA : on xa ya) by apply (adds_on _ _ _ _ _ _ _ _ H1). assert (OE : on xe ye) by apply (adds_on _ _ _ _ _ _ _ _ H3).
    assert (S3 : l3 * (xe - xa) = - ye - ya). { destruct H3 as (_ & E & _ & F). rewrite EY, EX, E, F. ring. }
    assert (S4 : l4 * (xe - xa) = ye - ya). { destruct H4 as (_ & E & F & _). rewrite E, F. ring. }
    assert (S1 : (ya + ya) * l1 = (1 + 1 + 1) * (xa * xa)).
    { destruct H1 as ((V1 & V2 & _) & E & _ & _). rewrite <- EX in V1, V2. rewrite E.
      replace ((l1 * xa + m1 + (l1 * xa + m1)) * l1) with ((xa + xa) * (l1 * l1) - (- (l1 * m1 + l1 * m1))) by ring. rewrite V1, V2. ring. }
    assert (P34 : (xe - xa) * (l3 * l4) = - (xe * xe + xe * xa + xa * xa)).
    { apply (k_mul_cancel (xe - xa)); [apply k_sub_nz, NE|].
      replace ((xe - xa) * ((xe - xa) * (l3 * l4))) with (l3 * (xe - xa) * (l4 * (xe - xa))) by ring. rewrite S3, S4.
      replace ((- ye - ya) * (ye - ya)) with (ya * ya - ye * ye) by ring. rewrite OA, OE. ring. }
    unfold qa, qb.
    replace ((xe - xa) * (xa + xa + (xe + l3 * l4) + - (l3 + l4) * l1))
      with ((xe - xa) * (xa + xa + xe) + (xe - xa) * (l3 * l4) - (l3 * (xe - xa) + l4 * (xe - xa)) * l1) by ring.
    rewrite P34, S3, S4. replace ((- ye - ya + (ye - ya)) * l1) with (- ((ya + ya) * l1)) by ring. rewrite S1. ring. }
  unfold same_conic.
  assert (YAC : ya - yc = l3 * (xa - xc)). { destruct H3 as (_ & E & F & _). rewrite EY, EX, E, F. ring. }
  set (a := qa l1 l2 xd) in *. set (a' := qa l3 l4 xe) in *. set (be := qb l1 l2) in *. set (b' := qb l3 l4) in *.
  set (c := qc l1 l2 xd yd) in *. set (c' := qc l3 l4 xe ye) in *. clearbody a a' be b' c c'. unfold Q in *.
  assert (EA : (a - a') * xa + (be - b') * ya + (c - c') = 0).
  { replace ((a - a') * xa + (be - b') * ya + (c - c')) with (xa * xa + a * xa + be * ya + c - (xa * xa + a' * xa + b' * ya + c')) by ring. rewrite A1, A2. ring. }
  assert (EC : (a - a') * xc + (be - b') * yc + (c - c') = 0).
  { replace ((a - a') * xc + (be - b') * yc + (c - c')) with (xc * xc + a * xc + be * yc + c - (xc * xc + a' * xc + b' * yc + c')) by ring. rewrite C1, C2. ring. }
  assert (D0 : (a - a') + (be - b') * l1 = 0).
  { replace (a - a' + (be - b') * l1) with (xa + xa + a + be * l1 - (xa + xa + a' + b' * l1)) by ring. rewrite T1, T2. ring. }
  assert (D1 : (a - a') + (be - b') * l3 = 0).
  { destruct (k_integral (xa - xc) ((a - a') + (be - b') * l3)) as [Z|Z]; [|elim NX; apply k_sub0, Z|exact Z].
    replace ((xa - xc) * (a - a' + (be - b') * l3)) with ((a - a') * xa + (be - b') * ya + (c - c') - ((a - a') * xc + (be - b') * yc + (c - c')) - (be - b') * (ya - yc - l3 * (xa - xc))) by ring.
    rewrite EA, EC, YAC. ring. }
  assert (D3 : be - b' = 0).
  { destruct (k_integral (l1 - l3) (be - b')) as [Z|Z]; [|elim NL; apply k_sub0, Z|exact Z].
    replace ((l1 - l3) * (be - b')) with (a - a' + (be - b') * l1 - (a - a' + (be - b') * l3)) by ring. rewrite D0, D1. ring. }
  rewrite D3 in *. assert (D4 : a - a' = 0) by (rewrite <- D0; ring). split; [apply k_sub0, D4|]. split; [apply k_sub0, D3|]. apply k_sub0. rewrite <- EA, D4. ring.
Qed.
(** the fourth point *)
Lemma conic_sum : same_conic -> xc <> xa -> xc <> xb -> xg = xh /\ yg = yh.
Proof.
  intros (E1 & E2 & E3) N1 N2. destruct H1 as (V1 & YA & YB & YD1). destruct H2 as (V2 & YD2 & YC & YG). destruct H3 as (V3 & YB3 & YC3 & YE3). destruct H4 as (V4 & YA4 & YE4 & YH).
  assert (FX : forall l k xs xp xq xr xt, l * l = xp + xq + xs -> k * k = xs + xr + xt -> xt = qb l k * qb l k - (qa l k xs + qa l k xs) - xp - xq - xr).
  { intros l k xs xp xq xr xt Q1 Q2. unfold qa, qb. replace (- (l + k) * - (l + k) - (xs + l * k + (xs + l * k)) - xp - xq - xr) with (l * l + k * k - xs - xs - xp - xq - xr) by ring. rewrite Q1, Q2. ring. }
  assert (EX : xg = xh).
  { rewrite (FX l1 l2 xd xa xb xc xg) by (apply V1 || apply V2).
    rewrite (FX l3 l4 xe xb xc xa xh); [|apply V3|destruct V4 as (-> & _); ring]. rewrite E1, E2. ring. }
  split; [exact EX|]. rewrite <- EX in V4, YH.
  destruct (keq (qb l1 l2) 0) as [Z|Z].
  - (* conjugate lines *)
    exfalso. assert (L : l2 = - l1). { unfold qb in Z. replace l2 with (- l1 - (- (l1 + l2))) by ring. rewrite Z. ring. } 
    assert (M : m2 = - m1). { replace m2 with (yd - l2 * xd) by (rewrite YD2; ring). rewrite YD1, L. ring. }
    rewrite L, M in V2. destruct (V_root l1 m1 xa xb xd xc V1) as [R|[R|R]]; [|auto|auto|].
    { pose proof (V_on1 _ _ _ _ _ (V_12 _ _ _ _ _ V2)) as O. unfold on in *. rewrite <- O. ring. }
    rewrite R in V2.
    (* D counted twice on the conjugate line *)
    assert (EQ : (xd - xa) * (xd - xb) = 0).
    { destruct V1 as (P1 & P2 & _). destruct V2 as (Q1 & Q2 & _).
      assert (S : xg = xa + xb - xd). { replace xg with (xd + xd + xg - xd - xd) by ring. rewrite <- Q1. replace (- l1 * - l1) with (l1 * l1) by ring. rewrite P1. ring. }
      assert (W : xd * xd + (xd * xg + xd * xg) = xa * xb + xa * xd + xb * xd).
      { replace (xd * xd + (xd * xg + xd * xg)) with (xd * xd + xd * xg + xd * xg) by ring. rewrite <- Q2, <- P2. ring. }
      rewrite S in W. replace ((xd - xa) * (xd - xb)) with (xa * xb + xa * xd + xb * xd - (xd * xd + (xd * (xa + xb - xd) + xd * (xa + xb - xd)))) by ring. rewrite W. ring. }
    apply k_integral in EQ as [EQ|EQ]; apply k_sub0 in EQ; congruence.
  - (* Q vanishes at -G *)
    apply (k_mul_cancel (qb l1 l2)); [exact Z|].
    assert (G1 : Q (qa l1 l2 xd) (qb l1 l2) (qc l1 l2 xd yd) xg (- yg) = 0).
    { replace (- yg) with (l2 * xg + m2) by (rewrite YG; ring). rewrite (Q_line2 l2 m2 xd xc xg yd l1 xg V2 YD2). ring. }
    assert (G2 : Q (qa l3 l4 xe) (qb l3 l4) (qc l3 l4 xe ye) xg (- yh) = 0).
    { replace (- yh) with (l4 * xg + m4) by (rewrite YH; ring). rewrite (Q_line2 l4 m4 xe xa xg ye l3 xg (V_12 _ _ _ _ _ V4) YE4). ring. }
    rewrite <- E1, <- E2, <- E3 in G2. unfold Q in G1, G2. apply k_sub0.
    set (s := xg * xg + qa l1 l2 xd * xg) in *. set (e := qc l1 l2 xd yd) in *.
    replace (qb l1 l2 * yg - qb l1 l2 * yh) with (s + qb l1 l2 * - yh + e - (s + qb l1 l2 * - yg + e)) by ring. rewrite G1, G2. ring.
Qed.
End Triple.

(** ** the group law on points *)
Definition onP (P : point K) : Prop := match P with Inf => True | Aff x y => on x y end.
Lemma onb_ok P : onb b P = true <-> onP P.
Proof.
  destruct P as [|x y]; cbn; [tauto|]. unfold on, ksq, kcube. destruct (keq (y * y) (x * (x * x) + b)) as [E|E].
  - split; [intros _; rewrite E; ring|auto].
  - split; [discriminate|]. intros H. elim E. rewrite H. ring.
Qed.
Lemma on_neg x y : on x y -> on x (- y). Proof. unfold on. intros <-. ring. Qed.
Lemma pneg_on (P : point K) : onP P -> onP (pneg P). Proof. destruct P; cbn; auto. apply on_neg. Qed.
Lemma k_opp_opp (x : T) : - - x = x. Proof. ring. Qed.
Lemma pneg_pneg (P : point K) : pneg (pneg P) = P :> point K. Proof. destruct P; cbn; auto. rewrite k_opp_opp. auto. Qed.
Lemma padd_Inf_r (P : point K) : padd P Inf = P :> point K. Proof. destruct P; auto. Qed.
Lemma padd_neg (P : point K) : padd P (pneg P) = Inf.
Proof. destruct P as [|x y]; cbn; auto. destruct (keq x x) as [_|N]; [|elim N; auto]. rewrite k_opp_opp. destruct (keq y y) as [_|N]; [auto|elim N; auto]. Qed.
(** either opposite, or on a common line *)
Lemma padd_cases x1 y1 x2 y2 : on x1 y1 -> on x2 y2 ->
  (x1 = x2 /\ y1 = - y2 /\ padd (Aff x1 y1) (Aff x2 y2) = Inf) \/
  (exists x3 y3 l m, adds x1 y1 x2 y2 x3 y3 l m /\ padd (Aff x1 y1) (Aff x2 y2) = Aff x3 y3).
Proof.
  intros O1 O2. destruct (keq x1 x2) as [E1|E1]; [destruct (keq y1 (- y2)) as [E2|E2]|].
  - left. split; [auto|]. split; [auto|]. cbn. destruct (keq x1 x2); [|contradiction]. destruct (keq y1 (- y2)); [auto|contradiction].
  - right. destruct (adds_exists x1 y1 x2 y2 O1 O2) as (x3 & y3 & l & m & H & E & _); [tauto|]. exists x3, y3, l, m. auto.
  - right. destruct (adds_exists x1 y1 x2 y2 O1 O2) as (x3 & y3 & l & m & H & E & _); [tauto|]. exists x3, y3, l, m. auto.
Qed.
Lemma padd_on (P Q : point K) : onP P -> onP Q -> onP (padd P Q).
Proof.
  destruct P as [|x1 y1]; [auto|]. destruct Q as [|x2 y2]; [auto|]. cbn [onP]. intros O1 O2.
  destruct (padd_cases x1 y1 x2 y2 O1 O2) as [(_ & _ & ->)|(x3 & y3 & l & m & H & ->)]; [exact I|]. apply (adds_on _ _ _ _ _ _ _ _ H).
Qed.
Lemma padd_comm (P Q : point K) : onP P -> onP Q -> padd P Q = padd Q P.
Proof.
  destruct P as [|x1 y1]; destruct Q as [|x2 y2]; auto. cbn [onP]. intros O1 O2.
  destruct (padd_cases x1 y1 x2 y2 O1 O2) as [(E1 & E2 & ->)|(x3 & y3 & l & m & H & ->)].
  - subst x2. subst y1. replace (Aff x1 y2) with (pneg (Aff x1 (- y2))) by (cbn; rewrite k_opp_opp; auto). cbn [pneg]. rewrite k_opp_opp.
    symmetry. exact (padd_neg (Aff x1 y2)).
  - symmetry. exact (proj1 (adds_padd _ _ _ _ _ _ _ _ (adds_comm _ _ _ _ _ _ _ _ H))).
Qed.
Lemma padd_cancel (P Q : point K) : onP P -> onP Q -> padd (padd P Q) (pneg P) = Q.
Proof.
  destruct P as [|x1 y1]; [intros; apply padd_Inf_r|]. destruct Q as [|x2 y2]; [intros; apply padd_neg|]. cbn [onP]. intros O1 O2.
  destruct (padd_cases x1 y1 x2 y2 O1 O2) as [(E1 & E2 & ->)|(x3 & y3 & l & m & H & ->)].
  - subst. cbn. rewrite k_opp_opp. auto.
  - exact (proj1 (adds_padd _ _ _ _ _ _ _ _ (adds_cancel _ _ _ _ _ _ _ _ H))).
Qed.
Lemma padd_neg_neg (P Q : point K) : onP P -> onP Q -> pneg (padd P Q) = padd (pneg P) (pneg Q).
Proof.
  destruct P as [|x1 y1]; [auto|]. destruct Q as [|x2 y2]; [auto|]. cbn [onP]. intros O1 O2.
  destruct (padd_cases x1 y1 x2 y2 O1 O2) as [(E1 & E2 & ->)|(x3 & y3 & l & m & H & ->)].
  - subst. cbn [pneg]. rewrite k_opp_opp. symmetry. exact (padd_neg (Aff x2 y2)).
  - cbn [pneg]. symmetry. apply (adds_padd x1 (- y1) x2 (- y2) x3 (- y3) (- l) (- m)).
    destruct H as (HV & -> & -> & ->). split; [apply V_neg, HV|]. repeat split; ring.
Qed.
Lemma padd_Inf_inv (P Q : point K) : onP P -> onP Q -> padd P Q = Inf -> Q = pneg P.
Proof. intros HP HQ E. rewrite <- (padd_cancel P Q HP HQ), E. destruct P; reflexivity. Qed.
Lemma padd_move (P Q R : point K) : onP P -> onP Q -> padd P Q = R -> padd R (pneg P) = Q.
Proof. intros HP HQ <-. apply padd_cancel; auto. Qed.
Lemma padd_inj (P Q Q' : point K) : onP P -> onP Q -> onP Q' -> padd P Q = padd P Q' -> Q = Q'.
Proof. intros HP H H' E. rewrite <- (padd_cancel P Q), <- (padd_cancel P Q'), E; auto. Qed.

Lemma on_same_x x y x' y' : on x y -> on x' y' -> x = x' -> y = y' \/ y = - y'.
Proof.
  unfold on. intros O1 O2 <-. assert (X : (y - y') * (y + y') = 0) by (replace ((y - y') * (y + y')) with (y * y - y' * y') by ring; rewrite O1, O2; ring).
  apply k_integral in X as [X|X]; [left; apply k_sub0, X|right]. apply k_sub0. rewrite <- X. ring.
Qed.
(** when the conics of the two sides agree *)
Lemma same_conic_cases xa ya xb yb xc yc xd yd xe ye xg yg xh yh l1 m1 l2 m2 l3 m3 l4 m4 :
  adds xa ya xb yb xd yd l1 m1 -> adds xd yd xc yc xg yg l2 m2 -> adds xb yb xc yc xe ye l3 m3 -> adds xa ya xe ye xh yh l4 m4 ->
  ~ (xa = xc /\ ya = yc) -> ~ (xb = xc /\ yb = yc) -> same_conic xd yd xe ye l1 l2 l3 l4.
Proof.
  intros H1 H2 H3 H4 NAC NBC.
  destruct (adds_on _ _ _ _ _ _ _ _ H1) as (OA & OB & OD). destruct (adds_on _ _ _ _ _ _ _ _ H2) as (_ & OC & _). destruct (adds_on _ _ _ _ _ _ _ _ H3) as (_ & _ & OE).
  (* C on the line A B would be A, B or -(A+B) *)
  assert (NC : yc <> l1 * xc + m1).
  { intros E. destruct H1 as (V1 & YA & YB & YD). assert (OC' := OC). rewrite E in OC'.
    destruct (V_root _ _ _ _ _ _ V1 OC') as [R|[R|R]].
    - apply NAC. split; [auto|]. rewrite YA, E, R. reflexivity.
    - apply NBC. split; [auto|]. rewrite YB, E, R. reflexivity.
    - apply (adds_nondeg _ _ _ _ _ _ _ _ H2). split; [auto|]. rewrite YD, E, R. reflexivity. }
  destruct (keq xa xb) as [EX|NX].
  - destruct (on_same_x _ _ _ _ OA OB EX) as [EY|EY]; [|elim (adds_nondeg _ _ _ _ _ _ _ _ H1); auto].
    apply (conic_tangent xa ya xb yb xc yc xd yd xe ye xg yg xh yh l1 m1 l2 m2 l3 m3 l4 m4 H1 H2 H3 H4 EX EY).
    + intros E. rewrite EX in E. destruct (on_same_x _ _ _ _ OB OC E) as [F|F]; [apply NBC; auto|].
      apply (adds_nondeg _ _ _ _ _ _ _ _ H3). auto.
    + intros E. destruct (on_same_x _ _ _ _ OE OA E) as [F|F].
      * (* B + C = A = B: C = O *)
        destruct (adds_padd _ _ _ _ _ _ _ _ H3) as [P _]. rewrite E, F, EX, EY in P.
        assert (X : Aff xc yc = Inf); [|discriminate X]. apply (padd_inj (Aff xb yb)); cbn; auto.
      * apply (adds_nondeg _ _ _ _ _ _ _ _ H4). split; [auto|]. rewrite F. ring.
    + intros E. apply NC. destruct H1 as (_ & YA & YB & _). destruct H3 as (_ & YB3 & YC3 & _). rewrite YC3, E. 
      replace m1 with (yb - l1 * xb) by (rewrite YB; ring). rewrite YB3, E. ring.
  - exact (conic_generic xa ya xb yb xc yc xd yd xe ye xg yg xh yh l1 m1 l2 m2 l3 m3 l4 m4 H1 H2 H3 H4 NX NC).
Qed.
Lemma Aff_eq (x y x' y' : T) : x = x' -> y = y' -> Aff x y = Aff x' y'. Proof. intros -> ->. reflexivity. Qed.
Lemma padd_assoc (P Q R : point K) : onP P -> onP Q -> onP R -> padd (padd P Q) R = padd P (padd Q R).
Proof.
  intros OP OQ OR.
  destruct P as [|xa ya]; [reflexivity|]. destruct Q as [|xb yb]; [reflexivity|]. destruct R as [|xc yc]; [rewrite !padd_Inf_r; reflexivity|].
  set (A := Aff xa ya) in *. set (B := Aff xb yb) in *. set (C := Aff xc yc) in *.
  destruct (padd_cases xa ya xb yb OP OQ) as [(_ & _ & E1)|(xd & yd & l1 & m1 & H1 & E1)]; fold A B in E1; rewrite E1.
  - apply padd_Inf_inv in E1; auto. rewrite E1. rewrite (padd_comm A) by auto using padd_on, pneg_on.
    rewrite <- (pneg_pneg A) at 2. rewrite padd_cancel; auto using pneg_on.
  - pose proof (proj2 (proj2 (adds_on _ _ _ _ _ _ _ _ H1))) as OD.
    destruct (padd_cases xb yb xc yc OQ OR) as [(_ & _ & E3)|(xe & ye & l3 & m3 & H3 & E3)]; fold B C in E3; rewrite E3.
    + apply padd_Inf_inv in E3; auto. rewrite E3, padd_Inf_r, <- E1, (padd_comm A B) by auto. apply padd_cancel; auto.
    + pose proof (proj2 (proj2 (adds_on _ _ _ _ _ _ _ _ H3))) as OE.
      destruct (padd_cases xd yd xc yc OD OR) as [(_ & _ & E2)|(xg & yg & l2 & m2 & H2 & E2)]; fold C in E2.
      { rewrite E2. apply padd_Inf_inv in E2; auto. rewrite E2 in E3. rewrite <- E1, (padd_comm A B) in E3 by auto.
        rewrite padd_neg_neg, (padd_comm B) in E3 by (auto using pneg_on, padd_on). rewrite (padd_comm (pneg B)) in E3 by (auto using pneg_on).
        rewrite <- (pneg_pneg B) in E3 at 2. 
        assert (X : padd (padd (pneg B) (pneg A)) (pneg (pneg B)) = pneg A) by (apply padd_cancel; auto using pneg_on).
        rewrite (padd_comm (pneg B)) in X by auto using pneg_on. rewrite E3 in X. rewrite X. symmetry. apply padd_neg. }
      destruct (padd_cases xa ya xe ye OP OE) as [(_ & _ & E4)|(xh & yh & l4 & m4 & H4 & E4)]; fold A in E4.
      { rewrite E4. apply padd_Inf_inv in E4; auto. rewrite E4 in E3. 
        (* B + C = -A: A + B = -C *)
        apply padd_move in E3; auto. rewrite <- (padd_neg_neg A B), E1 in E3 by auto. rewrite <- E3. apply padd_neg. }
      rewrite E2, E4.
      destruct (keq xc xa) as [EA|NA].
      { destruct (on_same_x _ _ _ _ OR OP EA) as [F|F].
        - assert (C = A) by (apply Aff_eq; auto). rewrite <- E4, <- E3, <- E2, <- E1. rewrite H. rewrite (padd_comm B A) by auto. apply padd_comm; auto using padd_on.
        - assert (CA : C = pneg A) by (apply Aff_eq; auto). rewrite <- E4, <- E3, <- E2, <- E1. rewrite CA. rewrite padd_cancel by auto.
          rewrite (padd_comm A) by auto using padd_on, pneg_on. rewrite (padd_comm B) by auto using pneg_on.
          rewrite <- (pneg_pneg A) at 2. rewrite padd_cancel; auto using pneg_on. }
      destruct (keq xc xb) as [EB|NB].
      { destruct (on_same_x _ _ _ _ OR OQ EB) as [F|F].
        - (* C = B: swap the sides *)
          subst xc yc.
          apply adds_comm in H1, H2, H4.
          destruct (conic_sum xb yb xb yb xa ya xe ye xd yd xh yh xg yg l3 m3 l4 m4 l1 m1 l2 m2 H3 H4 H1 H2) as [X Y]; auto.
          { apply (same_conic_cases xb yb xb yb xa ya xe ye xd yd xh yh xg yg l3 m3 l4 m4 l1 m1 l2 m2); auto; intros [EE _]; apply NA; exact EE. }
          apply Aff_eq; auto.
        - exfalso. apply (adds_nondeg _ _ _ _ _ _ _ _ H3). split; [auto|]. rewrite F. ring. }
      destruct (conic_sum xa ya xb yb xc yc xd yd xe ye xg yg xh yh l1 m1 l2 m2 l3 m3 l4 m4 H1 H2 H3 H4) as [X Y]; auto.
      { apply (same_conic_cases xa ya xb yb xc yc xd yd xe ye xg yg xh yh l1 m1 l2 m2 l3 m3 l4 m4); auto; intros [? _]; congruence. }
      apply Aff_eq; auto.
Qed.
(** ** the group of the points of the curve *)
Lemma curve_eq (P Q : curve K b) : cpt P = cpt Q -> P = Q.
Proof. destruct P as [P HP], Q as [Q HQ]. cbn. intros E. subst Q. f_equal. apply UIP_dec. apply bool_dec. Qed.
Lemma curve_on (P : curve K b) : onP (cpt P). Proof. apply onb_ok, cpt_on. Qed.
Definition czero : curve K b := mkC K b Inf eq_refl.
Definition cneg (P : curve K b) : curve K b := mkC K b (pneg (cpt P)) (proj2 (onb_ok _) (pneg_on _ (curve_on P))).
Definition cadd (P Q : curve K b) : curve K b := mkC K b (padd (cpt P) (cpt Q)) (proj2 (onb_ok _) (padd_on _ _ (curve_on P) (curve_on Q))).
Lemma point_dec (P Q : point K) : {P = Q} + {P <> Q}.
Proof. decide equality; apply keq. Qed.
Lemma curve_dec (P Q : curve K b) : {P = Q} + {P <> Q}.
Proof. destruct (point_dec (cpt P) (cpt Q)) as [E|N]; [left; apply curve_eq, E|right; intros ->; auto]. Qed.
Definition curve_group : abgroup.
Proof.
  refine (mkAb (curve K b) cadd czero cneg _ _ _ _ curve_dec).
  - intros P Q R. apply curve_eq. cbn. apply padd_assoc; apply curve_on.
  - intros P Q. apply curve_eq. cbn. apply padd_comm; apply curve_on.
  - intros P. apply curve_eq. reflexivity.
  - intros P. apply curve_eq. apply padd_neg.
Defined.
End Curve.
