(** Lines of the chord-and-tangent law as a cocycle, line reciprocity. *)
From Coq Require Import ZArith Bool Field.
From Verif Require Import SpecCurve AbGroup CurveProof PairCocycle.

Section Line.
Variable K : fieldOps.
Notation T := (car K).
Declare Scope K_scope.
Notation "x + y" := (kadd x y) : K_scope. Notation "x - y" := (ksub x y) : K_scope. Notation "x * y" := (kmul x y) : K_scope.
Notation "- x" := (kopp x) : K_scope. Notation "0" := k0 : K_scope. Notation "1" := k1 : K_scope.
Delimit Scope K_scope with K. Local Open Scope K_scope. Bind Scope K_scope with car.
Hypothesis Kf : field_theory (k0 : T) k1 kadd kmul ksub kopp (fun x y => kmul x (kinv y)) kinv eq.
Add Field KFl : Kf.
Hypothesis two_nz : (1 + 1 : T) <> 0.
Hypothesis three_nz : (1 + 1 + 1 : T) <> 0.
Variable b : T.
Hypothesis b_nz : b <> 0.
Notation on := (on K b). Notation onP := (onP K b). Notation adds := (adds K b). Notation lin := (lin K).

(** the line through A and B (the tangent if they are equal) evaluated at (x, y); 1 when the line is vertical *)
Definition line (A B : point K) (x y : T) : T :=
  match A, B with
  | Aff x1 y1, Aff x2 y2 => match padd A B with Inf => 1 | Aff _ _ => lin (slope x1 y1 x2 y2) (y1 - slope x1 y1 x2 y2 * x1) x y end
  | _, _ => 1
  end.
Lemma line_adds x1 y1 x2 y2 x3 y3 l m x y : adds x1 y1 x2 y2 x3 y3 l m -> line (Aff x1 y1) (Aff x2 y2) x y = lin l m x y.
Proof.
  intros H. destruct (adds_padd K Kf two_nz three_nz b b_nz _ _ _ _ _ _ _ _ H) as [E1 E2]. unfold line. rewrite E1, <- E2. f_equal.
  destruct H as (_ & Y & _). rewrite Y. ring.
Qed.
Lemma line_opp x1 y1 x2 y2 x y : padd (Aff x1 y1) (Aff x2 y2) = Inf -> line (Aff x1 y1) (Aff x2 y2) x y = 1.
Proof. intros E. unfold line. rewrite E. reflexivity. Qed.
Lemma line_Inf_r A x y : line A Inf x y = 1. Proof. destruct A; reflexivity. Qed.
Lemma line_comm A B x y : onP A -> onP B -> line A B x y = line B A x y.
Proof.
  destruct A as [|x1 y1]; [rewrite line_Inf_r; reflexivity|]. destruct B as [|x2 y2]; [reflexivity|]. cbn [CurveProof.onP]. intros O1 O2.
  destruct (padd_cases K Kf b x1 y1 x2 y2 O1 O2) as [(_ & _ & E)|(x3 & y3 & l & m & H & E)].
  - rewrite (line_opp _ _ _ _ _ _ E). rewrite (padd_comm K Kf two_nz three_nz b b_nz) in E by assumption. rewrite (line_opp _ _ _ _ _ _ E). reflexivity.
  - rewrite (line_adds _ _ _ _ _ _ _ _ _ _ H). rewrite (line_adds _ _ _ _ _ _ _ _ _ _ (adds_comm K Kf b _ _ _ _ _ _ _ _ H)). reflexivity.
Qed.
(** a line times its mirror image *)
Lemma lin_norm l m x1 x2 x3 x y : V K b l m x1 x2 x3 -> on x y -> lin l m x y * lin (- l) (- m) x y = (x - x1) * ((x - x2) * (x - x3)).
Proof.
  intros (H1 & H2 & H3) O. unfold CurveProof.on in O. unfold CurveProof.lin.
  replace ((y - l * x - m) * (y - - l * x - - m)) with (y * y - l * l * (x * x) - l * m * x - l * m * x - m * m) by ring.
  rewrite O, H1. replace (m * m) with (m * m - b + b) by ring. rewrite H3.
  replace (x * x * x + b - (x1 + x2 + x3) * (x * x) - l * m * x - l * m * x - (x1 * x2 * x3 + b)) with (x * x * x - (x1 + x2 + x3) * (x * x) + - (l * m + l * m) * x - x1 * x2 * x3) by ring.
  rewrite H2. ring.
Qed.
(** reciprocity of two lines *)
Lemma lin_recip l m x1 x2 x3 k n a1 a2 a3 : V K b l m x1 x2 x3 -> V K b k n a1 a2 a3 ->
  lin k n x1 (l * x1 + m) * (lin k n x2 (l * x2 + m) * lin k n x3 (l * x3 + m)) =
  - (lin l m a1 (k * a1 + n) * (lin l m a2 (k * a2 + n) * lin l m a3 (k * a3 + n))).
Proof.
  intros (H1 & H2 & H3) (G1 & G2 & G3). unfold CurveProof.lin.
  set (d := l - k). set (e := m - n).
  transitivity (d * d * d * (x1 * x2 * x3) + d * d * e * (x1 * x2 + x1 * x3 + x2 * x3) + d * e * e * (x1 + x2 + x3) + e * e * e); [unfold d, e; ring|].
  transitivity (d * d * d * (a1 * a2 * a3) + d * d * e * (a1 * a2 + a1 * a3 + a2 * a3) + d * e * e * (a1 + a2 + a3) + e * e * e); [|unfold d, e; ring].
  rewrite <- H1, <- H2, <- H3, <- G1, <- G2, <- G3. unfold d, e. ring.
Qed.

Section Eval.
Context (U : abgroup) (ev : T -> U).
Notation "x @+ y" := (@gop U x y) (at level 50, left associativity).
Hypothesis ev_mul : forall x y, x <> 0 -> y <> 0 -> ev (x * y) = ev x @+ ev y.
Lemma one_nz : (1 : T) <> 0. Proof. apply (F_1_neq_0 Kf). Qed.
Lemma mul_nz (x y : T) : x <> 0 -> y <> 0 -> x * y <> 0. Proof. intros Hx Hy E. destruct (k_integral K Kf _ _ E); auto. Qed.
Lemma ev_1 : ev 1 = gid.
Proof. apply (g_cancel (ev 1)). rewrite <- ev_mul by apply one_nz. replace (1 * 1) with (1 : T) by ring. symmetry. apply g_id_r. Qed.
Context (H : abgroup) (t : H -> point K).
Hypothesis t_on : forall A, onP (t A).
Hypothesis t_op : forall A B, t (gop A B) = padd (t A) (t B).
Hypothesis t_inj : forall A, t A = Inf -> A = gid.
Lemma t_id : t gid = Inf.
Proof.
  pose proof (t_op gid gid) as E. rewrite g_id in E. pose proof (t_on gid) as O. apply (padd_inj K Kf two_nz three_nz b b_nz (t gid)); auto; [exact I|].
  rewrite <- E, padd_Inf_r. reflexivity.
Qed.
Lemma t_inv A : t (ginv A) = pneg (t A).
Proof.
  apply (padd_inj K Kf two_nz three_nz b b_nz (t A)); auto; [apply (pneg_on K Kf); auto|]. rewrite <- t_op, g_inv, t_id, padd_neg by assumption. reflexivity.
Qed.
Section At.
Variables (x y : T).
Hypothesis Oxy : on x y.
Hypothesis v_nz : forall A u v, t A = Aff u v -> x - u <> 0.
Hypothesis v_ev : forall A u v, t A = Aff u v -> ev (x - u) = gid.
Hypothesis l_nz : forall A B, line (t A) (t B) x y <> 0.
Definition cc (A B : H) : U := ev (line (t A) (t B) x y).
Lemma cc_comm A B : cc A B = cc B A. Proof. unfold cc. rewrite line_comm; auto. Qed.
Lemma cc_id A : cc gid A = gid. Proof. unfold cc. rewrite t_id. apply ev_1. Qed.
Lemma cc_id_r A : cc A gid = gid. Proof. rewrite cc_comm. apply cc_id. Qed.
Lemma cc_inf A B : gop A B = gid -> cc A B = gid.
Proof.
  intros E. apply (f_equal t) in E. rewrite t_op, t_id in E. unfold cc. destruct (t A) as [|x1 y1] eqn:EA, (t B) as [|x2 y2] eqn:EB; try apply ev_1.
  rewrite (line_opp _ _ _ _ _ _ E). apply ev_1.
Qed.
(** mirror image *)
Lemma lin_ev (A B : H) x1 y1 x2 y2 x3 y3 l m : t A = Aff x1 y1 -> t B = Aff x2 y2 -> adds x1 y1 x2 y2 x3 y3 l m -> 
  ev (lin l m x y) @+ ev (lin (- l) (- m) x y) = gid.
Proof.
  intros EA EB S. assert (EC : t (gop A B) = Aff x3 y3). { rewrite t_op, EA, EB. apply (adds_padd K Kf two_nz three_nz b b_nz _ _ _ _ _ _ _ _ S). }
  pose proof (lin_norm _ _ _ _ _ x y (proj1 S) Oxy) as N.
  pose proof (v_nz _ _ _ EA) as N1. pose proof (v_nz _ _ _ EB) as N2. pose proof (v_nz _ _ _ EC) as N3.
  assert (NZ : (x - x1) * ((x - x2) * (x - x3)) <> 0) by (repeat apply mul_nz; auto). rewrite <- N in NZ.
  rewrite <- ev_mul. 2: { intros E; apply NZ; rewrite E; ring. } 2: { intros E; apply NZ; rewrite E; ring. }
  rewrite N, !ev_mul, (v_ev _ _ _ EA), (v_ev _ _ _ EB), (v_ev _ _ _ EC) by (auto; apply mul_nz; auto). rewrite !g_id. reflexivity.
Qed.
Lemma adds_neg x1 y1 x2 y2 x3 y3 l m : adds x1 y1 x2 y2 x3 y3 l m -> adds x1 (- y1) x2 (- y2) x3 (- y3) (- l) (- m).
Proof. intros (HV & -> & -> & ->). split; [apply (V_neg K Kf); auto|]. repeat split; ring. Qed.
Lemma cc_neg A B : cc (ginv A) (ginv B) = ginv (cc A B).
Proof.
  destruct (t A) as [|x1 y1] eqn:EA.
  { unfold cc. rewrite !t_inv, EA. cbn [pneg line]. rewrite ev_1. symmetry. apply g_inv_0. }
  destruct (t B) as [|x2 y2] eqn:EB.
  { unfold cc. rewrite !t_inv, EB. cbn [pneg]. rewrite !line_Inf_r, ev_1. symmetry. apply g_inv_0. }
  pose proof (t_on A) as OA. pose proof (t_on B) as OB. rewrite EA in OA. rewrite EB in OB.
  destruct (padd_cases K Kf b x1 y1 x2 y2 OA OB) as [(_ & _ & E)|(x3 & y3 & l & m & S & E)].
  - assert (G : gop A B = gid \/ cc A B = gid). { right. unfold cc. rewrite EA, EB, (line_opp _ _ _ _ _ _ E). apply ev_1. }
    assert (G' : cc (ginv A) (ginv B) = gid).
    { unfold cc. rewrite !t_inv, EA, EB. cbn [pneg]. rewrite line_opp; [apply ev_1|].
      change (padd (pneg (Aff x1 y1)) (pneg (Aff x2 y2)) = Inf). rewrite <- (padd_neg_neg K Kf two_nz three_nz b b_nz), E by assumption. reflexivity. }
    rewrite G'. unfold cc. rewrite EA, EB, (line_opp _ _ _ _ _ _ E), ev_1, g_inv_0. reflexivity.
  - apply g_inv_unique. unfold cc. rewrite !t_inv, EA, EB. cbn [pneg].
    rewrite (line_adds _ _ _ _ _ _ _ _ _ _ S), (line_adds _ _ _ _ _ _ _ _ _ _ (adds_neg _ _ _ _ _ _ _ _ S)). apply (lin_ev A B _ _ _ _ _ _ _ _ EA EB S).
Qed.
(** the third point of the line *)
Lemma adds_third x1 y1 x2 y2 x3 y3 l m : adds x1 y1 x2 y2 x3 y3 l m -> adds x1 y1 x3 (- y3) x2 (- y2) l m.
Proof. intros (HV & -> & -> & ->). split; [apply (V_23 K Kf); auto|]. repeat split; ring. Qed.
Lemma cc_third A B : cc A (ginv (gop A B)) = cc A B.
Proof.
  destruct (t A) as [|x1 y1] eqn:EA; [unfold cc; rewrite EA; reflexivity|].
  destruct (t B) as [|x2 y2] eqn:EB.
  { apply t_inj in EB. subst B. rewrite g_id_r, cc_id_r. apply cc_inf, g_inv. }
  pose proof (t_on A) as OA. pose proof (t_on B) as OB. rewrite EA in OA. rewrite EB in OB.
  destruct (padd_cases K Kf b x1 y1 x2 y2 OA OB) as [(_ & _ & E)|(x3 & y3 & l & m & S & E)].
  - assert (X : gop A B = gid) by (apply t_inj; rewrite t_op, EA, EB; exact E). rewrite (cc_inf A B X), X, g_inv_0. apply cc_id_r.
  - unfold cc. rewrite t_inv, t_op, EA, EB, E. cbn [pneg]. rewrite (line_adds _ _ _ _ _ _ _ _ _ _ S), (line_adds _ _ _ _ _ _ _ _ _ _ (adds_third _ _ _ _ _ _ _ _ S)). reflexivity.
Qed.
Lemma cc_opp A C : cc A (gop (ginv A) C) @+ cc (ginv A) C = gid.
Proof.
  rewrite <- cc_third. replace (gop A (gop (ginv A) C)) with C by (rewrite <- g_assoc, g_inv, g_id; reflexivity).
  rewrite <- (g_inv_inv A) at 1. rewrite cc_neg. rewrite g_comm. apply g_inv.
Qed.
Lemma cc_gen A B C : A <> C -> B <> C -> A <> gid -> B <> gid -> C <> gid -> gop A B <> gid -> gop B C <> gid -> gop A (gop B C) <> gid ->
  cc A B @+ cc (gop A B) C = cc A (gop B C) @+ cc B C.
Proof.
  intros NAC NBC NA NB NC NAB NBC' NABC.
  assert (F : forall D, D <> gid -> exists u v, t D = Aff u v /\ on u v).
  { intros D ND. pose proof (t_on D) as O. destruct (t D) as [|u v] eqn:E; [elim ND; apply t_inj, E|]. exists u, v. auto. }
  assert (AD : forall D D' u v u' v', t D = Aff u v -> t D' = Aff u' v' -> gop D D' <> gid -> exists x3 y3 l m, adds u v u' v' x3 y3 l m /\ t (gop D D') = Aff x3 y3).
  { intros D D' u v u' v' E E' N. pose proof (t_on D) as O. pose proof (t_on D') as O'. rewrite E in O. rewrite E' in O'.
    destruct (padd_cases K Kf b u v u' v' O O') as [(_ & _ & X)|(x3 & y3 & l & m & S & X)].
    - elim N. apply t_inj. rewrite t_op, E, E'. exact X.
    - exists x3, y3, l, m. split; [exact S|]. rewrite t_op, E, E'. exact X. }
  destruct (F A NA) as (xa & ya & EA & OA). destruct (F B NB) as (xb & yb & EB & OB). destruct (F C NC) as (xc & yc & EC & OC).
  destruct (AD A B _ _ _ _ EA EB NAB) as (xd & yd & l1 & m1 & S1 & ED). destruct (AD B C _ _ _ _ EB EC NBC') as (xe & ye & l3 & m3 & S3 & EE).
  destruct (AD (gop A B) C _ _ _ _ ED EC) as (xg & yg & l2 & m2 & S2 & EG); [rewrite g_assoc; exact NABC|].
  destruct (AD A (gop B C) _ _ _ _ EA EE NABC) as (xh & yh & l4 & m4 & S4 & EH).
  assert (ti : forall D D' u v, t D = Aff u v -> t D' = Aff u v -> D = D').
  { intros D D' u v E E'. apply g_sub0. apply t_inj. rewrite t_op, t_inv, E, E'. apply (padd_neg K Kf). }
  assert (SC : same_conic K xd yd xe ye l1 l2 l3 l4).
  { apply (same_conic_cases K Kf two_nz three_nz b b_nz xa ya xb yb xc yc xd yd xe ye xg yg xh yh l1 m1 l2 m2 l3 m3 l4 m4 S1 S2 S3 S4).
    - intros [-> ->]. apply NAC. exact (ti _ _ _ _ EA EC).
    - intros [-> ->]. apply NBC. exact (ti _ _ _ _ EB EC). }
  pose proof (l_nz A B) as N1. pose proof (l_nz (gop A B) C) as N2. pose proof (l_nz B C) as N3. pose proof (l_nz A (gop B C)) as N4.
  unfold cc. rewrite EA, EB, EC, ED, EE in *.
  rewrite (line_adds _ _ _ _ _ _ _ _ _ _ S1) in *. rewrite (line_adds _ _ _ _ _ _ _ _ _ _ S2) in *.
  rewrite (line_adds _ _ _ _ _ _ _ _ _ _ S3) in *. rewrite (line_adds _ _ _ _ _ _ _ _ _ _ S4) in *.
  destruct (adds_on K Kf b _ _ _ _ _ _ _ _ S1) as (_ & _ & OD). destruct (adds_on K Kf b _ _ _ _ _ _ _ _ S3) as (_ & _ & OE).
  assert (Q1 := Q_prod K Kf b l1 m1 l2 m2 xd yd x y OD Oxy (proj2 (proj2 (proj2 S1))) (proj1 (proj2 S2))).
  assert (Q2 := Q_prod K Kf b l3 m3 l4 m4 xe ye x y OE Oxy (proj2 (proj2 (proj2 S3))) (proj1 (proj2 (proj2 S4)))).
  destruct SC as (C1 & C2 & C3). rewrite C1, C2, C3 in Q1. set (q := Q K (qa K l3 l4 xe) (qb K l3 l4) (qc K l3 l4 xe ye) x y) in *.
  pose proof (v_nz _ _ _ ED) as ND. pose proof (v_nz _ _ _ EE) as NE.
  assert (NQ : q <> 0). { intros Z. apply (mul_nz _ _ N1 N2). rewrite Q1, Z. ring. }
  rewrite (g_comm U (ev (lin l4 m4 x y))). rewrite <- !ev_mul, Q1, Q2, !ev_mul, (v_ev _ _ _ ED), (v_ev _ _ _ EE) by assumption. reflexivity.
Qed.
Lemma cc_coc A B C : cc A B @+ cc (gop A B) C = cc A (gop B C) @+ cc B C.
Proof.
  destruct (g_dec H A gid) as [->|NA]; [rewrite !g_id, !cc_id; rewrite !g_id; reflexivity|].
  destruct (g_dec H B gid) as [->|NB]; [rewrite !g_id, g_id_r, cc_id, cc_id_r; rewrite g_comm; reflexivity|].
  destruct (g_dec H C gid) as [->|NC]; [rewrite !g_id_r, !cc_id_r; reflexivity|].
  destruct (g_dec H (gop A B) gid) as [E|NAB].
  { rewrite (cc_inf A B E), E, cc_id, g_id. apply g_inv_unique in E. subst B. symmetry. apply cc_opp. }
  destruct (g_dec H (gop B C) gid) as [E|NBC].
  { rewrite (cc_inf B C E), E, cc_id_r, g_id. rewrite (g_comm H B C) in E. apply g_inv_unique in E. subst B.
    rewrite (cc_comm A (ginv C)), (cc_comm (gop A _) C), (g_comm H A), g_comm. apply cc_opp. }
  destruct (g_dec H (gop A (gop B C)) gid) as [E|NABC].
  { rewrite (cc_inf A (gop B C) E). rewrite (cc_inf (gop A B) C) by (rewrite g_assoc; exact E). rewrite g_id, g_id_r.
    assert (C = ginv (gop A B)) as -> by (apply g_inv_unique; rewrite g_assoc; exact E). rewrite (cc_comm A B), (g_comm H A B). symmetry. apply cc_third. }
  destruct (g_dec H A C) as [->|NAC].
  { rewrite (g_comm H B C), (cc_comm C B), (cc_comm (gop C B) C). apply g_comm. }
  destruct (g_dec H B C) as [->|NBC2]; [|apply cc_gen; auto].
  (* the statement for (C, C, A) *)
  pose proof (cc_gen C C A ltac:(auto) ltac:(auto) NC NC NA NBC) as X. rewrite (g_comm H C A) in X. specialize (X NAB).
  rewrite (g_comm H C (gop A C)), g_assoc in X. specialize (X NABC).
  rewrite (cc_comm (gop C C) A), (cc_comm C (gop A C)), (cc_comm C A) in X. rewrite g_comm, (g_comm _ (cc A _)). symmetry. exact X.
Qed.
End At.

(** additivity in the point at which the lines are evaluated *)
Section Recip.
Variables (x1 y1 x2 y2 x3 y3 l m : T).
Hypothesis S : adds x1 y1 x2 y2 x3 y3 l m.
Hypothesis ev_m1 : ev (- (1)) = gid.
Definition mm (A : H) : T := match t A with Inf => 1 | Aff u v => lin l m u v end.
Hypothesis m_nz : forall A, mm A <> 0.
Hypothesis v_nz : forall A u v, t A = Aff u v -> x1 - u <> 0 /\ x2 - u <> 0 /\ x3 - u <> 0.
Hypothesis v_ev : forall A u v, t A = Aff u v -> ev (x1 - u) = gid /\ ev (x2 - u) = gid /\ ev (x3 - u) = gid.
Hypothesis l_nz : forall A B, line (t A) (t B) x1 y1 <> 0 /\ line (t A) (t B) x2 y2 <> 0 /\ line (t A) (t B) x3 y3 <> 0.
Lemma m1_nz : (- (1) : T) <> 0. Proof. intros E. apply one_nz. transitivity (- (- (1)) : T); [ring|]. rewrite E. ring. Qed.
Lemma ev_sub (a c : T) : a - c <> 0 -> ev (a - c) = gid -> ev (c - a) = gid.
Proof. intros N E. replace (c - a) with (- (1) * (a - c)) by ring. rewrite ev_mul, ev_m1, E by (auto; apply m1_nz). apply g_id. Qed.
Lemma mm_inv A : ev (mm (ginv A)) = ginv (ev (mm A)).
Proof.
  apply g_inv_unique. rewrite <- ev_mul by auto. unfold mm. rewrite t_inv. destruct (t A) as [|u v] eqn:E; cbn [pneg].
  - replace (1 * 1) with (1 : T) by ring. apply ev_1.
  - pose proof (t_on A) as O. rewrite E in O. destruct (v_nz A u v E) as (N1 & N2 & N3). destruct (v_ev A u v E) as (E1 & E2 & E3).
    assert (R : lin l m u v * lin l m u (- v) = - (1) * ((u - x1) * ((u - x2) * (u - x3)))).
    { rewrite <- (lin_norm _ _ _ _ _ u v (proj1 S) O). unfold CurveProof.lin. ring. }
    assert (NS : forall a c : T, a - c <> 0 -> c - a <> 0). { intros a c N X. apply N. replace (a - c) with (- (c - a)) by ring. rewrite X. ring. }
    rewrite R, !ev_mul, ev_m1, !ev_sub by auto using m1_nz, mul_nz. rewrite !g_id. reflexivity.
Qed.
Lemma cc_recip A B : cc x1 y1 A B @+ (cc x2 y2 A B @+ ginv (cc x3 y3 A B)) = ev (mm A) @+ (ev (mm B) @+ ginv (ev (mm (gop A B)))).
Proof.
  destruct (t A) as [|xa ya] eqn:EA.
  { apply t_inj in EA. subst A. unfold cc. rewrite t_id. cbn [line]. rewrite ev_1, g_id. unfold mm at 1. rewrite t_id, ev_1, g_inv, !g_id, g_inv. reflexivity. }
  destruct (t B) as [|xb yb] eqn:EB.
  { apply t_inj in EB. subst B. unfold cc. rewrite t_id, !line_Inf_r, ev_1, g_id_r. unfold mm at 2. rewrite t_id, ev_1, g_inv_0, !g_id, g_inv. reflexivity. }
  pose proof (t_on A) as OA. pose proof (t_on B) as OB. rewrite EA in OA. rewrite EB in OB.
  destruct (padd_cases K Kf b xa ya xb yb OA OB) as [(_ & _ & E)|(xd & yd & k & n & S' & E)].
  - assert (X : gop A B = gid) by (apply t_inj; rewrite t_op, EA, EB; exact E).
    unfold cc. rewrite EA, EB, !(line_opp _ _ _ _ _ _ E), ev_1, X. unfold mm at 3. rewrite t_id, ev_1, g_inv_0, !g_id, g_id_r.
    apply g_inv_unique in X. subst B. rewrite mm_inv. symmetry. apply g_inv.
  - assert (ED : t (gop A B) = Aff xd yd) by (rewrite t_op, EA, EB; exact E).
    rewrite <- mm_inv.
    destruct (l_nz A B) as (N1 & N2 & N3). destruct (adds_on K Kf b _ _ _ _ _ _ _ _ S) as (_ & _ & O3).
    assert (C3 : ginv (cc x3 y3 A B) = ev (lin k n x3 (- y3))).
    { symmetry. apply g_inv_unique. unfold cc. rewrite EA, EB, (line_adds _ _ _ _ _ _ _ _ _ _ S').
      replace (lin k n x3 (- y3)) with (- (1) * lin (- k) (- n) x3 y3) by (unfold CurveProof.lin; ring).
      pose proof (lin_norm _ _ _ _ _ x3 y3 (proj1 S') O3) as NN.
      destruct (v_nz _ _ _ EA) as (_ & _ & V1). destruct (v_nz _ _ _ EB) as (_ & _ & V2). destruct (v_nz _ _ _ ED) as (_ & _ & V3).
      assert (NZ : lin (- k) (- n) x3 y3 <> 0). { intros Z. apply (mul_nz _ _ V1 (mul_nz _ _ V2 V3)). rewrite <- NN, Z. ring. }
      rewrite (ev_mul (- (1))), ev_m1, g_id by auto using m1_nz.
      apply (lin_ev x3 y3 O3) with (A := A) (B := B) (x1 := xa) (y1 := ya) (x2 := xb) (y2 := yb) (x3 := xd) (y3 := yd); auto.
      - intros D u v X. apply (v_nz _ _ _ X).
      - intros D u v X. apply (v_ev _ _ _ X). }
    rewrite C3. unfold cc. pose proof (m_nz A) as M1. pose proof (m_nz B) as M2. pose proof (m_nz (ginv (gop A B))) as M3.
    assert (N3' : lin k n x3 (- y3) <> 0).
    { intros Z. pose proof (lin_norm _ _ _ _ _ x3 (- y3) (proj1 S') (on_neg K Kf b _ _ O3)) as NN. rewrite Z in NN.
      destruct (v_nz _ _ _ EA) as (_ & _ & V1). destruct (v_nz _ _ _ EB) as (_ & _ & V2). destruct (v_nz _ _ _ ED) as (_ & _ & V3).
      apply (mul_nz _ _ V1 (mul_nz _ _ V2 V3)). rewrite <- NN. ring. }
    unfold mm in *. rewrite t_inv, EA, EB, ED in *. cbn [pneg] in *. rewrite !(line_adds _ _ _ _ _ _ _ _ _ _ S') in *.
    destruct S as (HV & Y1 & Y2 & Y3). destruct S' as (HV' & YA & YB & YD).
    pose proof (lin_recip _ _ _ _ _ _ _ _ _ _ HV HV') as R.
    rewrite <- Y1, <- Y2, <- YA, <- YB in R. replace (l * x3 + m) with (- y3) in R by (rewrite Y3; ring). replace (k * xd + n) with (- yd) in R by (rewrite YD; ring).
    rewrite <- !ev_mul by auto using mul_nz. rewrite R.
    replace (- (lin l m xa ya * (lin l m xb yb * lin l m xd (- yd)))) with (- (1) * (lin l m xa ya * (lin l m xb yb * lin l m xd (- yd)))) by ring.
    rewrite (ev_mul (- (1))), ev_m1, g_id by auto using mul_nz, m1_nz. reflexivity.
Qed.
End Recip.
(** the opposite point *)
Lemma cc_opposite x y A B : on x y -> ev (- (1)) = gid ->
  (forall A u v, t A = Aff u v -> x - u <> 0) -> (forall A u v, t A = Aff u v -> ev (x - u) = gid) ->
  (forall A B, line (t A) (t B) x (- y) <> 0) -> cc x (- y) A B = ginv (cc x y A B).
Proof.
  intros O M1 VN VE LN.
  destruct (t A) as [|xa ya] eqn:EA; [unfold cc; rewrite EA; cbn [line]; rewrite ev_1, g_inv_0; reflexivity|].
  destruct (t B) as [|xb yb] eqn:EB; [unfold cc; rewrite EB, !line_Inf_r, ev_1, g_inv_0; reflexivity|].
  pose proof (t_on A) as OA. pose proof (t_on B) as OB. rewrite EA in OA. rewrite EB in OB.
  destruct (padd_cases K Kf b xa ya xb yb OA OB) as [(_ & _ & E)|(xd & yd & k & n & S & E)].
  - unfold cc. rewrite EA, EB, !(line_opp _ _ _ _ _ _ E), ev_1, g_inv_0. reflexivity.
  - apply g_inv_unique. pose proof (LN A B) as N. unfold cc. rewrite EA, EB, !(line_adds _ _ _ _ _ _ _ _ _ _ S) in *.
    assert (R : lin k n x (- y) = - (1) * lin (- k) (- n) x y) by (unfold CurveProof.lin; ring). rewrite R in *.
    assert (N2 : lin (- k) (- n) x y <> 0). { intros Z. apply N. rewrite Z. ring. }
    rewrite (ev_mul (- (1))), M1, g_id by (auto; apply m1_nz).
    apply (lin_ev x y O VN VE A B xa ya xb yb xd yd); auto.
Qed.
End Eval.
End Line.
