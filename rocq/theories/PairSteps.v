(** The doubling and addition steps of the Miller loop compute points and lines. *)
From Coq Require Import ZArith List Bool Lia Ring Field.
From Verif Require Import SpecField FieldProof TowerProof TowerProof2 ModelPrim ModelWord ModelFp ModelTower ModelCurve FpProof TowerRefine TowerRefine2 TowerRefine3
  SpecCurve AbGroup CurveProof CurveMaps CurveInst CodecProof2 PairField PairUnits PairTwist ModelPairing.
Local Open Scope Z_scope.
Add Field F_fieldPS : F_field.
Add Field F2_fieldPS : F2_field.
Notation two2 := (F2add F2_1 F2_1).
Notation three2 := (F2add (F2add F2_1 F2_1) F2_1).

(** * algebra *)
Lemma two2_nz : two2 <> F2_0. Proof. exact KFp2_two. Qed.
Lemma adds_dbl (x y x3 y3 l m : Fp2) : adds KFp2 b2 x y x y x3 y3 l m ->
  F2mul (F2add y y) l = F2mul three2 (F2mul x x) /\ F2mul y y = F2add (F2mul (F2mul x x) x) F2b /\ x3 = F2sub (F2sub (F2mul l l) x) x /\ y3 = F2opp (F2add (F2mul l x3) m) /\ m = F2sub y (F2mul l x).
Proof.
  intros A. destruct (adds_on KFp2 KFp2_field b2 _ _ _ _ _ _ _ _ A) as [O _]. destruct A as ((V1 & V2 & V3) & Y1 & _ & Y3).
  unfold on in O. cbn [KFp2 kmul kadd ksub kopp car] in *. change (@eq Fp2 (F2mul y y) (F2add (F2mul (F2mul x x) x) F2b)) in O.
  split; [|split; [exact O|]].
  - transitivity (F2add (F2mul two2 (F2mul x (F2mul l l))) (F2opp (F2opp (F2add (F2mul l m) (F2mul l m))))); [rewrite Y1; ring|]. rewrite V1, V2. ring.
  - split; [rewrite V1; ring|]. split; [exact Y3|rewrite Y1; ring].
Qed.
Lemma adds_add (x y x2 y2 x3 y3 l m : Fp2) : adds KFp2 b2 x y x2 y2 x3 y3 l m ->
  F2mul l (F2sub x x2) = F2sub y y2 /\ x3 = F2sub (F2sub (F2mul l l) x) x2 /\ y3 = F2opp (F2add (F2mul l x3) m) /\ m = F2sub y2 (F2mul l x2).
Proof.
  intros ((V1 & V2 & V3) & Y1 & Y2 & Y3). cbn [KFp2 kmul kadd ksub kopp car] in *.
  split; [rewrite Y1, Y2; ring|]. split; [rewrite V1; ring|]. split; [exact Y3|rewrite Y2; ring].
Qed.
Section Dbl.
Variables x y Z l h b : Fp2.
Hypothesis L : F2mul (F2add y y) l = F2mul three2 (F2mul x x).
Hypothesis O : F2mul y y = F2add (F2mul (F2mul x x) x) b.
Hypothesis Hh : F2mul h two2 = F2_1.
Hypothesis y_nz : y <> F2_0.
Hypothesis Z_nz : Z <> F2_0.
Let X := F2mul x Z.
Let Y := F2mul y Z.
Let m := F2sub y (F2mul l x).
Let x3 := F2sub (F2sub (F2mul l l) x) x.
Let y3 := F2opp (F2add (F2mul l x3) m).
Let t1 := F2mul Y Y.
Let t3 := F2mul b (F2add (F2add (F2mul Z Z) (F2mul Z Z)) (F2mul Z Z)).
Let t4 := F2add (F2add t3 t3) t3.
Let t6 := F2sub (F2mul (F2add Y Z) (F2add Y Z)) (F2add (F2mul Z Z) t1).
Let X' := F2mul (F2sub t1 t4) (F2mul h (F2mul X Y)).
Let t5 := F2mul h (F2add t1 t4).
Let Y' := F2sub (F2mul t5 t5) (F2add (F2add (F2mul t3 t3) (F2mul t3 t3)) (F2mul t3 t3)).
Let Z' := F2mul t1 t6.
Lemma dbl_t6_eq : t6 = F2mul (F2add y y) (F2mul Z Z). Proof. unfold t6, t1, Y. ring. Qed.
Lemma dy_nz : F2add y y <> F2_0.
Proof. intros E. apply y_nz. transitivity (F2mul h (F2add y y)); [transitivity (F2mul (F2mul h two2) y); [rewrite Hh; ring|ring]|]. rewrite E. ring. Qed.
Lemma dbl_Z_nz : Z' <> F2_0.
Proof.
  unfold Z'. rewrite dbl_t6_eq. unfold t1, Y. pose proof dy_nz as D. intros E.
  apply F2_1_neq_0. transitivity (F2mul (F2mul (F2mul (F2mul y Z) (F2mul y Z)) (F2mul (F2add y y) (F2mul Z Z))) (F2inv (F2mul (F2mul (F2mul y Z) (F2mul y Z)) (F2mul (F2add y y) (F2mul Z Z))))).
  - field. repeat split; assumption.
  - rewrite E. ring.
Qed.
Lemma l_eq : l = F2mul (F2mul three2 (F2mul x x)) (F2inv (F2add y y)).
Proof. rewrite <- L. field. exact dy_nz. Qed.
Lemma h_eq : h = F2inv two2.
Proof. transitivity (F2mul (F2mul h two2) (F2inv two2)); [field; exact two2_nz|]. rewrite Hh. ring. Qed.
Lemma b_eq : b = F2sub (F2mul y y) (F2mul (F2mul x x) x). Proof. rewrite O. ring. Qed.
Lemma dbl_X' : X' = F2mul x3 Z'.
Proof.
  unfold Z', X'. rewrite dbl_t6_eq. unfold x3, t4, t3, t1, X, Y. rewrite l_eq, h_eq, b_eq. field. split; first [exact two2_nz|exact dy_nz].
Qed.
Lemma dbl_Y' : Y' = F2mul y3 Z'.
Proof.
  unfold Z', Y'. rewrite dbl_t6_eq. unfold y3, x3, m, t5, t4, t3, t1, X, Y. rewrite l_eq, h_eq, b_eq. field. split; first [exact two2_nz|exact dy_nz].
Qed.
Lemma dbl_c0 : F2sub t3 t1 = F2mul (F2opp t6) (F2opp m).
Proof. rewrite dbl_t6_eq. unfold m, t3, t1, Y. rewrite l_eq, b_eq. field. exact dy_nz. Qed.
Lemma dbl_c1 : F2add (F2add (F2mul X X) (F2mul X X)) (F2mul X X) = F2mul (F2opp t6) (F2opp l).
Proof. rewrite dbl_t6_eq. unfold X. rewrite l_eq. field. exact dy_nz. Qed.
Lemma dbl_s_nz : F2opp t6 <> F2_0.
Proof. intros E. apply dbl_Z_nz. unfold Z'. transitivity (F2opp (F2mul t1 (F2opp t6))); [ring|]. rewrite E. ring. Qed.
End Dbl.
Section Add.
Variables x y Z l x2 y2 : Fp2.
Hypothesis L : F2mul l (F2sub x x2) = F2sub y y2.
Hypothesis N : F2sub x x2 <> F2_0.
Hypothesis Z_nz : Z <> F2_0.
Let X := F2mul x Z.
Let Y := F2mul y Z.
Let m := F2sub y2 (F2mul l x2).
Let x3 := F2sub (F2sub (F2mul l l) x) x2.
Let y3 := F2opp (F2add (F2mul l x3) m).
Let t0 := F2add (F2opp (F2mul y2 Z)) Y.
Let t1 := F2add (F2opp (F2mul x2 Z)) X.
Let t4 := F2mul t1 (F2mul t1 t1).
Let t3 := F2mul X (F2mul t1 t1).
Let t5 := F2add (F2sub t4 (F2add t3 t3)) (F2mul Z (F2mul t0 t0)).
Let X' := F2mul t1 t5.
Let Y' := F2sub (F2mul (F2sub t3 t5) t0) (F2mul Y t4).
Let Z' := F2mul Z t4.
Lemma add_t0 : t0 = F2mul (F2mul l (F2sub x x2)) Z. Proof. rewrite L. unfold t0, Y. ring. Qed.
Lemma add_t1 : t1 = F2mul (F2sub x x2) Z. Proof. unfold t1, X. ring. Qed.
Lemma add_y : y = F2add y2 (F2mul l (F2sub x x2)). Proof. rewrite L. ring. Qed.
Lemma add_X' : X' = F2mul x3 Z'.
Proof. unfold X', x3, Z', t5, t4, t3. rewrite add_t0, add_t1. unfold X. ring. Qed.
Lemma add_Y' : Y' = F2mul y3 Z'.
Proof. unfold Y', y3, x3, m, Z', t5, t4, t3. rewrite add_t0, add_t1. unfold X, Y. rewrite add_y at 1. ring. Qed.
Lemma add_t1_nz : t1 <> F2_0.
Proof.
  rewrite add_t1. intros E. apply N. transitivity (F2mul (F2mul (F2sub x x2) Z) (F2inv Z)); [field; exact Z_nz|]. rewrite E. ring.
Qed.
Lemma add_Z_nz : Z' <> F2_0.
Proof.
  pose proof add_t1_nz as T. unfold Z', t4. apply F2_mul_nz; [exact Z_nz|]. apply F2_mul_nz; [exact T|]. apply F2_mul_nz; exact T.
Qed.
Lemma add_c0 : F2sub (F2mul t0 x2) (F2mul t1 y2) = F2mul t1 (F2opp m).
Proof. unfold m. rewrite add_t0, add_t1. ring. Qed.
Lemma add_c1 : F2opp t0 = F2mul t1 (F2opp l). Proof. rewrite add_t0, add_t1. ring. Qed.
End Add.

(** * the steps *)
Definition hrep (r : g2) (A : E2) : Prop := canon2 (jx r) /\ canon2 (jy r) /\ canon2 (jz r) /\ dec2 (jz r) <> F2_0 /\
  exists x y : Fp2, cpt (b := b2) A = A2 x y /\ dec2 (jx r) = F2mul x (dec2 (jz r)) /\ dec2 (jy r) = F2mul y (dec2 (jz r)).
Definition linec (c : ellc) (A B : E2) : Prop := canon2 (fst (fst c)) /\ canon2 (snd (fst c)) /\ canon2 (snd c) /\
  exists s l m x1 y1 x2 y2 x3 y3 : Fp2, s <> F2_0 /\ dec2 (fst (fst c)) = F2mul s (F2opp m) /\ dec2 (snd (fst c)) = F2mul s (F2opp l) /\ dec2 (snd c) = s /\
    cpt (b := b2) A = A2 x1 y1 /\ cpt (b := b2) B = A2 x2 y2 /\ adds KFp2 b2 x1 y1 x2 y2 x3 y3 l m.
Definition affq (q : g2) (Q : E2) : Prop := canon2 (jx q) /\ canon2 (jy q) /\ cpt (b := b2) Q = A2 (dec2 (jx q)) (dec2 (jy q)).
Lemma twoInv_h : F2mul (F2of (dec twoInv)) two2 = F2_1.
Proof. pose proof dec_twoInv as H. rewrite Fof2 in H. apply F2_eq; f2_unf; [|ring]. transitivity (Fmul (Fadd F1 F1) (dec twoInv)); [ring|exact H]. Qed.
Lemma F2_half0 y : F2add y y = F2_0 -> y = F2_0.
Proof. intros E. transitivity (F2mul (F2of (dec twoInv)) (F2add y y)); [transitivity (F2mul (F2mul (F2of (dec twoInv)) two2) y); [rewrite twoInv_h; ring|ring]|]. rewrite E. ring. Qed.
Lemma on2_pt (A : E2) (x y : Fp2) : cpt (b := b2) A = A2 x y -> on KFp2 b2 x y /\ y <> F2_0.
Proof.
  intros E. pose proof (curve_on KFp2 KFp2_field b2 A) as O. rewrite E in O. split; [exact O|].
  apply (no2_2 x y). apply (onb_ok KFp2 KFp2_field). exact O.
Qed.
Lemma cpt_gop (A B : E2) : cpt (b := b2) (gop A B) = padd (cpt (b := b2) A) (cpt (b := b2) B). Proof. reflexivity. Qed.
Lemma doubling_step_ok r A : hrep r A -> linec (fst (doubling_step r)) A A /\ hrep (snd (doubling_step r)) (gop A A).
Proof.
  intros (CX & CY & CZ & NZ & x & y & E & EX & EY). destruct (on2_pt A x y E) as [O Ny].
  destruct (padd_cases KFp2 KFp2_field b2 x y x y O O) as [(_ & D & _)|(x3 & y3 & l & m & D & EP)].
  { elim Ny. change (@eq Fp2 y (F2opp y)) in D. apply F2_half0. transitivity (F2add y (F2opp y)); [rewrite <- D; reflexivity|ring]. }
  destruct (adds_dbl x y x3 y3 l m D) as (L & OO & E3 & F3 & M).
  pose proof twoInv_h as H. revert H EX EY NZ.
  unfold doubling_step, dbl_t0, dbl_t3, dbl_t6. cbv zeta. cbn [fst snd jx jy jz]. intros H EX EY NZ.
  split.
  - split; [|split; [|split]]; cbn [fst snd]; [auto 20 with canon..|].
    exists (F2opp (F2sub (F2mul (F2add (dec2 (jy r)) (dec2 (jz r))) (F2add (dec2 (jy r)) (dec2 (jz r)))) (F2add (F2mul (dec2 (jz r)) (dec2 (jz r))) (F2mul (dec2 (jy r)) (dec2 (jy r)))))), l, m, x, y, x, y, x3, y3.
    autorewrite with dec; auto 20 with canon. rewrite EX, EY, M.
    split; [exact (dbl_s_nz y (dec2 (jz r)) _ H Ny NZ)|].
    split; [exact (dbl_c0 x y (dec2 (jz r)) l _ F2b L OO H Ny)|].
    split; [exact (dbl_c1 x y (dec2 (jz r)) l _ L H Ny)|].
    split; [reflexivity|]. split; [exact E|]. split; [exact E|]. rewrite <- M. exact D.
  - split; [|split; [|split; [|split]]]; cbn [jx jy jz]; [auto 20 with canon..| |].
    + autorewrite with dec; auto 20 with canon. rewrite EY. exact (dbl_Z_nz y (dec2 (jz r)) _ H Ny NZ).
    + exists x3, y3. split; [rewrite cpt_gop, E; exact EP|]. autorewrite with dec; auto 30 with canon. rewrite EX, EY, F3, M, E3.
      split; [exact (dbl_X' x y (dec2 (jz r)) l _ F2b L OO H Ny)|exact (dbl_Y' x y (dec2 (jz r)) l _ F2b L OO H Ny)].
Qed.
Lemma padd_neg' (K : fieldOps) (x y : car K) : padd (Aff x (kopp y)) (Aff x y) = Inf.
Proof. unfold padd. destruct (keq x x) as [_|C]; [|contradiction]. destruct (keq (kopp y) (kopp y)) as [_|C]; [reflexivity|contradiction]. Qed.
Lemma addition_step_ok r q A Q : hrep r A -> affq q Q -> A <> Q -> gop A Q <> gid ->
  linec (fst (addition_step r q)) A Q /\ hrep (snd (addition_step r q)) (gop A Q).
Proof.
  intros (CX & CY & CZ & NZ & x & y & E & EX & EY) (QX & QY & EQ) N1 N2. destruct (on2_pt A x y E) as [O Ny]. destruct (on2_pt Q _ _ EQ) as [O2 Ny2].
  destruct (padd_cases KFp2 KFp2_field b2 x y _ _ O O2) as [(_ & _ & D)|(x3 & y3 & l & m & D & EP)].
  { elim N2. apply curve_eq. rewrite cpt_gop, E, EQ. exact D. }
  assert (NX : F2sub x (dec2 (jx q)) <> F2_0).
  { intros F. assert (X : x = dec2 (jx q)) by (transitivity (F2add (F2sub x (dec2 (jx q))) (dec2 (jx q))); [ring|rewrite F; ring]).
    destruct (on_same_x KFp2 KFp2_field b2 x y _ _ O O2 X) as [Y|Y].
    - apply N1. apply curve_eq. rewrite E, EQ, X, Y. reflexivity.
    - apply N2. apply curve_eq. rewrite cpt_gop, E, EQ. rewrite X, Y. exact (padd_neg' _ _ _). }
  destruct (adds_add x y _ _ x3 y3 l m D) as (L & E3 & F3 & M).
  unfold addition_step. cbv zeta. cbn [fst snd jx jy jz].
  split.
  - split; [|split; [|split]]; cbn [fst snd]; [auto 20 with canon..|].
    exists (F2add (F2opp (F2mul (dec2 (jx q)) (dec2 (jz r)))) (dec2 (jx r))), l, m, x, y, (dec2 (jx q)), (dec2 (jy q)), x3, y3.
    autorewrite with dec; auto 20 with canon. rewrite EX, EY.
    split; [exact (add_t1_nz x (dec2 (jz r)) _ NX NZ)|].
    split; [rewrite M; exact (add_c0 x y (dec2 (jz r)) l _ _ L)|].
    split; [exact (add_c1 x y (dec2 (jz r)) l _ _ L)|].
    split; [reflexivity|]. split; [exact E|]. split; [exact EQ|exact D].
  - split; [|split; [|split; [|split]]]; cbn [jx jy jz]; [auto 20 with canon..| |].
    + autorewrite with dec; auto 20 with canon. rewrite EX. exact (add_Z_nz x (dec2 (jz r)) _ NX NZ).
    + exists x3, y3. split; [rewrite cpt_gop, E, EQ; exact EP|]. autorewrite with dec; auto 30 with canon. rewrite EX, EY, F3, E3, M.
      split; [exact (add_X' x y (dec2 (jz r)) l _ _ L)|exact (add_Y' x y (dec2 (jz r)) l _ _ L)].
Qed.
