(** The pairing of the two generators, computed with machine integers. *)
From Coq Require Import ZArith Znumtheory List Bool Lia Ring Field Uint63.
From Verif Require Import RingPow SpecField FieldProof TowerProof TowerProof2 ModelPrim ModelWord ModelScalar ModelFp ModelTower ModelCurve ModelKeys FpProof ScalarProof
  TowerRefine TowerRefine2 TowerRefine3 SpecCurve AbGroup CurveProof CurveMaps CurveRefine CurveRefine2 CurveInst CurveBase CurveReps SubgroupProof CodecProof CodecProof2 Orders I63 I63b GenProof
  PairCocycle PairLine PairField PairUnits PairTwist PairBilin ModelPairing PairSteps PairFinal PairLoop.
Import ListNotations.
Local Open Scope Z_scope.
Add Field F_fieldPC : F_field.
Add Field F2_fieldPC : F2_field.
Add Field F12_fieldPC : F12_field.
Opaque mul63 add63 sub63 d63.

(** * constants *)
Lemma RINV_RI : Fmul (Fof 256) RI = Fof RINV. Proof. apply fval_inj. vm_compute. reflexivity. Qed.
Lemma d63_dec l k q : okb63 l = true -> zl l = k * 256 + q * modulus -> ok63 l /\ d63 l = dec k.
Proof.
  intros H E. split; [apply okb63_ok, H|]. transitivity (Fmul (Fof (zl l)) RI); [reflexivity|]. unfold dec. rewrite (Fof_hint _ _ _ E), !Fof_mul, <- RINV_RI. ring.
Qed.
Definition ika : list int := [166836792; 248851249; 51584792; 154304858; 56352319; 130327775; 208630885; 40286156; 44881151; 212744589; 37992072; 174141729; 120403823; 7230]%uint63.
Lemma ika_d : ok63 ika /\ d63 ika = dec k_a.
Proof. apply (d63_dec _ _ (-0x58)); vm_compute; reflexivity. Qed.
Definition ikz : list int := [230526802; 67221400; 36499383; 193587601; 22531621; 228101903; 79210422; 74532441; 76796864; 108283581; 96116954; 91489073; 29285728; 52845]%uint63.
Lemma ikz_d : ok63 ikz /\ d63 ikz = dec k_z.
Proof. apply (d63_dec _ _ (-0xa)); vm_compute; reflexivity. Qed.
Definition itwo : list int := [27524700; 247463936; 88204; 6746985; 104401264; 203231304; 1815375; 114326431; 81284513; 143965656; 42659015; 615742; 53280381; 11197]%uint63.
Lemma itwo_d : ok63 itwo /\ d63 itwo = dec twoInv.
Proof. apply (d63_dec _ _ (-0xec)); vm_compute; reflexivity. Qed.
(** * Fp2 *)
Lemma x_add a b : ok63x a -> ok63x b -> ok63x (add63x a b) /\ d63x (add63x a b) = F2add (d63x a) (d63x b). Proof. exact (r_add _ _ _ _ ops63x_represents a b). Qed.
Lemma x_sub a b : ok63x a -> ok63x b -> ok63x (sub63x a b) /\ d63x (sub63x a b) = F2sub (d63x a) (d63x b). Proof. exact (r_sub _ _ _ _ ops63x_represents a b). Qed.
Lemma x_mul a b : ok63x a -> ok63x b -> ok63x (mul63x a b) /\ d63x (mul63x a b) = F2mul (d63x a) (d63x b). Proof. exact (r_mul _ _ _ _ ops63x_represents a b). Qed.
Lemma x_sqr a : ok63x a -> ok63x (sqr63x a) /\ d63x (sqr63x a) = F2mul (d63x a) (d63x a). Proof. exact (r_sqr _ _ _ _ ops63x_represents a). Qed.
Definition neg63x (a : t2) : t2 := sub63x zero63x a.
Lemma x_neg a : ok63x a -> ok63x (neg63x a) /\ d63x (neg63x a) = F2opp (d63x a). Proof. exact (r_neg _ _ _ _ ops63x_represents a). Qed.
Lemma x_zero : ok63x zero63x /\ d63x zero63x = F2_0. Proof. exact (r_zero _ _ _ _ ops63x_represents). Qed.
Lemma x_one : ok63x one63x /\ d63x one63x = F2_1. Proof. exact (r_one _ _ _ _ ops63x_represents). Qed.
Definition xi63x (a : t2) : t2 := (sub63 (fst a) (snd a), add63 (fst a) (snd a)).
Lemma x_xi a : ok63x a -> ok63x (xi63x a) /\ d63x (xi63x a) = F2mul xi (d63x a).
Proof.
  destruct a as [a b]. intros [A B]. cbn [fst snd] in *. destruct (d63_sub a b A B) as [S1 S2], (d63_add a b A B) as [P1 P2].
  split; [split; assumption|]. unfold xi63x, d63x, F2mul, xi. cbn [fst snd re im]. rewrite S2, P2. apply F2_eq; cbn [re im]; ring.
Qed.
Definition sc63x (a : t2) (e : list int) : t2 := (mul63 (fst a) e, mul63 (snd a) e).
Lemma x_sc a e : ok63x a -> ok63 e -> ok63x (sc63x a e) /\ d63x (sc63x a e) = F2mul (F2of (d63 e)) (d63x a).
Proof.
  destruct a as [a b]. intros [A B] E. cbn [fst snd] in *. destruct (d63_mul a e A E) as [S1 S2], (d63_mul b e B E) as [P1 P2].
  split; [split; assumption|]. unfold sc63x, d63x, F2mul, F2of. cbn [fst snd re im]. rewrite S2, P2. apply F2_eq; cbn [re im]; ring.
Qed.
Definition mulB63x (a : t2) : t2 := let d := add63x a a in xi63x (add63x d d).
Lemma x_mulB a : ok63x a -> ok63x (mulB63x a) /\ d63x (mulB63x a) = F2mul F2b (d63x a).
Proof.
  intros A. unfold mulB63x. cbv zeta. destruct (x_add a a A A) as [B1 B2]. destruct (x_add _ _ B1 B1) as [C1 C2]. destruct (x_xi _ C1) as [D1' D2'].
  split; [exact D1'|]. rewrite D2', C2, B2. unfold F2b. rewrite Fof4. generalize (d63x a). intros [u v]. apply F2_eq; unfold xi; f2_unf; ring.
Qed.

(** * the relation between the model's values and machine integers *)
Definition R2 (x : fp2) (v : t2) : Prop := canon2 x /\ ok63x v /\ dec2 x = d63x v.
Lemma R_add x y v w : R2 x v -> R2 y w -> R2 (fp2_add x y) (add63x v w).
Proof. intros (C & O & D) (C' & O' & D'). destruct (x_add v w O O') as [P E]. split; [auto with canon|]. split; [exact P|]. rewrite E, dec2_add by assumption. congruence. Qed.
Lemma R_sub x y v w : R2 x v -> R2 y w -> R2 (fp2_sub x y) (sub63x v w).
Proof. intros (C & O & D) (C' & O' & D'). destruct (x_sub v w O O') as [P E]. split; [auto with canon|]. split; [exact P|]. rewrite E, dec2_sub by assumption. congruence. Qed.
Lemma R_mul x y v w : R2 x v -> R2 y w -> R2 (fp2_mul x y) (mul63x v w).
Proof. intros (C & O & D) (C' & O' & D'). destruct (x_mul v w O O') as [P E]. split; [auto with canon|]. split; [exact P|]. rewrite E, dec2_mul by assumption. congruence. Qed.
Lemma R_sqr x v : R2 x v -> R2 (fp2_sqr x) (sqr63x v).
Proof. intros (C & O & D). destruct (x_sqr v O) as [P E]. split; [auto with canon|]. split; [exact P|]. rewrite E, dec2_sqr by assumption. congruence. Qed.
Lemma R_dbl x v : R2 x v -> R2 (fp2_dbl x) (add63x v v).
Proof. intros (C & O & D). destruct (x_add v v O O) as [P E]. split; [auto with canon|]. split; [exact P|]. rewrite E, dec2_dbl by assumption. congruence. Qed.
Lemma R_neg x v : R2 x v -> R2 (fp2_neg x) (neg63x v).
Proof. intros (C & O & D). destruct (x_neg v O) as [P E]. split; [auto with canon|]. split; [exact P|]. rewrite E, dec2_neg by assumption. congruence. Qed.
Lemma R_mulB x v : R2 x v -> R2 (fp2_mulByB x) (mulB63x v).
Proof. intros (C & O & D). destruct (x_mulB v O) as [P E]. split; [auto with canon|]. split; [exact P|]. rewrite E, dec2_mulByB by assumption. congruence. Qed.
Lemma R_half x v : R2 x v -> R2 (fp2_mulByFq x twoInv) (sc63x v itwo).
Proof.
  intros (C & O & D). destruct itwo_d as [I1 I2]. destruct (x_sc v itwo O I1) as [P E]. split; [auto with canon|]. split; [exact P|].
  rewrite E, dec2_mulByFq by auto with canon. congruence.
Qed.
#[local] Hint Resolve R_add R_sub R_mul R_sqr R_dbl R_neg R_mulB R_half : r63.
Definition j63 : Type := (t2 * t2 * t2)%type.
Definition RJ63 (r : g2) (v : j63) : Prop := R2 (jx r) (fst (fst v)) /\ R2 (jy r) (snd (fst v)) /\ R2 (jz r) (snd v).
Definition RC63 (c : ellc) (v : j63) : Prop := R2 (fst (fst c)) (fst (fst v)) /\ R2 (snd (fst c)) (snd (fst v)) /\ R2 (snd c) (snd v).
Definition dbl63 (r : j63) : j63 * j63 :=
  let '(x, y, z) := r in
  let t0 := sc63x (mul63x x y) itwo in
  let t1 := sqr63x y in
  let t2 := sqr63x z in
  let t7 := add63x (add63x t2 t2) t2 in
  let t3 := mulB63x t7 in
  let t4 := add63x (add63x t3 t3) t3 in
  let t5 := sc63x (add63x t1 t4) itwo in
  let t6 := sub63x (sqr63x (add63x y z)) (add63x t2 t1) in
  let coeff0 := sub63x t3 t1 in
  let t7 := sqr63x x in
  let rx := mul63x (sub63x t1 t4) t0 in
  let s3 := sqr63x t3 in
  let ry := sub63x (sqr63x t5) (add63x (add63x s3 s3) s3) in
  let rz := mul63x t1 t6 in
  ((coeff0, add63x (add63x t7 t7) t7, neg63x t6), (rx, ry, rz)).
Lemma dbl63_ok r v : RJ63 r v -> RC63 (fst (doubling_step r)) (fst (dbl63 v)) /\ RJ63 (snd (doubling_step r)) (snd (dbl63 v)).
Proof.
  destruct v as [[x y] z]. intros (X & Y & Z). cbn [fst snd] in *. unfold doubling_step, dbl_t0, dbl_t3, dbl_t6, dbl63, RC63, RJ63. cbv zeta. cbn [fst snd jx jy jz].
  split; split; [|split| |split]; auto 20 with r63.
Qed.
Definition add63s (r q : j63) : j63 * j63 :=
  let '(x, y, z) := r in let '(qx, qy, _) := q in
  let t0 := add63x (neg63x (mul63x qy z)) y in
  let t1 := add63x (neg63x (mul63x qx z)) x in
  let t2 := sqr63x t0 in
  let t3 := sqr63x t1 in
  let t4 := mul63x t1 t3 in
  let t2 := mul63x z t2 in
  let t3 := mul63x x t3 in
  let t5 := add63x (sub63x t4 (add63x t3 t3)) t2 in
  let rx := mul63x t1 t5 in
  let ry := sub63x (mul63x (sub63x t3 t5) t0) (mul63x y t4) in
  let rz := mul63x z t4 in
  ((sub63x (mul63x t0 qx) (mul63x t1 qy), neg63x t0, t1), (rx, ry, rz)).
Lemma add63s_ok r v q w : RJ63 r v -> RJ63 q w -> RC63 (fst (addition_step r q)) (fst (add63s v w)) /\ RJ63 (snd (addition_step r q)) (snd (add63s v w)).
Proof.
  destruct v as [[x y] z], w as [[qx qy] qz]. intros (X & Y & Z) (QX & QY & _). cbn [fst snd] in *. unfold addition_step, add63s, RC63, RJ63. cbv zeta. cbn [fst snd jx jy jz].
  split; split; [|split| |split]; auto 20 with r63.
Qed.
Fixpoint pre63 (n : nat) (r q : j63) : list j63 :=
  match n with
  | O => []
  | S i =>
      let cr := dbl63 r in
      if eff_bit i then let cr' := add63s (snd cr) q in fst cr :: fst cr' :: pre63 i (snd cr') q
      else fst cr :: pre63 i (snd cr) q
  end.
Lemma pre63_ok q w : RJ63 q w -> forall n r v, RJ63 r v -> Forall2 RC63 (pre_loop n r q) (pre63 n v w).
Proof.
  intros Q. induction n as [|n IH]; intros r v R; [constructor|]. cbn [pre_loop pre63]. cbv zeta. destruct (dbl63_ok r v R) as [A B].
  destruct (eff_bit n).
  - destruct (add63s_ok _ _ q w B Q) as [C D]. constructor; [exact A|]. constructor; [exact C|]. apply IH, D.
  - constructor; [exact A|]. apply IH, B.
Qed.

(** * Fp6 and Fp12 *)
Definition t6 : Type := (t2 * t2 * t2)%type.
Definition t12 : Type := (t6 * t6)%type.
Definition ok6 (a : t6) : Prop := ok63x (fst (fst a)) /\ ok63x (snd (fst a)) /\ ok63x (snd a).
Definition dd6 (a : t6) : Fp6 := mkFp6 (d63x (fst (fst a))) (d63x (snd (fst a))) (d63x (snd a)).
Definition ok12 (a : t12) : Prop := ok6 (fst a) /\ ok6 (snd a).
Definition dd12 (a : t12) : Fp12 := mkFp12 (dd6 (fst a)) (dd6 (snd a)).
Definition add6 (a b : t6) : t6 := let '(a0, a1, a2) := a in let '(b0, b1, b2) := b in (add63x a0 b0, add63x a1 b1, add63x a2 b2).
Definition sub6 (a b : t6) : t6 := let '(a0, a1, a2) := a in let '(b0, b1, b2) := b in (sub63x a0 b0, sub63x a1 b1, sub63x a2 b2).
Definition neg6 (a : t6) : t6 := let '(a0, a1, a2) := a in (neg63x a0, neg63x a1, neg63x a2).
Definition v6 (a : t6) : t6 := let '(a0, a1, a2) := a in (xi63x a2, a0, a1).
Definition mul6 (a b : t6) : t6 :=
  let '(a0, a1, a2) := a in let '(b0, b1, b2) := b in
  let m0 := mul63x a0 b0 in let m1 := mul63x a1 b1 in let m2 := mul63x a2 b2 in
  let s0 := sub63x (mul63x (add63x a1 a2) (add63x b1 b2)) (add63x m1 m2) in
  let s1 := sub63x (mul63x (add63x a0 a1) (add63x b0 b1)) (add63x m0 m1) in
  let s2 := sub63x (mul63x (add63x a0 a2) (add63x b0 b2)) (add63x m0 m2) in
  (add63x m0 (xi63x s0), add63x s1 (xi63x m2), add63x s2 m1).
Ltac k63 := repeat match goal with
  | H : ok63x ?a, H' : ok63x ?b |- context [add63x ?a ?b] => lazymatch goal with _ : ok63x (add63x a b) |- _ => fail | _ => let A := fresh in let B := fresh "B" in destruct (x_add a b H H') as [A B] end
  | H : ok63x ?a, H' : ok63x ?b |- context [sub63x ?a ?b] => lazymatch goal with _ : ok63x (sub63x a b) |- _ => fail | _ => let A := fresh in let B := fresh "B" in destruct (x_sub a b H H') as [A B] end
  | H : ok63x ?a, H' : ok63x ?b |- context [mul63x ?a ?b] => lazymatch goal with _ : ok63x (mul63x a b) |- _ => fail | _ => let A := fresh in let B := fresh "B" in destruct (x_mul a b H H') as [A B] end
  | H : ok63x ?a |- context [xi63x ?a] => lazymatch goal with _ : ok63x (xi63x a) |- _ => fail | _ => let A := fresh in let B := fresh "B" in destruct (x_xi a H) as [A B] end
  | H : ok63x ?a |- context [neg63x ?a] => lazymatch goal with _ : ok63x (neg63x a) |- _ => fail | _ => let A := fresh in let B := fresh "B" in destruct (x_neg a H) as [A B] end
  end.
Ltac q63 := repeat match goal with H : d63x ?x = _ |- context [d63x ?x] => rewrite H end.
Ltac s63 := repeat match goal with a : t6 |- _ => destruct a as [[? ?] ?] end; unfold ok6; cbn [fst snd]; intros;
  repeat match goal with H : _ /\ _ |- _ => destruct H end;
  unfold add6, sub6, neg6, v6, mul6; cbv zeta; cbn [fst snd]; k63; split; [cbn [fst snd]; split; [|split]; assumption|];
  unfold dd6; cbn [fst snd]; q63; apply F6_eq; f6_unf; ring.
Lemma add6_ok a b : ok6 a -> ok6 b -> ok6 (add6 a b) /\ dd6 (add6 a b) = F6add (dd6 a) (dd6 b). Proof. s63. Qed.
Lemma sub6_ok a b : ok6 a -> ok6 b -> ok6 (sub6 a b) /\ dd6 (sub6 a b) = F6sub (dd6 a) (dd6 b). Proof. s63. Qed.
Lemma neg6_ok a : ok6 a -> ok6 (neg6 a) /\ dd6 (neg6 a) = F6opp (dd6 a). Proof. s63. Qed.
Lemma v6_ok a : ok6 a -> ok6 (v6 a) /\ dd6 (v6 a) = F6mul F6v (dd6 a). Proof. s63. Qed.
Lemma mul6_ok a b : ok6 a -> ok6 b -> ok6 (mul6 a b) /\ dd6 (mul6 a b) = F6mul (dd6 a) (dd6 b). Proof. s63. Qed.
Add Field F6_fieldPC : F6_field.
Definition mul12 (a b : t12) : t12 :=
  let '(a0, a1) := a in let '(b0, b1) := b in
  let m0 := mul6 a0 b0 in let m1 := mul6 a1 b1 in
  (add6 m0 (v6 m1), sub6 (mul6 (add6 a0 a1) (add6 b0 b1)) (add6 m0 m1)).
Definition sqr12 (a : t12) : t12 :=
  let '(a0, a1) := a in
  let m := mul6 a0 a1 in
  (sub6 (mul6 (add6 a0 a1) (add6 a0 (v6 a1))) (add6 m (v6 m)), add6 m m).
Definition conj12 (a : t12) : t12 := (fst a, neg6 (snd a)).
Lemma mul12_ok a b : ok12 a -> ok12 b -> ok12 (mul12 a b) /\ dd12 (mul12 a b) = F12mul (dd12 a) (dd12 b).
Proof.
  destruct a as [a0 a1], b as [b0 b1]. intros [A0 A1] [B0 B1]. cbn [fst snd] in *. unfold mul12. cbv zeta.
  destruct (mul6_ok _ _ A0 B0) as [M0 E0], (mul6_ok _ _ A1 B1) as [M1 E1']. destruct (v6_ok _ M1) as [V1 EV].
  destruct (add6_ok _ _ A0 A1) as [S0 ES0], (add6_ok _ _ B0 B1) as [S1 ES1]. destruct (mul6_ok _ _ S0 S1) as [P EP]. destruct (add6_ok _ _ M0 M1) as [Q EQ].
  destruct (sub6_ok _ _ P Q) as [S ES]. destruct (add6_ok _ _ M0 V1) as [L EL]. split; [split; assumption|].
  unfold dd12. cbn [fst snd]. rewrite ES, EL, EP, EQ, ES0, ES1, EV, E0, E1'. generalize (dd6 a0) (dd6 a1) (dd6 b0) (dd6 b1). intros. apply F12_eq; f12_unf; ring.
Qed.
Lemma sqr12_ok a : ok12 a -> ok12 (sqr12 a) /\ dd12 (sqr12 a) = F12mul (dd12 a) (dd12 a).
Proof.
  destruct a as [a0 a1]. intros [A0 A1]. cbn [fst snd] in *. unfold sqr12. cbv zeta.
  destruct (mul6_ok _ _ A0 A1) as [M E]. destruct (v6_ok _ M) as [V EV]. destruct (v6_ok _ A1) as [V1 EV1].
  destruct (add6_ok _ _ A0 A1) as [S0 ES0], (add6_ok _ _ A0 V1) as [S1 ES1]. destruct (mul6_ok _ _ S0 S1) as [P EP]. destruct (add6_ok _ _ M V) as [Q EQ].
  destruct (sub6_ok _ _ P Q) as [S ES]. destruct (add6_ok _ _ M M) as [L EL]. split; [split; assumption|].
  unfold dd12. cbn [fst snd]. rewrite ES, EL, EP, EQ, ES0, ES1, EV, EV1, E. generalize (dd6 a0) (dd6 a1). intros. apply F12_eq; f12_unf; ring.
Qed.
Lemma conj12_ok a : ok12 a -> ok12 (conj12 a) /\ dd12 (conj12 a) = F12conj (dd12 a).
Proof. destruct a as [a0 a1]. intros [A0 A1]. cbn [fst snd] in *. destruct (neg6_ok _ A1) as [N E]. split; [split; assumption|]. unfold dd12, conj12. cbn [fst snd]. rewrite E. reflexivity. Qed.
Definition one12 : t12 := ((one63x, zero63x, zero63x), (zero63x, zero63x, zero63x)).
Lemma one12_ok : ok12 one12 /\ dd12 one12 = F12_1.
Proof. destruct x_one as [O1 O2], x_zero as [Z1 Z2]. unfold one12, ok12, ok6, dd12, dd6. cbn [fst snd]. rewrite O2, Z2. auto 10. Qed.

(** * the Miller loop on one pair *)
Definition R12 (f : fp12) (v : t12) : Prop := canon12 f /\ ok12 v /\ dec12 f = dd12 v.
Definition ell63 (x y : list int) (f : t12) (c : j63) : t12 :=
  let '(c0, c1, c2) := c in mul12 f ((c0, sc63x c1 x, zero63x), (zero63x, sc63x c2 y, zero63x)).
Lemma ell63_ok f v c w (p : g1) x y : R12 f v -> RC63 c w -> canon (jx p) -> canon (jy p) -> ok63 x -> ok63 y -> dec (jx p) = d63 x -> dec (jy p) = d63 y ->
  R12 (ell f c p) (ell63 x y v w).
Proof.
  destruct w as [[w0 w1] w2]. intros (C & O & D) ((A0 & A1 & A2) & (B0 & B1 & B2) & (G0 & G1 & G2)) CX CY OX OY DX DY. cbn [fst snd] in *.
  destruct (ell_ok f (dd12 v) c p (conj C D) A0 B0 G0 CX CY) as [CE DE]. split; [exact CE|].
  destruct (x_sc w1 x B1 OX) as [S1 E1'], (x_sc w2 y G1 OY) as [S2 E2'], x_zero as [Z1 Z2].
  assert (OL : ok12 ((w0, sc63x w1 x, zero63x), (zero63x, sc63x w2 y, zero63x))) by (unfold ok12, ok6; cbn [fst snd]; auto 10).
  destruct (mul12_ok v _ O OL) as [OM EM]. split; [exact OM|]. unfold ell63. rewrite EM, DE. apply (f_equal (F12mul (dd12 v))).
  unfold cval, dd12, dd6. cbn [fst snd]. rewrite E1', E2', Z2, DX, DY, A2, B2, G2. reflexivity.
Qed.
Fixpoint mil63 (x y : list int) (n : nat) (cs : list j63) (f : t12) : t12 :=
  match n with
  | O => f
  | S i =>
      let f := if (i =? 62)%nat then f else sqr12 f in
      match cs with
      | [] => f
      | c :: cs =>
          let f := ell63 x y f c in
          if eff_bit i then match cs with [] => f | c :: cs => mil63 x y i cs (ell63 x y f c) end else mil63 x y i cs f
      end
  end.
Lemma mil63_ok (p : g1) x y : canon (jx p) -> canon (jy p) -> ok63 x -> ok63 y -> dec (jx p) = d63 x -> dec (jy p) = d63 y ->
  forall n cs cs', Forall2 RC63 cs cs' -> length cs = plen n -> forall C done k f v, C = done ++ cs -> length done = k -> R12 f v ->
  exists f', mil_loop n k [(p, C)] f = Ok f' /\ R12 f' (mil63 x y n cs' v).
Proof.
  intros CX CY OX OY DX DY. induction n as [|n IH]; intros cs cs' F L C done k f v E K R.
  - exists f. split; [reflexivity|exact R].
  - cbn [mil_loop mil63]. cbv zeta.
    assert (R1 : R12 (if (n =? 62)%nat then f else fp12_sqr f) (if (n =? 62)%nat then v else sqr12 v)).
    { destruct (n =? 62)%nat; [exact R|]. destruct R as (A & B & D). destruct (sqr12_ok v B) as [O' E']. split; [auto with canon|]. split; [exact O'|]. rewrite E', dec12_sqr, D by assumption. reflexivity. }
    revert R1. generalize (if (n =? 62)%nat then f else fp12_sqr f) (if (n =? 62)%nat then v else sqr12 v). clear R f v. intros f v R.
    cbn [plen] in L. destruct (eff_bit n).
    + destruct F as [|c1 w1 cs cs' H1 F]; [discriminate L|]. destruct F as [|c2 w2 cs cs' H2 F]; [discriminate L|].
      cbn [ell_all]. rewrite E, (nth_done done c1 _ k K), (nth_done2 done c1 c2 _ k K). cbn [obind]. rewrite <- E.
      apply (IH cs cs' F) with (done := done ++ [c1; c2]); [cbn [length] in L; lia|rewrite E, <- app_assoc; reflexivity|rewrite app_length, K; cbn; lia|].
      apply ell63_ok; auto. apply ell63_ok; auto.
    + destruct F as [|c1 w1 cs cs' H1 F]; [discriminate L|].
      cbn [ell_all]. rewrite E, (nth_done done c1 _ k K). cbn [obind]. rewrite <- E.
      apply (IH cs cs' F) with (done := done ++ [c1]); [cbn [length] in L; lia|rewrite E, <- app_assoc; reflexivity|rewrite app_length, K; cbn; lia|].
      apply ell63_ok; auto.
Qed.
Definition gp : g1 := mkJ (enc (Fof GX)) (enc (Fof GY)) fp_one.
Definition gq : g2 := mkJ (enc2 (mkFp2 (Fof QXa) (Fof QXb))) (enc2 (mkFp2 (Fof QYa) (Fof QYb))) fp2_one.
Lemma g_apair : apair (gp, gq) (G1gen, G2gen).
Proof.
  split; [apply canon_enc|]. split; [apply canon_enc|]. split; [unfold gp; cbn [fst jx jy]; rewrite !dec_enc; reflexivity|].
  split; [split; [apply canon2_enc|]; split; [apply canon2_enc|]; unfold gq; cbn [snd jx jy]; rewrite !dec2_enc; reflexivity|].
  split; [split; [exact canon2_one|exact dec2_one]|exact G2gen_r].
Qed.
Definition iq : j63 := ((iQXa, iQXb), (iQYa, iQYb), one63x).
Lemma iq_ok : RJ63 gq iq.
Proof.
  destruct iQXa_d as [A1 A2], iQXb_d as [B1 B2], iQYa_d as [C1 C2], iQYb_d as [D1 D2], x_one as [O1 O2].
  split; [|split]; unfold gq, iq; cbn [fst snd jx jy jz].
  - split; [apply canon2_enc|]. split; [split; assumption|]. rewrite dec2_enc. unfold d63x. cbn [fst snd]. rewrite A2, B2. reflexivity.
  - split; [apply canon2_enc|]. split; [split; assumption|]. rewrite dec2_enc. unfold d63x. cbn [fst snd]. rewrite C2, D2. reflexivity.
  - split; [exact canon2_one|]. split; [exact O1|]. rewrite O2. exact dec2_one.
Qed.
Definition m63 : t12 := conj12 (mil63 iGX iGY 63 (pre63 63 iq iq) one12).
Lemma m63_ok : ok12 m63 /\ exists f, miller_loop [(gp, gq)] = Ok f /\ rep12 f (dd12 m63).
Proof.
  destruct iGX_d as [X1 X2], iGY_d as [Y1 Y2].
  pose proof (pre63_ok gq iq iq_ok 63 gq iq iq_ok) as F. pose proof (pre_len 63 gq gq) as L.
  assert (PC : pre_compute gq = Ok (pre_loop 63 gq gq)) by (apply pre_ok, jz_one_nz; split; [exact canon2_one|exact dec2_one]).
  unfold miller_loop. cbn [pre_all]. rewrite PC. cbn [obind]. unfold m63. revert F L. generalize (pre_loop 63 gq gq) (pre63 63 iq iq). intros cs cs' F L.
  destruct one12_ok as [O1 O2].
  destruct (mil63_ok gp iGX iGY (canon_enc _) (canon_enc _) X1 Y1) with (n := 63%nat) (cs := cs) (cs' := cs') (C := cs) (done := @nil ellc) (k := 0%nat) (f := fp12_one) (v := one12) as (f & E & C & O & D).
  - unfold gp. cbn [jx]. rewrite dec_enc. symmetry. exact X2.
  - unfold gp. cbn [jy]. rewrite dec_enc. symmetry. exact Y2.
  - exact F.
  - exact L.
  - reflexivity.
  - reflexivity.
  - split; [exact canon12_one|]. split; [exact O1|]. rewrite O2. exact dec12_one.
  - destruct (conj12_ok _ O) as [OC EC]. split; [exact OC|]. rewrite E. cbn [obind]. exists (fp12_conj f). split; [reflexivity|].
    split; [apply canon12_conj, C|]. rewrite EC, dec12_conj, D by exact C. reflexivity.
Qed.
Opaque m63 final_exponentiation miller_loop.
Lemma gen_pair_ev : dd12 m63 <> F12_0 -> epair G1gen G2gen = ev (dd12 m63).
Proof.
  intros N. destruct m63_ok as (O & f & E & R). destruct (calculate_ok [(gp, gq)] [(G1gen, G2gen)]) as (h & Eh & Rh); [constructor; [exact g_apair|constructor]|].
  unfold calculate in Eh. rewrite E in Eh. cbn [obind] in Eh. pose proof (final_ok f _ N R) as R'. assert (EH : final_exponentiation f = h) by congruence. clear Eh.
  rewrite EH in R'. clear EH E R. destruct Rh as [_ Dh], R' as [_ D']. rewrite Dh in D'. apply uval_inj in D'. rewrite <- D'. clear D' Dh.
  cbn [map fst snd]. generalize (epair G1gen G2gen). intros u. symmetry. exact (g_id_r u).
Qed.
Definition minv : t12 :=
  ((([124335764; 233128017; 35965252; 90333456; 192331318; 122908156; 178337472; 232143392; 266543265; 181162068; 86984369; 218570459; 48876893; 64889]%uint63, [109862790; 261443010; 152231698; 76420281; 98076226; 206537211; 103280601; 240497745; 59884429; 81145965; 251743063; 225891321; 254555846; 102320]%uint63),
    ([186218690; 33719698; 180768756; 227711257; 138900629; 157858233; 236168844; 157945430; 213859834; 31803645; 63789352; 187494241; 140535632; 4057]%uint63, [41711690; 139589396; 224138246; 215424239; 11085056; 163908707; 97394; 239479232; 202381222; 259682140; 175742968; 10016808; 172241979; 62802]%uint63),
    ([24185958; 78153507; 110613513; 18106503; 212531494; 204782385; 32401660; 131044017; 20288671; 152135653; 99243970; 18002939; 128223714; 34448]%uint63, [38639408; 76911994; 123710952; 144112463; 194428882; 13200944; 214849017; 49158124; 171340367; 252907416; 30061229; 189345466; 166965170; 82359]%uint63)),
   (([246616138; 149503606; 85507344; 197946532; 137837914; 118595296; 12504004; 105539352; 251426989; 257434930; 138885117; 200232225; 41732733; 91398]%uint63, [16594172; 67604112; 76465638; 82745074; 18500843; 156927770; 84305609; 172113934; 200069361; 43542875; 183842867; 148826975; 153127757; 61441]%uint63),
    ([150415244; 145849927; 42809142; 249924448; 158411466; 145468299; 238682882; 169434704; 117761752; 79825791; 149038113; 251082326; 131562529; 58424]%uint63, [153721755; 67614451; 110974326; 212092766; 242437650; 12734450; 255059875; 221446275; 187108955; 140736632; 9654347; 136872496; 104982818; 42203]%uint63),
    ([3930482; 11962552; 265938174; 113232017; 197449202; 169307068; 220070517; 160196472; 251642707; 203043504; 78470600; 52944801; 141988638; 81989]%uint63, [21939577; 70096476; 12356908; 266540187; 144665648; 101763029; 213887255; 7433574; 94250453; 147742218; 221355391; 222039297; 129540954; 65574]%uint63))).
Definition ok12b (a : t12) : bool :=
  let o (x : t2) := okb63 (fst x) && okb63 (snd x) in let o6 (x : t6) := o (fst (fst x)) && o (snd (fst x)) && o (snd x) in o6 (fst a) && o6 (snd a).
Lemma ok12b_ok a : ok12b a = true -> ok12 a.
Proof.
  unfold ok12b, ok12, ok6, ok63x. rewrite !andb_true_iff. intuition; apply okb63_ok; assumption.
Qed.
Lemma minv_ok : ok12 minv. Proof. apply ok12b_ok. vm_compute. reflexivity. Qed.
Definition eq6 (a b : t6) : bool := eq63x (fst (fst a)) (fst (fst b)) && eq63x (snd (fst a)) (snd (fst b)) && eq63x (snd a) (snd b).
Definition eq12 (a b : t12) : bool := eq6 (fst a) (fst b) && eq6 (snd a) (snd b).
Lemma eq6_d a b : ok6 a -> ok6 b -> eq6 a b = true <-> dd6 a = dd6 b.
Proof.
  intros (A0 & A1 & A2) (B0 & B1 & B2). unfold eq6. rewrite !andb_true_iff, !eq63x_d by assumption. unfold dd6. split.
  - intros [[-> ->] ->]. reflexivity.
  - intros H. split; [split|]; [exact (f_equal co0 H)|exact (f_equal co1 H)|exact (f_equal co2 H)].
Qed.
Lemma eq12_d a b : ok12 a -> ok12 b -> eq12 a b = true <-> dd12 a = dd12 b.
Proof.
  intros (A0 & A1) (B0 & B1). unfold eq12. rewrite andb_true_iff, !eq6_d by assumption. unfold dd12. split.
  - intros [-> ->]. reflexivity.
  - intros H. split; [exact (f_equal lo H)|exact (f_equal hi H)].
Qed.

(** * the final exponentiation *)
(** Frobenius maps *)
Definition conj2 (k : bool) (x : t2) : t2 := if k then conj63 x else x.
Lemma conj2_ok k x : ok63x x -> ok63x (conj2 k x) /\ d63x (conj2 k x) = cj k (d63x x).
Proof. intros H. destruct k; [apply conj63_d, H|auto]. Qed.
Definition fr6 (k : bool) (c : t2) (a : t6) : t6 := let '(a0, a1, a2) := a in (conj2 k a0, mul63x c (conj2 k a1), mul63x (mul63x c c) (conj2 k a2)).
Lemma fr6_ok k c a : ok63x c -> ok6 a -> ok6 (fr6 k c a) /\ dd6 (fr6 k c a) = frob6 k (d63x c) (dd6 a).
Proof.
  destruct a as [[a0 a1] a2]. intros C (A0 & A1 & A2). cbn [fst snd] in *. unfold fr6.
  destruct (conj2_ok k _ A0) as [B0 E0], (conj2_ok k _ A1) as [B1 E1'], (conj2_ok k _ A2) as [B2 E2']. destruct (x_mul c c C C) as [CC EC].
  destruct (x_mul _ _ C B1) as [M1 F1'], (x_mul _ _ CC B2) as [M2 F2'].
  split; [split; [|split]; assumption|]. unfold dd6, frob6. cbn [fst snd co0 co1 co2]. rewrite F1', F2', EC, E0, E1', E2'. reflexivity.
Qed.
Definition sc6 (c : t2) (a : t6) : t6 := let '(a0, a1, a2) := a in (mul63x c a0, mul63x c a1, mul63x c a2).
Lemma sc6_ok c a : ok63x c -> ok6 a -> ok6 (sc6 c a) /\ dd6 (sc6 c a) = F6mul (F6of (d63x c)) (dd6 a).
Proof.
  destruct a as [[a0 a1] a2]. intros C (A0 & A1 & A2). cbn [fst snd] in *. unfold sc6.
  destruct (x_mul _ _ C A0) as [M0 E0], (x_mul _ _ C A1) as [M1 E1'], (x_mul _ _ C A2) as [M2 E2'].
  split; [split; [|split]; assumption|]. unfold dd6. cbn [fst snd]. rewrite E0, E1', E2'. apply F6_eq; f6_unf; ring.
Qed.
Definition fr12 (k : bool) (c : t2) (a : t12) : t12 := let cc := mul63x c c in (fr6 k cc (fst a), sc6 c (fr6 k cc (snd a))).
Lemma fr12_ok k c a : ok63x c -> ok12 a -> ok12 (fr12 k c a) /\ dd12 (fr12 k c a) = frob12 k (d63x c) (dd12 a).
Proof.
  destruct a as [a0 a1]. intros C (A0 & A1). cbn [fst snd] in *. unfold fr12. cbv zeta. cbn [fst snd]. destruct (x_mul c c C C) as [CC EC].
  destruct (fr6_ok k _ _ CC A0) as [B0 E0], (fr6_ok k _ _ CC A1) as [B1 E1']. destruct (sc6_ok _ _ C B1) as [S1 ES].
  split; [split; assumption|]. unfold dd12, frob12. cbn [fst snd lo hi]. rewrite E0, ES, E1', EC. reflexivity.
Qed.
Definition idl1 : t2 := (ika, sub63 zero63 ika).
Definition idl2 : t2 := (ikz, zero63).
Lemma idl1_d : ok63x idl1 /\ d63x idl1 = dltk 1.
Proof.
  destruct ika_d as [A1 A2], zero63_d as [Z1 Z2]. destruct (d63_sub zero63 ika Z1 A1) as [S1 S2]. split; [split; assumption|].
  rewrite dltk_1. unfold d63x, idl1. cbn [fst snd]. rewrite S2, A2, Z2. apply F2_eq; cbn [re im]; ring.
Qed.
Lemma idl2_d : ok63x idl2 /\ d63x idl2 = dltk 2.
Proof. destruct ikz_d as [A1 A2], zero63_d as [Z1 Z2]. split; [split; assumption|]. rewrite dltk_2. unfold d63x, idl2. cbn [fst snd]. rewrite A2, Z2. reflexivity. Qed.
Definition frb1 (a : t12) : t12 := fr12 true idl1 a.
Definition frb2 (a : t12) : t12 := fr12 false idl2 a.
Lemma frb1_ok a : ok12 a -> ok12 (frb1 a) /\ dd12 (frb1 a) = F12pow (dd12 a) modulus.
Proof.
  intros A. destruct idl1_d as [I1 I2]. destruct (fr12_ok true idl1 a I1 A) as [O E]. split; [exact O|]. unfold frb1. rewrite E, I2.
  pose proof (F12_frobk (dd12 a) 1) as X. change (Z.of_nat 1) with 1 in X. rewrite Z.pow_1_r in X. symmetry. exact X.
Qed.
Lemma frb2_ok a : ok12 a -> ok12 (frb2 a) /\ dd12 (frb2 a) = F12pow (dd12 a) (modulus ^ 2).
Proof.
  intros A. destruct idl2_d as [I1 I2]. destruct (fr12_ok false idl2 a I1 A) as [O E]. split; [exact O|]. unfold frb2. rewrite E, I2.
  symmetry. exact (F12_frobk (dd12 a) 2).
Qed.
(** x^|z|: the bits of |z| below the top one *)
Fixpoint sqm (a : t12) (bs : list bool) (f : t12) : t12 := match bs with [] => f | b :: bs => let f := sqr12 f in sqm a bs (if b then mul12 f a else f) end.
Definition zbits : list bool := Eval vm_compute in map (fun i => Z.testbit 0xd201000000010000 (62 - Z.of_nat i)) (seq 0 63).
Definition bval (bs : list bool) (n : Z) : Z := fold_left (fun n (b : bool) => 2 * n + if b then 1 else 0) bs n.
Lemma zbits_val : bval zbits 1 = eff. Proof. vm_compute. reflexivity. Qed.
Section CR.
Variable g : U12.
Definition dr (a : t12) (n : Z) : Prop := ok12 a /\ dd12 a = uval (zmul n g).
Lemma dr_mul a b n m : dr a n -> dr b m -> dr (mul12 a b) (n + m).
Proof. intros [A E] [B F]. destruct (mul12_ok a b A B) as [O X]. split; [exact O|]. rewrite X, E, F, zmul_add, uval_op. reflexivity. Qed.
Lemma dr_sqr a n : dr a n -> dr (sqr12 a) (2 * n).
Proof. intros [A E]. destruct (sqr12_ok a A) as [O X]. split; [exact O|]. rewrite X, E, <- uval_op, <- zmul_add. replace (n + n) with (2 * n) by lia. reflexivity. Qed.
Lemma dr_sqm a n : dr a n -> forall bs f m, dr f (m * n) -> dr (sqm a bs f) (bval bs m * n).
Proof.
  intros A. induction bs as [|b bs IH]; intros f m F; [exact F|]. cbn [sqm bval fold_left]. apply IH.
  pose proof (dr_sqr _ _ F) as S. destruct b.
  - replace ((2 * m + 1) * n) with (2 * (m * n) + n) by ring. apply dr_mul; assumption.
  - replace ((2 * m + 0) * n) with (2 * (m * n)) by ring. exact S.
Qed.
Lemma dr_frb1 a n : dr a n -> dr (frb1 a) (modulus * n).
Proof. intros [A E]. destruct (frb1_ok a A) as [O X]. split; [exact O|]. rewrite X, E, zmul_mul. symmetry. apply uval_zmul. exact mod_pos'. Qed.
Lemma dr_frb2 a n : dr a n -> dr (frb2 a) (modulus ^ 2 * n).
Proof. intros [A E]. destruct (frb2_ok a A) as [O X]. split; [exact O|]. rewrite X, E, zmul_mul. symmetry. apply uval_zmul. exact p2_pos. Qed.
Hypothesis G : zmul (modulus ^ 4 - modulus ^ 2 + 1) g = gid.
Lemma dr_conj a n : dr a n -> dr (conj12 a) (- n).
Proof.
  intros [A E]. destruct (conj12_ok a A) as [O X]. split; [exact O|]. rewrite X, E, zmul_opp, uval_inv.
  pose proof (cyc_conj _ (cyc_n g G n)) as H. pose proof (uval_nz (zmul n g)) as N. revert H N. generalize (uval (zmul n g)). intros u H N.
  transitivity (F12mul (F12inv u) (F12mul u (F12conj u))); [field; exact N|]. rewrite H. ring.
Qed.
Definition expz (a : t12) : t12 := conj12 (sqm a zbits a).
Lemma dr_expz a n : dr a n -> dr (expz a) (Xz * n).
Proof.
  intros A. unfold expz. replace (Xz * n) with (- (eff * n)) by (rewrite eff_Xz; ring). apply dr_conj. rewrite <- zbits_val. apply dr_sqm; [exact A|].
  rewrite Z.mul_1_l. exact A.
Qed.
Lemma dr_eq a n m : dr a n -> n = m -> dr a m. Proof. intros H <-. exact H. Qed.
Definition hard63 (t : t12) : t12 :=
  let a1 := mul12 (expz t) (conj12 t) in
  let a2 := mul12 (expz a1) (conj12 a1) in
  let a3 := mul12 (expz a2) (frb1 a2) in
  let a4 := mul12 (mul12 (expz (expz a3)) (frb2 a3)) (conj12 a3) in
  mul12 a4 (mul12 (sqr12 t) t).
Lemma hard63_ok t : dr t 1 -> dr (hard63 t) h3.
Proof.
  intros T. unfold hard63. cbv zeta.
  pose proof (dr_mul _ _ _ _ (dr_expz _ _ T) (dr_conj _ _ T)) as A1. revert A1. generalize (mul12 (expz t) (conj12 t)). intros a1 A1.
  pose proof (dr_mul _ _ _ _ (dr_expz _ _ A1) (dr_conj _ _ A1)) as A2. revert A2. generalize (mul12 (expz a1) (conj12 a1)). intros a2 A2.
  pose proof (dr_mul _ _ _ _ (dr_expz _ _ A2) (dr_frb1 _ _ A2)) as A3. revert A3. generalize (mul12 (expz a2) (frb1 a2)). intros a3 A3.
  pose proof (dr_mul _ _ _ _ (dr_mul _ _ _ _ (dr_mul _ _ _ _ (dr_expz _ _ (dr_expz _ _ A3)) (dr_frb2 _ _ A3)) (dr_conj _ _ A3)) (dr_mul _ _ _ _ (dr_sqr _ _ T) T)) as R.
  apply (dr_eq _ _ _ R). clear. rewrite h3_def. generalize modulus Xz. intros p z. unfold H3. ring.
Qed.
End CR.
Definition easy63 (m mi : t12) : t12 := let t := mul12 (conj12 m) mi in mul12 (frb2 t) t.
Lemma easy63_ok m mi : ok12 m -> ok12 mi -> dd12 (mul12 m mi) = F12_1 -> dd12 m <> F12_0 /\ dr (toU (dd12 m)) (easy63 m mi) easyE.
Proof.
  intros O OI E. destruct (mul12_ok m mi O OI) as [_ X]. rewrite X in E. clear X.
  assert (N : dd12 m <> F12_0) by (intros Z; rewrite Z in E; apply F12_1_neq_0; rewrite <- E; ring). split; [exact N|].
  assert (T0 : dr (toU (dd12 m)) (conj12 m) (modulus ^ 6)).
  { destruct (conj12_ok m O) as [OC EC]. split; [exact OC|]. rewrite EC, uval_zmul, uval_toU; [symmetry; apply F12_p6|exact N|exact TowerRefine3.p6_pos]. }
  assert (T1 : dr (toU (dd12 m)) mi (-1)).
  { split; [exact OI|]. change (-1) with (- (1)). rewrite zmul_opp, zmul_1, uval_inv, uval_toU by exact N.
    revert E N. generalize (dd12 m) (dd12 mi). intros a b E N. transitivity (F12mul (F12inv a) (F12mul a b)); [field; exact N|]. rewrite E. ring. }
  pose proof (dr_mul _ _ _ _ _ T0 T1) as T. unfold easy63. cbv zeta. revert T. generalize (mul12 (conj12 m) mi). intros t T.
  apply (dr_eq _ _ _ _ (dr_mul _ _ _ _ _ (dr_frb2 _ _ _ T) T)). unfold easyE. generalize modulus. intros p. ring.
Qed.
Lemma comp_inv : eq12 (mul12 m63 minv) one12 = true. Proof. vm_cast_no_check (eq_refl true). Qed.
Lemma comp_fin : eq12 (hard63 (easy63 m63 minv)) one12 = false. Proof. vm_cast_no_check (eq_refl false). Qed.
Theorem gen_pair_nz : epair G1gen G2gen <> gid.
Proof.
  destruct m63_ok as [O _]. destruct one12_ok as [O1 O2]. pose proof minv_ok as OI. destruct (mul12_ok m63 minv O OI) as [OM _].
  pose proof comp_inv as CI. apply eq12_d in CI; [|exact OM|exact O1]. rewrite O2 in CI.
  destruct (easy63_ok m63 minv O OI CI) as [N D]. rewrite (gen_pair_ev N). intros E.
  assert (D1' : dr (zmul easyE (toU (dd12 m63))) (easy63 m63 minv) 1) by (destruct D as [A B]; split; [exact A|]; rewrite zmul_1; exact B).
  destruct (hard63_ok _ (easy_cyc _) _ D1') as [OH EH]. rewrite <- zmul_mul, (Z.mul_comm h3), <- fexp_def, <- ev_def, E, uval_id, <- O2 in EH.
  apply eq12_d in EH; [|exact OH|exact O1]. rewrite comp_fin in EH. discriminate EH.
Qed.
