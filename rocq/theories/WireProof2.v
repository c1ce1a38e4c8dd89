(** Sums that are the identity: the exact coordinates the code returns for p + (-p); strings that stand for a point. *)
From Coq Require Import ZArith Znumtheory List Bool Lia Field.
From Verif Require Import SpecField SpecBytes SpecCurve SpecWire.
From Verif Require Import ModelWord ModelScalar ModelFp ModelTower ModelCurve ModelCodec.
From Verif Require Import FieldProof TowerProof FpProof FpProof2 TowerRefine AbGroup CurveProof CurveRefine CurveRefine2 CurveInst CurveReps Orders Cofactor CurveBase SigProof CodecProof2 WireProof.
Import ListNotations.

Section Opp.
Context {T : Type} (o : fops T) (K : fieldOps) (C : T -> Prop) (d : T -> car K).
Hypothesis HR : represents o K C d.
Hypothesis Kf : field_theory (k0 : car K) k1 kadd kmul ksub kopp (fun x y => kmul x (kinv y)) kinv eq.
Hypothesis two_nz : kadd (k1 : car K) k1 <> k0.
Add Field KFO : Kf.
Lemma k_add_opp (p q : jac (car K)) u v : v <> k0 -> jpt p = Aff u v -> jpt q = Aff u (kopp v) -> j_add (kops K) p q = j_zero (kops K).
Proof.
  intros NV Ep Eq. unfold j_add. destruct (j_isZero (kops K) p) eqn:Z. { apply jpt_isZero in Z. congruence. }
  destruct (j_isZero (kops K) q) eqn:Z'. { apply jpt_isZero in Z'. congruence. }
  cbv zeta. destruct (jpt_inv Kf _ _ _ Ep) as (Nz & Ex & Ey). destruct (jpt_inv Kf _ _ _ Eq) as (Nz' & Ex' & Ey').
  generalize (j_dbl (kops K) p). intros pd. destruct p as [x y z], q as [x' y' z']. cbn [jx jy jz] in *. clear Ep Eq Z Z'. subst x y x' y'.
  cbn [kops f_add f_sub f_mul f_sqr f_dbl f_eq].
  match goal with |- (if (if keq ?a ?c then _ else _) then _ else _) = _ => destruct (keq a c) as [_|N] end; [|elim N; ring].
  match goal with |- (if (if keq ?a ?c then _ else _) then _ else _) = _ => destruct (keq a c) as [E1|_] end; [|reflexivity].
  exfalso. pose proof (nz2 Kf _ _ Nz Nz') as NN.
  assert (N3 : kmul (kmul (kmul z z) z) (kmul (kmul z' z') z') <> k0) by (intros H; apply (nz2 Kf _ _ NN (nz2 Kf _ _ NN NN)); rewrite <- H; ring).
  apply NV, (k_half K Kf two_nz), (k_cancel_r Kf _ _ _ N3).
  transitivity (ksub (kmul v (kmul (kmul (kmul z z) z) (kmul (kmul z' z') z'))) (kmul (kopp v) (kmul (kmul (kmul z z) z) (kmul (kmul z' z') z')))); [ring|].
  transitivity (ksub (kmul v (kmul (kmul (kmul z z) z) (kmul (kmul z' z') z'))) (kmul (kmul (kopp v) (kmul z' (kmul z' z'))) (kmul z (kmul z z)))); [ring|].
  match type of E1 with ?a = ?c => transitivity (ksub c a); [ring|rewrite E1; ring] end.
Qed.
Hypothesis d_inj : forall x y, C x -> C y -> d x = d y -> x = y.
Lemma j_add_opp p q u v : v <> k0 -> jrep K C d p (Aff u v) -> jrep K C d q (Aff u (kopp v)) -> j_add o p q = j_zero o.
Proof.
  intros NV Hp Hq. apply (jrep_iff K C d Kf) in Hp, Hq. destruct Hp as [A1 A2], Hq as [B1 B2].
  pose proof (j_add_R o K C d HR _ _ _ _ (RJ_dec K C d p A1) (RJ_dec K C d q B1)) as X. rewrite (k_add_opp _ _ u v NV A2 B2) in X.
  pose proof (j_zero_R o K C d HR) as Y. destruct X as ((X1 & X2) & (X3 & X4) & X5 & X6), Y as ((Y1 & Y2) & (Y3 & Y4) & Y5 & Y6).
  destruct (j_add o p q) as [x y z]. destruct (j_zero o) as [x' y' z']. cbn [jx jy jz] in *. f_equal; apply d_inj; congruence.
Qed.
End Opp.

Local Open Scope Z_scope.
Lemma add_opp1 p q (P : E1) : P <> gid -> rep1g p P -> rep1g q (ginv P) -> g1_add p q = g1_zero.
Proof.
  intros N Hp Hq. pose proof (cpt_on (b := b1) P) as O. unfold rep1g, rep1 in *. change (cpt (b := b1) (ginv P)) with (pneg (K := KFp) (cpt (b := b1) P)) in Hq.
  destruct (cpt (b := b1) P) as [|u v] eqn:E; [elim N; apply curve_eq; exact E|]. cbn [pneg] in Hq.
  exact (j_add_opp fp_ops KFp canon dec fp_represents KFp_field KFp_two dec_inj p q u v (no2_1 u v O) Hp Hq).
Qed.
Lemma add_opp2 p q (P : E2) : P <> gid -> rep2g p P -> rep2g q (ginv P) -> g2_add p q = g2_zero.
Proof.
  intros N Hp Hq. pose proof (cpt_on (b := b2) P) as O. unfold rep2g, rep2c in *. change (cpt (b := b2) (ginv P)) with (pneg (K := KFp2) (cpt (b := b2) P)) in Hq.
  destruct (cpt (b := b2) P) as [|u v] eqn:E; [elim N; apply curve_eq; exact E|]. cbn [pneg] in Hq.
  exact (j_add_opp fp2_ops KFp2 canon2 dec2 fp2_represents KFp2_field KFp2_two dec2_inj p q u v (no2_2 u v O) Hp Hq).
Qed.
(** a string stands for at most one point *)
Lemma stands1_fun b (P Q : E1) : stands1 b P -> stands1 b Q -> P = Q.
Proof.
  intros HP HQ. pose proof HP as (B & L & _). apply (dec1_iff _ _ B L) in HP. apply (dec1_iff _ _ B L) in HQ.
  destruct HP as (p & Ep & Rp). destruct HQ as (q & Eq & Rq). rewrite Ep in Eq. injection Eq as <-. exact (rep1g_fun _ _ _ Rp Rq).
Qed.
