(** Maps (x, y) |-> (a phi(x), c phi(y)) between curves are group homomorphisms; automorphisms of order three. *)
From Coq Require Import ZArith List Bool Lia Field.
From Verif Require Import SpecCurve AbGroup CurveProof.
Import ListNotations.

Record fieldHom (K L : fieldOps) (phi : car K -> car L) : Prop := {
  h_1 : phi k1 = k1;
  h_add : forall x y, phi (kadd x y) = kadd (phi x) (phi y);
  h_mul : forall x y, phi (kmul x y) = kmul (phi x) (phi y) }.

Section Map.
Context (K L : fieldOps) (phi : car K -> car L).
Hypothesis Kf : field_theory (k0 : car K) k1 kadd kmul ksub kopp (fun x y => kmul x (kinv y)) kinv eq.
Hypothesis Lf : field_theory (k0 : car L) k1 kadd kmul ksub kopp (fun x y => kmul x (kinv y)) kinv eq.
Add Field KFm : Kf.
Add Field LFm : Lf.
Hypothesis H : fieldHom K L phi.
Declare Scope K_scope.
Notation "x + y" := (kadd x y) : K_scope. Notation "x - y" := (ksub x y) : K_scope. Notation "x * y" := (kmul x y) : K_scope.
Notation "- x" := (kopp x) : K_scope. Notation "0" := k0 : K_scope. Notation "1" := k1 : K_scope.
Local Open Scope K_scope.
Lemma h_0 : phi 0 = 0.
Proof.
  assert (E : phi 0 + phi 0 = phi 0). { rewrite <- (h_add _ _ _ H). f_equal. ring. }
  transitivity (phi 0 + phi 0 - phi 0); [ring|]. rewrite E. ring.
Qed.
Lemma h_opp x : phi (- x) = - phi x.
Proof.
  assert (E : phi (- x) + phi x = 0). { rewrite <- (h_add _ _ _ H). rewrite <- h_0. f_equal. ring. }
  transitivity (phi (- x) + phi x - phi x); [ring|]. rewrite E. ring.
Qed.
Lemma h_sub x y : phi (x - y) = phi x - phi y.
Proof. replace (x - y) with (x + - y) by ring. rewrite (h_add _ _ _ H), h_opp. ring. Qed.
Lemma h_nz x : x <> 0 -> phi x <> 0.
Proof.
  intros N E. apply (F_1_neq_0 Lf). rewrite <- (h_1 _ _ _ H). replace (1 : car K) with (x * kinv x) by (field; auto).
  rewrite (h_mul _ _ _ H), E. ring.
Qed.
Lemma h_inv x : x <> 0 -> phi (kinv x) = kinv (phi x).
Proof.
  intros N. pose proof (h_nz _ N) as N'. assert (E : phi x * phi (kinv x) = 1).
  { rewrite <- (h_mul _ _ _ H), <- (h_1 _ _ _ H). f_equal. field; auto. }
  transitivity (kinv (phi x) * (phi x * phi (kinv x))); [field; auto|]. rewrite E. ring.
Qed.
Lemma h_inj x y : phi x = phi y -> x = y.
Proof. intros E. destruct (keq x y) as [|N]; auto. elim (h_nz (x - y)); [apply (k_sub_nz K Kf); auto|]. rewrite h_sub, E. ring. Qed.
Variables a c : car L.
Hypothesis ac : c * c = a * (a * a).
Hypothesis a_nz : a <> 0.
Lemma c_nz : c <> 0.
Proof. intros E. rewrite E in ac. destruct (k_integral L Lf a (a * a)) as [|X]; auto; [rewrite <- ac; ring|]. destruct (k_integral L Lf a a X); auto. Qed.
Definition pmap (P : point K) : point L := match P with Inf => Inf | Aff x y => Aff (a * phi x) (c * phi y) end.
Lemma pmap_on b b' P : b' = c * c * phi b -> onP K b P -> onP L b' (pmap P).
Proof.
  intros ->. destruct P as [|x y]; cbn; auto. unfold on. intros E. transitivity (c * c * (phi (y * y))); [rewrite (h_mul _ _ _ H); ring|].
  rewrite E, !(h_add _ _ _ H), !(h_mul _ _ _ H), ac. ring.
Qed.
Lemma pmap_neg P : pmap (pneg P) = pneg (pmap P).
Proof. destruct P; cbn; auto. f_equal. rewrite h_opp. ring. Qed.
Lemma pmap_inj P Q : pmap P = pmap Q -> P = Q.
Proof.
  pose proof c_nz. destruct P as [|x y], Q as [|x' y']; cbn; try discriminate; auto. intros E. injection E as E1 E2.
  apply (k_mul_cancel L Lf) in E1, E2; auto. f_equal; apply h_inj; auto.
Qed.
Hypothesis Ktwo : (1 + 1 : car K) <> 0.
Lemma pmap_slope x1 y1 x2 y2 : (x1 = x2 -> y1 <> 0) -> slope (a * phi x1) (c * phi y1) (a * phi x2) (c * phi y2) = c * kinv a * phi (slope x1 y1 x2 y2).
Proof.
  intros Hy. pose proof c_nz as NC. unfold slope, ksq. destruct (keq x1 x2) as [E|N].
  - destruct (keq (a * phi x1) (a * phi x2)) as [_|N]; [|elim N; rewrite E; reflexivity].
    assert (N : y1 + y1 <> 0). { intros X. apply (Hy E). apply (k_half K Kf Ktwo); auto. }
    pose proof (h_nz _ N) as N'. rewrite (h_mul _ _ _ H), h_inv, !(h_add _ _ _ H), !(h_mul _ _ _ H) by auto.
    rewrite (h_add _ _ _ H) in N'. assert (c * phi y1 + c * phi y1 <> 0).
    { intros X. assert (X' : c * (phi y1 + phi y1) = 0) by (rewrite <- X; ring). destruct (k_integral L Lf _ _ X'); auto. }
    transitivity ((a * a * (phi x1 * phi x1) + a * a * (phi x1 * phi x1) + a * a * (phi x1 * phi x1)) * kinv (c * (phi y1 + phi y1))).
    { f_equal; [ring|f_equal; ring]. }
    transitivity (a * (a * a) * kinv a * kinv c * ((phi x1 * phi x1 + phi x1 * phi x1 + phi x1 * phi x1) * kinv (phi y1 + phi y1))).
    { field. repeat split; auto. }
    rewrite <- ac. field. repeat split; auto.
  - destruct (keq (a * phi x1) (a * phi x2)) as [X|_].
    { elim N. apply h_inj. apply (k_mul_cancel L Lf a); auto. }
    assert (N2 : x1 - x2 <> 0) by (apply (k_sub_nz K Kf); auto). pose proof (h_nz _ N2) as N3. rewrite h_sub in N3.
    rewrite (h_mul _ _ _ H), h_inv, !h_sub by auto. 
    assert (a * phi x1 - a * phi x2 <> 0).
    { intros X. assert (X' : a * (phi x1 - phi x2) = 0) by (rewrite <- X; ring). destruct (k_integral L Lf _ _ X'); auto. }
    field. repeat split; auto.
Qed.
Lemma pmap_padd b P Q : onP K b P -> onP K b Q -> pmap (padd P Q) = padd (pmap P) (pmap Q).
Proof.
  intros OP OQ. pose proof c_nz as NC. destruct P as [|x1 y1]; [reflexivity|]. destruct Q as [|x2 y2]; [reflexivity|].
  cbn [pmap padd].
  assert (X : (x1 = x2 -> y1 <> 0) -> pmap (let l := slope x1 y1 x2 y2 in let x3 := ksub (ksub (ksq l) x1) x2 in Aff x3 (ksub (kmul l (ksub x1 x3)) y1)) =
    let l := slope (a * phi x1) (c * phi y1) (a * phi x2) (c * phi y2) in let x3 := ksub (ksub (ksq l) (a * phi x1)) (a * phi x2) in
    Aff x3 (ksub (kmul l (ksub (a * phi x1) x3)) (c * phi y1))).
  { intros Hy. cbv zeta. rewrite pmap_slope by auto. generalize (slope x1 y1 x2 y2). intros l. cbn [pmap]. unfold ksq.
    assert (S : c * kinv a * phi l * (c * kinv a * phi l) = a * (phi l * phi l)).
    { transitivity (c * c * (kinv a * kinv a) * (phi l * phi l)); [ring|]. rewrite ac. field; auto. }
    rewrite S. repeat (rewrite ?h_sub, ?(h_mul _ _ _ H)). apply Aff_eq; field; auto. }
  destruct (keq x1 x2) as [E|N].
  - destruct (keq (a * phi x1) (a * phi x2)) as [_|N]; [|elim N; rewrite E; reflexivity].
    destruct (keq y1 (- y2)) as [E2|N2].
    + destruct (keq (c * phi y1) (- (c * phi y2))) as [_|N]; [reflexivity|]. elim N. rewrite E2, h_opp. ring.
    + destruct (keq (c * phi y1) (- (c * phi y2))) as [E3|_].
      * elim N2. apply h_inj. apply (k_mul_cancel L Lf c); auto. rewrite E3, h_opp. ring.
      * apply X. intros _ E3. destruct (on_same_x K Kf b x1 y1 x2 y2 OP OQ E) as [F|F]; [|contradiction].
        apply N2. rewrite <- F, E3. ring.
  - destruct (keq (a * phi x1) (a * phi x2)) as [E|_].
    { elim N. apply h_inj. apply (k_mul_cancel L Lf a); auto. }
    apply X. intros E; contradiction.
Qed.
(** the induced homomorphism of groups *)
Variables (b : car K) (b' : car L).
Hypothesis bb : b' = c * c * phi b.
Lemma pmap_onb (P : curve K b) : onb b' (pmap (cpt P)) = true.
Proof. apply (onb_ok L Lf). apply (pmap_on b); [exact bb|apply (curve_on K Kf b)]. Qed.
Definition cmap (P : curve K b) : curve L b' := mkC L b' (pmap (cpt P)) (pmap_onb P).
Hypothesis Kthree : (1 + 1 + 1 : car K) <> 0.
Hypothesis Ltwo : (1 + 1 : car L) <> 0.
Hypothesis Lthree : (1 + 1 + 1 : car L) <> 0.
Hypothesis bnz : b <> 0.
Hypothesis bnz' : b' <> 0.
Lemma cmap_op (P Q : curve_group K Kf Ktwo Kthree b bnz) :
  cmap (gop P Q) = @gop (curve_group L Lf Ltwo Lthree b' bnz') (cmap P) (cmap Q).
Proof. apply curve_eq. cbn. apply (pmap_padd b); apply (curve_on K Kf b). Qed.
End Map.

(** multiplication of x by a primitive cube root of unity: s^2 + s + 1 = 0 *)
Section Beta.
Context (K : fieldOps).
Hypothesis Kf : field_theory (k0 : car K) k1 kadd kmul ksub kopp (fun x y => kmul x (kinv y)) kinv eq.
Add Field KFb : Kf.
Declare Scope K_scope.
Notation "x + y" := (kadd x y) : K_scope. Notation "x - y" := (ksub x y) : K_scope. Notation "x * y" := (kmul x y) : K_scope.
Notation "- x" := (kopp x) : K_scope. Notation "0" := k0 : K_scope. Notation "1" := k1 : K_scope.
Local Open Scope K_scope.
Hypothesis two_nz : (1 + 1 : car K) <> 0.
Variables (b be : car K).
Hypothesis b_nz : b <> 0.
Hypothesis be_eq : be * be + be + 1 = 0.
Hypothesis be_1 : be <> 1.
Definition beta (P : point K) : point K := match P with Inf => Inf | Aff x y => Aff (be * x) y end.
Lemma beta_sum P : onP K b P -> padd (padd P (beta P)) (beta (beta P)) = Inf.
Proof.
  destruct P as [|x y]; [reflexivity|]. intros O. cbn [beta].
  assert (E : padd (Aff x y) (Aff (be * x) y) = Aff (be * (be * x)) (- y)).
  { assert (B2 : be * be = - be - 1). { transitivity (be * be + be + 1 - be - 1); [ring|]. rewrite be_eq. ring. }
    cbn [padd]. destruct (keq x (be * x)) as [E|N].
    - assert (x = 0). { destruct (k_integral K Kf (1 - be) x) as [Z|Z]; auto; [transitivity (x - be * x); [ring|]; rewrite <- E; ring|].
        elim be_1. apply (k_sub0 K Kf) in Z. auto. }
      subst x. assert (Y : y <> 0). { intros ->. cbn in O. unfold on in O. apply b_nz. transitivity (0 * 0 : car K); [rewrite O; ring|ring]. }
      destruct (keq y (- y)) as [E2|_].
      { elim Y. apply (k_half K Kf two_nz). rewrite E2 at 1. ring. }
      cbv zeta. unfold slope, ksq. destruct (keq 0 (be * 0)) as [_|N]; [|elim N; ring].
      assert (y + y <> 0) by (intros X; apply Y, (k_half K Kf two_nz), X).
      apply Aff_eq; field; auto.
    - cbv zeta. unfold slope, ksq. destruct (keq x (be * x)); [contradiction|].
      assert (x - be * x <> 0) by (apply (k_sub_nz K Kf); auto).
      replace (y - y) with (0 : car K) by ring. apply Aff_eq; [|ring].
      transitivity (- x - be * x); [ring|]. transitivity ((be * be) * x); [rewrite B2; ring|ring]. }
  rewrite E. cbn [padd]. destruct (keq (be * (be * x)) (be * (be * x))); [|contradiction].
  destruct (keq (- y) (- y)); [reflexivity|contradiction].
Qed.
End Beta.
