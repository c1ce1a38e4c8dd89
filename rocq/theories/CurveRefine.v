(** The Jacobian formulas of the model compute the chord-and-tangent law. *)
From Coq Require Import ZArith List Bool Lia Field.
From Verif Require Import ModelWord ModelScalar ModelCurve SpecCurve CurveProof AbGroup.
Import ListNotations.

(** ** the same code over a mathematical field *)
Definition kops (K : fieldOps) : fops (car K) :=
  mkOps (car K) k0 k1 kadd ksub kmul (fun x => kmul x x) (fun x => kadd x x) kopp kinv
    (fun x y => if keq x y then true else false) (fun x => if keq x k0 then true else false) (fun x => if keq x k1 then true else false).
(** a representation of the field K by machine values: C the valid values, d their meaning *)
Record represents {T : Type} (o : fops T) (K : fieldOps) (C : T -> Prop) (d : T -> car K) : Prop := {
  r_zero : C (f_zero o) /\ d (f_zero o) = k0;
  r_one : C (f_one o) /\ d (f_one o) = k1;
  r_add : forall x y, C x -> C y -> C (f_add o x y) /\ d (f_add o x y) = kadd (d x) (d y);
  r_sub : forall x y, C x -> C y -> C (f_sub o x y) /\ d (f_sub o x y) = ksub (d x) (d y);
  r_mul : forall x y, C x -> C y -> C (f_mul o x y) /\ d (f_mul o x y) = kmul (d x) (d y);
  r_sqr : forall x, C x -> C (f_sqr o x) /\ d (f_sqr o x) = kmul (d x) (d x);
  r_dbl : forall x, C x -> C (f_dbl o x) /\ d (f_dbl o x) = kadd (d x) (d x);
  r_neg : forall x, C x -> C (f_neg o x) /\ d (f_neg o x) = kopp (d x);
  r_inv : forall x, C x -> C (f_inv o x) /\ d (f_inv o x) = kinv (d x);
  r_eq : forall x y, C x -> C y -> f_eq o x y = true <-> d x = d y;
  r_isz : forall x, C x -> f_isZero o x = true <-> d x = k0;
  r_is1 : forall x, C x -> f_isOne o x = true <-> d x = k1 }.

Section Param.
Context {T : Type} (o : fops T) (K : fieldOps) (C : T -> Prop) (d : T -> car K).
Hypothesis HR : represents o K C d.
Definition R (x : T) (k : car K) : Prop := C x /\ d x = k.
Definition RJ (p : jac T) (q : jac (car K)) : Prop := R (jx p) (jx q) /\ R (jy p) (jy q) /\ R (jz p) (jz q).
Lemma R_zero : R (f_zero o) (f_zero (kops K)). Proof. apply (r_zero _ _ _ _ HR). Qed.
Lemma R_one : R (f_one o) (f_one (kops K)). Proof. apply (r_one _ _ _ _ HR). Qed.
Lemma R_add x y k l : R x k -> R y l -> R (f_add o x y) (f_add (kops K) k l).
Proof. intros [H1 <-] [H2 <-]. apply (r_add _ _ _ _ HR); auto. Qed.
Lemma R_sub x y k l : R x k -> R y l -> R (f_sub o x y) (f_sub (kops K) k l).
Proof. intros [H1 <-] [H2 <-]. apply (r_sub _ _ _ _ HR); auto. Qed.
Lemma R_mul x y k l : R x k -> R y l -> R (f_mul o x y) (f_mul (kops K) k l).
Proof. intros [H1 <-] [H2 <-]. apply (r_mul _ _ _ _ HR); auto. Qed.
Lemma R_sqr x k : R x k -> R (f_sqr o x) (f_sqr (kops K) k).
Proof. intros [H1 <-]. apply (r_sqr _ _ _ _ HR); auto. Qed.
Lemma R_dbl x k : R x k -> R (f_dbl o x) (f_dbl (kops K) k).
Proof. intros [H1 <-]. apply (r_dbl _ _ _ _ HR); auto. Qed.
Lemma R_neg x k : R x k -> R (f_neg o x) (f_neg (kops K) k).
Proof. intros [H1 <-]. apply (r_neg _ _ _ _ HR); auto. Qed.
Lemma R_inv x k : R x k -> R (f_inv o x) (f_inv (kops K) k).
Proof. intros [H1 <-]. apply (r_inv _ _ _ _ HR); auto. Qed.
Lemma bool_iff (u : bool) (P : Prop) (D : {P} + {~ P}) : u = true <-> P -> u = if D then true else false.
Proof. intros H. destruct D as [p|n]; destruct u; auto; [apply H, p|elim n; apply H; auto]. Qed.
Lemma R_eq x y k l : R x k -> R y l -> f_eq o x y = f_eq (kops K) k l.
Proof. intros [H1 <-] [H2 <-]. cbn [kops f_eq]. apply bool_iff. apply (r_eq _ _ _ _ HR); auto. Qed.
Lemma R_isz x k : R x k -> f_isZero o x = f_isZero (kops K) k.
Proof. intros [H1 <-]. cbn [kops f_isZero]. apply bool_iff. apply (r_isz _ _ _ _ HR); auto. Qed.
Lemma R_is1 x k : R x k -> f_isOne o x = f_isOne (kops K) k.
Proof. intros [H1 <-]. cbn [kops f_isOne]. apply bool_iff. apply (r_is1 _ _ _ _ HR); auto. Qed.
Lemma RJ_mk x y z k l m : R x k -> R y l -> R z m -> RJ (mkJ x y z) (mkJ k l m). Proof. unfold RJ. cbn. auto. Qed.
Lemma RJ_x p q : RJ p q -> R (jx p) (jx q). Proof. intros H; apply H. Qed.
Lemma RJ_y p q : RJ p q -> R (jy p) (jy q). Proof. intros H; apply H. Qed.
Lemma RJ_z p q : RJ p q -> R (jz p) (jz q). Proof. intros H; apply H. Qed.
Ltac leaf := repeat first [assumption | apply R_add | apply R_sub | apply R_mul | apply R_sqr | apply R_dbl | apply R_neg | apply R_inv
  | apply R_zero | apply R_one | apply RJ_mk | apply RJ_x | apply RJ_y | apply RJ_z].
Ltac step :=
  match goal with
  | |- ?RR (let x := ?a in @?f x) (let y := ?c in @?g y) =>
      let H := fresh in let t := fresh "t" in let k := fresh "k" in
      assert (H : R a c) by leaf; change (RR (f a) (g c)); generalize dependent c; generalize a; intros t k H; cbv beta
  end.
Lemma j_isZero_R p q : RJ p q -> j_isZero o p = j_isZero (kops K) q. Proof. intros H. apply R_isz, RJ_z, H. Qed.
Lemma j_zero_R : RJ (j_zero o) (j_zero (kops K)). Proof. unfold j_zero. leaf. Qed.
Lemma j_dbl_R p q : RJ p q -> RJ (j_dbl o p) (j_dbl (kops K) q).
Proof. intros H. unfold j_dbl. rewrite (j_isZero_R _ _ H). destruct (j_isZero (kops K) q); [exact H|]. repeat step. leaf. Qed.
Lemma j_add_R p q p' q' : RJ p q -> RJ p' q' -> RJ (j_add o p p') (j_add (kops K) q q').
Proof.
  intros H H'. unfold j_add. rewrite (j_isZero_R _ _ H), (j_isZero_R _ _ H').
  destruct (j_isZero (kops K) q); [exact H'|]. destruct (j_isZero (kops K) q'); [exact H|].
  repeat step.
  match goal with |- RJ (if f_eq o ?a ?c then _ else _) (if f_eq _ ?k ?l then _ else _) => rewrite (R_eq a c k l) by leaf end.
  match goal with |- RJ (if ?c then _ else _) _ => destruct c end; [|leaf].
  match goal with |- RJ (if f_eq o ?a ?c then _ else _) (if f_eq _ ?k ?l then _ else _) => rewrite (R_eq a c k l) by leaf end.
  match goal with |- RJ (if ?c then _ else _) _ => destruct c end; [apply j_dbl_R, H|apply j_zero_R].
Qed.
Lemma j_neg_R p q : RJ p q -> RJ (j_neg o p) (j_neg (kops K) q). Proof. intros H. unfold j_neg. leaf. Qed.
Lemma j_sub_R p q p' q' : RJ p q -> RJ p' q' -> RJ (j_sub o p p') (j_sub (kops K) q q').
Proof. intros H H'. apply j_add_R; [exact H|]. apply j_neg_R, H'. Qed.
Lemma j_affine_R p q : RJ p q -> RJ (j_affine o p) (j_affine (kops K) q).
Proof.
  intros H. unfold j_affine, j_isAffine. rewrite (j_isZero_R _ _ H), (R_is1 _ _ (RJ_z _ _ H)).
  destruct (j_isZero (kops K) q || f_isOne (kops K) (jz q)); [exact H|]. repeat step. leaf.
Qed.
Lemma j_equal_R p q p' q' : RJ p q -> RJ p' q' -> j_equal o p p' = j_equal (kops K) q q'.
Proof.
  intros H H'. unfold j_equal. rewrite (j_isZero_R _ _ H), (j_isZero_R _ _ H').
  destruct (j_isZero (kops K) q); [reflexivity|]. destruct (j_isZero (kops K) q'); [reflexivity|].
  cbv zeta. f_equal; apply R_eq; leaf.
Qed.
Lemma j_isOnCurve_R b k p q : R b k -> RJ p q -> j_isOnCurve o b p = j_isOnCurve (kops K) k q.
Proof.
  intros Hb H. unfold j_isOnCurve. rewrite (j_isZero_R _ _ H). destruct (j_isZero (kops K) q); [reflexivity|].
  cbv zeta. apply R_eq; leaf.
Qed.
End Param.

(** ** the formulas over a field *)
Section JacK.
Context {K : fieldOps}.
Declare Scope K_scope.
Notation T := (car K).
Notation "x + y" := (kadd x y) : K_scope. Notation "x - y" := (ksub x y) : K_scope. Notation "x * y" := (kmul x y) : K_scope.
Notation "- x" := (kopp x) : K_scope. Notation "0" := k0 : K_scope. Notation "1" := k1 : K_scope.
Local Open Scope K_scope.
Hypothesis Kf : field_theory (k0 : T) k1 kadd kmul ksub kopp (fun x y => kmul x (kinv y)) kinv eq.
Add Field KF' : Kf.
Hypothesis two_nz : (1 + 1 : T) <> 0.
Variable b : T.
Notation on := (on K b). Notation onP := (onP K b).
(** the point with Jacobian coordinates (x, y, z) *)
Definition jpt (p : jac T) : point K :=
  if keq (jz p) 0 then Inf else Aff (jx p * kinv (ksq (jz p))) (jy p * kinv (kcube (jz p))).
Lemma jpt_mk (x y z u v : T) : z <> 0 -> x = u * (z * z) -> y = v * (z * z * z) -> jpt (mkJ x y z) = Aff u v.
Proof. intros Hz -> ->. unfold jpt, ksq, kcube. cbn [jx jy jz]. destruct (keq z 0); [contradiction|]. apply Aff_eq; field; auto. Qed.
Lemma jpt_inv p u v : jpt p = Aff u v -> jz p <> 0 /\ jx p = u * (jz p * jz p) /\ jy p = v * (jz p * jz p * jz p).
Proof.
  unfold jpt, ksq, kcube. destruct (keq (jz p) 0) as [|N]; [discriminate|]. intros E. injection E as <- <-.
  split; [exact N|]. split; field; auto.
Qed.
Lemma jpt_isZero p : j_isZero (kops K) p = true <-> jpt p = Inf.
Proof. unfold j_isZero, jpt. cbn [kops f_isZero]. destruct (keq (jz p) 0); split; auto; discriminate. Qed.
Lemma jpt_isZero_f p : j_isZero (kops K) p = false -> exists u v, jpt p = Aff u v.
Proof. intros H. destruct (jpt p) as [|u v] eqn:E; [apply jpt_isZero in E; congruence|eauto]. Qed.
Lemma jpt_zero : jpt (j_zero (kops K)) = Inf.
Proof. apply jpt_isZero. unfold j_isZero, j_zero. cbn. destruct (keq (0 : T) 0); auto. Qed.
Lemma jpt_000 : jpt (mkJ 0 0 0) = Inf.
Proof. apply jpt_isZero. unfold j_isZero. cbn. destruct (keq (0 : T) 0); auto. Qed.
Lemma jpt_neg p : jpt (j_neg (kops K) p) = pneg (jpt p).
Proof.
  unfold jpt, j_neg. cbn [jx jy jz kops f_neg]. destruct (keq (jz p) 0) as [|N]; [reflexivity|]. cbn [pneg]. apply Aff_eq; unfold ksq, kcube; field; auto.
Qed.
Lemma nz2 (x y : T) : x <> 0 -> y <> 0 -> x * y <> 0.
Proof. intros Hx Hy E. destruct (k_integral K Kf _ _ E); auto. Qed.
Lemma jpt_dbl p : onP (jpt p) -> jpt (j_dbl (kops K) p) = padd (jpt p) (jpt p).
Proof.
  intros O. unfold j_dbl. destruct (j_isZero (kops K) p) eqn:Z.
  { apply jpt_isZero in Z. rewrite Z. reflexivity. }
  destruct (jpt_isZero_f _ Z) as (u & v & E). rewrite E in *. destruct (jpt_inv _ _ _ E) as (Nz & Ex & Ey). cbn in O.
  destruct p as [x y z]. cbn [jx jy jz] in *. subst x y.
  cbn [kops f_add f_sub f_mul f_sqr f_dbl padd].
  destruct (keq u u) as [_|]; [|contradiction]. destruct (keq v (- v)) as [Ev|Nv].
  - assert (v = 0). { apply (k_half K Kf two_nz). rewrite Ev at 1. ring. }
    subst v. apply jpt_isZero. unfold j_isZero. cbn [jz kops f_isZero].
    match goal with |- (if keq ?a ?b then _ else _) = _ => destruct (keq a b) as [|N]; auto; elim N; ring end.
  - assert (V0 : v <> 0). { intros ->. apply Nv. ring. }
    assert (VV : v + v <> 0). { intros H. apply V0, (k_half K Kf two_nz), H. }
    apply jpt_mk.
    + intros H. apply (nz2 _ _ VV (nz2 _ _ Nz (nz2 _ _ Nz (nz2 _ _ Nz Nz)))). rewrite <- H. ring.
    + unfold slope, ksq. destruct (keq u u); [|contradiction]. field; auto.
    + unfold slope, ksq. destruct (keq u u); [|contradiction]. field; auto.
Qed.
Lemma k_cancel_r (x y c : T) : c <> 0 -> x * c = y * c -> x = y.
Proof. intros N H. apply (k_mul_cancel K Kf c); auto. rewrite !(ARmul_comm (Rth_ARth (Eqsth T) (Eq_ext kadd kmul kopp) (F_R Kf)) c). exact H. Qed.
Lemma jpt_add p q : onP (jpt p) -> onP (jpt q) -> jpt (j_add (kops K) p q) = padd (jpt p) (jpt q).
Proof.
  intros O O'. unfold j_add. destruct (j_isZero (kops K) p) eqn:Z.
  { apply jpt_isZero in Z. rewrite Z. reflexivity. }
  destruct (j_isZero (kops K) q) eqn:Z'.
  { apply jpt_isZero in Z'. rewrite Z', (padd_Inf_r K (jpt p)). reflexivity. }
  cbv zeta. pose proof (jpt_dbl p O) as D.
  destruct (jpt_isZero_f _ Z) as (u & v & E). destruct (jpt_isZero_f _ Z') as (u' & v' & E').
  rewrite E in D. rewrite E in O |- *. rewrite E' in *. destruct (jpt_inv _ _ _ E) as (Nz & Ex & Ey).
  destruct (jpt_inv _ _ _ E') as (Nz' & Ex' & Ey'). cbn in O, O'. revert D. generalize (j_dbl (kops K) p). intros pd D.
  destruct p as [x y z], q as [x' y' z']. cbn [jx jy jz] in *. clear E E' Z Z'. subst x y x' y'.
  cbn [kops f_add f_sub f_mul f_sqr f_dbl f_eq].
  pose proof (nz2 _ _ Nz Nz') as NN.
  assert (N2 : z * z * (z' * z') <> 0) by (intros H; apply (nz2 _ _ NN NN); rewrite <- H; ring).
  assert (N3 : z * z * z * (z' * z' * z') <> 0) by (intros H; apply (nz2 _ _ NN (nz2 _ _ NN NN)); rewrite <- H; ring).
  match goal with |- jpt (if (if keq ?a ?c then _ else _) then _ else _) = _ => destruct (keq a c) as [E|N] end.
  - assert (u' = u). { apply (k_cancel_r _ _ _ N2). transitivity (u' * (z' * z') * (z * z)); [ring|]. rewrite E. ring. }
    subst u'.
    match goal with |- jpt (if (if keq ?a ?c then _ else _) then _ else _) = _ => destruct (keq a c) as [E1|N1] end.
    + assert (v' = v). { apply (k_cancel_r _ _ _ N3). transitivity (v' * (z' * z' * z') * (z * (z * z))); [ring|]. rewrite E1. ring. }
      subst v'. exact D.
    + rewrite jpt_zero. cbn [padd]. destruct (keq u u); [|contradiction]. destruct (keq v (- v')) as [|N2']; [reflexivity|].
      destruct (on_same_x K Kf b u v u v' O O' eq_refl) as [F|F]; [|contradiction]. subst v'. elim N1. ring.
  - assert (UU : u <> u'). { intros <-. apply N. ring. }
    assert (US : u - u' <> 0) by (apply (k_sub_nz K Kf); auto).
    cbn [padd]. destruct (keq u u'); [contradiction|]. unfold slope, ksq. destruct (keq u u'); [contradiction|].
    assert (Nzz : (1 + 1) * ((z * z') * ((u - u') * (z * z * (z' * z')))) <> 0) by (apply nz2; auto; apply nz2; auto; apply nz2; auto).
    apply jpt_mk.
    + intros H. apply Nzz. transitivity (- (0 : T)); [rewrite <- H|]; ring.
    + field; auto.
    + field; auto.
Qed.
Lemma jpt_sub p q : onP (jpt p) -> onP (jpt q) -> jpt (j_sub (kops K) p q) = padd (jpt p) (pneg (jpt q)).
Proof. intros O O'. unfold j_sub. rewrite jpt_add, jpt_neg; auto. rewrite jpt_neg. apply (pneg_on K Kf); auto. Qed.
Lemma jpt_affine p : jpt (j_affine (kops K) p) = jpt p.
Proof.
  unfold j_affine. destruct (j_isZero (kops K) p) eqn:Z; [reflexivity|]. cbn [orb]. destruct (j_isAffine (kops K) p) eqn:A; [reflexivity|].
  destruct (jpt_isZero_f _ Z) as (u & v & E). rewrite E. destruct (jpt_inv _ _ _ E) as (Nz & Ex & Ey). cbv zeta. cbn [kops f_mul f_sqr f_inv f_one].
  rewrite Ex, Ey. apply jpt_mk; [apply (F_1_neq_0 Kf)| |]; field; auto.
Qed.
Lemma j_affine_z p : jpt p <> Inf -> jz (j_affine (kops K) p) = 1.
Proof.
  intros H. unfold j_affine. destruct (j_isZero (kops K) p) eqn:Z; [apply jpt_isZero in Z; contradiction|]. cbn [orb].
  destruct (j_isAffine (kops K) p) eqn:A; [|reflexivity]. unfold j_isAffine in A. cbn in A. destruct (keq (jz p) 1); [auto|discriminate].
Qed.
Lemma jpt_aff p u v : jz p = 1 -> jpt p = Aff u v <-> jx p = u /\ jy p = v.
Proof.
  intros H. assert (E : jpt p = Aff (jx p) (jy p)).
  { destruct p as [x y z]. cbn in H |- *. subst z. apply jpt_mk; [apply (F_1_neq_0 Kf)| |]; ring. }
  rewrite E. split; [intros X; injection X; auto|intros [-> ->]; reflexivity].
Qed.
Lemma j_equal_ok p q : j_equal (kops K) p q = true <-> jpt p = jpt q.
Proof.
  unfold j_equal. destruct (j_isZero (kops K) p) eqn:Z.
  { apply jpt_isZero in Z. rewrite Z, jpt_isZero. split; congruence. }
  destruct (j_isZero (kops K) q) eqn:Z'.
  { split; [discriminate|]. apply jpt_isZero in Z'. rewrite Z'. intros H. apply jpt_isZero in H. congruence. }
  destruct (jpt_isZero_f _ Z) as (u & v & E). destruct (jpt_isZero_f _ Z') as (u' & v' & E'). rewrite E, E'.
  destruct (jpt_inv _ _ _ E) as (Nz & Ex & Ey). destruct (jpt_inv _ _ _ E') as (Nz' & Ex' & Ey').
  destruct p as [x y z], q as [x' y' z']. cbn [jx jy jz] in *. clear E E' Z Z'. subst x y x' y'.
  cbn [kops f_add f_sub f_mul f_sqr f_dbl f_eq].
  pose proof (nz2 _ _ Nz Nz') as NN.
  assert (N2 : z * z * (z' * z') <> 0) by (intros H; apply (nz2 _ _ NN NN); rewrite <- H; ring).
  assert (N3 : z * z * z * (z' * z' * z') <> 0) by (intros H; apply (nz2 _ _ NN (nz2 _ _ NN NN)); rewrite <- H; ring).
  rewrite andb_true_iff.
  match goal with |- (if keq ?a ?c then _ else _) = _ /\ (if keq ?a' ?c' then _ else _) = _ <-> _ => destruct (keq a c) as [E|N]; destruct (keq a' c') as [E'|N'] end;
    split; try (intros [? ?]; discriminate); try (intros X; injection X as -> ->).
  - intros _. apply Aff_eq.
    + apply (k_cancel_r _ _ _ N2). transitivity (u * (z * z) * (z' * z')); [ring|]. transitivity (z * z * (u' * (z' * z'))); [|ring]. rewrite E'. ring.
    + apply (k_cancel_r _ _ _ N3). transitivity (z' * z' * z' * (v * (z * z * z))); [ring|]. rewrite <- E. ring.
  - auto.
  - elim N'. ring.
  - elim N. ring.
  - elim N. ring.
Qed.
Lemma j_isOnCurve_ok p : j_isOnCurve (kops K) b p = true <-> onP (jpt p).
Proof.
  unfold j_isOnCurve. destruct (j_isZero (kops K) p) eqn:Z.
  { apply jpt_isZero in Z. rewrite Z. cbn. tauto. }
  destruct (jpt_isZero_f _ Z) as (u & v & E). rewrite E. destruct (jpt_inv _ _ _ E) as (Nz & Ex & Ey).
  destruct p as [x y z]. cbn [jx jy jz] in *. clear E Z. subst x y. cbn [kops f_add f_sub f_mul f_sqr f_dbl f_eq CurveProof.onP].
  assert (N2 : z * z * (z * z) * (z * z) <> 0) by (repeat apply nz2; auto).
  unfold CurveProof.on.
  match goal with |- (if keq ?a ?c then _ else _) = _ <-> _ => destruct (keq a c) as [E|N] end; split; auto; try discriminate.
  - intros _. apply (k_cancel_r _ _ _ N2). etransitivity; [|etransitivity; [exact E|]]; ring.
  - intros H. elim N. transitivity (v * v * (z * z * (z * z) * (z * z))); [ring|]. rewrite H. ring.
Qed.
End JacK.
