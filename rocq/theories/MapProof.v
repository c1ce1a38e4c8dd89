(** The simplified SWU map, over any field. *)
From Coq Require Import ZArith List Bool Lia Ring Field.
From Verif Require Import ModelCurve SpecCurve CurveProof CurveRefine ModelMap SpecMap.
Import ListNotations.
Local Open Scope Z_scope.

Section Gen.
Context {T : Type} (o : fops T) (K : fieldOps) (C : T -> Prop) (d : T -> car K) (HR : represents o K C d).
Context (HF : field_theory (k0 : car K) k1 kadd kmul ksub kopp (fun x y => kmul x (kinv y)) kinv eq).
Add Field KfM : HF.
Notation "0" := (@k0 K). Notation "1" := (@k1 K).
Infix "+" := (@kadd K). Infix "*" := (@kmul K). Infix "-" := (@ksub K). Notation "- x" := (@kopp K x). Notation "/ x" := (@kinv K x).
Context (A B Z : car K) (NA : A <> 0) (NB : B <> 0) (NZ : Z <> 0).
Context (HZ : ~ is_square Z) (NN : forall a b : car K, ~ is_square a -> ~ is_square b -> is_square (a * b)).
Context (is_square_dec : forall a : car K, (~ ~ is_square a) -> is_square a).
Context (HX : is_square (wrhs A B (B * / (Z * A)))) (NR : forall x, wrhs A B x <> 0).
Lemma mul_nz (a b : car K) : a <> 0 -> b <> 0 -> a * b <> 0.
Proof. intros Ha Hb H. apply Ha. transitivity ((a * b) * / b); [field; exact Hb|]. rewrite H. ring. Qed.
Lemma inv_nz (a : car K) : a <> 0 -> / a <> 0.
Proof. intros Ha H. assert (E : / a * a = 1) by (field; exact Ha). rewrite H in E. apply (F_1_neq_0 HF). rewrite <- E. ring. Qed.
Lemma inv_0z : (forall a : car K, / a = 0 -> a = 0).
Proof. intros a H. destruct (keq a 0) as [E|N]; [exact E|]. exfalso. exact (inv_nz a N H). Qed.
(** the identity behind the map *)
Lemma g_x2 (t : car K) : t * t + t <> 0 -> wrhs A B (t * ((- B * / A) * (1 + / (t * t + t)))) = wrhs A B ((- B * / A) * (1 + / (t * t + t))) * (t * (t * t)).
Proof.
  intros S. assert (S1 : t <> 0) by (intros ->; apply S; ring). assert (S2 : t + 1 <> 0) by (intros E; apply S; transitivity (t * (t + 1)); [ring|rewrite E; ring]).
  unfold wrhs, kcube. field. repeat split; assumption.
Qed.
Lemma square_x2 (u a : car K) : u <> 0 -> ~ is_square a -> is_square (a * ((Z * (u * u)) * ((Z * (u * u)) * (Z * (u * u))))).
Proof. intros U N. destruct (NN Z a HZ N) as [s E]. exists (s * (Z * (u * (u * u)))). transitivity ((s * s) * (Z * (u * (u * u))) * (Z * (u * (u * u)))); [ring|]. rewrite E. ring. Qed.

Context (ps : swu_params (T := T)) (Hz : R K C d (sw_z ps) Z) (Hzi : R K C d (sw_zInv ps) (- / Z)) (Ha : R K C d (sw_a ps) A) (Hb : R K C d (sw_b ps) B) (Hm : R K C d (sw_mBA ps) (- B * / A)).
Context (isQNR : T -> bool) (HQ : forall x, C x -> (isQNR x = true <-> d x = 0 \/ ~ is_square (d x))).
Context (sqrt : T -> bool * T) (HS : forall x, C x -> is_square (d x) -> C (snd (sqrt x)) /\ d (snd (sqrt x)) * d (snd (sqrt x)) = d x).
Context (sign : T -> bool) (sgn : car K -> bool) (HG : forall x, C x -> sign x = negb (sgn (d x))).
Context (HGN : forall a : car K, a <> 0 -> sgn (- a) = negb (sgn a)).
Context (I0 : / (0 : car K) = 0).
Lemma swu_x1_ok tv0 u : R K C d tv0 (Z * (u * u)) -> R K C d (swu_x1 o ps tv0) (sswu_x1 A B Z u).
Proof.
  intros H. unfold swu_x1, sswu_x1. cbv zeta. unfold ksq.
  pose proof (R_sqr o K C d HR _ _ H) as H1. pose proof (R_add o K C d HR _ _ _ _ H H1) as H2. pose proof (R_inv o K C d HR _ _ H2) as H3.
  pose proof (R_add o K C d HR _ _ _ _ H3 (R_one o K C d HR)) as H4. cbn [kops f_add f_mul f_sqr f_inv f_one] in *.
  set (t := Z * (u * u)) in *. assert (CM : t + t * t = t * t + t) by ring. rewrite CM in *.
  pose proof (r_isz _ _ _ _ HR _ (proj1 H3)) as HI. rewrite (proj2 H3) in HI.
  destruct (keq (t * t + t) 0) as [E|N].
  - assert (Z0 : / (t * t + t) = 0) by (rewrite E; exact I0). rewrite (proj2 HI Z0). pose proof (R_mul o K C d HR _ _ _ _ Hzi Hm) as H5. cbn [kops f_mul] in H5.
    assert (EQ : - / Z * (- B * / A) = B * / (Z * A)) by (field; split; assumption). rewrite EQ in H5. exact H5.
  - assert (Z0 : f_isZero o (f_inv o (f_add o tv0 (f_sqr o tv0))) = false) by (apply not_true_is_false; intros E; apply HI in E; exact (inv_nz _ N E)).
    rewrite Z0. pose proof (R_mul o K C d HR _ _ _ _ H4 Hm) as H5. cbn [kops f_mul] in H5.
    assert (EQ : (/ (t * t + t) + 1) * (- B * / A) = - B * / A * (1 + / (t * t + t))) by ring. rewrite EQ in H5. exact H5.
Qed.
Lemma swu_gx_ok x a : R K C d x a -> R K C d (swu_gx o ps x) (wrhs A B a).
Proof.
  intros H. unfold swu_gx. cbv zeta. pose proof (R_add o K C d HR _ _ _ _ (R_mul o K C d HR _ _ _ _ (R_add o K C d HR _ _ _ _ (R_sqr o K C d HR _ _ H) Ha) H) Hb) as H1.
  cbn [kops f_add f_mul f_sqr] in H1. assert (EQ : (a * a + A) * a + B = wrhs A B a) by (unfold wrhs, kcube; ring). rewrite EQ in H1. exact H1.
Qed.
Lemma swu_map_ok e : C e -> exists x y, R K C d (fst (swu_map o isQNR sqrt sign ps e)) x /\ R K C d (snd (swu_map o isQNR sqrt sign ps e)) y /\ sswu sgn A B Z (d e) x y.
Proof.
  intros Ce. set (u := d e). assert (He : R K C d e u) by (split; [exact Ce|reflexivity]).
  unfold swu_map. cbv zeta. cbn [fst snd].
  pose proof (R_mul o K C d HR _ _ _ _ (R_sqr o K C d HR _ _ He) Hz) as Ht. cbn [kops f_mul f_sqr] in Ht.
  assert (EQ : u * u * Z = Z * (u * u)) by ring. rewrite EQ in Ht. clear EQ.
  revert Ht. generalize (f_mul o (f_sqr o e) (sw_z ps)). intros tv Ht.
  pose proof (swu_x1_ok tv u Ht) as H1. revert H1. generalize (swu_x1 o ps tv). intros x1 H1. pose proof (swu_gx_ok _ _ H1) as HG1. revert HG1. generalize (swu_gx o ps x1). intros gx1 HG1.
  pose proof (R_mul o K C d HR _ _ _ _ Ht H1) as H2. pose proof (R_mul o K C d HR _ _ _ _ HG1 (R_mul o K C d HR _ _ _ _ Ht (R_sqr o K C d HR _ _ Ht))) as HG2.
  cbn [kops f_mul f_sqr] in H2, HG2. revert H2 HG2. generalize (f_mul o tv x1) (f_mul o gx1 (f_mul o tv (f_sqr o tv))). intros x2 gx2 H2 HG2.
  pose proof (HQ gx1 (proj1 HG1)) as Q. rewrite (proj2 HG1) in Q.
  assert (Y : exists x y2, R K C d (if negb (isQNR gx1) then x1 else x2) x /\ R K C d (if negb (isQNR gx1) then gx1 else gx2) y2 /\ y2 = wrhs A B x /\ is_square y2 /\
    (is_square (wrhs A B (sswu_x1 A B Z u)) /\ x = sswu_x1 A B Z u \/ ~ is_square (wrhs A B (sswu_x1 A B Z u)) /\ x = Z * ksq u * sswu_x1 A B Z u)).
  { destruct (isQNR gx1) eqn:EQ; cbn [negb].
    - destruct (proj1 Q eq_refl) as [E0|NS]; [exfalso; exact (NR _ E0)|].
      exists (Z * (u * u) * sswu_x1 A B Z u), (wrhs A B (sswu_x1 A B Z u) * (Z * (u * u) * (Z * (u * u) * (Z * (u * u))))).
      split; [exact H2|]. split; [exact HG2|].
      assert (SN : Z * (u * u) * (Z * (u * u)) + Z * (u * u) <> 0).
      { intros E. apply NS. unfold sswu_x1. cbv zeta. unfold ksq. destruct (keq _ _) as [_|N]; [exact HX|contradiction (N E)]. }
      assert (UN : u <> 0) by (intros E; apply SN; rewrite E; ring).
      split; [|split; [exact (square_x2 u _ UN NS)|right; split; [exact NS|reflexivity]]].
      unfold sswu_x1. cbv zeta. unfold ksq. destruct (keq _ _) as [E|N]; [contradiction (SN E)|]. symmetry. exact (g_x2 _ SN).
    - assert (S : is_square (wrhs A B (sswu_x1 A B Z u))).
      { destruct (isQNR gx1) eqn:E; [discriminate|]. apply is_square_dec. intros N. assert (X : false = true) by (apply Q; right; exact N). discriminate X. }
      exists (sswu_x1 A B Z u), (wrhs A B (sswu_x1 A B Z u)). split; [exact H1|]. split; [exact HG1|]. split; [reflexivity|]. split; [exact S|]. left. split; [exact S|reflexivity]. }
  destruct Y as (x & y2 & Hx & Hy & E2 & S2 & D). revert Hx Hy. generalize (if negb (isQNR gx1) then x1 else x2) (if negb (isQNR gx1) then gx1 else gx2). intros cx cy Hx Hy.
  destruct (HS cy (proj1 Hy)) as [Cs Es]; [rewrite (proj2 Hy); exact S2|]. rewrite (proj2 Hy) in Es. revert Cs Es. generalize (snd (sqrt cy)). intros s Cs Es.
  exists x. pose proof (R_neg o K C d HR s (d s) (conj Cs eq_refl)) as Hn. cbn [kops f_neg] in Hn.
  assert (SN : d s <> 0) by (intros E; apply (NR x); rewrite <- E2, <- Es, E; ring).
  destruct (Bool.eqb (sign s) (sign e)) eqn:EB; cbn [negb].
  - exists (d s). split; [exact Hx|]. split; [split; [exact Cs|reflexivity]|]. split; [exact D|]. split; [rewrite <- E2; exact Es|].
    apply eqb_prop in EB. rewrite !HG in EB by assumption. fold u in EB. destruct (sgn (d s)), (sgn u); try reflexivity; discriminate EB.
  - exists (- d s). split; [exact Hx|]. split; [exact Hn|]. split; [exact D|]. split; [unfold ksq; rewrite <- E2, <- Es; ring|].
    apply eqb_false_iff in EB. rewrite !HG in EB by assumption. fold u in EB. rewrite HGN by exact SN. destruct (sgn (d s)), (sgn u); try reflexivity; contradiction (EB eq_refl).
Qed.
End Gen.

Section Horner.
Context {T : Type} (o : fops T) (K : fieldOps) (C : T -> Prop) (d : T -> car K) (HR : represents o K C d).
Context (HF : field_theory (k0 : car K) k1 kadd kmul ksub kopp (fun x y => kmul x (kinv y)) kinv eq).
Add Field KfH : HF.
Lemma peval_app (l l' : list (car K)) x : peval (l ++ l') x = kadd (peval l x) (kmul (fold_right (fun _ a => kmul x a) k1 l) (peval l' x)).
Proof. induction l as [|c l IH]; cbn [app peval fold_right]; [ring|]. rewrite IH. ring. Qed.
Lemma horner_loop x a (Hx : R K C d x a) : forall r vs, Forall2 (R K C d) r vs -> forall c v, R K C d c v ->
  R K C d (fold_left (fun acc ci => f_add o (f_mul o acc x) ci) r c) (kadd (peval (rev vs) a) (kmul (fold_right (fun _ z => kmul a z) k1 vs) v)).
Proof.
  induction 1 as [|ci vi r vs Hc F IH]; intros c v Hv; cbn [fold_left rev peval fold_right].
  - destruct Hv as [Cv Dv]. split; [exact Cv|]. rewrite Dv. ring.
  - pose proof (IH _ _ (R_add o K C d HR _ _ _ _ (R_mul o K C d HR _ _ _ _ Hv Hx) Hc)) as [C1 D1]. split; [exact C1|]. rewrite D1. clear -HF. cbn [kops f_add f_mul].
    rewrite peval_app. cbn [peval].
    assert (E : forall l : list (car K), fold_right (fun _ z => kmul a z) k1 (rev l) = fold_right (fun _ z => kmul a z) k1 l).
    { intros l. assert (G : forall n m : list (car K), length n = length m -> fold_right (fun _ z => kmul a z) k1 n = fold_right (fun _ z => kmul a z) k1 m).
      { induction n as [|? n IHn]; intros [|? m] L; try discriminate L; [reflexivity|]. cbn [fold_right]. rewrite (IHn m) by (injection L; auto). reflexivity. }
      apply G, rev_length. }
    rewrite E. ring.
Qed.
Lemma horner_ok cs vs x a : Forall2 (R K C d) cs vs -> R K C d x a -> R K C d (horner o cs x) (peval vs a).
Proof.
  intros F Hx. unfold horner. assert (F' : Forall2 (R K C d) (rev cs) (rev vs)).
  { clear -F. induction F as [|c v cs vs H F IH]; cbn [rev]; [constructor|]. apply Forall2_app; [exact IH|]. constructor; [exact H|constructor]. }
  rewrite <- (rev_involutive vs). destruct F' as [|c v r ws H F']; [exact (r_zero _ _ _ _ HR)|].
  pose proof (horner_loop x a Hx r ws F' c v H) as G. cbn [rev]. rewrite peval_app. cbn [peval].
  assert (E : fold_right (fun _ z => kmul a z) k1 (rev ws) = fold_right (fun _ z => kmul a z) k1 ws).
  { assert (G2 : forall n m : list (car K), length n = length m -> fold_right (fun _ z => kmul a z) k1 n = fold_right (fun _ z => kmul a z) k1 m).
    { induction n as [|? n IHn]; intros [|? m] L; try discriminate L; [reflexivity|]. cbn [fold_right]. rewrite (IHn m) by (injection L; auto). reflexivity. }
    apply G2, rev_length. }
  rewrite E. destruct G as [C1 D1]. split; [exact C1|]. rewrite D1. ring.
Qed.
(** products of polynomials *)
Fixpoint padd2 (l m : list (car K)) : list (car K) := match l, m with [], _ => m | _, [] => l | a :: l, b :: m => kadd a b :: padd2 l m end.
Definition pscale (c : car K) (l : list (car K)) : list (car K) := map (kmul c) l.
Fixpoint pmul2 (l m : list (car K)) : list (car K) := match l with [] => [] | a :: l => padd2 (pscale a m) (k0 :: pmul2 l m) end.
Lemma padd2_ok x : forall l m, peval (padd2 l m) x = kadd (peval l x) (peval m x).
Proof. induction l as [|a l IH]; intros [|b m]; cbn [padd2 peval]; try ring. rewrite IH. ring. Qed.
Lemma pscale_ok x c l : peval (pscale c l) x = kmul c (peval l x).
Proof. unfold pscale. induction l as [|a l IH]; cbn [map peval]; [ring|]. rewrite IH. ring. Qed.
Lemma pmul2_ok x m : forall l, peval (pmul2 l m) x = kmul (peval l x) (peval m x).
Proof. induction l as [|a l IH]; cbn [pmul2 peval]; [ring|]. rewrite padd2_ok, pscale_ok. cbn [peval]. rewrite IH. ring. Qed.
End Horner.

(** polynomials over a representation of the field, to compute with *)
Section Q.
Context {T : Type} (o : fops T) (K : fieldOps) (C : T -> Prop) (d : T -> car K) (HR : represents o K C d).
Context (HF : field_theory (k0 : car K) k1 kadd kmul ksub kopp (fun x y => kmul x (kinv y)) kinv eq).
Add Field KfQ : HF.
Fixpoint qadd (l m : list T) : list T := match l, m with [], _ => m | _, [] => l | a :: l, b :: m => f_add o a b :: qadd l m end.
Definition qscale (c : T) (l : list T) : list T := map (f_mul o c) l.
Fixpoint qmul (l m : list T) : list T := match l with [] => [] | a :: l => qadd (qscale a m) (f_zero o :: qmul l m) end.
Fixpoint qeq (l m : list T) : bool :=
  match l, m with [], _ => forallb (f_isZero o) m | _, [] => forallb (f_isZero o) l | a :: l, b :: m => f_eq o a b && qeq l m end.
Notation RL := (Forall2 (R K C d)).
Lemma qadd_R : forall l vs, RL l vs -> forall m ws, RL m ws -> RL (qadd l m) (padd2 K vs ws).
Proof.
  induction 1 as [|a v l vs H F IH]; intros m ws G; [exact G|]. destruct G as [|b w m ws H' G]; cbn [qadd padd2]; [constructor; assumption|].
  constructor; [exact (R_add o K C d HR _ _ _ _ H H')|exact (IH _ _ G)].
Qed.
Lemma qscale_R c v : R K C d c v -> forall l vs, RL l vs -> RL (qscale c l) (pscale K v vs).
Proof. intros H. unfold qscale, pscale. induction 1; cbn [map]; constructor; auto. exact (R_mul o K C d HR _ _ _ _ H H0). Qed.
Lemma qmul_R : forall l vs, RL l vs -> forall m ws, RL m ws -> RL (qmul l m) (pmul2 K vs ws).
Proof.
  induction 1 as [|a v l vs H F IH]; intros m ws G; cbn [qmul pmul2]; [constructor|].
  apply qadd_R; [exact (qscale_R _ _ H _ _ G)|]. constructor; [exact (R_zero o K C d HR)|exact (IH _ _ G)].
Qed.
Lemma qz_R x : forall l vs, RL l vs -> forallb (f_isZero o) l = true -> peval vs x = k0.
Proof.
  induction 1 as [|a v l vs H F IH]; cbn [forallb peval]; intros E; [reflexivity|]. apply andb_prop in E. destruct E as [E1 E2].
  apply (r_isz _ _ _ _ HR _ (proj1 H)) in E1. rewrite (proj2 H) in E1. rewrite E1, (IH E2). ring.
Qed.
Lemma qeq_R x : forall l vs, RL l vs -> forall m ws, RL m ws -> qeq l m = true -> peval vs x = peval ws x.
Proof.
  induction 1 as [|a v l vs H F IH]; intros m ws G E.
  - symmetry. exact (qz_R x m ws G E).
  - destruct G as [|b w m ws H' G]; [exact (qz_R x (a :: l) (v :: vs) (Forall2_cons _ _ H F) E)|]. cbn [qeq peval] in *. apply andb_prop in E. destruct E as [E1 E2].
    apply (r_eq _ _ _ _ HR _ _ (proj1 H) (proj1 H')) in E1. rewrite (proj2 H), (proj2 H') in E1. rewrite E1, (IH _ _ G E2). reflexivity.
Qed.
End Q.

(** an isogeny to y^2 = x^3 + b, given by polynomials satisfying a few identities *)
Section Iso.
Context (K : fieldOps).
Context (HF : field_theory (k0 : car K) k1 kadd kmul ksub kopp (fun x y => kmul x (kinv y)) kinv eq).
Add Field KfI : HF.
Notation "0" := (@k0 K). Notation "1" := (@k1 K).
Infix "+" := (@kadd K). Infix "*" := (@kmul K). Infix "-" := (@ksub K). Notation "- x" := (@kopp K x). Notation "/ x" := (@kinv K x).
Context (A B b : car K) (xn xd yn yd dd ss tt : list (car K)).
Context (I1 : forall x, wrhs A B x * (peval yn x * peval yn x) = peval xn x * (peval xn x * peval xn x) + b * (peval xd x * (peval xd x * peval xd x))).
Context (I2 : forall x, peval xd x = peval dd x * peval dd x) (I3 : forall x, peval yd x = peval dd x * (peval dd x * peval dd x)).
Context (I4 : forall x, peval ss x * peval dd x + peval tt x * peval xn x = 1).
Context (no2 : forall x y, onb b (Aff x y) = true -> y <> 0).
Lemma mul_nz' (a c : car K) : a <> 0 -> c <> 0 -> a * c <> 0. Proof. exact (mul_nz K HF a c). Qed.
Lemma dd_nz x : peval xd x <> 0 -> peval dd x <> 0.
Proof. intros N E. apply N. rewrite I2, E. ring. Qed.
Lemma yd_nz x : peval xd x <> 0 -> peval yd x <> 0.
Proof. intros N. pose proof (dd_nz x N) as D. rewrite I3. apply mul_nz'; [exact D|]. apply mul_nz'; exact D. Qed.
Lemma iso_on x y : peval xd x <> 0 -> y * y = wrhs A B x -> onb b (Aff (peval xn x * / peval xd x) (y * (peval yn x * / peval yd x))) = true.
Proof.
  intros N E. pose proof (dd_nz x N) as D. apply (onb_ok K HF b). unfold onP, on. rewrite I3. pose proof (I1 x) as H. rewrite <- E in H. rewrite I2 in *.
  revert D H. generalize (peval dd x) (peval xn x) (peval yn x). intros D n m ND H.
  transitivity ((y * y * (m * m)) * / (D * D * D * D * D * D)); [field; exact ND|]. rewrite H. field. exact ND.
Qed.
Lemma iso_NR x : wrhs A B x <> 0.
Proof.
  intros E. assert (Y : 0 * 0 = wrhs A B x) by (rewrite E; ring).
  destruct (keq (peval xd x) 0) as [Z|N].
  - pose proof (I1 x) as H. rewrite E, Z in H. assert (C : peval xn x * (peval xn x * peval xn x) = 0) by (transitivity (peval xn x * (peval xn x * peval xn x) + b * (0 * (0 * 0))); [ring|rewrite <- H; ring]).
    assert (X0 : peval xn x = 0). { destruct (keq (peval xn x) 0) as [Q|Q]; [exact Q|]. exfalso. exact (mul_nz' _ _ Q (mul_nz' _ _ Q Q) C). }
    assert (D0 : peval dd x = 0). { destruct (keq (peval dd x) 0) as [Q|Q]; [exact Q|]. exfalso. apply (mul_nz' _ _ Q Q). rewrite <- I2. exact Z. }
    pose proof (I4 x) as H4. rewrite X0, D0 in H4. apply (F_1_neq_0 HF). rewrite <- H4. ring.
  - refine (no2 _ _ (iso_on x 0 N Y) _). ring.
Qed.
Lemma iso_spec x y : peval xd x <> 0 -> rational_map xn xd yn yd x y = Aff (peval xn x * / peval xd x) (y * (peval yn x * / peval yd x)).
Proof. intros N. unfold rational_map. destruct (keq (peval xd x) 0) as [E|_]; [contradiction|]. destruct (keq (peval yd x) 0) as [E|_]; [contradiction (yd_nz x N E)|]. reflexivity. Qed.
Lemma sswu_fun (sgn : car K -> bool) (Z u : car K) (HGN : forall a, a <> 0 -> sgn (- a) = negb (sgn a)) x y x' y' :
  sswu sgn A B Z u x y -> sswu sgn A B Z u x' y' -> x = x' /\ y = y'.
Proof.
  intros ([ [S ->]|[S ->] ] & E & G) ([ [S' ->]|[S' ->] ] & E' & G'); try contradiction; split; try reflexivity;
  (assert (Q : (y - y') * (y + y') = 0) by (unfold ksq in E, E'; transitivity (y * y - y' * y'); [ring|rewrite E, E'; ring]);
   destruct (keq y y') as [Y|Y]; [exact Y|]; exfalso;
   assert (M : y - y' <> 0) by (intros X; apply Y; transitivity (y - y' + y'); [ring|rewrite X; ring]);
   assert (P0 : y + y' = 0) by (destruct (keq (y + y') 0) as [X|X]; [exact X|exfalso; exact (mul_nz' _ _ M X Q)]);
   assert (Yn : y' = - y) by (transitivity (y + y' - y); [ring|rewrite P0; ring]);
   assert (Y0 : y <> 0) by (intros X; apply Y; rewrite Yn, X; ring);
   rewrite Yn, HGN in G' by exact Y0; rewrite G in G'; destruct (sgn u); discriminate G').
Qed.
End Iso.
