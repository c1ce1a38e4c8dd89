(** The in-place operations of ModelAlias.v agree with the functions of the value-level model. *)
From Coq Require Import ZArith List Bool Lia.
From Verif Require Import SpecField FieldProof FpProof FpProof2 TowerRefine.
From Verif Require Import SpecAlias ModelWord ModelScalar ModelFp ModelTower ModelCurve ModelPairing PortArith ModelAlias.
Import ListNotations.
Local Open Scope Z_scope.


Lemma st_eq {V} (m : Z -> V) a v x : x = a -> st m a v x = v.
Proof. intros ->. unfold st. rewrite Z.eqb_refl. reflexivity. Qed.
Lemma st_ne {V} (m : Z -> V) a v x : x <> a -> st m a v x = m x.
Proof. intros H. unfold st. destruct (Z.eqb_spec x a); [contradiction|reflexivity]. Qed.
Ltac stl := repeat match goal with
  | |- context [st ?m ?a ?v ?x] => first [rewrite (st_ne m a v x) by lia | rewrite (st_eq m a v x) by lia]
  end.

Lemma ld2_eq m a v x : x = a -> ld2 (st2 m a v) x = v.
Proof. intros ->. unfold ld2, st2. stl. destruct v. reflexivity. Qed.
Lemma ld2_ne m a v x : x + 2 <= a \/ a + 2 <= x -> ld2 (st2 m a v) x = ld2 m x.
Proof. intros H. unfold ld2, st2. stl. reflexivity. Qed.
Lemma st2_ne m a v x : x < a \/ a + 2 <= x -> st2 m a v x = m x.
Proof. intros H. unfold st2. stl. reflexivity. Qed.
Ltac st2l := repeat match goal with
  | |- context [ld2 (st2 ?m ?a ?v) ?x] => first [rewrite (ld2_ne m a v x) by lia | rewrite (ld2_eq m a v x) by lia]
  | |- context [st2 ?m ?a ?v ?x] => rewrite (st2_ne m a v x) by lia
  end.
Lemma ld6_eq m a v x : x = a -> ld6 (st6 m a v) x = v.
Proof. intros ->. unfold ld6, st6. st2l. destruct v. reflexivity. Qed.
Lemma ld6_ne m a v x : x + 6 <= a \/ a + 6 <= x -> ld6 (st6 m a v) x = ld6 m x.
Proof. intros H. unfold ld6, st6. st2l. reflexivity. Qed.
Lemma st6_ne m a v x : x < a \/ a + 6 <= x -> st6 m a v x = m x.
Proof. intros H. unfold st6. st2l. reflexivity. Qed.
Ltac st6l := repeat match goal with
  | |- context [ld6 (st6 ?m ?a ?v) ?x] => first [rewrite (ld6_ne m a v x) by lia | rewrite (ld6_eq m a v x) by lia]
  | |- context [st6 ?m ?a ?v ?x] => rewrite (st6_ne m a v x) by lia
  end.
Ltac cases H := destruct H as [<-|H].

(** ** fp2 *)
Ltac prim2 f := intros; unfold f, unchanged_outside, ld2; cbv zeta; split; [|intros; stl; reflexivity].
Lemma fp2_addAssign_m_ok m a e : same_or_apart 2 a e ->
  ld2 (fp2_addAssign_m m a e) a = fp2_add (ld2 m a) (ld2 m e) /\ unchanged_outside 2 a m (fp2_addAssign_m m a e).
Proof. intros H. unfold same_or_apart in H. prim2 fp2_addAssign_m. cases H; stl; reflexivity. Qed.
Lemma fp2_subtractAssign_m_ok m a e : same_or_apart 2 a e ->
  ld2 (fp2_subtractAssign_m m a e) a = fp2_sub (ld2 m a) (ld2 m e) /\ unchanged_outside 2 a m (fp2_subtractAssign_m m a e).
Proof. intros H. unfold same_or_apart in H. prim2 fp2_subtractAssign_m. cases H; stl; reflexivity. Qed.
Lemma fp2_doubleAssign_m_ok m a :
  ld2 (fp2_doubleAssign_m m a) a = fp2_dbl (ld2 m a) /\ unchanged_outside 2 a m (fp2_doubleAssign_m m a).
Proof. prim2 fp2_doubleAssign_m. stl. reflexivity. Qed.
Lemma fp2_multiplyAssign_m_ok m a e : same_or_apart 2 a e ->
  ld2 (fp2_multiplyAssign_m m a e) a = fp2_mul (ld2 m a) (ld2 m e) /\ unchanged_outside 2 a m (fp2_multiplyAssign_m m a e).
Proof. intros H. unfold same_or_apart in H. prim2 fp2_multiplyAssign_m. cases H; stl; reflexivity. Qed.
Lemma fp2_squareAssign_m_ok m a :
  ld2 (fp2_squareAssign_m m a) a = fp2_sqr (ld2 m a) /\ unchanged_outside 2 a m (fp2_squareAssign_m m a).
Proof. prim2 fp2_squareAssign_m. stl. reflexivity. Qed.
Lemma fp2_frobeniusMapAssign_m_ok m a power :
  ld2 (fp2_frobeniusMapAssign_m m a power) a = fp2_frob (ld2 m a) power /\ unchanged_outside 2 a m (fp2_frobeniusMapAssign_m m a power).
Proof.
  unfold fp2_frobeniusMapAssign_m, fp2_frob, unchanged_outside, ld2. cbn [c0 c1].
  destruct (power mod 2 =? 1); [split; intros; stl; reflexivity|split; reflexivity].
Qed.
Lemma fp_sqrt_m_ok m a c : let (ok, m') := fp_sqrt_m m a c in
  (ok, m' c) = fp_sqrt (m a) /\ unchanged_outside 1 c m m'.
Proof.
  unfold fp_sqrt_m, fp_sqrt, unchanged_outside. cbv zeta. generalize (fp_exp (m a) (limbs_of 6 pPlus1Over4)). intros r.
  split; [stl; reflexivity|intros; stl; reflexivity].
Qed.
Lemma fp2_sqrt_m_ok m a c : let (ok, m') := fp2_sqrt_m m a c in
  (ok, ld2 m' c) = fp2_sqrt (ld2 m a) /\ unchanged_outside 2 c m m'.
Proof.
  unfold fp2_sqrt_m, fp2_sqrt. cbv zeta. generalize (fp2_exp (ld2 m a) (limbs_of 6 pMinus3Over4)). intros a1.
  destruct (fp2_equal (fp2_mul (fp2_sqr a1) (ld2 m a)) negativeOne2).
  - unfold unchanged_outside. split; [unfold ld2 at 1; stl; reflexivity|intros; stl; reflexivity].
  - generalize (fp2_mul (fp2_exp (fp2_add (fp2_mul (fp2_sqr a1) (ld2 m a)) fp2_one) (limbs_of 6 pMinus1Over2)) (fp2_mul a1 (ld2 m a))).
    intros r. unfold unchanged_outside. split; [st2l; reflexivity|intros; st2l; reflexivity].
Qed.

(** ** fp6 *)
Lemma ld2_out n a m m' x : unchanged_outside n a m m' -> x + 2 <= a \/ a + n <= x -> ld2 m' x = ld2 m x.
Proof. intros H K. unfold ld2. rewrite !H by lia. reflexivity. Qed.
Lemma ld6_out n a m m' x : unchanged_outside n a m m' -> x + 6 <= a \/ a + n <= x -> ld6 m' x = ld6 m x.
Proof. intros H K. unfold ld6. rewrite !(ld2_out n a m m') by (exact H || lia). reflexivity. Qed.
(** three in-place updates of consecutive components *)
Lemma three (f : fp2 -> fp2 -> fp2) (F : (Z -> Z) -> Z -> Z -> Z -> Z)
  (HF : forall m a e, same_or_apart 2 a e -> ld2 (F m a e) a = f (ld2 m a) (ld2 m e) /\ unchanged_outside 2 a m (F m a e)) m a e :
  same_or_apart 6 a e ->
  let m' := F (F (F m a e) (a + 2) (e + 2)) (a + 4) (e + 4) in
  ld6 m' a = mk6 (f (ld2 m a) (ld2 m e)) (f (ld2 m (a + 2)) (ld2 m (e + 2))) (f (ld2 m (a + 4)) (ld2 m (e + 4))) /\
  unchanged_outside 6 a m m'.
Proof.
  intros H m'. unfold m'. clear m'. unfold same_or_apart in H.
  destruct (HF m a e) as [V1 O1]; [unfold same_or_apart; lia|]. set (m1 := F m a e) in *.
  destruct (HF m1 (a + 2) (e + 2)) as [V2 O2]; [unfold same_or_apart; lia|]. set (m2 := F m1 (a + 2) (e + 2)) in *.
  destruct (HF m2 (a + 4) (e + 4)) as [V3 O3]; [unfold same_or_apart; lia|]. set (m3 := F m2 (a + 4) (e + 4)) in *.
  clearbody m1 m2 m3. split.
  - unfold ld6. rewrite V3. rewrite (ld2_out _ _ _ _ a O3), (ld2_out _ _ _ _ (a + 2) O3) by lia. rewrite V2.
    rewrite (ld2_out _ _ _ _ a O2) by lia. rewrite V1.
    rewrite (ld2_out _ _ _ _ (a + 4) O2), (ld2_out _ _ _ _ (a + 4) O1), (ld2_out _ _ _ _ (a + 2) O1) by lia.
    f_equal; [f_equal|f_equal].
    + cases H; apply (ld2_out _ _ _ _ _ O1); lia.
    + cases H.
      * rewrite (ld2_out _ _ _ _ (a + 4) O2), (ld2_out _ _ _ _ (a + 4) O1) by lia. reflexivity.
      * rewrite (ld2_out _ _ _ _ (e + 4) O2), (ld2_out _ _ _ _ (e + 4) O1) by lia. reflexivity.
  - intros x Hx. rewrite O3, O2, O1 by lia. reflexivity.
Qed.
Lemma fp6_addAssign_m_ok m a e : same_or_apart 6 a e ->
  ld6 (fp6_addAssign_m m a e) a = fp6_add (ld6 m a) (ld6 m e) /\ unchanged_outside 6 a m (fp6_addAssign_m m a e).
Proof. exact (three fp2_add fp2_addAssign_m fp2_addAssign_m_ok m a e). Qed.
Lemma fp6_subtractAssign_m_ok m a e : same_or_apart 6 a e ->
  ld6 (fp6_subtractAssign_m m a e) a = fp6_sub (ld6 m a) (ld6 m e) /\ unchanged_outside 6 a m (fp6_subtractAssign_m m a e).
Proof. exact (three fp2_sub fp2_subtractAssign_m fp2_subtractAssign_m_ok m a e). Qed.
Lemma fp6_doubleAssign_m_ok m a :
  ld6 (fp6_doubleAssign_m m a) a = fp6_dbl (ld6 m a) /\ unchanged_outside 6 a m (fp6_doubleAssign_m m a).
Proof.
  exact (three (fun x _ => fp2_dbl x) (fun m a _ => fp2_doubleAssign_m m a) (fun m a _ _ => fp2_doubleAssign_m_ok m a) m a a (or_introl eq_refl)).
Qed.
Lemma fp6_multiplyAssign_m_ok m a e : same_or_apart 6 a e ->
  ld6 (fp6_multiplyAssign_m m a e) a = fp6_mul (ld6 m a) (ld6 m e) /\ unchanged_outside 6 a m (fp6_multiplyAssign_m m a e).
Proof.
  intros H. unfold same_or_apart in H. unfold fp6_multiplyAssign_m, unchanged_outside. cbv zeta. split.
  - unfold ld6. cases H; st2l; reflexivity.
  - intros x Hx. st2l. reflexivity.
Qed.
Lemma fp6_squareAssign_m_ok m a :
  ld6 (fp6_squareAssign_m m a) a = fp6_sqr (ld6 m a) /\ unchanged_outside 6 a m (fp6_squareAssign_m m a).
Proof.
  unfold fp6_squareAssign_m, unchanged_outside. cbv zeta. split.
  - unfold ld6. st2l; reflexivity.
  - intros x Hx. st2l. reflexivity.
Qed.
Lemma fp6_mulBy01Assign_m_ok m a x0 x1 : apart_or_c01 a x0 -> apart_or_c01 a x1 ->
  ld6 (fp6_mulBy01Assign_m m a x0 x1) a = fp6_mulBy01Assign (ld6 m a) (ld2 m x0) (ld2 m x1) /\
  unchanged_outside 6 a m (fp6_mulBy01Assign_m m a x0 x1).
Proof.
  intros H0 H1. unfold apart_or_c01 in *. unfold fp6_mulBy01Assign_m, unchanged_outside. cbv zeta. split.
  - unfold ld6. st2l. reflexivity.
  - intros x Hx. st2l. reflexivity.
Qed.
Lemma fp6_frobeniusMapAssign_m_ok m a power :
  ld6 (fp6_frobeniusMapAssign_m m a power) a = fp6_frobAssign (ld6 m a) power /\
  unchanged_outside 6 a m (fp6_frobeniusMapAssign_m m a power).
Proof.
  unfold fp6_frobeniusMapAssign_m, fp6_frobAssign. cbv zeta.
  destruct (three (fun x _ => fp2_frob x power) (fun m a _ => fp2_frobeniusMapAssign_m m a power)
    (fun m a _ _ => fp2_frobeniusMapAssign_m_ok m a power) m a a (or_introl eq_refl)) as [V O].
  set (m3 := fp2_frobeniusMapAssign_m _ (a + 4) power) in *. clearbody m3.
  change (ld6 m3 a) with (mk6 (ld2 m3 a) (ld2 m3 (a + 2)) (ld2 m3 (a + 4))) in V. cbn [d0 d1 d2 ld6].
  destruct (power mod 6 =? 0); [split; [exact V|exact O]|].
  assert (V0 : ld2 m3 a = fp2_frob (ld2 m a) power) by exact (f_equal d0 V).
  assert (V1 : ld2 m3 (a + 2) = fp2_frob (ld2 m (a + 2)) power) by exact (f_equal d1 V).
  assert (V2 : ld2 m3 (a + 4) = fp2_frob (ld2 m (a + 4)) power) by exact (f_equal d2 V).
  rewrite <- V0, <- V1, <- V2. clear V V0 V1 V2.
  destruct (power mod 6 =? 3); split.
  - unfold ld6. st2l. unfold ld2. stl.
    replace (a + 2 + 1) with (a + 3) by lia. stl. reflexivity.
  - intros x Hx. unfold st2. stl. apply O, Hx.
  - unfold ld6. st2l. reflexivity.
  - intros x Hx. st2l. apply O, Hx.
Qed.

(** ** fp12 *)
Lemma two (f : fp6 -> fp6 -> fp6) (F : (Z -> Z) -> Z -> Z -> Z -> Z)
  (HF : forall m a e, same_or_apart 6 a e -> ld6 (F m a e) a = f (ld6 m a) (ld6 m e) /\ unchanged_outside 6 a m (F m a e)) m a e :
  same_or_apart 12 a e ->
  let m' := F (F m a e) (a + 6) (e + 6) in
  ld12 m' a = mk12 (f (ld6 m a) (ld6 m e)) (f (ld6 m (a + 6)) (ld6 m (e + 6))) /\ unchanged_outside 12 a m m'.
Proof.
  intros H m'. unfold m'. clear m'. unfold same_or_apart in H.
  destruct (HF m a e) as [V1 O1]; [unfold same_or_apart; lia|]. set (m1 := F m a e) in *.
  destruct (HF m1 (a + 6) (e + 6)) as [V2 O2]; [unfold same_or_apart; lia|]. set (m2 := F m1 (a + 6) (e + 6)) in *.
  clearbody m1 m2. split.
  - unfold ld12. rewrite V2, (ld6_out _ _ _ _ a O2), V1 by lia. f_equal.
    rewrite (ld6_out _ _ _ _ (a + 6) O1) by lia. f_equal.
    cases H; apply (ld6_out _ _ _ _ _ O1); lia.
  - intros x Hx. rewrite O2, O1 by lia. reflexivity.
Qed.
Lemma fp12_addAssign_m_ok m a e : same_or_apart 12 a e ->
  ld12 (fp12_addAssign_m m a e) a = fp12_add (ld12 m a) (ld12 m e) /\ unchanged_outside 12 a m (fp12_addAssign_m m a e).
Proof. exact (two fp6_add fp6_addAssign_m fp6_addAssign_m_ok m a e). Qed.
Lemma fp12_subtractAssign_m_ok m a e : same_or_apart 12 a e ->
  ld12 (fp12_subtractAssign_m m a e) a = fp12_sub (ld12 m a) (ld12 m e) /\ unchanged_outside 12 a m (fp12_subtractAssign_m m a e).
Proof. exact (two fp6_sub fp6_subtractAssign_m fp6_subtractAssign_m_ok m a e). Qed.
Lemma fp12_doubleAssign_m_ok m a :
  ld12 (fp12_doubleAssign_m m a) a = fp12_dbl (ld12 m a) /\ unchanged_outside 12 a m (fp12_doubleAssign_m m a).
Proof.
  exact (two (fun x _ => fp6_dbl x) (fun m a _ => fp6_doubleAssign_m m a) (fun m a _ _ => fp6_doubleAssign_m_ok m a) m a a (or_introl eq_refl)).
Qed.
Lemma fp12_squareAssign_m_ok m a :
  ld12 (fp12_squareAssign_m m a) a = fp12_sqr (ld12 m a) /\ unchanged_outside 12 a m (fp12_squareAssign_m m a).
Proof.
  unfold fp12_squareAssign_m, unchanged_outside. cbv zeta. split.
  - unfold ld12. st6l. reflexivity.
  - intros x Hx. st6l. reflexivity.
Qed.
Lemma fp12_multiplyAssign_m_ok m a e : same_or_apart 12 a e ->
  ld12 (fp12_multiplyAssign_m m a e) a = fp12_mul (ld12 m a) (ld12 m e) /\ unchanged_outside 12 a m (fp12_multiplyAssign_m m a e).
Proof.
  intros H. unfold same_or_apart in H. unfold fp12_multiplyAssign_m, unchanged_outside. cbv zeta. split.
  - unfold ld12. cases H; st6l; reflexivity.
  - intros x Hx. st6l. reflexivity.
Qed.
(** no condition on e0, e1, e4 at all *)
Lemma fp12_mulBy014Assign_m_ok m a x0 x1 x4 :
  ld12 (fp12_mulBy014Assign_m m a x0 x1 x4) a = fp12_mulBy014 (ld12 m a) (ld2 m x0) (ld2 m x1) (ld2 m x4) /\
  unchanged_outside 12 a m (fp12_mulBy014Assign_m m a x0 x1 x4).
Proof.
  unfold fp12_mulBy014Assign_m, unchanged_outside. cbv zeta. split.
  - unfold ld12. st6l. reflexivity.
  - intros x Hx. st6l. reflexivity.
Qed.
Lemma fp12_cyclotomicSquareAssign_m_ok m a :
  ld12 (fp12_cyclotomicSquareAssign_m m a) a = fp12_cycSqr (ld12 m a) /\
  unchanged_outside 12 a m (fp12_cyclotomicSquareAssign_m m a).
Proof.
  unfold fp12_cyclotomicSquareAssign_m, fp12_cycSqr, unchanged_outside. cbv zeta.
  unfold ld12, ld6. cbn [e0 e1 d0 d1 d2].
  destruct (fp4Square (ld2 m a) (ld2 m (a + 8))) as [t3 t4] eqn:E1.
  replace (a + 6 + 2) with (a + 8) by lia. replace (a + 6 + 4) with (a + 10) by lia.
  st2l. rewrite E1.
  destruct (fp4Square (ld2 m (a + 6)) (ld2 m (a + 4))) as [u3 u4].
  destruct (fp4Square (ld2 m (a + 2)) (ld2 m (a + 10))) as [u5 u6].
  split.
  - st2l. reflexivity.
  - intros x Hx. st2l. reflexivity.
Qed.
Lemma fp12_frobeniusMapAssign_m_ok m a power : 0 <= power < 12 ->
  fp12_frobAssign_opt (ld12 m a) power = Some (ld12 (fp12_frobeniusMapAssign_m m a power) a) /\
  unchanged_outside 12 a m (fp12_frobeniusMapAssign_m m a power).
Proof.
  intros P. unfold fp12_frobeniusMapAssign_m, fp12_frobAssign_opt, fp12_frob_with. cbv zeta. cbn [e0 e1 ld12].
  destruct (two (fun x _ => fp6_frobAssign x power) (fun m a _ => fp6_frobeniusMapAssign_m m a power)
    (fun m a _ _ => fp6_frobeniusMapAssign_m_ok m a power) m a a (or_introl eq_refl)) as [V O].
  set (m2 := fp6_frobeniusMapAssign_m _ (a + 6) power) in *. clearbody m2.
  change (ld12 m2 a) with (mk12 (ld6 m2 a) (ld6 m2 (a + 6))) in V.
  assert (V0 : ld6 m2 a = fp6_frobAssign (ld6 m a) power) by exact (f_equal e0 V).
  assert (V1 : ld6 m2 (a + 6) = fp6_frobAssign (ld6 m (a + 6)) power) by exact (f_equal e1 V).
  rewrite <- V0, <- V1. clear V V0 V1.
  destruct (power =? 0); [split; [reflexivity|exact O]|].
  destruct (power =? 6).
  - split; [unfold ld12; st6l; reflexivity|]. intros x Hx. st6l. apply O, Hx.
  - destruct (Z.ltb_spec power 12); [|lia].
    split; [unfold ld12; st6l; reflexivity|]. intros x Hx. st6l. apply O, Hx.
Qed.

(** ** Curve points *)
Section G.
Context {T : Type} (o : fops T).
Lemma copyj_m_ok (m : Z -> T) a e : same_or_apart 3 a e -> ldj (copyj_m m a e) a = ldj m e /\ unchanged_outside 3 a m (copyj_m m a e).
Proof.
  intros H. unfold same_or_apart in H. unfold copyj_m, unchanged_outside, ldj. cbv zeta.
  split; [cases H; stl; reflexivity|intros; stl; reflexivity].
Qed.
Lemma j_doubleAssign_m_ok (m : Z -> T) a :
  ldj (j_doubleAssign_m o m a) a = j_dbl o (ldj m a) /\ unchanged_outside 3 a m (j_doubleAssign_m o m a).
Proof.
  unfold j_doubleAssign_m, j_dbl, j_isZero, unchanged_outside. cbv zeta. cbn [jx jy jz ldj].
  destruct (f_isZero o (m (a + 2))); [split; [reflexivity|reflexivity]|].
  split; [unfold ldj; stl; reflexivity|intros; stl; reflexivity].
Qed.
Lemma j_addAssign_m_ok (m : Z -> T) a e : same_or_apart 3 a e ->
  ldj (j_addAssign_m o m a e) a = j_add o (ldj m a) (ldj m e) /\ unchanged_outside 3 a m (j_addAssign_m o m a e).
Proof.
  intros H. unfold j_addAssign_m, j_add, j_isZero. cbv zeta. cbn [jx jy jz ldj].
  destruct (f_isZero o (m (a + 2))); [apply copyj_m_ok, H|].
  destruct (f_isZero o (m (e + 2))); [split; [reflexivity|unfold unchanged_outside; reflexivity]|].
  destruct (f_eq o (f_mul o (m e) (f_sqr o (m (a + 2)))) (f_mul o (m a) (f_sqr o (m (e + 2))))).
  - destruct (f_eq o _ _); [apply j_doubleAssign_m_ok|].
    unfold unchanged_outside, stj, ldj. split; [stl; reflexivity|intros; stl; reflexivity].
  - unfold same_or_apart in H. unfold unchanged_outside. split; [|intros; stl; reflexivity].
    unfold ldj. cases H; stl; reflexivity.
Qed.
Lemma j_subtractAssign_m_ok (m : Z -> T) a e tmp : tmp + 3 <= a \/ a + 3 <= tmp ->
  ldj (j_subtractAssign_m o m a e tmp) a = j_sub o (ldj m a) (ldj m e) /\
  forall x, x < a \/ a + 3 <= x -> x < tmp \/ tmp + 3 <= x -> j_subtractAssign_m o m a e tmp x = m x.
Proof.
  intros H. unfold j_subtractAssign_m, j_sub.
  destruct (j_addAssign_m_ok (stj m tmp (j_neg o (ldj m e))) a tmp) as [V O]; [unfold same_or_apart; lia|].
  split.
  - rewrite V. f_equal; unfold ldj, stj; stl; [reflexivity|]. destruct (j_neg o _). reflexivity.
  - intros x Hx Hy. rewrite O by exact Hx. unfold stj. stl. reflexivity.
Qed.
End G.

(** ** Pairing steps *)
Definition ldc (m : Z -> fp2) (a : Z) : ellc := (m a, m (a + 1), m (a + 2)).
Lemma doubling_step_m_ok m c r : c + 3 <= r \/ r + 3 <= c ->
  (ldc (doubling_step_m m c r) c, ldj (doubling_step_m m c r) r) = doubling_step (ldj m r) /\
  unchanged_outside_two c r m (doubling_step_m m c r).
Proof.
  intros H. unfold doubling_step_m, unchanged_outside_two. cbv zeta. split; [|intros; stl; reflexivity].
  unfold ldc, ldj. stl. reflexivity.
Qed.
Lemma addition_step_m_ok m c r tp : c + 3 <= r \/ r + 3 <= c -> tp + 3 <= r \/ r + 3 <= tp -> 
  (ldc (addition_step_m m c r tp) c, ldj (addition_step_m m c r tp) r) = addition_step (ldj m r) (ldj m tp) /\
  unchanged_outside_two c r m (addition_step_m m c r tp).
Proof.
  intros H K. unfold addition_step_m, unchanged_outside_two. cbv zeta. split; [|intros; stl; reflexivity].
  unfold ldc, ldj. stl. reflexivity.
Qed.

(** ** Portable field arithmetic on limbs *)
Ltac norm := repeat match goal with |- context [?a + 1 + 1] => replace (a + 1 + 1) with (a + 2) by lia
  | |- context [?a + 2 + 1] => replace (a + 2 + 1) with (a + 3) by lia | |- context [?a + 3 + 1] => replace (a + 3 + 1) with (a + 4) by lia
  | |- context [?a + 4 + 1] => replace (a + 4 + 1) with (a + 5) by lia | |- context [?a + 5 + 1] => replace (a + 5 + 1) with (a + 6) by lia
  | |- context [?a + 2 + 2] => replace (a + 2 + 2) with (a + 4) by lia | |- context [?a + 2 + 3] => replace (a + 2 + 3) with (a + 5) by lia
  | |- context [?a + 2 + 4] => replace (a + 2 + 4) with (a + 6) by lia end.
Ltac chain := match goal with
  | |- context [Add64 ?x ?y ?c] => destruct (Add64 x y c) as [? ?]
  | |- context [Sub64 ?x ?y ?c] => destruct (Sub64 x y c) as [? ?] end.
Lemma add_mem_ok m z x y : same_or_apart 6 z x -> same_or_apart 6 z y ->
  ldn (fst (add_mem 6 m z x y 0)) z = fst (add_chain (ldn m x) (ldn m y)) /\
  unchanged_outside 6 z m (fst (add_mem 6 m z x y 0)).
Proof.
  intros H K. unfold same_or_apart in *. unfold add_chain, ldn, unchanged_outside.
  cbn [add_mem add_loop limb nth]. norm.
  cases H; cases K; do 6 (chain; stl); cbn [fst]; (split; [stl; reflexivity|intros; stl; reflexivity]).
Qed.
Lemma sub_mem_ok m z x y : same_or_apart 6 z x -> same_or_apart 6 z y ->
  ldn (fst (sub_mem 6 m z x y 0)) z = fst (sub_chain (ldn m x) (ldn m y)) /\
  snd (sub_mem 6 m z x y 0) = snd (sub_chain (ldn m x) (ldn m y)) /\
  unchanged_outside 6 z m (fst (sub_mem 6 m z x y 0)).
Proof.
  intros H K. unfold same_or_apart in *. unfold sub_chain, ldn, unchanged_outside.
  cbn [sub_mem sub_loop limb nth]. norm.
  cases H; cases K; do 6 (chain; stl); cbn [fst snd]; (split; [stl; reflexivity|split; [reflexivity|intros; stl; reflexivity]]).
Qed.
Lemma subc_mem_ok m z : ldn (subc_mem m z z MODl 0) z = fst (sub_chain (ldn m z) MODl) /\ unchanged_outside 6 z m (subc_mem m z z MODl 0).
Proof.
  unfold sub_chain, ldn, unchanged_outside, MODl. cbn [subc_mem sub_loop limb nth]. norm.
  do 6 (chain; stl); cbn [fst]; (split; [stl; reflexivity|intros; stl; reflexivity]).
Qed.
Lemma addc_mem_ok m z : ldn (addc_mem m z z MODl 0) z = fst (add_chain (ldn m z) MODl) /\ unchanged_outside 6 z m (addc_mem m z z MODl 0).
Proof.
  unfold add_chain, ldn, unchanged_outside, MODl. cbn [addc_mem add_loop limb nth]. norm.
  do 6 (chain; stl); cbn [fst]; (split; [stl; reflexivity|intros; stl; reflexivity]).
Qed.
Lemma csub_mem_ok m z x : same_or_apart 6 z x ->
  ldn (csub_mem m z x MODl 0) z = fst (sub_chain MODl (ldn m x)) /\ unchanged_outside 6 z m (csub_mem m z x MODl 0).
Proof.
  intros H. unfold same_or_apart in *. unfold sub_chain, ldn, unchanged_outside, MODl. cbn [csub_mem sub_loop limb nth]. norm.
  cases H; do 6 (chain; stl); cbn [fst]; (split; [stl; reflexivity|intros; stl; reflexivity]).
Qed.
Lemma reduce_mem_ok m z : ldn (reduce_mem m z) z = reduce_once (ldn m z) /\ unchanged_outside 6 z m (reduce_mem m z).
Proof.
  unfold reduce_mem, reduce_once. destruct (cmp_loop 6 (ldn m z) MODl);
    [apply subc_mem_ok|split; [reflexivity|unfold unchanged_outside; reflexivity]|apply subc_mem_ok].
Qed.
Lemma unchanged_trans {V} n a (m m1 m2 : Z -> V) : unchanged_outside n a m m1 -> unchanged_outside n a m1 m2 -> unchanged_outside n a m m2.
Proof. intros H K x Hx. rewrite K by exact Hx. apply H, Hx. Qed.
Lemma add_m_ok m z x y : same_or_apart 6 z x -> same_or_apart 6 z y ->
  ldn (add_m m z x y) z = p_add (ldn m x) (ldn m y) /\ unchanged_outside 6 z m (add_m m z x y).
Proof.
  intros H K. destruct (add_mem_ok m z x y H K) as [V O]. unfold add_m, p_add. rewrite <- V.
  destruct (reduce_mem_ok (fst (add_mem 6 m z x y 0)) z) as [V' O']. split; [exact V'|exact (unchanged_trans _ _ _ _ _ O O')].
Qed.
Lemma ladd_m_ok m z x y : same_or_apart 6 z x -> same_or_apart 6 z y ->
  ldn (ladd_m m z x y) z = p_ladd (ldn m x) (ldn m y) /\ unchanged_outside 6 z m (ladd_m m z x y).
Proof. exact (add_mem_ok m z x y). Qed.
Lemma double_m_ok m z x : same_or_apart 6 z x ->
  ldn (double_m m z x) z = p_double (ldn m x) /\ unchanged_outside 6 z m (double_m m z x).
Proof. intros H. exact (add_m_ok m z x x H H). Qed.
Lemma ldouble_m_ok m z x : same_or_apart 6 z x ->
  ldn (ldouble_m m z x) z = p_ldouble (ldn m x) /\ unchanged_outside 6 z m (ldouble_m m z x).
Proof. intros H. exact (add_mem_ok m z x x H H). Qed.
Lemma subtract_m_ok m z x y : same_or_apart 6 z x -> same_or_apart 6 z y ->
  ldn (subtract_m m z x y) z = p_subtract (ldn m x) (ldn m y) /\ unchanged_outside 6 z m (subtract_m m z x y).
Proof.
  intros H K. destruct (sub_mem_ok m z x y H K) as (V & B & O). unfold subtract_m, p_subtract.
  destruct (sub_mem 6 m z x y 0) as [m1 b]. destruct (sub_chain (ldn m x) (ldn m y)) as [s b']. cbn [fst snd] in *. subst s b'.
  destruct (b =? 0); [split; [reflexivity|exact O]|].
  destruct (addc_mem_ok m1 z) as [V' O']. split; [exact V'|exact (unchanged_trans _ _ _ _ _ O O')].
Qed.
Lemma lsubtract_m_ok m z x y : same_or_apart 6 z x -> same_or_apart 6 z y ->
  ldn (lsubtract_m m z x y) z = p_lsubtract (ldn m x) (ldn m y) /\ unchanged_outside 6 z m (lsubtract_m m z x y).
Proof. intros H K. destruct (sub_mem_ok m z x y H K) as (V & _ & O). split; [exact V|exact O]. Qed.
Lemma negate_m_ok m z x : same_or_apart 6 z x ->
  ldn (negate_m m z x) z = p_negate (ldn m x) /\ unchanged_outside 6 z m (negate_m m z x).
Proof.
  intros H. unfold negate_m, p_negate. destruct (forallb _ (ldn m x)); [|apply csub_mem_ok, H].
  unfold same_or_apart in H. unfold copy_m, ldn, unchanged_outside. cbv zeta.
  split; [cases H; stl; reflexivity|intros; stl; reflexivity].
Qed.
Lemma multiply_m_ok m z x y : same_or_apart 6 z x -> same_or_apart 6 z y ->
  ldn (multiply_m m z x y) z = p_multiply (ldn m x) (ldn m y) /\ unchanged_outside 6 z m (multiply_m m z x y).
Proof.
  intros H K. unfold multiply_m, p_multiply. cbv zeta.
  set (t := p_round (limb (ldn m x) 4) _ _). clearbody t.
  unfold p_round. cbv zeta. change (limb (ldn m x) 5) with (m (x + 5)). change (limb (ldn m y) 0) with (m y).
  change (limb (ldn m y) 1) with (m (y + 1)). change (limb (ldn m y) 2) with (m (y + 2)). change (limb (ldn m y) 3) with (m (y + 3)).
  change (limb (ldn m y) 4) with (m (y + 4)). change (limb (ldn m y) 5) with (m (y + 5)).
  generalize (limb MODl 0), (limb MODl 1), (limb MODl 2), (limb MODl 3), (limb MODl 4), (limb MODl 5). intros M0 M1 M2 M3 M4 M5.
  unfold same_or_apart in *.
  destruct (madd1 (m (x + 5)) (m y) (limb t 0)) as [q1 q0].
  destruct (madd2 (m (x + 5)) (m (y + 1)) q1 (limb t 1)) as [r1 r0].
  destruct (madd2 _ M1 _ r0) as [s1 z0].
  replace (st m z z0 (y + 2)) with (m (y + 2)) by (symmetry; cases K; apply st_ne; lia).
  destruct (madd2 _ _ r1 _) as [u1 u0]. destruct (madd2 _ M2 _ u0) as [s2 z1].
  replace (st (st m z z0) (z + 1) z1 (y + 3)) with (m (y + 3)) by (symmetry; cases K; stl; reflexivity).
  destruct (madd2 _ _ u1 _) as [v1 v0]. destruct (madd2 _ M3 _ v0) as [s3 z2].
  replace (st (st (st m z z0) (z + 1) z1) (z + 2) z2 (y + 4)) with (m (y + 4)) by (symmetry; cases K; stl; reflexivity).
  destruct (madd2 _ _ v1 _) as [w1 w0]. destruct (madd2 _ M4 _ w0) as [s4 z3].
  replace (st (st (st (st m z z0) (z + 1) z1) (z + 2) z2) (z + 3) z3 (y + 5)) with (m (y + 5)) by (symmetry; cases K; stl; reflexivity).
  destruct (madd2 _ _ w1 _) as [x1 x0]. destruct (madd3 _ M5 _ _ _) as [z5 z4].
  set (m1 := st _ (z + 4) z4).
  destruct (reduce_mem_ok m1 z) as [V' O'].
  replace [z0; z1; z2; z3; z4; z5] with (ldn m1 z) by (unfold ldn, m1; stl; reflexivity).
  split; [exact V'|]. refine (unchanged_trans _ _ _ _ _ _ O'). unfold m1. intros w Hw. stl. reflexivity.
Qed.
Ltac scrut := match goal with |- context [match ?t with pair _ _ => _ end] =>
  match t with context [match _ with pair _ _ => _ end] => fail 1 | _ => destruct t as [? ?] end end.
Lemma square_m_ok m z x : same_or_apart 6 z x ->
  ldn (square_m m z x) z = p_square (ldn m x) /\ unchanged_outside 6 z m (square_m m z x).
Proof.
  intros H. unfold same_or_apart in H. unfold square_m, p_square. cbv zeta.
  change (limb (ldn m x) 0) with (m x). change (limb (ldn m x) 1) with (m (x + 1)). change (limb (ldn m x) 2) with (m (x + 2)).
  change (limb (ldn m x) 3) with (m (x + 3)). change (limb (ldn m x) 4) with (m (x + 4)). change (limb (ldn m x) 5) with (m (x + 5)).
  generalize (limb MODl 0), (limb MODl 1), (limb MODl 2), (limb MODl 3), (limb MODl 4), (limb MODl 5). intros M0 M1 M2 M3 M4 M5.
  repeat first [match goal with |- context [st ?a ?b ?c (x + 5)] => 
      replace (st a b c (x + 5)) with (m (x + 5)) by (clear -H; symmetry; cases H; stl; reflexivity) end | scrut].
  match goal with |- context [reduce_mem ?m1 z] => destruct (reduce_mem_ok m1 z) as [V' O'];
    match goal with |- context [reduce_once ?l] => replace l with (ldn m1 z) by (unfold ldn; stl; reflexivity) end end.
  split; [exact V'|]. refine (unchanged_trans _ _ _ _ _ _ O'). intros w Hw. stl. reflexivity.
Qed.

(** * Sums and products of 0, 1, -1, 2, 4 in fp2, for the counterexamples *)
Definition small2 (k : nat) : fp2 := nth k [fp2_zero; fp2_one; fp2_neg fp2_one; fp2_add fp2_one fp2_one;
  fp2_add (fp2_add fp2_one fp2_one) (fp2_add fp2_one fp2_one)] fp2_zero.
Notation O2 := (small2 0). Notation I2 := (small2 1). Notation N2 := (small2 2). Notation D2 := (small2 3). Notation Q2 := (small2 4).
Lemma small_eqs :
  fp2_mul I2 I2 = I2 /\ fp2_sqr I2 = I2 /\ fp2_mul I2 N2 = N2 /\ fp2_mul I2 O2 = O2 /\ fp2_mul O2 I2 = O2 /\ fp2_mul O2 O2 = O2 /\
  fp2_sqr O2 = O2 /\ fp2_neg O2 = O2 /\ fp2_add O2 I2 = I2 /\ fp2_add O2 O2 = O2 /\ fp2_dbl I2 = D2 /\ fp2_sub I2 D2 = N2 /\
  fp2_add N2 O2 = N2 /\ fp2_sub I2 N2 = D2 /\ fp2_mul D2 I2 = D2 /\ fp2_sub D2 I2 = I2 /\ fp2_sub I2 I2 = O2 /\ fp2_mul O2 D2 = O2 /\
  fp2_sub O2 O2 = O2 /\ fp2_sub D2 O2 = D2 /\ fp2_add D2 O2 = D2 /\ fp2_add I2 O2 = I2 /\ fp2_mulXi O2 = O2 /\ fp2_mul O2 N2 = O2 /\ fp2_add O2 D2 = D2 /\ fp2_mul D2 D2 = Q2 /\
  fp2_sub Q2 O2 = Q2 /\ fp2_add Q2 O2 = Q2 /\ fp2_mul Q2 I2 = Q2 /\
  fp2_equal (fp2_sub N2 I2) O2 = false /\ fp2_equal Q2 D2 = false.
Proof.
  assert (U1 : fp2_equal (fp2_sub N2 I2) O2 = false) by (vm_compute; reflexivity).
  assert (U2 : fp2_equal Q2 D2 = false) by (vm_compute; reflexivity).
  revert U1 U2. cbv [small2 nth]. generalize canon2_zero canon2_one dec2_zero dec2_one. generalize fp2_zero, fp2_one.
  intros o i Co Ci Do Di U1 U2.
  repeat match goal with |- _ /\ _ => apply conj end; [..|exact U1|exact U2];
    (apply dec2_inj; [auto 20 with canon..|autorewrite with dec; auto 20 with canon; rewrite ?Do, ?Di; ring]).
Qed.
Lemma mul_neq (x y : fp2) : fp2_equal x y = false -> x <> y.
Proof. intros H ->. unfold fp2_equal, fp_equal in H. rewrite !Z.eqb_refl in H. discriminate H. Qed.
Definition mem_c2 (a : Z) : Z := if a =? 2 then fp_one else if a =? 4 then c0 D2 else 0.
Lemma mulBy01_c2_wrong : ld6 (fp6_mulBy01Assign_m mem_c2 0 4 6) 0 <> fp6_mulBy01Assign (ld6 mem_c2 0) (ld2 mem_c2 4) (ld2 mem_c2 6).
Proof.
  assert (L0 : ld2 mem_c2 0 = O2) by reflexivity. assert (L1 : ld2 mem_c2 2 = I2) by reflexivity.
  assert (L2 : ld2 mem_c2 4 = D2) by (vm_compute; reflexivity). assert (L3 : ld2 mem_c2 6 = O2) by reflexivity.
  intro H. apply (f_equal d1) in H. revert H. unfold fp6_mulBy01Assign_m, fp6_mulBy01Assign, ld6. cbv zeta. cbn [d0 d1 d2 Z.add Pos.add Pos.succ Pos.add_carry].
  generalize dependent mem_c2. intros M L0 L1 L2 L3. st2l. rewrite L0, L1, L2, L3. clear.
  generalize small_eqs. generalize O2, I2, N2, D2, Q2. intros o i n d q S. decompose [and] S. clear S.
  repeat match goal with E : _ = _ :> fp2 |- _ => progress rewrite !E end. apply mul_neq. assumption.
Qed.
Definition mem_r (a : Z) : fp2 := if a =? 5 then O2 else I2.
Lemma addition_step_same_wrong : ldc (addition_step_m mem_r 0 3 3) 0 <> fst (addition_step (ldj mem_r 3) (ldj mem_r 3)).
Proof.
  assert (L0 : mem_r 3 = I2) by reflexivity. assert (L1 : mem_r 4 = I2) by reflexivity. assert (L2 : mem_r 5 = O2) by reflexivity.
  intro H. apply (f_equal (fun x => fst (fst x))) in H. revert H. unfold addition_step_m, addition_step, ldc, ldj. cbv zeta. cbn [fst jx jy jz Z.add Pos.add Pos.succ Pos.add_carry].
  generalize dependent mem_r. intros M L0 L1 L2. stl. rewrite L0, L1, L2. clear.
  generalize small_eqs. generalize O2, I2, N2, D2, Q2. intros o i n d q S. decompose [and] S. clear S.
  repeat match goal with E : _ = _ :> fp2 |- _ => progress rewrite !E end. apply mul_neq. assumption.
Qed.
