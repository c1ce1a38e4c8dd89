(** C58: in-place operations whose arguments are the same object.  A memory maps addresses to cells; objects are given by
    address.  Each theorem: the object at [a] afterwards is the function of the value-level model (the one all other
    properties speak about) of the values before the call, also if the argument is the object itself; nothing else changed. *)
From Coq Require Import ZArith List Bool Lia.
From Verif Require Import SpecAlias ModelWord ModelScalar ModelPrim ModelFp ModelTower ModelCurve ModelPairing PortArith ModelAlias AliasProof.
Import ListNotations.
Local Open Scope Z_scope.

(** the portable field arithmetic; cells are limbs *)
Theorem C58_portable_add : forall m z x y, same_or_apart 6 z x -> same_or_apart 6 z y ->
  (ldn (add_m m z x y) z = p_add (ldn m x) (ldn m y) /\ unchanged_outside 6 z m (add_m m z x y)) /\
  (ldn (ladd_m m z x y) z = p_ladd (ldn m x) (ldn m y) /\ unchanged_outside 6 z m (ladd_m m z x y)).
Proof. intros m z x y H K. exact (conj (add_m_ok m z x y H K) (ladd_m_ok m z x y H K)). Qed.
Theorem C58_portable_double : forall m z x, same_or_apart 6 z x ->
  (ldn (double_m m z x) z = p_double (ldn m x) /\ unchanged_outside 6 z m (double_m m z x)) /\
  (ldn (ldouble_m m z x) z = p_ldouble (ldn m x) /\ unchanged_outside 6 z m (ldouble_m m z x)).
Proof. intros m z x H. exact (conj (double_m_ok m z x H) (ldouble_m_ok m z x H)). Qed.
Theorem C58_portable_subtract : forall m z x y, same_or_apart 6 z x -> same_or_apart 6 z y ->
  (ldn (subtract_m m z x y) z = p_subtract (ldn m x) (ldn m y) /\ unchanged_outside 6 z m (subtract_m m z x y)) /\
  (ldn (lsubtract_m m z x y) z = p_lsubtract (ldn m x) (ldn m y) /\ unchanged_outside 6 z m (lsubtract_m m z x y)).
Proof. intros m z x y H K. exact (conj (subtract_m_ok m z x y H K) (lsubtract_m_ok m z x y H K)). Qed.
Theorem C58_portable_negate : forall m z x, same_or_apart 6 z x ->
  ldn (negate_m m z x) z = p_negate (ldn m x) /\ unchanged_outside 6 z m (negate_m m z x).
Proof. exact negate_m_ok. Qed.
Theorem C58_portable_multiply : forall m z x y, same_or_apart 6 z x -> same_or_apart 6 z y ->
  ldn (multiply_m m z x y) z = p_multiply (ldn m x) (ldn m y) /\ unchanged_outside 6 z m (multiply_m m z x y).
Proof. exact multiply_m_ok. Qed.
Theorem C58_portable_square : forall m z x, same_or_apart 6 z x ->
  ldn (square_m m z x) z = p_square (ldn m x) /\ unchanged_outside 6 z m (square_m m z x).
Proof. exact square_m_ok. Qed.

(** fp2; cells are fp objects *)
Theorem C58_fp2_add : forall m a e, same_or_apart 2 a e ->
  ld2 (fp2_addAssign_m m a e) a = fp2_add (ld2 m a) (ld2 m e) /\ unchanged_outside 2 a m (fp2_addAssign_m m a e).
Proof. exact fp2_addAssign_m_ok. Qed.
Theorem C58_fp2_subtract : forall m a e, same_or_apart 2 a e ->
  ld2 (fp2_subtractAssign_m m a e) a = fp2_sub (ld2 m a) (ld2 m e) /\ unchanged_outside 2 a m (fp2_subtractAssign_m m a e).
Proof. exact fp2_subtractAssign_m_ok. Qed.
Theorem C58_fp2_multiply : forall m a e, same_or_apart 2 a e ->
  ld2 (fp2_multiplyAssign_m m a e) a = fp2_mul (ld2 m a) (ld2 m e) /\ unchanged_outside 2 a m (fp2_multiplyAssign_m m a e).
Proof. exact fp2_multiplyAssign_m_ok. Qed.
Theorem C58_fp2_unary : forall m a power,
  (ld2 (fp2_doubleAssign_m m a) a = fp2_dbl (ld2 m a) /\ unchanged_outside 2 a m (fp2_doubleAssign_m m a)) /\
  (ld2 (fp2_squareAssign_m m a) a = fp2_sqr (ld2 m a) /\ unchanged_outside 2 a m (fp2_squareAssign_m m a)) /\
  (ld2 (fp2_frobeniusMapAssign_m m a power) a = fp2_frob (ld2 m a) power /\
   unchanged_outside 2 a m (fp2_frobeniusMapAssign_m m a power)).
Proof. intros m a n. exact (conj (fp2_doubleAssign_m_ok m a) (conj (fp2_squareAssign_m_ok m a) (fp2_frobeniusMapAssign_m_ok m a n))). Qed.
(** a square root may be stored over its argument, wherever it lies *)
Theorem C58_fp_sqrt : forall m a c, let (ok, m') := fp_sqrt_m m a c in
  (ok, m' c) = fp_sqrt (m a) /\ unchanged_outside 1 c m m'.
Proof. exact fp_sqrt_m_ok. Qed.
Theorem C58_fp2_sqrt : forall m a c, let (ok, m') := fp2_sqrt_m m a c in
  (ok, ld2 m' c) = fp2_sqrt (ld2 m a) /\ unchanged_outside 2 c m m'.
Proof. exact fp2_sqrt_m_ok. Qed.

(** fp6 *)
Theorem C58_fp6_add : forall m a e, same_or_apart 6 a e ->
  ld6 (fp6_addAssign_m m a e) a = fp6_add (ld6 m a) (ld6 m e) /\ unchanged_outside 6 a m (fp6_addAssign_m m a e).
Proof. exact fp6_addAssign_m_ok. Qed.
Theorem C58_fp6_subtract : forall m a e, same_or_apart 6 a e ->
  ld6 (fp6_subtractAssign_m m a e) a = fp6_sub (ld6 m a) (ld6 m e) /\ unchanged_outside 6 a m (fp6_subtractAssign_m m a e).
Proof. exact fp6_subtractAssign_m_ok. Qed.
Theorem C58_fp6_multiply : forall m a e, same_or_apart 6 a e ->
  ld6 (fp6_multiplyAssign_m m a e) a = fp6_mul (ld6 m a) (ld6 m e) /\ unchanged_outside 6 a m (fp6_multiplyAssign_m m a e).
Proof. exact fp6_multiplyAssign_m_ok. Qed.
Theorem C58_fp6_unary : forall m a power,
  (ld6 (fp6_doubleAssign_m m a) a = fp6_dbl (ld6 m a) /\ unchanged_outside 6 a m (fp6_doubleAssign_m m a)) /\
  (ld6 (fp6_squareAssign_m m a) a = fp6_sqr (ld6 m a) /\ unchanged_outside 6 a m (fp6_squareAssign_m m a)) /\
  (ld6 (fp6_frobeniusMapAssign_m m a power) a = fp6_frobAssign (ld6 m a) power /\
   unchanged_outside 6 a m (fp6_frobeniusMapAssign_m m a power)).
Proof. intros m a n. exact (conj (fp6_doubleAssign_m_ok m a) (conj (fp6_squareAssign_m_ok m a) (fp6_frobeniusMapAssign_m_ok m a n))). Qed.
(** the arguments of mulBy01Assign may be the members c0 and c1 of the object ... *)
Theorem C58_fp6_mulBy01 : forall m a x0 x1, apart_or_c01 a x0 -> apart_or_c01 a x1 ->
  ld6 (fp6_mulBy01Assign_m m a x0 x1) a = fp6_mulBy01Assign (ld6 m a) (ld2 m x0) (ld2 m x1) /\
  unchanged_outside 6 a m (fp6_mulBy01Assign_m m a x0 x1).
Proof. exact fp6_mulBy01Assign_m_ok. Qed.
(** ... but not c2, which is overwritten before the last use of the arguments: x = (0, 1, 2), e0 = x.c2, e1 = 0 *)
Theorem C58_fp6_mulBy01_c2_refuted : exists m a x0 x1, x0 = a + 4 /\ apart_or_c01 a x1 /\
  ld6 (fp6_mulBy01Assign_m m a x0 x1) a <> fp6_mulBy01Assign (ld6 m a) (ld2 m x0) (ld2 m x1).
Proof. exists mem_c2, 0, 4, 6. split; [reflexivity|]. split; [unfold apart_or_c01; lia|exact mulBy01_c2_wrong]. Qed.

(** fp12 *)
Theorem C58_fp12_add : forall m a e, same_or_apart 12 a e ->
  ld12 (fp12_addAssign_m m a e) a = fp12_add (ld12 m a) (ld12 m e) /\ unchanged_outside 12 a m (fp12_addAssign_m m a e).
Proof. exact fp12_addAssign_m_ok. Qed.
Theorem C58_fp12_subtract : forall m a e, same_or_apart 12 a e ->
  ld12 (fp12_subtractAssign_m m a e) a = fp12_sub (ld12 m a) (ld12 m e) /\ unchanged_outside 12 a m (fp12_subtractAssign_m m a e).
Proof. exact fp12_subtractAssign_m_ok. Qed.
Theorem C58_fp12_multiply : forall m a e, same_or_apart 12 a e ->
  ld12 (fp12_multiplyAssign_m m a e) a = fp12_mul (ld12 m a) (ld12 m e) /\ unchanged_outside 12 a m (fp12_multiplyAssign_m m a e).
Proof. exact fp12_multiplyAssign_m_ok. Qed.
Theorem C58_fp12_unary : forall m a,
  (ld12 (fp12_doubleAssign_m m a) a = fp12_dbl (ld12 m a) /\ unchanged_outside 12 a m (fp12_doubleAssign_m m a)) /\
  (ld12 (fp12_squareAssign_m m a) a = fp12_sqr (ld12 m a) /\ unchanged_outside 12 a m (fp12_squareAssign_m m a)) /\
  (ld12 (fp12_cyclotomicSquareAssign_m m a) a = fp12_cycSqr (ld12 m a) /\
   unchanged_outside 12 a m (fp12_cyclotomicSquareAssign_m m a)).
Proof. intros m a. exact (conj (fp12_doubleAssign_m_ok m a) (conj (fp12_squareAssign_m_ok m a) (fp12_cyclotomicSquareAssign_m_ok m a))). Qed.
Theorem C58_fp12_frobenius : forall m a power, 0 <= power < 12 ->
  fp12_frobAssign_opt (ld12 m a) power = Some (ld12 (fp12_frobeniusMapAssign_m m a power) a) /\
  unchanged_outside 12 a m (fp12_frobeniusMapAssign_m m a power).
Proof. exact fp12_frobeniusMapAssign_m_ok. Qed.
(** the arguments of mulBy014Assign may lie anywhere, also inside the object *)
Theorem C58_fp12_mulBy014 : forall m a x0 x1 x4,
  ld12 (fp12_mulBy014Assign_m m a x0 x1 x4) a = fp12_mulBy014 (ld12 m a) (ld2 m x0) (ld2 m x1) (ld2 m x4) /\
  unchanged_outside 12 a m (fp12_mulBy014Assign_m m a x0 x1 x4).
Proof. exact fp12_mulBy014Assign_m_ok. Qed.

(** g1 and g2; cells are coordinates *)
Theorem C58_point_add : forall T (o : fops T) m a e, same_or_apart 3 a e ->
  ldj (j_addAssign_m o m a e) a = j_add o (ldj m a) (ldj m e) /\ unchanged_outside 3 a m (j_addAssign_m o m a e).
Proof. intros T o. exact (j_addAssign_m_ok o). Qed.
Theorem C58_point_double : forall T (o : fops T) m a,
  ldj (j_doubleAssign_m o m a) a = j_dbl o (ldj m a) /\ unchanged_outside 3 a m (j_doubleAssign_m o m a).
Proof. intros T o. exact (j_doubleAssign_m_ok o). Qed.
(** [tmp]: the returned value of negate(), a temporary object *)
Theorem C58_point_subtract : forall T (o : fops T) m a e tmp, tmp + 3 <= a \/ a + 3 <= tmp ->
  ldj (j_subtractAssign_m o m a e tmp) a = j_sub o (ldj m a) (ldj m e) /\
  forall x, x < a \/ a + 3 <= x -> x < tmp \/ tmp + 3 <= x -> j_subtractAssign_m o m a e tmp x = m x.
Proof. intros T o. exact (j_subtractAssign_m_ok o). Qed.

(** the steps of the Miller loop; cells are fp2 *)
Theorem C58_doubling_step : forall m c r, c + 3 <= r \/ r + 3 <= c ->
  (ldc (doubling_step_m m c r) c, ldj (doubling_step_m m c r) r) = doubling_step (ldj m r) /\
  unchanged_outside_two c r m (doubling_step_m m c r).
Proof. exact doubling_step_m_ok. Qed.
Theorem C58_addition_step : forall m c r tp, c + 3 <= r \/ r + 3 <= c -> tp + 3 <= r \/ r + 3 <= tp ->
  (ldc (addition_step_m m c r tp) c, ldj (addition_step_m m c r tp) r) = addition_step (ldj m r) (ldj m tp) /\
  unchanged_outside_two c r m (addition_step_m m c r tp).
Proof. exact addition_step_m_ok. Qed.
(** addition_step must not be called with tp = r: (x, y, z) = (1, 1, 0); the library never does *)
Theorem C58_addition_step_same_refuted : exists m c r, c + 3 <= r /\
  ldc (addition_step_m m c r r) c <> fst (addition_step (ldj m r) (ldj m r)).
Proof. exists mem_r, 0, 3. split; [lia|exact addition_step_same_wrong]. Qed.

(** the hypotheses are met: x.multiplyAssign(x), p.addAssign(p), and distinct objects; mulBy01Assign(c0, c1) on itself *)
Example C58_same : same_or_apart 12 5 5 /\ same_or_apart 12 0 12 /\ ~ same_or_apart 12 0 6. Proof. unfold same_or_apart. lia. Qed.
Example C58_parts : apart_or_c01 0 0 /\ apart_or_c01 0 2 /\ ~ apart_or_c01 0 4. Proof. unfold apart_or_c01. lia. Qed.
(** in place: z = x = y at address 0, limbs 0 to 5 *)
Example C58_add_in_place : ldn (add_m (fun a => a) 0 0 0) 0 = [0; 2; 4; 6; 8; 10]. Proof. vm_compute. reflexivity. Qed.
Example C58_fp2_in_place : ld2 (fp2_multiplyAssign_m (fun a => if a =? 0 then 0 else fp_one) 0 0) 0 = mk2 (fp_neg fp_one) 0.
Proof. vm_compute. reflexivity. Qed.

Definition props_alias := (C58_portable_add, C58_portable_double, C58_portable_subtract, C58_portable_negate, C58_portable_multiply, C58_portable_square, C58_fp2_add, C58_fp2_subtract, C58_fp2_multiply, C58_fp2_unary, C58_fp_sqrt, C58_fp2_sqrt, C58_fp6_add, C58_fp6_subtract, C58_fp6_multiply, C58_fp6_unary, C58_fp6_mulBy01, C58_fp6_mulBy01_c2_refuted, C58_fp12_add, C58_fp12_subtract, C58_fp12_multiply, C58_fp12_unary, C58_fp12_frobenius, C58_fp12_mulBy014, C58_point_add, C58_point_double, C58_point_subtract, C58_doubling_step, C58_addition_step, C58_addition_step_same_refuted).
Print Assumptions props_alias.
