(** Model of src/pairing.cpp.  The yield callback of miller_loop and calculate is modelled in ModelYield.v. *)
From Coq Require Import ZArith List Bool.
From Verif Require Import ModelPrim ModelWord ModelScalar ModelFp ModelTower ModelCurve ModelKeys.
Import ListNotations.
Local Open Scope Z_scope.

(** std::array<fp2, 3> *)
Definition ellc : Type := (fp2 * fp2 * fp2)%type.
(** pairing.cpp:10-42: the coefficients and the new r *)
Definition dbl_t0 (r : g2) : fp2 := fp2_mulByFq (fp2_mul (jx r) (jy r)) twoInv.
Definition dbl_t3 (r : g2) : fp2 := let t2 := fp2_sqr (jz r) in let t7 := fp2_dbl t2 in let t7 := fp2_add t7 t2 in fp2_mulByB t7.
Definition dbl_t6 (r : g2) : fp2 :=
  let t1 := fp2_sqr (jy r) in let t2 := fp2_sqr (jz r) in
  let t6 := fp2_add (jy r) (jz r) in let t6 := fp2_sqr t6 in let t7 := fp2_add t2 t1 in fp2_sub t6 t7.
Definition doubling_step (r : g2) : ellc * g2 :=
  let t0 := dbl_t0 r in
  let t1 := fp2_sqr (jy r) in
  let t3 := dbl_t3 r in
  let t4 := fp2_dbl t3 in
  let t4 := fp2_add t4 t3 in
  let t5 := fp2_add t1 t4 in
  let t5 := fp2_mulByFq t5 twoInv in
  let t6 := dbl_t6 r in
  let coeff0 := fp2_sub t3 t1 in
  let t7 := fp2_sqr (jx r) in
  let t4 := fp2_sub t1 t4 in
  let rx := fp2_mul t4 t0 in
  let t2 := fp2_sqr t3 in
  let t3 := fp2_dbl t2 in
  let t3 := fp2_add t3 t2 in
  let t5 := fp2_sqr t5 in
  let ry := fp2_sub t5 t3 in
  let rz := fp2_mul t1 t6 in
  let t0 := fp2_dbl t7 in
  ((coeff0, fp2_add t0 t7, fp2_neg t6), mkJ rx ry rz).
(** pairing.cpp:44-73 *)
Definition addition_step (r tp : g2) : ellc * g2 :=
  let t0 := fp2_mul (jy tp) (jz r) in
  let t0 := fp2_neg t0 in
  let t0 := fp2_add t0 (jy r) in
  let t1 := fp2_mul (jx tp) (jz r) in
  let t1 := fp2_neg t1 in
  let t1 := fp2_add t1 (jx r) in
  let t2 := fp2_sqr t0 in
  let t3 := fp2_sqr t1 in
  let t4 := fp2_mul t1 t3 in
  let t2 := fp2_mul (jz r) t2 in
  let t3 := fp2_mul (jx r) t3 in
  let t5 := fp2_dbl t3 in
  let t5 := fp2_sub t4 t5 in
  let t5 := fp2_add t5 t2 in
  let rx := fp2_mul t1 t5 in
  let t2 := fp2_sub t3 t5 in
  let t2 := fp2_mul t2 t0 in
  let t3 := fp2_mul (jy r) t4 in
  let ry := fp2_sub t2 t3 in
  let rz := fp2_mul (jz r) t4 in
  let t2 := fp2_mul t1 (jy tp) in
  let t3 := fp2_mul t0 (jx tp) in
  ((fp2_sub t3 t2, fp2_neg t0, t1), mkJ rx ry rz).
(** ((g2::cofactorEFF[0] >> i) & 1) == 1, pairing.cpp:87, 123 *)
Definition eff_bit (i : nat) : bool := Z.testbit (hd 0 g2_cofactorEFF) (Z.of_nat i).
(** pairing.cpp:84-93: the iterations i = n-1, ..., 0; the coefficients in the order they are stored *)
Fixpoint pre_loop (n : nat) (r tp : g2) : list ellc :=
  match n with
  | O => []
  | S i =>
      let cr := doubling_step r in
      if eff_bit i then let cr' := addition_step (snd cr) tp in fst cr :: fst cr' :: pre_loop i (snd cr') tp
      else fst cr :: pre_loop i (snd cr) tp
  end.
(** an array of 68 zero-initialised coefficients, of which the first ones are overwritten; more than 68 stores leave the array *)
Definition ell_zero : ellc := (fp2_zero, fp2_zero, fp2_zero).
Definition store68 (l : list ellc) : outcome (list ellc) :=
  if (length l <=? 68)%nat then Ok (l ++ repeat ell_zero (68 - length l)) else OutOfBounds.
(** pairing.cpp:75-94 *)
Definition pre_compute (tp : g2) : outcome (list ellc) := if g2_isZero tp then store68 [] else store68 (pre_loop 63 tp tp).

(** the loop bodies at pairing.cpp:119-121 and 128-130 *)
Definition ell (f : fp12) (c : ellc) (p : g1) : fp12 :=
  let t0 := fp2_mulByFq (snd c) (jy p) in
  let t1 := fp2_mulByFq (snd (fst c)) (jx p) in
  fp12_mulBy014 f (fst (fst c)) t1 t0.
(** the loops over the pairs, pairing.cpp:117-122 and 126-131, for a non-empty list *)
Fixpoint ell_all (k : nat) (ps : list (g1 * list ellc)) (f : fp12) : outcome fp12 :=
  match ps with
  | [] => Ok f
  | (p, cs) :: ps => match nth_error cs k with None => OutOfBounds | Some c => ell_all k ps (ell f c p) end
  end.
(** pairing.cpp:111-134: the iterations i = n-1, ..., 0 *)
Fixpoint mil_loop (n k : nat) (ps : list (g1 * list ellc)) (f : fp12) : outcome fp12 :=
  match n with
  | O => Ok f
  | S i =>
      let f := if (i =? 62)%nat then f else fp12_sqr f in
      obind (ell_all k ps f) (fun f =>
        if eff_bit i then obind (ell_all (S k) ps f) (fun f => mil_loop i (S (S k)) ps f)
        else mil_loop i (S k) ps f)
  end.
(** pairing.cpp:99-103 *)
Fixpoint pre_all (ps : list (g1 * g2)) : outcome (list (g1 * list ellc)) :=
  match ps with
  | [] => Ok []
  | (p, q) :: ps => obind (pre_compute q) (fun cs => obind (pre_all ps) (fun r => Ok ((p, cs) :: r)))
  end.
(** pairing.cpp:96-137; on the empty list pairs.size()-1 wraps around and ellCoeffs[0] is read *)
Definition miller_loop (ps : list (g1 * g2)) : outcome fp12 :=
  match ps with
  | [] => OutOfBounds
  | _ => obind (pre_all ps) (fun cs => obind (mil_loop 63 0 cs fp12_one) (fun f => Ok (fp12_conj f)))
  end.

(** pairing.cpp:143-148 *)
Definition easy_part (f : fp12) : fp12 :=
  let t0 := fp12_frob f 6 in
  let t1 := fp12_inv f in
  let t2 := fp12_mul t0 t1 in
  let t1 := t2 in
  let t2 := fp12_frobAssign t2 2 in
  fp12_mul t2 t1.
(** t.cyclotomicExp(g2::cofactorEFF).conjugate(), e.g. pairing.cpp:152-153 *)
Definition exp_x (t : fp12) : fp12 := fp12_conj (fp12_cycExp t g2_cofactorEFF).
(** pairing.cpp:149-177 *)
Definition hard_part (t2 : fp12) : fp12 :=
  let t1 := fp12_cycSqr t2 in
  let t1 := fp12_conj t1 in
  let t3 := exp_x t2 in
  let t4 := fp12_cycSqr t3 in
  let t5 := fp12_mul t1 t3 in
  let t1 := exp_x t5 in
  let t0 := exp_x t1 in
  let t6 := exp_x t0 in
  let t6 := fp12_mul t6 t4 in
  let t4 := exp_x t6 in
  let t5 := fp12_conj t5 in
  let t4 := fp12_mul t4 t5 in
  let t4 := fp12_mul t4 t2 in
  let t5 := fp12_conj t2 in
  let t1 := fp12_mul t1 t2 in
  let t1 := fp12_frobAssign t1 3 in
  let t6 := fp12_mul t6 t5 in
  let t6 := fp12_frobAssign t6 1 in
  let t3 := fp12_mul t3 t0 in
  let t3 := fp12_frobAssign t3 2 in
  let t3 := fp12_mul t3 t1 in
  let t3 := fp12_mul t3 t6 in
  fp12_mul t3 t4.
(** pairing.cpp:139-178 *)
Definition final_exponentiation (f : fp12) : fp12 := hard_part (easy_part f).
(** pairing.cpp:180-190 *)
Definition calculate (ps : list (g1 * g2)) : outcome fp12 :=
  match ps with [] => Ok fp12_one | _ => obind (miller_loop ps) (fun f => Ok (final_exponentiation f)) end.
(** pairing.cpp:192-198 *)
Definition add_pair (ps : list (g1 * g2)) (p : g1) (q : g2) : list (g1 * g2) :=
  if g1_isZero p || g2_isZero q then ps else ps ++ [(g1_affine p, g2_affine q)].
