(** The library on limbs: fp2, fp6, fp12, g1, g2, the maps to the curves, the pairing and the signature functions with every field
    element a list of six limbs and every field operation a call of the back end [b] (ModelLimb.v), e.g. of the interpreted
    instructions of arithmetic.s.  Each definition is the one of ModelTower.v, ModelCurve.v, ModelCodec.v, ModelMap.v,
    ModelPairing.v, ModelKeys.v or ModelSig.v with the same lines of the source, run on limbs instead of integers; the parts of
    those files that are written over a record of operations or do not touch field elements are used as they are.  The constants
    are the limbs of the constants there. *)
From Coq Require Import ZArith List Bool.
From Verif Require Import ModelWord ModelScalar ModelDiv ModelPrim ModelFp ModelTower ModelCurve ModelCodec ModelKdf ModelSha ModelKeys ModelMap ModelPairing ModelSig.
From Verif Require Import PortArith ModelLimb.
Import ListNotations.
Local Open Scope Z_scope.

(** include/bls12-381/fp.hpp, classes fp2, fp6, fp12 with their fp members as limbs *)
Record lfp2 : Type := lmk2 { lc0 : list Z; lc1 : list Z }.
Record lfp6 : Type := lmk6 { ld0 : lfp2; ld1 : lfp2; ld2 : lfp2 }.
Record lfp12 : Type := lmk12 { le0 : lfp6; le1 : lfp6 }.
Notation lg1 := (jac (list Z)).
Notation lg2 := (jac lfp2).
(** the limbs of a constant *)
Definition limbs6 (z : Z) : list Z := limbs_of 6 z.
Definition limbs2 (x : fp2) : lfp2 := lmk2 (limbs6 (c0 x)) (limbs6 (c1 x)).
Definition jmap {A B} (f : A -> B) (p : jac A) : jac B := mkJ (f (jx p)) (f (jy p)) (f (jz p)).
Definition swu_limbs {A B} (f : A -> B) (ps : @swu_params A) : @swu_params B :=
  mkSwu (f (sw_z ps)) (f (sw_zInv ps)) (f (sw_a ps)) (f (sw_b ps)) (f (sw_mBA ps)).
(** fp.cpp:395-402, 404-411 *)
Definition lib_B : list Z := limbs6 B.
Definition lib_twoInv : list Z := limbs6 twoInv.
(** fp.cpp:740-814 *)
Definition lib_negativeOne2 : lfp2 := limbs2 negativeOne2.
Definition l2_B : lfp2 := limbs2 fp2_B.
Definition lib_psiX : lfp2 := limbs2 psiX.
Definition lib_psiY : lfp2 := limbs2 psiY.
(** fp.cpp:1175-1227, 1535-1584 *)
Definition lib_frobeniusCoeffs61 : list lfp2 := map limbs2 frobeniusCoeffs61.
Definition lib_frobeniusCoeffs62 : list lfp2 := map limbs2 frobeniusCoeffs62.
Definition lib_frobeniusCoeffs12 : list lfp2 := map limbs2 frobeniusCoeffs12.
(** g.cpp:713-717, 1610-1623, 1212-1219 *)
Definition lg1_BASE : lg1 := jmap limbs6 g1_BASE.
Definition lg2_BASE : lg2 := jmap limbs2 g2_BASE.
Definition lib_frb0 : lfp2 := limbs2 frb0.
Definition lib_frb1 : lfp2 := limbs2 frb1.
(** g.cpp:557-561, 1321-1341 *)
Definition lib_swuParamsForG1 : swu_params := swu_limbs limbs6 swuParamsForG1.
Definition lib_swuParamsForG2 : swu_params := swu_limbs limbs2 swuParamsForG2.
(** g.cpp:613-684, 1493-1564 *)
Definition lib_iso1_0 : list (list Z) := map limbs6 iso1_0.
Definition lib_iso1_1 : list (list Z) := map limbs6 iso1_1.
Definition lib_iso1_2 : list (list Z) := map limbs6 iso1_2.
Definition lib_iso1_3 : list (list Z) := map limbs6 iso1_3.
Definition lib_iso2_0 : list lfp2 := map limbs2 iso2_0.
Definition lib_iso2_1 : list lfp2 := map limbs2 iso2_1.
Definition lib_iso2_2 : list lfp2 := map limbs2 iso2_2.
Definition lib_iso2_3 : list lfp2 := map limbs2 iso2_3.

Section Lib.
Context (b : backend).
(** fp.cpp:221-323; C59_inverse shows that the None case (an index outside the array) does not happen on reduced operands *)
Definition l_inv (x : list Z) : list Z := match l_inverse b x with Some y => y | None => l_zero end.
(** scalar.hpp:241-249 *)
Definition lib_modPrime (k : list Z) : outcome (list Z) :=
  match bn_divn_safe k MODl with
  | Ok (_, r) => Ok (l_toMont b r)
  | Throw => Throw
  | OutOfBounds => OutOfBounds
  end.
(** g.cpp:113-115, 831-833: scalar::fromBytesBE(in, x.d); x.d[5] &= 0x1FFFFFFFFFFFFFFF *)
Definition lib_read381 (a : list Z) : list Z :=
  let d := fromBytesBE 6 a in firstn 5 d ++ [Z.land (nth 5 d 0) 0x1FFFFFFFFFFFFFFF].
(** from ModelTower.v *)
(** fp.cpp:510-518 *)
Definition l2_zero := lmk2 l_zero l_zero.
Definition l2_one := lmk2 R1l l_zero.
(** fp.cpp:520-533 *)
Definition l2_isOne (x : lfp2) : bool := l_isOne (lc0 x) && l_isZero (lc1 x).
Definition l2_isZero (x : lfp2) : bool := l_isZero (lc0 x) && l_isZero (lc1 x).
Definition l2_equal (x y : lfp2) : bool := l_equal (lc0 x) (lc0 y) && l_equal (lc1 x) (lc1 y).
(** fp.cpp:535-543 *)
Definition l2_sign (x : lfp2) : bool :=
  if negb (l_isZero (lc0 x)) then Z.land (limb (l_fromMont b (lc0 x)) 0) 1 =? 0
  else Z.land (limb (l_fromMont b (lc1 x)) 0) 1 =? 0.
(** fp.cpp:545-556 *)
Definition l2_add (x y : lfp2) := lmk2 (b_add b (lc0 x) (lc0 y)) (b_add b (lc1 x) (lc1 y)).
(** fp.cpp:558-569 *)
Definition l2_dbl (x : lfp2) := lmk2 (b_double b (lc0 x)) (b_double b (lc1 x)).
(** fp.cpp:571-582 *)
Definition l2_sub (x y : lfp2) := lmk2 (b_subtract b (lc0 x) (lc0 y)) (b_subtract b (lc1 x) (lc1 y)).
(** fp.cpp:584-598 *)
Definition l2_neg (x : lfp2) := lmk2 (b_negate b (lc0 x)) (b_negate b (lc1 x)).
Definition l2_conj (x : lfp2) := lmk2 (lc0 x) (b_negate b (lc1 x)).
(** fp.cpp:600-618 *)
Definition l2_mul (x e : lfp2) :=
  let t1 := b_multiply b (lc0 x) (lc0 e) in
  let t2 := b_multiply b (lc1 x) (lc1 e) in
  let t0 := b_add b (lc0 x) (lc1 x) in
  let t3 := b_add b (lc0 e) (lc1 e) in
  let r0 := b_subtract b t1 t2 in
  let t1 := b_add b t1 t2 in
  let t0 := b_multiply b t0 t3 in
  lmk2 r0 (b_subtract b t0 t1).
(** fp.cpp:620-635: t0 and t2 are not reduced *)
Definition l2_sqr (x : lfp2) :=
  let t0 := b_ladd b (lc0 x) (lc1 x) in
  let t1 := b_subtract b (lc0 x) (lc1 x) in
  let t2 := b_ldouble b (lc0 x) in
  lmk2 (b_multiply b t0 t1) (b_multiply b t2 (lc1 x)).
(** fp.cpp:637-645 *)
Definition l2_mulXi (x : lfp2) := lmk2 (b_subtract b (lc0 x) (lc1 x)) (b_add b (lc0 x) (lc1 x)).
(** fp.cpp:647-658 *)
Definition l2_mulByB (x : lfp2) :=
  let t0 := b_double b (b_double b (lc0 x)) in
  let t1 := b_double b (b_double b (lc1 x)) in
  lmk2 (b_subtract b t0 t1) (b_add b t0 t1).
(** fp.cpp:660-672 *)
Definition l2_inv (x : lfp2) :=
  let t := l_inv (b_add b (b_square b (lc0 x)) (b_square b (lc1 x))) in
  lmk2 (b_multiply b (lc0 x) t) (b_negate b (b_multiply b t (lc1 x))).
(** fp.cpp:674-680 *)
Definition l2_mulByFq (x : lfp2) (e : list Z) := lmk2 (b_multiply b (lc0 x) e) (b_multiply b (lc1 x) e).
(** fp.cpp:682-701 (frobeniusMap and frobeniusMapAssign) *)
Definition l2_frob (x : lfp2) (power : Z) : lfp2 :=
  if power mod 2 =? 1 then lmk2 (lc0 x) (b_negate b (lc1 x)) else x.
(** scalar.hpp:266-280 *)
Definition l2_exp (x : lfp2) (s : list Z) : lfp2 := gexp l2_one l2_sqr l2_mul x s.
(** fp.cpp:703-722: returned flag and output value *)
Definition l2_sqrt (x : lfp2) : bool * lfp2 :=
  let a1 := l2_exp x (limbs_of 6 pMinus3Over4) in
  let alpha := l2_mul (l2_sqr a1) x in
  let x0 := l2_mul a1 x in
  if l2_equal alpha lib_negativeOne2 then (true, lmk2 (b_negate b (lc1 x0)) (lc0 x0))
  else
    let alpha := l2_add alpha l2_one in
    let alpha := l2_exp alpha (limbs_of 6 pMinus1Over2) in
    let c := l2_mul alpha x0 in
    (l2_equal (l2_sqr c) x, c).
(** fp.cpp:724-732 *)
Definition l2_isQNR (x : lfp2) : bool :=
  l_isQNR b (b_add b (b_square b (lc1 x)) (b_square b (lc0 x))).
(** fp.cpp:735-738 *)
Definition l2_isLexLargest (x : lfp2) : bool :=
  l_isLexLargest b (lc1 x) || (l_isZero (lc1 x) && l_isLexLargest b (lc0 x)).
(** fp.cpp:468-482 *)
Definition l2_fromBytesBE (a : list Z) (check mont : bool) : option lfp2 :=
  match l_fromBytesBE b (sub_span 0 48 a) check mont, l_fromBytesBE b (sub_span 48 48 a) check mont with
  | Some r1, Some r0 => Some (lmk2 r0 r1)
  | _, _ => None
  end.
Definition l2_fromBytesLE (a : list Z) (check mont : bool) : option lfp2 :=
  match l_fromBytesLE b (sub_span 0 48 a) check mont, l_fromBytesLE b (sub_span 48 48 a) check mont with
  | Some r0, Some r1 => Some (lmk2 r0 r1)
  | _, _ => None
  end.
(** fp.cpp:484-508 *)
Definition l2_toBytesBE (x : lfp2) (mont : bool) : list Z := l_toBytesBE b (lc1 x) mont ++ l_toBytesBE b (lc0 x) mont.
Definition l2_toBytesLE (x : lfp2) (mont : bool) : list Z := l_toBytesLE b (lc0 x) mont ++ l_toBytesLE b (lc1 x) mont.
(** fp.cpp:874-882 *)
Definition l6_zero := lmk6 l2_zero l2_zero l2_zero.
Definition l6_one := lmk6 l2_one l2_zero l2_zero.
(** fp.cpp:884-897 *)
Definition l6_isOne (x : lfp6) := l2_isOne (ld0 x) && l2_isZero (ld1 x) && l2_isZero (ld2 x).
Definition l6_isZero (x : lfp6) := l2_isZero (ld0 x) && l2_isZero (ld1 x) && l2_isZero (ld2 x).
Definition l6_equal (x y : lfp6) := l2_equal (ld0 x) (ld0 y) && l2_equal (ld1 x) (ld1 y) && l2_equal (ld2 x) (ld2 y).
(** fp.cpp:899-948 *)
Definition l6_add (x y : lfp6) := lmk6 (l2_add (ld0 x) (ld0 y)) (l2_add (ld1 x) (ld1 y)) (l2_add (ld2 x) (ld2 y)).
Definition l6_dbl (x : lfp6) := lmk6 (l2_dbl (ld0 x)) (l2_dbl (ld1 x)) (l2_dbl (ld2 x)).
Definition l6_sub (x y : lfp6) := lmk6 (l2_sub (ld0 x) (ld0 y)) (l2_sub (ld1 x) (ld1 y)) (l2_sub (ld2 x) (ld2 y)).
Definition l6_neg (x : lfp6) := lmk6 (l2_neg (ld0 x)) (l2_neg (ld1 x)) (l2_neg (ld2 x)).
(** fp.cpp:950-984 *)
Definition l6_mul (x e : lfp6) :=
  let t0 := l2_mul (ld0 x) (ld0 e) in
  let t1 := l2_mul (ld1 x) (ld1 e) in
  let t2 := l2_mul (ld2 x) (ld2 e) in
  let t3 := l2_add (ld1 x) (ld2 x) in
  let t4 := l2_add (ld1 e) (ld2 e) in
  let t3 := l2_mul t3 t4 in
  let t4 := l2_add t1 t2 in
  let t3 := l2_sub t3 t4 in
  let t3 := l2_mulXi t3 in
  let t5 := l2_add t0 t3 in
  let t3 := l2_add (ld0 x) (ld1 x) in
  let t4 := l2_add (ld0 e) (ld1 e) in
  let t3 := l2_mul t3 t4 in
  let t4 := l2_add t0 t1 in
  let t3 := l2_sub t3 t4 in
  let t4 := l2_mulXi t2 in
  let r1 := l2_add t3 t4 in
  let t3 := l2_add (ld0 x) (ld2 x) in
  let t4 := l2_add (ld0 e) (ld2 e) in
  let t3 := l2_mul t3 t4 in
  let t4 := l2_add t0 t2 in
  let t3 := l2_sub t3 t4 in
  lmk6 t5 r1 (l2_add t1 t3).
(** fp.cpp:986-1014 *)
Definition l6_sqr (x : lfp6) :=
  let t0 := l2_sqr (ld0 x) in
  let t1 := l2_dbl (l2_mul (ld0 x) (ld1 x)) in
  let t2 := l2_sqr (l2_add (l2_sub (ld0 x) (ld1 x)) (ld2 x)) in
  let t3 := l2_dbl (l2_mul (ld1 x) (ld2 x)) in
  let t4 := l2_sqr (ld2 x) in
  let t5 := l2_mulXi t3 in
  let r0 := l2_add t0 t5 in
  let t5 := l2_mulXi t4 in
  let r1 := l2_add t1 t5 in
  let t1 := l2_add t1 t2 in
  let t1 := l2_add t1 t3 in
  let t0 := l2_add t0 t4 in
  lmk6 r0 r1 (l2_sub t1 t0).
(** fp.cpp:1016-1035 *)
Definition l6_mulBy01Assign (x : lfp6) (le0 le1 : lfp2) :=
  let t0 := l2_mul (ld0 x) le0 in
  let t1 := l2_mul (ld1 x) le1 in
  let t5 := l2_add (ld1 x) (ld2 x) in
  let t2 := l2_mul le1 t5 in
  let t2 := l2_sub t2 t1 in
  let t2 := l2_mulXi t2 in
  let t5 := l2_add (ld0 x) (ld2 x) in
  let t3 := l2_mul le0 t5 in
  let t3 := l2_sub t3 t0 in
  let r2 := l2_add t3 t1 in
  let t4 := l2_add le0 le1 in
  let t5 := l2_add (ld0 x) (ld1 x) in
  let t4 := l2_mul t4 t5 in
  let t4 := l2_sub t4 t0 in
  let r1 := l2_sub t4 t1 in
  lmk6 (l2_add t2 t0) r1 r2.
(** fp.cpp:1037-1058 *)
Definition l6_mulBy01 (x : lfp6) (le0 le1 : lfp2) :=
  let t0 := l2_mul (ld0 x) le0 in
  let t1 := l2_mul (ld1 x) le1 in
  let t2 := l2_mul (l2_add (ld1 x) (ld2 x)) le1 in
  let t2 := l2_sub t2 t1 in
  let t2 := l2_mulXi t2 in
  let t3 := l2_mul (l2_add (ld0 x) (ld2 x)) le0 in
  let t3 := l2_sub t3 t0 in
  let r2 := l2_add t3 t1 in
  let t4 := l2_add le0 le1 in
  let t3 := l2_add (ld0 x) (ld1 x) in
  let t4 := l2_mul t4 t3 in
  let t4 := l2_sub t4 t0 in
  lmk6 (l2_add t2 t0) (l2_sub t4 t1) r2.
(** fp.cpp:1060-1069 *)
Definition l6_mulBy1 (x : lfp6) (le1 : lfp2) :=
  lmk6 (l2_mulXi (l2_mul (ld2 x) le1)) (l2_mul (ld0 x) le1) (l2_mul (ld1 x) le1).
(** fp.cpp:1071-1078 *)
Definition l6_mulV (x : lfp6) := lmk6 (l2_mulXi (ld2 x)) (ld0 x) (ld1 x).
(** fp.cpp:1080-1087 *)
Definition l6_mulByBase (x : lfp6) (e : lfp2) := lmk6 (l2_mul (ld0 x) e) (l2_mul (ld1 x) e) (l2_mul (ld2 x) e).
(** fp.cpp:1089-1115 *)
Definition l6_inv (x : lfp6) :=
  let t0 := l2_sqr (ld0 x) in
  let t1 := l2_mulXi (l2_mul (ld1 x) (ld2 x)) in
  let t0 := l2_sub t0 t1 in
  let t1 := l2_sqr (ld1 x) in
  let t2 := l2_mul (ld0 x) (ld2 x) in
  let t1 := l2_sub t1 t2 in
  let t2 := l2_mulXi (l2_sqr (ld2 x)) in
  let t3 := l2_mul (ld0 x) (ld1 x) in
  let t2 := l2_sub t2 t3 in
  let t3 := l2_mul (ld2 x) t2 in
  let t4 := l2_mul (ld1 x) t1 in
  let t3 := l2_mulXi (l2_add t3 t4) in
  let t4 := l2_mul (ld0 x) t0 in
  let t3 := l2_inv (l2_add t3 t4) in
  lmk6 (l2_mul t0 t3) (l2_mul t2 t3) (l2_mul t1 t3).
(** scalar.hpp:282-296 *)
Definition l6_exp (x : lfp6) (s : list Z) : lfp6 := gexp l6_one l6_sqr l6_mul x s.
(** fp.cpp:1202-1227 *)
Definition lib_coeff (l : list lfp2) (i : Z) : lfp2 := nth (Z.to_nat i) l l2_zero.
(** fp.cpp:1117-1144 (returns a copy); note case 3 *)
Definition l6_frob (x : lfp6) (power : Z) : lfp6 :=
  let r0 := l2_frob (ld0 x) power in
  let r1 := l2_frob (ld1 x) power in
  let r2 := l2_frob (ld2 x) power in
  if power mod 6 =? 0 then lmk6 r0 r1 r2
  else if power mod 6 =? 3 then
    lmk6 (lmk2 (b_negate b (lc1 (ld1 x))) (lc1 r0)) (lmk2 (lc0 r1) (lc0 (ld1 x))) (l2_neg (ld2 x))
  else lmk6 r0 (l2_mul r1 (lib_coeff lib_frobeniusCoeffs61 (power mod 6))) (l2_mul r2 (lib_coeff lib_frobeniusCoeffs62 (power mod 6))).
(** fp.cpp:1146-1173 (in place) *)
Definition l6_frobAssign (x : lfp6) (power : Z) : lfp6 :=
  let r0 := l2_frob (ld0 x) power in
  let r1 := l2_frob (ld1 x) power in
  let r2 := l2_frob (ld2 x) power in
  if power mod 6 =? 0 then lmk6 r0 r1 r2
  else if power mod 6 =? 3 then
    lmk6 r0 (lmk2 (b_negate b (lc1 r1)) (lc0 r1)) (l2_neg r2)
  else lmk6 r0 (l2_mul r1 (lib_coeff lib_frobeniusCoeffs61 (power mod 6))) (l2_mul r2 (lib_coeff lib_frobeniusCoeffs62 (power mod 6))).
(** fp.cpp:828-844 *)
Definition l6_fromBytesBE (a : list Z) (check mont : bool) : option lfp6 :=
  match l2_fromBytesBE (sub_span 0 96 a) check mont, l2_fromBytesBE (sub_span 96 96 a) check mont,
        l2_fromBytesBE (sub_span 192 96 a) check mont with
  | Some r2, Some r1, Some r0 => Some (lmk6 r0 r1 r2)
  | _, _, _ => None
  end.
Definition l6_fromBytesLE (a : list Z) (check mont : bool) : option lfp6 :=
  match l2_fromBytesLE (sub_span 0 96 a) check mont, l2_fromBytesLE (sub_span 96 96 a) check mont,
        l2_fromBytesLE (sub_span 192 96 a) check mont with
  | Some r0, Some r1, Some r2 => Some (lmk6 r0 r1 r2)
  | _, _, _ => None
  end.
(** fp.cpp:846-872 *)
Definition l6_toBytesBE (x : lfp6) (mont : bool) : list Z :=
  l2_toBytesBE (ld2 x) mont ++ l2_toBytesBE (ld1 x) mont ++ l2_toBytesBE (ld0 x) mont.
Definition l6_toBytesLE (x : lfp6) (mont : bool) : list Z :=
  l2_toBytesLE (ld0 x) mont ++ l2_toBytesLE (ld1 x) mont ++ l2_toBytesLE (ld2 x) mont.
(** fp.cpp:1283-1301 *)
Definition l12_zero := lmk12 l6_zero l6_zero.
Definition l12_one := lmk12 l6_one l6_zero.
Definition l12_isOne (x : lfp12) := l6_isOne (le0 x) && l6_isZero (le1 x).
Definition l12_isZero (x : lfp12) := l6_isZero (le0 x) && l6_isZero (le1 x).
(** fp.cpp:1309-1312 *)
Definition l12_equal (x y : lfp12) := l6_equal (le0 x) (le0 y) && l6_equal (le1 x) (le1 y).
(** fp.cpp:1314-1364 *)
Definition l12_add (x y : lfp12) := lmk12 (l6_add (le0 x) (le0 y)) (l6_add (le1 x) (le1 y)).
Definition l12_dbl (x : lfp12) := lmk12 (l6_dbl (le0 x)) (l6_dbl (le1 x)).
Definition l12_sub (x y : lfp12) := lmk12 (l6_sub (le0 x) (le0 y)) (l6_sub (le1 x) (le1 y)).
Definition l12_neg (x : lfp12) := lmk12 (l6_neg (le0 x)) (l6_neg (le1 x)).
Definition l12_conj (x : lfp12) := lmk12 (le0 x) (l6_neg (le1 x)).
(** fp.cpp:1366-1385 *)
Definition l12_sqr (x : lfp12) :=
  let t0 := l6_add (le0 x) (le1 x) in
  let t2 := l6_mul (le0 x) (le1 x) in
  let t1 := l6_mulV (le1 x) in
  let t1 := l6_add t1 (le0 x) in
  let t3 := l6_mulV t2 in
  let t0 := l6_mul t0 t1 in
  let t0 := l6_sub t0 t2 in
  lmk12 (l6_sub t0 t3) (l6_dbl t2).
(** fp.cpp:1442-1455 *)
Definition lib_fp4Square (x y : lfp2) : lfp2 * lfp2 :=
  let t0 := l2_sqr x in
  let t1 := l2_sqr y in
  let t2 := l2_mulXi t1 in
  let r0 := l2_add t2 t0 in
  let t2 := l2_add x y in
  let t2 := l2_sqr t2 in
  let t2 := l2_sub t2 t0 in
  (r0, l2_sub t2 t1).
(** fp.cpp:1387-1418 *)
Definition l12_cycSqr (x : lfp12) :=
  let (t3, t4) := lib_fp4Square (ld0 (le0 x)) (ld1 (le1 x)) in
  let t2 := l2_dbl (l2_sub t3 (ld0 (le0 x))) in
  let r00 := l2_add t2 t3 in
  let t2 := l2_dbl (l2_add t4 (ld1 (le1 x))) in
  let r11 := l2_add t2 t4 in
  let (t3, t4) := lib_fp4Square (ld0 (le1 x)) (ld2 (le0 x)) in
  let (t5, t6) := lib_fp4Square (ld1 (le0 x)) (ld2 (le1 x)) in
  let t2 := l2_dbl (l2_sub t3 (ld1 (le0 x))) in
  let r01 := l2_add t2 t3 in
  let t2 := l2_dbl (l2_add t4 (ld2 (le1 x))) in
  let r12 := l2_add t2 t4 in
  let t3 := l2_mulXi t6 in
  let t2 := l2_dbl (l2_add t3 (ld0 (le1 x))) in
  let r10 := l2_add t2 t3 in
  let t2 := l2_dbl (l2_sub t5 (ld2 (le0 x))) in
  let r02 := l2_add t2 t5 in
  lmk12 (lmk6 r00 r01 r02) (lmk6 r10 r11 r12).
(** fp.cpp:1420-1440 *)
Definition l12_mul (x e : lfp12) :=
  let t1 := l6_mul (le0 x) (le0 e) in
  let t2 := l6_mul (le1 x) (le1 e) in
  let t0 := l6_add t1 t2 in
  let t2 := l6_mulV t2 in
  let t3 := l6_add t1 t2 in
  let t1 := l6_add (le0 x) (le1 x) in
  let t2 := l6_add (le0 e) (le1 e) in
  let t1 := l6_mul t1 t2 in
  lmk12 t3 (l6_sub t1 t0).
(** fp.cpp:1457-1470 *)
Definition l12_inv (x : lfp12) :=
  let t0 := l6_sqr (le0 x) in
  let t1 := l6_sqr (le1 x) in
  let t1 := l6_mulV t1 in
  let t1 := l6_sub t0 t1 in
  let t0 := l6_inv t1 in
  lmk12 (l6_mul (le0 x) t0) (l6_neg (l6_mul t0 (le1 x))).
(** fp.cpp:1472-1485 *)
Definition l12_mulBy014 (x : lfp12) (f0 f1 f4 : lfp2) :=
  let t0 := l6_mulBy01 (le0 x) f0 f1 in
  let t1 := l6_mulBy1 (le1 x) f4 in
  let t2' := l2_add f1 f4 in
  let t2 := l6_add (le1 x) (le0 x) in
  let t2 := l6_mulBy01Assign t2 f0 t2' in
  let t2 := l6_sub t2 t0 in
  let r1 := l6_sub t2 t1 in
  let t1 := l6_mulV t1 in
  lmk12 (l6_add t1 t0) r1.
(** scalar.hpp:298-312, 314-328 *)
Definition l12_exp (x : lfp12) (s : list Z) : lfp12 := gexp l12_one l12_sqr l12_mul x s.
Definition l12_cycExp (x : lfp12) (s : list Z) : lfp12 := gexp l12_one l12_cycSqr l12_mul x s.
(** fp.cpp:1304-1307 *)
Definition l12_isGtValid (x : lfp12) : bool := l12_isOne (l12_exp x (limbs_of 4 Qorder)).
(** fp.cpp:1487-1510 and 1512-1533; None = the index frobeniusCoeffs12[power] is outside the array *)
Definition l12_frob_with (frob6 : lfp6 -> Z -> lfp6) (x : lfp12) (power : Z) : option lfp12 :=
  let r0 := frob6 (le0 x) power in
  let r1 := frob6 (le1 x) power in
  if power =? 0 then Some (lmk12 r0 r1)
  else if power =? 6 then Some (lmk12 r0 (l6_neg r1))
  else if power <? 12 then Some (lmk12 r0 (l6_mulByBase r1 (lib_coeff lib_frobeniusCoeffs12 power)))
  else None.
Definition l12_frob_opt := l12_frob_with l6_frob.
Definition l12_frobAssign_opt := l12_frob_with l6_frobAssign.
(** the callers pass constants below 12 *)
Definition l12_frob (x : lfp12) (power : Z) : lfp12 := match l12_frob_opt x power with Some y => y | None => x end.
Definition l12_frobAssign (x : lfp12) (power : Z) : lfp12 := match l12_frobAssign_opt x power with Some y => y | None => x end.
(** fp.cpp:1241-1255 *)
Definition l12_fromBytesBE (a : list Z) (check mont : bool) : option lfp12 :=
  match l6_fromBytesBE (sub_span 0 288 a) check mont, l6_fromBytesBE (sub_span 288 288 a) check mont with
  | Some r1, Some r0 => Some (lmk12 r0 r1)
  | _, _ => None
  end.
Definition l12_fromBytesLE (a : list Z) (check mont : bool) : option lfp12 :=
  match l6_fromBytesLE (sub_span 0 288 a) check mont, l6_fromBytesLE (sub_span 288 288 a) check mont with
  | Some r0, Some r1 => Some (lmk12 r0 r1)
  | _, _ => None
  end.
(** fp.cpp:1257-1281 *)
Definition l12_toBytesBE (x : lfp12) (mont : bool) : list Z := l6_toBytesBE (le1 x) mont ++ l6_toBytesBE (le0 x) mont.
Definition l12_toBytesLE (x : lfp12) (mont : bool) : list Z := l6_toBytesLE (le0 x) mont ++ l6_toBytesLE (le1 x) mont.
(** from ModelCurve.v *)
(** fp on limbs and fp2 on limbs, as the operations of ModelCurve.v *)
Definition lfp_ops : fops (list Z) :=
  mkOps (list Z) l_zero R1l (b_add b) (b_subtract b) (b_multiply b) (b_square b) (b_double b) (b_negate b) l_inv l_equal l_isZero l_isOne.
Definition lfp2_ops : fops lfp2 :=
  mkOps lfp2 l2_zero l2_one l2_add l2_sub l2_mul l2_sqr l2_dbl l2_neg l2_inv l2_equal l2_isZero l2_isOne.

(** ** the two instances *)
Definition lg1_zero := j_zero lfp_ops.
Definition lg1_isZero := j_isZero lfp_ops.
Definition lg1_equal := j_equal lfp_ops.
Definition lg1_isOnCurve := j_isOnCurve lfp_ops lib_B.
Definition lg1_isAffine := j_isAffine lfp_ops.
Definition lg1_affine := j_affine lfp_ops.
Definition lg1_dbl := j_dbl lfp_ops.
Definition lg1_add := j_add lfp_ops.
Definition lg1_neg := j_neg lfp_ops.
Definition lg1_sub := j_sub lfp_ops.
Definition lg1_scale := j_scale lfp_ops.
Definition lg1_weightedSum := j_weightedSum lfp_ops.
Definition lg2_zero := j_zero lfp2_ops.
Definition lg2_isZero := j_isZero lfp2_ops.
Definition lg2_equal := j_equal lfp2_ops.
Definition lg2_isOnCurve := j_isOnCurve lfp2_ops l2_B.
Definition lg2_isAffine := j_isAffine lfp2_ops.
Definition lg2_affine := j_affine lfp2_ops.
Definition lg2_dbl := j_dbl lfp2_ops.
Definition lg2_add := j_add lfp2_ops.
Definition lg2_neg := j_neg lfp2_ops.
Definition lg2_sub := j_sub lfp2_ops.
Definition lg2_scale := j_scale lfp2_ops.
Definition lg2_weightedSum := j_weightedSum lfp2_ops.
(** g.cpp:452-455 *)
Definition lg1_clearCofactor (p : lg1) : lg1 := lg1_scale p g1_cofactorEFF.
(** g.cpp:457-466 *)
Definition lg1_glv (p : lg1) : lg1 :=
  if lg1_isZero p then lg1_zero else let t := lg1_affine p in mkJ (l_phi b (jx t)) (jy t) (jz t).
(** g.cpp:276-290 *)
Definition lg1_inCorrectSubgroup (p : lg1) : bool :=
  let t0 := lg1_glv p in
  let t1 := t0 in
  let t0 := lg1_glv t0 in
  let t1 := lg1_dbl t1 in
  let t1 := lg1_sub t1 p in
  let t1 := lg1_sub t1 t0 in
  let t1 := lg1_scale t1 [0x0000000055555555; 0x396c8c005555e156] in
  let t1 := lg1_sub t1 t0 in
  lg1_isZero t1.
(** g.cpp:1173-1182 *)
Definition lg2_psi (p : lg2) : lg2 :=
  mkJ (l2_mul (l2_conj (jx p)) lib_psiX) (l2_mul (l2_conj (jy p)) lib_psiY) (l2_conj (jz p)).
(** g.cpp:994-1012 *)
Definition lg2_inCorrectSubgroup (p : lg2) : bool :=
  let t0 := lg2_psi p in
  let t0 := lg2_psi t0 in
  let t1 := lg2_neg t0 in
  let t0 := lg2_psi t0 in
  let t0 := lg2_scale t0 g2_cofactorEFF in
  let t0 := lg2_neg t0 in
  let t0 := lg2_add t0 t1 in
  let t0 := lg2_add t0 p in
  lg2_isZero t0.
(** g.cpp:1210-1230, for power = n *)
Fixpoint lg2_frobeniusMap (n : nat) (p : lg2) : lg2 :=
  match n with
  | O => p
  | S n => lg2_frobeniusMap n (mkJ (l2_mul (l2_frob (jx p) 1) lib_frb0) (l2_mul (l2_frob (jy p) 1) lib_frb1) (l2_frob (jz p) 1))
  end.
(** g.cpp:1184-1208 *)
Definition lg2_clearCofactor (p : lg2) : lg2 :=
  let t0 := lg2_scale p g2_cofactorEFF in
  let t0 := lg2_neg t0 in
  let t1 := lg2_scale t0 g2_cofactorEFF in
  let t1 := lg2_neg t1 in
  let t2 := lg2_sub t1 t0 in
  let t2 := lg2_sub t2 p in
  let t3 := lg2_sub t0 p in
  let t3 := lg2_frobeniusMap 1 t3 in
  let t2 := lg2_add t2 t3 in
  let t3 := lg2_dbl p in
  let t3 := lg2_frobeniusMap 2 t3 in
  lg2_add t2 t3.
(** from ModelCodec.v *)
(** g.cpp:102-142: note that the validity check is made after the conversion to Montgomery form *)
Definition lg1_fromCompressed (a : list Z) : option lg1 :=
  if negb (flag a 7) then None
  else if flag a 6 then Some lg1_zero
  else
    let x := l_toMont b (lib_read381 a) in
    if negb (l_isValid x) then None
    else j_recover lfp_ops lib_B (l_sqrt b) (l_isLexLargest b) x (flag a 5).
(** g.cpp:182-204 *)
Definition lg1_toCompressed (p : lg1) : list Z :=
  let p := lg1_affine p in
  if l_isZero (jx p) && l_isZero (jy p) then or0 (repeat 0 48) 0xC0
  else
    let out := l_toBytesBE b (jx p) true in
    let out := if l_isLexLargest b (jy p) then or0 out 0x20 else out in
    or0 out 0x80.
(** g.cpp:811-852 *)
Definition lg2_fromCompressed (a : list Z) : option lg2 :=
  if negb (flag a 7) then None
  else if flag a 6 then Some lg2_zero
  else
    let x1 := lib_read381 (sub_span 0 48 a) in
    match l_fromBytesBE b (sub_span 48 48 a) true true with
    | None => None
    | Some x0 =>
        let x1 := l_toMont b x1 in
        if negb (l_isValid x1) then None
        else j_recover lfp2_ops l2_B l2_sqrt l2_isLexLargest (lmk2 x0 x1) (flag a 5)
    end.
(** g.cpp:892-915 *)
Definition lg2_toCompressed (p : lg2) : list Z :=
  let p := lg2_affine p in
  if l2_isZero (jx p) && l2_isZero (jy p) then or0 (repeat 0 96) 0xC0
  else
    let out := l_toBytesBE b (lc1 (jx p)) true ++ l_toBytesBE b (lc0 (jx p)) true in
    let out := if l2_isLexLargest (jy p) then or0 out 0x20 else out in
    or0 out 0x80.
(** ** the instances *)
Definition lg1_fromJacobianBE := j_fromJacobian lfp_ops lib_B 48 (l_fromBytesBE b).
Definition lg1_fromJacobianLE := j_fromJacobian lfp_ops lib_B 48 (l_fromBytesLE b).
Definition lg1_fromAffineBE := j_fromAffine lfp_ops lib_B 48 (l_fromBytesBE b).
Definition lg1_fromAffineLE := j_fromAffine lfp_ops lib_B 48 (l_fromBytesLE b).
Definition lg1_toJacobianBE := j_toJacobian (l_toBytesBE b).
Definition lg1_toJacobianLE := j_toJacobian (l_toBytesLE b).
Definition lg1_toAffineBE := j_toAffine lfp_ops 48 (l_toBytesBE b).
Definition lg1_toAffineLE := j_toAffine lfp_ops 48 (l_toBytesLE b).
Definition lg2_fromJacobianBE := j_fromJacobian lfp2_ops l2_B 96 l2_fromBytesBE.
Definition lg2_fromJacobianLE := j_fromJacobian lfp2_ops l2_B 96 l2_fromBytesLE.
Definition lg2_fromAffineBE := j_fromAffine lfp2_ops l2_B 96 l2_fromBytesBE.
Definition lg2_fromAffineLE := j_fromAffine lfp2_ops l2_B 96 l2_fromBytesLE.
Definition lg2_toJacobianBE := j_toJacobian l2_toBytesBE.
Definition lg2_toJacobianLE := j_toJacobian l2_toBytesLE.
Definition lg2_toAffineBE := j_toAffine lfp2_ops 96 l2_toBytesBE.
Definition lg2_toAffineLE := j_toAffine lfp2_ops 96 l2_toBytesLE.
(** from ModelMap.v *)
(** g.cpp:547-607 *)
Definition lib_swuMapG1 (e : list Z) : list Z * list Z := swu_map lfp_ops (l_isQNR b) (l_sqrt b) (l_sign b) lib_swuParamsForG1 e.
(** g.cpp:609-711 *)
Definition lib_isogenyMapG1 (x y : list Z) : list Z * list Z :=
  let xNum := horner lfp_ops lib_iso1_0 x in
  let xDen := horner lfp_ops lib_iso1_1 x in
  let yNum := horner lfp_ops lib_iso1_2 x in
  let yDen := horner lfp_ops lib_iso1_3 x in
  let xDen := l_inv xDen in
  let yDen := l_inv yDen in
  let xNum := b_multiply b xNum xDen in
  let yNum := b_multiply b yNum yDen in
  let yNum := b_multiply b yNum y in
  (xNum, yNum).
(** g.cpp:537-545 *)
Definition lg1_mapToCurve (e : list Z) : lg1 :=
  let xy := lib_swuMapG1 e in
  let xy := lib_isogenyMapG1 (fst xy) (snd xy) in
  lg1_clearCofactor (mkJ (fst xy) (snd xy) R1l).
(** g.cpp:1311-1385 *)
Definition lib_swuMapG2 (e : lfp2) : lfp2 * lfp2 := swu_map lfp2_ops l2_isQNR l2_sqrt l2_sign lib_swuParamsForG2 e.
(** g.cpp:1490-1608; the z-coordinate of *this is not used.  The loop for t3 starts at params[1][2]. *)
Definition lib_isogenyMap (p : lg2) : lg2 :=
  let x := jx p in let y := jy p in
  let t0 := horner lfp2_ops lib_iso2_0 x in
  let t1 := horner lfp2_ops lib_iso2_2 x in
  let t2 := horner lfp2_ops lib_iso2_3 x in
  let t3 := horner lfp2_ops (firstn 3 lib_iso2_1) x in
  let qy := l2_mul y t1 in
  let qy := l2_mul qy t3 in
  let qz := l2_mul t2 t3 in
  let t1 := l2_sqr qz in
  let qy := l2_mul qy t1 in
  let qx := l2_mul t0 t2 in
  let qx := l2_mul qx qz in
  mkJ qx qy qz.
(** g.cpp:1301-1309 *)
Definition lg2_mapToCurve (e : lfp2) : lg2 :=
  let xy := lib_swuMapG2 e in
  let p := lib_isogenyMap (mkJ (fst xy) (snd xy) l2_one) in
  lg2_clearCofactor p.
(** from ModelPairing.v *)
(** std::array<fp2, 3> *)
Definition lib_ellc : Type := (lfp2 * lfp2 * lfp2)%type.
(** pairing.cpp:10-42: the coefficients and the new r *)
Definition lib_dbl_t0 (r : lg2) : lfp2 := l2_mulByFq (l2_mul (jx r) (jy r)) lib_twoInv.
Definition lib_dbl_t3 (r : lg2) : lfp2 := let t2 := l2_sqr (jz r) in let t7 := l2_dbl t2 in let t7 := l2_add t7 t2 in l2_mulByB t7.
Definition lib_dbl_t6 (r : lg2) : lfp2 :=
  let t1 := l2_sqr (jy r) in let t2 := l2_sqr (jz r) in
  let t6 := l2_add (jy r) (jz r) in let t6 := l2_sqr t6 in let t7 := l2_add t2 t1 in l2_sub t6 t7.
Definition lib_doubling_step (r : lg2) : lib_ellc * lg2 :=
  let t0 := lib_dbl_t0 r in
  let t1 := l2_sqr (jy r) in
  let t3 := lib_dbl_t3 r in
  let t4 := l2_dbl t3 in
  let t4 := l2_add t4 t3 in
  let t5 := l2_add t1 t4 in
  let t5 := l2_mulByFq t5 lib_twoInv in
  let t6 := lib_dbl_t6 r in
  let coeff0 := l2_sub t3 t1 in
  let t7 := l2_sqr (jx r) in
  let t4 := l2_sub t1 t4 in
  let rx := l2_mul t4 t0 in
  let t2 := l2_sqr t3 in
  let t3 := l2_dbl t2 in
  let t3 := l2_add t3 t2 in
  let t5 := l2_sqr t5 in
  let ry := l2_sub t5 t3 in
  let rz := l2_mul t1 t6 in
  let t0 := l2_dbl t7 in
  ((coeff0, l2_add t0 t7, l2_neg t6), mkJ rx ry rz).
(** pairing.cpp:44-73 *)
Definition lib_addition_step (r tp : lg2) : lib_ellc * lg2 :=
  let t0 := l2_mul (jy tp) (jz r) in
  let t0 := l2_neg t0 in
  let t0 := l2_add t0 (jy r) in
  let t1 := l2_mul (jx tp) (jz r) in
  let t1 := l2_neg t1 in
  let t1 := l2_add t1 (jx r) in
  let t2 := l2_sqr t0 in
  let t3 := l2_sqr t1 in
  let t4 := l2_mul t1 t3 in
  let t2 := l2_mul (jz r) t2 in
  let t3 := l2_mul (jx r) t3 in
  let t5 := l2_dbl t3 in
  let t5 := l2_sub t4 t5 in
  let t5 := l2_add t5 t2 in
  let rx := l2_mul t1 t5 in
  let t2 := l2_sub t3 t5 in
  let t2 := l2_mul t2 t0 in
  let t3 := l2_mul (jy r) t4 in
  let ry := l2_sub t2 t3 in
  let rz := l2_mul (jz r) t4 in
  let t2 := l2_mul t1 (jy tp) in
  let t3 := l2_mul t0 (jx tp) in
  ((l2_sub t3 t2, l2_neg t0, t1), mkJ rx ry rz).
(** pairing.cpp:84-93: the iterations i = n-1, ..., 0; the coefficients in the order they are stored *)
Fixpoint lib_pre_loop (n : nat) (r tp : lg2) : list lib_ellc :=
  match n with
  | O => []
  | S i =>
      let cr := lib_doubling_step r in
      if eff_bit i then let cr' := lib_addition_step (snd cr) tp in fst cr :: fst cr' :: lib_pre_loop i (snd cr') tp
      else fst cr :: lib_pre_loop i (snd cr) tp
  end.
(** an array of 68 zero-initialised coefficients, of which the first ones are overwritten; more than 68 stores leave the array *)
Definition lib_ell_zero : lib_ellc := (l2_zero, l2_zero, l2_zero).
Definition lib_store68 (l : list lib_ellc) : outcome (list lib_ellc) :=
  if (length l <=? 68)%nat then Ok (l ++ repeat lib_ell_zero (68 - length l)) else OutOfBounds.
(** pairing.cpp:75-94 *)
Definition lib_pre_compute (tp : lg2) : outcome (list lib_ellc) := if lg2_isZero tp then lib_store68 [] else lib_store68 (lib_pre_loop 63 tp tp).
(** the loop bodies at pairing.cpp:119-121 and 128-130 *)
Definition lib_ell (f : lfp12) (c : lib_ellc) (p : lg1) : lfp12 :=
  let t0 := l2_mulByFq (snd c) (jy p) in
  let t1 := l2_mulByFq (snd (fst c)) (jx p) in
  l12_mulBy014 f (fst (fst c)) t1 t0.
(** the loops over the pairs, pairing.cpp:117-122 and 126-131, for a non-empty list *)
Fixpoint lib_ell_all (k : nat) (ps : list (lg1 * list lib_ellc)) (f : lfp12) : outcome lfp12 :=
  match ps with
  | [] => Ok f
  | (p, cs) :: ps => match nth_error cs k with None => OutOfBounds | Some c => lib_ell_all k ps (lib_ell f c p) end
  end.
(** pairing.cpp:111-134: the iterations i = n-1, ..., 0 *)
Fixpoint lib_mil_loop (n k : nat) (ps : list (lg1 * list lib_ellc)) (f : lfp12) : outcome lfp12 :=
  match n with
  | O => Ok f
  | S i =>
      let f := if (i =? 62)%nat then f else l12_sqr f in
      obind (lib_ell_all k ps f) (fun f =>
        if eff_bit i then obind (lib_ell_all (S k) ps f) (fun f => lib_mil_loop i (S (S k)) ps f)
        else lib_mil_loop i (S k) ps f)
  end.
(** pairing.cpp:99-103 *)
Fixpoint lib_pre_all (ps : list (lg1 * lg2)) : outcome (list (lg1 * list lib_ellc)) :=
  match ps with
  | [] => Ok []
  | (p, q) :: ps => obind (lib_pre_compute q) (fun cs => obind (lib_pre_all ps) (fun r => Ok ((p, cs) :: r)))
  end.
(** pairing.cpp:96-137; on the empty list pairs.size()-1 wraps around and ellCoeffs[0] is read *)
Definition lib_miller_loop (ps : list (lg1 * lg2)) : outcome lfp12 :=
  match ps with
  | [] => OutOfBounds
  | _ => obind (lib_pre_all ps) (fun cs => obind (lib_mil_loop 63 0 cs l12_one) (fun f => Ok (l12_conj f)))
  end.
(** pairing.cpp:143-148 *)
Definition lib_easy_part (f : lfp12) : lfp12 :=
  let t0 := l12_frob f 6 in
  let t1 := l12_inv f in
  let t2 := l12_mul t0 t1 in
  let t1 := t2 in
  let t2 := l12_frobAssign t2 2 in
  l12_mul t2 t1.
(** t.cyclotomicExp(g2::cofactorEFF).conjugate(), e.g. pairing.cpp:152-153 *)
Definition lib_exp_x (t : lfp12) : lfp12 := l12_conj (l12_cycExp t g2_cofactorEFF).
(** pairing.cpp:149-177 *)
Definition lib_hard_part (t2 : lfp12) : lfp12 :=
  let t1 := l12_cycSqr t2 in
  let t1 := l12_conj t1 in
  let t3 := lib_exp_x t2 in
  let t4 := l12_cycSqr t3 in
  let t5 := l12_mul t1 t3 in
  let t1 := lib_exp_x t5 in
  let t0 := lib_exp_x t1 in
  let t6 := lib_exp_x t0 in
  let t6 := l12_mul t6 t4 in
  let t4 := lib_exp_x t6 in
  let t5 := l12_conj t5 in
  let t4 := l12_mul t4 t5 in
  let t4 := l12_mul t4 t2 in
  let t5 := l12_conj t2 in
  let t1 := l12_mul t1 t2 in
  let t1 := l12_frobAssign t1 3 in
  let t6 := l12_mul t6 t5 in
  let t6 := l12_frobAssign t6 1 in
  let t3 := l12_mul t3 t0 in
  let t3 := l12_frobAssign t3 2 in
  let t3 := l12_mul t3 t1 in
  let t3 := l12_mul t3 t6 in
  l12_mul t3 t4.
(** pairing.cpp:139-178 *)
Definition lib_final_exponentiation (f : lfp12) : lfp12 := lib_hard_part (lib_easy_part f).
(** pairing.cpp:180-190 *)
Definition lib_calculate (ps : list (lg1 * lg2)) : outcome lfp12 :=
  match ps with [] => Ok l12_one | _ => obind (lib_miller_loop ps) (fun f => Ok (lib_final_exponentiation f)) end.
(** pairing.cpp:192-198 *)
Definition lib_add_pair (ps : list (lg1 * lg2)) (p : lg1) (q : lg2) : list (lg1 * lg2) :=
  if lg1_isZero p || lg2_isZero q then ps else ps ++ [(lg1_affine p, lg2_affine q)].
(** from ModelKeys.v *)
(** signatures.cpp:438-441 *)
Definition lib_public_key (sk : list Z) : lg1 := lg1_affine (lg1_scale lg1_BASE sk).
(** signatures.cpp:311-331 *)
Definition lib_derive_child_sk_unhardened (parentSk : list Z) (index : Z) : outcome (list Z) :=
  let buf := lg1_toCompressed (lib_public_key parentSk) ++ index_bytes index in
  let digest := sha256 [buf] in
  obind (sk_from_bytes digest true) (fun nonce => aggregate_secret_keys [parentSk; nonce]).
(** signatures.cpp:333-357 *)
Definition lib_derive_child_g1_unhardened (pk : lg1) (index : Z) : outcome lg1 :=
  let digest := sha256 [lg1_toCompressed pk ++ index_bytes index] in
  obind (reduce (fromBytesBE 4 digest)) (fun remainder => Ok (lg1_add pk (lg1_scale lg1_BASE remainder))).
(** signatures.cpp:359-382 *)
Definition lib_derive_child_g2_unhardened (pk : lg2) (index : Z) : outcome lg2 :=
  let digest := sha256 [lg2_toCompressed pk ++ index_bytes index] in
  obind (reduce (fromBytesBE 4 digest)) (fun remainder => Ok (lg2_add pk (lg2_scale lg2_BASE remainder))).
(** signatures.cpp:562-570: agg_pk starts as g1({0, 0, 0}) *)
Definition lib_aggregate_public_keys (pks : list lg1) : lg1 := fold_left lg1_add pks (mkJ l_zero l_zero l_zero).
(** signatures.cpp:572-580 *)
Definition lib_aggregate_signatures (sigs : list lg2) : lg2 := fold_left lg2_add sigs (mkJ l2_zero l2_zero l2_zero).
(** from ModelSig.v *)
(** signatures.cpp:510-511: fp::modPrime(scalar::fromBytesBE<8>(buf[off .. off+64])) *)
Definition lib_buf_field (buf : list Z) (off : nat) : outcome (list Z) := lib_modPrime (fromBytesBE 8 (sub_span off 64 buf)).
(** signatures.cpp:510-516 (off = 0) and 518-524 (off = 128): t, swuMapG2(t), isogenyMap *)
Definition lib_buf_point (buf : list Z) (off : nat) : outcome lg2 :=
  obind (lib_buf_field buf off) (fun t0 => obind (lib_buf_field buf (off + 64)) (fun t1 =>
  let xy := lib_swuMapG2 (lmk2 t0 t1) in
  Ok (lib_isogenyMap (mkJ (fst xy) (snd xy) l2_one)))).
(** signatures.cpp:497-527, init the indeterminate content of buf *)
Definition lib_fromMessage_init (init msg dst : list Z) : outcome lg2 :=
  obind (message_buf init msg dst) (fun buf =>
  obind (lib_buf_point buf 0) (fun p => obind (lib_buf_point buf 128) (fun q =>
  Ok (lg2_clearCofactor (lg2_add p q))))).
(** with buf taken as zero-initialised; C57_uninitialised shows where that makes a difference *)
Definition lib_fromMessage (msg dst : list Z) : outcome lg2 := lib_fromMessage_init (repeat 0 256) msg dst.
(** signatures.cpp:529-536 *)
Definition lib_sign (sk msg : list Z) : outcome lg2 := obind (lib_fromMessage msg CIPHERSUITE_ID) (fun p => Ok (lg2_scale p sk)).
(** !p.isOnCurve() || !p.inCorrectSubgroup() *)
Definition lib_bad1 (p : lg1) : bool := negb (lg1_isOnCurve p) || negb (lg1_inCorrectSubgroup p).
Definition lib_bad2 (p : lg2) : bool := negb (lg2_isOnCurve p) || negb (lg2_inCorrectSubgroup p).
(** fp12::one().equal(pairing::calculate(v)) *)
Definition lib_is_one (v : list (lg1 * lg2)) : outcome bool := obind (lib_calculate v) (fun f => Ok (l12_equal l12_one f)).
(** signatures.cpp:538-560 *)
Definition lib_verify (pubkey : lg1) (message : list Z) (signature : lg2) : outcome bool :=
  let v := lib_add_pair [] (lg1_neg lg1_BASE) signature in
  obind (lib_fromMessage message CIPHERSUITE_ID) (fun hashedPoint =>
  let v := lib_add_pair v pubkey hashedPoint in
  if lib_bad1 pubkey then Ok false else if lib_bad2 signature then Ok false else lib_is_one v).
(** signatures.cpp:616-624: None stands for return false *)
Fixpoint lib_agg_loop (v : list (lg1 * lg2)) (pubkeys : list lg1) (messages : list (list Z)) : outcome (option (list (lg1 * lg2))) :=
  match pubkeys, messages with
  | [], _ => Ok (Some v)
  | pk :: pks, m :: ms =>
      if lib_bad1 pk then Ok None
      else obind (lib_fromMessage m CIPHERSUITE_ID) (fun h => lib_agg_loop (lib_add_pair v pk h) pks ms)
  | _ :: _, [] => OutOfBounds
  end.
(** signatures.cpp:582-628.  std::set keeps one copy of each message: its size is the number of different messages. *)
Definition lib_aggregate_verify (pubkeys : list lg1) (messages : list (list Z)) (signature : lg2) (checkForDuplicateMessages : bool) : outcome bool :=
  let v := lib_add_pair [] (lg1_neg lg1_BASE) signature in
  if lib_bad2 signature then Ok false
  else if negb (length pubkeys =? length messages)%nat then Ok false
  else if checkForDuplicateMessages && negb (length (nodup (list_eq_dec Z.eq_dec) messages) =? length pubkeys)%nat then Ok false
  else obind (lib_agg_loop v pubkeys messages) (fun r => match r with None => Ok false | Some v => lib_is_one v end).
(** signatures.cpp:630-636 *)
Definition lib_pop_prove (sk : list Z) : outcome lg2 :=
  let pk := lib_public_key sk in
  let msg := lg1_toAffineLE pk true in
  obind (lib_fromMessage msg POP_CIPHERSUITE_ID) (fun hashed_key => Ok (lg2_scale hashed_key sk)).
(** signatures.cpp:638-660 *)
Definition lib_pop_verify (pubkey : lg1) (signature_proof : lg2) : outcome bool :=
  let msg := lg1_toAffineLE pubkey true in
  obind (lib_fromMessage msg POP_CIPHERSUITE_ID) (fun hashedPoint =>
  if lib_bad1 pubkey then Ok false else if lib_bad2 signature_proof then Ok false else
  let v := lib_add_pair [] (lg1_neg lg1_BASE) signature_proof in
  let v := lib_add_pair v pubkey hashedPoint in
  lib_is_one v).
(** signatures.cpp:662-674 *)
Definition lib_pop_fast_aggregate_verify (pubkeys : list lg1) (message : list Z) (signature : lg2) : outcome bool :=
  if (length pubkeys =? 0)%nat then Ok false else lib_verify (lib_aggregate_public_keys pubkeys) message signature.
(** signatures.hpp:148-158 and 160-170: aggregation of the f(x_i) with pred(x_i, i), i counted from 0 *)
Definition lib_aggregate_public_keys_by {T} (l : list T) (f : T -> lg1) (pred : T -> nat -> bool) : lg1 := agg_by lg1_add f pred 0 l (mkJ l_zero l_zero l_zero).
Definition lib_aggregate_signatures_by {T} (l : list T) (f : T -> lg2) (pred : T -> nat -> bool) : lg2 :=
  agg_by lg2_add f pred 0 l (mkJ l2_zero l2_zero l2_zero).
End Lib.
