(** Model of classes fp2, fp6, fp12 (src/fp.cpp:456-1584): records of Montgomery-form values (an fp is the
    integer of its six limbs, see ModelPrim.v).  The "Assign" methods overwrite *this; they are
    modelled as functions of the values before the call.  That this is right also when an argument is *this or a part of
    it, and the one case where it is not, is C58 (ModelAlias.v, Properties_Alias.v). *)
From Coq Require Import ZArith List Bool.
From Verif Require Import ModelWord ModelScalar ModelFp.
Import ListNotations.
Local Open Scope Z_scope.

(** * fp2 *)
(** include/bls12-381/fp.hpp, class fp2 *)
Record fp2 : Type := mk2 { c0 : Z; c1 : Z }.
(** fp.cpp:510-518 *)
Definition fp2_zero := mk2 fp_zero fp_zero.
Definition fp2_one := mk2 fp_one fp_zero.
(** fp.cpp:520-533 *)
Definition fp2_isOne (x : fp2) : bool := fp_isOne (c0 x) && fp_isZero (c1 x).
Definition fp2_isZero (x : fp2) : bool := fp_isZero (c0 x) && fp_isZero (c1 x).
Definition fp2_equal (x y : fp2) : bool := fp_equal (c0 x) (c0 y) && fp_equal (c1 x) (c1 y).
(** fp.cpp:535-543 *)
Definition fp2_sign (x : fp2) : bool :=
  if negb (fp_isZero (c0 x)) then Z.land (fp_fromMont (c0 x) mod W) 1 =? 0
  else Z.land (fp_fromMont (c1 x) mod W) 1 =? 0.
(** fp.cpp:545-556 *)
Definition fp2_add (x y : fp2) := mk2 (fp_add (c0 x) (c0 y)) (fp_add (c1 x) (c1 y)).
(** fp.cpp:558-569 *)
Definition fp2_dbl (x : fp2) := mk2 (fp_double (c0 x)) (fp_double (c1 x)).
(** fp.cpp:571-582 *)
Definition fp2_sub (x y : fp2) := mk2 (fp_sub (c0 x) (c0 y)) (fp_sub (c1 x) (c1 y)).
(** fp.cpp:584-598 *)
Definition fp2_neg (x : fp2) := mk2 (fp_neg (c0 x)) (fp_neg (c1 x)).
Definition fp2_conj (x : fp2) := mk2 (c0 x) (fp_neg (c1 x)).
(** fp.cpp:600-618 *)
Definition fp2_mul (x e : fp2) :=
  let t1 := fp_mul (c0 x) (c0 e) in
  let t2 := fp_mul (c1 x) (c1 e) in
  let t0 := fp_add (c0 x) (c1 x) in
  let t3 := fp_add (c0 e) (c1 e) in
  let r0 := fp_sub t1 t2 in
  let t1 := fp_add t1 t2 in
  let t0 := fp_mul t0 t3 in
  mk2 r0 (fp_sub t0 t1).
(** fp.cpp:620-635: t0 and t2 are not reduced *)
Definition fp2_sqr (x : fp2) :=
  let t0 := fp_ladd (c0 x) (c1 x) in
  let t1 := fp_sub (c0 x) (c1 x) in
  let t2 := fp_ldouble (c0 x) in
  mk2 (fp_mul t0 t1) (fp_mul t2 (c1 x)).
(** fp.cpp:637-645 *)
Definition fp2_mulXi (x : fp2) := mk2 (fp_sub (c0 x) (c1 x)) (fp_add (c0 x) (c1 x)).
(** fp.cpp:647-658 *)
Definition fp2_mulByB (x : fp2) :=
  let t0 := fp_double (fp_double (c0 x)) in
  let t1 := fp_double (fp_double (c1 x)) in
  mk2 (fp_sub t0 t1) (fp_add t0 t1).
(** fp.cpp:660-672 *)
Definition fp2_inv (x : fp2) :=
  let t := fp_inverse (fp_add (fp_sqr (c0 x)) (fp_sqr (c1 x))) in
  mk2 (fp_mul (c0 x) t) (fp_neg (fp_mul t (c1 x))).
(** fp.cpp:674-680 *)
Definition fp2_mulByFq (x : fp2) (e : Z) := mk2 (fp_mul (c0 x) e) (fp_mul (c1 x) e).
(** fp.cpp:682-701 (frobeniusMap and frobeniusMapAssign) *)
Definition fp2_frob (x : fp2) (power : Z) : fp2 :=
  if power mod 2 =? 1 then mk2 (c0 x) (fp_neg (c1 x)) else x.
(** scalar.hpp:266-280 *)
Definition fp2_exp (x : fp2) (s : list Z) : fp2 := gexp fp2_one fp2_sqr fp2_mul x s.
(** fp.cpp:740-757 *)
Definition negativeOne2 : fp2 := mk2 0x40ab3263eff0206ef148d1ea0f4c069eca8f3318332bb7a07e83a49a2e99d6932b7fff2ed47fffd43f5fffffffcaaae
  0x0.
(** fp.cpp:759-776 *)
Definition fp2_B : fp2 := mk2 0x9d645513d83de7e8ec9733bbf78ab2fb1d37ebee6ba24d7478fe97a6b0a807f53cc0032fc34000aaa270000000cfff3
  0x9d645513d83de7e8ec9733bbf78ab2fb1d37ebee6ba24d7478fe97a6b0a807f53cc0032fc34000aaa270000000cfff3.
(** fp.cpp:778-795 *)
Definition psiX : fp2 := mk2 0x0
  0x14e56d3f1564853a14e4f04fe2db9068a20d1b8c7e88102450880866309b7e2c2af322533285a5d5890dc9e4867545c3.
(** fp.cpp:797-814 *)
Definition psiY : fp2 := mk2 0xbd592fc7d825ec81d794e4fac7cf0b992ad2afd19103e18382844c88b6237324294213d86c181833e2f585da55c9ad1
  0xe2b7eedbbfd87d22da2596696cebc1dd1ca2087da74d4a72f088dd86b4ebef1dc17dec12a927e7c7bcfa7a25aa30fda.
(** fp.cpp:703-722: returned flag and output value *)
Definition fp2_sqrt (x : fp2) : bool * fp2 :=
  let a1 := fp2_exp x (limbs_of 6 pMinus3Over4) in
  let alpha := fp2_mul (fp2_sqr a1) x in
  let x0 := fp2_mul a1 x in
  if fp2_equal alpha negativeOne2 then (true, mk2 (fp_neg (c1 x0)) (c0 x0))
  else
    let alpha := fp2_add alpha fp2_one in
    let alpha := fp2_exp alpha (limbs_of 6 pMinus1Over2) in
    let c := fp2_mul alpha x0 in
    (fp2_equal (fp2_sqr c) x, c).
(** fp.cpp:724-732 *)
Definition fp2_isQNR (x : fp2) : bool :=
  fp_isQNR (fp_add (fp_sqr (c1 x)) (fp_sqr (c0 x))).
(** fp.cpp:735-738 *)
Definition fp2_isLexLargest (x : fp2) : bool :=
  fp_isLexLargest (c1 x) || (fp_isZero (c1 x) && fp_isLexLargest (c0 x)).
(** the n bytes of a span from offset [off] *)
Definition sub_span (off n : nat) (b : list Z) : list Z := firstn n (skipn off b).
(** fp.cpp:468-482 *)
Definition fp2_fromBytesBE (b : list Z) (check mont : bool) : option fp2 :=
  match fp_fromBytesBE (sub_span 0 48 b) check mont, fp_fromBytesBE (sub_span 48 48 b) check mont with
  | Some r1, Some r0 => Some (mk2 r0 r1)
  | _, _ => None
  end.
Definition fp2_fromBytesLE (b : list Z) (check mont : bool) : option fp2 :=
  match fp_fromBytesLE (sub_span 0 48 b) check mont, fp_fromBytesLE (sub_span 48 48 b) check mont with
  | Some r0, Some r1 => Some (mk2 r0 r1)
  | _, _ => None
  end.
(** fp.cpp:484-508 *)
Definition fp2_toBytesBE (x : fp2) (mont : bool) : list Z := fp_toBytesBE (c1 x) mont ++ fp_toBytesBE (c0 x) mont.
Definition fp2_toBytesLE (x : fp2) (mont : bool) : list Z := fp_toBytesLE (c0 x) mont ++ fp_toBytesLE (c1 x) mont.

(** * fp6 *)
Record fp6 : Type := mk6 { d0 : fp2; d1 : fp2; d2 : fp2 }.
(** fp.cpp:874-882 *)
Definition fp6_zero := mk6 fp2_zero fp2_zero fp2_zero.
Definition fp6_one := mk6 fp2_one fp2_zero fp2_zero.
(** fp.cpp:884-897 *)
Definition fp6_isOne (x : fp6) := fp2_isOne (d0 x) && fp2_isZero (d1 x) && fp2_isZero (d2 x).
Definition fp6_isZero (x : fp6) := fp2_isZero (d0 x) && fp2_isZero (d1 x) && fp2_isZero (d2 x).
Definition fp6_equal (x y : fp6) := fp2_equal (d0 x) (d0 y) && fp2_equal (d1 x) (d1 y) && fp2_equal (d2 x) (d2 y).
(** fp.cpp:899-948 *)
Definition fp6_add (x y : fp6) := mk6 (fp2_add (d0 x) (d0 y)) (fp2_add (d1 x) (d1 y)) (fp2_add (d2 x) (d2 y)).
Definition fp6_dbl (x : fp6) := mk6 (fp2_dbl (d0 x)) (fp2_dbl (d1 x)) (fp2_dbl (d2 x)).
Definition fp6_sub (x y : fp6) := mk6 (fp2_sub (d0 x) (d0 y)) (fp2_sub (d1 x) (d1 y)) (fp2_sub (d2 x) (d2 y)).
Definition fp6_neg (x : fp6) := mk6 (fp2_neg (d0 x)) (fp2_neg (d1 x)) (fp2_neg (d2 x)).
(** fp.cpp:950-984 *)
Definition fp6_mul (x e : fp6) :=
  let t0 := fp2_mul (d0 x) (d0 e) in
  let t1 := fp2_mul (d1 x) (d1 e) in
  let t2 := fp2_mul (d2 x) (d2 e) in
  let t3 := fp2_add (d1 x) (d2 x) in
  let t4 := fp2_add (d1 e) (d2 e) in
  let t3 := fp2_mul t3 t4 in
  let t4 := fp2_add t1 t2 in
  let t3 := fp2_sub t3 t4 in
  let t3 := fp2_mulXi t3 in
  let t5 := fp2_add t0 t3 in
  let t3 := fp2_add (d0 x) (d1 x) in
  let t4 := fp2_add (d0 e) (d1 e) in
  let t3 := fp2_mul t3 t4 in
  let t4 := fp2_add t0 t1 in
  let t3 := fp2_sub t3 t4 in
  let t4 := fp2_mulXi t2 in
  let r1 := fp2_add t3 t4 in
  let t3 := fp2_add (d0 x) (d2 x) in
  let t4 := fp2_add (d0 e) (d2 e) in
  let t3 := fp2_mul t3 t4 in
  let t4 := fp2_add t0 t2 in
  let t3 := fp2_sub t3 t4 in
  mk6 t5 r1 (fp2_add t1 t3).
(** fp.cpp:986-1014 *)
Definition fp6_sqr (x : fp6) :=
  let t0 := fp2_sqr (d0 x) in
  let t1 := fp2_dbl (fp2_mul (d0 x) (d1 x)) in
  let t2 := fp2_sqr (fp2_add (fp2_sub (d0 x) (d1 x)) (d2 x)) in
  let t3 := fp2_dbl (fp2_mul (d1 x) (d2 x)) in
  let t4 := fp2_sqr (d2 x) in
  let t5 := fp2_mulXi t3 in
  let r0 := fp2_add t0 t5 in
  let t5 := fp2_mulXi t4 in
  let r1 := fp2_add t1 t5 in
  let t1 := fp2_add t1 t2 in
  let t1 := fp2_add t1 t3 in
  let t0 := fp2_add t0 t4 in
  mk6 r0 r1 (fp2_sub t1 t0).
(** fp.cpp:1016-1035 *)
Definition fp6_mulBy01Assign (x : fp6) (e0 e1 : fp2) :=
  let t0 := fp2_mul (d0 x) e0 in
  let t1 := fp2_mul (d1 x) e1 in
  let t5 := fp2_add (d1 x) (d2 x) in
  let t2 := fp2_mul e1 t5 in
  let t2 := fp2_sub t2 t1 in
  let t2 := fp2_mulXi t2 in
  let t5 := fp2_add (d0 x) (d2 x) in
  let t3 := fp2_mul e0 t5 in
  let t3 := fp2_sub t3 t0 in
  let r2 := fp2_add t3 t1 in
  let t4 := fp2_add e0 e1 in
  let t5 := fp2_add (d0 x) (d1 x) in
  let t4 := fp2_mul t4 t5 in
  let t4 := fp2_sub t4 t0 in
  let r1 := fp2_sub t4 t1 in
  mk6 (fp2_add t2 t0) r1 r2.
(** fp.cpp:1037-1058 *)
Definition fp6_mulBy01 (x : fp6) (e0 e1 : fp2) :=
  let t0 := fp2_mul (d0 x) e0 in
  let t1 := fp2_mul (d1 x) e1 in
  let t2 := fp2_mul (fp2_add (d1 x) (d2 x)) e1 in
  let t2 := fp2_sub t2 t1 in
  let t2 := fp2_mulXi t2 in
  let t3 := fp2_mul (fp2_add (d0 x) (d2 x)) e0 in
  let t3 := fp2_sub t3 t0 in
  let r2 := fp2_add t3 t1 in
  let t4 := fp2_add e0 e1 in
  let t3 := fp2_add (d0 x) (d1 x) in
  let t4 := fp2_mul t4 t3 in
  let t4 := fp2_sub t4 t0 in
  mk6 (fp2_add t2 t0) (fp2_sub t4 t1) r2.
(** fp.cpp:1060-1069 *)
Definition fp6_mulBy1 (x : fp6) (e1 : fp2) :=
  mk6 (fp2_mulXi (fp2_mul (d2 x) e1)) (fp2_mul (d0 x) e1) (fp2_mul (d1 x) e1).
(** fp.cpp:1071-1078 *)
Definition fp6_mulV (x : fp6) := mk6 (fp2_mulXi (d2 x)) (d0 x) (d1 x).
(** fp.cpp:1080-1087 *)
Definition fp6_mulByBase (x : fp6) (e : fp2) := mk6 (fp2_mul (d0 x) e) (fp2_mul (d1 x) e) (fp2_mul (d2 x) e).
(** fp.cpp:1089-1115 *)
Definition fp6_inv (x : fp6) :=
  let t0 := fp2_sqr (d0 x) in
  let t1 := fp2_mulXi (fp2_mul (d1 x) (d2 x)) in
  let t0 := fp2_sub t0 t1 in
  let t1 := fp2_sqr (d1 x) in
  let t2 := fp2_mul (d0 x) (d2 x) in
  let t1 := fp2_sub t1 t2 in
  let t2 := fp2_mulXi (fp2_sqr (d2 x)) in
  let t3 := fp2_mul (d0 x) (d1 x) in
  let t2 := fp2_sub t2 t3 in
  let t3 := fp2_mul (d2 x) t2 in
  let t4 := fp2_mul (d1 x) t1 in
  let t3 := fp2_mulXi (fp2_add t3 t4) in
  let t4 := fp2_mul (d0 x) t0 in
  let t3 := fp2_inv (fp2_add t3 t4) in
  mk6 (fp2_mul t0 t3) (fp2_mul t2 t3) (fp2_mul t1 t3).
(** scalar.hpp:282-296 *)
Definition fp6_exp (x : fp6) (s : list Z) : fp6 := gexp fp6_one fp6_sqr fp6_mul x s.
(** fp.cpp:1175-1200 *)
Definition frobeniusCoeffs61 : list fp2 :=
  [mk2 0x15f65ec3fa80e4935c071a97a256ec6d77ce5853705257455f48985753c758baebf4000bc40c0002760900000002fffd 0x0;
   mk2 0x0 0x18f020655463874103f97d6e83d050d28eb60ebe01bacb9e587042afd3851b955dab22461fcda5d2cd03c9e48671f071;
   mk2 0x51ba4ab241b61603636b76660701c6ec26a2ff874fd029b16a8ca3ac61577f7f3b8ddab7ece5a2a30f1361b798a64e8 0x0;
   mk2 0x0 0x15f65ec3fa80e4935c071a97a256ec6d77ce5853705257455f48985753c758baebf4000bc40c0002760900000002fffd;
   mk2 0x18f020655463874103f97d6e83d050d28eb60ebe01bacb9e587042afd3851b955dab22461fcda5d2cd03c9e48671f071 0x0;
   mk2 0x0 0x51ba4ab241b61603636b76660701c6ec26a2ff874fd029b16a8ca3ac61577f7f3b8ddab7ece5a2a30f1361b798a64e8].
(** fp.cpp:1202-1227 *)
Definition frobeniusCoeffs62 : list fp2 :=
  [mk2 0x15f65ec3fa80e4935c071a97a256ec6d77ce5853705257455f48985753c758baebf4000bc40c0002760900000002fffd 0x0;
   mk2 0x14e56d3f1564853a14e4f04fe2db9068a20d1b8c7e88102450880866309b7e2c2af322533285a5d5890dc9e4867545c3 0x0;
   mk2 0x18f020655463874103f97d6e83d050d28eb60ebe01bacb9e587042afd3851b955dab22461fcda5d2cd03c9e48671f071 0x0;
   mk2 0x40ab3263eff0206ef148d1ea0f4c069eca8f3318332bb7a07e83a49a2e99d6932b7fff2ed47fffd43f5fffffffcaaae 0x0;
   mk2 0x51ba4ab241b61603636b76660701c6ec26a2ff874fd029b16a8ca3ac61577f7f3b8ddab7ece5a2a30f1361b798a64e8 0x0;
   mk2 0x110f184e51c5f5947222a47bf7b5c04d5c13cc6f1ca47210ec08ff1232bda8ec100ddb891865a2cecfb361b798dba3a 0x0].
Definition coeff (l : list fp2) (i : Z) : fp2 := nth (Z.to_nat i) l fp2_zero.
(** fp.cpp:1117-1144 (returns a copy); note case 3 *)
Definition fp6_frob (x : fp6) (power : Z) : fp6 :=
  let r0 := fp2_frob (d0 x) power in
  let r1 := fp2_frob (d1 x) power in
  let r2 := fp2_frob (d2 x) power in
  if power mod 6 =? 0 then mk6 r0 r1 r2
  else if power mod 6 =? 3 then
    mk6 (mk2 (fp_neg (c1 (d1 x))) (c1 r0)) (mk2 (c0 r1) (c0 (d1 x))) (fp2_neg (d2 x))
  else mk6 r0 (fp2_mul r1 (coeff frobeniusCoeffs61 (power mod 6))) (fp2_mul r2 (coeff frobeniusCoeffs62 (power mod 6))).
(** fp.cpp:1146-1173 (in place) *)
Definition fp6_frobAssign (x : fp6) (power : Z) : fp6 :=
  let r0 := fp2_frob (d0 x) power in
  let r1 := fp2_frob (d1 x) power in
  let r2 := fp2_frob (d2 x) power in
  if power mod 6 =? 0 then mk6 r0 r1 r2
  else if power mod 6 =? 3 then
    mk6 r0 (mk2 (fp_neg (c1 r1)) (c0 r1)) (fp2_neg r2)
  else mk6 r0 (fp2_mul r1 (coeff frobeniusCoeffs61 (power mod 6))) (fp2_mul r2 (coeff frobeniusCoeffs62 (power mod 6))).
(** fp.cpp:828-844 *)
Definition fp6_fromBytesBE (b : list Z) (check mont : bool) : option fp6 :=
  match fp2_fromBytesBE (sub_span 0 96 b) check mont, fp2_fromBytesBE (sub_span 96 96 b) check mont,
        fp2_fromBytesBE (sub_span 192 96 b) check mont with
  | Some r2, Some r1, Some r0 => Some (mk6 r0 r1 r2)
  | _, _, _ => None
  end.
Definition fp6_fromBytesLE (b : list Z) (check mont : bool) : option fp6 :=
  match fp2_fromBytesLE (sub_span 0 96 b) check mont, fp2_fromBytesLE (sub_span 96 96 b) check mont,
        fp2_fromBytesLE (sub_span 192 96 b) check mont with
  | Some r0, Some r1, Some r2 => Some (mk6 r0 r1 r2)
  | _, _, _ => None
  end.
(** fp.cpp:846-872 *)
Definition fp6_toBytesBE (x : fp6) (mont : bool) : list Z :=
  fp2_toBytesBE (d2 x) mont ++ fp2_toBytesBE (d1 x) mont ++ fp2_toBytesBE (d0 x) mont.
Definition fp6_toBytesLE (x : fp6) (mont : bool) : list Z :=
  fp2_toBytesLE (d0 x) mont ++ fp2_toBytesLE (d1 x) mont ++ fp2_toBytesLE (d2 x) mont.

(** * fp12 *)
Record fp12 : Type := mk12 { e0 : fp6; e1 : fp6 }.
(** fp.cpp:1283-1301 *)
Definition fp12_zero := mk12 fp6_zero fp6_zero.
Definition fp12_one := mk12 fp6_one fp6_zero.
Definition fp12_isOne (x : fp12) := fp6_isOne (e0 x) && fp6_isZero (e1 x).
Definition fp12_isZero (x : fp12) := fp6_isZero (e0 x) && fp6_isZero (e1 x).
(** fp.cpp:1309-1312 *)
Definition fp12_equal (x y : fp12) := fp6_equal (e0 x) (e0 y) && fp6_equal (e1 x) (e1 y).
(** fp.cpp:1314-1364 *)
Definition fp12_add (x y : fp12) := mk12 (fp6_add (e0 x) (e0 y)) (fp6_add (e1 x) (e1 y)).
Definition fp12_dbl (x : fp12) := mk12 (fp6_dbl (e0 x)) (fp6_dbl (e1 x)).
Definition fp12_sub (x y : fp12) := mk12 (fp6_sub (e0 x) (e0 y)) (fp6_sub (e1 x) (e1 y)).
Definition fp12_neg (x : fp12) := mk12 (fp6_neg (e0 x)) (fp6_neg (e1 x)).
Definition fp12_conj (x : fp12) := mk12 (e0 x) (fp6_neg (e1 x)).
(** fp.cpp:1366-1385 *)
Definition fp12_sqr (x : fp12) :=
  let t0 := fp6_add (e0 x) (e1 x) in
  let t2 := fp6_mul (e0 x) (e1 x) in
  let t1 := fp6_mulV (e1 x) in
  let t1 := fp6_add t1 (e0 x) in
  let t3 := fp6_mulV t2 in
  let t0 := fp6_mul t0 t1 in
  let t0 := fp6_sub t0 t2 in
  mk12 (fp6_sub t0 t3) (fp6_dbl t2).
(** fp.cpp:1442-1455 *)
Definition fp4Square (x y : fp2) : fp2 * fp2 :=
  let t0 := fp2_sqr x in
  let t1 := fp2_sqr y in
  let t2 := fp2_mulXi t1 in
  let r0 := fp2_add t2 t0 in
  let t2 := fp2_add x y in
  let t2 := fp2_sqr t2 in
  let t2 := fp2_sub t2 t0 in
  (r0, fp2_sub t2 t1).
(** fp.cpp:1387-1418 *)
Definition fp12_cycSqr (x : fp12) :=
  let (t3, t4) := fp4Square (d0 (e0 x)) (d1 (e1 x)) in
  let t2 := fp2_dbl (fp2_sub t3 (d0 (e0 x))) in
  let r00 := fp2_add t2 t3 in
  let t2 := fp2_dbl (fp2_add t4 (d1 (e1 x))) in
  let r11 := fp2_add t2 t4 in
  let (t3, t4) := fp4Square (d0 (e1 x)) (d2 (e0 x)) in
  let (t5, t6) := fp4Square (d1 (e0 x)) (d2 (e1 x)) in
  let t2 := fp2_dbl (fp2_sub t3 (d1 (e0 x))) in
  let r01 := fp2_add t2 t3 in
  let t2 := fp2_dbl (fp2_add t4 (d2 (e1 x))) in
  let r12 := fp2_add t2 t4 in
  let t3 := fp2_mulXi t6 in
  let t2 := fp2_dbl (fp2_add t3 (d0 (e1 x))) in
  let r10 := fp2_add t2 t3 in
  let t2 := fp2_dbl (fp2_sub t5 (d2 (e0 x))) in
  let r02 := fp2_add t2 t5 in
  mk12 (mk6 r00 r01 r02) (mk6 r10 r11 r12).
(** fp.cpp:1420-1440 *)
Definition fp12_mul (x e : fp12) :=
  let t1 := fp6_mul (e0 x) (e0 e) in
  let t2 := fp6_mul (e1 x) (e1 e) in
  let t0 := fp6_add t1 t2 in
  let t2 := fp6_mulV t2 in
  let t3 := fp6_add t1 t2 in
  let t1 := fp6_add (e0 x) (e1 x) in
  let t2 := fp6_add (e0 e) (e1 e) in
  let t1 := fp6_mul t1 t2 in
  mk12 t3 (fp6_sub t1 t0).
(** fp.cpp:1457-1470 *)
Definition fp12_inv (x : fp12) :=
  let t0 := fp6_sqr (e0 x) in
  let t1 := fp6_sqr (e1 x) in
  let t1 := fp6_mulV t1 in
  let t1 := fp6_sub t0 t1 in
  let t0 := fp6_inv t1 in
  mk12 (fp6_mul (e0 x) t0) (fp6_neg (fp6_mul t0 (e1 x))).
(** fp.cpp:1472-1485 *)
Definition fp12_mulBy014 (x : fp12) (f0 f1 f4 : fp2) :=
  let t0 := fp6_mulBy01 (e0 x) f0 f1 in
  let t1 := fp6_mulBy1 (e1 x) f4 in
  let t2' := fp2_add f1 f4 in
  let t2 := fp6_add (e1 x) (e0 x) in
  let t2 := fp6_mulBy01Assign t2 f0 t2' in
  let t2 := fp6_sub t2 t0 in
  let r1 := fp6_sub t2 t1 in
  let t1 := fp6_mulV t1 in
  mk12 (fp6_add t1 t0) r1.
(** scalar.hpp:298-312, 314-328 *)
Definition fp12_exp (x : fp12) (s : list Z) : fp12 := gexp fp12_one fp12_sqr fp12_mul x s.
Definition fp12_cycExp (x : fp12) (s : list Z) : fp12 := gexp fp12_one fp12_cycSqr fp12_mul x s.
(** fp.cpp:1304-1307 *)
Definition fp12_isGtValid (x : fp12) : bool := fp12_isOne (fp12_exp x (limbs_of 4 Qorder)).
(** fp.cpp:1535-1584 *)
Definition frobeniusCoeffs12 : list fp2 :=
  [mk2 0x15f65ec3fa80e4935c071a97a256ec6d77ce5853705257455f48985753c758baebf4000bc40c0002760900000002fffd 0x0;
   mk2 0x8f2220fb0fb66eb1ce393ea5daace4da35baecab2dc29ee97e83cccd117228fc6695f92b50a831307089552b319d465 0x110eefda88847faf2e3813cbe5a0de89c11b9cba40a8e8d0cf4895d42599d3945842a06bfc497cecb2f66aad4ce5d646;
   mk2 0x110f184e51c5f5947222a47bf7b5c04d5c13cc6f1ca47210ec08ff1232bda8ec100ddb891865a2cecfb361b798dba3a 0x0;
   mk2 0xbd592fc7d825ec81d794e4fac7cf0b992ad2afd19103e18382844c88b6237324294213d86c181833e2f585da55c9ad1 0xe2b7eedbbfd87d22da2596696cebc1dd1ca2087da74d4a72f088dd86b4ebef1dc17dec12a927e7c7bcfa7a25aa30fda;
   mk2 0x51ba4ab241b61603636b76660701c6ec26a2ff874fd029b16a8ca3ac61577f7f3b8ddab7ece5a2a30f1361b798a64e8 0x0;
   mk2 0x2e370eccc86f7dd0095ba654ed2226bef517c3266341429a04007fbba4b14a27c2ac1aad1b6fe703726c30af242c66c 0x171da0fd6cf8eebd4a85ed50f4798a6b7525cf528d50fe95c6f0caa53c65e181a2813e53df9d018f82d83cf50dbce43f;
   mk2 0x40ab3263eff0206ef148d1ea0f4c069eca8f3318332bb7a07e83a49a2e99d6932b7fff2ed47fffd43f5fffffffcaaae 0x0;
   mk2 0x110eefda88847faf2e3813cbe5a0de89c11b9cba40a8e8d0cf4895d42599d3945842a06bfc497cecb2f66aad4ce5d646 0x8f2220fb0fb66eb1ce393ea5daace4da35baecab2dc29ee97e83cccd117228fc6695f92b50a831307089552b319d465;
   mk2 0x18f020655463874103f97d6e83d050d28eb60ebe01bacb9e587042afd3851b955dab22461fcda5d2cd03c9e48671f071 0x0;
   mk2 0xe2b7eedbbfd87d22da2596696cebc1dd1ca2087da74d4a72f088dd86b4ebef1dc17dec12a927e7c7bcfa7a25aa30fda 0xbd592fc7d825ec81d794e4fac7cf0b992ad2afd19103e18382844c88b6237324294213d86c181833e2f585da55c9ad1;
   mk2 0x14e56d3f1564853a14e4f04fe2db9068a20d1b8c7e88102450880866309b7e2c2af322533285a5d5890dc9e4867545c3 0x0;
   mk2 0x171da0fd6cf8eebd4a85ed50f4798a6b7525cf528d50fe95c6f0caa53c65e181a2813e53df9d018f82d83cf50dbce43f 0x2e370eccc86f7dd0095ba654ed2226bef517c3266341429a04007fbba4b14a27c2ac1aad1b6fe703726c30af242c66c].
(** fp.cpp:1487-1510 and 1512-1533; None = the index frobeniusCoeffs12[power] is outside the array *)
Definition fp12_frob_with (frob6 : fp6 -> Z -> fp6) (x : fp12) (power : Z) : option fp12 :=
  let r0 := frob6 (e0 x) power in
  let r1 := frob6 (e1 x) power in
  if power =? 0 then Some (mk12 r0 r1)
  else if power =? 6 then Some (mk12 r0 (fp6_neg r1))
  else if power <? 12 then Some (mk12 r0 (fp6_mulByBase r1 (coeff frobeniusCoeffs12 power)))
  else None.
Definition fp12_frob_opt := fp12_frob_with fp6_frob.
Definition fp12_frobAssign_opt := fp12_frob_with fp6_frobAssign.
(** the callers pass constants below 12 *)
Definition fp12_frob (x : fp12) (power : Z) : fp12 := match fp12_frob_opt x power with Some y => y | None => x end.
Definition fp12_frobAssign (x : fp12) (power : Z) : fp12 := match fp12_frobAssign_opt x power with Some y => y | None => x end.
(** fp.cpp:1241-1255 *)
Definition fp12_fromBytesBE (b : list Z) (check mont : bool) : option fp12 :=
  match fp6_fromBytesBE (sub_span 0 288 b) check mont, fp6_fromBytesBE (sub_span 288 288 b) check mont with
  | Some r1, Some r0 => Some (mk12 r0 r1)
  | _, _ => None
  end.
Definition fp12_fromBytesLE (b : list Z) (check mont : bool) : option fp12 :=
  match fp6_fromBytesLE (sub_span 0 288 b) check mont, fp6_fromBytesLE (sub_span 288 288 b) check mont with
  | Some r0, Some r1 => Some (mk12 r0 r1)
  | _, _ => None
  end.
(** fp.cpp:1257-1281 *)
Definition fp12_toBytesBE (x : fp12) (mont : bool) : list Z := fp6_toBytesBE (e1 x) mont ++ fp6_toBytesBE (e0 x) mont.
Definition fp12_toBytesLE (x : fp12) (mont : bool) : list Z := fp6_toBytesLE (e0 x) mont ++ fp6_toBytesLE (e1 x) mont.

