(** Constants and arithmetic primitives of class fp (src/fp.cpp, src/arithmetic.s) at value level: an fp object is the integer
    [val d] of its six limbs, in [0, 2^384), normally the Montgomery form a*2^384 mod p.
    The x86 routines are shown to store exactly these values in AsmProof*.v. *)
From Coq Require Import ZArith List Bool.
From Verif Require Import ModelWord.
Import ListNotations.
Local Open Scope Z_scope.

(** src/fp.cpp:365-373 *)
Definition MODULUS : Z := Eval vm_compute in val [0xb9feffffffffaaab; 0x1eabfffeb153ffff; 0x6730d2a0f6b0f624; 0x64774b84f38512bf; 0x4b1ba7b6434bacd7; 0x1a0111ea397fe69a].

(** src/fp.cpp:377-384 *)
Definition R1 : Z := Eval vm_compute in val [0x760900000002fffd; 0xebf4000bc40c0002; 0x5f48985753c758ba; 0x77ce585370525745; 0x5c071a97a256ec6d; 0x15f65ec3fa80e493].

(** src/fp.cpp:386-393 *)
Definition R2 : Z := Eval vm_compute in val [0xf4df1f341c341746; 0x0a76e6a609d104f1; 0x8de5476c4c95b6d5; 0x67eb88a9939d83c0; 0x9a793e85b519952d; 0x11988fe592cae3aa].

(** src/fp.cpp:395-402 *)
Definition B : Z := Eval vm_compute in val [0xaa270000000cfff3; 0x53cc0032fc34000a; 0x478fe97a6b0a807f; 0xb1d37ebee6ba24d7; 0x8ec9733bbf78ab2f; 0x09d645513d83de7e].

(** src/fp.cpp:404-411 *)
Definition twoInv : Z := Eval vm_compute in val [0x1804000000015554; 0x855000053ab00001; 0x633cb57c253c276f; 0x6e22d1ec31ebb502; 0xd3916126f2d14ca2; 0x17fbb8571a006596].

(** src/fp.cpp:413-420 *)
Definition glvPhi1 : Z := Eval vm_compute in val [0xcd03c9e48671f071; 0x5dab22461fcda5d2; 0x587042afd3851b95; 0x8eb60ebe01bacb9e; 0x03f97d6e83d050d2; 0x18f0206554638741].

(** src/fp.cpp:422-427 *)
Definition Qorder : Z := Eval vm_compute in val [0xffffffff00000001; 0x53bda402fffe5bfe; 0x3339d80809a1d805; 0x73eda753299d7d48].

(** src/fp.cpp:429-436 *)
Definition pPlus1Over4 : Z := Eval vm_compute in val [0xee7fbfffffffeaab; 0x07aaffffac54ffff; 0xd9cc34a83dac3d89; 0xd91dd2e13ce144af; 0x92c6e9ed90d2eb35; 0x0680447a8e5ff9a6].

(** src/fp.cpp:438-445 *)
Definition pMinus1Over2 : Z := Eval vm_compute in val [0xdcff7fffffffd555; 0x0f55ffff58a9ffff; 0xb39869507b587b12; 0xb23ba5c279c2895f; 0x258dd3db21a5d66b; 0x0d0088f51cbff34d].

(** src/fp.cpp:447-454 *)
Definition pMinus3Over4 : Z := Eval vm_compute in val [0xee7fbfffffffeaaa; 0x07aaffffac54ffff; 0xd9cc34a83dac3d89; 0xd91dd2e13ce144af; 0x92c6e9ed90d2eb35; 0x0680447a8e5ff9a6].

(** src/fp.cpp:375 *)
Definition INP : Z := 0x89f3fffcfffcfffd.

(** arithmetic.s:7-60 (_add): the carry out of limb 5 is dropped, then one conditional subtraction. *)
Definition fp_add (x y : Z) : Z :=
  let s := (x + y) mod R384 in if s <? MODULUS then s else s - MODULUS.
(** arithmetic.s:66-85 (_ladd) *)
Definition fp_ladd (x y : Z) : Z := (x + y) mod R384.
(** arithmetic.s:91-144 (_double) *)
Definition fp_double (x : Z) : Z :=
  let s := (x + x) mod R384 in if s <? MODULUS then s else s - MODULUS.
(** arithmetic.s:150-169 (_ldouble) *)
Definition fp_ldouble (x : Z) : Z := (x + x) mod R384.
(** arithmetic.s:175-223 (_subtract) *)
Definition fp_sub (x y : Z) : Z :=
  if x <? y then ((x - y) mod R384 + MODULUS) mod R384 else x - y.
(** arithmetic.s:229-248 (_lsubtract) *)
Definition fp_lsub (x y : Z) : Z := (x - y) mod R384.
(** arithmetic.s:254-273 (__negate) *)
Definition fp_rawneg (x : Z) : Z := (MODULUS - x) mod R384.
(** arithmetic.cpp:119-128 (_negate) *)
Definition fp_neg (x : Z) : Z := if x =? 0 then x else fp_rawneg x.

(** - p^{-1} mod 2^384: the six row multipliers m_i = (limb i) * INP mod 2^64 of the reduction, taken
    together, are the base-2^64 digits of  x*y*NINV mod 2^384. *)
Definition NINV : Z :=
  0xceb06106feaafc9468b316fee268cf5819ecca0e8eb2db4c16ef2ef0c8e30b48286adb92d9d113e889f3fffcfffcfffd.
(** arithmetic.s:279-897 (__multiply), 903-1308 (__mul_ex): Montgomery product, then one conditional
    subtraction; the carry out of limb 5 is dropped. *)
Definition fp_mul (x y : Z) : Z :=
  let t := x * y in
  let m := (t * NINV) mod R384 in
  let u := ((t + m * MODULUS) / R384) mod R384 in
  if u <? MODULUS then u else u - MODULUS.
(** arithmetic.cpp:320-323 (_square) *)
Definition fp_sqr (x : Z) : Z := fp_mul x x.
