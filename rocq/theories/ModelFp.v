(** Model of class fp (src/fp.cpp) on top of the primitives of ModelPrim.v. *)
From Coq Require Import ZArith List Bool.
From Verif Require Import ModelWord ModelScalar.
From Verif Require Export ModelPrim.
Import ListNotations.
Local Open Scope Z_scope.

(** ** Constants, predicates *)
(** fp.cpp:62-70 *)
Definition fp_zero : Z := 0.
Definition fp_one : Z := R1.
(** fp.hpp:54-68 (cmp): compares limbs from the top, that is the integers ([scalar_cmp_ok]). *)
Definition fp_cmp (x y : Z) : comparison := (x ?= y).
(** fp.cpp:72-75 *)
Definition fp_isValid (x : Z) : bool := match fp_cmp x MODULUS with Lt => true | _ => false end.
(** fp.cpp:77-85 *)
Definition fp_isEven (x : Z) : bool := Z.land (x mod W) 1 =? 0.
(** fp.cpp:87-100 *)
Definition fp_isZero (x : Z) : bool := x =? 0.
Definition fp_equal (x y : Z) : bool := x =? y.
Definition fp_isOne (x : Z) : bool := fp_equal x R1.

(** ** Montgomery conversions *)
(** fp.cpp:196-201 *)
Definition fp_toMont (x : Z) : Z := fp_mul x R2.
(** fp.cpp:203-208 *)
Definition fp_fromMont (x : Z) : Z := fp_mul x 1.
(** fp.cpp:102-105 *)
Definition fp_sign (x : Z) : bool := Z.land (fp_fromMont x mod W) 1 =? 0.
(** fp.cpp:210-215 *)
Definition fp_phi (x : Z) : Z := fp_mul x glvPhi1.

(** ** Inversion, fp.cpp:221-323 *)
(** fp.cpp:174-182 with e = 0 *)
Definition fp_div2 (x : Z) : Z := x / 2.
(** fp.cpp:184-194 (the returned top bit is ignored by the caller) *)
Definition fp_mul2 (x : Z) : Z := (2 * x) mod R384.
(** Phase 1 loop, fp.cpp:244-278; [None] = not found within the iteration bound *)
Fixpoint inv_loop (fuel : nat) (u v s r k : Z) : option (Z * Z) :=
  match fuel with
  | O => None
  | S fuel =>
      if fp_isZero v then Some (r, k)
      else if fp_isEven u then inv_loop fuel (fp_div2 u) v (fp_mul2 s) r (k + 1)
      else if fp_isEven v then inv_loop fuel u (fp_div2 v) s (fp_mul2 r) (k + 1)
      else match fp_cmp u v with
           | Gt => inv_loop fuel (fp_div2 (fp_lsub u v)) v (fp_mul2 s) (fp_ladd r s) (k + 1)
           | _ => inv_loop fuel u (fp_div2 (fp_lsub v u)) (fp_ladd s r) (fp_mul2 r) (k + 1)
           end
  end.
(** None = the write fpPower.d[power/64] would be outside the array *)
Definition fp_inverse_opt (x : Z) : option Z :=
  if fp_isZero x then Some fp_zero
  else match inv_loop 768 MODULUS x 1 0 0 with
       | None => Some fp_zero
       | Some (r, k) =>
           let r := match fp_cmp r MODULUS with Lt => r | _ => fp_lsub r MODULUS end in
           let u := fp_lsub MODULUS r in
           let (u, k) := if k <=? 384 then (fp_mul u R2, k + 384) else (u, k) in
           let u := fp_mul u R2 in
           if 768 <? k then Some fp_zero
           else let power := 768 - k in
                if power <? 384 then Some (fp_mul u (2 ^ power)) else None
       end.
Definition fp_inverse (x : Z) : Z := match fp_inverse_opt x with Some y => y | None => 0 end.

(** ** Exponentiation and square roots *)
(** scalar.hpp:250-264 *)
Definition fp_exp (x : Z) (s : list Z) : Z := gexp fp_one fp_sqr fp_mul x s.
(** fp.cpp:325-332: returned flag and output value *)
Definition fp_sqrt (x : Z) : bool * Z :=
  let c := fp_exp x (limbs_of 6 pPlus1Over4) in
  (fp_equal x (fp_sqr c), c).
(** fp.cpp:334-338 *)
Definition fp_isQNR (x : Z) : bool := negb (fp_isOne (fp_exp x (limbs_of 6 pMinus1Over2))).

(** fp.cpp:343-350, least significant limb first (the source lists the most significant first) *)
Definition halfQ : list Z :=
  [0xDCFF7FFFFFFFD556; 0x0F55FFFF58A9FFFF; 0xB39869507B587B12;
   0xB23BA5C279C2895F; 0x258DD3DB21A5D66B; 0x0D0088F51CBFF34D].
(** fp.cpp:353-359 *)
Fixpoint sub_borrow (y h : list Z) (b : Z) : Z :=
  match y, h with
  | a :: y, c :: h => sub_borrow y h (snd (Sub64 a c b))
  | _, _ => b
  end.
(** fp.cpp:341-363 *)
Definition fp_isLexLargest (x : Z) : bool :=
  sub_borrow (limbs_of 6 (fp_fromMont x)) halfQ 0 =? 0.

(** ** Byte codecs, fp.cpp:20-60; [check] and [mont] are the conv_opt flags *)
Definition fp_fromBytesBE (b : list Z) (check mont : bool) : option Z :=
  let e := val (fromBytesBE 6 b) in
  if check && negb (fp_isValid e) then None
  else Some (if mont then fp_toMont e else e).
Definition fp_fromBytesLE (b : list Z) (check mont : bool) : option Z :=
  let e := val (fromBytesLE 6 b) in
  if check && negb (fp_isValid e) then None
  else Some (if mont then fp_toMont e else e).
Definition fp_toBytesBE (x : Z) (mont : bool) : list Z :=
  toBytesBE (limbs_of 6 (if mont then fp_fromMont x else x)).
Definition fp_toBytesLE (x : Z) (mont : bool) : list Z :=
  toBytesLE (limbs_of 6 (if mont then fp_fromMont x else x)).
