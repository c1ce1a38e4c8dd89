(** In-place operations on a memory, with the arguments given by address, so that they may be the same object:
    the portable field arithmetic on limbs (arithmetic.cpp), the Assign methods of fp2, fp6, fp12 (fp.cpp), g1, g2 (g.cpp),
    fp::sqrt, fp2::sqrt and the pairing steps.  Local variables and temporaries (t[...], returned values) are not in the
    memory: no argument can refer to them.  Loads and stores are in the order of the source. *)
From Coq Require Import ZArith List Bool.
From Verif Require Import ModelWord ModelScalar ModelFp ModelTower ModelCurve ModelPairing PortArith.
Import ListNotations.
Local Open Scope Z_scope.

(** cells of type [V] at integer addresses *)
Definition st {V} (m : Z -> V) (a : Z) (v : V) : Z -> V := fun x => if x =? a then v else m x.

(** * Portable field arithmetic: a cell is a limb, an fp object occupies six cells. *)
Definition ldn (m : Z -> Z) (a : Z) : list Z := [m a; m (a + 1); m (a + 2); m (a + 3); m (a + 4); m (a + 5)].
(** tie(z->d[i], carry) = Add64(x->d[i], y->d[i], carry) for i = i, i+1, ... *)
Fixpoint add_mem (n : nat) (m : Z -> Z) (z x y : Z) (carry : Z) : (Z -> Z) * Z :=
  match n with
  | O => (m, carry)
  | S n => let (s, carry) := Add64 (m x) (m y) carry in add_mem n (st m z s) (z + 1) (x + 1) (y + 1) carry
  end.
Fixpoint sub_mem (n : nat) (m : Z -> Z) (z x y : Z) (b : Z) : (Z -> Z) * Z :=
  match n with
  | O => (m, b)
  | S n => let (s, b) := Sub64 (m x) (m y) b in sub_mem n (st m z s) (z + 1) (x + 1) (y + 1) b
  end.
(** the same with fp::MODULUS, a constant, as second operand (and as first operand, in _negate) *)
Fixpoint addc_mem (m : Z -> Z) (z x : Z) (c : list Z) (carry : Z) : Z -> Z :=
  match c with
  | [] => m
  | l :: c => let (s, carry) := Add64 (m x) l carry in addc_mem (st m z s) (z + 1) (x + 1) c carry
  end.
Fixpoint subc_mem (m : Z -> Z) (z x : Z) (c : list Z) (b : Z) : Z -> Z :=
  match c with
  | [] => m
  | l :: c => let (s, b) := Sub64 (m x) l b in subc_mem (st m z s) (z + 1) (x + 1) c b
  end.
Fixpoint csub_mem (m : Z -> Z) (z x : Z) (c : list Z) (b : Z) : Z -> Z :=
  match c with
  | [] => m
  | l :: c => let (s, b) := Sub64 l (m x) b in csub_mem (st m z s) (z + 1) (x + 1) c b
  end.
(** "if z > q --> z -= q", e.g. arithmetic.cpp:23-34 *)
Definition reduce_mem (m : Z -> Z) (z : Z) : Z -> Z :=
  match cmp_loop 6 (ldn m z) MODl with Lt => m | _ => subc_mem m z z MODl 0 end.
(** arithmetic.cpp:12-35 *)
Definition add_m (m : Z -> Z) (z x y : Z) : Z -> Z := reduce_mem (fst (add_mem 6 m z x y 0)) z.
(** arithmetic.cpp:37-46 *)
Definition ladd_m (m : Z -> Z) (z x y : Z) : Z -> Z := fst (add_mem 6 m z x y 0).
(** arithmetic.cpp:48-71 *)
Definition double_m (m : Z -> Z) (z x : Z) : Z -> Z := reduce_mem (fst (add_mem 6 m z x x 0)) z.
(** arithmetic.cpp:73-83 *)
Definition ldouble_m (m : Z -> Z) (z x : Z) : Z -> Z := fst (add_mem 6 m z x x 0).
(** arithmetic.cpp:85-104 *)
Definition subtract_m (m : Z -> Z) (z x y : Z) : Z -> Z :=
  let (m, b) := sub_mem 6 m z x y 0 in if b =? 0 then m else addc_mem m z z MODl 0.
(** arithmetic.cpp:106-115 *)
Definition lsubtract_m (m : Z -> Z) (z x y : Z) : Z -> Z := fst (sub_mem 6 m z x y 0).
(** *z = *x: member-wise copy *)
Definition copy_m (m : Z -> Z) (z x : Z) : Z -> Z :=
  let m := st m z (m x) in let m := st m (z + 1) (m (x + 1)) in let m := st m (z + 2) (m (x + 2)) in
  let m := st m (z + 3) (m (x + 3)) in let m := st m (z + 4) (m (x + 4)) in st m (z + 5) (m (x + 5)).
(** arithmetic.cpp:130-144 *)
Definition negate_m (m : Z -> Z) (z x : Z) : Z -> Z :=
  if forallb (fun l => l =? 0) (ldn m x) then copy_m m z x else csub_mem m z x MODl 0.
(** arithmetic.cpp:197-316: rounds 0 to 4 write the local array t; round 5 (284-300) stores to *z while it still reads *y *)
Definition multiply_m (m : Z -> Z) (z x y : Z) : Z -> Z :=
  let M := limb MODl in
  let xs := ldn m x in let ys := ldn m y in
  let t := p_round0 (limb xs 0) ys in
  let t := p_round (limb xs 1) ys t in
  let t := p_round (limb xs 2) ys t in
  let t := p_round (limb xs 3) ys t in
  let t := p_round (limb xs 4) ys t in
  let v := m (x + 5) in
  let (c1, c0) := madd1 v (m y) (limb t 0) in
  let q := (c0 * INP) mod W in
  let c2 := madd0 q (M 0%nat) c0 in
  let (c1, c0) := madd2 v (m (y + 1)) c1 (limb t 1) in
  let (c2, z0) := madd2 q (M 1%nat) c2 c0 in
  let m := st m z z0 in
  let (c1, c0) := madd2 v (m (y + 2)) c1 (limb t 2) in
  let (c2, z1) := madd2 q (M 2%nat) c2 c0 in
  let m := st m (z + 1) z1 in
  let (c1, c0) := madd2 v (m (y + 3)) c1 (limb t 3) in
  let (c2, z2) := madd2 q (M 3%nat) c2 c0 in
  let m := st m (z + 2) z2 in
  let (c1, c0) := madd2 v (m (y + 4)) c1 (limb t 4) in
  let (c2, z3) := madd2 q (M 4%nat) c2 c0 in
  let m := st m (z + 3) z3 in
  let (c1, c0) := madd2 v (m (y + 5)) c1 (limb t 5) in
  let (z5, z4) := madd3 q (M 5%nat) c0 c2 c1 in
  reduce_mem (st (st m (z + 5) z5) (z + 4) z4) z.

(** arithmetic.cpp:325-428: rounds 0 to 4 write the local array p; round 5 (404-413) stores to *z and then reads x->d[5] *)
Definition square_m (m : Z -> Z) (z x : Z) : Z -> Z :=
  let M := limb MODl in
  let x0 := m x in let x1 := m (x + 1) in let x2 := m (x + 2) in
  let x3 := m (x + 3) in let x4 := m (x + 4) in let x5 := m (x + 5) in
  (* round 0 *)
  let (u, p0) := Mul64 x0 x0 in
  let q := (p0 * INP) mod W in
  let C := madd0 q (M 0%nat) p0 in
  let '(t, u, v) := madd1sb x0 x1 u in
  let (C, p0) := madd2 q (M 1%nat) v C in
  let '(t, u, v) := madd1s x0 x2 t u in
  let (C, p1) := madd2 q (M 2%nat) v C in
  let '(t, u, v) := madd1s x0 x3 t u in
  let (C, p2) := madd2 q (M 3%nat) v C in
  let '(t, u, v) := madd1s x0 x4 t u in
  let (C, p3) := madd2 q (M 4%nat) v C in
  let '(_, u, v) := madd1s x0 x5 t u in
  let (p5, p4) := madd3 q (M 5%nat) v C u in
  (* round 1 *)
  let q := (p0 * INP) mod W in
  let C := madd0 q (M 0%nat) p0 in
  let (u, v) := madd1 x1 x1 p1 in
  let (C, p0) := madd2 q (M 1%nat) v C in
  let '(t, u, v) := madd2sb x1 x2 p2 u in
  let (C, p1) := madd2 q (M 2%nat) v C in
  let '(t, u, v) := madd2s x1 x3 p3 t u in
  let (C, p2) := madd2 q (M 3%nat) v C in
  let '(t, u, v) := madd2s x1 x4 p4 t u in
  let (C, p3) := madd2 q (M 4%nat) v C in
  let '(_, u, v) := madd2s x1 x5 p5 t u in
  let (p5, p4) := madd3 q (M 5%nat) v C u in
  (* round 2 *)
  let q := (p0 * INP) mod W in
  let C := madd0 q (M 0%nat) p0 in
  let (C, p0) := madd2 q (M 1%nat) p1 C in
  let (u, v) := madd1 x2 x2 p2 in
  let (C, p1) := madd2 q (M 2%nat) v C in
  let '(t, u, v) := madd2sb x2 x3 p3 u in
  let (C, p2) := madd2 q (M 3%nat) v C in
  let '(t, u, v) := madd2s x2 x4 p4 t u in
  let (C, p3) := madd2 q (M 4%nat) v C in
  let '(_, u, v) := madd2s x2 x5 p5 t u in
  let (p5, p4) := madd3 q (M 5%nat) v C u in
  (* round 3 *)
  let q := (p0 * INP) mod W in
  let C := madd0 q (M 0%nat) p0 in
  let (C, p0) := madd2 q (M 1%nat) p1 C in
  let (C, p1) := madd2 q (M 2%nat) p2 C in
  let (u, v) := madd1 x3 x3 p3 in
  let (C, p2) := madd2 q (M 3%nat) v C in
  let '(t, u, v) := madd2sb x3 x4 p4 u in
  let (C, p3) := madd2 q (M 4%nat) v C in
  let '(_, u, v) := madd2s x3 x5 p5 t u in
  let (p5, p4) := madd3 q (M 5%nat) v C u in
  (* round 4 *)
  let q := (p0 * INP) mod W in
  let C := madd0 q (M 0%nat) p0 in
  let (C, p0) := madd2 q (M 1%nat) p1 C in
  let (C, p1) := madd2 q (M 2%nat) p2 C in
  let (C, p2) := madd2 q (M 3%nat) p3 C in
  let (u, v) := madd1 x4 x4 p4 in
  let (C, p3) := madd2 q (M 4%nat) v C in
  let '(_, u, v) := madd2sb x4 x5 p5 u in
  let (p5, p4) := madd3 q (M 5%nat) v C u in
  (* round 5 *)
  let q := (p0 * INP) mod W in
  let C := madd0 q (M 0%nat) p0 in
  let (C, z0) := madd2 q (M 1%nat) p1 C in
  let m := st m z z0 in
  let (C, z1) := madd2 q (M 2%nat) p2 C in
  let m := st m (z + 1) z1 in
  let (C, z2) := madd2 q (M 3%nat) p3 C in
  let m := st m (z + 2) z2 in
  let (C, z3) := madd2 q (M 4%nat) p4 C in
  let m := st m (z + 3) z3 in
  let (u, v) := madd1 (m (x + 5)) (m (x + 5)) p5 in
  let (z5, z4) := madd3 q (M 5%nat) v C u in
  reduce_mem (st (st m (z + 5) z5) (z + 4) z4) z.

(** * fp2, fp6, fp12: a cell is an fp object.  That each primitive reads its operands before it stores its result is
    what C01-C04 (x86) and C58 (portable) say. *)
Notation mem := (Z -> Z).
Definition ld2 (m : mem) (a : Z) : fp2 := mk2 (m a) (m (a + 1)).
Definition ld6 (m : mem) (a : Z) : fp6 := mk6 (ld2 m a) (ld2 m (a + 2)) (ld2 m (a + 4)).
Definition ld12 (m : mem) (a : Z) : fp12 := mk12 (ld6 m a) (ld6 m (a + 6)).
(** member-wise assignment of a temporary *)
Definition st2 (m : mem) (a : Z) (v : fp2) : mem := st (st m a (c0 v)) (a + 1) (c1 v).
Definition st6 (m : mem) (a : Z) (v : fp6) : mem := st2 (st2 (st2 m a (d0 v)) (a + 2) (d1 v)) (a + 4) (d2 v).
(** fp.cpp:552-556 *)
Definition fp2_addAssign_m (m : mem) (this e : Z) : mem :=
  let m := st m this (fp_add (m this) (m e)) in st m (this + 1) (fp_add (m (this + 1)) (m (e + 1))).
(** fp.cpp:565-569 *)
Definition fp2_doubleAssign_m (m : mem) (this : Z) : mem :=
  let m := st m this (fp_double (m this)) in st m (this + 1) (fp_double (m (this + 1))).
(** fp.cpp:578-582 *)
Definition fp2_subtractAssign_m (m : mem) (this e : Z) : mem :=
  let m := st m this (fp_sub (m this) (m e)) in st m (this + 1) (fp_sub (m (this + 1)) (m (e + 1))).
(** fp.cpp:607-618 *)
Definition fp2_multiplyAssign_m (m : mem) (this e : Z) : mem :=
  let t1 := fp_mul (m this) (m e) in
  let t2 := fp_mul (m (this + 1)) (m (e + 1)) in
  let t0 := fp_add (m this) (m (this + 1)) in
  let t3 := fp_add (m e) (m (e + 1)) in
  let m := st m this (fp_sub t1 t2) in
  let t1 := fp_add t1 t2 in
  let t0 := fp_mul t0 t3 in
  st m (this + 1) (fp_sub t0 t1).
(** fp.cpp:627-635 *)
Definition fp2_squareAssign_m (m : mem) (this : Z) : mem :=
  let t0 := fp_ladd (m this) (m (this + 1)) in
  let t1 := fp_sub (m this) (m (this + 1)) in
  let t2 := fp_ldouble (m this) in
  let m := st m this (fp_mul t0 t1) in
  st m (this + 1) (fp_mul t2 (m (this + 1))).
(** fp.cpp:695-701 *)
Definition fp2_frobeniusMapAssign_m (m : mem) (this power : Z) : mem :=
  if power mod 2 =? 1 then st m (this + 1) (fp_neg (m (this + 1))) else m.
(** fp.cpp:325-332 *)
Definition fp_sqrt_m (m : mem) (this c : Z) : bool * mem :=
  let u := m this in
  let m := st m c (fp_exp (m this) (limbs_of 6 pPlus1Over4)) in
  let v := fp_sqr (m c) in
  (fp_equal u v, m).
(** fp.cpp:703-722 *)
Definition fp2_sqrt_m (m : mem) (this c : Z) : bool * mem :=
  let u := ld2 m this in
  let a1 := fp2_exp (ld2 m this) (limbs_of 6 pMinus3Over4) in
  let alpha := fp2_sqr a1 in
  let alpha := fp2_mul alpha (ld2 m this) in
  let x0 := fp2_mul a1 (ld2 m this) in
  if fp2_equal alpha negativeOne2 then
    let m := st m c (fp_neg (c1 x0)) in
    (true, st m (c + 1) (c0 x0))
  else
    let alpha := fp2_add alpha fp2_one in
    let alpha := fp2_exp alpha (limbs_of 6 pMinus1Over2) in
    let m := st2 m c (fp2_mul alpha x0) in
    let alpha := fp2_sqr (ld2 m c) in
    (fp2_equal alpha u, m).
(** fp.cpp:906-911 *)
Definition fp6_addAssign_m (m : mem) (this e : Z) : mem :=
  let m := fp2_addAssign_m m this e in
  let m := fp2_addAssign_m m (this + 2) (e + 2) in
  fp2_addAssign_m m (this + 4) (e + 4).
(** fp.cpp:920-925 *)
Definition fp6_doubleAssign_m (m : mem) (this : Z) : mem :=
  let m := fp2_doubleAssign_m m this in
  let m := fp2_doubleAssign_m m (this + 2) in
  fp2_doubleAssign_m m (this + 4).
(** fp.cpp:934-939 *)
Definition fp6_subtractAssign_m (m : mem) (this e : Z) : mem :=
  let m := fp2_subtractAssign_m m this e in
  let m := fp2_subtractAssign_m m (this + 2) (e + 2) in
  fp2_subtractAssign_m m (this + 4) (e + 4).
(** fp.cpp:957-984 *)
Definition fp6_multiplyAssign_m (m : mem) (this e : Z) : mem :=
  let t0 := fp2_mul (ld2 m this) (ld2 m e) in
  let t1 := fp2_mul (ld2 m (this + 2)) (ld2 m (e + 2)) in
  let t2 := fp2_mul (ld2 m (this + 4)) (ld2 m (e + 4)) in
  let t3 := fp2_add (ld2 m (this + 2)) (ld2 m (this + 4)) in
  let t4 := fp2_add (ld2 m (e + 2)) (ld2 m (e + 4)) in
  let t3 := fp2_mul t3 t4 in
  let t4 := fp2_add t1 t2 in
  let t3 := fp2_sub t3 t4 in
  let t3 := fp2_mulXi t3 in
  let t5 := fp2_add t0 t3 in
  let t3 := fp2_add (ld2 m this) (ld2 m (this + 2)) in
  let t4 := fp2_add (ld2 m e) (ld2 m (e + 2)) in
  let t3 := fp2_mul t3 t4 in
  let t4 := fp2_add t0 t1 in
  let t3 := fp2_sub t3 t4 in
  let t4 := fp2_mulXi t2 in
  let m := st2 m (this + 2) (fp2_add t3 t4) in
  let t3 := fp2_add (ld2 m this) (ld2 m (this + 4)) in
  let t4 := fp2_add (ld2 m e) (ld2 m (e + 4)) in
  let t3 := fp2_mul t3 t4 in
  let t4 := fp2_add t0 t2 in
  let t3 := fp2_sub t3 t4 in
  let m := st2 m (this + 4) (fp2_add t1 t3) in
  st2 m this t5.
(** fp.cpp:993-1014 *)
Definition fp6_squareAssign_m (m : mem) (this : Z) : mem :=
  let t0 := fp2_sqr (ld2 m this) in
  let t1 := fp2_mul (ld2 m this) (ld2 m (this + 2)) in
  let t1 := fp2_dbl t1 in
  let t2 := fp2_sub (ld2 m this) (ld2 m (this + 2)) in
  let t2 := fp2_add t2 (ld2 m (this + 4)) in
  let t2 := fp2_sqr t2 in
  let t3 := fp2_mul (ld2 m (this + 2)) (ld2 m (this + 4)) in
  let t3 := fp2_dbl t3 in
  let t4 := fp2_sqr (ld2 m (this + 4)) in
  let t5 := fp2_mulXi t3 in
  let m := st2 m this (fp2_add t0 t5) in
  let t5 := fp2_mulXi t4 in
  let m := st2 m (this + 2) (fp2_add t1 t5) in
  let t1 := fp2_add t1 t2 in
  let t1 := fp2_add t1 t3 in
  let t0 := fp2_add t0 t4 in
  st2 m (this + 4) (fp2_sub t1 t0).
(** fp.cpp:1016-1035 *)
Definition fp6_mulBy01Assign_m (m : mem) (this e0 e1 : Z) : mem :=
  let t0 := fp2_mul (ld2 m this) (ld2 m e0) in
  let t1 := fp2_mul (ld2 m (this + 2)) (ld2 m e1) in
  let t5 := fp2_add (ld2 m (this + 2)) (ld2 m (this + 4)) in
  let t2 := fp2_mul (ld2 m e1) t5 in
  let t2 := fp2_sub t2 t1 in
  let t2 := fp2_mulXi t2 in
  let t5 := fp2_add (ld2 m this) (ld2 m (this + 4)) in
  let t3 := fp2_mul (ld2 m e0) t5 in
  let t3 := fp2_sub t3 t0 in
  let m := st2 m (this + 4) (fp2_add t3 t1) in
  let t4 := fp2_add (ld2 m e0) (ld2 m e1) in
  let t5 := fp2_add (ld2 m this) (ld2 m (this + 2)) in
  let t4 := fp2_mul t4 t5 in
  let t4 := fp2_sub t4 t0 in
  let m := st2 m (this + 2) (fp2_sub t4 t1) in
  st2 m this (fp2_add t2 t0).
(** fp.cpp:1146-1173 *)
Definition fp6_frobeniusMapAssign_m (m : mem) (this power : Z) : mem :=
  let m := fp2_frobeniusMapAssign_m m this power in
  let m := fp2_frobeniusMapAssign_m m (this + 2) power in
  let m := fp2_frobeniusMapAssign_m m (this + 4) power in
  if power mod 6 =? 0 then m
  else if power mod 6 =? 3 then
    let t := fp_neg (m (this + 3)) in
    let m := st m (this + 3) (m (this + 2)) in
    let m := st m (this + 2) t in
    st2 m (this + 4) (fp2_neg (ld2 m (this + 4)))
  else
    let m := st2 m (this + 2) (fp2_mul (ld2 m (this + 2)) (coeff frobeniusCoeffs61 (power mod 6))) in
    st2 m (this + 4) (fp2_mul (ld2 m (this + 4)) (coeff frobeniusCoeffs62 (power mod 6))).
(** fp.cpp:1321-1324 *)
Definition fp12_addAssign_m (m : mem) (this e : Z) : mem :=
  let m := fp6_addAssign_m m this e in fp6_addAssign_m m (this + 6) (e + 6).
(** fp.cpp:1333-1336 *)
Definition fp12_doubleAssign_m (m : mem) (this : Z) : mem :=
  let m := fp6_doubleAssign_m m this in fp6_doubleAssign_m m (this + 6).
(** fp.cpp:1345-1348 *)
Definition fp12_subtractAssign_m (m : mem) (this e : Z) : mem :=
  let m := fp6_subtractAssign_m m this e in fp6_subtractAssign_m m (this + 6) (e + 6).
(** fp.cpp:1373-1385 *)
Definition fp12_squareAssign_m (m : mem) (this : Z) : mem :=
  let t0 := fp6_add (ld6 m this) (ld6 m (this + 6)) in
  let t2 := fp6_mul (ld6 m this) (ld6 m (this + 6)) in
  let t1 := fp6_mulV (ld6 m (this + 6)) in
  let t1 := fp6_add t1 (ld6 m this) in
  let t3 := fp6_mulV t2 in
  let t0 := fp6_mul t0 t1 in
  let t0 := fp6_sub t0 t2 in
  let m := st6 m this (fp6_sub t0 t3) in
  st6 m (this + 6) (fp6_dbl t2).
(** fp.cpp:1394-1418; the components are c0.c0, c0.c1, c0.c2, c1.c0, c1.c1, c1.c2 at offsets 0, 2, 4, 6, 8, 10 *)
Definition fp12_cyclotomicSquareAssign_m (m : mem) (this : Z) : mem :=
  let (t3, t4) := fp4Square (ld2 m this) (ld2 m (this + 8)) in
  let t2 := fp2_sub t3 (ld2 m this) in
  let t2 := fp2_dbl t2 in
  let m := st2 m this (fp2_add t2 t3) in
  let t2 := fp2_add t4 (ld2 m (this + 8)) in
  let t2 := fp2_dbl t2 in
  let m := st2 m (this + 8) (fp2_add t2 t4) in
  let (t3, t4) := fp4Square (ld2 m (this + 6)) (ld2 m (this + 4)) in
  let (t5, t6) := fp4Square (ld2 m (this + 2)) (ld2 m (this + 10)) in
  let t2 := fp2_sub t3 (ld2 m (this + 2)) in
  let t2 := fp2_dbl t2 in
  let m := st2 m (this + 2) (fp2_add t2 t3) in
  let t2 := fp2_add t4 (ld2 m (this + 10)) in
  let t2 := fp2_dbl t2 in
  let m := st2 m (this + 10) (fp2_add t2 t4) in
  let t3 := fp2_mulXi t6 in
  let t2 := fp2_add t3 (ld2 m (this + 6)) in
  let t2 := fp2_dbl t2 in
  let m := st2 m (this + 6) (fp2_add t2 t3) in
  let t2 := fp2_sub t5 (ld2 m (this + 4)) in
  let t2 := fp2_dbl t2 in
  st2 m (this + 4) (fp2_add t2 t5).
(** fp.cpp:1427-1440 *)
Definition fp12_multiplyAssign_m (m : mem) (this e : Z) : mem :=
  let t1 := fp6_mul (ld6 m this) (ld6 m e) in
  let t2 := fp6_mul (ld6 m (this + 6)) (ld6 m (e + 6)) in
  let t0 := fp6_add t1 t2 in
  let t2 := fp6_mulV t2 in
  let t3 := fp6_add t1 t2 in
  let t1 := fp6_add (ld6 m this) (ld6 m (this + 6)) in
  let t2 := fp6_add (ld6 m e) (ld6 m (e + 6)) in
  let t1 := fp6_mul t1 t2 in
  let m := st6 m this t3 in
  st6 m (this + 6) (fp6_sub t1 t0).
(** fp.cpp:1472-1485; t[2].mulBy01Assign works on a local *)
Definition fp12_mulBy014Assign_m (m : mem) (this e0 e1 e4 : Z) : mem :=
  let t0 := fp6_mulBy01 (ld6 m this) (ld2 m e0) (ld2 m e1) in
  let t1 := fp6_mulBy1 (ld6 m (this + 6)) (ld2 m e4) in
  let t2' := fp2_add (ld2 m e1) (ld2 m e4) in
  let t2 := fp6_add (ld6 m (this + 6)) (ld6 m this) in
  let t2 := fp6_mulBy01Assign t2 (ld2 m e0) t2' in
  let t2 := fp6_sub t2 t0 in
  let m := st6 m (this + 6) (fp6_sub t2 t1) in
  let t1 := fp6_mulV t1 in
  st6 m this (fp6_add t1 t0).
(** fp.cpp:1512-1533, for power < 12 *)
Definition fp12_frobeniusMapAssign_m (m : mem) (this power : Z) : mem :=
  let m := fp6_frobeniusMapAssign_m m this power in
  let m := fp6_frobeniusMapAssign_m m (this + 6) power in
  if power =? 0 then m
  else if power =? 6 then st6 m (this + 6) (fp6_neg (ld6 m (this + 6)))
  else st6 m (this + 6) (fp6_mulByBase (ld6 m (this + 6)) (coeff frobeniusCoeffs12 power)).

(** * g1 and g2: a cell is a coordinate (an fp for g1, an fp2 for g2); x, y, z at offsets 0, 1, 2. *)
Section G.
Context {T : Type} (o : fops T).
Notation "x - y" := (f_sub o x y). Notation "x * y" := (f_mul o x y).
Notation sqr := (f_sqr o). Notation dbl := (f_dbl o).
Definition ldj (m : Z -> T) (a : Z) : jac T := mkJ (m a) (m (a + 1)%Z) (m (a + 2)%Z).
Definition stj (m : Z -> T) (a : Z) (p : jac T) : Z -> T :=
  st (st (st m a (jx p)) (a + 1)%Z (jy p)) (a + 2)%Z (jz p).
Definition copyj_m (m : Z -> T) (this e : Z) : Z -> T :=
  let m := st m this (m e) in let m := st m (this + 1) (m (e + 1)%Z) in st m (this + 2) (m (e + 2)%Z).
(** g.cpp:400-430; 1121-1150 *)
Definition j_doubleAssign_m (m : Z -> T) (this : Z) : Z -> T :=
  let X := this in let Y := (this + 1)%Z in let Z := (this + 2)%Z in
  if f_isZero o (m Z) then m
  else
    let t0 := sqr (m X) in
    let t1 := sqr (m Y) in
    let t2 := sqr t1 in
    let t1 := f_add o (m X) t1 in
    let t1 := sqr t1 in
    let t1 := t1 - t0 in
    let t1 := t1 - t2 in
    let t1 := dbl t1 in
    let t3 := dbl t0 in
    let t0 := f_add o t3 t0 in
    let t4 := sqr t0 in
    let t3 := dbl t1 in
    let m := st m X (t4 - t3) in
    let t1 := t1 - m X in
    let t2 := dbl t2 in
    let t2 := dbl t2 in
    let t2 := dbl t2 in
    let t0 := t0 * t1 in
    let t1 := t0 - t2 in
    let t0 := m Y * m Z in
    let m := st m Y t1 in
    st m Z (dbl t0).
(** g.cpp:339-391; 1060-1110 *)
Definition j_addAssign_m (m : Z -> T) (this e : Z) : Z -> T :=
  let X := this in let Y := (this + 1)%Z in let Z := (this + 2)%Z in
  let EX := e in let EY := (e + 1)%Z in let EZ := (e + 2)%Z in
  if f_isZero o (m Z) then copyj_m m this e
  else if f_isZero o (m EZ) then m
  else
    let t7 := sqr (m Z) in
    let t1 := m EX * t7 in
    let t2 := m Z * t7 in
    let t0 := m EY * t2 in
    let t8 := sqr (m EZ) in
    let t3 := m X * t8 in
    let t4 := m EZ * t8 in
    let t2 := m Y * t4 in
    if f_eq o t1 t3 then
      if f_eq o t0 t2 then j_doubleAssign_m m this else stj m this (j_zero o)
    else
    let t1 := t1 - t3 in
    let t4 := dbl t1 in
    let t4 := sqr t4 in
    let t5 := t1 * t4 in
    let t0 := t0 - t2 in
    let t0 := dbl t0 in
    let t6 := sqr t0 in
    let t6 := t6 - t5 in
    let t3 := t3 * t4 in
    let t4 := dbl t3 in
    let m := st m X (t6 - t4) in
    let t4 := t3 - m X in
    let t6 := t2 * t5 in
    let t6 := dbl t6 in
    let t0 := t0 * t4 in
    let m := st m Y (t0 - t6) in
    let t0 := f_add o (m Z) (m EZ) in
    let t0 := sqr t0 in
    let t0 := t0 - t7 in
    let t0 := t0 - t8 in
    st m Z (t0 * t1).
(** g.cpp:448-450; 1169-1171: e.negate() is a temporary, here at the address [tmp] *)
Definition j_subtractAssign_m (m : Z -> T) (this e tmp : Z) : Z -> T :=
  j_addAssign_m (stj m tmp (j_neg o (ldj m e))) this tmp.
End G.

(** * The steps of the Miller loop; a cell is an fp2; r has its coordinates at r, r+1, r+2, coeff at coeff, coeff+1, coeff+2. *)
(** pairing.cpp:10-42 *)
Definition doubling_step_m (m : Z -> fp2) (coeff r : Z) : Z -> fp2 :=
  let t0 := fp2_mul (m r) (m (r + 1)) in
  let t0 := fp2_mulByFq t0 twoInv in
  let t1 := fp2_sqr (m (r + 1)) in
  let t2 := fp2_sqr (m (r + 2)) in
  let t7 := fp2_dbl t2 in
  let t7 := fp2_add t7 t2 in
  let t3 := fp2_mulByB t7 in
  let t4 := fp2_dbl t3 in
  let t4 := fp2_add t4 t3 in
  let t5 := fp2_add t1 t4 in
  let t5 := fp2_mulByFq t5 twoInv in
  let t6 := fp2_add (m (r + 1)) (m (r + 2)) in
  let t6 := fp2_sqr t6 in
  let t7 := fp2_add t2 t1 in
  let t6 := fp2_sub t6 t7 in
  let m := st m coeff (fp2_sub t3 t1) in
  let t7 := fp2_sqr (m r) in
  let t4 := fp2_sub t1 t4 in
  let m := st m r (fp2_mul t4 t0) in
  let t2 := fp2_sqr t3 in
  let t3 := fp2_dbl t2 in
  let t3 := fp2_add t3 t2 in
  let t5 := fp2_sqr t5 in
  let m := st m (r + 1) (fp2_sub t5 t3) in
  let m := st m (r + 2) (fp2_mul t1 t6) in
  let t0 := fp2_dbl t7 in
  let m := st m (coeff + 1) (fp2_add t0 t7) in
  st m (coeff + 2) (fp2_neg t6).
(** pairing.cpp:44-73 *)
Definition addition_step_m (m : Z -> fp2) (coeff r tp : Z) : Z -> fp2 :=
  let t0 := fp2_mul (m (tp + 1)) (m (r + 2)) in
  let t0 := fp2_neg t0 in
  let t0 := fp2_add t0 (m (r + 1)) in
  let t1 := fp2_mul (m tp) (m (r + 2)) in
  let t1 := fp2_neg t1 in
  let t1 := fp2_add t1 (m r) in
  let t2 := fp2_sqr t0 in
  let t3 := fp2_sqr t1 in
  let t4 := fp2_mul t1 t3 in
  let t2 := fp2_mul (m (r + 2)) t2 in
  let t3 := fp2_mul (m r) t3 in
  let t5 := fp2_dbl t3 in
  let t5 := fp2_sub t4 t5 in
  let t5 := fp2_add t5 t2 in
  let m := st m r (fp2_mul t1 t5) in
  let t2 := fp2_sub t3 t5 in
  let t2 := fp2_mul t2 t0 in
  let t3 := fp2_mul (m (r + 1)) t4 in
  let m := st m (r + 1) (fp2_sub t2 t3) in
  let m := st m (r + 2) (fp2_mul (m (r + 2)) t4) in
  let t2 := fp2_mul t1 (m (tp + 1)) in
  let t3 := fp2_mul t0 (m tp) in
  let m := st m coeff (fp2_sub t3 t2) in
  let m := st m (coeff + 1) (fp2_neg t0) in
  st m (coeff + 2) t1.
