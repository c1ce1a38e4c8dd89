(** Model of the classes g1 and g2 (src/g.cpp, scalar.hpp:330-362).  The bodies of the two classes are the same
    sequence of field operations (on fp through _multiply/_square/..., on fp2 through the methods), so each function is written
    once over a record of field operations and instantiated twice.  Citations give the g1 lines, then the g2 lines. *)
From Coq Require Import ZArith List Bool.
From Verif Require Import ModelWord ModelScalar ModelPrim ModelFp ModelTower.
Import ListNotations.
Local Open Scope Z_scope.

Record fops (T : Type) := mkOps {
  f_zero : T; f_one : T; f_add : T -> T -> T; f_sub : T -> T -> T; f_mul : T -> T -> T; f_sqr : T -> T; f_dbl : T -> T;
  f_neg : T -> T; f_inv : T -> T; f_eq : T -> T -> bool; f_isZero : T -> bool; f_isOne : T -> bool }.
Arguments f_zero {T} _. Arguments f_one {T} _. Arguments f_add {T} _ _ _. Arguments f_sub {T} _ _ _. Arguments f_mul {T} _ _ _.
Arguments f_sqr {T} _ _. Arguments f_dbl {T} _ _. Arguments f_neg {T} _ _. Arguments f_inv {T} _ _.
Arguments f_eq {T} _ _ _. Arguments f_isZero {T} _ _. Arguments f_isOne {T} _ _.
Record jac (T : Type) := mkJ { jx : T; jy : T; jz : T }.
Arguments mkJ {T} _ _ _. Arguments jx {T} _. Arguments jy {T} _. Arguments jz {T} _.

Section G.
Context {T : Type} (o : fops T).
Notation "x + y" := (f_add o x y). Notation "x - y" := (f_sub o x y). Notation "x * y" := (f_mul o x y).
Notation sqr := (f_sqr o). Notation dbl := (f_dbl o).
(** g.cpp:234-241; 954-961 *)
Definition j_zero : jac T := mkJ (f_zero o) (f_one o) (f_zero o).
(** g.cpp:248-251; 968-971 *)
Definition j_isZero (p : jac T) : bool := f_isZero o (jz p).
(** g.cpp:253-274; 973-992 *)
Definition j_equal (p e : jac T) : bool :=
  if j_isZero p then j_isZero e
  else if j_isZero e then j_isZero p
  else
    let t0 := sqr (jz p) in
    let t1 := sqr (jz e) in
    let t2 := t0 * jx e in
    let t3 := t1 * jx p in
    let t0 := t0 * jz p in
    let t1 := t1 * jz e in
    let t1 := t1 * jy p in
    let t0 := t0 * jy e in
    f_eq o t0 t1 && f_eq o t2 t3.
(** g.cpp:292-308; 1014-1030; b = fp::B / fp2::B *)
Definition j_isOnCurve (b : T) (p : jac T) : bool :=
  if j_isZero p then true
  else
    let t0 := sqr (jy p) in
    let t1 := sqr (jx p) in
    let t1 := t1 * jx p in
    let t2 := sqr (jz p) in
    let t3 := sqr t2 in
    let t2 := t2 * t3 in
    let t2 := b * t2 in
    let t1 := t1 + t2 in
    f_eq o t0 t1.
(** g.cpp:310-313; 1032-1035 *)
Definition j_isAffine (p : jac T) : bool := f_isOne o (jz p).
(** g.cpp:315-330; 1037-1051 *)
Definition j_affine (p : jac T) : jac T :=
  if j_isZero p || j_isAffine p then p
  else
    let t0 := f_inv o (jz p) in
    let t1 := sqr t0 in
    let rx := jx p * t1 in
    let t0 := t0 * t1 in
    let ry := jy p * t0 in
    mkJ rx ry (f_one o).
(** g.cpp:393-430 (dbl, doubleAssign); 1112-1150 *)
Definition j_dbl (p : jac T) : jac T :=
  if j_isZero p then p
  else
    let t0 := sqr (jx p) in
    let t1 := sqr (jy p) in
    let t2 := sqr t1 in
    let t1 := jx p + t1 in
    let t1 := sqr t1 in
    let t1 := t1 - t0 in
    let t1 := t1 - t2 in
    let t1 := dbl t1 in
    let t3 := dbl t0 in
    let t0 := t3 + t0 in
    let t4 := sqr t0 in
    let t3 := dbl t1 in
    let x := t4 - t3 in
    let t1 := t1 - x in
    let t2 := dbl t2 in
    let t2 := dbl t2 in
    let t2 := dbl t2 in
    let t0 := t0 * t1 in
    let t1 := t0 - t2 in
    let t0 := jy p * jz p in
    mkJ x t1 (dbl t0).
(** g.cpp:332-391 (add, addAssign); 1053-1110 *)
Definition j_add (p e : jac T) : jac T :=
  if j_isZero p then e
  else if j_isZero e then p
  else
    let t7 := sqr (jz p) in
    let t1 := jx e * t7 in
    let t2 := jz p * t7 in
    let t0 := jy e * t2 in
    let t8 := sqr (jz e) in
    let t3 := jx p * t8 in
    let t4 := jz e * t8 in
    let t2 := jy p * t4 in
    if f_eq o t1 t3 then
      if f_eq o t0 t2 then j_dbl p else j_zero
    else
    let t1 := t1 - t3 in
    let t4 := dbl t1 in
    let t4 := sqr t4 in
    let t5 := t1 * t4 in
    let t0 := t0 - t2 in
    let t0 := dbl t0 in
    let t6 := sqr t0 in
    let t6 := t6 - t5 in
    let t3 := t3 * t4 in
    let t4 := dbl t3 in
    let x := t6 - t4 in
    let t4 := t3 - x in
    let t6 := t2 * t5 in
    let t6 := dbl t6 in
    let t0 := t0 * t4 in
    let y := t0 - t6 in
    let t0 := jz p + jz e in
    let t0 := sqr t0 in
    let t0 := t0 - t7 in
    let t0 := t0 - t8 in
    let z := t0 * t1 in
    mkJ x y z.
(** g.cpp:432-439; 1152-1159 *)
Definition j_neg (p : jac T) : jac T := mkJ (jx p) (f_neg o (jy p)) (jz p).
(** g.cpp:441-450; 1161-1170 *)
Definition j_sub (p e : jac T) : jac T := j_add p (j_neg e).
(** scalar.hpp:330-362: the accumulator starts from (0, 0, 0) *)
Definition j_scale (p : jac T) (s : list Z) : jac T := gscale (mkJ (f_zero o) (f_zero o) (f_zero o)) j_dbl j_add p s.

(** weightedSum, g.cpp:472-531; 1236-1295.  The yield callbacks are modelled in ModelYield.v. *)
(** g.cpp:475-479: window width for n pairs *)
Definition ws_width (n : nat) : nat :=
  if Nat.leb 32 n then Z.to_nat ((64 - countl_zero (Z.of_nat n)) / 3 + 2) else 3.
(** bucket[i].addAssign(p) *)
Fixpoint bucket_add (l : list (jac T)) (i : nat) (p : jac T) : list (jac T) :=
  match l, i with
  | [], _ => []
  | q :: l, O => j_add q p :: l
  | q :: l, S i => q :: bucket_add l i p
  end.
(** g.cpp:496-509: one window, the pairs from first to last *)
Definition ws_index (c j : nat) (s : list Z) : Z := Z.land (2 ^ Z.of_nat c - 1) (limb (rsh s (Z.of_nat (c * j))) 0).
Definition ws_fill (c j : nat) (ps : list (jac T * list Z)) (bk : list (jac T)) : list (jac T) :=
  fold_left (fun bk ps => let index := ws_index c j (snd ps) in
     if index =? 0 then bk else bucket_add bk (Z.to_nat (index - 1)) (fst ps)) ps bk.
(** g.cpp:510-520: running sums from the last bucket to the first *)
Definition ws_acc (bk : list (jac T)) : jac T :=
  fst (fold_left (fun acc_sum q => let sum := j_add (snd acc_sum) q in (j_add (fst acc_sum) sum, sum)) (rev bk) (j_zero, j_zero)).
Definition ws_window (c : nat) (ps : list (jac T * list Z)) (j : nat) : jac T :=
  ws_acc (ws_fill c j ps (repeat j_zero (Nat.pow 2 c - 1))).
Fixpoint dbl_times (n : nat) (p : jac T) : jac T := match n with O => p | S n => dbl_times n (j_dbl p) end.
Definition j_weightedSum (points : list (jac T)) (scalars : list (list Z)) : jac T :=
  let ps := combine points scalars in
  let c := ws_width (length ps) in
  let windows := map (ws_window c ps) (seq 0 (255 / c + 1)) in
  fold_left (fun acc w => j_add (dbl_times c acc) w) (rev windows) j_zero.
End G.

(** ** the two instances *)
Definition fp_ops : fops Z :=
  mkOps Z fp_zero fp_one fp_add fp_sub fp_mul fp_sqr fp_double fp_neg fp_inverse fp_equal fp_isZero fp_isOne.
Definition fp2_ops : fops fp2 :=
  mkOps fp2 fp2_zero fp2_one fp2_add fp2_sub fp2_mul fp2_sqr fp2_dbl fp2_neg fp2_inv fp2_equal fp2_isZero fp2_isOne.
Notation g1 := (jac Z).
Notation g2 := (jac fp2).
Definition g1_zero := j_zero fp_ops. Definition g1_isZero := j_isZero fp_ops. Definition g1_equal := j_equal fp_ops.
Definition g1_isOnCurve := j_isOnCurve fp_ops B. Definition g1_isAffine := j_isAffine fp_ops. Definition g1_affine := j_affine fp_ops.
Definition g1_dbl := j_dbl fp_ops. Definition g1_add := j_add fp_ops. Definition g1_neg := j_neg fp_ops. Definition g1_sub := j_sub fp_ops.
Definition g1_scale := j_scale fp_ops. Definition g1_weightedSum := j_weightedSum fp_ops.
Definition g2_zero := j_zero fp2_ops. Definition g2_isZero := j_isZero fp2_ops. Definition g2_equal := j_equal fp2_ops.
Definition g2_isOnCurve := j_isOnCurve fp2_ops fp2_B. Definition g2_isAffine := j_isAffine fp2_ops. Definition g2_affine := j_affine fp2_ops.
Definition g2_dbl := j_dbl fp2_ops. Definition g2_add := j_add fp2_ops. Definition g2_neg := j_neg fp2_ops. Definition g2_sub := j_sub fp2_ops.
Definition g2_scale := j_scale fp2_ops. Definition g2_weightedSum := j_weightedSum fp2_ops.

(** g.cpp:713-717 *)
Definition g1_BASE : g1 := mkJ 0x120177419e0bfb75edce6ecc21dbf440f0ae6acdf3d0e747154f95c7143ba1c17817fc679976fff55cb38790fd530c16
  0xbbc3efc5008a26a0e1c8c3fad0059c051ac582950405194dd595f13570725ce8c22631a7918fd8ebaac93d50ce72271 R1.
(** g.cpp:719 *)
Definition g1_cofactorEFF : list Z := [0xd201000000010001].
(** g.cpp:1610-1623 *)
Definition g2_BASE : g2 := mkJ
  (mk2 0x58191924350bcd76f67b7631863366b9894999d1a3caee9a1a893b53e2ae580b3f5fb2687b4961af5f28fa202940a10
    0x11922a097360edf3c2b6ed0ef21585471b1ab6cc8541b3673bb17e18e2867806aaa0c59dbccd60c3a5a9c0759e23f606)
  (mk2 0x83fd8e7e80dae507d3a975f0ef25a2bbefb5e96e0d495fe7e6856caa0a635a597cfa1f5e369c5a4c730af860494c4a
    0xb2bc2a163de1bf2e7175850a43ccaed79495c4ec93da33a86adac6a3be4eba018aa270a2b1461dcadc0fc92df64b05d)
  (mk2 R1 0).
(** g.cpp:1625 *)
Definition g2_cofactorEFF : list Z := [0xd201000000010000].
(** g.cpp:452-455 *)
Definition g1_clearCofactor (p : g1) : g1 := g1_scale p g1_cofactorEFF.
(** g.cpp:457-466 *)
Definition g1_glv (p : g1) : g1 :=
  if g1_isZero p then g1_zero else let t := g1_affine p in mkJ (fp_phi (jx t)) (jy t) (jz t).
(** g.cpp:276-290 *)
Definition g1_inCorrectSubgroup (p : g1) : bool :=
  let t0 := g1_glv p in
  let t1 := t0 in
  let t0 := g1_glv t0 in
  let t1 := g1_dbl t1 in
  let t1 := g1_sub t1 p in
  let t1 := g1_sub t1 t0 in
  let t1 := g1_scale t1 [0x0000000055555555; 0x396c8c005555e156] in
  let t1 := g1_sub t1 t0 in
  g1_isZero t1.
(** g.cpp:1173-1182 *)
Definition g2_psi (p : g2) : g2 :=
  mkJ (fp2_mul (fp2_conj (jx p)) psiX) (fp2_mul (fp2_conj (jy p)) psiY) (fp2_conj (jz p)).
(** g.cpp:994-1012 *)
Definition g2_inCorrectSubgroup (p : g2) : bool :=
  let t0 := g2_psi p in
  let t0 := g2_psi t0 in
  let t1 := g2_neg t0 in
  let t0 := g2_psi t0 in
  let t0 := g2_scale t0 g2_cofactorEFF in
  let t0 := g2_neg t0 in
  let t0 := g2_add t0 t1 in
  let t0 := g2_add t0 p in
  g2_isZero t0.
(** g.cpp:1212-1219 *)
Definition frb0 : fp2 := mk2 0x0
  0x14e56d3f1564853a14e4f04fe2db9068a20d1b8c7e88102450880866309b7e2c2af322533285a5d5890dc9e4867545c3.
Definition frb1 : fp2 := mk2 0xbd592fc7d825ec81d794e4fac7cf0b992ad2afd19103e18382844c88b6237324294213d86c181833e2f585da55c9ad1
  0xe2b7eedbbfd87d22da2596696cebc1dd1ca2087da74d4a72f088dd86b4ebef1dc17dec12a927e7c7bcfa7a25aa30fda.
(** g.cpp:1210-1230, for power = n *)
Fixpoint g2_frobeniusMap (n : nat) (p : g2) : g2 :=
  match n with
  | O => p
  | S n => g2_frobeniusMap n (mkJ (fp2_mul (fp2_frob (jx p) 1) frb0) (fp2_mul (fp2_frob (jy p) 1) frb1) (fp2_frob (jz p) 1))
  end.
(** g.cpp:1184-1208 *)
Definition g2_clearCofactor (p : g2) : g2 :=
  let t0 := g2_scale p g2_cofactorEFF in
  let t0 := g2_neg t0 in
  let t1 := g2_scale t0 g2_cofactorEFF in
  let t1 := g2_neg t1 in
  let t2 := g2_sub t1 t0 in
  let t2 := g2_sub t2 p in
  let t3 := g2_sub t0 p in
  let t3 := g2_frobeniusMap 1 t3 in
  let t2 := g2_add t2 t3 in
  let t3 := g2_dbl p in
  let t3 := g2_frobeniusMap 2 t3 in
  g2_add t2 t3.
