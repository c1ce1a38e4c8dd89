(** Specification: when limbs stand for a value of the model.  [six x] (CarryProof.v): x is a list of six 64-bit words; [val x]: the number they
    are the digits of. *)
From Coq Require Import ZArith List.
From Verif Require Import ModelWord ModelScalar ModelDiv ModelTower ModelCurve ModelLimbLib CarryProof.
Local Open Scope Z_scope.

(** a field element, and the classes built from it *)
Definition rF (x : list Z) (z : Z) : Prop := six x /\ val x = z.
Record r2 (x : lfp2) (z : fp2) : Prop := mkr2 { r2_0 : rF (lc0 x) (c0 z); r2_1 : rF (lc1 x) (c1 z) }.
Record r6 (x : lfp6) (z : fp6) : Prop := mkr6 { r6_0 : r2 (ld0 x) (d0 z); r6_1 : r2 (ld1 x) (d1 z); r6_2 : r2 (ld2 x) (d2 z) }.
Record r12 (x : lfp12) (z : fp12) : Prop := mkr12 { r12_0 : r6 (le0 x) (e0 z); r12_1 : r6 (le1 x) (e1 z) }.
(** a point in Jacobian coordinates over elements related by R *)
Record rJ {A B} (R : A -> B -> Prop) (p : jac A) (q : jac B) : Prop := mkrJ { rJ_x : R (jx p) (jx q); rJ_y : R (jy p) (jy q); rJ_z : R (jz p) (jz q) }.
Notation rG1 := (rJ rF).
Notation rG2 := (rJ r2).
(** results: options, outcomes with exceptions and out-of-bounds accesses, pairs *)
Definition rO {A B} (R : A -> B -> Prop) (x : option A) (z : option B) : Prop :=
  match x, z with Some a, Some b => R a b | None, None => True | _, _ => False end.
Definition rU {A B} (R : A -> B -> Prop) (x : outcome A) (z : outcome B) : Prop :=
  match x, z with Ok a, Ok b => R a b | Throw, Throw => True | OutOfBounds, OutOfBounds => True | _, _ => False end.
Record rP {A B C D} (R : A -> B -> Prop) (S : C -> D -> Prop) (x : A * C) (z : B * D) : Prop := mkrP { rP_1 : R (fst x) (fst z); rP_2 : S (snd x) (snd z) }.
(** the three coefficients of a line *)
Notation rE := (rP (rP r2 r2) r2).
