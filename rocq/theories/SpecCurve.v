(** Specification: the group of points of y^2 = x^3 + b over a field with decidable equality.
    Nothing here refers to the code. *)
From Coq Require Import ZArith Bool.
Local Open Scope Z_scope.

(** the operations of a field *)
Record fieldOps := mkField {
  car : Type; k0 : car; k1 : car;
  kadd : car -> car -> car; ksub : car -> car -> car; kmul : car -> car -> car;
  kopp : car -> car; kinv : car -> car;
  keq : forall x y : car, {x = y} + {x <> y} }.
Arguments k0 {_}. Arguments k1 {_}. Arguments kadd {_} _ _. Arguments ksub {_} _ _. Arguments kmul {_} _ _.
Arguments kopp {_} _. Arguments kinv {_} _. Arguments keq {_} _ _.

(** a point: infinity or a pair of coordinates *)
Inductive point (K : fieldOps) := Inf | Aff (x y : car K).
Arguments Inf {K}. Arguments Aff {K} x y.

Section S.
Context {K : fieldOps}.
Notation T := (car K).
Definition ksq (x : T) : T := kmul x x.
Definition kcube (x : T) : T := kmul x (kmul x x).
Definition onb (b : T) (P : point K) : bool :=
  match P with Inf => true | Aff x y => if keq (ksq y) (kadd (kcube x) b) then true else false end.
Definition pneg (P : point K) : point K := match P with Inf => Inf | Aff x y => Aff x (kopp y) end.
(** slope of the line through two points, of the tangent if they are equal *)
Definition slope (x1 y1 x2 y2 : T) : T :=
  if keq x1 x2 then kmul (kadd (kadd (ksq x1) (ksq x1)) (ksq x1)) (kinv (kadd y1 y1))
  else kmul (ksub y1 y2) (kinv (ksub x1 x2)).
(** chord and tangent *)
Definition padd (P Q : point K) : point K :=
  match P, Q with
  | Inf, _ => Q
  | _, Inf => P
  | Aff x1 y1, Aff x2 y2 =>
      if keq x1 x2 then if keq y1 (kopp y2) then Inf else
        let l := slope x1 y1 x2 y2 in
        let x3 := ksub (ksub (ksq l) x1) x2 in Aff x3 (ksub (kmul l (ksub x1 x3)) y1)
      else
        let l := slope x1 y1 x2 y2 in
        let x3 := ksub (ksub (ksq l) x1) x2 in Aff x3 (ksub (kmul l (ksub x1 x3)) y1)
  end.
End S.
(** (x, y, z) are Jacobian coordinates of P *)
Definition jacobian {K : fieldOps} (x y z : car K) (P : point K) : Prop :=
  match P with
  | Inf => z = k0
  | Aff u v => z <> k0 /\ x = kmul u (ksq z) /\ y = kmul v (kcube z)
  end.
(** points of the curve *)
Record curve (K : fieldOps) (b : car K) := mkC { cpt : point K; cpt_on : onb b cpt = true }.
Arguments cpt {K b} _. Arguments cpt_on {K b} _.
