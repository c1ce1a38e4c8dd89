(** Vocabulary for C58: objects as ranges of cells in a memory [Z -> V]. *)
From Coq Require Import ZArith.
Local Open Scope Z_scope.
(** two objects of [n] cells that are the same or do not overlap *)
Definition same_or_apart (n a b : Z) : Prop := a = b \/ a + n <= b \/ b + n <= a.
(** nothing changed outside the [n] cells at [a] *)
Definition unchanged_outside {V} (n a : Z) (m m' : Z -> V) : Prop := forall x, x < a \/ a + n <= x -> m' x = m x.
(** nothing changed outside the 3 cells at [a] and the 3 cells at [b] *)
Definition unchanged_outside_two {V} (a b : Z) (m m' : Z -> V) : Prop :=
  forall x, x < a \/ a + 3 <= x -> x < b \/ b + 3 <= x -> m' x = m x.
(** the fp2 at [e] is member c0 or c1 of the fp6 at [a], or lies outside it *)
Definition apart_or_c01 (a e : Z) : Prop := e = a \/ e = a + 2 \/ e + 2 <= a \/ a + 6 <= e.
