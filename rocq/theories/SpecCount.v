(** Specification: the number of elements of a set.  The sets are far too large to be listed; n is an integer. *)
From Coq Require Import ZArith.
Local Open Scope Z_scope.

(** f enumerates the elements of S, each of them once, by the numbers 0, ..., n-1 *)
Definition has_size {A : Type} (S : A -> Prop) (n : Z) : Prop :=
  exists f : Z -> A, (forall k, 0 <= k < n -> S (f k)) /\ (forall k k', 0 <= k < n -> 0 <= k' < n -> f k = f k' -> k = k') /\
    (forall a, S a -> exists k, 0 <= k < n /\ f k = a).
