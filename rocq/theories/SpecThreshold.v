(** Shamir secret sharing, as a specification: weighted sums and polynomials over the integers (used modulo the group order). *)
From Coq Require Import ZArith List.
Import ListNotations.
Local Open Scope Z_scope.

(** w1 v1 + w2 v2 + ...; stops at the end of the shorter list *)
Fixpoint wsum (ws vs : list Z) : Z :=
  match ws, vs with w :: ws, v :: vs => w * v + wsum ws vs | _, _ => 0 end.
(** c0 + c1 x + c2 x^2 + ... *)
Fixpoint poly (cs : list Z) (x : Z) : Z :=
  match cs with c :: cs => c + x * poly cs x | [] => 0 end.
(** no two entries are congruent *)
Fixpoint distinct_mod (r : Z) (xs : list Z) : Prop :=
  match xs with x :: xs => Forall (fun y => x mod r <> y mod r) xs /\ distinct_mod r xs | [] => True end.
