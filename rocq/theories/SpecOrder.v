(** Vocabulary for C61. *)
(** on the elements satisfying [P]: [cmp] is a total order and Eq is identity *)
Definition total_order {T} (P : T -> Prop) (cmp : T -> T -> comparison) : Prop :=
  (forall x y, P x -> P y -> (cmp x y = Eq <-> x = y)) /\
  (forall x y, P x -> P y -> cmp y x = CompOpp (cmp x y)) /\
  (forall x y z, P x -> P y -> P z -> cmp x y = Lt -> cmp y z = Lt -> cmp x z = Lt).
(** all three coordinates satisfy [P] *)
Definition all3 {T} (P : T -> Prop) (p : T * T * T) : Prop := let '(x, y, z) := p in P x /\ P y /\ P z.
