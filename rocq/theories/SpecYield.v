(** Vocabulary for C62: a callback of type std::function<void()> is a function on the state of the rest of the program; None is an exception. *)
(** k calls in a row, stopping at the first exception *)
Fixpoint times {W : Type} (k : nat) (f : W -> option W) (w : W) : option W :=
  match k with O => Some w | S k => match f w with Some w => times k f w | None => None end end.
(** the value r is returned, unless there was an exception *)
Definition then_return {W R : Type} (r : R) (w : option W) : option (R * W) :=
  match w with Some w => Some (r, w) | None => None end.
