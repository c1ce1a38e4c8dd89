(** The yield callbacks of weightedSum (g.cpp) and of the pairing (pairing.cpp).  The other model files leave the calls out.
    [W] is the state of the program outside the function, which only the callback changes; None: the callback threw an exception,
    which none of the functions catches. *)
From Coq Require Import ZArith List Bool.
From Verif Require Import ModelWord ModelScalar ModelFp ModelTower ModelCurve ModelPairing ModelKeys.
Import ListNotations.
Local Open Scope Z_scope.

Section Y.
Context {W : Type} (yield : option (W -> option W)).
(** if(cond && yield) yield(); the empty std::function is None *)
Definition call (cond : bool) (w : W) : option W :=
  match yield with Some f => if cond then f w else Some w | None => Some w end.
(** for(i = i; n times; i++) { if(yield && ((i & 255) == 0)) yield(); body } *)
Fixpoint y_up {S} (n : nat) (i : Z) (body : Z -> S -> S) (s : S) (w : W) : option (S * W) :=
  match n with
  | O => Some (s, w)
  | Datatypes.S n => match call (Z.land i 255 =? 0) w with None => None | Some w => y_up n (i + 1) body (body i s) w end
  end.
(** for(i = n - 1; i >= 0; i--) likewise *)
Fixpoint y_down {S} (n : nat) (body : Z -> S -> S) (s : S) (w : W) : option (S * W) :=
  match n with
  | O => Some (s, w)
  | Datatypes.S n => match call (Z.land (Z.of_nat n) 255 =? 0) w with None => None | Some w => y_down n body (body (Z.of_nat n) s) w end
  end.
Section G.
Context {T : Type} (o : fops T).
(** bucket[i] = zero() *)
Definition bucket_clear (i : Z) (bk : list (jac T)) : list (jac T) := firstn (Z.to_nat i) bk ++ j_zero o :: skipn (S (Z.to_nat i)) bk.
(** g.cpp:486-520; 1250-1284: one window; the bucket is reused by the next window *)
Definition y_window (c : nat) (ps : list (jac T * list Z)) (j : nat) (bk : list (jac T)) (w : W) : option (jac T * list (jac T) * W) :=
  match y_up (Nat.pow 2 c - 1) 0 bucket_clear bk w with
  | None => None
  | Some (bk, w) =>
      match y_up (length ps) 0 (fun i bk =>
              let p := nth (Z.to_nat i) ps (j_zero o, []) in
              let index := ws_index c j (snd p) in
              if index =? 0 then bk else bucket_add o bk (Z.to_nat (index - 1)) (fst p)) bk w with
      | None => None
      | Some (bk, w) =>
          match y_down (Nat.pow 2 c - 1) (fun i acc_sum =>
                  let sum := j_add o (snd acc_sum) (nth (Z.to_nat i) bk (j_zero o)) in (j_add o (fst acc_sum) sum, sum)) (j_zero o, j_zero o) w with
          | None => None
          | Some (acc_sum, w) => Some (fst acc_sum, bk, w)
          end
      end
  end.
(** the loop over the windows j, j+1, ...; the windows in order *)
Fixpoint y_windows (n j c : nat) (ps : list (jac T * list Z)) (bk : list (jac T)) (w : W) : option (list (jac T) * W) :=
  match n with
  | O => Some ([], w)
  | S n => match y_window c ps j bk w with
           | None => None
           | Some (acc, bk, w) => match y_windows n (S j) c ps bk w with None => None | Some (l, w) => Some (acc :: l, w) end
           end
  end.
(** g.cpp:472-531; 1236-1295; bucket.resize value-initialises (to the coordinates 0, 0, 0) *)
Definition y_weightedSum (points : list (jac T)) (scalars : list (list Z)) (w : W) : option (jac T * W) :=
  let ps := combine points scalars in
  let c := ws_width (length ps) in
  match y_windows (255 / c + 1) 0 c ps (repeat (mkJ (f_zero o) (f_zero o) (f_zero o)) (Nat.pow 2 c - 1)) w with
  | None => None
  | Some (windows, w) => Some (fold_left (fun acc v => j_add o (dbl_times o c acc) v) (rev windows) (j_zero o), w)
  end.
End G.
(** pairing.cpp:96-137 *)
Definition y_miller_loop (ps : list (g1 * g2)) (w : W) : option (outcome fp12 * W) :=
  match pre_all ps with
  | Ok cs =>
      match call (20 <=? Z.of_nat (length ps)) w with
      | None => None
      | Some w => Some (match ps with [] => OutOfBounds | _ => obind (mil_loop 63 0 cs fp12_one) (fun f => Ok (fp12_conj f)) end, w)
      end
  | Throw => Some (Throw, w)
  | OutOfBounds => Some (OutOfBounds, w)
  end.
(** pairing.cpp:180-190 *)
Definition y_calculate (ps : list (g1 * g2)) (w : W) : option (outcome fp12 * W) :=
  match ps with
  | [] => Some (Ok fp12_one, w)
  | _ => match y_miller_loop ps w with
         | None => None
         | Some (f, w) => Some (obind f (fun f => Ok (final_exponentiation f)), w)
         end
  end.
End Y.
