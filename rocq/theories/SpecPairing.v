(** Specification: the reduced ate pairing E(Fp) x E'(Fp2) -> Fp12, by Miller functions.
    Nothing here refers to the code; the groups and fields are those of SpecField and SpecCurve. *)
From Coq Require Import ZArith List Bool.
From Verif Require Import SpecField TowerProof TowerProof2 SpecCurve CurveInst.
Local Open Scope Z_scope.

(** Fp12 as a field, with Fp and Fp2 embedded *)
Definition K12 : fieldOps := mkField Fp12 F12_0 F12_1 F12add F12sub F12mul F12opp F12inv F12_eq_dec.
Definition emb2 (x : Fp2) : Fp12 := F12of (F6of x).
Definition emb1 (x : Fp) : Fp12 := emb2 (F2of x).
Definition F12quot (a b : Fp12) : Fp12 := F12mul a (F12inv b).
(** the isomorphism of the twist E' with E over Fp12; w^6 = 1 + u *)
Definition untwist (Q : point KFp2) : point K12 :=
  match Q with Inf => Inf | Aff x y => Aff (F12quot (emb2 x) (F12mul F12w F12w) : car K12) (F12quot (emb2 y) (F12mul F12w (F12mul F12w F12w))) end.
(** the line through A and B (the tangent at A if they are equal), evaluated at (x, y) *)
Definition chord (A B : point K12) (x y : Fp12) : Fp12 :=
  match A, B with
  | Inf, Inf => F12_1
  | Aff x1 _, Inf => F12sub x x1
  | Inf, Aff x1 _ => F12sub x x1
  | Aff x1 y1, Aff x2 y2 => match padd A B with Inf => F12sub x x1 | Aff _ _ => F12sub (F12sub y y1) (F12mul (slope (K := K12) x1 y1 x2 y2) (F12sub x x1)) end
  end.
(** the vertical line through A at (x, _) *)
Definition vertical (A : point K12) (x : Fp12) : Fp12 := match A with Inf => F12_1 | Aff x1 _ => F12sub x x1 end.
(** n A *)
Fixpoint pmuln (n : nat) (A : point K12) : point K12 := match n with O => Inf | S n => padd (pmuln n A) A end.
(** the Miller function f_{n,A} at (x, y): its divisor is n(A) - (nA) - (n-1)(O) *)
Fixpoint miller (n : nat) (A : point K12) (x y : Fp12) : Fp12 :=
  match n with O => F12_1 | S n => F12mul (miller n A x y) (F12quot (chord (pmuln n A) A x y) (vertical (pmuln (S n) A) x)) end.
(** the parameter of the curve is -z_abs *)
Definition z_abs : Z := 0xd201000000010000.
Definition pairing_exp : Z := 3 * (modulus ^ 12 - 1) / order.
(** the cube of the usual reduced ate pairing; the parameter being negative, f_{z_abs} is inverted *)
Definition ate (P : point KFp) (Q : point KFp2) : Fp12 :=
  match P with
  | Inf => F12_1
  | Aff x y => F12pow (F12inv (miller (Z.to_nat z_abs) (untwist Q) (emb1 x) (emb1 y))) pairing_exp
  end.
