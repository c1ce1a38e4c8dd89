(** Specification of the compressed encoding of curve points (ZCash format): big-endian x with three flag bits on top. *)
From Coq Require Import ZArith List Bool.
From Verif Require Import SpecField SpecBytes.
Local Open Scope Z_scope.

(** y is the larger of y and -y, as integers; for Fp2 the imaginary part is compared first *)
Definition sgn1 (y : Fp) : bool := (modulus - 1) / 2 <? fval y.
Definition sgn2 (y : Fp2) : bool := sgn1 (im y) || ((fval (im y) =? 0) && sgn1 (re y)).
Definition flags (s : bool) : Z := 2 ^ 383 + (if s then 2 ^ 381 else 0).
(** the encodings of the finite points (x, y) *)
Definition enc_g1 (x y : Fp) : list Z := int_be 48 (fval x + flags (sgn1 y)).
Definition enc_g2 (x y : Fp2) : list Z := int_be 48 (fval (im x) + flags (sgn2 y)) ++ int_be 48 (fval (re x)).
