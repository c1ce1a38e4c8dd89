(** Property C52 (primality part). *)
From Coq Require Import ZArith Znumtheory.
From Verif Require Import SpecField FieldProof.

(** The base-field modulus (src/fp.cpp:365-372 read as an integer) is prime. *)
Theorem C52_modulus_prime : prime modulus.
Proof. exact modulus_prime. Qed.
Print Assumptions C52_modulus_prime.

(** The group order (src/fp.cpp, constant Q) is prime. *)
Theorem C52_order_prime : prime order.
Proof. exact order_prime. Qed.
Print Assumptions C52_order_prime.
