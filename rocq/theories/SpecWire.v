(** Specification: which curve point a compressed byte string stands for (ZCash format; three flag bits on top of a big-endian x).
    The numbers in front are read off with be_int; nothing here refers to the code. *)
From Coq Require Import ZArith List Bool.
From Verif Require Import SpecField SpecBytes SpecCodec SpecCurve AbGroup CurveInst.
Local Open Scope Z_scope.

(** e: the integer of the 48 bytes.  With the infinity flag (bit 382) the other bits are free; x is taken modulo p. *)
Definition stands1 (b : list Z) (P : E1) : Prop :=
  bytes b /\ length b = 48%nat /\ Z.testbit (be_int b) 383 = true /\
  (Z.testbit (be_int b) 382 = true /\ P = gid \/
   Z.testbit (be_int b) 382 = false /\
   exists y, cpt (b := b1) P = Aff (K := KFp) (Fof (be_int b mod 2 ^ 381)) y /\ sgn1 y = Z.testbit (be_int b) 381).
(** the first 48 bytes hold flags and the imaginary part of x, the last 48 bytes the real part, which must be below p *)
Definition stands2 (s : list Z) (P : E2) : Prop :=
  exists b c, s = b ++ c /\ bytes b /\ length b = 48%nat /\ bytes c /\ length c = 48%nat /\ Z.testbit (be_int b) 383 = true /\
  (Z.testbit (be_int b) 382 = true /\ P = gid \/
   Z.testbit (be_int b) 382 = false /\ be_int c < modulus /\
   exists y, cpt (b := b2) P = Aff (K := KFp2) (mkFp2 (Fof (be_int c)) (Fof (be_int b mod 2 ^ 381))) y /\ sgn2 y = Z.testbit (be_int b) 381).
