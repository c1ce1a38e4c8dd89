(** Specification: the prime field Z/p and the extension tower
      Fp2  = Fp[u]/(u^2+1),  Fp6 = Fp2[v]/(v^3-(1+u)),  Fp12 = Fp6[w]/(w^2-v)
    as types with Leibniz equality.  Nothing here refers to the code, except that [modulus] and
    [order] are the two moduli the library is about. *)
From Coq Require Import ZArith Znumtheory Bool Eqdep_dec Ring Field Lia.
From Verif Require Import NumTheory.
Local Open Scope Z_scope.

Definition modulus : Z :=
  0x1a0111ea397fe69a4b1ba7b6434bacd764774b84f38512bf6730d2a0f6b0f6241eabfffeb153ffffb9feffffffffaaab.
Definition order : Z :=
  0x73eda753299d7d483339d80809a1d80553bda402fffe5bfeffffffff00000001.

(** * Fp: integers in [0,p) *)
Definition inrange (z : Z) : bool := (0 <=? z) && (z <? modulus).
Record Fp : Type := mkFp_raw { fval : Z; fval_ok : inrange fval = true }.

Lemma inrange_mod z : inrange (z mod modulus) = true.
Proof.
  unfold inrange. pose proof (Z.mod_pos_bound z modulus ltac:(reflexivity)) as H.
  apply andb_true_iff. split; [apply Z.leb_le|apply Z.ltb_lt]; apply H.
Qed.
(** The class of an integer. *)
Definition Fof (z : Z) : Fp := mkFp_raw (z mod modulus) (inrange_mod z).

Definition F0 : Fp := Fof 0.
Definition F1 : Fp := Fof 1.
Definition Fadd (a b : Fp) : Fp := Fof (fval a + fval b).
Definition Fsub (a b : Fp) : Fp := Fof (fval a - fval b).
Definition Fmul (a b : Fp) : Fp := Fof (fval a * fval b).
Definition Fopp (a : Fp) : Fp := Fof (- fval a).
(** Inverse by Fermat; it is the inverse because p is prime ([F_field]). *)
Definition Finv (a : Fp) : Fp := Fof (powmod (fval a) (modulus - 2) modulus).
Definition Fdiv (a b : Fp) : Fp := Fmul a (Finv b).
Definition Feqb (a b : Fp) : bool := fval a =? fval b.

(** * Fp2 *)
Record Fp2 : Type := mkFp2 { re : Fp; im : Fp }.
Definition F2_0 : Fp2 := mkFp2 F0 F0.
Definition F2_1 : Fp2 := mkFp2 F1 F0.
Definition F2add (a b : Fp2) := mkFp2 (Fadd (re a) (re b)) (Fadd (im a) (im b)).
Definition F2sub (a b : Fp2) := mkFp2 (Fsub (re a) (re b)) (Fsub (im a) (im b)).
Definition F2opp (a : Fp2) := mkFp2 (Fopp (re a)) (Fopp (im a)).
Definition F2mul (a b : Fp2) :=
  mkFp2 (Fsub (Fmul (re a) (re b)) (Fmul (im a) (im b)))
        (Fadd (Fmul (re a) (im b)) (Fmul (im a) (re b))).
Definition F2conj (a : Fp2) := mkFp2 (re a) (Fopp (im a)).
Definition F2norm (a : Fp2) : Fp := Fadd (Fmul (re a) (re a)) (Fmul (im a) (im a)).
Definition F2inv (a : Fp2) : Fp2 :=
  let n := Finv (F2norm a) in mkFp2 (Fmul (re a) n) (Fopp (Fmul (im a) n)).
Definition F2div a b := F2mul a (F2inv b).
(** embedding of Fp, and the cubic/sextic non-residue xi = 1 + u *)
Definition F2of (a : Fp) : Fp2 := mkFp2 a F0.
Definition xi : Fp2 := mkFp2 F1 F1.

(** * Fp6 *)
Record Fp6 : Type := mkFp6 { co0 : Fp2; co1 : Fp2; co2 : Fp2 }.
Definition F6_0 := mkFp6 F2_0 F2_0 F2_0.
Definition F6_1 := mkFp6 F2_1 F2_0 F2_0.
Definition F6add a b := mkFp6 (F2add (co0 a) (co0 b)) (F2add (co1 a) (co1 b)) (F2add (co2 a) (co2 b)).
Definition F6sub a b := mkFp6 (F2sub (co0 a) (co0 b)) (F2sub (co1 a) (co1 b)) (F2sub (co2 a) (co2 b)).
Definition F6opp a := mkFp6 (F2opp (co0 a)) (F2opp (co1 a)) (F2opp (co2 a)).
Definition F6mul a b :=
  mkFp6 (F2add (F2mul (co0 a) (co0 b))
               (F2mul xi (F2add (F2mul (co1 a) (co2 b)) (F2mul (co2 a) (co1 b)))))
        (F2add (F2add (F2mul (co0 a) (co1 b)) (F2mul (co1 a) (co0 b)))
               (F2mul xi (F2mul (co2 a) (co2 b))))
        (F2add (F2add (F2mul (co0 a) (co2 b)) (F2mul (co1 a) (co1 b))) (F2mul (co2 a) (co0 b))).
(** adjoint: a * F6adj a = norm, in Fp2 *)
Definition F6adj a :=
  mkFp6 (F2sub (F2mul (co0 a) (co0 a)) (F2mul xi (F2mul (co1 a) (co2 a))))
        (F2sub (F2mul xi (F2mul (co2 a) (co2 a))) (F2mul (co0 a) (co1 a)))
        (F2sub (F2mul (co1 a) (co1 a)) (F2mul (co0 a) (co2 a))).
Definition F6norm a : Fp2 :=
  F2add (F2mul (co0 a) (co0 (F6adj a)))
        (F2mul xi (F2add (F2mul (co1 a) (co2 (F6adj a))) (F2mul (co2 a) (co1 (F6adj a))))).
Definition F6scale (k : Fp2) a := mkFp6 (F2mul k (co0 a)) (F2mul k (co1 a)) (F2mul k (co2 a)).
Definition F6inv a := F6scale (F2inv (F6norm a)) (F6adj a).
Definition F6div a b := F6mul a (F6inv b).
Definition F6of (a : Fp2) : Fp6 := mkFp6 a F2_0 F2_0.
(** the element v *)
Definition F6v : Fp6 := mkFp6 F2_0 F2_1 F2_0.

(** * Fp12 *)
Record Fp12 : Type := mkFp12 { lo : Fp6; hi : Fp6 }.
Definition F12_0 := mkFp12 F6_0 F6_0.
Definition F12_1 := mkFp12 F6_1 F6_0.
Definition F12add a b := mkFp12 (F6add (lo a) (lo b)) (F6add (hi a) (hi b)).
Definition F12sub a b := mkFp12 (F6sub (lo a) (lo b)) (F6sub (hi a) (hi b)).
Definition F12opp a := mkFp12 (F6opp (lo a)) (F6opp (hi a)).
Definition F12mul a b :=
  mkFp12 (F6add (F6mul (lo a) (lo b)) (F6mul F6v (F6mul (hi a) (hi b))))
         (F6add (F6mul (lo a) (hi b)) (F6mul (hi a) (lo b))).
Definition F12conj a := mkFp12 (lo a) (F6opp (hi a)).
Definition F12norm a : Fp6 := F6sub (F6mul (lo a) (lo a)) (F6mul F6v (F6mul (hi a) (hi a))).
Definition F12inv a :=
  let n := F6inv (F12norm a) in mkFp12 (F6mul (lo a) n) (F6opp (F6mul (hi a) n)).
Definition F12div a b := F12mul a (F12inv b).
Definition F12of (a : Fp6) : Fp12 := mkFp12 a F6_0.
(** the element w *)
Definition F12w : Fp12 := mkFp12 F6_0 F6_1.
