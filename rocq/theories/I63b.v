(** Quadratic extension of the machine-integer field arithmetic. *)
From Coq Require Import ZArith List Bool Lia Field Uint63.
From Verif Require Import SpecField FieldProof TowerProof TowerProof2 ModelCurve SpecCurve CurveRefine CurveInst I63.
Import ListNotations.
Local Open Scope Z_scope.
Add Field Fp_field63b : F_field.

Definition t2 : Type := (list int * list int)%type.
Definition mul63x (x y : t2) : t2 :=
  let '(a, b) := x in let '(c, e) := y in
  let ac := mul63 a c in let be := mul63 b e in
  (sub63 ac be, sub63 (sub63 (mul63 (add63 a b) (add63 c e)) ac) be).
Definition sqr63x (x : t2) : t2 := let '(a, b) := x in let ab := mul63 a b in (mul63 (add63 a b) (sub63 a b), add63 ab ab).
Definition add63x (x y : t2) : t2 := let '(a, b) := x in let '(c, e) := y in (add63 a c, add63 b e).
Definition sub63x (x y : t2) : t2 := let '(a, b) := x in let '(c, e) := y in (sub63 a c, sub63 b e).
Definition ok63x (x : t2) : Prop := ok63 (fst x) /\ ok63 (snd x).
Definition d63x (x : t2) : Fp2 := mkFp2 (d63 (fst x)) (d63 (snd x)).
Definition e63x (a : Fp2) : t2 := (e63 (re a), e63 (im a)).
Definition eq63x (x y : t2) : bool := eq63 (fst x) (fst y) && eq63 (snd x) (snd y).
Definition zero63x : t2 := (zero63, zero63).
Definition one63x : t2 := (one63, zero63).
Definition ops63x : fops t2 := {|
  f_zero := zero63x; f_one := one63x; f_add := add63x; f_sub := sub63x; f_mul := mul63x; f_sqr := sqr63x; f_dbl := fun x => add63x x x;
  f_neg := sub63x zero63x; f_inv := fun x => e63x (F2inv (d63x x)); f_eq := eq63x; f_isZero := fun x => isz63 (fst x) && isz63 (snd x);
  f_isOne := fun x => eq63x x one63x |}.
Ltac u63 := repeat match goal with
  | H : ok63 ?a, H' : ok63 ?b |- context [add63 ?a ?b] => lazymatch goal with _ : ok63 (add63 a b) |- _ => fail | _ => let A := fresh in let B := fresh in destruct (d63_add a b H H') as [A B] end
  | H : ok63 ?a, H' : ok63 ?b |- context [sub63 ?a ?b] => lazymatch goal with _ : ok63 (sub63 a b) |- _ => fail | _ => let A := fresh in let B := fresh in destruct (d63_sub a b H H') as [A B] end
  | H : ok63 ?a, H' : ok63 ?b |- context [mul63 ?a ?b] => lazymatch goal with _ : ok63 (mul63 a b) |- _ => fail | _ => let A := fresh in let B := fresh in destruct (d63_mul a b H H') as [A B] end
  | H : ok63 ?a |- context [add63 ?a ?a] => lazymatch goal with _ : ok63 (add63 a a) |- _ => fail | _ => let A := fresh in let B := fresh in destruct (d63_add a a H H) as [A B] end
  end.
Ltac r63 := repeat match goal with H : d63 ?x = _ |- context [d63 ?x] => rewrite H end.
Ltac x63 := cbn [fst snd] in *; u63; split; [split; assumption|]; apply F2_eq; cbn [re im fst snd]; r63; ring.
Lemma eq63x_d a b : ok63x a -> ok63x b -> eq63x a b = true <-> d63x a = d63x b.
Proof.
  intros [A1 A2] [B1 B2]. unfold eq63x. rewrite andb_true_iff, !eq63_d by auto. unfold d63x. split.
  - intros [-> ->]. reflexivity.
  - intros H. split; [exact (f_equal re H)|exact (f_equal im H)].
Qed.
Lemma ops63x_represents : represents ops63x KFp2 ok63x d63x.
Proof.
  pose proof zero63_d as [Z1 Z2]. pose proof one63_d as [O1 O2].
  constructor; cbn [ops63x f_zero f_one f_add f_sub f_mul f_sqr f_dbl f_neg f_inv f_eq f_isZero f_isOne KFp2 k0 k1 kadd ksub kmul kopp kinv car]; intros;
    repeat match goal with H : ok63x ?x |- _ => is_var x; let a := fresh "a" in let b := fresh "b" in destruct x as [a b]; destruct H end;
    unfold add63x, sub63x, mul63x, sqr63x, zero63x, one63x, ok63x, d63x, F2add, F2sub, F2mul, F2opp, F2_0, F2_1.
  - split; [split; assumption|]. apply F2_eq; assumption.
  - split; [split; assumption|]. apply F2_eq; assumption.
  - x63.
  - x63.
  - x63.
  - x63.
  - x63.
  - x63.
  - destruct (e63_ok (re (F2inv (d63x (a, b))))) as [A1 A2]. destruct (e63_ok (im (F2inv (d63x (a, b))))) as [B1 B2].
    split; [split; assumption|]. unfold e63x. cbn [fst snd]. unfold d63x in *. cbn [fst snd] in *. rewrite A2, B2. destruct (F2inv _); reflexivity.
  - apply eq63x_d; split; auto.
  - cbn [fst snd] in *. rewrite andb_true_iff, !isz63_d by auto. split; [intros [-> ->]; reflexivity|intros X; split; [exact (f_equal re X)|exact (f_equal im X)]].
  - rewrite eq63x_d by (split; cbn [fst snd]; auto). unfold d63x. cbn [fst snd]. rewrite O2, Z2. reflexivity.
Qed.
(** conversion of constants *)
Lemma d63_lit v z q : 0 <= v < modulus -> v = z * 2 ^ 392 + q * modulus -> ok63 (lz v) /\ d63 (lz v) = Fof z.
Proof.
  intros Hv E. destruct (lz_ok v Hv) as [O V]. split; [exact O|]. unfold d63. rewrite V, (Fof_hint _ _ _ E), Fof_mul. fold RR.
  transitivity (Fmul (Fof z) (Fmul RI RR)); [ring|]. rewrite RI_ok. ring.
Qed.
Definition okb63 (l : list int) : bool := Nat.eqb (length l) 14 && forallb (fun x => (x <=? msk)%uint63) l && Z.ltb (zl l) (2 * modulus).
Lemma okb63_ok l : okb63 l = true -> ok63 l.
Proof.
  unfold okb63. rewrite !andb_true_iff. intros [[H1 H2] H3]. split; [split|]; [apply Nat.eqb_eq, H1| |apply Z.ltb_lt, H3].
  apply Forall_forall. intros x Hx. rewrite forallb_forall in H2. specialize (H2 x Hx). apply leb_spec in H2. rewrite msk_Z in H2. change (Z.ones 28) with (2 ^ 28 - 1) in H2. lia.
Qed.
Lemma d63_int l z q : okb63 l = true -> zl l = z * 2 ^ 392 + q * modulus -> ok63 l /\ d63 l = Fof z.
Proof.
  intros H E. split; [apply okb63_ok, H|]. unfold d63. rewrite (Fof_hint _ _ _ E), Fof_mul. fold RR.
  transitivity (Fmul (Fof z) (Fmul RI RR)); [ring|]. rewrite RI_ok. ring.
Qed.
