(** Value-level correctness of the fp primitives and of class fp: Montgomery form, refinement to Z/p. *)
From Coq Require Import ZArith Znumtheory List Bool Lia Ring Field.
From Verif Require Import RingPow NumTheory Primes SpecField FieldProof TowerProof ModelWord ModelScalar ModelFp.
Import ListNotations.
Local Open Scope Z_scope.
Add Field Fp_fieldFP : F_field.

Definition canon (x : Z) : Prop := 0 <= x < MODULUS.
(** 2^-384 mod p *)
Definition RINV : Z :=
  0x14fec701e8fb0ce9ed5e64273c4f538b1797ab1458a88de9343ea97914956dc87fe11274d898fafbf4d38259380b4820.
(** The field element represented by the Montgomery form [x]. *)
Definition dec (x : Z) : Fp := Fof (x * RINV).
(** The canonical Montgomery form of a field element. *)
Definition enc (a : Fp) : Z := (fval a * R384) mod MODULUS.

Lemma M_eq : MODULUS = modulus. Proof. reflexivity. Qed.
Lemma M_pos : 0 < MODULUS. Proof. reflexivity. Qed.
Lemma M_nz : MODULUS <> 0. Proof. discriminate. Qed.
Lemma R_pos : 0 < R384. Proof. reflexivity. Qed.
Lemma R_M : 9 * MODULUS < R384. Proof. reflexivity. Qed.
Lemma RRINV : (R384 * RINV) mod MODULUS = 1. Proof. vm_compute. reflexivity. Qed.
Lemma NINV_ok' : (MODULUS * NINV) mod R384 = R384 - 1. Proof. vm_compute. reflexivity. Qed.
Global Opaque MODULUS R384 RINV NINV.
Lemma RINV_val : exists k, R384 * RINV = 1 + MODULUS * k.
Proof. exists (R384 * RINV / MODULUS). rewrite (Z.div_mod (R384 * RINV) MODULUS M_nz) at 1. rewrite RRINV. ring. Qed.

(** ** Multiplication *)
Lemma mont_exact t : exists q v, 0 <= q < R384 /\ (t * NINV) mod R384 = q /\ R384 * v = t + q * MODULUS.
Proof.
  pose proof R_pos as RP.
  exists ((t * NINV) mod R384). exists ((t + (t * NINV) mod R384 * MODULUS) / R384).
  split; [apply Z.mod_pos_bound; exact RP|]. split; [reflexivity|].
  symmetry. apply Z.div_exact; [lia|]. 
  rewrite Z.add_mod, Z.mul_mod_idemp_l by lia.
  replace (t * NINV * MODULUS) with (t * (MODULUS * NINV)) by ring.
  rewrite (Z.mul_mod t), NINV_ok' by lia.
  assert (E : (t mod R384 * (R384 - 1)) mod R384 = (- t) mod R384).
  { replace (t mod R384 * (R384 - 1)) with (- (t mod R384) + (t mod R384) * R384) by ring.
    rewrite Z.mod_add by lia. rewrite <- (Z.sub_0_l (t mod R384)), Zminus_mod_idemp_r. f_equal. }
  rewrite E, <- Z.add_mod by lia. rewrite Z.add_opp_diag_r. reflexivity.
Qed.

(** Result before the conditional subtraction, and the exact relation. *)
Lemma fp_mul_gen x y : 0 <= x * y < R384 * (R384 - MODULUS) ->
  exists q v, 0 <= q < R384 /\ R384 * v = x * y + q * MODULUS /\ 0 <= v < R384 /\
    fp_mul x y = if v <? MODULUS then v else v - MODULUS.
Proof.
  intros H. destruct (mont_exact (x * y)) as (q & v & Hq & Eq & Ev).
  exists q, v. pose proof R_pos. pose proof M_pos.
  assert (Hv : 0 <= v < R384) by nia.
  repeat split; try lia. unfold fp_mul. rewrite Eq, <- Ev.
  rewrite Z.mul_comm, Z.div_mul by lia. rewrite Z.mod_small by lia. reflexivity.
Qed.

Lemma fp_mul_spec x y : 0 <= x * y < R384 * MODULUS ->
  canon (fp_mul x y) /\ exists k, R384 * fp_mul x y = x * y + MODULUS * k.
Proof.
  intros H. pose proof R_pos. pose proof M_pos. pose proof R_M.
  destruct (fp_mul_gen x y) as (q & v & Hq & Ev & Hv & E); [nia|].
  rewrite E. assert (v < 2 * MODULUS) by nia. unfold canon.
  destruct (Z.ltb_spec v MODULUS).
  - split; [lia|]. exists q. rewrite Ev. ring.
  - split; [lia|]. exists (q - R384). rewrite Z.mul_sub_distr_l, Ev. ring.
Qed.

Lemma Fof_M k : Fof (MODULUS * k) = F0.
Proof. apply Fof_eq. rewrite M_eq, Z.mul_comm, Z.mod_mul by discriminate. reflexivity. Qed.
Lemma Fof_addM x k : Fof (x + MODULUS * k) = Fof x.
Proof. rewrite Fof_add, Fof_M. ring. Qed.
Lemma FofR : Fmul (Fof R384) (Fof RINV) = F1.
Proof. destruct RINV_val as [k E]. rewrite <- Fof_mul, E, Fof_addM. reflexivity. Qed.
Lemma dec_mul_raw z x y k : R384 * z = x * y + MODULUS * k -> dec z = Fmul (dec x) (dec y).
Proof.
  intros E. unfold dec. rewrite !Fof_mul.
  assert (E' : Fmul (Fof R384) (Fof z) = Fmul (Fof x) (Fof y)).
  { rewrite <- !Fof_mul, E. apply Fof_addM. }
  transitivity (Fmul (Fmul (Fmul (Fof R384) (Fof RINV)) (Fof z)) (Fof RINV)).
  - rewrite FofR. ring.
  - transitivity (Fmul (Fmul (Fmul (Fof R384) (Fof z)) (Fof RINV)) (Fof RINV)); [ring|rewrite E'; ring].
Qed.

Lemma dec_inj x y : canon x -> canon y -> dec x = dec y -> x = y.
Proof.
  unfold canon. intros Hx Hy H. unfold dec in H. rewrite !Fof_mul in H.
  assert (E : Fof x = Fof y).
  { transitivity (Fmul (Fmul (Fof R384) (Fof RINV)) (Fof x)); [rewrite FofR; ring|].
    transitivity (Fmul (Fof R384) (Fmul (Fof y) (Fof RINV))); [rewrite <- H; ring|].
    transitivity (Fmul (Fmul (Fof R384) (Fof RINV)) (Fof y)); [ring|rewrite FofR; ring]. }
  apply Fof_eq in E. rewrite <- M_eq, !Z.mod_small in E by lia. exact E.
Qed.
Lemma canon_enc a : canon (enc a).
Proof. apply Z.mod_pos_bound, M_pos. Qed.
Lemma dec_enc a : dec (enc a) = a.
Proof.
  unfold dec, enc. rewrite Fof_mul.
  replace (Fof ((fval a * R384) mod MODULUS)) with (Fof (fval a * R384)).
  - rewrite Fof_mul, Fof_fval. transitivity (Fmul a (Fmul (Fof R384) (Fof RINV))); [ring|rewrite FofR; ring].
  - apply Fof_eq. rewrite M_eq, Z.mod_mod by discriminate. reflexivity.
Qed.
Lemma enc_dec x : canon x -> enc (dec x) = x.
Proof. intros H. apply dec_inj; [apply canon_enc|exact H|apply dec_enc]. Qed.

Lemma fp_mul_ok x y : 0 <= x * y < R384 * MODULUS ->
  canon (fp_mul x y) /\ dec (fp_mul x y) = Fmul (dec x) (dec y).
Proof.
  intros H. destruct (fp_mul_spec x y H) as [C [k E]]. split; [exact C|]. exact (dec_mul_raw _ _ _ _ E).
Qed.

(** ** Additive operations *)
Lemma fp_add_ok x y : canon x -> canon y ->
  canon (fp_add x y) /\ dec (fp_add x y) = Fadd (dec x) (dec y) /\ fp_add x y = (x + y) mod MODULUS.
Proof.
  unfold canon, fp_add. intros Hx Hy. pose proof R_M. rewrite Z.mod_small by lia.
  assert (E : forall k, dec (x + y - MODULUS * k) = Fadd (dec x) (dec y)).
  { intros k. unfold dec. rewrite <- Fof_add.
    replace ((x + y - MODULUS * k) * RINV) with (x * RINV + y * RINV + MODULUS * (- k * RINV)) by ring. apply Fof_addM. }
  destruct (Z.ltb_spec (x + y) MODULUS).
  - split; [lia|]. split; [|rewrite Z.mod_small by lia; reflexivity]. rewrite <- (E 0). f_equal. ring.
  - split; [lia|]. split; [rewrite <- (E 1); f_equal; ring|].
    apply (Z.mod_unique _ _ 1); [left; lia|ring].
Qed.
Lemma fp_double_add x : fp_double x = fp_add x x. Proof. reflexivity. Qed.
Lemma fp_sub_ok x y : canon x -> canon y ->
  canon (fp_sub x y) /\ dec (fp_sub x y) = Fsub (dec x) (dec y) /\ fp_sub x y = (x - y) mod MODULUS.
Proof.
  unfold canon, fp_sub. intros Hx Hy. pose proof R_M.
  assert (E : forall k, dec (x - y + MODULUS * k) = Fsub (dec x) (dec y)).
  { intros k. unfold dec. rewrite <- Fof_sub.
    replace ((x - y + MODULUS * k) * RINV) with (x * RINV - y * RINV + MODULUS * (k * RINV)) by ring. apply Fof_addM. }
  destruct (Z.ltb_spec x y).
  - rewrite Z.add_mod_idemp_l by lia. rewrite Z.mod_small by lia.
    split; [lia|]. split; [rewrite <- (E 1); f_equal; ring|].
    apply (Z.mod_unique _ _ (-1)); [left; lia|ring].
  - split; [lia|]. split; [rewrite <- (E 0); f_equal; ring|]. rewrite Z.mod_small by lia. reflexivity.
Qed.
Lemma fp_neg_ok x : canon x ->
  canon (fp_neg x) /\ dec (fp_neg x) = Fopp (dec x) /\ fp_neg x = (- x) mod MODULUS.
Proof.
  unfold canon, fp_neg, fp_rawneg. intros Hx. pose proof R_M.
  destruct (Z.eqb_spec x 0) as [->|].
  - split; [lia|]. split; [|reflexivity]. unfold dec. rewrite <- Fof_opp. f_equal; ring.
  - rewrite Z.mod_small by lia. split; [lia|]. split.
    + unfold dec. rewrite <- Fof_opp. replace ((MODULUS - x) * RINV) with (- (x * RINV) + MODULUS * RINV) by ring.
      apply Fof_addM.
    + apply (Z.mod_unique _ _ (-1)); [left; lia|ring].
Qed.
Lemma fp_ladd_ok x y : canon x -> canon y ->
  0 <= fp_ladd x y < 2 * MODULUS /\ dec (fp_ladd x y) = Fadd (dec x) (dec y).
Proof.
  unfold canon, fp_ladd. intros Hx Hy. pose proof R_M. rewrite Z.mod_small by lia.
  split; [lia|]. unfold dec. rewrite <- Fof_add. f_equal; ring.
Qed.
Lemma fp_ldouble_ladd x : fp_ldouble x = fp_ladd x x. Proof. reflexivity. Qed.

(** ** Rewriting rules for canonical operands, used by all higher layers *)
Lemma mul_range a b x y : 0 <= x < a * MODULUS -> 0 <= y < b * MODULUS -> 0 < a -> 0 < b -> a * b <= 9 ->
  0 <= x * y < R384 * MODULUS.
Proof.
  intros. pose proof R_M. pose proof M_pos. split; [nia|].
  apply Z.lt_le_trans with ((a * MODULUS) * (b * MODULUS)); [nia|].
  replace (a * MODULUS * (b * MODULUS)) with (a * b * (MODULUS * MODULUS)) by ring. nia.
Qed.
Lemma canon_range x : canon x -> 0 <= x < 1 * MODULUS. Proof. unfold canon. lia. Qed.
Lemma canon_mul_range x y : canon x -> canon y -> 0 <= x * y < R384 * MODULUS.
Proof. intros. apply (mul_range 1 1); try apply canon_range; auto; lia. Qed.
Lemma canon_add x y : canon x -> canon y -> canon (fp_add x y). Proof. intros. apply fp_add_ok; auto. Qed.
Lemma canon_double x : canon x -> canon (fp_double x). Proof. intros. apply fp_add_ok; auto. Qed.
Lemma canon_sub x y : canon x -> canon y -> canon (fp_sub x y). Proof. intros. apply fp_sub_ok; auto. Qed.
Lemma canon_neg x : canon x -> canon (fp_neg x). Proof. intros. apply fp_neg_ok; auto. Qed.
Lemma canon_mul x y : canon x -> canon y -> canon (fp_mul x y).
Proof. intros. apply fp_mul_ok, canon_mul_range; auto. Qed.
Lemma canon_sqr x : canon x -> canon (fp_sqr x). Proof. intros. apply canon_mul; auto. Qed.
Lemma dec_add x y : canon x -> canon y -> dec (fp_add x y) = Fadd (dec x) (dec y). Proof. intros. apply fp_add_ok; auto. Qed.
Lemma dec_double x : canon x -> dec (fp_double x) = Fadd (dec x) (dec x). Proof. intros. apply fp_add_ok; auto. Qed.
Lemma dec_sub x y : canon x -> canon y -> dec (fp_sub x y) = Fsub (dec x) (dec y). Proof. intros. apply fp_sub_ok; auto. Qed.
Lemma dec_neg x : canon x -> dec (fp_neg x) = Fopp (dec x). Proof. intros. apply fp_neg_ok; auto. Qed.
Lemma dec_mul x y : canon x -> canon y -> dec (fp_mul x y) = Fmul (dec x) (dec y).
Proof. intros. apply fp_mul_ok, canon_mul_range; auto. Qed.
Lemma dec_sqr x : canon x -> dec (fp_sqr x) = Fmul (dec x) (dec x). Proof. intros. apply dec_mul; auto. Qed.

(** ** Constants *)
Ltac zchk := vm_compute; repeat split; congruence.
Lemma canon_0 : canon 0. Proof. zchk. Qed.
Lemma dec_0 : dec 0 = F0. Proof. reflexivity. Qed.
Lemma canon_R1 : canon R1. Proof. zchk. Qed.
Lemma dec_R1 : dec R1 = F1. Proof. apply fval_inj. vm_compute. reflexivity. Qed.
Lemma canon_R2 : canon R2. Proof. zchk. Qed.
Lemma dec_R2 : dec R2 = Fof R384. Proof. apply fval_inj. vm_compute. reflexivity. Qed.
Lemma canon_B : canon B. Proof. zchk. Qed.
Lemma dec_B : dec B = Fof 4. Proof. apply fval_inj. vm_compute. reflexivity. Qed.
Lemma canon_twoInv : canon twoInv. Proof. zchk. Qed.
Lemma dec_twoInv : Fmul (Fof 2) (dec twoInv) = F1. Proof. apply fval_inj. vm_compute. reflexivity. Qed.
Lemma canon_glv : canon glvPhi1. Proof. zchk. Qed.
Lemma canon_1 : canon 1. Proof. zchk. Qed.
Lemma dec_1 : dec 1 = Fof RINV. Proof. unfold dec. rewrite Z.mul_1_l. reflexivity. Qed.
Lemma pPlus1Over4_eq : pPlus1Over4 = quarter_pp1. Proof. reflexivity. Qed.
Lemma pMinus1Over2_eq : pMinus1Over2 = half_pm1. Proof. reflexivity. Qed.
Lemma Qorder_eq : Qorder = order. Proof. reflexivity. Qed.

#[global] Hint Resolve canon_0 canon_R1 canon_R2 canon_B canon_1 canon_twoInv canon_glv
  canon_add canon_double canon_sub canon_neg canon_mul canon_sqr : canon.
#[global] Hint Rewrite dec_add dec_double dec_sub dec_neg dec_mul dec_sqr using (auto 20 with canon) : dec.
#[global] Hint Rewrite dec_0 dec_R1 : dec.

(** ** Montgomery conversions *)
(** toMont of any 384-bit value encodes its class *)
Lemma toMont_ok x : 0 <= x < R384 -> canon (fp_toMont x) /\ dec (fp_toMont x) = Fof x.
Proof.
  intros H. unfold fp_toMont. pose proof canon_R2 as C. unfold canon in C. pose proof M_pos.
  destruct (fp_mul_ok x R2) as [C1 E1]; [nia|]. split; [exact C1|].
  rewrite E1, dec_R2. unfold dec. rewrite Fof_mul.
  transitivity (Fmul (Fof x) (Fmul (Fof R384) (Fof RINV))); [ring|]. rewrite FofR. ring.
Qed.
Lemma fromMont_canon x : 0 <= x < R384 -> canon (fp_fromMont x).
Proof. intros H. unfold fp_fromMont. apply fp_mul_ok. pose proof M_pos. pose proof R_M. nia. Qed.
Lemma fromMont_ok x : 0 <= x < R384 -> fp_fromMont x = fval (dec x).
Proof.
  intros H. pose proof (fromMont_canon x H) as C. unfold fp_fromMont in *. pose proof M_pos. pose proof R_M.
  destruct (fp_mul_spec x 1) as [_ [k E]]; [nia|].
  assert (Fof (fp_mul x 1) = dec x).
  { transitivity (Fmul (Fmul (Fof R384) (Fof (fp_mul x 1))) (Fof RINV)).
    - transitivity (Fmul (Fmul (Fof R384) (Fof RINV)) (Fof (fp_mul x 1))); [rewrite FofR; ring|ring].
    - rewrite <- Fof_mul, E, Fof_addM. unfold dec. rewrite <- Fof_mul. f_equal; ring. }
  rewrite <- H2, fval_Fof, <- M_eq. unfold canon in C. rewrite Z.mod_small; [reflexivity|exact C].
Qed.
Lemma canon_R384 x : canon x -> 0 <= x < R384.
Proof. unfold canon. pose proof R_M. lia. Qed.
Lemma fromMont_toMont x : canon x -> fp_fromMont (fp_toMont x) = x.
Proof.
  intros H. destruct (toMont_ok x (canon_R384 _ H)) as [C E].
  rewrite fromMont_ok, E, fval_Fof by (apply canon_R384, C). rewrite <- M_eq. apply Z.mod_small. exact H.
Qed.
Lemma toMont_fromMont x : canon x -> fp_toMont (fp_fromMont x) = x.
Proof.
  intros H. pose proof (fromMont_canon x (canon_R384 _ H)) as C.
  destruct (toMont_ok _ (canon_R384 _ C)) as [C2 E]. apply dec_inj; auto.
  rewrite E, fromMont_ok by (apply canon_R384, H). apply Fof_fval.
Qed.
Lemma isValid_ok x : 0 <= x -> (fp_isValid x = true <-> canon x).
Proof.
  intros H. unfold fp_isValid, fp_cmp, canon. destruct (Z.compare_spec x MODULUS); split; intros; try lia; try congruence.
Qed.
Lemma isZero_ok x : canon x -> fp_isZero x = Feqb (dec x) F0.
Proof.
  intros H. unfold fp_isZero. apply eq_true_iff_eq. rewrite Z.eqb_eq, Feqb_eq.
  split; [intros ->; reflexivity|]. intros E. apply dec_inj; auto with canon.
Qed.
Lemma equal_ok x y : canon x -> canon y -> fp_equal x y = Feqb (dec x) (dec y).
Proof.
  intros Hx Hy. unfold fp_equal. apply eq_true_iff_eq. rewrite Z.eqb_eq, Feqb_eq.
  split; [intros ->; reflexivity|]. apply dec_inj; auto.
Qed.
Lemma isOne_ok x : canon x -> fp_isOne x = Feqb (dec x) F1.
Proof. intros H. unfold fp_isOne. rewrite equal_ok, dec_R1 by auto with canon. reflexivity. Qed.
Lemma land1_even z : (Z.land z 1 =? 0) = Z.even z.
Proof.
  change 1 with (Z.ones 1). rewrite Z.land_ones by lia. change (2 ^ 1) with 2.
  rewrite Zmod_even. destruct (Z.even z); reflexivity.
Qed.
Lemma even_modW z : Z.even (z mod W) = Z.even z.
Proof.
  rewrite (Z.div_mod z W) at 2 by discriminate. rewrite Z.even_add, Z.even_mul. change (Z.even W) with true. cbn [orb].
  destruct (Z.even (z mod W)); reflexivity.
Qed.
Lemma sign_ok x : canon x -> fp_sign x = Z.even (fval (dec x)).
Proof.
  intros H. unfold fp_sign. rewrite fromMont_ok by (apply canon_R384, H). rewrite land1_even. apply even_modW.
Qed.
Lemma isEven_ok x : fp_isEven x = Z.even x.
Proof. unfold fp_isEven. rewrite land1_even. apply even_modW. Qed.
