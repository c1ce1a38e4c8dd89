(** Class fp: exponentiation, square roots, sign, inversion. *)
From Coq Require Import ZArith Znumtheory List Bool Lia Ring Field.
From Verif Require Import RingPow NumTheory Primes SpecField FieldProof TowerProof ModelWord ModelScalar ModelFp ScalarProof FpProof.
Import ListNotations.
Local Open Scope Z_scope.
Add Field Fp_fieldFP2 : F_field.

(** ** exp *)
Lemma fp_exp_ok x s : canon x -> words s -> canon (fp_exp x s) /\ dec (fp_exp x s) = Fpow (dec x) (val s).
Proof.
  intros Hx Hs. unfold fp_exp.
  apply (gexp_ok _ fp_sqr fp_mul fp_one (fun e z => canon z /\ dec z = Fpow (dec x) e) x); auto.
  - intros e z He [C E]. split; [auto with canon|]. rewrite dec_sqr, E by auto.
    rewrite <- (rpow_add F_ring) by lia. f_equal. lia.
  - intros e z He [C E]. split; [auto with canon|]. rewrite dec_mul, E by auto.
    rewrite (rpow_succ F_ring) by lia. ring.
  - split; [apply canon_R1|apply dec_R1].
Qed.

(** ** sqrt *)
Lemma limbs6 v : 0 <= v < MODULUS -> words (limbs_of 6 v) /\ val (limbs_of 6 v) = v.
Proof.
  intros H. split; [apply limbs_of_words|]. apply limbs_of_small.
  pose proof R_M. change (W ^ Z.of_nat 6) with R384. lia.
Qed.
Lemma fp_sqrt_ok x : canon x ->
  canon (snd (fp_sqrt x)) /\
  (fst (fp_sqrt x) = true <-> Fsquare (dec x)) /\
  (fst (fp_sqrt x) = true -> Fmul (dec (snd (fp_sqrt x))) (dec (snd (fp_sqrt x))) = dec x).
Proof.
  intros Hx. unfold fp_sqrt. cbn [fst snd].
  destruct (limbs6 pPlus1Over4) as [Wl Vl]; [split; [discriminate|reflexivity]|].
  destruct (fp_exp_ok x _ Hx Wl) as [C E]. rewrite Vl in E.
  set (c := fp_exp x (limbs_of 6 pPlus1Over4)) in *. clearbody c.
  assert (K : fp_equal x (fp_sqr c) = true <-> Fmul (dec c) (dec c) = dec x).
  { rewrite equal_ok, dec_sqr, Feqb_eq by auto with canon. intuition. }
  split; [exact C|]. split; [|intros; apply K; auto].
  rewrite K. split; [intros H; exists (dec c); exact H|].
  intros Hs. rewrite E, pPlus1Over4_eq.
  destruct (F_eq_dec (dec x) F0) as [Z0|NZ].
  - rewrite Z0, (rpow_zero F_ring) by reflexivity. ring.
  - apply F_sqrt_formula. apply Fsquare_euler; auto.
Qed.
Lemma fp_isQNR_ok x : canon x -> (fp_isQNR x = true <-> dec x = F0 \/ ~ Fsquare (dec x)).
Proof.
  intros Hx. unfold fp_isQNR.
  destruct (limbs6 pMinus1Over2) as [Wl Vl]; [split; [discriminate|reflexivity]|].
  destruct (fp_exp_ok x _ Hx Wl) as [C E]. rewrite Vl in E.
  rewrite isOne_ok, E, pMinus1Over2_eq by auto. rewrite negb_true_iff.
  destruct (F_eq_dec (dec x) F0) as [Z0|NZ].
  - rewrite Z0, (rpow_zero F_ring) by reflexivity. split; [auto|].
    intros _. apply not_true_is_false. rewrite Feqb_eq. intros H. symmetry in H. apply F1_neq_F0, H.
  - rewrite <- not_true_iff_false, Feqb_eq, <- Fsquare_euler by auto. intuition.
Qed.

(** ** isLexicographicallyLargest *)
Lemma Sub64_ok a c b : word a -> word c -> b = 0 \/ b = 1 -> ~ (c = W - 1 /\ b = 1) ->
  snd (Sub64 a c b) = if a - c - b <? 0 then 1 else 0.
Proof.
  unfold word. intros Ha Hc Hb N. unfold Sub64. cbn [snd].
  rewrite Zminus_mod_idemp_l.
  destruct (Z.ltb_spec (a - c - b) 0) as [L|L].
  - rewrite <- (Z.mod_unique (a - c - b) W (-1) (a - c - b + W)) by (try left; lia).
    destruct (Z.ltb_spec a (a - c - b + W)); lia.
  - rewrite Z.mod_small by lia. destruct (Z.ltb_spec a (a - c - b)); lia.
Qed.
Lemma sub_borrow_ok y : forall h b, words y -> words h -> length y = length h -> b = 0 \/ b = 1 ->
  Forall (fun c => c <> W - 1) h ->
  sub_borrow y h b = if val y - val h - b <? 0 then 1 else 0.
Proof.
  induction y as [|a y IH]; intros [|c h] b Hy Hh L Hb N; try discriminate.
  - cbn. destruct Hb as [->| ->]; reflexivity.
  - inversion Hy; inversion Hh; inversion N; subst. cbn [sub_borrow].
    rewrite Sub64_ok by (auto; tauto). cbn [length] in L.
    rewrite IH; auto; [|destruct (a - c - b <? 0); auto].
    cbn [val]. unfold word in *.
    destruct (Z.ltb_spec (a - c - b) 0), (Z.ltb_spec (a + W * val y - (c + W * val h) - b) 0);
    match goal with |- (if ?x <? 0 then _ else _) = _ => destruct (Z.ltb_spec x 0) end;
    try reflexivity; exfalso; unfold W in *; nia.
Qed.
Lemma halfQ_val : val halfQ = half_pm1 + 1. Proof. reflexivity. Qed.
Lemma isLexLargest_ok x : canon x -> fp_isLexLargest x = (half_pm1 <? fval (dec x)).
Proof.
  intros Hx. unfold fp_isLexLargest. rewrite fromMont_ok by (apply canon_R384, Hx).
  pose proof (fval_range (dec x)) as B. rewrite <- M_eq in B.
  destruct (limbs6 (fval (dec x)) B) as [Wl Vl].
  rewrite sub_borrow_ok, Vl, halfQ_val; auto.
  - generalize half_pm1. intros h.
    destruct (Z.ltb_spec (fval (dec x) - (h + 1) - 0) 0), (Z.ltb_spec h (fval (dec x))); cbn; try reflexivity; lia.
  - repeat constructor; discriminate.
  - repeat constructor; discriminate.
Qed.
(** exactly one of y, -y is largest, for y <> 0 *)
Lemma lex_opp a : a <> F0 -> (half_pm1 <? fval (Fopp a)) = negb (half_pm1 <? fval a).
Proof.
  intros N. unfold Fopp. rewrite fval_Fof. pose proof (fval_range a) as B.
  assert (fval a <> 0). { intros E. apply N, fval_inj. rewrite E. reflexivity. }
  rewrite <- (Z.mod_unique (- fval a) modulus (-1) (modulus - fval a)) by (try left; lia).
  pose proof half_pm1_eq. generalize dependent half_pm1. intros h Hh.
  destruct (Z.ltb_spec h (modulus - fval a)), (Z.ltb_spec h (fval a)); cbn; try reflexivity; lia.
Qed.
Lemma even_opp a : a <> F0 -> Z.even (fval (Fopp a)) = negb (Z.even (fval a)).
Proof.
  intros N. unfold Fopp. rewrite fval_Fof. pose proof (fval_range a) as B.
  assert (fval a <> 0). { intros E. apply N, fval_inj. rewrite E. reflexivity. }
  rewrite <- (Z.mod_unique (- fval a) modulus (-1) (modulus - fval a)) by (try left; lia).
  rewrite Z.even_sub. change (Z.even modulus) with false. destruct (Z.even (fval a)); reflexivity.
Qed.

(** ** Inversion *)
Record kal (x u v s r k : Z) : Prop := {
  k_sum : u * s + v * r = MODULUS;
  k_u : 0 < u <= MODULUS; k_v : 0 <= v <= x; k_s : 1 <= s; k_r : 0 <= r < 2 * MODULUS;
  k_k : 0 <= k;
  k_xs : exists c, x * s = v * 2 ^ k + MODULUS * c;
  k_xr : exists c, x * r = - u * 2 ^ k + MODULUS * c;
  k_end : v = 0 -> u < MODULUS;
  k_fuel : 2 ^ k * (u * v) <= MODULUS * x;
  k_len : k <= 762 }.

Lemma M_sq_bits : MODULUS * MODULUS < 2 ^ 762. Proof. vm_compute. reflexivity. Qed.
Lemma kal_len x u v k : 0 < x < MODULUS -> 0 < u -> 0 < v -> 0 <= k -> 2 ^ k * (u * v) <= MODULUS * x -> k <= 761.
Proof.
  intros Hx Hu Hv Hk H. pose proof M_sq_bits.
  assert (0 < 2 ^ k) by (apply Z.pow_pos_nonneg; lia).
  assert (2 ^ k * 1 <= 2 ^ k * (u * v)) by (apply Z.mul_le_mono_nonneg_l; nia).
  assert (2 ^ k <= MODULUS * MODULUS) by nia.
  destruct (Z_le_gt_dec k 761); auto.
  pose proof (Z.pow_le_mono_r 2 762 k ltac:(lia) ltac:(lia)). lia.
Qed.
Lemma ladd_small a b : 0 <= a + b < R384 -> fp_ladd a b = a + b.
Proof. apply Z.mod_small. Qed.
Lemma lsub_small a b : 0 <= a - b < R384 -> fp_lsub a b = a - b.
Proof. apply Z.mod_small. Qed.
Lemma mul2_small a : 0 <= 2 * a < R384 -> fp_mul2 a = 2 * a.
Proof. apply Z.mod_small. Qed.
Lemma even_half a : Z.even a = true -> a = 2 * (a / 2).
Proof. intros H. apply Zeven_bool_iff, Zeven_div2 in H. rewrite Z.div2_div in H. exact H. Qed.
Lemma odd_sub_half a b : Z.even a = false -> Z.even b = false -> a - b = 2 * ((a - b) / 2).
Proof. intros Ha Hb. apply even_half. rewrite Z.even_sub, Ha, Hb. reflexivity. Qed.
Lemma pow2_S k : 0 <= k -> 2 ^ (k + 1) = 2 * 2 ^ k.
Proof. intros. rewrite Z.add_1_r, Z.pow_succ_r by lia. reflexivity. Qed.

Ltac step_ih IH x :=
  match goal with |- exists r' k' c, inv_loop _ ?u ?v ?s ?r ?k = _ /\ _ =>
    let K := fresh "K" in
    assert (K : kal x u v s r k); [|destruct (IH u v s r k K ltac:(lia)) as (r' & k' & c & E' & B1 & B2 & _ & X);
      exists r', k', c; split; [exact E'|split; [exact B1|split; [lia|split; [lia|exact X]]]]] end.
Lemma inv_loop_ok x : 0 < x < MODULUS -> forall fuel u v s r k,
  kal x u v s r k -> Z.of_nat fuel + k = 768 ->
  exists r' k' c, inv_loop fuel u v s r k = Some (r', k') /\ 0 <= r' < 2 * MODULUS /\ k <= k' <= 762 /\ (0 < v -> k < k') /\
    x * r' = - 2 ^ k' + MODULUS * c.
Proof.
  intros Hx. pose proof R_M as RM. pose proof M_pos as MP.
  induction fuel; intros u v s r k K HF; [destruct K; lia|].
  destruct K as [Ksum Ku Kv Ks Kr Kk [c1 Kxs] [c2 Kxr] Kend Kf Kl].
  cbn [inv_loop]. unfold fp_isZero. destruct (Z.eqb_spec v 0) as [V0|V0].
  - exists r, k, c2. subst v. split; [reflexivity|]. split; [lia|]. split; [lia|]. split; [lia|].
    specialize (Kend eq_refl). assert (U : u = 1).
    { destruct (prime_divisors MODULUS ltac:(rewrite M_eq; apply modulus_prime) u) as [|[|[|]]]; try lia.
      exists s. lia. }
    rewrite Kxr, U. ring.
  - assert (V : 0 < v) by lia.
    assert (K761 : k <= 761) by (apply (kal_len x u v k); try lia; exact Kf).
    assert (SB : s <= MODULUS) by nia. assert (RB : r < MODULUS) by nia.
    pose proof (pow2_S k Kk) as P2. assert (PP : 0 < 2 ^ k) by (apply Z.pow_pos_nonneg; lia).
    rewrite !isEven_ok. destruct (Z.even u) eqn:EU; [|destruct (Z.even v) eqn:EV].
    + apply even_half in EU. unfold fp_div2. rewrite mul2_small by lia.
      set (u' := u / 2) in *. clearbody u'. subst u.
      step_ih IHfuel x; constructor; try lia.
      * exists (2 * c1). rewrite P2. lia.
      * exists c2. rewrite P2. lia.
    + apply even_half in EV. unfold fp_div2. rewrite mul2_small by lia.
      set (v' := v / 2) in *. clearbody v'. subst v.
      step_ih IHfuel x; constructor; try lia.
      * exists c1. rewrite P2. lia.
      * exists (2 * c2). rewrite P2. lia.
    + unfold fp_cmp. destruct (Z.compare_spec u v) as [CE|CL|CG].
      * subst v. rewrite lsub_small, ladd_small, mul2_small by lia. unfold fp_div2.
        replace (u - u) with 0 by ring. change (0 / 2) with 0.
        step_ih IHfuel x; constructor; try lia.
        -- exists (c1 + c2). lia.
        -- exists (2 * c2). rewrite P2. lia.
      * rewrite lsub_small, ladd_small, mul2_small by nia. unfold fp_div2.
        pose proof (odd_sub_half v u EV EU) as EH. set (v' := (v - u) / 2) in *. clearbody v'.
        assert (v = u + 2 * v') by lia. subst v. clear EH.
        assert (0 <= 2 ^ k * (u * u)) by (apply Z.mul_nonneg_nonneg; nia).
        step_ih IHfuel x; constructor; try (rewrite ?P2; lia).
        -- exists (c1 + c2). rewrite P2. lia.
        -- exists (2 * c2). rewrite P2. lia.
      * rewrite lsub_small, ladd_small, mul2_small by nia. unfold fp_div2.
        pose proof (odd_sub_half u v EU EV) as EH. set (u' := (u - v) / 2) in *. clearbody u'.
        assert (u = v + 2 * u') by lia. subst u. clear EH.
        assert (0 <= 2 ^ k * (v * v)) by (apply Z.mul_nonneg_nonneg; nia).
        step_ih IHfuel x; constructor; try (rewrite ?P2; lia).
        -- exists (2 * c1). rewrite P2. lia.
        -- exists (c1 + c2). rewrite P2. lia.
Qed.

Lemma Fof_pow2_nz k : 0 <= k -> Fof (2 ^ k) <> F0.
Proof.
  intros Hk. rewrite <- (Fpow_Fof 2 k Hk). apply Fpow_nz. intros H. apply Fof_eq in H. discriminate H.
Qed.
Lemma R384_pow : R384 = 2 ^ 384. Proof. reflexivity. Qed.
Lemma kal_init x : 0 < x < MODULUS -> kal x MODULUS x 1 0 0.
Proof.
  intros Hx. pose proof M_pos. constructor; try lia.
  - exists 0. ring.
  - exists 1. change (2 ^ 0) with 1. ring.
Qed.

Lemma fp_inverse_opt_ok x : canon x ->
  exists y, fp_inverse_opt x = Some y /\ canon y /\ dec y = Finv (dec x).
Proof.
  intros Hx. unfold fp_inverse_opt, fp_isZero. destruct (Z.eqb_spec x 0) as [->|NZ].
  { exists 0. split; [reflexivity|]. split; [apply canon_0|].
    apply fval_inj. vm_compute. reflexivity. }
  pose proof Hx as Hx'. unfold canon in Hx'. pose proof M_pos as MP. pose proof R_M as RM.
  destruct (inv_loop_ok x ltac:(lia) 768 MODULUS x 1 0 0 (kal_init x ltac:(lia)) ltac:(lia))
    as (r & k & c & E & Hr & Hk & Hk0 & Er). specialize (Hk0 ltac:(lia)).
  rewrite E. clear E.
  set (r1 := match fp_cmp r MODULUS with Lt => r | _ => fp_lsub r MODULUS end).
  assert (R1' : 0 <= r1 < MODULUS /\ exists c, x * r1 = - 2 ^ k + MODULUS * c).
  { unfold r1, fp_cmp. destruct (Z.compare_spec r MODULUS).
    - rewrite lsub_small by lia. split; [lia|]. exists (c - x). rewrite Z.mul_sub_distr_l, Er. ring.
    - split; [lia|]. exists c. exact Er.
    - rewrite lsub_small by lia. split; [lia|]. exists (c - x). rewrite Z.mul_sub_distr_l, Er. ring. }
  clearbody r1. destruct R1' as [B1 [c1 E1]]. clear Er Hr c r.
  assert (R0 : r1 <> 0).
  { intros ->. apply (Fof_pow2_nz k ltac:(lia)). rewrite Z.mul_0_r in E1.
    replace (2 ^ k) with (MODULUS * c1) by lia. apply Fof_M. }
  rewrite lsub_small by lia. set (u := MODULUS - r1).
  assert (Cu : canon u) by (unfold canon, u; lia).
  assert (Eu : Fmul (Fof x) (Fof u) = Fof (2 ^ k)).
  { rewrite <- Fof_mul. unfold u. replace (x * (MODULUS - r1)) with (2 ^ k + MODULUS * (x - c1)) by lia. apply Fof_addM. }
  clearbody u. clear E1 B1 c1 R0 r1.
  (* in decoded form: dec x * dec u = 2^k * RINV^2 *)
  assert (Du : Fmul (dec x) (dec u) = Fmul (Fof (2 ^ k)) (Fmul (Fof RINV) (Fof RINV))).
  { unfold dec. rewrite !Fof_mul, <- Eu. ring. }
  clear Eu.
  assert (A : exists u1 k1, (if k <=? 384 then (fp_mul u R2, k + 384) else (u, k)) = (u1, k1) /\
     384 < k1 <= 768 /\ canon u1 /\ Fmul (dec x) (dec u1) = Fmul (Fof (2 ^ k1)) (Fmul (Fof RINV) (Fof RINV))).
  { destruct (Z.leb_spec k 384).
    - exists (fp_mul u R2), (k + 384). split; [reflexivity|]. split; [lia|]. split; [auto with canon|].
      rewrite dec_mul, dec_R2 by auto with canon.
      rewrite Z.pow_add_r, Fof_mul, <- R384_pow by lia.
      transitivity (Fmul (Fmul (dec x) (dec u)) (Fof R384)); [ring|]. rewrite Du. ring.
    - exists u, k. split; [reflexivity|]. split; [lia|]. split; [exact Cu|exact Du]. }
  destruct A as (u1 & k1 & EA & Hk1 & Cu1 & Du1). rewrite EA. clear EA.
  destruct (Z.ltb_spec 768 k1); [lia|]. destruct (Z.ltb_spec (768 - k1) 384); [|lia].
  assert (CM : canon (fp_mul u1 R2)) by auto with canon.
  assert (PB : 0 <= 2 ^ (768 - k1) < R384).
  { split; [apply Z.pow_nonneg; lia|]. rewrite R384_pow. apply Z.pow_lt_mono_r; lia. }
  destruct (fp_mul_ok (fp_mul u1 R2) (2 ^ (768 - k1))) as [CR DR].
  { unfold canon in CM. nia. }
  eexists. split; [reflexivity|]. split; [exact CR|]. rewrite DR, dec_mul, dec_R2 by auto with canon.
  assert (NX : dec x <> F0). { intros D0. apply NZ, dec_inj; auto with canon. }
  transitivity (Fmul (Finv (dec x)) (Fmul (Fmul (dec x) (dec u1)) (Fmul (Fof R384) (dec (2 ^ (768 - k1)))))); [field; auto|].
  rewrite Du1. unfold dec at 2. rewrite Fof_mul.
  transitivity (Fmul (Fmul (Finv (dec x)) (Fmul (Fof (2 ^ k1)) (Fof (2 ^ (768 - k1)))))
     (Fmul (Fof R384) (Fmul (Fof RINV) (Fmul (Fof RINV) (Fof RINV))))); [ring|].
  rewrite <- Fof_mul, <- Z.pow_add_r by lia. replace (k1 + (768 - k1)) with (384 + 384) by ring.
  rewrite Z.pow_add_r, <- R384_pow, Fof_mul by lia.
  transitivity (Fmul (Finv (dec x)) (Fmul (Fmul (Fof R384) (Fof RINV)) (Fmul (Fmul (Fof R384) (Fof RINV)) (Fmul (Fof R384) (Fof RINV))))); [ring|].
  rewrite FofR. ring.
Qed.
Lemma fp_inverse_ok x : canon x -> canon (fp_inverse x) /\ dec (fp_inverse x) = Finv (dec x).
Proof. intros H. unfold fp_inverse. destruct (fp_inverse_opt_ok x H) as (y & -> & C & E). auto. Qed.
Lemma canon_inverse x : canon x -> canon (fp_inverse x). Proof. intros. apply fp_inverse_ok; auto. Qed.
Lemma dec_inverse x : canon x -> dec (fp_inverse x) = Finv (dec x). Proof. intros. apply fp_inverse_ok; auto. Qed.
#[global] Hint Resolve canon_inverse : canon.
#[global] Hint Rewrite dec_inverse using (auto 20 with canon) : dec.
