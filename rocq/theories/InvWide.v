(** Inversion of operands that are not below the modulus: fp::inverse is right for every 384-bit operand.
    Same invariants as FpProof2.kal, without the bound on the operand. *)
From Coq Require Import ZArith Znumtheory List Bool Lia Ring Field.
From Verif Require Import RingPow NumTheory Primes SpecField FieldProof TowerProof ModelWord ModelScalar ModelPrim ModelFp ScalarProof FpProof FpProof2.
Import ListNotations.
Local Open Scope Z_scope.

Record wal (x u v s r k : Z) : Prop := {
  w_sum : u * s + v * r = MODULUS;
  w_u : 0 < u <= MODULUS; w_v : 0 <= v <= x; w_s : 1 <= s; w_r : 0 <= r < 2 * MODULUS;
  w_k : 0 <= k;
  w_xs : exists c, x * s = v * 2 ^ k + MODULUS * c;
  w_xr : exists c, x * r = - u * 2 ^ k + MODULUS * c;
  w_fuel : 2 ^ k * (u * v) <= MODULUS * x;
  w_len : k <= 765 }.
Lemma M_R_bits : MODULUS * R384 < 2 ^ 765. Proof. vm_compute. reflexivity. Qed.
Lemma wal_len x u v k : 0 < x < R384 -> 0 < u -> 0 < v -> 0 <= k -> 2 ^ k * (u * v) <= MODULUS * x -> k <= 764.
Proof.
  intros Hx Hu Hv Hk H. pose proof M_R_bits as B. pose proof M_pos as MP.
  assert (0 < 2 ^ k) by (apply Z.pow_pos_nonneg; lia).
  assert (2 ^ k * 1 <= 2 ^ k * (u * v)) by (apply Z.mul_le_mono_nonneg_l; nia).
  assert (MODULUS * x <= MODULUS * R384) by (apply Z.mul_le_mono_nonneg_l; lia).
  destruct (Z_le_gt_dec k 764); auto.
  pose proof (Z.pow_le_mono_r 2 765 k ltac:(lia) ltac:(lia)). lia.
Qed.

Ltac step_ih IH x :=
  match goal with |- exists r' k' c, inv_loop _ ?u ?v ?s ?r ?k = _ /\ _ =>
    let K := fresh "K" in
    assert (K : wal x u v s r k); [|destruct (IH u v s r k K ltac:(lia)) as (r' & k' & c & E' & B1 & B2 & _ & X);
      exists r', k', c; split; [exact E'|split; [exact B1|split; [lia|split; [lia|exact X]]]]] end.
Lemma inv_loop_wide x : 0 < x < R384 -> ~ (MODULUS | x) -> forall fuel u v s r k,
  wal x u v s r k -> Z.of_nat fuel + k = 768 ->
  exists r' k' c, inv_loop fuel u v s r k = Some (r', k') /\ 0 <= r' < 2 * MODULUS /\ k <= k' <= 765 /\ (0 < v -> k < k') /\
    x * r' = - 2 ^ k' + MODULUS * c.
Proof.
  intros Hx ND. pose proof R_M as RM. pose proof M_pos as MP.
  induction fuel; intros u v s r k K HF; [destruct K; lia|].
  destruct K as [Ksum Ku Kv Ks Kr Kk [c1 Kxs] [c2 Kxr] Kf Kl].
  cbn [inv_loop]. unfold fp_isZero. destruct (Z.eqb_spec v 0) as [V0|V0].
  - exists r, k, c2. subst v. split; [reflexivity|]. split; [lia|]. split; [lia|]. split; [lia|].
    assert (U : u = 1).
    { assert (DU : (u | MODULUS)) by (exists s; lia).
      destruct (prime_divisors MODULUS ltac:(rewrite M_eq; apply modulus_prime) u DU) as [HU|[HU|[HU|HU]]]; [lia|exact HU| |lia].
      exfalso. apply ND. exists c1. rewrite HU in Ksum. assert (s = 1) by nia. subst s. lia. }
    rewrite Kxr, U. ring.
  - assert (V : 0 < v) by lia.
    assert (K764 : k <= 764) by (apply (wal_len x u v k); try lia; exact Kf).
    assert (SB : s <= MODULUS) by nia. assert (RB : r < MODULUS) by nia.
    pose proof (pow2_S k Kk) as P2. assert (PP : 0 < 2 ^ k) by (apply Z.pow_pos_nonneg; lia).
    rewrite !isEven_ok. destruct (Z.even u) eqn:EU; [|destruct (Z.even v) eqn:EV].
    + apply even_half in EU. unfold fp_div2. rewrite mul2_small by lia.
      set (u' := u / 2) in *. clearbody u'. subst u.
      step_ih IHfuel x; constructor; try lia.
      * exists (2 * c1). rewrite P2. lia.
      * exists c2. rewrite P2. lia.
    + apply even_half in EV. unfold fp_div2. rewrite mul2_small by lia.
      set (v' := v / 2) in *. clearbody v'. subst v.
      step_ih IHfuel x; constructor; try lia.
      * exists c1. rewrite P2. lia.
      * exists (2 * c2). rewrite P2. lia.
    + unfold fp_cmp. destruct (Z.compare_spec u v) as [CE|CL|CG].
      * subst v. rewrite lsub_small, ladd_small, mul2_small by lia. unfold fp_div2.
        replace (u - u) with 0 by ring. change (0 / 2) with 0.
        step_ih IHfuel x; constructor; try lia.
        -- exists (c1 + c2). lia.
        -- exists (2 * c2). rewrite P2. lia.
      * rewrite lsub_small, ladd_small, mul2_small by nia. unfold fp_div2.
        pose proof (odd_sub_half v u EV EU) as EH. set (v' := (v - u) / 2) in *. clearbody v'.
        assert (v = u + 2 * v') by lia. subst v. clear EH.
        assert (0 <= 2 ^ k * (u * u)) by (apply Z.mul_nonneg_nonneg; nia).
        step_ih IHfuel x; constructor; try (rewrite ?P2; lia).
        -- exists (c1 + c2). rewrite P2. lia.
        -- exists (2 * c2). rewrite P2. lia.
      * rewrite lsub_small, ladd_small, mul2_small by nia. unfold fp_div2.
        pose proof (odd_sub_half u v EU EV) as EH. set (u' := (u - v) / 2) in *. clearbody u'.
        assert (u = v + 2 * u') by lia. subst u. clear EH.
        assert (0 <= 2 ^ k * (v * v)) by (apply Z.mul_nonneg_nonneg; nia).
        step_ih IHfuel x; constructor; try (rewrite ?P2; lia).
        -- exists (2 * c1). rewrite P2. lia.
        -- exists (c1 + c2). rewrite P2. lia.
Qed.


(** a positive multiple of the modulus: u stays the modulus, r stays 0 *)
Lemma inv_loop_mult fuel : forall c s k, 0 <= c -> c * MODULUS < R384 -> c < 2 ^ (Z.of_nat fuel - 1) -> (1 <= fuel)%nat ->
  exists k', inv_loop fuel MODULUS (c * MODULUS) s 0 k = Some (0, k') /\ k <= k' <= k + Z.of_nat fuel /\ (0 < c -> k < k').
Proof.
  pose proof R_M as RM. pose proof M_pos as MP. assert (OM : Z.even MODULUS = false) by reflexivity.
  induction fuel; intros c s k Hc HR HF H1; [lia|]. cbn [inv_loop]. unfold fp_isZero.
  destruct (Z.eqb_spec (c * MODULUS) 0) as [C0|C0]. { exists k. split; [reflexivity|]. lia. }
  assert (0 < c) by nia. rewrite !isEven_ok, OM. destruct fuel as [|fuel]; [cbn in HF; lia|].
  assert (P : 2 ^ (Z.of_nat (S (S fuel)) - 1) = 2 * 2 ^ (Z.of_nat (S fuel) - 1)).
  { rewrite <- Z.pow_succ_r by lia. f_equal. lia. }
  destruct (Z.even (c * MODULUS)) eqn:EV.
  - rewrite Z.even_mul, OM, orb_false_r in EV. apply even_half in EV. unfold fp_div2.
    replace (c * MODULUS / 2) with (c / 2 * MODULUS) by (rewrite EV at 2; replace (2 * (c / 2) * MODULUS) with (c / 2 * MODULUS * 2) by ring; rewrite Z.div_mul; lia).
    rewrite mul2_small by lia. change (2 * 0) with 0. set (h := c / 2) in *. clearbody h.
    destruct (IHfuel h s (k + 1)) as (k' & E & K1 & K2); [lia|nia|lia|lia|]. exists k'. split; [exact E|]. lia.
  - rewrite Z.even_mul, OM, orb_false_r in EV. unfold fp_cmp. pose proof (odd_sub_half c 1 EV eq_refl) as EH.
    assert (HD : (c * MODULUS - MODULUS) / 2 = (c - 1) / 2 * MODULUS).
    { replace (c * MODULUS - MODULUS) with ((c - 1) * MODULUS) by ring. rewrite EH at 1. replace (2 * ((c - 1) / 2) * MODULUS) with ((c - 1) / 2 * MODULUS * 2) by ring. apply Z.div_mul. lia. }
    destruct (Z.compare_spec MODULUS (c * MODULUS)) as [CE|CL|CG]; [| |nia];
      rewrite (lsub_small (c * MODULUS) MODULUS), mul2_small by nia; unfold fp_div2; rewrite HD; change (2 * 0) with 0;
      set (h := (c - 1) / 2) in *; clearbody h;
      (destruct (IHfuel h (fp_ladd s 0) (k + 1)) as (k' & E & K1 & K2); [lia|nia|lia|lia|]; exists k'; split; [exact E|]; lia).
Qed.
Lemma Fof_M0 c : Fof (c * MODULUS) = F0.
Proof. apply fval_inj. unfold F0. rewrite !fval_Fof. rewrite M_eq, Z.mod_mul by (rewrite <- M_eq; pose proof M_pos; lia). reflexivity. Qed.
Lemma fp_mul_zero_l y : 0 <= y < R384 -> fp_mul 0 y = 0.
Proof.
  intros Hy. pose proof R_M. pose proof M_pos. destruct (fp_mul_ok 0 y) as [C D]; [rewrite Z.mul_0_l; split; [lia|apply Z.mul_pos_pos; lia]|].
  apply dec_inj; [exact C|exact canon_0|]. rewrite D. change (dec 0) with F0. ring.
Qed.
Lemma fp_mul_zero M0 y : M0 = MODULUS -> 0 <= y < R384 -> fp_mul M0 y = 0.
Proof.
  intros -> Hy. pose proof R_M. pose proof M_pos. destruct (fp_mul_ok MODULUS y) as [C D]; [nia|].
  apply dec_inj; [exact C|exact canon_0|]. rewrite D. change (dec 0) with F0. unfold dec at 1. rewrite Z.mul_comm, Fof_M0. ring.
Qed.
Lemma wal_init x : 0 < x < R384 -> wal x MODULUS x 1 0 0.
Proof.
  intros Hx. pose proof M_pos. constructor; try lia.
  - exists 0. ring.
  - exists 1. change (2 ^ 0) with 1. ring.
Qed.
Lemma Fof_RINV_0 x : dec x = F0 -> (MODULUS | x).
Proof.
  intros D. assert (E : Fof x = F0).
  { transitivity (Fmul (Fof x) (Fmul (Fof R384) (Fof RINV))); [rewrite FofR; ring|].
    transitivity (Fmul (Fof R384) (dec x)); [unfold dec; rewrite Fof_mul; ring|]. rewrite D. ring. }
  apply (f_equal fval) in E. unfold F0 in E. rewrite !fval_Fof, Zmod_0_l in E. rewrite M_eq. apply Z.mod_divide; [discriminate|exact E].
Qed.
Lemma fp_inverse_opt_wide x : 0 <= x < R384 ->
  exists y, fp_inverse_opt x = Some y /\ canon y /\ dec y = Finv (dec x).
Proof.
  intros Hx. destruct (Zdivide_dec MODULUS x) as [[c Hc]|ND].
  { assert (Z0 : fp_inverse_opt x = Some 0).
    2: { exists 0. split; [exact Z0|]. split; [exact canon_0|]. unfold dec at 2. subst x.
         replace (c * MODULUS * RINV) with (c * RINV * MODULUS) by ring. rewrite Fof_M0. apply fval_inj. vm_compute. reflexivity. }
    unfold fp_inverse_opt, fp_isZero. destruct (Z.eqb_spec x 0) as [->|NZ]; [reflexivity|].
    pose proof M_pos as MP. pose proof R_M as RM. subst x.
    destruct (inv_loop_mult 768 c 1 0) as (k & E & K1 & K2); [nia|lia| |lia|].
    { apply Z.lt_trans with R384; [nia|]. vm_compute. reflexivity. }
    rewrite E. clear E. unfold fp_cmp. destruct (Z.compare_spec 0 MODULUS); [lia| |lia]. rewrite lsub_small by lia. rewrite Z.sub_0_r.
    assert (RB : 0 <= R2 < R384) by (vm_compute; split; congruence).
    assert (PB : forall e, 0 <= e < 384 -> 0 <= 2 ^ e < R384).
    { intros e He. split; [apply Z.pow_nonneg; lia|]. rewrite R384_pow. apply Z.pow_lt_mono_r; lia. }
    destruct (Z.leb_spec k 384).
    - rewrite (fp_mul_zero MODULUS R2 eq_refl RB), (fp_mul_zero_l R2 RB). destruct (Z.ltb_spec 768 (k + 384)); [reflexivity|].
      destruct (Z.ltb_spec (768 - (k + 384)) 384); [|nia]. rewrite fp_mul_zero_l; [reflexivity|]. apply PB. lia.
    - rewrite (fp_mul_zero MODULUS R2 eq_refl RB). destruct (Z.ltb_spec 768 k); [reflexivity|].
      destruct (Z.ltb_spec (768 - k) 384); [|lia]. rewrite fp_mul_zero_l; [reflexivity|]. apply PB. lia. }
  unfold fp_inverse_opt, fp_isZero. destruct (Z.eqb_spec x 0) as [->|NZ].
  { exfalso. apply ND. exists 0. reflexivity. }
  pose proof M_pos as MP. pose proof R_M as RM.
  assert (NX : dec x <> F0).
  { intros D0. apply ND. apply Fof_RINV_0. exact D0. }
  destruct (inv_loop_wide x ltac:(lia) ND 768 MODULUS x 1 0 0 (wal_init x ltac:(lia)) ltac:(lia))
    as (r & k & c & E & Hr & Hk & Hk0 & Er). specialize (Hk0 ltac:(lia)).
  rewrite E. clear E.
  set (r1 := match fp_cmp r MODULUS with Lt => r | _ => fp_lsub r MODULUS end).
  assert (R1' : 0 <= r1 < MODULUS /\ exists c, x * r1 = - 2 ^ k + MODULUS * c).
  { unfold r1, fp_cmp. destruct (Z.compare_spec r MODULUS).
    - rewrite lsub_small by lia. split; [lia|]. exists (c - x). rewrite Z.mul_sub_distr_l, Er. ring.
    - split; [lia|]. exists c. exact Er.
    - rewrite lsub_small by lia. split; [lia|]. exists (c - x). rewrite Z.mul_sub_distr_l, Er. ring. }
  clearbody r1. destruct R1' as [B1 [c1 E1]]. clear Er Hr c r.
  assert (R0 : r1 <> 0).
  { intros ->. apply (Fof_pow2_nz k ltac:(lia)). rewrite Z.mul_0_r in E1.
    replace (2 ^ k) with (MODULUS * c1) by lia. apply Fof_M. }
  rewrite lsub_small by lia. set (u := MODULUS - r1).
  assert (Cu : canon u) by (unfold canon, u; lia).
  assert (Eu : Fmul (Fof x) (Fof u) = Fof (2 ^ k)).
  { rewrite <- Fof_mul. unfold u. replace (x * (MODULUS - r1)) with (2 ^ k + MODULUS * (x - c1)) by lia. apply Fof_addM. }
  clearbody u. clear E1 B1 c1 R0 r1.
  (* in decoded form: dec x * dec u = 2^k * RINV^2 *)
  assert (Du : Fmul (dec x) (dec u) = Fmul (Fof (2 ^ k)) (Fmul (Fof RINV) (Fof RINV))).
  { unfold dec. rewrite !Fof_mul, <- Eu. ring. }
  clear Eu.
  assert (A : exists u1 k1, (if k <=? 384 then (fp_mul u R2, k + 384) else (u, k)) = (u1, k1) /\
     384 < k1 <= 768 /\ canon u1 /\ Fmul (dec x) (dec u1) = Fmul (Fof (2 ^ k1)) (Fmul (Fof RINV) (Fof RINV))).
  { destruct (Z.leb_spec k 384).
    - exists (fp_mul u R2), (k + 384). split; [reflexivity|]. split; [lia|]. split; [auto with canon|].
      rewrite dec_mul, dec_R2 by auto with canon.
      rewrite Z.pow_add_r, Fof_mul, <- R384_pow by lia.
      transitivity (Fmul (Fmul (dec x) (dec u)) (Fof R384)); [ring|]. rewrite Du. ring.
    - exists u, k. split; [reflexivity|]. split; [lia|]. split; [exact Cu|exact Du]. }
  destruct A as (u1 & k1 & EA & Hk1 & Cu1 & Du1). rewrite EA. clear EA.
  destruct (Z.ltb_spec 768 k1); [lia|]. destruct (Z.ltb_spec (768 - k1) 384); [|lia].
  assert (CM : canon (fp_mul u1 R2)) by auto with canon.
  assert (PB : 0 <= 2 ^ (768 - k1) < R384).
  { split; [apply Z.pow_nonneg; lia|]. rewrite R384_pow. apply Z.pow_lt_mono_r; lia. }
  destruct (fp_mul_ok (fp_mul u1 R2) (2 ^ (768 - k1))) as [CR DR].
  { unfold canon in CM. nia. }
  eexists. split; [reflexivity|]. split; [exact CR|]. rewrite DR, dec_mul, dec_R2 by auto with canon.
  
  transitivity (Fmul (Finv (dec x)) (Fmul (Fmul (dec x) (dec u1)) (Fmul (Fof R384) (dec (2 ^ (768 - k1)))))); [field; auto|].
  rewrite Du1. unfold dec at 2. rewrite Fof_mul.
  transitivity (Fmul (Fmul (Finv (dec x)) (Fmul (Fof (2 ^ k1)) (Fof (2 ^ (768 - k1)))))
     (Fmul (Fof R384) (Fmul (Fof RINV) (Fmul (Fof RINV) (Fof RINV))))); [ring|].
  rewrite <- Fof_mul, <- Z.pow_add_r by lia. replace (k1 + (768 - k1)) with (384 + 384) by ring.
  rewrite Z.pow_add_r, <- R384_pow, Fof_mul by lia.
  transitivity (Fmul (Finv (dec x)) (Fmul (Fmul (Fof R384) (Fof RINV)) (Fmul (Fmul (Fof R384) (Fof RINV)) (Fmul (Fof R384) (Fof RINV))))); [ring|].
  rewrite FofR. ring.
Qed.
Lemma inv_loop_total x : 0 < x < R384 -> exists r k, inv_loop 768 MODULUS x 1 0 0 = Some (r, k) /\ 0 < k <= 768.
Proof.
  intros Hx. pose proof M_pos as MP. destruct (Zdivide_dec MODULUS x) as [[c Hc]|ND].
  - destruct (inv_loop_mult 768 c 1 0) as (k & E & K1 & K2); [nia|lia| |lia|].
    { apply Z.lt_trans with R384; [nia|]. vm_compute. reflexivity. }
    subst x. exists 0, k. split; [exact E|]. nia.
  - destruct (inv_loop_wide x Hx ND 768 MODULUS x 1 0 0 (wal_init x Hx) eq_refl) as (r & k & c & E & _ & K1 & K2 & _).
    exists r, k. split; [exact E|]. lia.
Qed.
