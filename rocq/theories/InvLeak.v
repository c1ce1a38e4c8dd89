(** The branches of fp::inverse determine its argument: each branch is an invertible linear step on (u, v). *)
From Coq Require Import ZArith Znumtheory List Lia Bool Ring Compare_dec.
From Verif Require Import SpecField Primes FieldProof ModelWord ModelScalar ModelPrim ModelFp FpProof FpProof2 ModelTower ModelCurve X86 ModelLeak.
Import ListNotations.
Local Open Scope Z_scope.

(** the branches alone *)
Fixpoint inv_ops (fuel : nat) (u v s r k : Z) : list iop :=
  match fuel with
  | O => []
  | S fuel =>
      if fp_isZero v then []
      else if fp_isEven u then IUeven :: inv_ops fuel (fp_div2 u) v (fp_mul2 s) r (k + 1)
      else if fp_isEven v then IVeven :: inv_ops fuel u (fp_div2 v) s (fp_mul2 r) (k + 1)
      else match fp_cmp u v with
           | Gt => IUgt :: inv_ops fuel (fp_div2 (fp_lsub u v)) v (fp_mul2 s) (fp_ladd r s) (k + 1)
           | _ => ILe :: inv_ops fuel u (fp_div2 (fp_lsub v u)) (fp_ladd s r) (fp_mul2 r) (k + 1)
           end
  end.
Lemma tinv_loop_eq fuel : forall u v s r k log,
  tinv_loop fuel u v s r k log = (inv_loop fuel u v s r k, log ++ inv_ops fuel u v s r k).
Proof.
  induction fuel; intros; cbn [tinv_loop inv_loop inv_ops].
  - now rewrite app_nil_r.
  - destruct (fp_isZero v). { now rewrite app_nil_r. }
    destruct (fp_isEven u); [|destruct (fp_isEven v); [|destruct (fp_cmp u v)]]; rewrite IHfuel, <- app_assoc; reflexivity.
Qed.

(** Running backwards from (g, 0) *)
Fixpoint back (l : list iop) : Z * Z :=
  match l with
  | [] => (1, 0)
  | o :: l =>
      let '(a, b) := back l in
      match o with
      | IUeven => (2 * a, b)
      | IVeven => (a, 2 * b)
      | IUgt => (2 * a + b, b)
      | ILe => (a, 2 * b + a)
      end
  end.
Lemma back_pos l : 1 <= fst (back l) /\ 0 <= snd (back l).
Proof. induction l as [|o l IH]; cbn [back]; [cbn; lia|]. destruct (back l) as [a b]; cbn [fst snd] in IH. destruct o; cbn [fst snd]; lia. Qed.
Definition read_inv (l : list iop) : Z := let '(a, b) := back l in MODULUS * b / a.

Lemma inv_ops_back fuel : forall u v s r k o, 0 < u < R384 -> 0 <= v < R384 -> inv_loop fuel u v s r k = Some o ->
  exists g, 0 < g /\ u = g * fst (back (inv_ops fuel u v s r k)) /\ v = g * snd (back (inv_ops fuel u v s r k)).
Proof.
  induction fuel; intros u v s r k o Hu Hv E; cbn [inv_loop inv_ops] in *; [discriminate|].
  unfold fp_isZero in *. destruct (Z.eqb_spec v 0) as [V0|V0].
  { exists u. cbn [back fst snd]. lia. }
  rewrite !isEven_ok in *. destruct (Z.even u) eqn:EU; [|destruct (Z.even v) eqn:EV].
  - apply even_half in EU. unfold fp_div2 in *. set (u' := u / 2) in *. clearbody u'.
    destruct (IHfuel u' v (fp_mul2 s) r (k + 1) o ltac:(lia) ltac:(lia) E) as (g & G & E1 & E2). exists g. cbn [back].
    destruct (back _) as [a b]; cbn [fst snd] in *. split; [lia|]. split; [lia|exact E2].
  - apply even_half in EV. unfold fp_div2 in *. set (v' := v / 2) in *. clearbody v'.
    destruct (IHfuel u v' s (fp_mul2 r) (k + 1) o ltac:(lia) ltac:(lia) E) as (g & G & E1 & E2). exists g. cbn [back].
    destruct (back _) as [a b]; cbn [fst snd] in *. split; [lia|]. split; [exact E1|]. lia.
  - unfold fp_cmp in *. destruct (Z.compare_spec u v) as [C|C|C].
    + subst v. rewrite (lsub_small u u) in * by lia. unfold fp_div2 in *. replace (u - u) with 0 in * by ring. change (0 / 2) with 0 in *.
      pose proof (fun A B => IHfuel _ _ _ _ _ o A B E) as IH. destruct IH as (g & G & E1 & E2); [lia|lia|]. exists g. cbn [back].
      destruct (back _) as [a b]; cbn [fst snd] in *. split; [lia|]. split; [exact E1|]. lia.
    + rewrite (lsub_small v u) in * by lia. unfold fp_div2 in *. pose proof (odd_sub_half v u EV EU) as EH. set (v' := (v - u) / 2) in *. clearbody v'.
      pose proof (fun A B => IHfuel _ _ _ _ _ o A B E) as IH. destruct IH as (g & G & E1 & E2); [lia|lia|]. exists g. cbn [back].
      destruct (back _) as [a b]; cbn [fst snd] in *. split; [lia|]. split; [exact E1|]. lia.
    + rewrite (lsub_small u v) in * by lia. unfold fp_div2 in *. pose proof (odd_sub_half u v EU EV) as EH. set (u' := (u - v) / 2) in *. clearbody u'.
      pose proof (fun A B => IHfuel _ _ _ _ _ o A B E) as IH. destruct IH as (g & G & E1 & E2); [lia|lia|]. exists g. cbn [back].
      destruct (back _) as [a b]; cbn [fst snd] in *. split; [lia|]. split; [lia|exact E2].
Qed.

Lemma tinv_reveals x o : 0 < x < R384 -> fst (tinv x) = Some o -> read_inv (snd (tinv x)) = x.
Proof.
  intros Hx. unfold tinv, fp_isZero. destruct (Z.eqb_spec x 0) as [|_]; [lia|]. rewrite tinv_loop_eq. cbn [fst snd app]. intros E.
  pose proof R_M as RM. pose proof M_pos as MP.
  pose proof (fun A B => inv_ops_back _ _ _ _ _ _ _ A B E) as IH. destruct IH as (g & G & E1 & E2); [lia|lia|].
  unfold read_inv. destruct (back_pos (inv_ops 768 MODULUS x 1 0 0)) as [A B]. destruct (back _) as [a b]. cbn [fst snd] in *.
  rewrite E1, E2. replace (g * a * b) with (g * b * a) by ring. apply Z.div_mul. lia.
Qed.
Lemma tinv_canon x : 0 < x < MODULUS -> exists r k, fst (tinv x) = Some (r, k) /\ inv_loop 768 MODULUS x 1 0 0 = Some (r, k).
Proof.
  intros Hx. destruct (inv_loop_ok x Hx 768 MODULUS x 1 0 0 (kal_init x Hx) eq_refl) as (r & k & c & E & _).
  exists r, k. split; [|exact E]. unfold tinv, fp_isZero. destruct (Z.eqb_spec x 0) as [|_]; [lia|]. rewrite tinv_loop_eq. exact E.
Qed.
Lemma inv_ops_length fuel : forall u v s r k r' k', inv_loop fuel u v s r k = Some (r', k') ->
  k' = k + Z.of_nat (length (inv_ops fuel u v s r k)).
Proof.
  induction fuel; intros u v s r k r' k' E; cbn [inv_loop inv_ops] in *; [discriminate|].
  destruct (fp_isZero v). { injection E as <- <-. cbn. lia. }
  destruct (fp_isEven u); [|destruct (fp_isEven v); [|destruct (fp_cmp u v)]]; apply IHfuel in E; cbn [length]; lia.
Qed.

Lemma back_sum l : fst (back l) + snd (back l) <= 2 ^ Z.of_nat (length l).
Proof.
  induction l as [|o l IH]; [cbn; lia|]. cbn [back length]. rewrite Nat2Z.inj_succ, Z.pow_succ_r by lia.
  pose proof (back_pos l). destruct (back l) as [a b]; cbn [fst snd] in *. destruct o; cbn [fst snd]; lia.
Qed.
Lemma tinv_count x : 0 < x < MODULUS -> (381 <= length (snd (tinv x)) <= 762)%nat.
Proof.
  intros Hx. destruct (inv_loop_ok x Hx 768 MODULUS x 1 0 0 (kal_init x Hx) eq_refl) as (r & k & c & E & _ & Hk & _).
  pose proof (inv_ops_length _ _ _ _ _ _ _ _ E) as L. pose proof R_M as RM.
  pose proof (fun A B => inv_ops_back _ _ _ _ _ _ _ A B E) as IH. destruct IH as (g & G & E1 & E2); [lia|lia|].
  unfold tinv, fp_isZero. destruct (Z.eqb_spec x 0) as [|_]; [lia|]. rewrite tinv_loop_eq. cbn [snd app].
  pose proof (back_sum (inv_ops 768 MODULUS x 1 0 0)) as S. pose proof (back_pos (inv_ops 768 MODULUS x 1 0 0)) as P.
  set (l := inv_ops 768 MODULUS x 1 0 0) in *. clearbody l. clear E.
  assert (DV : (g | MODULUS)) by (exists (fst (back l)); lia).
  destruct (prime_divisors MODULUS ltac:(rewrite M_eq; apply modulus_prime) g DV) as [Hg|[Hg|[Hg|Hg]]]; [lia| |exfalso|lia].
  2: { rewrite Hg in E2. clear - E2 Hx P. destruct (Z.eq_dec (snd (back l)) 0) as [e|e]; [rewrite e in E2; lia|].
       pose proof (Z.mul_le_mono_nonneg_l 1 (snd (back l)) MODULUS ltac:(lia) ltac:(lia)). lia. }
  subst g. split; [|lia].
  destruct (le_lt_dec 381 (length l)) as [|N]; [assumption|exfalso].
  assert (2 ^ Z.of_nat (length l) <= 2 ^ 380) by (apply Z.pow_le_mono_r; lia).
  assert (2 ^ 380 < MODULUS) by (vm_compute; reflexivity). lia.
Qed.

(** affine: from the affine coordinates and z back to the Jacobian ones *)
Definition read_affine (r : g1) (l : list iop) : g1 :=
  match l with
  | [] => r
  | _ => let z := read_inv l in mkJ (fp_mul (jx r) (fp_sqr z)) (fp_mul (jy r) (fp_mul (fp_sqr z) z)) z
  end.
Lemma canon_R1' : canon R1. Proof. split; [discriminate|reflexivity]. Qed.
Lemma tg1_affine_fst p : fst (tg1_affine p) = g1_affine p.
Proof. unfold tg1_affine, g1_affine, g1_isZero, g1_isAffine, j_affine. destruct (_ || _); reflexivity. Qed.
Lemma tg1_affine_reveals p : canon (jx p) -> canon (jy p) -> canon (jz p) ->
  read_affine (fst (tg1_affine p)) (snd (tg1_affine p)) = p.
Proof.
  destruct p as [X Y Z0]. cbn [jx jy jz]. intros CX CY CZ. unfold tg1_affine.
  destruct (g1_isZero _ || g1_isAffine _) eqn:E; [reflexivity|]. cbn [fst snd jz].
  apply orb_false_iff in E as E'. destruct E' as [EZ EO].
  assert (NZ : Z0 <> 0). { intros ->. discriminate EZ. }
  assert (HZ : 0 < Z0 < MODULUS) by (unfold canon in CZ; lia). pose proof R_M as RM.
  destruct (tinv_canon Z0 HZ) as (r & k & T & _). pose proof (tinv_reveals Z0 _ ltac:(lia) T) as RV.
  pose proof (tinv_count Z0 HZ) as N. unfold read_affine. rewrite RV.
  destruct (snd (tinv Z0)) as [|o l]; [cbn in N; lia|]. clear N RV T r k o l.
  unfold g1_affine, j_affine. unfold g1_isZero, g1_isAffine in E. rewrite E. cbn [jx jy jz fp_ops f_inv f_sqr f_mul].
  destruct (fp_inverse_ok Z0 CZ) as [CI DI]. set (i := fp_inverse Z0) in *. clearbody i.
  assert (D : Fmul (dec Z0) (dec i) = F1).
  { rewrite DI. transitivity (Fmul (Finv (dec Z0)) (dec Z0)); [apply (Rmul_comm F_ring)|]. apply Finv_l.
    intros H. apply NZ, dec_inj; auto using canon_0. }
  f_equal; apply dec_inj; auto using canon_mul, canon_sqr;
    rewrite !dec_mul, ?dec_sqr, ?dec_mul by auto using canon_mul, canon_sqr; rewrite ?dec_sqr by auto.
  - transitivity (Fmul (dec X) (Fmul (Fmul (dec Z0) (dec i)) (Fmul (dec Z0) (dec i)))); [ring|]. rewrite D. ring.
  - transitivity (Fmul (dec Y) (Fmul (Fmul (dec Z0) (dec i)) (Fmul (Fmul (dec Z0) (dec i)) (Fmul (dec Z0) (dec i))))); [ring|]. rewrite D. ring.
Qed.
