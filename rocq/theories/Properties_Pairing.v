(** C44-C46: the pairing.  Specification in SpecPairing: ate P Q, the (cube of the) reduced ate pairing as a Miller function.
    rep1g p P, rep2g q Q: the g1 (g2) value p (q) denotes the curve point P of E(Fp) (Q of E'(Fp2));
    rep12 f a: f is a reduced fp12 value denoting a in Fp12. *)
From Coq Require Import ZArith Znumtheory List Bool Lia Permutation.
From Verif Require Import SpecField SpecCurve SpecPairing.
From Verif Require Import ModelWord ModelScalar ModelFp ModelTower ModelCurve ModelKeys ModelPairing ScalarProof.
From Verif Require Import FieldProof TowerProof TowerProof2 RingPow FpProof FpProof2 TowerRefine TowerRefine2 TowerRefine3.
From Verif Require Import AbGroup CurveProof CurveRefine CurveRefine2 CurveInst CurveReps CurveBase GenProof Orders Cofactor.
From Verif Require Import PairUnits PairBilin PairFinal PairLoop PairComp PairSpec.
Import ListNotations.
Local Open Scope Z_scope.

(** the list built by add_pair from the pairs of l, one after the other *)
Definition built (l : list (g1 * g2)) : list (g1 * g2) := fold_left (fun ps pq => add_pair ps (fst pq) (snd pq)) l [].
(** l denotes the list of point pairs M; the points of G2 have order dividing r (those of G1 are arbitrary curve points) *)
Definition denotes (l : list (g1 * g2)) (M : list (E1 * E2)) : Prop :=
  Forall2 (fun pq PQ => rep1g (fst pq) (fst PQ) /\ rep2g (snd pq) (snd PQ) /\ zmul order (snd PQ) = gid) l M.
Definition ate_product (M : list (E1 * E2)) : Fp12 :=
  fold_right (fun PQ a => F12mul (ate (cpt (b := b1) (fst PQ)) (cpt (b := b2) (snd PQ))) a) F12_1 M.

(** * C44 *)
Theorem C44_value : forall l M, denotes l M -> exists f, calculate (built l) = Ok f /\ rep12 f (ate_product M).
Proof. intros l M H. destruct (pairing_ok l M H) as (f & Hf & R). exists f. split; [exact Hf|]. rewrite <- ate_esum in *. exact R. Qed.
(** the same for a list of pairs given directly in affine coordinates, without add_pair *)
Theorem C44_value_direct : forall l M,
  Forall2 (fun pq PQ => rep1g (fst pq) (fst PQ) /\ rep2g (snd pq) (snd PQ) /\ jz (fst pq) = fp_one /\ jz (snd pq) = fp2_one /\ zmul order (snd PQ) = gid) l M ->
  exists f, calculate l = Ok f /\ rep12 f (ate_product M).
Proof.
  intros l M H. destruct (calculate_ok l M) as (f & Hf & R).
  - revert H. apply Forall2_impl'. intros pq PQ (A & B & C & D & E). exact (apair_of pq PQ A B C D E).
  - exists f. split; [exact Hf|]. revert R. fold (esum M). rewrite ate_esum. exact (fun R => R).
Qed.
(** calculate on a list is the product of calculate on each pair *)
Theorem C44_product : forall l M, denotes l M ->
  exists fs, Forall2 (fun pq f => calculate (built [pq]) = Ok f) l fs /\ calculate (built l) = Ok (fold_right fp12_mul fp12_one fs).
Proof.
  intros l M H.
  assert (X : exists fs, Forall2 (fun pq f => calculate (built [pq]) = Ok f) l fs /\ rep12 (fold_right fp12_mul fp12_one fs) (ate_product M)).
  { induction H as [|pq PQ l M K H IH]; [exists []; split; [constructor|exact rep12_one]|]. destruct IH as (fs & F & R).
    destruct (C44_value [pq] [PQ] ltac:(constructor; [exact K|constructor])) as (f & Hf & Rf). exists (f :: fs). split; [constructor; assumption|].
    cbn [fold_right ate_product] in *. apply rep12_mul'; [|exact R]. revert Rf. rewrite F12_mul_1_r. exact (fun R => R). }
  destruct X as (fs & F & R). exists fs. split; [exact F|]. destruct (C44_value l M H) as (f & Hf & Rf). rewrite Hf.
  apply (f_equal Ok). exact (rep12_unique _ _ _ Rf R).
Qed.
(** the order in which the pairs are added is irrelevant *)
Theorem C44_permutation : forall l l' M, denotes l M -> Permutation l l' -> calculate (built l) = calculate (built l').
Proof.
  intros l l' M H P. destruct (Forall2_perm _ l l' P M H) as (M' & PM & H').
  destruct (pairing_ok l M H) as (f & Hf & R). destruct (pairing_ok l' M' H') as (f' & Hf' & R').
  unfold built. fold (add_pairs [] l). fold (add_pairs [] l'). rewrite Hf, Hf'. apply (f_equal Ok), (rep12_unique _ _ (uval (esum M)) R). rewrite (esum_perm M M' PM). exact R'.
Qed.
(** so is the choice of the Jacobian representations of the points *)
Theorem C44_representation : forall l l' M, denotes l M -> denotes l' M -> calculate (built l) = calculate (built l').
Proof.
  intros l l' M H H'. destruct (C44_value l M H) as (f & Hf & R). destruct (C44_value l' M H') as (f' & Hf' & R').
  rewrite Hf, Hf'. apply (f_equal Ok), (rep12_unique _ _ _ R R').
Qed.
Theorem C44_add_pair_infinity : forall ps p q, (rep1g p gid \/ rep2g q gid) -> add_pair ps p q = ps.
Proof.
  intros ps p q [H|H]; unfold add_pair.
  - rewrite (proj2 (rep1g_isZero p gid H) eq_refl). reflexivity.
  - rewrite (proj2 (rep2g_isZero q gid H) eq_refl), orb_true_r. reflexivity.
Qed.
Theorem C44_add_pair_finite : forall ps p q P Q, rep1g p P -> rep2g q Q -> P <> gid -> Q <> gid ->
  exists p' q', add_pair ps p q = ps ++ [(p', q')] /\ rep1g p' P /\ rep2g q' Q /\ jz p' = fp_one /\ jz q' = fp2_one.
Proof.
  intros ps p q P Q HP HQ NP NQ. exists (g1_affine p), (g2_affine q). unfold add_pair.
  assert (Z1 : g1_isZero p = false) by (destruct (g1_isZero p) eqn:Z; [|reflexivity]; exfalso; exact (NP (proj1 (rep1g_isZero p P HP) Z))).
  assert (Z2 : g2_isZero q = false) by (destruct (g2_isZero q) eqn:Z; [|reflexivity]; exfalso; exact (NQ (proj1 (rep2g_isZero q Q HQ) Z))).
  rewrite Z1, Z2. split; [reflexivity|]. split; [apply rep1g_affine, HP|]. split; [apply rep2g_affine, HQ|].
  split; [exact (affine_z1 p P HP NP)|exact (affine_z2 q Q HQ NQ)].
Qed.
Theorem C44_empty : calculate (built []) = Ok fp12_one /\ rep12 fp12_one F12_1.
Proof. split; [reflexivity|exact rep12_one]. Qed.
(** four pairs, two of them with a point at infinity *)
Definition demo_l : list (g1 * g2) := [(g1_BASE, g2_BASE); (g1_zero, g2_BASE); (g1_dbl g1_BASE, g2_neg g2_BASE); (g1_BASE, g2_zero)].
Definition demo_M : list (E1 * E2) := [(G1gen, G2gen); (gid, G2gen); (gop G1gen G1gen, ginv G2gen); (G1gen, gid)].
Lemma built_4 p q p2 q2 z1 z2 u1 u2 (P P2 : E1) (Q Q2 : E2) : rep1g p P -> rep2g q Q -> rep1g p2 P2 -> rep2g q2 Q2 -> rep1g z1 gid -> rep2g z2 gid ->
  P <> gid -> Q <> gid -> P2 <> gid -> Q2 <> gid -> length (built [(p, q); (z1, u2); (p2, q2); (u1, z2)]) = 2%nat.
Proof.
  intros HP HQ HP2 HQ2 HZ1 HZ2 NP NQ NP2 NQ2. unfold built. cbn [fold_left fst snd].
  rewrite (C44_add_pair_infinity _ u1 z2 (or_intror HZ2)), (C44_add_pair_infinity _ z1 u2 (or_introl HZ1)).
  destruct (C44_add_pair_finite [] _ _ _ _ HP HQ NP NQ) as (a & b & -> & _).
  destruct (C44_add_pair_finite ([] ++ [(a, b)]) _ _ _ _ HP2 HQ2 NP2 NQ2) as (c & d & -> & _). reflexivity.
Qed.
Example C44_example : denotes demo_l demo_M /\ length (built demo_l) = 2%nat.
Proof.
  split.
  - assert (Z : zmul order (ginv G2gen) = gid) by (rewrite zmul_inv, G2gen_r; apply g_inv_id').
    constructor; [exact (conj BASE1_rep (conj BASE2_rep G2gen_r))|]. constructor; [exact (conj rep1g_zero (conj BASE2_rep G2gen_r))|].
    constructor; [exact (conj (rep1g_dbl _ _ BASE1_rep) (conj (rep2g_neg _ _ BASE2_rep) Z))|]. constructor; [exact (conj BASE1_rep (conj rep2g_zero (zmul_id order)))|constructor].
  - apply (built_4 g1_BASE g2_BASE (g1_dbl g1_BASE) (g2_neg g2_BASE) g1_zero g2_zero g1_BASE g2_BASE _ _ _ _ BASE1_rep BASE2_rep (rep1g_dbl _ _ BASE1_rep) (rep2g_neg _ _ BASE2_rep) rep1g_zero rep2g_zero G1gen_nz G2gen_nz).
    + exact G1gen_dbl_nz.
    + intros E. apply G2gen_nz. rewrite <- (g_inv_inv G2gen), E. apply g_inv_id'.
Qed.

(** * C45 *)
Theorem C45_power : forall f a, rep12 f a -> rep12 (final_exponentiation f) (F12pow a (3 * (modulus ^ 12 - 1) / order)).
Proof. intros f a H. rewrite <- fexp_eq. exact (final_pow f a H). Qed.
Theorem C45_zero : forall f, rep12 f F12_0 -> rep12 (final_exponentiation f) F12_0.
Proof. exact final_zero. Qed.
(** on nonzero values the result is an r-th root of unity *)
Theorem C45_order : forall f a, rep12 f a -> a <> F12_0 -> F12pow (dec12 (final_exponentiation f)) order = F12_1.
Proof.
  intros f a H N. destruct (final_ok f a N H) as [_ ->]. rewrite <- uval_zmul by discriminate. rewrite ev_r. reflexivity.
Qed.
Theorem C45_multiplicative : forall f g a b, rep12 f a -> rep12 g b ->
  final_exponentiation (fp12_mul f g) = fp12_mul (final_exponentiation f) (final_exponentiation g).
Proof.
  intros f g a b Hf Hg. pose proof (final_pow _ _ (rep12_mul' _ _ _ _ Hf Hg)) as L. pose proof (rep12_mul' _ _ _ _ (final_pow f a Hf) (final_pow g b Hg)) as R.
  apply (rep12_unique _ _ _ L). rewrite F12pow_mul. exact R.
Qed.
(** factors in Fp6 are killed: this is what makes denominators irrelevant in the Miller loop *)
Theorem C45_subfield : forall f x, rep12 f (mkFp12 x F6_0) -> x <> F6_0 -> final_exponentiation f = fp12_one.
Proof.
  intros f x H N. apply (rep12_unique _ _ F12_1); [|exact rep12_one]. change (mkFp12 x F6_0) with (F12of x) in H.
  assert (NZ : F12of x <> F12_0) by (intros E; apply N; exact (f_equal lo E)). pose proof (final_ok f _ NZ H) as R. rewrite (ev_lo x N) in R. exact R.
Qed.
Theorem C45_pairing_order : forall l M f, denotes l M -> calculate (built l) = Ok f -> F12pow (dec12 f) order = F12_1.
Proof.
  intros l M f H E. destruct (pairing_ok l M H) as (f' & Hf & [_ R]). unfold built in E. fold (add_pairs [] l) in E. rewrite Hf in E. injection E as <-.
  rewrite R, <- uval_zmul by discriminate. rewrite esum_r. reflexivity.
Qed.
Example C45_example : rep12 (fp12_add fp12_one fp12_one) (F12add F12_1 F12_1) /\ F12add F12_1 F12_1 <> F12_0 /\ rep12 fp12_zero F12_0.
Proof.
  split; [exact (rep12_add' _ _ _ _ rep12_one rep12_one)|]. split; [|exact rep12_zero].
  exact two_nz12.
Qed.

(** * C46 *)
(** for all integers a, b; (a * b) mod r is the exponent as a non-negative integer (the value has order dividing r) *)
Theorem C46_bilinear : forall p q p' q' (P : E1) (Q : E2) a b, rep1g p P -> rep2g q Q -> zmul order Q = gid -> rep1g p' (zmul a P) -> rep2g q' (zmul b Q) ->
  exists f f', calculate (built [(p, q)]) = Ok f /\ calculate (built [(p', q')]) = Ok f' /\ dec12 f' = F12pow (dec12 f) ((a * b) mod order).
Proof.
  intros p q p' q' P Q a b HP HQ O HP' HQ'. assert (O' : zmul order (zmul b Q) = gid) by (rewrite <- zmul_mul, Z.mul_comm, zmul_mul, O; apply zmul_id).
  destruct (calc1 p q P Q HP HQ O) as (f & Hf & [_ R]). destruct (calc1 p' q' _ _ HP' HQ' O') as (f' & Hf' & [_ R']).
  exists f, f'. split; [exact Hf|]. split; [exact Hf'|]. rewrite R, R', <- uval_zmul by (apply Z.mod_pos_bound; reflexivity).
  apply (f_equal uval). rewrite epair_zmul_l, epair_zmul_r by assumption. rewrite <- zmul_mul. symmetry. apply zmul_mod; [apply epair_r|discriminate].
Qed.
(** the same through the code's scalar multiplication *)
Theorem C46_scale : forall p q (P : E1) (Q : E2) s t, rep1g p P -> rep2g q Q -> zmul order Q = gid -> words s -> words t ->
  exists f f', calculate (built [(p, q)]) = Ok f /\ calculate (built [(g1_scale p s, g2_scale q t)]) = Ok f' /\ dec12 f' = F12pow (dec12 f) (val s * val t).
Proof.
  intros p q P Q s t HP HQ O Ws Wt.
  destruct (C46_bilinear p q _ _ P Q (val s) (val t) HP HQ O (rep1g_scale p P s HP Ws) (rep2g_scale q Q t HQ Wt)) as (f & f' & Hf & Hf' & E).
  exists f, f'. split; [exact Hf|]. split; [exact Hf'|]. rewrite E.
  destruct (calc1 p q P Q HP HQ O) as (f1 & Hf1 & [_ R]). change (built [(p, q)]) with (add_pair [] p q) in Hf. rewrite Hf1 in Hf. injection Hf as <-. rewrite R.
  rewrite <- !uval_zmul; [|apply Z.mul_nonneg_nonneg; apply val_nonneg; assumption|apply Z.mod_pos_bound; reflexivity].
  apply (f_equal uval), zmul_mod; [apply epair_r|discriminate].
Qed.
Theorem C46_additive : forall p p' q q' (P P' : E1) (Q Q' : E2), rep1g p P -> rep1g p' P' -> rep2g q Q -> rep2g q' Q' -> zmul order Q = gid -> zmul order Q' = gid ->
  exists a b c d e, calculate (built [(p, q)]) = Ok a /\ calculate (built [(p', q)]) = Ok b /\ calculate (built [(p, q')]) = Ok c /\
    calculate (built [(g1_add p p', q)]) = Ok d /\ calculate (built [(p, g2_add q q')]) = Ok e /\ d = fp12_mul a b /\ e = fp12_mul a c.
Proof.
  intros p p' q q' P P' Q Q' HP HP' HQ HQ' O O'.
  assert (OO : zmul order (gop Q Q') = gid) by (rewrite zmul_op, O, O'; apply g_id).
  destruct (calc1 p q P Q HP HQ O) as (a & Ha & Ra). destruct (calc1 p' q P' Q HP' HQ O) as (b & Hb & Rb). destruct (calc1 p q' P Q' HP HQ' O') as (c & Hc & Rc).
  destruct (calc1 _ q _ Q (rep1g_add p p' P P' HP HP') HQ O) as (d & Hd & Rd). destruct (calc1 p _ P _ HP (rep2g_add q q' Q Q' HQ HQ') OO) as (e & He & Re).
  exists a, b, c, d, e. do 5 (split; [assumption|]). split.
  - apply (rep12_unique _ _ _ Rd). rewrite epair_add_l by exact O. exact (rep12_mul' _ _ _ _ Ra Rb).
  - apply (rep12_unique _ _ _ Re). rewrite epair_add_r by assumption. exact (rep12_mul' _ _ _ _ Ra Rc).
Qed.
(** the pairing of the generators is not 1 *)
Theorem C46_generators : exists f, calculate (built [(g1_BASE, g2_BASE)]) = Ok f /\ fp12_equal f fp12_one = false /\ ate (cpt G1gen) (cpt G2gen) <> F12_1.
Proof.
  destruct (calc1 _ _ _ _ BASE1_rep BASE2_rep G2gen_r) as (f & Hf & R). exists f. split; [exact Hf|].
  assert (N : uval (epair G1gen G2gen) <> F12_1) by (intros E; apply gen_pair_nz, uval_inj; exact E).
  split; [|rewrite <- ate_epair; exact N]. apply not_true_is_false. intros T. apply N. exact (proj1 (equal12_rep f fp12_one _ _ R rep12_one) T).
Qed.
(** on the groups of order r the value is 1 only if one of the points is the identity *)
Theorem C46_nondegenerate : forall p q (P : E1) (Q : E2) f, rep1g p P -> rep2g q Q -> zmul order P = gid -> zmul order Q = gid ->
  calculate (built [(p, q)]) = Ok f -> (fp12_equal fp12_one f = true <-> P = gid \/ Q = gid).
Proof.
  intros p q P Q f HP HQ OP OQ E. destruct (calc1 p q P Q HP HQ OQ) as (f' & Hf & R). change (built [(p, q)]) with (add_pair [] p q) in E. rewrite Hf in E. injection E as <-.
  rewrite (equal12_rep fp12_one f' _ _ rep12_one R). split.
  - intros X. apply epair_nondeg; [exact OP|exact OQ|]. apply uval_inj. symmetry. exact X.
  - intros [->| ->]; [rewrite epair_id_l|rewrite epair_id_r]; reflexivity.
Qed.
Example C46_example : rep1g g1_BASE G1gen /\ rep2g g2_BASE G2gen /\ zmul order G1gen = gid /\ zmul order G2gen = gid /\ G1gen <> gid /\ G2gen <> gid.
Proof. exact (conj BASE1_rep (conj BASE2_rep (conj G1gen_r (conj G2gen_r (conj G1gen_nz G2gen_nz))))). Qed.

Definition props_pairing := (C44_value, C44_value_direct, C44_product, C44_permutation, C44_representation, C44_add_pair_infinity, C44_add_pair_finite, C44_empty, C45_power, C45_zero, C45_order, C45_multiplicative, C45_subfield, C45_pairing_order, C46_bilinear, C46_scale, C46_additive, C46_generators, C46_nondegenerate).
Print Assumptions props_pairing.
