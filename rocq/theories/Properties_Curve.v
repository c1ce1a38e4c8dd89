(** Properties C24-C29: the groups of points.
    [rep1 p P]: the coordinates of the g1 value p are canonical and (x, y, z) are Jacobian coordinates of the point P ([jacobian] in
    SpecCurve: infinity iff z = 0, otherwise x = u z^2, y = v z^3).  [rep1g p P]: the same for P in the group E1 of the points of
    y^2 = x^3 + 4 over Fp.  [rep2c], [rep2g], E2: the same for g2 and y^2 = x^3 + 4(1+u) over Fp2.
    padd/pneg are chord-and-tangent (SpecCurve); zmul is the multiple in a group (AbGroup). *)
From Coq Require Import ZArith List Bool Lia.
From Verif Require Import SpecField FieldProof TowerProof ModelWord ModelPrim ModelScalar ScalarProof ModelFp ModelTower FpProof TowerRefine.
From Verif Require Import SpecCurve AbGroup CurveProof ModelCurve CurveRefine CurveRefine2 CurveInst CurveBase.
Import ListNotations.
Local Open Scope Z_scope.

(** * C27 (specification side): the points of each curve form an abelian group under chord-and-tangent *)
Theorem C27_spec_E1 : forall P Q R : point KFp, onb b1 P = true -> onb b1 Q = true -> onb b1 R = true ->
  onb b1 (padd P Q) = true /\ padd (padd P Q) R = padd P (padd Q R) /\ padd P Q = padd Q P /\ padd Inf P = P /\ padd P (pneg P) = Inf.
Proof.
  intros P Q R H1 H2 H3. apply (onb_ok KFp KFp_field) in H1, H2, H3. split; [apply (onb_ok KFp KFp_field), (padd_on KFp KFp_field); auto|].
  split; [apply (padd_assoc KFp KFp_field KFp_two KFp_three b1 b1_nz); auto|]. split; [apply (padd_comm KFp KFp_field KFp_two KFp_three b1 b1_nz); auto|].
  split; [reflexivity|apply (padd_neg KFp KFp_field)].
Qed.
Theorem C27_spec_E2 : forall P Q R : point KFp2, onb b2 P = true -> onb b2 Q = true -> onb b2 R = true ->
  onb b2 (padd P Q) = true /\ padd (padd P Q) R = padd P (padd Q R) /\ padd P Q = padd Q P /\ padd Inf P = P /\ padd P (pneg P) = Inf.
Proof.
  intros P Q R H1 H2 H3. apply (onb_ok KFp2 KFp2_field) in H1, H2, H3. split; [apply (onb_ok KFp2 KFp2_field), (padd_on KFp2 KFp2_field); auto|].
  split; [apply (padd_assoc KFp2 KFp2_field KFp2_two KFp2_three b2 b2_nz); auto|]. split; [apply (padd_comm KFp2 KFp2_field KFp2_two KFp2_three b2 b2_nz); auto|].
  split; [reflexivity|apply (padd_neg KFp2 KFp2_field)].
Qed.
Example C27_nontrivial : onb b1 G1pt = true /\ onb b2 G2pt = true. Proof. split; [exact G1pt_on|exact G2pt_on]. Qed.

(** * C24 *)
Section C24.
Variables (p q : g1) (P Q : point KFp).
Hypothesis Hp : rep1 p P. Hypothesis Hq : rep1 q Q.
Hypothesis OP : onb b1 P = true. Hypothesis OQ : onb b1 Q = true.
Theorem C24_add : rep1 (g1_add p q) (padd P Q).
Proof. apply (jrep_add fp_ops KFp canon dec fp_represents KFp_field KFp_two b1); auto; apply (onb_ok KFp KFp_field); auto. Qed.
Theorem C24_dbl : rep1 (g1_dbl p) (padd P P).
Proof. apply (jrep_dbl fp_ops KFp canon dec fp_represents KFp_field KFp_two b1); auto; apply (onb_ok KFp KFp_field); auto. Qed.
Theorem C24_neg : rep1 (g1_neg p) (pneg P).
Proof. apply (jrep_neg fp_ops KFp canon dec fp_represents KFp_field); auto. Qed.
Theorem C24_sub : rep1 (g1_sub p q) (padd P (pneg Q)).
Proof. apply (jrep_sub fp_ops KFp canon dec fp_represents KFp_field KFp_two b1); auto; apply (onb_ok KFp KFp_field); auto. Qed.
Theorem C24_zero : rep1 g1_zero Inf.
Proof. apply (jrep_zero fp_ops KFp canon dec fp_represents KFp_field). Qed.
End C24.
Example C24_nontrivial : rep1 g1_BASE G1pt /\ onb b1 G1pt = true /\ rep1 (g1_add g1_BASE g1_BASE) (padd G1pt G1pt).
Proof. split; [exact BASE1_rep|]. split; [exact G1pt_on|]. apply C24_add; first [exact BASE1_rep|exact G1pt_on]. Qed.

(** * C25 *)
Section C25.
Variables (p q : g2) (P Q : point KFp2).
Hypothesis Hp : rep2c p P. Hypothesis Hq : rep2c q Q.
Hypothesis OP : onb b2 P = true. Hypothesis OQ : onb b2 Q = true.
Theorem C25_add : rep2c (g2_add p q) (padd P Q).
Proof. apply (jrep_add fp2_ops KFp2 canon2 dec2 fp2_represents KFp2_field KFp2_two b2); auto; apply (onb_ok KFp2 KFp2_field); auto. Qed.
Theorem C25_dbl : rep2c (g2_dbl p) (padd P P).
Proof. apply (jrep_dbl fp2_ops KFp2 canon2 dec2 fp2_represents KFp2_field KFp2_two b2); auto; apply (onb_ok KFp2 KFp2_field); auto. Qed.
Theorem C25_neg : rep2c (g2_neg p) (pneg P).
Proof. apply (jrep_neg fp2_ops KFp2 canon2 dec2 fp2_represents KFp2_field); auto. Qed.
Theorem C25_sub : rep2c (g2_sub p q) (padd P (pneg Q)).
Proof. apply (jrep_sub fp2_ops KFp2 canon2 dec2 fp2_represents KFp2_field KFp2_two b2); auto; apply (onb_ok KFp2 KFp2_field); auto. Qed.
Theorem C25_zero : rep2c g2_zero Inf.
Proof. apply (jrep_zero fp2_ops KFp2 canon2 dec2 fp2_represents KFp2_field). Qed.
End C25.
Example C25_nontrivial : rep2c g2_BASE G2pt /\ onb b2 G2pt = true /\ rep2c (g2_add g2_BASE g2_BASE) (padd G2pt G2pt).
Proof. split; [exact BASE2_rep|]. split; [exact G2pt_on|]. apply C25_add; first [exact BASE2_rep|exact G2pt_on]. Qed.

(** * C26 *)
(** every triple of canonical coordinates denotes exactly one point, and every point has a representation *)
Theorem C26_denotation_g1 : forall p, canon (jx p) -> canon (jy p) -> canon (jz p) -> exists P, rep1 p P /\ forall Q, rep1 p Q -> Q = P.
Proof.
  intros p H1 H2 H3. destruct (jrep_ex KFp canon dec KFp_field p) as [P HP]; [repeat split; auto; apply H1 || apply H2 || apply H3|].
  exists P. split; [exact HP|]. intros Q HQ. exact (jrep_fun KFp canon dec KFp_field p Q P HQ HP).
Qed.
Theorem C26_denotation_g2 : forall p, canon2 (jx p) -> canon2 (jy p) -> canon2 (jz p) -> exists P, rep2c p P /\ forall Q, rep2c p Q -> Q = P.
Proof.
  intros p H1 H2 H3. destruct (jrep_ex KFp2 canon2 dec2 KFp2_field p) as [P HP]; [exact (conj H1 (conj H2 H3))|].
  exists P. split; [exact HP|]. intros Q HQ. exact (jrep_fun KFp2 canon2 dec2 KFp2_field p Q P HQ HP).
Qed.
Theorem C26_equal_g1 : forall p q P Q, rep1 p P -> rep1 q Q -> (g1_equal p q = true <-> P = Q).
Proof. exact (j_equal_rep fp_ops KFp canon dec fp_represents KFp_field). Qed.
Theorem C26_equal_g2 : forall p q P Q, rep2c p P -> rep2c q Q -> (g2_equal p q = true <-> P = Q).
Proof. exact (j_equal_rep fp2_ops KFp2 canon2 dec2 fp2_represents KFp2_field). Qed.
Theorem C26_isZero_g1 : forall p P, rep1 p P -> (g1_isZero p = true <-> P = Inf).
Proof. exact (j_isZero_rep fp_ops KFp canon dec fp_represents KFp_field). Qed.
Theorem C26_isZero_g2 : forall p P, rep2c p P -> (g2_isZero p = true <-> P = Inf).
Proof. exact (j_isZero_rep fp2_ops KFp2 canon2 dec2 fp2_represents KFp2_field). Qed.
(** affine keeps the point; a finite point gets z = 1 and x, y its coordinates; infinity is returned unchanged *)
Theorem C26_affine_g1 : forall p u v, rep1 p (Aff u v) ->
  rep1 (g1_affine p) (Aff u v) /\ dec (jx (g1_affine p)) = u /\ dec (jy (g1_affine p)) = v /\ jz (g1_affine p) = fp_one.
Proof.
  intros p u v H. split; [exact (jrep_affine fp_ops KFp canon dec fp_represents KFp_field p _ H)|].
  destruct (j_affine_coords fp_ops KFp canon dec fp_represents KFp_field p u v dec_inj H) as ([_ A] & [_ B] & C). auto.
Qed.
Theorem C26_affine_g2 : forall p u v, rep2c p (Aff u v) ->
  rep2c (g2_affine p) (Aff u v) /\ dec2 (jx (g2_affine p)) = u /\ dec2 (jy (g2_affine p)) = v /\ jz (g2_affine p) = fp2_one.
Proof.
  intros p u v H. split; [exact (jrep_affine fp2_ops KFp2 canon2 dec2 fp2_represents KFp2_field p _ H)|].
  destruct (j_affine_coords fp2_ops KFp2 canon2 dec2 fp2_represents KFp2_field p u v dec2_inj H) as ([_ A] & [_ B] & C). auto.
Qed.
Theorem C26_affine_infinity : (forall p, g1_isZero p = true -> g1_affine p = p) /\ (forall p, g2_isZero p = true -> g2_affine p = p).
Proof. split; intros p H; [unfold g1_affine, j_affine|unfold g2_affine, j_affine]; unfold g1_isZero, g2_isZero in H; rewrite H; reflexivity. Qed.
Theorem C26_isOnCurve_g1 : forall p P, rep1 p P -> (g1_isOnCurve p = true <-> onb b1 P = true).
Proof. intros p P. exact (j_isOnCurve_rep fp_ops KFp canon dec fp_represents KFp_field b1 B p P B_R). Qed.
Theorem C26_isOnCurve_g2 : forall p P, rep2c p P -> (g2_isOnCurve p = true <-> onb b2 P = true).
Proof. intros p P. exact (j_isOnCurve_rep fp2_ops KFp2 canon2 dec2 fp2_represents KFp2_field b2 fp2_B p P fp2_B_R). Qed.
(** in particular any triple with z = 0 passes, whatever x and y *)
Theorem C26_isOnCurve_z0 : (forall x y, g1_isOnCurve (mkJ x y fp_zero) = true) /\ (forall x y, g2_isOnCurve (mkJ x y fp2_zero) = true).
Proof. split; intros; reflexivity. Qed.
Example C26_nontrivial : g1_isOnCurve g1_BASE = true /\ g2_isOnCurve g2_BASE = true /\ g1_equal g1_BASE g1_zero = false.
Proof.
  split; [apply (C26_isOnCurve_g1 _ _ BASE1_rep); exact G1pt_on|]. split; [apply (C26_isOnCurve_g2 _ _ BASE2_rep); exact G2pt_on|reflexivity].
Qed.

(** * C27 (code side) *)
Theorem C27_g1 : forall p q r P Q R, rep1g p P -> rep1g q Q -> rep1g r R ->
  g1_equal (g1_add p q) (g1_add q p) = true /\ g1_equal (g1_add (g1_add p q) r) (g1_add p (g1_add q r)) = true /\
  g1_equal (g1_add g1_zero p) p = true /\ g1_equal (g1_add p (g1_neg p)) g1_zero = true.
Proof.
  intros p q r P Q R Hp Hq Hr.
  pose proof (erep_add fp_ops KFp canon dec fp_represents KFp_field KFp_two KFp_three b1 b1_nz) as A.
  pose proof (erep_neg fp_ops KFp canon dec fp_represents KFp_field KFp_two KFp_three b1 b1_nz) as N.
  pose proof (erep_zero fp_ops KFp canon dec fp_represents KFp_field KFp_two KFp_three b1 b1_nz) as Z.
  pose proof (erep_equal fp_ops KFp canon dec fp_represents KFp_field KFp_two KFp_three b1 b1_nz) as EQ.
  split; [refine (proj2 (EQ _ _ _ _ (A _ _ _ _ Hp Hq) (A _ _ _ _ Hq Hp)) _); apply g_comm|].
  split; [refine (proj2 (EQ _ _ _ _ (A _ _ _ _ (A _ _ _ _ Hp Hq) Hr) (A _ _ _ _ Hp (A _ _ _ _ Hq Hr))) _); apply g_assoc|].
  split; [refine (proj2 (EQ _ _ _ _ (A _ _ _ _ Z Hp) Hp) _); apply g_id|].
  refine (proj2 (EQ _ _ _ _ (A _ _ _ _ Hp (N _ _ Hp)) Z) _). apply g_inv.
Qed.
Theorem C27_g2 : forall p q r P Q R, rep2g p P -> rep2g q Q -> rep2g r R ->
  g2_equal (g2_add p q) (g2_add q p) = true /\ g2_equal (g2_add (g2_add p q) r) (g2_add p (g2_add q r)) = true /\
  g2_equal (g2_add g2_zero p) p = true /\ g2_equal (g2_add p (g2_neg p)) g2_zero = true.
Proof.
  intros p q r P Q R Hp Hq Hr.
  pose proof (erep_add fp2_ops KFp2 canon2 dec2 fp2_represents KFp2_field KFp2_two KFp2_three b2 b2_nz) as A.
  pose proof (erep_neg fp2_ops KFp2 canon2 dec2 fp2_represents KFp2_field KFp2_two KFp2_three b2 b2_nz) as N.
  pose proof (erep_zero fp2_ops KFp2 canon2 dec2 fp2_represents KFp2_field KFp2_two KFp2_three b2 b2_nz) as Z.
  pose proof (erep_equal fp2_ops KFp2 canon2 dec2 fp2_represents KFp2_field KFp2_two KFp2_three b2 b2_nz) as EQ.
  split; [refine (proj2 (EQ _ _ _ _ (A _ _ _ _ Hp Hq) (A _ _ _ _ Hq Hp)) _); apply g_comm|].
  split; [refine (proj2 (EQ _ _ _ _ (A _ _ _ _ (A _ _ _ _ Hp Hq) Hr) (A _ _ _ _ Hp (A _ _ _ _ Hq Hr))) _); apply g_assoc|].
  split; [refine (proj2 (EQ _ _ _ _ (A _ _ _ _ Z Hp) Hp) _); apply g_id|].
  refine (proj2 (EQ _ _ _ _ (A _ _ _ _ Hp (N _ _ Hp)) Z) _). apply g_inv.
Qed.
(** a g1/g2 value with canonical coordinates is in a group exactly when isOnCurve says so *)
Theorem C27_membership : (forall p, canon (jx p) -> canon (jy p) -> canon (jz p) -> g1_isOnCurve p = true -> exists P : E1, rep1g p P) /\
  (forall p, canon2 (jx p) -> canon2 (jy p) -> canon2 (jz p) -> g2_isOnCurve p = true -> exists P : E2, rep2g p P).
Proof.
  split; intros p H1 H2 H3.
  - exact (erep_ex fp_ops KFp canon dec fp_represents KFp_field KFp_two KFp_three b1 b1_nz B p B_R (conj H1 (conj H2 H3))).
  - exact (erep_ex fp2_ops KFp2 canon2 dec2 fp2_represents KFp2_field KFp2_two KFp2_three b2 b2_nz fp2_B p fp2_B_R (conj H1 (conj H2 H3))).
Qed.
Example C27_code_nontrivial : rep1g g1_BASE G1gen /\ rep2g g2_BASE G2gen. Proof. split; [exact BASE1_rep|exact BASE2_rep]. Qed.

Ltac wrd := repeat (apply Forall_cons; [split; [intros X; discriminate X|reflexivity]|]); apply Forall_nil.
(** * C28: any limb count, any scalar *)
Theorem C28_scale_g1 : forall p P s, rep1g p P -> words s -> rep1g (g1_scale p s) (zmul (val s) P).
Proof. exact (erep_scale fp_ops KFp canon dec fp_represents KFp_field KFp_two KFp_three b1 b1_nz). Qed.
Theorem C28_scale_g2 : forall p P s, rep2g p P -> words s -> rep2g (g2_scale p s) (zmul (val s) P).
Proof. exact (erep_scale fp2_ops KFp2 canon2 dec2 fp2_represents KFp2_field KFp2_two KFp2_three b2 b2_nz). Qed.
(** the multiple is the iterated sum *)
Theorem C28_zmul : forall (G : abgroup) (x : G), zmul 0 x = gid /\ (forall n, zmul (n + 1) x = gop x (zmul n x)) /\ forall m n, zmul (m + n) x = gop (zmul m x) (zmul n x).
Proof. intros G x. split; [reflexivity|]. split; [exact (fun n => zmul_succ n x)|exact (fun m n => zmul_add m n x)]. Qed.
Example C28_nontrivial : rep1g (g1_scale g1_BASE [5; 0; 7]) (zmul (5 + 7 * 2 ^ 128) G1gen).
Proof. apply (C28_scale_g1 _ _ [5; 0; 7]); [exact BASE1_rep|]. wrd. Qed.

(** * C29: extra points or scalars are ignored; the list sizes fit a 64-bit size_t *)
Definition pairs1 (points : list g1) (scalars : list (list Z)) (l : list (E1 * Z)) : Prop :=
  Forall2 (fun ps Pk => rep1g (fst ps) (fst Pk) /\ words (snd ps) /\ length (snd ps) = 4%nat /\ val (snd ps) = snd Pk) (combine points scalars) l.
Definition pairs2 (points : list g2) (scalars : list (list Z)) (l : list (E2 * Z)) : Prop :=
  Forall2 (fun ps Pk => rep2g (fst ps) (fst Pk) /\ words (snd ps) /\ length (snd ps) = 4%nat /\ val (snd ps) = snd Pk) (combine points scalars) l.
Theorem C29_weightedSum_g1 : forall points scalars l, pairs1 points scalars l -> Z.of_nat (length (combine points scalars)) < 2 ^ 64 ->
  rep1g (g1_weightedSum points scalars) (gsum (map (fun Pk => zmul (snd Pk) (fst Pk)) l)).
Proof. exact (erep_weightedSum fp_ops KFp canon dec fp_represents KFp_field KFp_two KFp_three b1 b1_nz). Qed.
Theorem C29_weightedSum_g2 : forall points scalars l, pairs2 points scalars l -> Z.of_nat (length (combine points scalars)) < 2 ^ 64 ->
  rep2g (g2_weightedSum points scalars) (gsum (map (fun Pk => zmul (snd Pk) (fst Pk)) l)).
Proof. exact (erep_weightedSum fp2_ops KFp2 canon2 dec2 fp2_represents KFp2_field KFp2_two KFp2_three b2 b2_nz). Qed.
Example C29_nontrivial : pairs1 [g1_BASE; g1_BASE] [[3; 0; 0; 1]; [0; 9; 0; 0]] [(G1gen, 3 + 2 ^ 192); (G1gen, 9 * 2 ^ 64)].
Proof.
  constructor; [|constructor; [|constructor]]; (split; [exact BASE1_rep|split; [wrd|split; reflexivity]]).
Qed.

Definition props_curve := (C27_spec_E1, C27_spec_E2, C24_add, C24_dbl, C24_neg, C24_sub, C24_zero, C25_add, C25_dbl, C25_neg, C25_sub, C25_zero, C26_denotation_g1, C26_denotation_g2, C26_equal_g1, C26_equal_g2, C26_isZero_g1, C26_isZero_g2, C26_affine_g1, C26_affine_g2, C26_affine_infinity, C26_isOnCurve_g1, C26_isOnCurve_g2, C26_isOnCurve_z0, C27_g1, C27_g2, C27_membership, C28_scale_g1, C28_scale_g2, C28_zmul, C29_weightedSum_g1, C29_weightedSum_g2).
Print Assumptions props_curve.
