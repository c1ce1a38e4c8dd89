(** Every operation of the code on points, read in the group of the points of the curve. *)
From Coq Require Import ZArith List Bool Lia Field.
From Verif Require Import ModelWord ModelScalar ScalarProof ModelCurve SpecCurve CurveProof AbGroup CurveRefine.
Import ListNotations.
Local Open Scope Z_scope.

(** ** windowed multi-scalar multiplication in an abstract group *)
Section WS.
Context {T : Type} (o : fops T) (E : abgroup) (rel : jac T -> E -> Prop).
Hypothesis rel_zero : rel (j_zero o) gid.
Hypothesis rel_add : forall p q P Q, rel p P -> rel q Q -> rel (j_add o p q) (gop P Q).
Hypothesis rel_dbl : forall p P, rel p P -> rel (j_dbl o p) (gop P P).
(** sum of (i+1) B_i *)
Fixpoint wsum (k : Z) (B : list E) : E := match B with [] => gid | P :: B => gop (zmul k P) (wsum (k + 1) B) end.
Fixpoint badd (B : list E) (i : nat) (P : E) : list E :=
  match B, i with [], _ => [] | Q :: B, O => gop Q P :: B | Q :: B, S i => Q :: badd B i P end.
Lemma badd_rel bk B : Forall2 rel bk B -> forall i p P, rel p P -> Forall2 rel (bucket_add o bk i p) (badd B i P).
Proof. induction 1; intros i p P Hp; [constructor|]. destruct i; cbn; constructor; auto. Qed.
Lemma badd_length B : forall i P, length (badd B i P) = length B.
Proof. induction B; intros [|i] P; cbn; auto. Qed.
Lemma badd_wsum B : forall i P k, (i < length B)%nat -> wsum k (badd B i P) = gop (wsum k B) (zmul (k + Z.of_nat i) P).
Proof.
  induction B; intros [|i] P k Hi; cbn in Hi |- *; try lia.
  - rewrite Z.add_0_r, zmul_op, !g_assoc. f_equal. apply g_comm.
  - rewrite IHB by lia. rewrite g_assoc. do 2 f_equal. f_equal. lia.
Qed.
Lemma wsum_zero n : forall k, wsum k (repeat gid n) = gid.
Proof. induction n; intros k; cbn; auto. rewrite zmul_id, g_id. auto. Qed.
Lemma rel_zeros n : Forall2 rel (repeat (j_zero o) n) (repeat gid n).
Proof. induction n; cbn; constructor; auto. Qed.
Lemma wsum_shift B : forall k, wsum (k + 1) B = gop (gsum B) (wsum k B).
Proof.
  induction B as [|P B IH]; intros k; cbn [wsum gsum fold_right]; [symmetry; apply g_id|]. fold (gsum B).
  rewrite IH. rewrite Z.add_1_r at 1. rewrite zmul_succ, g_swap4. reflexivity.
Qed.
Lemma ws_acc_rel bk B : Forall2 rel bk B -> rel (ws_acc o bk) (wsum 1 B).
Proof.
  intros H. unfold ws_acc. rewrite <- fold_left_rev_right, rev_involutive.
  match goal with |- rel (fst ?a) _ => enough (rel (fst a) (wsum 1 B) /\ rel (snd a) (gsum B)) by tauto end.
  induction H as [|p P bk B Hp H [IH1 IH2]]; cbn [fold_right fst snd wsum gsum].
  - auto.
  - fold (gsum B). assert (S : rel (j_add o (snd (fold_right (fun q acc_sum => (j_add o (fst acc_sum) (j_add o (snd acc_sum) q), j_add o (snd acc_sum) q)) (j_zero o, j_zero o) bk)) p) (gop P (gsum B))).
    { rewrite g_comm. apply rel_add; auto. }
    split; [|exact S].
    change (wsum (1 + 1) B) with (wsum (0 + 1 + 1) B). rewrite zmul_1, (wsum_shift B), <- g_assoc, g_comm. apply rel_add; auto.
Qed.
Definition wpair (ps : jac T * list Z) (Pk : E * Z) : Prop := rel (fst ps) (fst Pk) /\ words (snd ps) /\ length (snd ps) = 4%nat /\ val (snd ps) = snd Pk.
Definition lincomb (l : list (E * Z)) : E := gsum (map (fun Pk => zmul (snd Pk) (fst Pk)) l).
Lemma ws_index_ok c j s : words s -> length s = 4%nat -> (c <= 64)%nat ->
  ws_index c j s = (val s / 2 ^ Z.of_nat (c * j)) mod 2 ^ Z.of_nat c.
Proof.
  intros Hs Hl Hc. unfold ws_index. destruct (rsh_ok s (Z.of_nat (c * j)) Hs ltac:(lia)) as (H1 & H2 & H3). rewrite <- H3.
  destruct (rsh s (Z.of_nat (c * j))) as [|x r]; [cbn in H2; lia|]. cbn [limb nth val].
  rewrite Z.land_comm, Z.sub_1_r, <- Z.ones_equiv, Z.land_ones by lia. change (limb (x :: r) 0) with x.
  assert (W = 2 ^ Z.of_nat c * 2 ^ (64 - Z.of_nat c)) as -> by (rewrite <- Z.pow_add_r by lia; rewrite W_pow; f_equal; lia).
  rewrite <- Z.mul_assoc, (Z.mul_comm (2 ^ Z.of_nat c)), Z.mod_add; [reflexivity|]. apply Z.pow_nonzero; lia.
Qed.
Definition digit (c j : nat) (k : Z) : Z := (k / 2 ^ Z.of_nat (c * j)) mod 2 ^ Z.of_nat c.
Lemma ws_fill_rel c j : (c <= 64)%nat -> forall ps Ps, Forall2 wpair ps Ps -> forall bk B, Forall2 rel bk B -> Z.of_nat (length B) = 2 ^ Z.of_nat c - 1 ->
  exists B', Forall2 rel (ws_fill o c j ps bk) B' /\ wsum 1 B' = gop (wsum 1 B) (lincomb (map (fun Pk => (fst Pk, digit c j (snd Pk))) Ps)).
Proof.
  intros Hc. induction 1 as [|[p s] [P k] ps Ps (Hp & Hs & Hl & Hk) H IH]; intros bk B HB LB; cbn [fst snd] in *.
  - exists B. split; [exact HB|]. cbn. rewrite g_id_r. reflexivity.
  - unfold ws_fill. cbn [fold_left snd fst]. fold (ws_fill o c j ps). rewrite (ws_index_ok c j s Hs Hl Hc), Hk.
    unfold lincomb. cbn [map fst snd gsum fold_right]. fold (digit c j k).
    assert (D : 0 <= digit c j k < 2 ^ Z.of_nat c) by (apply Z.mod_pos_bound, Z.pow_pos_nonneg; lia).
    destruct (Z.eqb_spec (digit c j k) 0) as [E0|N0].
    + destruct (IH bk B HB LB) as (B' & H1 & H2). exists B'. split; [exact H1|]. rewrite H2, E0, zmul_0, g_id. reflexivity.
    + destruct (IH (bucket_add o bk (Z.to_nat (digit c j k - 1)) p) (badd B (Z.to_nat (digit c j k - 1)) P)) as (B' & H1 & H2).
      { apply badd_rel; auto. } { rewrite badd_length. exact LB. }
      exists B'. split; [exact H1|]. rewrite H2, badd_wsum by lia. rewrite g_assoc. do 2 f_equal. f_equal. lia.
Qed.
Lemma ws_window_rel c j ps Ps : (c <= 64)%nat -> Forall2 wpair ps Ps -> rel (ws_window o c ps j) (lincomb (map (fun Pk => (fst Pk, digit c j (snd Pk))) Ps)).
Proof.
  intros Hc H. unfold ws_window.
  assert (LE : Z.of_nat (Nat.pow 2 c - 1) = 2 ^ Z.of_nat c - 1).
  { rewrite Nat2Z.inj_sub, Nat2Z.inj_pow; [reflexivity|]. pose proof (Nat.pow_nonzero 2 c). lia. }
  destruct (ws_fill_rel c j Hc ps Ps H _ _ (rel_zeros (Nat.pow 2 c - 1))) as (B' & H1 & H2).
  { rewrite repeat_length. exact LE. }
  rewrite wsum_zero, g_id in H2. rewrite <- H2. apply ws_acc_rel. exact H1.
Qed.
Lemma dbl_times_rel n : forall p P, rel p P -> rel (dbl_times o n p) (zmul (2 ^ Z.of_nat n) P).
Proof.
  induction n; intros p P H; [exact H|]. cbn [dbl_times]. rewrite Nat2Z.inj_succ, Z.pow_succ_r, Z.mul_comm, zmul_mul by lia.
  rewrite zmul_2. apply IHn. apply rel_dbl, H.
Qed.
Lemma lincomb_add (f g : Z -> Z) l :
  gop (lincomb (map (fun Pk => (fst Pk, f (snd Pk))) l)) (lincomb (map (fun Pk => (fst Pk, g (snd Pk))) l)) = lincomb (map (fun Pk => (fst Pk, f (snd Pk) + g (snd Pk))) l).
Proof.
  unfold lincomb. rewrite !map_map. cbn [fst snd]. induction l as [|[P k] l IH]; cbn [map gsum fold_right fst snd]; [apply g_id|].
  unfold gsum in IH. rewrite <- IH, g_swap4, zmul_add. reflexivity.
Qed.
Lemma lincomb_scale (f : Z -> Z) m l :
  zmul m (lincomb (map (fun Pk => (fst Pk, f (snd Pk))) l)) = lincomb (map (fun Pk => (fst Pk, m * f (snd Pk))) l).
Proof.
  unfold lincomb. rewrite !map_map. cbn [fst snd]. induction l as [|[P k] l IH]; cbn [map gsum fold_right fst snd]; [apply zmul_id|].
  unfold gsum in IH. rewrite <- IH, zmul_op, zmul_mul. reflexivity.
Qed.
Lemma lincomb_ext (f g : Z -> Z) l : (forall Pk, In Pk l -> f (snd Pk) = g (snd Pk)) ->
  lincomb (map (fun Pk => (fst Pk, f (snd Pk))) l) = lincomb (map (fun Pk => (fst Pk, g (snd Pk))) l).
Proof. intros H. f_equal. apply map_ext_in. intros a Ha. rewrite H; auto. Qed.
(** windows from j0 on: the number above bit c*j0 *)
Lemma windows_rel c ps Ps : (c <= 64)%nat -> Forall2 wpair ps Ps -> forall n j0,
  rel (fold_left (fun acc w => j_add o (dbl_times o c acc) w) (rev (map (ws_window o c ps) (seq j0 n))) (j_zero o))
      (lincomb (map (fun Pk => (fst Pk, (snd Pk / 2 ^ Z.of_nat (c * j0)) mod 2 ^ Z.of_nat (c * n))) Ps)).
Proof.
  intros Hc H. induction n; intros j0.
  - cbn [seq map rev fold_left]. rewrite Nat.mul_0_r.
    replace (lincomb _) with (zmul 0 (lincomb (map (fun Pk => (fst Pk, 0 * snd Pk)) Ps))); [exact rel_zero|].
    rewrite (lincomb_scale (fun k => 0 * k)). apply (lincomb_ext (fun k => 0 * (0 * k)) (fun k => (k / 2 ^ Z.of_nat (c * j0)) mod 2 ^ Z.of_nat 0)).
    intros Pk _. rewrite Z.mod_1_r. ring.
  - cbn [seq map rev]. rewrite fold_left_app. cbn [fold_left].
    replace (lincomb _) with (gop (zmul (2 ^ Z.of_nat c) (lincomb (map (fun Pk => (fst Pk, (snd Pk / 2 ^ Z.of_nat (c * S j0)) mod 2 ^ Z.of_nat (c * n))) Ps)))
      (lincomb (map (fun Pk => (fst Pk, digit c j0 (snd Pk))) Ps))).
    { apply rel_add; [|apply ws_window_rel; auto]. apply dbl_times_rel, IHn. }
    rewrite (lincomb_scale (fun k => (k / 2 ^ Z.of_nat (c * S j0)) mod 2 ^ Z.of_nat (c * n))).
    rewrite (lincomb_add (fun k => 2 ^ Z.of_nat c * ((k / 2 ^ Z.of_nat (c * S j0)) mod 2 ^ Z.of_nat (c * n)))).
    apply (lincomb_ext (fun k => 2 ^ Z.of_nat c * ((k / 2 ^ Z.of_nat (c * S j0)) mod 2 ^ Z.of_nat (c * n)) + digit c j0 k)
      (fun k => (k / 2 ^ Z.of_nat (c * j0)) mod 2 ^ Z.of_nat (c * S n))).
    intros [P k] _. cbn [snd]. unfold digit.
    replace (Z.of_nat (c * S n)) with (Z.of_nat c + Z.of_nat (c * n)) by lia.
    replace (Z.of_nat (c * S j0)) with (Z.of_nat (c * j0) + Z.of_nat c) by lia.
    assert (0 < 2 ^ Z.of_nat c) by (apply Z.pow_pos_nonneg; lia). assert (0 < 2 ^ Z.of_nat (c * n)) by (apply Z.pow_pos_nonneg; lia).
    assert (0 < 2 ^ Z.of_nat (c * j0)) by (apply Z.pow_pos_nonneg; lia).
    rewrite !Z.pow_add_r by lia. rewrite Z.rem_mul_r by lia. rewrite Z.div_div by lia. ring.
Qed.
Lemma ws_width_ok n : Z.of_nat n < 2 ^ 64 -> (3 <= ws_width n <= 64)%nat.
Proof.
  intros Hn. unfold ws_width. destruct (Nat.leb_spec 32 n); [|lia]. unfold countl_zero.
  assert (5 <= Z.log2 (Z.of_nat n)) by (apply Z.log2_le_pow2; lia).
  assert (Z.log2 (Z.of_nat n) < 64) by (apply Z.log2_lt_pow2; lia).
  generalize dependent (Z.log2 (Z.of_nat n)). intros l H1 H2.
  assert (2 <= (64 - (63 - l)) / 3) by (apply Z.div_le_lower_bound; lia).
  assert ((64 - (63 - l)) / 3 < 22) by (apply Z.div_lt_upper_bound; lia). lia.
Qed.
Lemma weightedSum_rel points scalars Ps :
  Forall2 wpair (combine points scalars) Ps -> Z.of_nat (length (combine points scalars)) < 2 ^ 64 ->
  rel (j_weightedSum o points scalars) (lincomb Ps).
Proof.
  intros H Hn. unfold j_weightedSum. cbv zeta. pose proof (ws_width_ok _ Hn) as Hc. set (c := ws_width (length (combine points scalars))) in *. clearbody c.
  replace (lincomb Ps) with (lincomb (map (fun Pk => (fst Pk, (snd Pk / 2 ^ Z.of_nat (c * 0)) mod 2 ^ Z.of_nat (c * (255 / c + 1)))) Ps)).
  { apply windows_rel; [lia|exact H]. }
  transitivity (lincomb (map (fun Pk => (fst Pk, snd Pk)) Ps)).
  - f_equal. apply map_ext_in. intros [P k] HI. cbn [fst snd]. f_equal. rewrite Nat.mul_0_r. change (2 ^ Z.of_nat 0) with 1. rewrite Z.div_1_r.
    apply Z.mod_small.
    assert (exists s, words s /\ length s = 4%nat /\ val s = k) as (s & H1 & H2 & <-).
    { clear - H HI. induction H as [|[p s] [P' k'] ? ? (? & ? & ? & ?)]; [contradiction|]. destruct HI as [E1|E1]; [injection E1 as -> ->; eauto|auto]. }
    pose proof (val_bound s H1) as B. rewrite H2, W_pow, <- Z.pow_mul_r in B by lia. split; [lia|]. eapply Z.lt_le_trans; [apply B|].
    apply Z.pow_le_mono_r; [lia|]. pose proof (Nat.div_mod 255 c ltac:(lia)). pose proof (Nat.mod_upper_bound 255 c ltac:(lia)). lia.
  - f_equal. rewrite <- map_id. apply map_ext. intros [? ?]; reflexivity.
Qed.
End WS.

(** ** values of the code and points of the curve *)
Section Gen.
Context {T : Type} (o : fops T) (K : fieldOps) (C : T -> Prop) (d : T -> car K).
Hypothesis HR : represents o K C d.
Hypothesis Kf : field_theory (k0 : car K) k1 kadd kmul ksub kopp (fun x y => kmul x (kinv y)) kinv eq.
Hypothesis two_nz : kadd (k1 : car K) k1 <> k0.
Hypothesis three_nz : kadd (kadd (k1 : car K) k1) k1 <> k0.
Variable b : car K.
Hypothesis b_nz : b <> k0.
Definition E : abgroup := curve_group K Kf two_nz three_nz b b_nz.
Definition jcan (p : jac T) : Prop := C (jx p) /\ C (jy p) /\ C (jz p).
Definition jdec (p : jac T) : jac (car K) := mkJ (d (jx p)) (d (jy p)) (d (jz p)).
(** p has valid coordinates and is the point P *)
Definition jrep (p : jac T) (P : point K) : Prop := jcan p /\ jacobian (d (jx p)) (d (jy p)) (d (jz p)) P.
Definition erep (p : jac T) (P : E) : Prop := jrep p (@cpt K b P).
Add Field KFG : Kf.
Lemma jacobian_jpt (q : jac (car K)) P : jacobian (jx q) (jy q) (jz q) P <-> jpt q = P.
Proof.
  split.
  - destruct P as [|u v]; cbn [jacobian].
    + intros H. apply jpt_isZero. unfold j_isZero. cbn. destruct (keq (jz q) k0); auto.
    + intros (H1 & H2 & H3). unfold ksq, kcube in *. destruct q as [x y z]. cbn in *. apply (jpt_mk Kf); auto. rewrite H3. ring.
  - intros <-. destruct (jpt q) as [|u v] eqn:EQ; cbn [jacobian].
    + apply jpt_isZero in EQ. unfold j_isZero in EQ. cbn in EQ. destruct (keq (jz q) k0); auto; discriminate.
    + destruct (jpt_inv Kf _ _ _ EQ) as (H1 & H2 & H3). unfold ksq, kcube. split; [auto|]. split; auto. rewrite H3. ring.
Qed.
Lemma jrep_iff p P : jrep p P <-> jcan p /\ jpt (jdec p) = P.
Proof. unfold jrep. rewrite <- (jacobian_jpt (jdec p)). reflexivity. Qed.
Lemma jrep_fun p P Q : jrep p P -> jrep p Q -> P = Q.
Proof. rewrite !jrep_iff. intros [_ <-] [_ <-]. reflexivity. Qed.
Lemma jrep_ex p : jcan p -> exists P, jrep p P. Proof. intros H. exists (jpt (jdec p)). apply jrep_iff; auto. Qed.
Lemma RJ_iff p q : RJ K C d p q <-> jcan p /\ q = jdec p.
Proof.
  unfold RJ, R, jcan, jdec. split.
  - intros ((A1 & A2) & (A3 & A4) & (A5 & A6)). split; [auto|]. destruct q; cbn in *. congruence.
  - intros ((A1 & A2 & A3) & ->). cbn. auto 6.
Qed.
Lemma RJ_dec p : jcan p -> RJ K C d p (jdec p). Proof. intros H. apply RJ_iff; auto. Qed.
Notation on_ := (onP K b).
Lemma erep_on p P : erep p P -> jcan p /\ jpt (jdec p) = cpt P /\ on_ (jpt (jdec p)).
Proof. intros H. apply jrep_iff in H. destruct H as [H1 H2]. split; auto. split; auto. rewrite H2. apply (curve_on K Kf). Qed.
Ltac viaR H := let A := fresh in let B := fresh in pose proof H as A; apply RJ_iff in A; destruct A as [A B]; apply jrep_iff; split; [exact A|]; rewrite <- B.
Lemma jrep_zero : jrep (j_zero o) Inf. Proof. viaR (j_zero_R o K C d HR). apply jpt_zero. Qed.
Lemma erep_zero : erep (j_zero o) gid. Proof. apply jrep_zero. Qed.
Lemma erep_000 : erep (mkJ (f_zero o) (f_zero o) (f_zero o)) gid.
Proof. destruct (r_zero _ _ _ _ HR) as [H1 H2]. split; [split; [|split]; exact H1|]. cbn. exact H2. Qed.
Lemma jrep_add p q P Q : jrep p P -> jrep q Q -> on_ P -> on_ Q -> jrep (j_add o p q) (padd P Q).
Proof.
  intros Hp Hq OP OQ. apply jrep_iff in Hp, Hq. destruct Hp as [A1 A2], Hq as [B1 B2]. viaR (j_add_R o K C d HR _ _ _ _ (RJ_dec p A1) (RJ_dec q B1)).
  rewrite <- A2, <- B2. apply (jpt_add Kf two_nz b); congruence.
Qed.
Lemma erep_add p q P Q : erep p P -> erep q Q -> erep (j_add o p q) (gop P Q).
Proof. intros Hp Hq. apply jrep_add; auto; apply (curve_on K Kf). Qed.
Lemma jrep_dbl p P : jrep p P -> on_ P -> jrep (j_dbl o p) (padd P P).
Proof.
  intros Hp OP. apply jrep_iff in Hp. destruct Hp as [A1 A2]. viaR (j_dbl_R o K C d HR _ _ (RJ_dec p A1)).
  rewrite <- A2. apply (jpt_dbl Kf two_nz b); congruence.
Qed.
Lemma erep_dbl p P : erep p P -> erep (j_dbl o p) (gop P P).
Proof. intros Hp. apply jrep_dbl; auto; apply (curve_on K Kf). Qed.
Lemma jrep_neg p P : jrep p P -> jrep (j_neg o p) (pneg P).
Proof.
  intros Hp. apply jrep_iff in Hp. destruct Hp as [A1 A2]. viaR (j_neg_R o K C d HR _ _ (RJ_dec p A1)).
  rewrite <- A2. apply (jpt_neg Kf).
Qed.
Lemma erep_neg p P : erep p P -> erep (j_neg o p) (ginv P).
Proof. apply jrep_neg. Qed.
Lemma jrep_sub p q P Q : jrep p P -> jrep q Q -> on_ P -> on_ Q -> jrep (j_sub o p q) (padd P (pneg Q)).
Proof. intros Hp Hq OP OQ. apply jrep_add; auto using jrep_neg. apply (pneg_on K Kf); auto. Qed.
Lemma erep_sub p q P Q : erep p P -> erep q Q -> erep (j_sub o p q) (gop P (ginv Q)).
Proof. intros Hp Hq. apply erep_add; auto. apply erep_neg; auto. Qed.
Lemma jrep_affine p P : jrep p P -> jrep (j_affine o p) P.
Proof.
  intros Hp. apply jrep_iff in Hp. destruct Hp as [A1 A2]. viaR (j_affine_R o K C d HR _ _ (RJ_dec p A1)).
  rewrite <- A2. apply (jpt_affine Kf).
Qed.
Lemma j_affine_coords p u v : (forall x y, C x -> C y -> d x = d y -> x = y) -> jrep p (Aff u v) ->
  R K C d (jx (j_affine o p)) u /\ R K C d (jy (j_affine o p)) v /\ jz (j_affine o p) = f_one o.
Proof.
  intros INJ Hp. pose proof (jrep_affine _ _ Hp) as Ha. apply jrep_iff in Hp. destruct Hp as [A1 A2].
  pose proof (j_affine_R o K C d HR _ _ (RJ_dec p A1)) as X. apply RJ_iff in X. destruct X as [X1 X2].
  pose proof (j_affine_z (jdec p) ltac:(congruence)) as Hz. apply jrep_iff in Ha. destruct Ha as [_ Ha].
  rewrite <- X2 in Ha. apply (jpt_aff Kf) in Ha; auto. rewrite X2 in Ha, Hz. cbn in Ha, Hz. destruct X1 as (X1 & X3 & X4). unfold R.
  split; [tauto|]. split; [tauto|]. apply INJ; auto; [apply (r_one _ _ _ _ HR)|]. rewrite Hz. symmetry. apply (r_one _ _ _ _ HR).
Qed.
Lemma j_isZero_rep p P : jrep p P -> j_isZero o p = true <-> P = Inf.
Proof.
  intros Hp. apply jrep_iff in Hp. destruct Hp as [A1 A2]. rewrite (j_isZero_R o K C d HR _ _ (RJ_dec p A1)), jpt_isZero. rewrite A2. tauto.
Qed.
Lemma j_equal_rep p q P Q : jrep p P -> jrep q Q -> j_equal o p q = true <-> P = Q.
Proof.
  intros Hp Hq. apply jrep_iff in Hp, Hq. destruct Hp as [A1 <-], Hq as [B1 <-].
  rewrite (j_equal_R o K C d HR _ _ _ _ (RJ_dec p A1) (RJ_dec q B1)). apply (j_equal_ok Kf).
Qed.
Lemma erep_equal p q P Q : erep p P -> erep q Q -> j_equal o p q = true <-> P = Q.
Proof. intros Hp Hq. rewrite (j_equal_rep _ _ _ _ Hp Hq). split; [apply curve_eq|intros ->; auto]. Qed.
Lemma erep_isZero p P : erep p P -> j_isZero o p = true <-> P = gid.
Proof. intros Hp. rewrite (j_isZero_rep _ _ Hp). split; [apply (curve_eq K b P (czero K b))|intros ->; auto]. Qed.
Lemma j_isOnCurve_rep bt p P : R K C d bt b -> jrep p P -> j_isOnCurve o bt p = true <-> onb b P = true.
Proof.
  intros Hb Hp. apply jrep_iff in Hp. destruct Hp as [A1 <-]. rewrite (j_isOnCurve_R o K C d HR _ _ _ _ Hb (RJ_dec p A1)).
  rewrite (onb_ok K Kf). apply (j_isOnCurve_ok Kf).
Qed.
Lemma erep_ex bt p : R K C d bt b -> jcan p -> j_isOnCurve o bt p = true -> exists P, erep p P.
Proof.
  intros Hb Hc Ho. destruct (jrep_ex p Hc) as [P HP]. apply (j_isOnCurve_rep bt p P Hb HP) in Ho.
  exists (mkC K b P Ho). exact HP.
Qed.
Lemma erep_fun p P Q : erep p P -> erep p Q -> P = Q.
Proof. intros H1 H2. apply curve_eq. apply (jrep_fun p); auto. Qed.
Lemma erep_scale p P s : erep p P -> words s -> erep (j_scale o p s) (zmul (val s) P).
Proof.
  intros Hp Hs. unfold j_scale. apply (gscale_ok _ (j_dbl o) (j_add o) _ (fun n q => erep q (zmul n P))); auto.
  - intros n q _ H. rewrite Z.mul_comm, zmul_mul, zmul_2, zmul_op. apply erep_dbl; auto.
  - intros m n q r _ _ H1 H2. rewrite zmul_add. apply erep_add; auto.
  - apply erep_000.
Qed.
Lemma erep_weightedSum points scalars Ps :
  Forall2 (wpair E erep) (combine points scalars) Ps -> Z.of_nat (length (combine points scalars)) < 2 ^ 64 ->
  erep (j_weightedSum o points scalars) (lincomb E Ps).
Proof. apply weightedSum_rel; [apply erep_zero|apply erep_add|apply erep_dbl]. Qed.
End Gen.
