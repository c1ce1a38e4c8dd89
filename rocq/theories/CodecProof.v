(** Proofs about the point codecs. *)
From Coq Require Import ZArith List Bool Lia Field Znumtheory.
From Verif Require Import SpecField FieldProof TowerProof ModelWord ModelPrim ModelScalar ScalarProof ModelFp ModelTower FpProof FpProof2 TowerRefine TowerRefine3.
From Verif Require Import SpecBytes BytesProof FpCodec SpecCodec.
From Verif Require Import SpecCurve AbGroup CurveProof ModelCurve CurveRefine CurveRefine2 CurveInst ModelCodec.
Import ListNotations.
Local Open Scope Z_scope.

(** * Jacobian and affine codecs, generically *)
Section Gen.
Context {T : Type} (o : fops T) (K : fieldOps) (C : T -> Prop) (d : T -> car K).
Hypothesis HR : represents o K C d.
Hypothesis Kf : field_theory (k0 : car K) k1 kadd kmul ksub kopp (fun x y => kmul x (kinv y)) kinv eq.
Variable b : car K.
Hypothesis b_nz : b <> k0.
Variable bt : T.
Hypothesis Rb : R K C d bt b.
Hypothesis INJ : forall x y, C x -> C y -> d x = d y -> x = y.
Add Field KFcod : Kf.
Notation jrep := (jrep K C d).
Notation jcan := (jcan C).
Definition rep_on (p : jac T) (P : point K) : Prop := jrep p P /\ onb b P = true.

Variables (n : nat) (rd : list Z -> option T) (wr : T -> list Z).
Hypothesis HC : codec n C wr rd.
Hypothesis wr0 : wr (f_zero o) = repeat 0 n.
Notation rd3 := (fun b (_ _ : bool) => rd b). Notation wr1 := (fun x (_ : bool) => wr x).
Notation toJ := (fun p => j_toJacobian wr1 p true). Notation fromJ := (fun l c => j_fromJacobian o bt n rd3 l c true).
Notation toA := (fun p => j_toAffine o n wr1 p true). Notation fromA := (fun l c => j_fromAffine o bt n rd3 l c true).

Lemma jac_rt p c : jcan p -> bytes (toJ p) /\ length (toJ p) = (3 * n)%nat /\
  fromJ (toJ p) c = if c && negb (j_isOnCurve o bt p) then None else Some p.
Proof.
  intros (X & Y & Z). destruct HC as [E _]. destruct (E _ X) as (X1 & X2 & X3). destruct (E _ Y) as (Y1 & Y2 & Y3). destruct (E _ Z) as (Z1 & Z2 & Z3).
  unfold j_toJacobian, j_fromJacobian. split; [|split].
  - apply Forall_app. split; [auto|]. apply Forall_app. auto.
  - rewrite !app_length. lia.
  - rewrite span_app1, X3 by auto. rewrite !(span_app2' (wr (jx p)) _ _ n n) by (auto; lia). replace (n - n)%nat with O by lia. replace (2 * n - n)%nat with n by lia.
    rewrite span_app1, Y3 by auto. rewrite span_app2 by auto. rewrite span_all, Z3 by auto. destruct p. reflexivity.
Qed.
Lemma span_split3 l m : length l = (3 * m)%nat -> sub_span 0 m l ++ sub_span m m l ++ sub_span (2 * m) m l = l.
Proof.
  intros L. assert (L2 : length l = (m + (m + m))%nat) by lia.
  rewrite <- (span_split2 l m (m + m) L2) at 4. f_equal.
  rewrite <- (span_split2 (sub_span m (m + m) l) m m) by (apply span_length; lia).
  rewrite !span_span by lia. f_equal; f_equal; lia.
Qed.
Lemma jac_inv l c p : bytes l -> length l = (3 * n)%nat -> fromJ l c = Some p ->
  jcan p /\ toJ p = l /\ (c = true -> j_isOnCurve o bt p = true).
Proof.
  intros Hb L. unfold j_fromJacobian. destruct HC as [_ D].
  destruct (rd (sub_span 0 n l)) as [x|] eqn:E1; [|discriminate].
  destruct (rd (sub_span n n l)) as [y|] eqn:E2; [|discriminate].
  destruct (rd (sub_span (2 * n) n l)) as [z|] eqn:E3; [|discriminate].
  apply D in E1, E2, E3; try apply span_bytes, Hb; try (apply span_length; lia). destruct E1 as [C1 R1], E2 as [C2 R2], E3 as [C3 R3].
  intros H. assert (Hp : p = mkJ x y z) by (destruct (c && negb (j_isOnCurve o bt (mkJ x y z))); [discriminate H|congruence]).
  subst p. split; [split; [|split]; assumption|]. split.
  - unfold j_toJacobian. cbn [jx jy jz]. rewrite R1, R2, R3. apply span_split3, L.
  - intros ->. cbn [andb] in H. destruct (j_isOnCurve o bt (mkJ x y z)); [reflexivity|discriminate].
Qed.
Lemma isZ_R x k : R K C d x k -> f_isZero o x = true <-> k = k0.
Proof. intros H. rewrite (R_isz o K C d HR x k H). cbn. destruct (keq k k0); split; intros; auto; discriminate. Qed.
Lemma one_R : R K C d (f_one o) k1. Proof. exact (R_one o K C d HR). Qed.
Lemma zero_R : R K C d (f_zero o) k0. Proof. exact (R_zero o K C d HR). Qed.
Lemma k1_nz : (k1 : car K) <> k0. Proof. exact (F_1_neq_0 Kf). Qed.
Lemma rep_aff x y : C x -> C y -> jrep (mkJ x y (f_one o)) (Aff (d x) (d y)).
Proof.
  intros Cx Cy. destruct one_R as [C1 D1]. split; [split; [|split]; assumption|]. cbn. rewrite D1. split; [apply k1_nz|]. unfold ksq, kcube. split; ring.
Qed.
Lemma aff_id x y : C x -> C y -> j_isZero o (mkJ x y (f_one o)) = false /\ j_affine o (mkJ x y (f_one o)) = mkJ x y (f_one o).
Proof.
  intros Cx Cy. split.
  - unfold j_isZero. cbn [jz]. apply not_true_iff_false. rewrite (isZ_R _ _ one_R). apply k1_nz.
  - unfold j_affine, j_isAffine. cbn [jz]. rewrite (R_is1 o K C d HR _ _ one_R). cbn. destruct (keq k1 k1); [|contradiction]. rewrite orb_true_r. reflexivity.
Qed.
Lemma on_00 : onb b (Aff k0 k0) = false.
Proof. cbn. destruct (keq _ _) as [E|]; [exfalso; apply b_nz|reflexivity]. unfold ksq, kcube in E. transitivity (kadd (kmul k0 (kmul k0 k0)) b); [ring|]. rewrite <- E. ring. Qed.
Lemma aff_eta p u v : jrep p (Aff u v) -> exists x y, R K C d x u /\ R K C d y v /\ j_affine o p = mkJ x y (f_one o).
Proof.
  intros H. destruct (j_affine_coords o K C d HR Kf p u v INJ H) as (X & Y & Z). exists (jx (j_affine o p)), (jy (j_affine o p)).
  split; [exact X|]. split; [exact Y|]. rewrite <- Z. destruct (j_affine o p). reflexivity.
Qed.
Lemma aff_rt p P c : rep_on p P -> bytes (toA p) /\ length (toA p) = (2 * n)%nat /\
  fromA (toA p) c = Some (if j_isZero o p then j_zero o else j_affine o p).
Proof.
  intros [H O]. destruct HC as [E _]. unfold j_toAffine, j_fromAffine. destruct (j_isZero o p) eqn:Ez.
  - destruct zero_R as [C0 D0]. destruct (E _ C0) as (X1 & X2 & X3). rewrite wr0 in *.
    replace (2 * n)%nat with (n + n)%nat by lia. rewrite repeat_app. split; [apply Forall_app; auto|]. split; [rewrite app_length; lia|].
    rewrite span_app1, span_app2, span_all, X3 by auto.
    replace (f_isZero o (f_zero o)) with true; [reflexivity|]. symmetry. apply (isZ_R _ _ zero_R). reflexivity.
  - destruct P as [|u v]; [exfalso; apply (j_isZero_rep o K C d HR Kf p _ H) in Ez || (assert (X := proj2 (j_isZero_rep o K C d HR Kf p Inf H) eq_refl); congruence)|].
    destruct (aff_eta p u v H) as (x & y & [Cx Dx] & [Cy Dy] & ->). cbn [jx jy].
    destruct (E _ Cx) as (X1 & X2 & X3). destruct (E _ Cy) as (Y1 & Y2 & Y3).
    split; [apply Forall_app; auto|]. split; [rewrite app_length; lia|].
    rewrite span_app1, span_app2, span_all, X3, Y3 by auto.
    destruct (f_isZero o x && f_isZero o y) eqn:E2.
    + apply andb_true_iff in E2. destruct E2 as [F1 F2]. apply (isZ_R x u (conj Cx Dx)) in F1. apply (isZ_R y v (conj Cy Dy)) in F2.
      subst u v. rewrite F1, F2, on_00 in O. discriminate.
    + replace (j_isOnCurve o bt (mkJ x y (f_one o))) with true; [rewrite andb_false_r; reflexivity|]. symmetry.
      apply (j_isOnCurve_rep o K C d HR Kf b bt _ _ Rb (rep_aff x y Cx Cy)). rewrite Dx, Dy. exact O.
Qed.
Lemma aff_inv l q : bytes l -> length l = (2 * n)%nat -> fromA l true = Some q -> (exists P, rep_on q P) /\ toA q = l.
Proof.
  intros Hb L. unfold j_fromAffine. destruct HC as [E D].
  destruct (rd (sub_span 0 n l)) as [x|] eqn:E1; [|discriminate].
  destruct (rd (sub_span n n l)) as [y|] eqn:E2; [|discriminate].
  apply D in E1, E2; try apply span_bytes, Hb; try (apply span_length; lia). destruct E1 as [C1 R1], E2 as [C2 R2].
  assert (SP : sub_span 0 n l ++ sub_span n n l = l) by (apply span_split2; lia).
  destruct (f_isZero o x && f_isZero o y) eqn:Ez.
  - intros [= <-]. split.
    + exists Inf. split; [apply (jrep_zero o K C d HR Kf)|reflexivity].
    + unfold j_toAffine, j_isZero, j_zero. cbn [jz]. replace (f_isZero o (f_zero o)) with true by (symmetry; apply (isZ_R _ _ zero_R); reflexivity).
      apply andb_true_iff in Ez. destruct Ez as [F1 F2]. apply (isZ_R x (d x) (conj C1 eq_refl)) in F1. apply (isZ_R y (d y) (conj C2 eq_refl)) in F2.
      destruct zero_R as [C0 D0]. rewrite <- D0 in F1, F2. apply INJ in F1; auto. apply INJ in F2; auto. subst x y.
      rewrite <- SP, <- R1, <- R2, wr0, <- repeat_app. f_equal. lia.
  - cbn [andb]. destruct (j_isOnCurve o bt (mkJ x y (f_one o))) eqn:Eo; [|discriminate]. cbn [negb]. intros [= <-]. split.
    + exists (Aff (d x) (d y)). split; [apply rep_aff; auto|]. exact (proj1 (j_isOnCurve_rep o K C d HR Kf b bt _ _ Rb (rep_aff x y C1 C2)) Eo).
    + unfold j_toAffine. destruct (aff_id x y C1 C2) as [-> ->]. cbn [jx jy]. rewrite R1, R2. exact SP.
Qed.

(** * Recovering y *)
Variables (sqrt : T -> bool * T) (lex : T -> bool) (sgn : car K -> bool).
Hypothesis sqrt_ok : forall x, C x -> C (snd (sqrt x)) /\ (fst (sqrt x) = true <-> exists s, kmul s s = d x) /\
  (fst (sqrt x) = true -> kmul (d (snd (sqrt x))) (d (snd (sqrt x))) = d x).
Hypothesis lex_ok : forall x, C x -> lex x = sgn (d x).
Hypothesis sgn_opp : forall v : car K, v <> k0 -> sgn (kopp v) = negb (sgn v).
Hypothesis no2 : forall u v, onb b (Aff u v) = true -> v <> k0.
Lemma recover_ok x s : C x ->
  match j_recover o bt sqrt lex x s with
  | None => forall v, onb b (Aff (d x) v) = false
  | Some q => exists v, rep_on q (Aff (d x) v) /\ sgn v = s /\ jx q = x /\ jz q = f_one o
  end.
Proof.
  intros Cx. unfold j_recover.
  assert (Ry : R K C d (f_add o (f_mul o (f_sqr o x) x) bt) (kadd (kcube (d x)) b)).
  { assert (Rx : R K C d x (d x)) by (split; auto).
    pose proof (R_add o K C d HR _ _ _ _ (R_mul o K C d HR _ _ _ _ (R_sqr o K C d HR _ _ Rx) Rx) Rb) as [A1 A2]. split; [exact A1|].
    etransitivity; [exact A2|]. cbn. unfold kcube. ring. }
  destruct Ry as [Cy Dy]. destruct (sqrt_ok _ Cy) as (Cs & S1 & S2). destruct (sqrt _) as [ok r]. cbn [fst snd] in *.
  destruct ok.
  - specialize (S2 eq_refl). rewrite Dy in S2.
    assert (On : onb b (Aff (d x) (d r)) = true). { cbn. unfold ksq. destruct (keq _ _); [reflexivity|contradiction]. }
    assert (Rn : R K C d (f_neg o r) (kopp (d r))) by (apply (R_neg o K C d HR); split; auto). destruct Rn as [Cn Dn].
    assert (On' : onb b (Aff (d x) (kopp (d r))) = true).
    { cbn. unfold ksq. destruct (keq _ _) as [|N]; [reflexivity|]. exfalso. apply N. rewrite <- S2. ring. }
    pose proof (no2 _ _ On) as Nz. rewrite (lex_ok r Cs). destruct (sgn (d r)) eqn:Es; destruct s; cbn [xorb].
    + exists (d r). split; [split; [apply rep_aff; auto|exact On]|]. auto.
    + exists (kopp (d r)). split; [split; [rewrite <- Dn; apply rep_aff; auto|exact On']|]. rewrite sgn_opp, Es by auto. auto.
    + exists (kopp (d r)). split; [split; [rewrite <- Dn; apply rep_aff; auto|exact On']|]. rewrite sgn_opp, Es by auto. auto.
    + exists (d r). split; [split; [apply rep_aff; auto|exact On]|]. auto.
  - intros v. apply not_true_iff_false. intros O. cbn in O. destruct (keq _ _) as [E|]; [|discriminate].
    assert (X : false = true) by (apply S1; exists v; rewrite Dy; exact E). discriminate.
Qed.
Lemma sgn_inj u v v' : onb b (Aff u v) = true -> onb b (Aff u v') = true -> sgn v = sgn v' -> v = v'.
Proof.
  intros O O' S. pose proof (no2 _ _ O) as N. cbn in O, O'. destruct (keq _ _) as [E|] in O; [|discriminate]. destruct (keq _ _) as [E'|] in O'; [|discriminate].
  assert (X : kmul (ksub v v') (kadd v v') = k0). { unfold ksq in *. transitivity (ksub (kmul v v) (kmul v' v')); [ring|]. rewrite E, E'. ring. }
  destruct (keq v v') as [|D]; [assumption|exfalso].
  assert (Y : kadd v v' = k0). { transitivity (kmul (kinv (ksub v v')) (kmul (ksub v v') (kadd v v'))); [field; intros Z; apply D; transitivity (kadd (ksub v v') v'); [ring|rewrite Z; ring]|rewrite X; ring]. }
  assert (V : v' = kopp v). { transitivity (kadd (kopp v) (kadd v v')); [ring|rewrite Y; ring]. }
  rewrite V, sgn_opp in S by auto. destruct (sgn v); discriminate.
Qed.
End Gen.

(** * Bytes and flag bits *)
Lemma int_be_S n v : int_be (S n) v = (v / 256 ^ Z.of_nat n) mod 256 :: int_be n v.
Proof. unfold int_be. replace (S n) with (n + 1)%nat by lia. rewrite int_le_app, rev_app_distr. reflexivity. Qed.
Lemma int_be_mod n v : int_be n (v mod 256 ^ Z.of_nat n) = int_be n v.
Proof. unfold int_be. rewrite int_le_mod by lia. reflexivity. Qed.
Lemma int_be_hi n v k : int_be n (v + 256 ^ Z.of_nat n * k) = int_be n v.
Proof. rewrite <- (int_be_mod n (v + _)), <- (int_be_mod n v). f_equal. rewrite Z.mul_comm. apply Z_mod_plus_full. Qed.
Lemma odd_land a : (Z.land a 1 =? 1) = Z.testbit a 0.
Proof. change 1 with (Z.ones 1) at 1. rewrite Z.land_ones by lia. rewrite Z.bit0_odd. change (2 ^ 1) with 2. rewrite Zmod_odd. destruct (Z.odd a); reflexivity. Qed.
Lemma byte_flag h k e : 0 <= k < 8 -> h = (e / 2 ^ 376) mod 2 ^ 8 -> (Z.land (Z.shiftr h k) 1 =? 1) = Z.testbit e (376 + k).
Proof.
  intros H ->. rewrite odd_land, Z.shiftr_spec by lia. rewrite Z.mod_pow2_bits_low by lia. rewrite Z.div_pow2_bits by lia. f_equal. lia.
Qed.
Lemma flag_app b c k : b <> [] -> flag (b ++ c) k = flag b k.
Proof. destruct b; [contradiction|reflexivity]. Qed.
Lemma flag_ok b k : bytes b -> length b = 48%nat -> 0 <= k < 8 -> flag b k = Z.testbit (be_int b) (376 + k).
Proof.
  intros Hb L Hk. unfold flag. apply byte_flag; [exact Hk|]. rewrite <- (int_be_be_int b Hb) at 1. rewrite L, int_be_S. reflexivity.
Qed.
Lemma or0_ok v m j : 0 <= j < 8 -> 0 <= v < 2 ^ (376 + j) -> m = 2 ^ j -> or0 (int_be 48 v) m = int_be 48 (v + 2 ^ (376 + j)).
Proof.
  intros Hj Hv ->. rewrite !(int_be_S 47). cbn [or0]. change (256 ^ Z.of_nat 47) with (2 ^ 376).
  assert (E : 2 ^ (376 + j) = 2 ^ 376 * 2 ^ j) by (apply Z.pow_add_r; lia).
  f_equal.
  - rewrite E, Z.mul_comm, Z_div_plus_full by discriminate. 
    assert (Q : 0 <= v / 2 ^ 376 < 2 ^ j). { split; [apply Z.div_pos; lia|]. apply Z.div_lt_upper_bound; lia. }
    assert (P8 : 2 * 2 ^ j <= 256). { replace (2 * 2 ^ j) with (2 ^ (j + 1)) by (rewrite Z.pow_add_r by lia; lia). apply (Z.pow_le_mono_r 2 (j + 1) 8); lia. }
    rewrite !Z.mod_small by lia. pose proof (lor_shift (v / 2 ^ 376) 1 j ltac:(lia) Q ltac:(lia)) as X. rewrite Z.shiftl_1_l in X. rewrite X. lia.
  - rewrite E. change (2 ^ 376) with (256 ^ Z.of_nat 47). symmetry. apply int_be_hi.
Qed.
Lemma land_mask f : 0 <= f -> Z.land f 0x1FFFFFFFFFFFFFFF = f mod 2 ^ 61.
Proof. intros H. change 0x1FFFFFFFFFFFFFFF with (Z.ones 61). apply Z.land_ones. lia. Qed.
Lemma read381_ok b : bytes b -> length b = 48%nat -> read381 b = be_int b mod 2 ^ 381.
Proof.
  intros Hb L. unfold read381. pose proof (fromBytesBE_ok 6 b Hb L) as V. pose proof (fromBytesBE_words 6 b Hb L) as Hw. pose proof (fromBytesBE_length 6 b) as Ll.
  set (dd := fromBytesBE 6 b) in *. clearbody dd.
  destruct dd as [|a0 [|a1 [|a2 [|a3 [|a4 [|a5 [|]]]]]]]; try discriminate Ll. cbn [firstn nth app].
  assert (W0 : 0 <= val [a0; a1; a2; a3; a4] < W ^ 5). { apply (val_bound [a0; a1; a2; a3; a4]). repeat (inversion Hw as [|? ? ? Hw']; clear Hw; subst; rename Hw' into Hw). repeat (constructor; try assumption). }
  assert (W5 : 0 <= a5) by (repeat (inversion Hw as [|? ? ? Hw']; clear Hw; subst; rename Hw' into Hw); unfold word in *; lia).
  rewrite land_mask by exact W5. rewrite <- V.
  change [a0; a1; a2; a3; a4; a5] with ([a0; a1; a2; a3; a4] ++ [a5]). change [a0; a1; a2; a3; a4; a5 mod 2 ^ 61] with ([a0; a1; a2; a3; a4] ++ [a5 mod 2 ^ 61]).
  rewrite !val_app. cbn [length]. set (lo := val [a0; a1; a2; a3; a4]) in *. change (W ^ Z.of_nat 5) with (W ^ 5). clearbody lo.
  change (val [a5]) with (a5 + W * 0). change (val [a5 mod 2 ^ 61]) with (a5 mod 2 ^ 61 + W * 0). change (W ^ 5) with (2 ^ 320) in *. clear - W0 W5.
  apply (Z.mod_unique_pos _ _ (a5 / 2 ^ 61)).
  - pose proof (Z.mod_pos_bound a5 (2 ^ 61) ltac:(lia)). lia.
  - pose proof (Z.div_mod a5 (2 ^ 61) ltac:(lia)). lia.
Qed.

(** * Field codecs for both settings of the Montgomery flag *)
Lemma fp_codec_raw_BE : codec 48 canon (fun x => fp_toBytesBE x false) (fun b => fp_fromBytesBE b true false).
Proof.
  split.
  - intros x H. assert (RX : 0 <= x < R384) by (pose proof R_M; unfold canon in H; lia).
    assert (E : fp_toBytesBE x false = int_be 48 x).
    { unfold fp_toBytesBE. rewrite toBytesBE_ok, limbs_of_length by apply limbs_of_words. rewrite limbs_of_small by exact RX. reflexivity. }
    rewrite E. split; [apply int_be_bytes|]. split; [apply int_be_length|].
    rewrite fp_fromBytesBE_int by (auto using int_be_bytes, int_be_length). rewrite be_int_int_be by apply RX. change (256 ^ Z.of_nat 48) with R384.
    rewrite Z.mod_small by exact RX. unfold fp_of_int. cbn [andb]. destruct (Z.ltb_spec x modulus); [reflexivity|]. unfold canon in H. rewrite M_eq in H. lia.
  - intros b x Hb L H. rewrite fp_fromBytesBE_int in H by auto. unfold fp_of_int in H. cbn [andb] in H. destruct (Z.ltb_spec (be_int b) modulus); [|discriminate].
    cbn [negb] in H. injection H as <-. pose proof (be48_range b Hb L) as RX. split; [unfold canon; rewrite M_eq; lia|].
    unfold fp_toBytesBE. rewrite toBytesBE_ok, limbs_of_length by apply limbs_of_words. rewrite limbs_of_small by exact RX.
    change (8 * 6)%nat with 48%nat. rewrite <- L. apply int_be_be_int, Hb.
Qed.
Lemma fp_codec_raw_LE : codec 48 canon (fun x => fp_toBytesLE x false) (fun b => fp_fromBytesLE b true false).
Proof.
  split.
  - intros x H. assert (RX : 0 <= x < R384) by (pose proof R_M; unfold canon in H; lia).
    assert (E : fp_toBytesLE x false = int_le 48 x).
    { unfold fp_toBytesLE. rewrite toBytesLE_ok, limbs_of_length by apply limbs_of_words. rewrite limbs_of_small by exact RX. reflexivity. }
    rewrite E. split; [apply int_le_bytes|]. split; [apply int_le_length|].
    rewrite fp_fromBytesLE_int by (auto using int_le_bytes, int_le_length). rewrite le_int_int_le by apply RX. change (256 ^ Z.of_nat 48) with R384.
    rewrite Z.mod_small by exact RX. unfold fp_of_int. cbn [andb]. destruct (Z.ltb_spec x modulus); [reflexivity|]. unfold canon in H. rewrite M_eq in H. lia.
  - intros b x Hb L H. rewrite fp_fromBytesLE_int in H by auto. unfold fp_of_int in H. cbn [andb] in H. destruct (Z.ltb_spec (le_int b) modulus); [|discriminate].
    cbn [negb] in H. injection H as <-. pose proof (le48_range b Hb L) as RX. split; [unfold canon; rewrite M_eq; lia|].
    unfold fp_toBytesLE. rewrite toBytesLE_ok, limbs_of_length by apply limbs_of_words. rewrite limbs_of_small by exact RX.
    change (8 * 6)%nat with 48%nat. rewrite <- L. apply int_le_le_int, Hb.
Qed.
Lemma fp_codecs_BE m : codec 48 canon (fun x => fp_toBytesBE x m) (fun b => fp_fromBytesBE b true m).
Proof. destruct m; [apply fp_codec_BE|apply fp_codec_raw_BE]. Qed.
Lemma fp_codecs_LE m : codec 48 canon (fun x => fp_toBytesLE x m) (fun b => fp_fromBytesLE b true m).
Proof. destruct m; [apply fp_codec_LE|apply fp_codec_raw_LE]. Qed.
Lemma fp2_codecs_BE m : codec 96 canon2 (fun x => fp2_toBytesBE x m) (fun b => fp2_fromBytesBE b true m).
Proof.
  refine (codec_ext 96 _ _ _ _ _ _ _ _ _ (codec_pair 48 48 _ _ _ _ _ _ (fun a b => mk2 b a) c1 c0 _ _ (fp_codecs_BE m) (fp_codecs_BE m))).
  - intros [a b]. unfold canon2. cbn. tauto.
  - intros x. unfold fp2_toBytesBE. reflexivity.
  - intros b _. unfold fp2_fromBytesBE. reflexivity.
  - intros [a b]. reflexivity.
  - intros. split; reflexivity.
Qed.
Lemma fp2_codecs_LE m : codec 96 canon2 (fun x => fp2_toBytesLE x m) (fun b => fp2_fromBytesLE b true m).
Proof.
  refine (codec_ext 96 _ _ _ _ _ _ _ _ _ (codec_pair 48 48 _ _ _ _ _ _ (fun a b => mk2 a b) c0 c1 _ _ (fp_codecs_LE m) (fp_codecs_LE m))).
  - intros [a b]. unfold canon2. cbn. tauto.
  - intros x. unfold fp2_toBytesLE. reflexivity.
  - intros b _. unfold fp2_fromBytesLE. reflexivity.
  - intros [a b]. reflexivity.
  - intros. split; reflexivity.
Qed.
Lemma wr0_1BE m : fp_toBytesBE fp_zero m = repeat 0 48. Proof. destruct m; vm_compute; reflexivity. Qed.
Lemma wr0_1LE m : fp_toBytesLE fp_zero m = repeat 0 48. Proof. destruct m; vm_compute; reflexivity. Qed.
Lemma wr0_2BE m : fp2_toBytesBE fp2_zero m = repeat 0 96. Proof. destruct m; vm_compute; reflexivity. Qed.
Lemma wr0_2LE m : fp2_toBytesLE fp2_zero m = repeat 0 96. Proof. destruct m; vm_compute; reflexivity. Qed.
