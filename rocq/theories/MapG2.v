(** mapToCurve for G2. *)
From Coq Require Import ZArith List Bool Lia Uint63 Ring Field.
From Verif Require Import SpecField FieldProof RingPow TowerProof TowerProof2 ModelWord ModelPrim ModelScalar ModelFp ModelTower FpProof FpProof2 TowerRefine TowerRefine3 ModelCurve SpecCurve AbGroup CurveProof CurveRefine CurveInst CurveBase CurveReps CodecProof2 Endo SubgroupProof GenProof GroupCount Orders Cofactor I63 I63b.
From Verif Require Import ModelMap SpecMap MapProof MapComp MapConst MapG1.
Import ListNotations.
Local Open Scope Z_scope.
Add Field Fp_fieldG2 : F_field.
Add Field Fp2_fieldG2 : F2_field.

(** * squares *)
Lemma F2_0_or a : a = F2_0 \/ a <> F2_0. Proof. destruct (F2_eq_dec a F2_0); auto. Qed.
Lemma F2sq_0 : F2square F2_0. Proof. exists F2_0. ring. Qed.
Lemma F2square_dec a : F2square a \/ ~ F2square a.
Proof.
  destruct (F2_0_or a) as [->|N]; [left; exact F2sq_0|]. destruct (Fsquare_dec (F2norm a)) as [H|H]; [left; exact (norm_square a N H)|].
  right. intros S. exact (H (square_norm a S)).
Qed.
Lemma F2nonsq_mul a b : ~ F2square a -> ~ F2square b -> F2square (F2mul a b).
Proof.
  intros Ha Hb. assert (Na : a <> F2_0) by (intros ->; exact (Ha F2sq_0)). assert (Nb : b <> F2_0) by (intros ->; exact (Hb F2sq_0)).
  apply norm_square; [exact (mul_nz KFp2 KFp2_field a b Na Nb)|]. rewrite F2norm_mul. apply Fnonsq_mul; intros S; [exact (Ha (norm_square a Na S))|exact (Hb (norm_square b Nb S))].
Qed.
Lemma F2nonsq_norm a s : s <> F0 -> Fmul s s = Fsub F0 (F2norm a) -> ~ F2square a.
Proof.
  intros N E S. apply square_norm in S. assert (NN : F2norm a <> F0).
  { intros Z. rewrite Z in E. apply N. assert (Q : Fmul s s = F0) by (rewrite E; ring). apply Fmul_0 in Q. destruct Q as [Q|Q]; exact Q. }
  apply (Fsquare_not_both _ NN S). exists s. rewrite E. ring.
Qed.

(** * int63 *)
Lemma R2_mul a b u v : R2 a u -> R2 b v -> R2 (mul63x a b) (F2mul u v). Proof. exact (R_mul ops63x KFp2 ok63x d63x ops63x_represents a b u v). Qed.
Lemma R2_add a b u v : R2 a u -> R2 b v -> R2 (add63x a b) (F2add u v). Proof. exact (R_add ops63x KFp2 ok63x d63x ops63x_represents a b u v). Qed.
Lemma R2_sub a b u v : R2 a u -> R2 b v -> R2 (sub63x a b) (F2sub u v). Proof. intros [C1 <-] [C2 <-]. exact (r_sub _ _ _ _ ops63x_represents a b C1 C2). Qed.
Lemma R2_eq a b u v : R2 a u -> R2 b v -> eq63x a b = true -> u = v. Proof. intros [C1 <-] [C2 <-]. apply eq63x_d; assumption. Qed.
Lemma R2_nz a u : R2 a u -> negb (eq63x a zero63x) = true -> u <> F2_0.
Proof. intros [C1 <-] H E. destruct (r_zero _ _ _ _ ops63x_represents) as [CZ DZ]. assert (X : eq63x a zero63x = true) by (apply eq63x_d; [exact C1|exact CZ|etransitivity; [exact E|symmetry; exact DZ]]). rewrite X in H. discriminate H. Qed.
Lemma R2_zero : R2 zero63x F2_0. Proof. exact (r_zero _ _ _ _ ops63x_represents). Qed.
Lemma R2_one : R2 one63x F2_1. Proof. exact (r_one _ _ _ _ ops63x_represents). Qed.
Lemma R2_norm a u : R2 a u -> R1 (nrm63 a) (F2norm u).
Proof. intros [[C1 C2] <-]. unfold nrm63. exact (R1_add _ _ _ _ (R1_mul _ _ _ _ (conj C1 eq_refl) (conj C1 eq_refl)) (R1_mul _ _ _ _ (conj C2 eq_refl) (conj C2 eq_refl))). Qed.
Lemma R1_nz' a u : R1 a u -> negb (eq63 a zero63) = true -> u <> F0.
Proof. intros H B E. assert (X : eq63 a zero63 = true) by (destruct H as [C <-]; apply eq63_d; [exact C|exact (proj1 zero63_d)|rewrite E; symmetry; exact (proj2 zero63_d)]). rewrite X in B. discriminate B. Qed.
Create HintDb r2.
#[global] Hint Resolve i_A2'_R i_B2'_R i_Z2_R i_v2_R i_sv2_R i_zi2_R i_m2_R i_x0_2_R R2_zero R2_one : r2.
Ltac rr2 := repeat match goal with |- R _ _ _ (mul63x _ _) _ => eapply R2_mul | |- R _ _ _ (add63x _ _) _ => eapply R2_add | |- R _ _ _ (sub63x _ _) _ => eapply R2_sub | |- R _ _ _ (nrm63 _) _ => eapply R2_norm end; try solve [auto with r2 nocore].
Definition gx2' (x : Fp2) : Fp2 := F2add (F2add (F2mul x (F2mul x x)) (F2mul A2' x)) B2'.
Record num2 : Prop := {
  n2_v : F2mul v2 (F2mul Z2 A2') = B2';
  n2_s : F2mul sv2 sv2 = gx2' v2;
  n2_n : Fmul nz2 nz2 = Fsub F0 (F2norm Z2);
  n2_z : F2mul zi2 Z2 = F2sub F2_0 F2_1;
  n2_m : F2mul m2 A2' = F2sub F2_0 B2';
  n2_A : A2' <> F2_0; n2_B : B2' <> F2_0; n2_Z : Z2 <> F2_0;
  n2_k : Fmul nk2 nk2 = Fsub F0 (F2norm (gx2' x0_2));
  n2_nz : nz2 <> F0; n2_nk : nk2 <> F0 }.
Lemma num2_ok : num2.
Proof.
  pose proof num_chk2_ok as H. unfold num_chk2 in H. repeat rewrite <- andb_assoc in H.
  repeat match type of H with andb _ _ = true => apply andb_prop in H; let X := fresh "B" in destruct H as [X H] end.
  split; unfold gx2'.
  - refine (R2_eq _ _ _ _ _ _ B); rr2.
  - refine (R2_eq _ _ _ _ _ _ B0); unfold gx63x; rr2.
  - exact (R1_eq _ _ _ _ (R1_mul _ _ _ _ i_nz2_R i_nz2_R) (R1_sub _ _ _ _ R1_zero (R2_norm _ _ i_Z2_R)) B1).
  - refine (R2_eq _ _ _ _ _ _ B2); rr2.
  - refine (R2_eq _ _ _ _ _ _ B3); rr2.
  - refine (R2_nz _ _ _ B4); rr2.
  - refine (R2_nz _ _ _ B5); rr2.
  - refine (R2_nz _ _ _ B6); rr2.
  - refine (R1_eq _ _ _ _ (R1_mul _ _ _ _ i_nk2_R i_nk2_R) (R1_sub _ _ _ _ R1_zero (R2_norm _ _ _)) B7). unfold gx63x. rr2.
  - refine (R1_nz' _ _ _ B8); rr1.
  - refine (R1_nz' _ _ _ H); rr1.
Qed.
Lemma Z2_nonsq : ~ F2square Z2. Proof. exact (F2nonsq_norm Z2 nz2 (n2_nz num2_ok) (n2_n num2_ok)). Qed.
Lemma x0_nonsq : ~ F2square (gx2' x0_2). Proof. exact (F2nonsq_norm _ nk2 (n2_nk num2_ok) (n2_k num2_ok)). Qed.
Lemma div2_of a b c : b <> F2_0 -> F2mul a b = c -> a = F2mul c (F2inv b). Proof. intros N <-. field. exact N. Qed.
Lemma v2_eq : v2 = F2mul B2' (F2inv (F2mul Z2 A2')).
Proof. apply div2_of; [|exact (n2_v num2_ok)]. exact (mul_nz KFp2 KFp2_field _ _ (n2_Z num2_ok) (n2_A num2_ok)). Qed.
Lemma zi2_eq : zi2 = F2opp (F2inv Z2).
Proof. pose proof (n2_Z num2_ok) as N. rewrite (div2_of _ _ _ N (n2_z num2_ok)). generalize dependent Z2. intros. field. exact N. Qed.
Lemma m2_eq : m2 = F2mul (F2opp B2') (F2inv A2').
Proof. pose proof (n2_A num2_ok) as N. rewrite (div2_of _ _ _ N (n2_m num2_ok)). generalize dependent A2'. generalize B2'. intros. field. exact N. Qed.
(** * the identities of the isogeny *)
Lemma i_g2'_R : RL2 i_g2' [B2'; A2'; F2_0; F2_1].
Proof. unfold i_g2'. repeat (constructor; [auto with r2|]). constructor. Qed.
Lemma F2_g (A B x : Fp2) : F2add (F2add (F2mul x (F2mul x x)) (F2mul A x)) B = F2add B (F2mul x (F2add A (F2mul x (F2add F2_0 (F2mul x (F2add F2_1 (F2mul x F2_0))))))).
Proof. ring. Qed.
Notation pm := (pmul2_ok KFp2 KFp2_field). Notation pa := (padd2_ok KFp2 KFp2_field). Notation psc := (pscale_ok KFp2 KFp2_field).
Notation qmR := (qmul_R ops63x KFp2 ok63x d63x ops63x_represents _ _). Notation qaR := (qadd_R ops63x KFp2 ok63x d63x ops63x_represents _ _). Notation qsR := (qscale_R ops63x KFp2 ok63x d63x ops63x_represents).
Notation qe := (qeq_R ops63x KFp2 ok63x d63x ops63x_represents KFp2_field).
Notation pw := (peval (K := KFp2)).
Lemma F2_p1 (x : Fp2) : F2add F2_1 (F2mul x F2_0) = F2_1. Proof. ring. Qed.
Lemma id2_1' (x : Fp2) : F2mul (pw [B2'; A2'; F2_0; F2_1] x) (F2mul (pw yn2 x) (pw yn2 x)) = F2add (F2mul (pw xn2 x) (F2mul (pw xn2 x) (pw xn2 x))) (F2mul b2 (F2mul (pw xd2 x) (F2mul (pw xd2 x) (pw xd2 x)))).
Proof.
  pose proof (qe x _ _ (qmR i_g2'_R _ _ (qmR i_yn2_R _ _ i_yn2_R)) _ _ (qaR (qmR i_xn2_R _ _ (qmR i_xn2_R _ _ i_xn2_R)) _ _ (qsR _ _ i4x_R _ _ (qmR i_xd2_R _ _ (qmR i_xd2_R _ _ i_xd2_R)))) iso_chk2_1) as E.
  rewrite pa, psc, !pm in E. exact E.
Qed.
Lemma id2_1 (x : Fp2) : F2mul (wrhs (K := KFp2) A2' B2' x) (F2mul (pw yn2 x) (pw yn2 x)) = F2add (F2mul (pw xn2 x) (F2mul (pw xn2 x) (pw xn2 x))) (F2mul b2 (F2mul (pw xd2 x) (F2mul (pw xd2 x) (pw xd2 x)))).
Proof.
  transitivity (F2mul (pw [B2'; A2'; F2_0; F2_1] x) (F2mul (pw yn2 x) (pw yn2 x))); [|exact (id2_1' x)].
  apply (f_equal (fun z => F2mul z _)). exact (F2_g A2' B2' x).
Qed.
Lemma id2_2 (x : Fp2) : pw xd2 x = F2mul (pw dd2 x) (pw dd2 x).
Proof. pose proof (qe x _ _ i_xd2_R _ _ (qmR i_dd2_R _ _ i_dd2_R) iso_chk2_2) as E. rewrite pm in E. exact E. Qed.
Lemma id2_3 (x : Fp2) : pw yd2 x = F2mul (pw dd2 x) (F2mul (pw dd2 x) (pw dd2 x)).
Proof. pose proof (qe x _ _ i_yd2_R _ _ (qmR i_dd2_R _ _ (qmR i_dd2_R _ _ i_dd2_R)) iso_chk2_3) as E. rewrite !pm in E. exact E. Qed.
Lemma id2_4 (x : Fp2) : F2add (F2mul (pw ss2 x) (pw dd2 x)) (F2mul (pw tt2 x) (pw xn2 x)) = F2_1.
Proof.
  pose proof (qe x _ _ (qaR (qmR i_ss2_R _ _ i_dd2_R) _ _ (qmR i_tt2_R _ _ i_xn2_R)) [one63x] [F2_1] ltac:(constructor; [exact R2_one|constructor]) iso_chk2_4) as E.
  rewrite pa, !pm in E. exact (eq_trans E (F2_p1 x)).
Qed.
Lemma g2_NR : forall x : Fp2, wrhs (K := KFp2) A2' B2' x <> F2_0.
Proof. exact (iso_NR KFp2 KFp2_field A2' B2' b2 xn2 xd2 yn2 yd2 dd2 ss2 tt2 id2_1 id2_2 id2_3 id2_4 no2_2). Qed.
Lemma iso2_on (x y : Fp2) : pw xd2 x <> F2_0 -> F2mul y y = wrhs (K := KFp2) A2' B2' x -> onb (K := KFp2) b2 (@Aff KFp2 (F2mul (pw xn2 x) (F2inv (pw xd2 x))) (F2mul y (F2mul (pw yn2 x) (F2inv (pw yd2 x))))) = true.
Proof. exact (iso_on KFp2 KFp2_field A2' B2' b2 xn2 xd2 yn2 yd2 dd2 id2_1 id2_2 id2_3 x y). Qed.
Lemma iso2_spec (x y : Fp2) : pw xd2 x <> F2_0 -> rational_map (K := KFp2) xn2 xd2 yn2 yd2 x y = @Aff KFp2 (F2mul (pw xn2 x) (F2inv (pw xd2 x))) (F2mul y (F2mul (pw yn2 x) (F2inv (pw yd2 x)))).
Proof. exact (iso_spec KFp2 KFp2_field xn2 xd2 yn2 yd2 dd2 id2_2 id2_3 x y). Qed.
(** the kernel has no rational points *)
Lemma x0_dd : F2opp x0_2 = F2z 6 (-6). Proof. apply F2_eq; apply fval_inj; vm_compute; reflexivity. Qed.
Lemma F2z_10 : F2z 1 0 = F2_1. Proof. apply F2_eq; apply fval_inj; vm_compute; reflexivity. Qed.
Lemma F2_dd (x x0 : Fp2) : F2add (F2opp x0) (F2mul x (F2add F2_1 (F2mul x F2_0))) = F2_0 -> x = x0.
Proof. intros E. transitivity (F2add (F2add (F2opp x0) (F2mul x (F2add F2_1 (F2mul x F2_0)))) x0); [ring|rewrite E; ring]. Qed.
Lemma no_ker (x y : Fp2) : F2mul y y = wrhs (K := KFp2) A2' B2' x -> pw xd2 x <> F2_0.
Proof.
  intros E Z. rewrite id2_2 in Z. assert (D : pw dd2 x = F2_0) by (destruct (F2_0_or (pw dd2 x)) as [Q|Q]; [exact Q|contradiction (mul_nz KFp2 KFp2_field _ _ Q Q Z)]).
  assert (X : x = x0_2).
  { apply F2_dd. rewrite x0_dd, <- F2z_10 at 1. exact D. }
  rewrite X in E. apply x0_nonsq. exists y. exact E.
Qed.
(** * swuMapG2 *)
Lemma sgn0_2_alt (a : Fp2) : negb (sgn0_2 a) = if fval (re a) =? 0 then Z.even (fval (im a)) else Z.even (fval (re a)).
Proof.
  unfold sgn0_2. destruct (Z.eqb_spec (fval (re a)) 0) as [E|N]; [rewrite E; cbn [Z.odd orb andb]; apply Z.negb_odd|]. cbn [andb]. rewrite orb_false_r. apply Z.negb_odd.
Qed.
Lemma sgn0_2_code x : canon2 x -> fp2_sign x = negb (sgn0_2 (dec2 x)).
Proof. intros H. rewrite (fp2_sign_ok x H), sgn0_2_alt. reflexivity. Qed.
Lemma sgn0_2_neg a : a <> F2_0 -> sgn0_2 (F2opp a) = negb (sgn0_2 a).
Proof.
  intros N. pose proof (canon2_enc a) as C. pose proof (fp2_sign_neg (enc2 a) C) as H. rewrite (sgn0_2_code (enc2 a) C), sgn0_2_code, dec2_neg, dec2_enc in H by auto with canon.
  specialize (H N). destruct (sgn0_2 (F2opp a)), (sgn0_2 a); try reflexivity; discriminate H.
Qed.
Lemma F2_inv0 : F2inv F2_0 = F2_0. Proof. apply F2_eq; apply fval_inj; vm_compute; reflexivity. Qed.
Lemma swu2_ok e : canon2 e -> exists x y : Fp2, R KFp2 canon2 dec2 (fst (swuMapG2 e)) x /\ R KFp2 canon2 dec2 (snd (swuMapG2 e)) y /\ sswu (K := KFp2) sgn0_2 A2' B2' Z2 (dec2 e) x y.
Proof.
  intros He. refine (swu_map_ok fp2_ops KFp2 canon2 dec2 fp2_represents KFp2_field A2' B2' Z2 (n2_A num2_ok) (n2_Z num2_ok) Z2_nonsq F2nonsq_mul _ _ g2_NR
    swuParamsForG2 sw_z2_R _ sw_a2_R sw_b2_R _ fp2_isQNR fp2_isQNR_ok fp2_sqrt _ fp2_sign sgn0_2 sgn0_2_code sgn0_2_neg F2_inv0 e He).
  - intros a N. destruct (F2square_dec a) as [H|H]; [exact H|exfalso; exact (N H)].
  - exact (eq_ind v2 (fun v => is_square (K := KFp2) (wrhs (K := KFp2) A2' B2' v)) (ex_intro _ sv2 (n2_s num2_ok)) _ v2_eq).
  - exact (eq_ind zi2 (fun v => R KFp2 canon2 dec2 (sw_zInv swuParamsForG2) v) sw_zInv2_R _ zi2_eq).
  - exact (eq_ind m2 (fun v => R KFp2 canon2 dec2 (sw_mBA swuParamsForG2) v) sw_mBA2_R _ m2_eq).
  - intros x Hx S. destruct (fp2_sqrt_ok x Hx) as (C & I & E). split; [exact C|]. apply E, I, S.
Qed.
(** * isogenyMap *)
Notation Rg := (R KFp2 canon2 dec2).
Lemma Rg_mul a b u v : Rg a u -> Rg b v -> Rg (fp2_mul a b) (F2mul u v). Proof. exact (R_mul fp2_ops KFp2 canon2 dec2 fp2_represents a b u v). Qed.
Lemma Rg_sqr a u : Rg a u -> Rg (fp2_sqr a) (F2mul u u). Proof. exact (R_sqr fp2_ops KFp2 canon2 dec2 fp2_represents a u). Qed.
Lemma Rg_horner cs vs x a : Forall2 Rg cs vs -> Rg x a -> Rg (horner fp2_ops cs x) (pw vs a). Proof. exact (horner_ok fp2_ops KFp2 canon2 dec2 fp2_represents KFp2_field cs vs x a). Qed.
Lemma F2_isojac (xn xd yn yd y : Fp2) : xd <> F2_0 -> yd <> F2_0 ->
  jacobian (K := KFp2) (F2mul (F2mul xn yd) (F2mul yd xd)) (F2mul (F2mul (F2mul y yn) xd) (F2mul (F2mul yd xd) (F2mul yd xd))) (F2mul yd xd) (@Aff KFp2 (F2mul xn (F2inv xd)) (F2mul y (F2mul yn (F2inv yd)))).
Proof.
  intros N1 N2. split; [exact (mul_nz KFp2 KFp2_field _ _ N2 N1)|]. unfold ksq, kcube. cbn [KFp2 kmul car]. split; field; assumption.
Qed.
Lemma isogeny2_ok x y z u v : Rg x u -> Rg y v -> pw xd2 u <> F2_0 ->
  rep2c (isogenyMap (mkJ x y z)) (rational_map (K := KFp2) xn2 xd2 yn2 yd2 u v).
Proof.
  intros Hx Hy N. rewrite (iso2_spec u v N). pose proof (yd_nz KFp2 KFp2_field xd2 yd2 dd2 id2_2 id2_3 u N) as N'.
  pose proof (Rg_horner _ _ _ _ iso2_0_R Hx) as H0. pose proof (Rg_horner _ _ _ _ iso2_1_R Hx) as H1. pose proof (Rg_horner _ _ _ _ iso2_2_R Hx) as H2. pose proof (Rg_horner _ _ _ _ iso2_3_R Hx) as H3.
  unfold isogenyMap. cbv zeta. cbn [jx jy jz].
  revert H0 H1 H2 H3. generalize (horner fp2_ops iso2_0 x) (horner fp2_ops (firstn 3 iso2_1) x) (horner fp2_ops iso2_2 x) (horner fp2_ops iso2_3 x).
  intros t0 t3 t1 t2 H0 H3 H1 H2.
  pose proof (Rg_mul _ _ _ _ H2 H3) as Hz.
  pose proof (Rg_mul _ _ _ _ (Rg_mul _ _ _ _ (Rg_mul _ _ _ _ Hy H1) H3) (Rg_sqr _ _ Hz)) as HY.
  pose proof (Rg_mul _ _ _ _ (Rg_mul _ _ _ _ H0 H2) Hz) as HX.
  split; [split; [exact (proj1 HX)|split; [exact (proj1 HY)|exact (proj1 Hz)]]|]. cbn [jx jy jz]. rewrite (proj2 HX), (proj2 HY), (proj2 Hz).
  exact (F2_isojac _ _ _ _ _ N N').
Qed.
(** * effective cofactor *)
Lemma heff_c : Z.divide (c2cyc * 299) h_eff2. Proof. exists (h_eff2 / (c2cyc * 299)). vm_compute. reflexivity. Qed.
Lemma heff_r : exists k, h_eff2 = pl_eval hcl Xz + k * order. Proof. exists ((h_eff2 - pl_eval hcl Xz) / order). vm_compute. reflexivity. Qed.
Lemma heff_hcl (P : E2) : pact psi hcl P = zmul h_eff2 P.
Proof.
  destruct E2_struct as (A & T & HA & KA & HT & KT & HO & HP). specialize (HP P). apply in_all3 in HP. destruct HP as (a & b & c & _ & _ & _ & ->).
  unfold span3. cbn [fst snd]. rewrite !(pact_op psi psi_op), !pact_zmul, pact_sig2, (pact_op psi psi_op), KA, KT, (s_0 sig2 sig2_op), !zmul_id, !g_id_r.
  rewrite (pact_eigen psi psi_op _ _ _ psi_gen).
  destruct heff_c as [q EQ]. assert (ZA : zmul h_eff2 A = gid) by (rewrite EQ; replace (q * (c2cyc * 299)) with (q * 299 * c2cyc) by ring; rewrite zmul_mul, (proj1 HA); apply zmul_id).
  assert (ZT : zmul h_eff2 T = gid) by (rewrite EQ, Z.mul_assoc, zmul_mul, (proj1 HT); apply zmul_id).
  assert (ZS : zmul h_eff2 (sig2 T) = gid) by (rewrite EQ, Z.mul_assoc, zmul_mul, (s_kills sig2 sig2_op 299 T (proj1 HT)); apply zmul_id).
  assert (ZG : zmul h_eff2 G2gen = zmul (pl_eval hcl Xz) G2gen) by (destruct heff_r as [k EK]; rewrite EK, zmul_add, zmul_mul, G2gen_r, zmul_id, g_id_r; reflexivity).
  assert (SW : forall k (Q : E2), zmul h_eff2 (zmul k Q) = zmul k (zmul h_eff2 Q)) by (intros; rewrite <- !zmul_mul, Z.mul_comm; reflexivity).
  rewrite !zmul_op, !SW, ZA, ZT, ZS, ZG, !zmul_id, !g_id_r. reflexivity.
Qed.
Lemma g2_clear_heff p P : rep2g p P -> rep2g (g2_clearCofactor p) (zmul h_eff2 P).
Proof. intros H. rewrite <- heff_hcl. exact (g2_clearCofactor_ok p P H). Qed.
(** * mapToCurve *)
Lemma swu_iso2 e : canon2 e -> exists P : E2, map_to_curve2 (dec2 e) (cpt (b := b2) P) /\ rep2g (isogenyMap (mkJ (fst (swuMapG2 e)) (snd (swuMapG2 e)) fp2_one)) P.
Proof.
  intros He. destruct (swu2_ok e He) as (x & y & Hx & Hy & HS). assert (E : F2mul y y = wrhs (K := KFp2) A2' B2' x) by exact (proj1 (proj2 HS)).
  pose proof (no_ker x y E) as N. pose proof (iso2_on x y N E) as O. rewrite <- (iso2_spec x y N) in O. exists (mkC KFp2 b2 _ O). split; [exists x, y; split; [exact HS|reflexivity]|].
  exact (isogeny2_ok _ _ fp2_one x y Hx Hy N).
Qed.
Lemma map2_fun u P Q : map_to_curve2 u P -> map_to_curve2 u Q -> P = Q.
Proof.
  intros (x & y & H & ->) (x' & y' & H' & ->). destruct (sswu_fun KFp2 KFp2_field A2' B2' sgn0_2 Z2 u sgn0_2_neg _ _ _ _ H H') as [<- <-]. reflexivity.
Qed.
Lemma map2_rep e : canon2 e -> exists P : E2, map_to_curve2 (dec2 e) (cpt (b := b2) P) /\ rep2g (g2_mapToCurve e) (zmul h_eff2 P).
Proof. intros He. destruct (swu_iso2 e He) as (P & H & Hr). exists P. split; [exact H|]. unfold g2_mapToCurve. cbv zeta. exact (g2_clear_heff _ _ Hr). Qed.
Lemma heff2_order (P : E2) : zmul order (zmul h_eff2 P) = gid. Proof. rewrite <- heff_hcl. exact (hcl_order P). Qed.
