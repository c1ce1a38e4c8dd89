(** mapToCurve for G1. *)
From Coq Require Import ZArith List Bool Lia Uint63 Ring Field.
From Verif Require Import SpecField FieldProof RingPow TowerProof TowerProof2 ModelWord ModelPrim ModelScalar ModelFp ModelTower FpProof FpProof2 TowerRefine ModelCurve SpecCurve AbGroup CurveProof CurveRefine CurveInst CurveBase CurveReps CodecProof2 Endo SubgroupProof GenProof Orders Cofactor I63 I63b.
From Verif Require Import ModelMap SpecMap MapProof MapComp MapConst.
Import ListNotations.
Local Open Scope Z_scope.
Add Field Fp_fieldG1 : F_field.

(** * squares *)
Lemma sq_1 w : Fmul w w = F1 -> w <> F1 -> w = Fopp F1.
Proof.
  intros S E. assert (P : Fmul (Fsub w F1) (Fadd w F1) = F0) by (transitivity (Fsub (Fmul w w) F1); [ring|rewrite S; ring]).
  apply Fmul_0 in P. destruct P as [P|P]; [exfalso; apply E; transitivity (Fadd (Fsub w F1) F1); [ring|rewrite P; ring]|].
  transitivity (Fsub (Fadd w F1) F1); [ring|rewrite P; ring].
Qed.
Lemma Fsquare_or a : Fsquare a \/ Fsquare (Fopp a).
Proof.
  destruct (F_eq_dec a F0) as [->|N]; [left; exists F0; ring|].
  assert (S : Fmul (Fpow a half_pm1) (Fpow a half_pm1) = F1).
  { rewrite <- (rpow_add F_ring) by apply half_pm1_pos. replace (half_pm1 + half_pm1) with (modulus - 1) by reflexivity. apply F_fermat, N. }
  assert (N' : Fopp a <> F0) by (intros E; apply N; transitivity (Fopp (Fopp a)); [ring|rewrite E; ring]).
  destruct (F_eq_dec (Fpow a half_pm1) F1) as [E|E]; [left; apply Fsquare_euler; assumption|]. right. apply Fsquare_euler; [exact N'|].
  assert (M : Fpow a half_pm1 = Fopp F1).
  { revert S E. generalize (Fpow a half_pm1). exact sq_1. }
  replace (Fopp a) with (Fmul (Fopp F1) a) by ring. rewrite (rpow_mult F_ring), M by apply half_pm1_pos.
  replace half_pm1 with (2 * (quarter_pp1 - 1) + 1) by reflexivity. rewrite Fpow_m1_odd by discriminate. ring.
Qed.
Lemma Fsquare_not_both a : a <> F0 -> Fsquare a -> ~ Fsquare (Fopp a).
Proof.
  intros N [s E] [t E']. apply Fm1_nonsquare. exists (Fmul t (Finv s)). assert (S : s <> F0) by (intros ->; apply N; rewrite <- E; ring).
  transitivity (Fmul (Fmul t t) (Finv (Fmul s s))); [field; exact S|]. rewrite E, E'. field. exact N.
Qed.
Lemma Fsquare_dec a : Fsquare a \/ ~ Fsquare a.
Proof.
  destruct (F_eq_dec a F0) as [->|N]; [left; exists F0; ring|]. destruct (Fsquare_or a) as [H|H]; [left; exact H|]. right. intros S. exact (Fsquare_not_both a N S H).
Qed.
Lemma Fnonsq_mul a b : ~ Fsquare a -> ~ Fsquare b -> Fsquare (Fmul a b).
Proof.
  intros Ha Hb. destruct (Fsquare_or a) as [X|[s X]]; [contradiction|]. destruct (Fsquare_or b) as [Y|[t Y]]; [contradiction|]. exists (Fmul s t).
  transitivity (Fmul (Fmul s s) (Fmul t t)); [ring|]. rewrite X, Y. ring.
Qed.

(** * int63 *)
Lemma R1_mul a b u v : R1 a u -> R1 b v -> R1 (mul63 a b) (Fmul u v). Proof. exact (R_mul ops63 KFp ok63 d63 ops63_represents a b u v). Qed.
Lemma R1_add a b u v : R1 a u -> R1 b v -> R1 (add63 a b) (Fadd u v). Proof. exact (R_add ops63 KFp ok63 d63 ops63_represents a b u v). Qed.
Lemma R1_sub a b u v : R1 a u -> R1 b v -> R1 (sub63 a b) (Fsub u v). Proof. intros [C1 <-] [C2 <-]. exact (d63_sub a b C1 C2). Qed.
Lemma R1_eq a b u v : R1 a u -> R1 b v -> eq63 a b = true -> u = v. Proof. intros [C1 <-] [C2 <-]. apply eq63_d; assumption. Qed.
Lemma R1_nz a u : R1 a u -> negb (isz63 a) = true -> u <> F0. Proof. intros [C1 <-] H E. apply isz63_d in E; [|exact C1]. rewrite E in H. discriminate H. Qed.
Lemma R1_z a u : R1 a u -> isz63 a = true -> u = F0. Proof. intros [C1 <-] H. apply isz63_d; assumption. Qed.
Lemma R1_zero : R1 zero63 F0. Proof. exact zero63_d. Qed.
Lemma R1_one : R1 one63 F1. Proof. exact one63_d. Qed.
Create HintDb r1.
#[global] Hint Resolve i_A1'_R i_B1'_R i_Z1_R i_v1_R i_sv1_R i_nz1_R i_zi1_R i_m1_R i_u_ker_R i_x_ker_R i_y_ker_R i_nz2_R i_nk2_R R1_zero R1_one : r1.
Ltac rr1 := repeat match goal with |- R _ _ _ (mul63 _ _) _ => eapply R1_mul | |- R _ _ _ (add63 _ _) _ => eapply R1_add | |- R _ _ _ (sub63 _ _) _ => eapply R1_sub end; try solve [auto with r1 nocore].
Ltac ands H := repeat match type of H with andb _ _ = true => let X := fresh "B" in apply andb_prop in H; destruct H as [H X] end.
Record num1 : Prop := {
  n1_v : Fmul v1 (Fmul Z1 A1') = B1';
  n1_s : Fmul sv1 sv1 = Fadd (Fadd (Fmul v1 (Fmul v1 v1)) (Fmul A1' v1)) B1';
  n1_n : Fmul nz1 nz1 = Fsub F0 Z1;
  n1_z : Fmul zi1 Z1 = Fsub F0 F1;
  n1_m : Fmul m1 A1' = Fsub F0 B1';
  n1_A : A1' <> F0; n1_B : B1' <> F0; n1_Z : Z1 <> F0;
  n1_t : (let t := Fmul Z1 (Fmul u_ker u_ker) in Fadd (Fmul t t) t) <> F0;
  n1_k : (let t := Fmul Z1 (Fmul u_ker u_ker) in let s := Fadd (Fmul t t) t in Fmul (Fmul x_ker A1') s = Fmul (Fsub F0 B1') (Fadd s F1));
  n1_y : Fmul y_ker y_ker = Fadd (Fadd (Fmul x_ker (Fmul x_ker x_ker)) (Fmul A1' x_ker)) B1';
  n1_d : peval (K := KFp) dd1 x_ker = F0;
  n1_e : peval (K := KFp) dd1 v1 <> F0 }.
Lemma num1_ok : num1.
Proof.
  pose proof num_chk1_ok as H. unfold num_chk1 in H. cbv zeta in H. repeat rewrite <- andb_assoc in H.
  repeat match type of H with andb _ _ = true => apply andb_prop in H; let X := fresh "B" in destruct H as [X H] end.
  split; cbv zeta.
  - refine (R1_eq _ _ _ _ _ _ B); rr1.
  - refine (R1_eq _ _ _ _ _ _ B0); unfold gx63; rr1.
  - refine (R1_eq _ _ _ _ _ _ B1); rr1.
  - refine (R1_eq _ _ _ _ _ _ B2); rr1.
  - refine (R1_eq _ _ _ _ _ _ B3); rr1.
  - refine (R1_nz _ _ _ B4); rr1.
  - refine (R1_nz _ _ _ B5); rr1.
  - refine (R1_nz _ _ _ B6); rr1.
  - refine (R1_nz _ _ _ B7); rr1.
  - refine (R1_eq _ _ _ _ _ _ B8); rr1.
  - refine (R1_eq _ _ _ _ _ _ B9); unfold gx63; rr1.
  - refine (R1_z _ _ _ B10). exact (horner_ok ops63 KFp ok63 d63 ops63_represents KFp_field _ _ _ _ i_dd1_R i_x_ker_R).
  - refine (R1_nz _ _ _ H). exact (horner_ok ops63 KFp ok63 d63 ops63_represents KFp_field _ _ _ _ i_dd1_R i_v1_R).
Qed.
Lemma Z1_nonsq : ~ Fsquare Z1.
Proof.
  intros S. apply (Fsquare_not_both Z1 (n1_Z num1_ok) S). exists nz1. rewrite (n1_n num1_ok). ring.
Qed.
Lemma div_of a b c : b <> F0 -> Fmul a b = c -> a = Fmul c (Finv b). Proof. intros N <-. field. exact N. Qed.
Lemma v1_eq : v1 = Fmul B1' (Finv (Fmul Z1 A1')).
Proof. apply div_of; [|exact (n1_v num1_ok)]. exact (mul_nz KFp KFp_field _ _ (n1_Z num1_ok) (n1_A num1_ok)). Qed.
Lemma zi1_eq : zi1 = Fopp (Finv Z1).
Proof. pose proof (n1_Z num1_ok) as N. rewrite (div_of _ _ _ N (n1_z num1_ok)). field. exact N. Qed.
Lemma m1_eq : m1 = Fmul (Fopp B1') (Finv A1').
Proof. pose proof (n1_A num1_ok) as N. rewrite (div_of _ _ _ N (n1_m num1_ok)). field. exact N. Qed.
(** * the identities of the isogeny *)
Lemma i_g1'_R : RL1 i_g1' [B1'; A1'; F0; F1].
Proof. unfold i_g1'. repeat (constructor; [auto with r1|]). constructor. Qed.
Lemma F_g (A B x : Fp) : Fadd (Fadd (Fmul x (Fmul x x)) (Fmul A x)) B = Fadd B (Fmul x (Fadd A (Fmul x (Fadd F0 (Fmul x (Fadd F1 (Fmul x F0))))))).
Proof. ring. Qed.
Notation pm := (pmul2_ok KFp KFp_field). Notation pa := (padd2_ok KFp KFp_field). Notation psc := (pscale_ok KFp KFp_field).
Notation qmR := (qmul_R ops63 KFp ok63 d63 ops63_represents _ _). Notation qaR := (qadd_R ops63 KFp ok63 d63 ops63_represents _ _). Notation qsR := (qscale_R ops63 KFp ok63 d63 ops63_represents).
Notation qe := (qeq_R ops63 KFp ok63 d63 ops63_represents KFp_field).
Notation pv := (peval (K := KFp)).
Record iso1_ids : Prop := {
  i1_1 : forall x, Fmul (wrhs (K := KFp) A1' B1' x) (Fmul (pv yn1 x) (pv yn1 x)) = Fadd (Fmul (pv xn1 x) (Fmul (pv xn1 x) (pv xn1 x))) (Fmul b1 (Fmul (pv xd1 x) (Fmul (pv xd1 x) (pv xd1 x))));
  i1_2 : forall x, pv xd1 x = Fmul (pv dd1 x) (pv dd1 x);
  i1_3 : forall x, pv yd1 x = Fmul (pv dd1 x) (Fmul (pv dd1 x) (pv dd1 x));
  i1_4 : forall x, Fadd (Fmul (pv ss1 x) (pv dd1 x)) (Fmul (pv tt1 x) (pv xn1 x)) = F1 }.
Lemma F_p1 (x : Fp) : Fadd F1 (Fmul x F0) = F1. Proof. ring. Qed.
Lemma id1_1 (x : Fp) : Fmul (pv [B1'; A1'; F0; F1] x) (Fmul (pv yn1 x) (pv yn1 x)) = Fadd (Fmul (pv xn1 x) (Fmul (pv xn1 x) (pv xn1 x))) (Fmul b1 (Fmul (pv xd1 x) (Fmul (pv xd1 x) (pv xd1 x)))).
Proof.
  pose proof (qe x _ _ (qmR i_g1'_R _ _ (qmR i_yn1_R _ _ i_yn1_R)) _ _ (qaR (qmR i_xn1_R _ _ (qmR i_xn1_R _ _ i_xn1_R)) _ _ (qsR _ _ i4_R _ _ (qmR i_xd1_R _ _ (qmR i_xd1_R _ _ i_xd1_R)))) iso_chk1_1) as E.
  rewrite pa, psc, !pm in E. exact E.
Qed.
Lemma id1_2 (x : Fp) : pv xd1 x = Fmul (pv dd1 x) (pv dd1 x).
Proof. pose proof (qe x _ _ i_xd1_R _ _ (qmR i_dd1_R _ _ i_dd1_R) iso_chk1_2) as E. rewrite pm in E. exact E. Qed.
Lemma id1_3 (x : Fp) : pv yd1 x = Fmul (pv dd1 x) (Fmul (pv dd1 x) (pv dd1 x)).
Proof. pose proof (qe x _ _ i_yd1_R _ _ (qmR i_dd1_R _ _ (qmR i_dd1_R _ _ i_dd1_R)) iso_chk1_3) as E. rewrite !pm in E. exact E. Qed.
Lemma id1_4 (x : Fp) : Fadd (Fmul (pv ss1 x) (pv dd1 x)) (Fmul (pv tt1 x) (pv xn1 x)) = F1.
Proof.
  pose proof (qe x _ _ (qaR (qmR i_ss1_R _ _ i_dd1_R) _ _ (qmR i_tt1_R _ _ i_xn1_R)) [one63] [F1] ltac:(constructor; [exact R1_one|constructor]) iso_chk1_4) as E.
  rewrite pa, !pm in E. exact (eq_trans E (F_p1 x)).
Qed.
Lemma iso1_ok : iso1_ids.
Proof.
  split; [|exact id1_2|exact id1_3|exact id1_4]. intros x. transitivity (Fmul (pv [B1'; A1'; F0; F1] x) (Fmul (pv yn1 x) (pv yn1 x))); [|exact (id1_1 x)].
  apply (f_equal (fun z => Fmul z _)). exact (F_g A1' B1' x).
Qed.
Lemma g1_NR : forall x : Fp, wrhs (K := KFp) A1' B1' x <> F0.
Proof. exact (iso_NR KFp KFp_field A1' B1' b1 xn1 xd1 yn1 yd1 dd1 ss1 tt1 (i1_1 iso1_ok) (i1_2 iso1_ok) (i1_3 iso1_ok) (i1_4 iso1_ok) no2_1). Qed.
Lemma iso1_on (x y : Fp) : pv xd1 x <> F0 -> Fmul y y = wrhs (K := KFp) A1' B1' x -> onb (K := KFp) b1 (@Aff KFp (Fmul (pv xn1 x) (Finv (pv xd1 x))) (Fmul y (Fmul (pv yn1 x) (Finv (pv yd1 x))))) = true.
Proof. exact (iso_on KFp KFp_field A1' B1' b1 xn1 xd1 yn1 yd1 dd1 (i1_1 iso1_ok) (i1_2 iso1_ok) (i1_3 iso1_ok) x y). Qed.
Lemma iso1_spec (x y : Fp) : pv xd1 x <> F0 -> rational_map (K := KFp) xn1 xd1 yn1 yd1 x y = @Aff KFp (Fmul (pv xn1 x) (Finv (pv xd1 x))) (Fmul y (Fmul (pv yn1 x) (Finv (pv yd1 x)))).
Proof. exact (iso_spec KFp KFp_field xn1 xd1 yn1 yd1 dd1 (i1_2 iso1_ok) (i1_3 iso1_ok) x y). Qed.
(** * swuMapG1 *)
Lemma sgn0_1_neg a : a <> F0 -> sgn0_1 (Fopp a) = negb (sgn0_1 a).
Proof. intros N. unfold sgn0_1. rewrite <- !Z.negb_even. rewrite (even_opp a N). reflexivity. Qed.
Lemma sgn0_1_code x : canon x -> fp_sign x = negb (sgn0_1 (dec x)).
Proof. intros H. rewrite (sign_ok x H). unfold sgn0_1. rewrite Z.negb_odd. reflexivity. Qed.
Lemma F_inv0 : Finv F0 = F0. Proof. apply fval_inj. vm_compute. reflexivity. Qed.
Lemma wrhs_v1 : wrhs (K := KFp) A1' B1' v1 = Fadd (Fadd (Fmul v1 (Fmul v1 v1)) (Fmul A1' v1)) B1'. Proof. reflexivity. Qed.
Lemma swu1_ok e : canon e -> exists x y : Fp, R KFp canon dec (fst (swuMapG1 e)) x /\ R KFp canon dec (snd (swuMapG1 e)) y /\ sswu (K := KFp) sgn0_1 A1' B1' Z1 (dec e) x y.
Proof.
  intros He. refine (swu_map_ok fp_ops KFp canon dec fp_represents KFp_field A1' B1' Z1 (n1_A num1_ok) (n1_Z num1_ok) Z1_nonsq Fnonsq_mul _ _ g1_NR
    swuParamsForG1 sw_z1_R _ sw_a1_R sw_b1_R _ fp_isQNR fp_isQNR_ok fp_sqrt _ fp_sign sgn0_1 sgn0_1_code sgn0_1_neg F_inv0 e He).
  - intros a N. destruct (Fsquare_dec a) as [H|H]; [exact H|contradiction].
  - exact (eq_ind v1 (fun v => is_square (K := KFp) (wrhs (K := KFp) A1' B1' v)) (ex_intro _ sv1 (n1_s num1_ok)) _ v1_eq).
  - exact (eq_ind zi1 (fun v => R KFp canon dec (sw_zInv swuParamsForG1) v) sw_zInv1_R _ zi1_eq).
  - exact (eq_ind m1 (fun v => R KFp canon dec (sw_mBA swuParamsForG1) v) sw_mBA1_R _ m1_eq).
  - intros x Hx S. destruct (fp_sqrt_ok x Hx) as (C & I & E). split; [exact C|]. apply E, I, S.
Qed.
(** * isogenyMapG1 *)
Notation Rf := (R KFp canon dec).
Lemma Rf_mul a b u v : Rf a u -> Rf b v -> Rf (fp_mul a b) (Fmul u v). Proof. exact (R_mul fp_ops KFp canon dec fp_represents a b u v). Qed.
Lemma Rf_inv a u : Rf a u -> Rf (fp_inverse a) (Finv u). Proof. exact (R_inv fp_ops KFp canon dec fp_represents a u). Qed.
Lemma Rf_horner cs vs x a : Forall2 Rf cs vs -> Rf x a -> Rf (horner fp_ops cs x) (pv vs a). Proof. exact (horner_ok fp_ops KFp canon dec fp_represents KFp_field cs vs x a). Qed.
Lemma F_z0 (x a : Fp) : Fadd a (Fmul x F0) = a. Proof. ring. Qed.
Lemma F_z1 (x : Fp) : Fadd F0 (Fmul x F0) = F0. Proof. ring. Qed.
Lemma peval_pad (n : nat) (l : list Fp) (x : Fp) : pv (l ++ repeat F0 n) x = pv l x.
Proof.
  assert (Z : pv (repeat F0 n) x = F0).
  { induction n as [|n IH]; [reflexivity|]. cbn [repeat peval]. etransitivity; [exact (f_equal (fun z => Fadd F0 (Fmul x z)) IH)|exact (F_z1 x)]. }
  induction l as [|c l IH]; [exact Z|]. cbn [app peval]. exact (f_equal (fun z => Fadd c (Fmul x z)) IH).
Qed.
Lemma isogeny1_ok x y u v : Rf x u -> Rf y v ->
  Rf (fst (isogenyMapG1 x y)) (Fmul (pv xn1 u) (Finv (pv xd1 u))) /\ Rf (snd (isogenyMapG1 x y)) (Fmul (Fmul (pv yn1 u) (Finv (pv yd1 u))) v).
Proof.
  intros Hx Hy. unfold isogenyMapG1. cbv zeta. cbn [fst snd].
  pose proof (Rf_horner _ _ _ _ iso1_0_R Hx) as H0. pose proof (Rf_horner _ _ _ _ iso1_1_R Hx) as H1. pose proof (Rf_horner _ _ _ _ iso1_2_R Hx) as H2. pose proof (Rf_horner _ _ _ _ iso1_3_R Hx) as H3.
  rewrite (peval_pad 4 xn1 u : pv (xn1 ++ [F0; F0; F0; F0]) u = _) in H0. rewrite (peval_pad 5 xd1 u : pv (xd1 ++ [F0; F0; F0; F0; F0]) u = _) in H1.
  split; [exact (Rf_mul _ _ _ _ H0 (Rf_inv _ _ H1))|exact (Rf_mul _ _ _ _ (Rf_mul _ _ _ _ H2 (Rf_inv _ _ H3)) Hy)].
Qed.
(** * mapToCurve *)
Lemma F_jac (u v : Fp) : jacobian (K := KFp) u v F1 (@Aff KFp u v).
Proof. split; [exact F1_nz|]. unfold ksq, kcube. cbn [KFp kmul car]. split; ring. Qed.
Lemma F_comm (a b : Fp) : Fmul a b = Fmul b a. Proof. ring. Qed.
Lemma map1_rep e x y : canon e -> sswu (K := KFp) sgn0_1 A1' B1' Z1 (dec e) x y -> pv xd1 x <> F0 ->
  exists P : E1, cpt (b := b1) P = rational_map (K := KFp) xn1 xd1 yn1 yd1 x y /\ rep1g (g1_mapToCurve e) (zmul h_eff1 P).
Proof.
  intros He HS N. destruct (swu1_ok e He) as (x' & y' & Hx & Hy & HS'). destruct (sswu_fun KFp KFp_field A1' B1' sgn0_1 Z1 (dec e) sgn0_1_neg _ _ _ _ HS HS') as [<- <-].
  assert (E : Fmul y y = wrhs (K := KFp) A1' B1' x) by exact (proj1 (proj2 HS)).
  pose proof (iso1_on x y N E) as O. exists (mkC KFp b1 _ O). split; [symmetry; exact (iso1_spec x y N)|].
  unfold g1_mapToCurve. cbv zeta. change h_eff1 with (1 - Xz). apply g1_clearCofactor_ok.
  destruct (isogeny1_ok _ _ _ _ Hx Hy) as [[C1 D1] [C2 D2]]. split; [split; [exact C1|split; [exact C2|exact canon_R1]]|].
  cbn [jx jy jz cpt]. rewrite D1, D2. rewrite (F_comm (Fmul (pv yn1 x) (Finv (pv yd1 x))) y).
  assert (D3 : dec fp_one = F1) by exact dec_R1. rewrite D3. exact (F_jac _ _).
Qed.
Lemma clear_00 : g1_clearCofactor (mkJ 0 0 fp_one) = mkJ 0 0 fp_one. Proof. vm_compute. reflexivity. Qed.
Lemma F_mul0 (a : Fp) : Fmul a F0 = F0. Proof. ring. Qed.
Lemma map1_ker e x y : canon e -> sswu (K := KFp) sgn0_1 A1' B1' Z1 (dec e) x y -> pv xd1 x = F0 -> g1_mapToCurve e = mkJ 0 0 fp_one.
Proof.
  intros He HS Z. destruct (swu1_ok e He) as (x' & y' & Hx & Hy & HS'). destruct (sswu_fun KFp KFp_field A1' B1' sgn0_1 Z1 (dec e) sgn0_1_neg _ _ _ _ HS HS') as [<- <-].
  unfold g1_mapToCurve. cbv zeta. destruct (isogeny1_ok _ _ _ _ Hx Hy) as [[C1 D1] [C2 D2]].
  assert (Z' : pv yd1 x = F0).
  { assert (D0 : pv dd1 x = F0) by (pose proof (id1_2 x) as Q; rewrite Z in Q; symmetry in Q; apply Fmul_0 in Q; destruct Q as [Q|Q]; exact Q). rewrite id1_3, D0. exact (eq_trans (F_comm _ _) (F_mul0 _)). }
  rewrite Z, F_inv0 in D1. rewrite Z', F_inv0 in D2.
  assert (X0 : fst (isogenyMapG1 (fst (swuMapG1 e)) (snd (swuMapG1 e))) = 0) by (apply dec_inj; [exact C1|exact canon_0|rewrite dec_0, D1; ring]).
  assert (Y0 : snd (isogenyMapG1 (fst (swuMapG1 e)) (snd (swuMapG1 e))) = 0) by (apply dec_inj; [exact C2|exact canon_0|rewrite dec_0, D2; ring]).
  rewrite X0, Y0. exact clear_00.
Qed.
Lemma off_00 : g1_isOnCurve (mkJ 0 0 fp_one) = false. Proof. vm_compute. reflexivity. Qed.
(** * an input sent to the kernel *)
Lemma x1_of (A B x s : Fp) : A <> F0 -> s <> F0 -> Fmul (Fmul x A) s = Fmul (Fsub F0 B) (Fadd s F1) -> Fmul (Fmul (Fopp B) (Finv A)) (Fadd F1 (Finv s)) = x.
Proof.
  intros NA NS E. transitivity (Fmul (Fmul (Fsub F0 B) (Fadd s F1)) (Fmul (Finv A) (Finv s))); [field; split; assumption|]. rewrite <- E. field. split; assumption.
Qed.
Lemma ker_x1 : sswu_x1 (K := KFp) A1' B1' Z1 u_ker = x_ker.
Proof.
  unfold sswu_x1. cbv zeta. destruct (keq _ _) as [E|N]; [contradiction (n1_t num1_ok E)|].
  exact (x1_of A1' B1' x_ker _ (n1_A num1_ok) (n1_t num1_ok) (n1_k num1_ok)).
Qed.
Lemma ker_sswu : sswu (K := KFp) sgn0_1 A1' B1' Z1 u_ker x_ker y_ker.
Proof.
  unfold sswu. cbv zeta. rewrite ker_x1. split; [left; split; [exists y_ker; exact (n1_y num1_ok)|reflexivity]|]. split; [exact (n1_y num1_ok)|]. vm_compute. reflexivity.
Qed.
Lemma ker_xd : pv xd1 x_ker = F0.
Proof. rewrite id1_2, (n1_d num1_ok). exact (F_mul0 _). Qed.
(** the map is a total function on the field *)
Lemma map1_ex (u : Fp) : exists x y, sswu (K := KFp) sgn0_1 A1' B1' Z1 u x y.
Proof. destruct (swu1_ok (enc u) (canon_enc u)) as (x & y & _ & _ & H). rewrite dec_enc in H. exists x, y. exact H. Qed.
Lemma rm_kernel x y : rational_map (K := KFp) xn1 xd1 yn1 yd1 x y = Inf <-> pv xd1 x = F0.
Proof.
  split.
  - intros H. destruct (F_eq_dec (pv xd1 x) F0) as [E|N]; [exact E|]. rewrite (iso1_spec x y N) in H. discriminate H.
  - intros H. unfold rational_map. destruct (keq _ _) as [_|N]; [reflexivity|exfalso; exact (N H)].
Qed.
Lemma map1_fun u P Q : map_to_curve1 u P -> map_to_curve1 u Q -> P = Q.
Proof.
  intros (x & y & H & ->) (x' & y' & H' & ->). destruct (sswu_fun KFp KFp_field A1' B1' sgn0_1 Z1 u sgn0_1_neg _ _ _ _ H H') as [<- <-]. reflexivity.
Qed.
(** the image of 0 *)
Lemma F_sq0 (Z : Fp) : Fadd (Fmul (Fmul Z (Fmul F0 F0)) (Fmul Z (Fmul F0 F0))) (Fmul Z (Fmul F0 F0)) = F0. Proof. ring. Qed.
Lemma zero_x1 : sswu_x1 (K := KFp) A1' B1' Z1 F0 = v1.
Proof.
  unfold sswu_x1. cbv zeta. destruct (keq _ _) as [E|N]; [symmetry; exact v1_eq|]. exfalso. exact (N (F_sq0 Z1)).
Qed.
Lemma zero_sswu : sswu (K := KFp) sgn0_1 A1' B1' Z1 F0 v1 sv1.
Proof.
  unfold sswu. cbv zeta. rewrite zero_x1. split; [left; split; [exists sv1; exact (n1_s num1_ok)|reflexivity]|]. split; [exact (n1_s num1_ok)|]. vm_compute. reflexivity.
Qed.
Lemma zero_xd : pv xd1 v1 <> F0.
Proof. intros E. rewrite id1_2 in E. apply Fmul_0 in E. pose proof (n1_e num1_ok) as N. destruct E as [E|E]; exact (N E). Qed.
