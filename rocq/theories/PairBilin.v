(** The reduced ate pairing on E(Fp) x E'(Fp2)[r], and its bilinearity. *)
From Coq Require Import ZArith Znumtheory Bool Lia Ring Field.
From Verif Require Import SpecField FieldProof TowerProof TowerProof2 FpProof SpecCurve AbGroup CurveProof CurveMaps CurveInst
  SubgroupProof CodecProof2 Orders PairCocycle PairLine PairField PairUnits PairTwist.
Local Open Scope Z_scope.
Add Field F_fieldPB : F_field.
Add Field F12_fieldPB : F12_field.

Lemma i1_b : b12 = kmul (kmul (F12_1 : car KF12) F12_1) (i1 b1).
Proof. change (@eq Fp12 (i1 b1) (F12mul (F12mul F12_1 F12_1) (i1 b1))). ring. Qed.
Lemma adds_i1 (x1 y1 x2 y2 x3 y3 l m : Fp) : adds KFp b1 x1 y1 x2 y2 x3 y3 l m -> adds KF12 b12 (i1 x1) (i1 y1) (i1 x2) (i1 y2) (i1 x3) (i1 y3) (i1 l) (i1 m).
Proof.
  intros H. assert (X := adds_map KFp KF12 i1 KFp_field KF12_field hom_i1 F12_1 F12_1 one_ac F12_1_neq_0 b1 b12 i1_b _ _ _ _ _ _ _ _ H).
  cbn [KF12 kmul kinv car] in X. rewrite inv_1 in X.
  assert (E : forall a, F12mul F12_1 a = a) by (intros; ring). rewrite !E in X. exact X.
Qed.
Lemma on_i1 (x y : Fp) : on KFp b1 x y -> on KF12 b12 (i1 x) (i1 y).
Proof.
  unfold on. intros H. apply (f_equal i1) in H. rewrite (h_add _ _ _ hom_i1), !(h_mul _ _ _ hom_i1) in H. exact H.
Qed.
Lemma E1_pt (P : E1) (x y : Fp) : cpt (b := b1) P = A1 x y -> on KFp b1 x y /\ y <> F0.
Proof.
  intros E. pose proof (curve_on KFp KFp_field b1 P) as O. rewrite E in O. split; [exact O|].
  apply (no2_1 x y). apply (onb_ok KFp KFp_field). exact O.
Qed.

(** the cocycle of lines at (x, y) *)
Definition lc (x y : Fp) : E2 -> E2 -> U12 := cc KF12 U12 ev E2 tt (i1 x) (i1 y).
Section At.
Context (x y : Fp) (O : on KFp b1 x y) (Y : y <> F0).
Lemma lc_nz A B : line KF12 (tt A) (tt B) (i1 x) (i1 y) <> k0. Proof. exact (tt_l_nz A B x y Y). Qed.
Lemma lc_comm A B : lc x y A B = lc x y B A.
Proof. exact (cc_comm KF12 KF12_field KF12_two KF12_three b12 b12_nz U12 ev E2 tt tt_on (i1 x) (i1 y) A B). Qed.
Lemma lc_id A : lc x y gid A = gid.
Proof. exact (cc_id KF12 KF12_field KF12_two KF12_three b12 b12_nz U12 ev ev_mul E2 tt tt_on tt_op (i1 x) (i1 y) A). Qed.
Lemma lc_coc A B C : gop (lc x y A B) (lc x y (gop A B) C) = gop (lc x y A (gop B C)) (lc x y B C).
Proof. exact (cc_coc KF12 KF12_field KF12_two KF12_three b12 b12_nz U12 ev ev_mul E2 tt tt_on tt_op tt_inj (i1 x) (i1 y) (on_i1 x y O) (tt_v_nz x) (tt_v_ev x) lc_nz A B C). Qed.
Lemma lc_neg A B : lc x y (ginv A) (ginv B) = ginv (lc x y A B).
Proof. exact (cc_neg KF12 KF12_field KF12_two KF12_three b12 b12_nz U12 ev ev_mul E2 tt tt_on tt_op (i1 x) (i1 y) (on_i1 x y O) (tt_v_nz x) (tt_v_ev x) A B). Qed.
Lemma lc_psi A B : lc x y (psi A) (psi B) = zmul modulus (lc x y A B).
Proof. unfold lc, cc. rewrite line_psi. apply ev_fr. apply lc_nz. Qed.
Lemma lc_r A B : zmul order (lc x y A B) = gid. Proof. apply ev_r. Qed.
End At.
Lemma Fopp_0_inv (y : Fp) : Fopp y = F0 -> y = F0.
Proof. intros F. transitivity (Fopp (Fopp y)); [ring|]. rewrite F. reflexivity. Qed.
Lemma lc_opposite (x y : Fp) A B : on KFp b1 x y -> y <> F0 -> lc x (Fopp y) A B = ginv (lc x y A B).
Proof.
  intros O Y. unfold lc. 
  assert (E : i1 (Fopp y) = F12opp (i1 y)) by exact (h_opp KFp KF12 i1 KFp_field KF12_field hom_i1 y). rewrite E.
  apply (cc_opposite KF12 KF12_field KF12_two KF12_three b12 b12_nz U12 ev ev_mul E2 tt tt_on tt_op (i1 x) (i1 y) A B (on_i1 x y O) ev_m1 (tt_v_nz x) (tt_v_ev x)).
  intros A0 B0. cbn [KF12 kopp]. rewrite <- E. apply tt_l_nz. intros F. apply Y. apply Fopp_0_inv. exact F.
Qed.

Lemma lc_def (x y : Fp) A B : lc x y A B = ev (line KF12 (tt A) (tt B) (i1 x) (i1 y)). Proof. reflexivity. Qed.
#[global] Opaque lc.
(** the loop count: |x| *)
Definition Xn : nat := Z.to_nat (- Xz).
Lemma Xn_z : Z.of_nat Xn = - Xz. Proof. unfold Xn. apply Z2Nat.id. vm_compute. discriminate. Qed.
#[global] Opaque Xn.
(** e(P, Q) = (f_{x,Q}(P))^(3 (p^12-1)/r): the value of the Miller function f_{|x|,Q} at P, inverted since x is negative *)
Definition epair (P : E1) (Q : E2) : U12 :=
  match cpt (b := b1) P with Inf => gid | Aff x y => ginv (mf (lc x y) Xn Q) end.
Lemma kill_r (u : U12) : zmul order u = gid -> zmul (Z.of_nat Xn + modulus) u = gid.
Proof. intros H. apply (zmul_divide order); [|exact H]. rewrite Xn_z, Z.add_comm. exact r_mod_p. Qed.
Lemma Xn_psi (Q : E2) : zmul order Q = gid -> zmul (Z.of_nat Xn) Q = ginv (psi Q).
Proof. intros H. apply sub2_iff in H. rewrite Xn_z, zmul_opp, H. reflexivity. Qed.
Theorem epair_add_r P Q Q' : zmul order Q = gid -> zmul order Q' = gid -> epair P (gop Q Q') = gop (epair P Q) (epair P Q').
Proof.
  intros H H'. unfold epair. destruct (cpt (b := b1) P) as [|x y] eqn:E; [symmetry; apply g_id|]. destruct (E1_pt P x y E) as [O Y].
  rewrite (mf_hom (lc x y) (lc_comm x y) (lc_id x y) (lc_coc x y O Y) Xn modulus Q Q' (lc_neg x y O)).
  - apply g_inv_op.
  - exists psi. split; [|split]; [apply Xn_psi, H|apply Xn_psi, H'|apply (lc_psi x y Y)].
  - apply kill_r, lc_r.
Qed.
Theorem epair_id_r P : epair P gid = gid.
Proof.
  unfold epair. destruct (cpt (b := b1) P) as [|x y] eqn:E; [reflexivity|]. rewrite (mf_id (lc x y) (lc_id x y)). apply g_inv_0.
Qed.
Theorem epair_add_l P P' Q : zmul order Q = gid -> epair (gop P P') Q = gop (epair P Q) (epair P' Q).
Proof.
  intros H. unfold epair.
  assert (EG : cpt (b := b1) (gop P P') = padd (cpt (b := b1) P) (cpt (b := b1) P')) by reflexivity. rewrite EG. clear EG.
  destruct (cpt (b := b1) P) as [|x1 y1] eqn:EP1; [symmetry; apply g_id|]. destruct (cpt (b := b1) P') as [|x2 y2] eqn:EP2; [symmetry; apply g_id_r|].
  destruct (E1_pt P x1 y1 EP1) as [O1 Y1]. destruct (E1_pt P' x2 y2 EP2) as [O2 Y2].
  destruct (padd_cases KFp KFp_field b1 x1 y1 x2 y2 O1 O2) as [(EX & EY & ->)|(x3 & y3 & l & m & D & EQ)].
  - change (@eq Fp x1 x2) in EX. change (@eq Fp y1 (Fopp y2)) in EY. subst x1 y1.
    rewrite (mf_ext (lc x2 (Fopp y2)) (fun a b => ginv (lc x2 y2 a b))) by (intros; apply lc_opposite; assumption).
    rewrite mf_inv, g_inv_inv. symmetry. apply g_inv.
  - assert (Y3 : y3 <> F0). { destruct (E1_pt (gop P P') x3 y3) as [_ Z]; [|exact Z]. transitivity (padd (cpt (b := b1) P) (cpt (b := b1) P')); [reflexivity|]. rewrite EP1, EP2. exact EQ. }
    rewrite EQ. clear EQ. rewrite <- g_inv_op. apply (f_equal ginv). symmetry. apply g_sub0.
    assert (RC : forall A B, gop (lc x1 y1 A B) (gop (lc x2 y2 A B) (ginv (lc x3 y3 A B))) = gop (ev (mf1 l m A)) (gop (ev (mf1 l m B)) (ginv (ev (mf1 l m (gop A B)))))).
    { intros A B. apply (cc_recip KF12 KF12_field KF12_two KF12_three b12 b12_nz U12 ev ev_mul E2 tt tt_on tt_op tt_inj (i1 x1) (i1 y1) (i1 x2) (i1 y2) (i1 x3) (i1 y3) (i1 l) (i1 m) (adds_i1 _ _ _ _ _ _ _ _ D) ev_m1 (mf1_nz l m)).
      - intros A0 u v T. split; [|split]; exact (tt_v_nz _ A0 u v T).
      - intros A0 u v T. split; [|split]; exact (tt_v_ev _ A0 u v T).
      - intros A0 B0. split; [|split]; apply tt_l_nz; assumption. }
    assert (MI : forall A, ev (mf1 l m (ginv A)) = ginv (ev (mf1 l m A))).
    { intros A. apply (mm_inv KF12 KF12_field KF12_two KF12_three b12 b12_nz U12 ev ev_mul E2 tt tt_on tt_op (i1 x1) (i1 y1) (i1 x2) (i1 y2) (i1 x3) (i1 y3) (i1 l) (i1 m) (adds_i1 _ _ _ _ _ _ _ _ D) ev_m1 (mf1_nz l m)).
      - intros A0 u v T. split; [|split]; exact (tt_v_nz _ A0 u v T).
      - intros A0 u v T. split; [|split]; exact (tt_v_ev _ A0 u v T). }
    etransitivity; [apply g_assoc|].
    transitivity (mf (fun A B => gop (lc x1 y1 A B) (gop (lc x2 y2 A B) (ginv (lc x3 y3 A B)))) Xn Q).
    { symmetry. etransitivity; [apply (mf_op (lc x1 y1) (fun A B => gop (lc x2 y2 A B) (ginv (lc x3 y3 A B))))|]. apply (f_equal (gop _)).
      etransitivity; [apply (mf_op (lc x2 y2) (fun A B => ginv (lc x3 y3 A B)))|]. apply (f_equal (gop _)). apply mf_inv. }
    etransitivity; [apply (mf_cob (fun A => ev (mf1 l m A)) _ Xn Q); [|exact RC]|].
    + unfold mf1, mm. assert (T : tt gid = Inf) by reflexivity. rewrite T. exact ev_1.
    + rewrite Xn_psi by exact H. cbv beta. rewrite MI, g_inv_inv, mf1_psi, ev_fr by apply mf1_nz. rewrite <- zmul_add. apply kill_r, ev_r.
Qed.
Theorem epair_id_l Q : epair gid Q = gid. Proof. reflexivity. Qed.
Theorem epair_r P Q : zmul order (epair P Q) = gid.
Proof.
  unfold epair. destruct (cpt (b := b1) P) as [|x y]; [apply zmul_id|]. rewrite zmul_inv.
  assert (E : forall n, zmul order (mf (lc x y) n Q) = gid).
  { induction n as [|n IH]; cbn [mf]; [apply zmul_id|]. rewrite zmul_op, IH, lc_r. apply g_id. }
  rewrite E. apply g_inv_0.
Qed.
Lemma epair_zmul_l n P Q : zmul order Q = gid -> epair (zmul n P) Q = zmul n (epair P Q).
Proof. intros H. apply (hom_zmul E1 U12 (fun P => epair P Q)). intros. apply epair_add_l, H. Qed.
Lemma epair_zmul_r n P Q : zmul order Q = gid -> epair P (zmul n Q) = zmul n (epair P Q).
Proof.
  intros H. assert (Z : forall n, zmul order (zmul n Q) = gid) by (intros k; rewrite <- zmul_mul, Z.mul_comm, zmul_mul, H; apply zmul_id).
  assert (I : epair P (ginv Q) = ginv (epair P Q)).
  { apply g_inv_unique. rewrite <- epair_add_r; [|exact H|rewrite zmul_inv, H; apply g_inv_0]. rewrite g_inv. apply epair_id_r. }
  assert (N : forall n, 0 <= n -> epair P (zmul n Q) = zmul n (epair P Q)).
  { intros k K. pattern k. apply natlike_ind; [apply epair_id_r| |exact K]. intros j J IH. rewrite !zmul_succ, epair_add_r, IH by auto. reflexivity. }
  destruct (Z_le_gt_dec 0 n) as [G|G]; [apply N, G|].
  replace n with (- (- n)) by lia. rewrite (zmul_opp (- n) Q), (zmul_opp (- n)). rewrite <- N by lia. 
  apply g_inv_unique. rewrite <- epair_add_r; [rewrite g_inv; apply epair_id_r|apply Z|rewrite zmul_inv, Z; apply g_inv_0].
Qed.
