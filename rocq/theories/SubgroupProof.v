(** Endomorphisms of the two curves: the cube-root automorphism of E(Fp) and psi on E'(Fp2); the subgroup tests of the code. *)
From Coq Require Import ZArith List Bool Lia Field Znumtheory.
From Verif Require Import SpecField FieldProof TowerProof TowerProof2 ModelWord ModelPrim ModelScalar ScalarProof ModelFp ModelTower FpProof FpProof2 TowerRefine.
From Verif Require Import SpecCurve AbGroup CurveProof CurveMaps Endo ModelCurve CurveRefine CurveRefine2 CurveInst CurveBase CurveReps.
Import ListNotations.
Local Open Scope Z_scope.
Ltac wrd := repeat (apply Forall_cons; [split; [intros X; discriminate X|reflexivity]|]); apply Forall_nil.
Add Field Fp_fieldSG : F_field.
Add Field Fp2_fieldSG : F2_field.

(** ** constants *)
Definition betv : Z := 0x1a0111ea397fe699ec02408663d4de85aa0d857d89759ad4897d29650fb85f9b409427eb4f49fffd8bfd00000000aaac.
Definition wv : Z := 0x1a0111ea397fe699ec02408663d4de85aa0d857d89759ad4897d29650fb85f9b409427eb4f49fffd8bfd00000000aaad.
Definition yv : Z := 0x135203e60180a68ee2e9c448d77a2cd91c3dedd930b1cf60ef396489f61eb45e304466cf3e67fa0af1ee7b04121bdea2.
Lemma dec_glv : dec glvPhi1 = Fof betv.
Proof. unfold dec. apply (Fof_hint _ _ 0x1422689b7a482ad1e0688fbb2871ed187c5c7794ad2dc69f5d7dc3adb7a8aed04357677042432a69a218c3fc3684825c). vm_compute. reflexivity. Qed.
Lemma bet_w : Fof (wv * wv) = Fof betv.
Proof. apply (Fof_hint _ _ 0x1a0111ea397fe6998ce8d956845e10354b6cb56f9c3e9ac8e54ca1eecdc98afd94609c1675867437221900150013aab7). vm_compute. reflexivity. Qed.
Lemma bet_eq : Fof (betv * betv + betv + 1) = F0.
Proof. apply (Fof_hint _ _ 0x1a0111ea397fe6998ce8d956845e10354b6cb56f9c3e9ac8e54ca1eecdc98afd94609c1675867437221900150013aab7). vm_compute. reflexivity. Qed.
Lemma w_eq : Fof (wv * wv - wv + 1) = F0.
Proof. apply (Fof_hint _ _ 0x1a0111ea397fe6998ce8d956845e10354b6cb56f9c3e9ac8e54ca1eecdc98afd94609c1675867437221900150013aab7). vm_compute. reflexivity. Qed.
Lemma y_eq : Fof (2 * (yv * yv) + 1) = F0.
Proof. apply (Fof_hint _ _ 0x1cb57fe6fb366ebe55bd55812423ec51ebe734773f506fba394453d96b87bd846476dedf0cfd58cc5168924035d3371b). vm_compute. reflexivity. Qed.
Lemma dec_psiX1 : dec (c1 psiX) = Fof wv.
Proof. unfold dec. apply (Fof_hint _ _ 0x10df038f5f24a643036bbd31afc17901aa5c92d7c54b16cf69fa53e3b2b570436cf78a72a61a707a9bc9ac7d0610b119). vm_compute. reflexivity. Qed.
Lemma dec_psiY0 : dec (c0 psiY) = Fof yv.
Proof. unfold dec. apply (Fof_hint _ _ 0x98e03987a0e1eb6c1772f847a6e82dd66410d74d6661365ef708c18a3ec9bae9b4d8696d3d6b1643150808dd671ca7a). vm_compute. reflexivity. Qed.
Lemma dec_psiY1 : dec (c1 psiY) = Fof (- yv).
Proof. unfold dec. apply (Fof_hint _ _ 0xb70c3696eecee332be734a2c1e0d0adb1569d9f82427a8344ce1d6070a8d219e4938bde04c24997c38301cb61997da6). vm_compute. reflexivity. Qed.
Lemma canon_psiX1 : canon (c1 psiX). Proof. zchk. Qed.
Lemma canon_psiY0 : canon (c0 psiY). Proof. zchk. Qed.
Lemma canon_psiY1 : canon (c1 psiY). Proof. zchk. Qed.
Lemma bet_ne1 : Fof betv <> F1. Proof. intros H. apply (f_equal fval) in H. vm_compute in H. discriminate. Qed.
#[global] Opaque betv wv yv.
Definition bet : Fp := Fof betv.
Definition ww : Fp := Fof wv.
Definition yy : Fp := Fof yv.
Definition psX : Fp2 := mkFp2 F0 ww.
Definition psY : Fp2 := mkFp2 yy (Fopp yy).
Lemma bet_q : Fadd (Fadd (Fmul bet bet) bet) F1 = F0.
Proof. pose proof bet_eq as H. rewrite !Fof_add, Fof_mul in H. exact H. Qed.
Lemma bet_w2 : Fmul ww ww = bet. Proof. pose proof bet_w as H. rewrite Fof_mul in H. exact H. Qed.
Lemma w_q : Fadd (Fsub (Fmul ww ww) ww) F1 = F0.
Proof. pose proof w_eq as H. rewrite Fof_add, Fof_sub, Fof_mul in H. exact H. Qed.
Lemma y_q : Fadd (Fmul (Fadd F1 F1) (Fmul yy yy)) F1 = F0.
Proof. pose proof y_eq as H. rewrite Fof_add, !Fof_mul, Fof2 in H. exact H. Qed.
Lemma w_3 : Fmul ww (Fmul ww ww) = Fopp F1.
Proof. transitivity (Fsub (Fmul (Fadd ww F1) (Fadd (Fsub (Fmul ww ww) ww) F1)) F1); [ring|rewrite w_q; ring]. Qed.
Lemma bet_3 : Fmul bet (Fmul bet bet) = F1.
Proof. transitivity (Fadd (Fmul (Fsub bet F1) (Fadd (Fadd (Fmul bet bet) bet) F1)) F1); [ring|rewrite bet_q; ring]. Qed.
Lemma bet_nz : bet <> F0. Proof. intros H. pose proof bet_3 as B. rewrite H in B. apply F1_nz. rewrite <- B. ring. Qed.
Lemma y_2 : Fadd (Fmul yy yy) (Fmul yy yy) = Fopp F1.
Proof. transitivity (Fsub (Fadd (Fmul (Fadd F1 F1) (Fmul yy yy)) F1) F1); [ring|rewrite y_q; ring]. Qed.
Lemma psX_3 : F2mul psX (F2mul psX psX) = mkFp2 F0 F1.
Proof. apply F2_eq; unfold F2mul, psX; cbn [re im]; [ring|]. transitivity (Fopp (Fmul ww (Fmul ww ww))); [ring|rewrite w_3; ring]. Qed.
Lemma psY_2 : F2mul psY psY = mkFp2 F0 F1.
Proof. apply F2_eq; unfold F2mul, psY; cbn [re im]; [ring|]. transitivity (Fopp (Fadd (Fmul yy yy) (Fmul yy yy))); [ring|rewrite y_2; ring]. Qed.
Lemma psX_nz : psX <> F2_0.
Proof. intros H. pose proof (f_equal im H) as E. cbn in E. pose proof w_3 as W. rewrite E in W. apply F1_nz. transitivity (Fopp (Fopp F1)); [ring|]. rewrite <- W. ring. Qed.

(** ** the two endomorphisms *)
Lemma hom_id : fieldHom KFp KFp (fun x => x). Proof. constructor; auto. Qed.
Lemma hom_conj : fieldHom KFp2 KFp2 F2conj.
Proof. constructor; cbn [KFp2 k1 kadd kmul car]; intros; [apply F2_eq; cbn; ring|apply F2conj_add|apply F2conj_mul]. Qed.
Lemma sig_ac : Fmul F1 F1 = Fmul bet (Fmul bet bet).
Proof. rewrite bet_3. ring. Qed.
Lemma sig_b : @eq Fp b1 (Fmul (Fmul F1 F1) b1). Proof. unfold b1. ring. Qed.
Lemma psi_ac : F2mul psY psY = F2mul psX (F2mul psX psX).
Proof. rewrite psX_3. apply psY_2. Qed.
Lemma psi_b : @eq Fp2 b2 (F2mul (F2mul psY psY) (F2conj b2)).
Proof. rewrite psY_2. unfold b2, F2b. apply F2_eq; unfold F2mul, F2conj; cbn [re im]; ring. Qed.
Definition sigp : point KFp -> point KFp := pmap KFp KFp (fun x => x) bet F1.
Definition psip : point KFp2 -> point KFp2 := pmap KFp2 KFp2 F2conj psX psY.
Definition sig : E1 -> E1 := cmap KFp KFp (fun x => x) KFp_field KFp_field hom_id bet F1 sig_ac b1 b1 sig_b.
Definition psi : E2 -> E2 := cmap KFp2 KFp2 F2conj KFp2_field KFp2_field hom_conj psX psY psi_ac b2 b2 psi_b.
Lemma sig_op x y : sig (gop x y) = gop (sig x) (sig y).
Proof. apply (cmap_op KFp KFp). exact bet_nz. Qed.
Lemma psi_op x y : psi (gop x y) = gop (psi x) (psi y).
Proof. apply (cmap_op KFp2 KFp2). exact psX_nz. Qed.

(** ** relations *)
Lemma sig_rel (P : E1) : pact sig [1; 1; 1] P = gid.
Proof.
  cbn [pact]. rewrite !zmul_1, (s_0 sig sig_op), g_id_r, sig_op, <- g_assoc. apply curve_eq.
  assert (E : forall Q : E1, cpt (b := b1) (sig Q) = beta KFp bet (cpt (b := b1) Q)).
  { intros Q. change (sigp (cpt (b := b1) Q) = beta KFp bet (cpt (b := b1) Q)). unfold sigp, pmap, beta. destruct (cpt (b := b1) Q) as [|x y]; [reflexivity|].
    apply Aff_eq; [reflexivity|]. cbn [KFp kmul car]. change (Fmul F1 y = y). ring. }
  change (padd (padd (cpt (b := b1) P) (cpt (b := b1) (sig P))) (cpt (b := b1) (sig (sig P))) = Inf). rewrite !E.
  apply (beta_sum KFp KFp_field KFp_two b1 bet b1_nz); [exact bet_q|exact bet_ne1|apply (curve_on KFp KFp_field b1)].
Qed.
Definition bet2 : Fp2 := mkFp2 bet F0.
Lemma bet2_q : F2add (F2add (F2mul bet2 bet2) bet2) F2_1 = F2_0.
Proof. apply F2_eq; unfold F2add, F2mul, bet2; cbn [re im F2_1 F2_0]; [|ring]. transitivity (Fadd (Fadd (Fmul bet bet) bet) F1); [ring|apply bet_q]. Qed.
Lemma bet2_ne1 : bet2 <> F2_1. Proof. intros H. apply bet_ne1. exact (f_equal re H). Qed.
Lemma psi_psi (Q : E2) : cpt (b := b2) (psi (psi Q)) = pneg (beta KFp2 bet2 (cpt (b := b2) Q)).
Proof.
  change (psip (psip (cpt (b := b2) Q)) = pneg (beta KFp2 bet2 (cpt (b := b2) Q))). unfold psip, pmap, beta, pneg. destruct (cpt (b := b2) Q) as [|x y]; [reflexivity|].
  apply Aff_eq; cbn [KFp2 kmul kopp car].
  - change (F2mul psX (F2conj (F2mul psX (F2conj x))) = F2mul bet2 x). rewrite F2conj_mul, F2conj_invol.
    transitivity (F2mul (F2mul psX (F2conj psX)) x); [ring|].
    assert (E : F2mul psX (F2conj psX) = bet2) by (unfold bet2, psX; rewrite <- bet_w2; apply F2_eq; unfold F2mul, F2conj; cbn [re im]; ring).
    rewrite E. reflexivity.
  - change (F2mul psY (F2conj (F2mul psY (F2conj y))) = F2opp y). rewrite F2conj_mul, F2conj_invol.
    transitivity (F2mul (F2mul psY (F2conj psY)) y); [ring|].
    assert (E : F2mul psY (F2conj psY) = F2opp F2_1).
    { unfold psY. apply F2_eq; unfold F2mul, F2conj, F2opp; cbn [re im F2_1]; [|ring]. rewrite <- y_2. ring. }
    rewrite E. ring.
Qed.
Definition sig2 (Q : E2) : E2 := ginv (psi (psi Q)).
Lemma sig2_pt (Q : E2) : cpt (b := b2) (sig2 Q) = beta KFp2 bet2 (cpt (b := b2) Q).
Proof.
  unfold sig2. change (pneg (cpt (b := b2) (psi (psi Q))) = beta KFp2 bet2 (cpt (b := b2) Q)). rewrite psi_psi.
  destruct (cpt (b := b2) Q) as [|x y]; [reflexivity|]. apply Aff_eq; [reflexivity|]. change (F2opp (F2opp y) = y). ring.
Qed.
Lemma psi_rel (Q : E2) : pact psi [1; 0; -1; 0; 1] Q = gid.
Proof.
  assert (E : gop (gop Q (sig2 Q)) (sig2 (sig2 Q)) = gid).
  { apply curve_eq. change (padd (padd (cpt (b := b2) Q) (cpt (b := b2) (sig2 Q))) (cpt (b := b2) (sig2 (sig2 Q))) = Inf). rewrite !sig2_pt.
    apply (beta_sum KFp2 KFp2_field KFp2_two b2 bet2 b2_nz); [exact bet2_q|exact bet2_ne1|apply (curve_on KFp2 KFp2_field b2)]. }
  rewrite <- E. cbn [pact]. rewrite !zmul_1, !zmul_0, !g_id, (s_0 psi psi_op), g_id_r. change (-1) with (- (1)). rewrite zmul_opp, zmul_1.
  rewrite !psi_op. unfold sig2 at 1 2 3. rewrite !(s_inv psi psi_op), g_inv_inv. rewrite <- g_assoc. reflexivity.
Qed.
Lemma r_val : order = 52435875175126190479447740508185965837690552500527637822603658699938581184513. Proof. vm_compute. reflexivity. Qed.

(** ** the subgroup conditions *)
Definition Lam : Z := 228988810152649578064853576960394133503.
Definition Xz : Z := (-15132376222941642752).
Definition gsub1 : list Z := [(-76329603384216526021617858986798044501); 152659206768433052043235717973596089002; (-76329603384216526021617858986798044502)].
Definition gsub2 : list Z := [1; 0; (-1); (-15132376222941642752)].
Lemma sub1_r (P : E1) : pact sig gsub1 P = gid -> zmul order P = gid.
Proof.
  intros H. rewrite <- (pact_const sig sig_op).
  refine (pact_ideal sig sig_op [52435875175126190479447740508185965837766882103911854348625276558925379229014; (-52435875175126190479447740508185965837919541310680287400668512276898975318016); 17478625058375396826482580169395321946125839643661862185599406476939921195008] [1; 0; 228988810152649578064853576960394133504] [1; 1; 1] gsub1 _ P _ (sig_rel P) H). vm_compute. reflexivity.
Qed.
Lemma sub1_eigen (P : E1) : pact sig gsub1 P = gid <-> sig P = zmul Lam P.
Proof.
  assert (E : pact sig [Lam; -1] P = gid <-> sig P = zmul Lam P).
  { cbn [pact]. rewrite (s_0 sig sig_op), g_id_r. change (-1) with (- (1)). rewrite zmul_opp, zmul_1, (s_inv sig sig_op).
    split; [intros H; symmetry; apply g_sub0, H|intros ->; apply g_inv]. }
  rewrite <- E. split; intros H.
  - refine (pact_ideal sig sig_op [228988810152649578064853576960394133503; (-228988810152649578064853576960394133504); 76329603384216526021617858986798044502] [0; 0; 1] [1; 1; 1] gsub1 _ P _ (sig_rel P) H). vm_compute. reflexivity.
  - refine (pact_ideal sig sig_op [(-76329603384216526021617858986798044501)] [0; 1] [1; 1; 1] [Lam; -1] _ P _ (sig_rel P) H). vm_compute. reflexivity.
Qed.
Lemma sub2_eigen (P : E2) : pact psi gsub2 P = gid <-> psi P = zmul Xz P.
Proof.
  assert (E : pact psi [Xz; -1] P = gid <-> psi P = zmul Xz P).
  { cbn [pact]. rewrite (s_0 psi psi_op), g_id_r. change (-1) with (- (1)). rewrite zmul_opp, zmul_1, (s_inv psi psi_op).
    split; [intros H; symmetry; apply g_sub0, H|intros ->; apply g_inv]. }
  rewrite <- E. split; intros H.
  - refine (pact_ideal psi psi_op [(-15132376222941642752); (-1); (-15132376222941642752)] [0; 0; 0; (-1)] [1; 0; -1; 0; 1] gsub2 _ P _ (psi_rel P) H). vm_compute. reflexivity.
  - refine (pact_ideal psi psi_op [1] [0; 0; 0; 1] [1; 0; -1; 0; 1] [Xz; -1] _ P _ (psi_rel P) H). vm_compute. reflexivity.
Qed.
Lemma sub2_r (P : E2) : psi P = zmul Xz P -> zmul order P = gid.
Proof.
  intros H. apply sub2_eigen in H. rewrite <- (pact_const psi psi_op).
  assert (H' : pact psi [Xz; -1] P = gid).
  { refine (pact_ideal psi psi_op [(-15132376222941642752); (-1); (-15132376222941642752)] [0; 0; 0; (-1)] [1; 0; -1; 0; 1] gsub2 _ P _ (psi_rel P) H). vm_compute. reflexivity. }
  refine (pact_ideal psi psi_op [1] [(-3465144826073652318776269530687742778255120092542420320256); 228988810152649578064853576960394133503; (-15132376222941642752); 1] [1; 0; -1; 0; 1] [Xz; -1] _ P _ (psi_rel P) H'). vm_compute. reflexivity.
Qed.

(** ** the code *)
Lemma canon_phi x : canon x -> canon (fp_phi x). Proof. intros H. unfold fp_phi. apply canon_mul; auto using canon_glv. Qed.
Lemma dec_phi x : canon x -> dec (fp_phi x) = Fmul (dec x) bet.
Proof. intros H. unfold fp_phi. rewrite dec_mul by auto using canon_glv. rewrite dec_glv. reflexivity. Qed.
Lemma glv_rep p P : rep1g p P -> rep1g (g1_glv p) (sig P).
Proof.
  intros H. unfold g1_glv. unfold rep1g, rep1 in *. change (cpt (b := b1) (sig P)) with (sigp (cpt (b := b1) P)).
  destruct (g1_isZero p) eqn:Z.
  - apply (j_isZero_rep fp_ops KFp canon dec fp_represents KFp_field _ _ H) in Z. rewrite Z. apply (jrep_zero fp_ops KFp canon dec fp_represents KFp_field).
  - destruct (cpt (b := b1) P) as [|u v] eqn:EP.
    { exfalso. assert (g1_isZero p = true) by (apply (j_isZero_rep fp_ops KFp canon dec fp_represents KFp_field _ _ H); reflexivity). congruence. }
    pose proof (jrep_affine fp_ops KFp canon dec fp_represents KFp_field _ _ H) as ((C1 & C2 & C3) & (J1 & J2 & J3)). fold (g1_affine p) in *.
    split; [split; [|split]; cbn [jx jy jz]; auto using canon_phi|]. cbn [jx jy jz sigp pmap]. rewrite dec_phi by auto.
    cbn [jacobian]. split; [exact J1|]. unfold ksq, kcube in *. cbn [KFp kmul car] in *.
    split; [rewrite J2|rewrite J3]; ring.
Qed.
Lemma canon_psiX : canon2 psiX. Proof. split; [apply canon_0|apply canon_psiX1]. Qed.
Lemma canon_psiY : canon2 psiY. Proof. split; [apply canon_psiY0|apply canon_psiY1]. Qed.
Lemma dec_psiX : dec2 psiX = psX.
Proof. apply F2_eq; unfold dec2, psX; cbn [re im]; [apply dec_0|apply dec_psiX1]. Qed.
Lemma dec_psiY : dec2 psiY = psY.
Proof. apply F2_eq; unfold dec2, psY; cbn [re im]; [apply dec_psiY0|rewrite dec_psiY1, Fof_opp; reflexivity]. Qed.
Lemma psi_rep p P : rep2g p P -> rep2g (g2_psi p) (psi P).
Proof.
  intros H. unfold g2_psi. unfold rep2g, rep2c in *. change (cpt (b := b2) (psi P)) with (psip (cpt (b := b2) P)).
  destruct H as ((C1 & C2 & C3) & J). split; [split; [|split]; cbn [jx jy jz]; auto using canon2_mul, canon2_conj, canon_psiX, canon_psiY|].
  cbn [jx jy jz]. rewrite !dec2_mul, !dec2_conj, dec_psiX, dec_psiY by auto using canon2_conj, canon_psiX, canon_psiY.
  destruct (cpt (b := b2) P) as [|u v]; cbn [psip pmap jacobian] in *.
  - cbn [KFp2 k0 car] in *. rewrite J. apply F2_eq; cbn; ring.
  - destruct J as (J1 & J2 & J3). unfold ksq, kcube in *. cbn [KFp2 k0 kmul car] in *.
    split; [intros E; apply J1; rewrite <- (F2conj_invol (dec2 (jz p))), E; apply F2_eq; cbn; ring|].
    split; [rewrite J2|rewrite J3]; rewrite !F2conj_mul; ring.
Qed.
Lemma g1_test_rep p P : rep1g p P -> g1_inCorrectSubgroup p = true <-> pact sig gsub1 P = gid.
Proof.
  intros H. unfold g1_inCorrectSubgroup.
  pose proof (glv_rep _ _ H) as H0. pose proof (glv_rep _ _ H0) as H1.
  pose proof (rep1g_sub _ _ _ _ (rep1g_sub _ _ _ _ (rep1g_dbl _ _ H0) H) H1) as H4.
  pose proof (rep1g_sub _ _ _ _ (rep1g_scale _ _ [0x0000000055555555; 0x396c8c005555e156] H4 ltac:(wrd)) H1) as H6.
  cbv zeta. refine (iff_trans (rep1g_isZero _ _ H6) _). clear.
  assert (E : forall c : Z, gop (zmul c (gop (gop (gop (sig P) (sig P)) (ginv P)) (ginv (sig (sig P))))) (ginv (sig (sig P))) = pact sig [- c; 2 * c; - c - 1] P).
  { intros c. cbn [pact]. rewrite (s_0 sig sig_op), g_id_r. rewrite !sig_op, !(s_zmul sig sig_op). rewrite !zmul_op, !zmul_inv, !zmul_opp, zmul_sub, zmul_1, zmul_opp.
    replace (2 * c) with (c + c) by ring. rewrite zmul_add. set (A := zmul c (sig P)). set (B' := ginv (zmul c P)). set (D := ginv (zmul c (sig (sig P)))). set (F := ginv (sig (sig P))).
    rewrite !g_assoc. rewrite (g_comm _ B' (gop A _)). rewrite !g_assoc. f_equal. f_equal. rewrite g_comm. rewrite !g_assoc. reflexivity. }
  rewrite E. reflexivity.
Qed.
Lemma g2_test_rep p P : rep2g p P -> g2_inCorrectSubgroup p = true <-> pact psi gsub2 P = gid.
Proof.
  intros H. unfold g2_inCorrectSubgroup.
  pose proof (psi_rep _ _ H) as H0. pose proof (psi_rep _ _ H0) as H1. pose proof (psi_rep _ _ H1) as H2.
  pose proof (rep2g_neg _ _ (rep2g_scale _ _ g2_cofactorEFF H2 ltac:(wrd))) as H3.
  pose proof (rep2g_add _ _ _ _ (rep2g_add _ _ _ _ H3 (rep2g_neg _ _ H1)) H) as H4.
  cbv zeta. refine (iff_trans (rep2g_isZero _ _ H4) _). clear.
  assert (E : forall c : Z, gop (gop (ginv (zmul c (psi (psi (psi P))))) (ginv (psi (psi P)))) P = pact psi [1; 0; -1; - c] P).
  { intros c. cbn [pact]. rewrite (s_0 psi psi_op), g_id_r, zmul_0, g_id, zmul_1. change (-1) with (- (1)). rewrite !zmul_opp, zmul_1.
    rewrite !psi_op, !(s_inv psi psi_op), !(s_zmul psi psi_op). rewrite g_comm. f_equal. apply g_comm. }
  rewrite E. reflexivity.
Qed.
