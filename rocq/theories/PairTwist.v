(** Lines on the untwisted points evaluated at points of E(Fp); compatibility with the Frobenius map. *)
From Coq Require Import ZArith Znumtheory Bool Lia Ring Field.
From Verif Require Import RingPow SpecField FieldProof TowerProof TowerProof2 ModelFp FpProof TowerRefine TowerRefine2 TowerRefine3 SpecCurve AbGroup CurveProof CurveMaps CurveInst
  SubgroupProof CodecProof2 PairCocycle PairLine PairField PairUnits.
Local Open Scope Z_scope.

Section AddsMap.
Context (K L : fieldOps) (phi : car K -> car L).
Hypothesis Kf : field_theory (k0 : car K) k1 kadd kmul ksub kopp (fun x y => kmul x (kinv y)) kinv eq.
Hypothesis Lf : field_theory (k0 : car L) k1 kadd kmul ksub kopp (fun x y => kmul x (kinv y)) kinv eq.
Add Field LFt : Lf.
Hypothesis H : fieldHom K L phi.
Variables a c : car L.
Hypothesis ac : kmul c c = kmul a (kmul a a).
Hypothesis a_nz : a <> k0.
Variables (b : car K) (b' : car L).
Hypothesis bb : b' = kmul (kmul c c) (phi b).
Lemma adds_map x1 y1 x2 y2 x3 y3 l m : adds K b x1 y1 x2 y2 x3 y3 l m ->
  adds L b' (kmul a (phi x1)) (kmul c (phi y1)) (kmul a (phi x2)) (kmul c (phi y2)) (kmul a (phi x3)) (kmul c (phi y3)) (kmul (kmul c (kinv a)) (phi l)) (kmul c (phi m)).
Proof.
  pose proof (h_add _ _ _ H) as HA. pose proof (h_mul _ _ _ H) as HM. pose proof (h_opp K L phi Kf Lf H) as HO. pose proof (h_sub K L phi Kf Lf H) as HS.
  intros ((V1 & V2 & V3) & Y1 & Y2 & Y3). apply (f_equal phi) in V1, V2, V3. repeat rewrite ?HS, ?HO, ?HA, ?HM in V1. repeat rewrite ?HS, ?HO, ?HA, ?HM in V2. repeat rewrite ?HS, ?HO, ?HA, ?HM in V3.
  split; [split; [|split]|].
  - transitivity (kmul (kmul (kmul c c) (kmul (kinv a) (kinv a))) (kmul (phi l) (phi l))); [ring|]. rewrite ac, V1. field. exact a_nz.
  - transitivity (kmul (kmul (kmul c c) (kinv a)) (kopp (kadd (kmul (phi l) (phi m)) (kmul (phi l) (phi m))))); [ring|]. rewrite ac, V2. field. exact a_nz.
  - rewrite bb. transitivity (kmul (kmul c c) (ksub (kmul (phi m) (phi m)) (phi b))); [ring|]. rewrite ac, V3. ring.
  - split; [|split]; [rewrite Y1|rewrite Y2|rewrite Y3]; rewrite ?HO, ?HA, ?HM; field; exact a_nz.
Qed.
Lemma line_map_adds A B x1 y1 x2 y2 x3 y3 l m X Y (Ltwo : kadd (k1 : car L) k1 <> k0) (Lthree : kadd (kadd (k1 : car L) k1) k1 <> k0) (bnz : b' <> k0) :
  adds K b x1 y1 x2 y2 x3 y3 l m -> A = Aff x1 y1 -> B = Aff x2 y2 ->
  line L (pmap K L phi a c A) (pmap K L phi a c B) X Y = lin L (kmul (kmul c (kinv a)) (phi l)) (kmul c (phi m)) X Y.
Proof.
  intros A1 -> ->. apply adds_map in A1. cbn [pmap]. exact (line_adds L Lf Ltwo Lthree b' bnz _ _ _ _ _ _ _ _ X Y A1).
Qed.
Hypothesis Ktwo : kadd (k1 : car K) k1 <> k0.
Lemma line_map_vert A B X Y : onP K b A -> onP K b B -> A = Inf \/ B = Inf \/ padd A B = Inf ->
  line L (pmap K L phi a c A) (pmap K L phi a c B) X Y = k1.
Proof.
  intros OA OB D. destruct A as [|x1 y1]; [reflexivity|]. destruct B as [|x2 y2]; [reflexivity|].
  destruct D as [D|[D|D]]; try discriminate D.
  assert (E := pmap_padd K L phi Kf Lf H a c ac a_nz Ktwo b _ _ OA OB). rewrite D in E. unfold line. cbn [pmap] in *. rewrite <- E. reflexivity.
Qed.
End AddsMap.

Add Field F_fieldPT : F_field.
Add Field F2_fieldPT : F2_field.
Add Field F6_fieldPT : F6_field.
Add Field F12_fieldPT : F12_field.

(** * points of the twist *)
Lemma tt_cases A : A = gid /\ tt A = Inf \/ exists x y : Fp2, cpt (b := b2) A = A2 x y /\ tt A = Aff (F12mul tw2 (i2 x) : car KF12) (F12mul tw3 (i2 y)) /\ x <> F2_0 /\ y <> F2_0.
Proof.
  destruct A as [[|x y] O].
  - left. split; [apply curve_eq; reflexivity|reflexivity].
  - right. exists x, y. split; [reflexivity|]. split; [reflexivity|]. split.
    + intros E. subst x. exact (not_on0_2 y O).
    + exact (no2_2 x y O).
Qed.
Lemma ix_nz : ix <> F2_0. Proof. intros H. apply F2_1_neq_0. rewrite <- ix_xi, H. ring. Qed.
Lemma F2_mul_nz a c : a <> F2_0 -> c <> F2_0 -> F2mul a c <> F2_0.
Proof. intros A C E. apply C. transitivity (F2mul (F2inv a) (F2mul a c)); [field; exact A|]. rewrite E. ring. Qed.
Lemma vert_form (x : Fp) (x' : Fp2) : F12sub (i1 x) (F12mul tw2 (i2 x')) = F12of (mkFp6 (F2of x) F2_0 (F2opp (F2mul ix x'))).
Proof. unfold i1, i2, tw2. generalize ix (F2of x). intros j X. apply F12_eq; f12_unf; apply F6_eq; f6_unf; ring. Qed.
Lemma vert_nz (x : Fp) (x' : Fp2) : x' <> F2_0 -> mkFp6 (F2of x) F2_0 (F2opp (F2mul ix x')) <> F6_0.
Proof.
  intros N E. apply (f_equal co2) in E. cbn [co2 F6_0] in E. apply (F2_mul_nz ix x' ix_nz N).
  transitivity (F2opp (F2opp (F2mul ix x'))); [ring|]. rewrite E. ring.
Qed.
Lemma tt_v_nz x A (u v : car KF12) : tt A = Aff u v -> ksub (i1 x : car KF12) u <> k0.
Proof.
  intros E. destruct (tt_cases A) as [[_ X]|(x' & y' & _ & X & N & _)]; rewrite X in E; [discriminate|]. injection E as <- _.
  change (F12sub (i1 x) (F12mul tw2 (i2 x')) <> F12_0). rewrite vert_form. intros F. apply (vert_nz x x' N). exact (f_equal lo F).
Qed.
Lemma tt_v_ev x A (u v : car KF12) : tt A = Aff u v -> ev (ksub (i1 x : car KF12) u) = gid.
Proof.
  intros E. destruct (tt_cases A) as [[_ X]|(x' & y' & _ & X & N & _)]; rewrite X in E; [discriminate|]. injection E as <- _.
  change (ev (F12sub (i1 x) (F12mul tw2 (i2 x'))) = gid). rewrite vert_form. apply ev_lo, vert_nz, N.
Qed.
(** w^3 times the line through (x1, y1), (x2, y2) untwisted, at (x, y) *)
Lemma lin_form (l m : Fp2) (x y : Fp) :
  F12mul w3 (lin KF12 (F12mul (F12mul tw3 (F12inv tw2)) (i2 l)) (F12mul tw3 (i2 m)) (i1 x) (i1 y)) = F12of014 (F2opp m) (F2opp (F2mul l (F2of x))) (F2of y).
Proof.
  unfold lin. cbn [KF12 ksub kmul car]. rewrite tw2_inv.
  transitivity (F12sub (F12sub (F12mul w3 (i1 y)) (F12mul (F12mul tw3 w3) (F12mul (F12mul w2 (i2 l)) (i1 x)))) (F12mul (F12mul tw3 w3) (i2 m))); [ring|].
  rewrite tw3_w3.
  transitivity (F12sub (F12sub (F12mul w3 (i1 y)) (F12mul w2 (F12mul (i2 l) (i1 x)))) (i2 m)); [ring|].
  assert (E : F12mul (i2 l) (i1 x) = i2 (F2mul l (F2of x))) by (symmetry; exact (h_mul _ _ _ hom_i2 l (F2of x))). rewrite E. clear E.
  unfold i1. generalize (F2of y) (F2mul l (F2of x)). intros Y X.
  assert (E1 : F12mul w3 (i2 Y) = mkFp12 F6_0 (mkFp6 F2_0 Y F2_0)) by (unfold w3, i2; apply F12_eq; f12_unf; apply F6_eq; f6_unf; ring).
  assert (E2 : F12mul w2 (i2 X) = mkFp12 (mkFp6 F2_0 X F2_0) F6_0) by (unfold w2, i2; apply F12_eq; f12_unf; apply F6_eq; f6_unf; ring).
  rewrite E1, E2. unfold i2, F12of014, F6of01, F6of1. apply F12_eq; f12_unf; apply F6_eq; f6_unf; ring.
Qed.
Lemma form_nz a c y : y <> F0 -> F12of014 a c (F2of y) <> F12_0.
Proof. intros N E. apply (f_equal (fun z => re (co1 (hi z)))) in E. exact (N E). Qed.
Lemma w3_sq : F12mul w3 w3 = i2 xi. Proof. unfold w3, i2. apply F12_eq; f12_unf; apply F6_eq; f6_unf; ring. Qed.
Lemma ev_w3 : ev w3 = gid. Proof. apply (ev_sq w3 (F6of xi)); [exact w3_nz|exact w3_sq]. Qed.
Lemma tt_line (A B : E2) (x y : Fp) : y <> F0 ->
  (exists x1 y1 x2 y2 x3 y3 l m, cpt (b := b2) A = A2 x1 y1 /\ cpt (b := b2) B = A2 x2 y2 /\ adds KFp2 b2 x1 y1 x2 y2 x3 y3 l m /\
     F12mul w3 (line KF12 (tt A) (tt B) (i1 x) (i1 y)) = F12of014 (F2opp m) (F2opp (F2mul l (F2of x))) (F2of y)) \/
  ((A = gid \/ B = gid \/ gop A B = gid) /\ line KF12 (tt A) (tt B) (i1 x) (i1 y) = F12_1).
Proof.
  intros N. pose proof (curve_on KFp2 KFp2_field b2 A) as OA. pose proof (curve_on KFp2 KFp2_field b2 B) as OB.
  assert (V : cpt (b := b2) A = Inf \/ cpt (b := b2) B = Inf \/ padd (cpt (b := b2) A) (cpt (b := b2) B) = Inf -> (A = gid \/ B = gid \/ gop A B = gid) /\ line KF12 (tt A) (tt B) (i1 x) (i1 y) = F12_1).
  { intros D. split.
    - destruct D as [D|[D|D]]; [left|right; left|right; right]; apply curve_eq; exact D.
    - apply (line_map_vert KFp2 KF12 i2 KFp2_field KF12_field hom_i2 tw2 tw3 tw_ac tw2_nz b2 KFp2_two); assumption. }
  destruct (cpt (b := b2) A) as [|x1 y1] eqn:EA; [right; apply V; auto|]. destruct (cpt (b := b2) B) as [|x2 y2] eqn:EB; [right; apply V; auto|].
  destruct (padd_cases KFp2 KFp2_field b2 x1 y1 x2 y2 OA OB) as [(_ & _ & D)|(x3 & y3 & l & m & D & _)]; [right; apply V; auto|].
  left. exists x1, y1, x2, y2, x3, y3, l, m. split; [reflexivity|]. split; [reflexivity|]. split; [exact D|]. 
  rewrite <- lin_form. f_equal. unfold tt, tp. rewrite EA, EB.
  apply (line_map_adds KFp2 KF12 i2 KFp2_field KF12_field hom_i2 tw2 tw3 tw_ac tw2_nz b2 b12 tw_b _ _ x1 y1 x2 y2 x3 y3 l m _ _ KF12_two KF12_three b12_nz D); reflexivity.
Qed.
Lemma tt_l_nz A B (x y : Fp) : y <> F0 -> line KF12 (tt A) (tt B) (i1 x) (i1 y) <> F12_0.
Proof.
  intros N. destruct (tt_line A B x y N) as [(x1 & y1 & x2 & y2 & x3 & y3 & l & m & _ & _ & _ & E)|[_ E]].
  - intros F. rewrite F in E. apply (form_nz (F2opp m) (F2opp (F2mul l (F2of x))) y N). rewrite <- E. ring.
  - rewrite E. exact F12_1_neq_0.
Qed.
(** a line of E(Fp) at an untwisted point *)
Definition mf1 (l m : Fp) (A : E2) : Fp12 := mm KF12 E2 tt (i1 l) (i1 m) A.
Lemma mf1_nz l m A : mf1 l m A <> F12_0.
Proof.
  unfold mf1, mm. destruct (tt_cases A) as [[_ ->]|(x' & y' & _ & -> & _ & N)]; [exact F12_1_neq_0|].
  unfold lin. cbn [KF12 ksub kmul car]. intros E. apply (f_equal (fun z => co1 (hi z))) in E. 
  assert (F : co1 (hi (F12sub (F12sub (F12mul tw3 (i2 y')) (F12mul (i1 l) (F12mul tw2 (i2 x')))) (i1 m))) = F2mul ix y').
  { clear E. assert (L1 : F12mul tw3 (i2 y') = mkFp12 F6_0 (mkFp6 F2_0 (F2mul ix y') F2_0)) by (unfold tw3, i2; generalize ix; intros; apply F12_eq; f12_unf; apply F6_eq; f6_unf; ring).
    assert (L2 : F12mul (i1 l) (F12mul tw2 (i2 x')) = mkFp12 (F6mul (F6of (F2of l)) (F6mul (mkFp6 F2_0 F2_0 ix) (F6of x'))) F6_0)
      by (unfold tw2, i1, i2; generalize (F6of (F2of l)) (F6of x') (mkFp6 F2_0 F2_0 ix); intros; apply F12_eq; f12_unf; ring).
    rewrite L1, L2. unfold i1, i2. f12_unf. cbn [F6sub F6_0 F6of co1]. ring. }
  rewrite F in E. exact (F2_mul_nz ix y' ix_nz N E).
Qed.

(** * Frobenius *)
Definition fr (a : Fp12) : Fp12 := F12pow a modulus.
Lemma hom_fr : fieldHom KF12 KF12 fr.
Proof.
  constructor; unfold fr; cbn [KF12 car k1 kadd kmul]; intros.
  - apply (rpow_one F12_ring).
  - apply (rpow_frob_add F12_ring modulus_prime F12_char).
  - apply (rpow_mult F12_ring).
Qed.
Lemma fr_i2 a : fr (i2 a) = i2 (F2conj a).
Proof. unfold fr. rewrite F12_frob. unfold frob12, frob6, cj, i2. cbn [lo hi co0 co1 co2 F12of F6of]. generalize dlt. intros d.
  assert (Z : F2conj F2_0 = F2_0) by (apply F2_eq; f2_unf; ring). unfold F12of, F6of, F6_0. cbn [lo hi co0 co1 co2]. rewrite Z.
  apply F12_eq; cbn [lo hi]; apply F6_eq; f6_unf; ring.
Qed.
Lemma fr_i1 a : fr (i1 a) = i1 a.
Proof. unfold i1. rewrite fr_i2. apply (f_equal i2). apply F2_eq; f2_unf; ring. Qed.
Lemma dlt_ka : dlt = mkFp2 (dec k_a) (Fopp (dec k_a)).
Proof. exact dlt_dec. Qed.
#[local] Transparent wv yv.
Lemma ka_ww : ww = Fopp (Fmul (Fmul (Fadd F1 F1) (Fmul (dec k_a) (dec k_a))) (Fmul (Fadd F1 F1) (Fmul (dec k_a) (dec k_a)))).
Proof. apply fval_inj. vm_compute. reflexivity. Qed.
Lemma ka_yy : yy = Fmul (Fadd F1 F1) (Fmul (dec k_a) (Fmul (dec k_a) (dec k_a))).
Proof. apply fval_inj. vm_compute. reflexivity. Qed.
#[local] Opaque wv yv.
Lemma psX_dlt : F2mul (F2mul (F2mul dlt dlt) (F2mul dlt dlt)) (F2conj ix) = F2mul ix psX.
Proof.
  rewrite dlt_ka. unfold psX. rewrite ka_ww. unfold ix. generalize (dec k_a) hf. intros k h. apply F2_eq; f2_unf; ring.
Qed.
Lemma psY_dlt : F2mul (F2mul dlt (F2mul dlt dlt)) (F2conj ix) = F2mul ix psY.
Proof.
  rewrite dlt_ka. unfold psY. rewrite ka_yy. unfold ix. generalize (dec k_a) hf. intros k h. apply F2_eq; f2_unf; ring.
Qed.
Lemma fr_x (x : Fp2) : fr (F12mul tw2 (i2 x)) = F12mul tw2 (i2 (F2mul psX (F2conj x))).
Proof.
  transitivity (F12mul (fr tw2) (i2 (F2conj x))); [rewrite <- fr_i2; apply (h_mul _ _ _ hom_fr)|].
  assert (E : fr tw2 = F12mul tw2 (i2 psX)).
  { unfold fr. rewrite F12_frob. unfold frob12, frob6, cj, tw2, i2. cbn [lo hi co0 co1 co2].
    assert (Z : F2conj F2_0 = F2_0) by (apply F2_eq; f2_unf; ring). unfold F12of, F6of, F6_0. cbn [lo hi co0 co1 co2]. rewrite Z, psX_dlt.
    generalize dlt ix psX. intros. apply F12_eq; f12_unf; apply F6_eq; f6_unf; ring. }
  rewrite E. transitivity (F12mul tw2 (F12mul (i2 psX) (i2 (F2conj x)))); [ring|]. f_equal. symmetry. exact (h_mul _ _ _ hom_i2 psX (F2conj x)).
Qed.
Lemma fr_y (y : Fp2) : fr (F12mul tw3 (i2 y)) = F12mul tw3 (i2 (F2mul psY (F2conj y))).
Proof.
  transitivity (F12mul (fr tw3) (i2 (F2conj y))); [rewrite <- fr_i2; apply (h_mul _ _ _ hom_fr)|].
  assert (E : fr tw3 = F12mul tw3 (i2 psY)).
  { unfold fr. rewrite F12_frob. unfold frob12, frob6, cj, tw3, i2. cbn [lo hi co0 co1 co2].
    assert (Z : F2conj F2_0 = F2_0) by (apply F2_eq; f2_unf; ring). unfold F12of, F6of, F6_0. cbn [lo hi co0 co1 co2]. rewrite Z.
    transitivity (mkFp12 F6_0 (mkFp6 F2_0 (F2mul (F2mul dlt (F2mul dlt dlt)) (F2conj ix)) F2_0)).
    - generalize dlt (F2conj ix). intros. apply F12_eq; f12_unf; apply F6_eq; f6_unf; ring.
    - rewrite psY_dlt. generalize ix psY. intros. apply F12_eq; f12_unf; apply F6_eq; f6_unf; ring. }
  rewrite E. transitivity (F12mul tw3 (F12mul (i2 psY) (i2 (F2conj y)))); [ring|]. f_equal. symmetry. exact (h_mul _ _ _ hom_i2 psY (F2conj y)).
Qed.
Lemma ev_fr a : a <> F12_0 -> ev (fr a) = zmul modulus (ev a). Proof. unfold fr. apply ev_p. Qed.
#[global] Opaque fr.
Definition frp : point KF12 -> point KF12 := pmap KF12 KF12 fr F12_1 F12_1.
Lemma tt_psi A : tt (psi A) = frp (tt A).
Proof.
  unfold tt, frp, tp. change (cpt (b := b2) (psi A)) with (psip (cpt (b := b2) A)). destruct (cpt (b := b2) A) as [|x y]; [reflexivity|].
  unfold psip. cbn [pmap]. cbn [KF12 KFp2 kmul car]. apply Aff_eq; cbn [KF12 car]; [rewrite fr_x|rewrite fr_y]; ring.
Qed.
Lemma b12_fr : b12 = kmul (kmul (F12_1 : car KF12) F12_1) (fr b12).
Proof. unfold b12. rewrite fr_i1. change (@eq Fp12 (i1 b1) (F12mul (F12mul F12_1 F12_1) (i1 b1))). ring. Qed.
Lemma one_ac : kmul (F12_1 : car KF12) F12_1 = kmul (F12_1 : car KF12) (kmul (F12_1 : car KF12) F12_1).
Proof. change (F12mul F12_1 F12_1 = F12mul F12_1 (F12mul F12_1 F12_1)). ring. Qed.
Lemma inv_1 : F12inv F12_1 = F12_1. Proof. transitivity (F12mul F12_1 (F12inv F12_1)); [ring|field; exact F12_1_neq_0]. Qed.
Lemma lin_fr (l m X Y : Fp12) : lin KF12 (F12mul (F12mul F12_1 (F12inv F12_1)) (fr l)) (F12mul F12_1 (fr m)) (fr X) (fr Y) = fr (lin KF12 l m X Y).
Proof.
  assert (S : forall a c, fr (F12sub a c) = F12sub (fr a) (fr c)) by exact (h_sub KF12 KF12 fr KF12_field KF12_field hom_fr).
  assert (M : forall a c, fr (F12mul a c) = F12mul (fr a) (fr c)) by exact (h_mul _ _ _ hom_fr).
  unfold lin. cbn [KF12 ksub kmul car]. rewrite !S, M, inv_1. generalize (fr Y) (fr X) (fr l) (fr m). intros; ring.
Qed.
Lemma line_fr A B X Y : onP KF12 b12 A -> onP KF12 b12 B -> line KF12 (frp A) (frp B) (fr X) (fr Y) = fr (line KF12 A B X Y).
Proof.
  intros OA OB.
  assert (V : A = Inf \/ B = Inf \/ padd A B = Inf -> line KF12 (frp A) (frp B) (fr X) (fr Y) = fr (line KF12 A B X Y)).
  { intros D. transitivity (F12_1 : Fp12).
    - apply (line_map_vert KF12 KF12 fr KF12_field KF12_field hom_fr F12_1 F12_1 one_ac F12_1_neq_0 b12 KF12_two); assumption.
    - symmetry. etransitivity; [|exact (h_1 _ _ _ hom_fr)]. f_equal. destruct A as [|x1 y1]; [reflexivity|]. destruct B as [|x2 y2]; [reflexivity|].
      destruct D as [D|[D|D]]; try discriminate D. unfold line. rewrite D. reflexivity. }
  destruct A as [|x1 y1]; [apply V; auto|]. destruct B as [|x2 y2]; [apply V; auto|].
  destruct (padd_cases KF12 KF12_field b12 x1 y1 x2 y2 OA OB) as [(_ & _ & D)|(x3 & y3 & l & m & D & _)]; [apply V; auto|].
  transitivity (lin KF12 (F12mul (F12mul F12_1 (F12inv F12_1)) (fr l)) (F12mul F12_1 (fr m)) (fr X) (fr Y)).
  - apply (line_map_adds KF12 KF12 fr KF12_field KF12_field hom_fr F12_1 F12_1 one_ac F12_1_neq_0 b12 b12 b12_fr _ _ x1 y1 x2 y2 x3 y3 l m _ _ KF12_two KF12_three b12_nz D); reflexivity.
  - rewrite (line_adds KF12 KF12_field KF12_two KF12_three b12 b12_nz _ _ _ _ _ _ _ _ X Y D). exact (lin_fr l m X Y).
Qed.
Lemma line_psi A B x y : line KF12 (tt (psi A)) (tt (psi B)) (i1 x) (i1 y) = fr (line KF12 (tt A) (tt B) (i1 x) (i1 y)).
Proof. rewrite !tt_psi, <- line_fr by apply tt_on. rewrite !fr_i1. reflexivity. Qed.
Lemma mf1_psi l m A : mf1 l m (psi A) = fr (mf1 l m A).
Proof.
  unfold mf1, mm. rewrite tt_psi. destruct (tt A) as [|u v]; cbn [frp pmap].
  - symmetry. exact (h_1 _ _ _ hom_fr).
  - unfold frp. cbn [pmap]. assert (L := lin_fr (i1 l) (i1 m) u v). rewrite !fr_i1, inv_1 in L. rewrite <- L.
    unfold lin. cbn [KF12 ksub kmul car]. generalize (fr u) (fr v) (i1 l) (i1 m). intros; ring.
Qed.
