(** The endomorphisms on the base points, by computation. *)
From Coq Require Import ZArith List Bool Lia Field Uint63.
From Verif Require Import SpecField FieldProof TowerProof TowerProof2 ModelWord ModelScalar ModelCurve SpecCurve AbGroup CurveProof CurveRefine CurveRefine2 CurveInst CurveBase CurveMaps Endo SubgroupProof I63 I63b.
Import ListNotations.
Local Open Scope Z_scope.
Add Field Fp_fieldGP : F_field.

Definition iGX : list int := [54990277; 59314133; 200641818; 109579710; 41870096; 211465337; 251057189; 119428363; 133142279; 169607235; 265755988; 5504516; 246172301; 27549]%uint63.
Lemma iGX_d : ok63 iGX /\ d63 iGX = Fof GX.
Proof. apply (d63_int _ _ (-0xebb98441cf1a875df28cf941f6b28386e053e909fa2eb45c771c77284ab84a38fa4137f82c81cde1a6314d11e3c4dbbeb1)); vm_compute; reflexivity. Qed.
Definition iGY : list int := [122209839; 7164110; 26139167; 28374788; 206723871; 8608371; 33452149; 230204046; 180436118; 95533304; 266915013; 220980721; 1586221; 56383]%uint63.
Lemma iGY_d : ok63 iGY /\ d63 iGY = Fof GY.
Proof. apply (d63_int _ _ (-0x55ad434c20542ef2d6c1564fd9f88259c1cefbb455c5f26169f88650172a2f321a3f47b31741b2f23a79b67871f798ad73)); vm_compute; reflexivity. Qed.
Definition iQXa : list int := [68947950; 207233065; 236651702; 40690893; 85294515; 77732121; 31737671; 233426772; 57650958; 67068566; 33728049; 53360894; 182136770; 21884]%uint63.
Lemma iQXa_d : ok63 iQXa /\ d63 iQXa = Fof QXa.
Proof. apply (d63_int _ _ (-0x168f2ce8872ffb28a5455538d78e3c2b87fd8f542312a37be0035cd752b0e80c1e7624b3787da9ed8ec62b2dda13e1d036)); vm_compute; reflexivity. Qed.
Definition iQXb : list int := [70212380; 113727970; 12833970; 166320783; 107349301; 197949738; 39628948; 172272874; 177213233; 181560889; 140541150; 4293637; 1359615; 104224]%uint63.
Lemma iQXb_d : ok63 iQXb /\ d63 iQXb = Fof QXb.
Proof. apply (d63_int _ _ (-0xc3aad8c5f7c0a6ca3f04496abbb88e54c8413cc5a58df3201a150ef4852c6c6eb7a541e504cb0bb6a6ee022143821deeac)); vm_compute; reflexivity. Qed.
Definition iQYa : list int := [156103849; 16745988; 140135889; 32918527; 195355550; 139693800; 182620495; 79364130; 157380565; 179578991; 254763422; 104875457; 82534747; 8067]%uint63.
Lemma iQYa_d : ok63 iQYa /\ d63 iQYa = Fof QYa.
Proof. apply (d63_int _ _ (-0x7ef920724180370a6fdd054d758771b4ee56206dc847d571793cee44a8aee5aa58ad7e6740b7c56f2969d95cfa461b2205)); vm_compute; reflexivity. Qed.
Definition iQYb : list int := [81048113; 110702070; 232573839; 11245881; 45587179; 187545901; 129884859; 148874224; 43067181; 153443384; 31984021; 204689865; 11100838; 103648]%uint63.
Lemma iQYb_d : ok63 iQYb /\ d63 iQYb = Fof QYb.
Proof. apply (d63_int _ _ (-0x3b53e3e6caf0c12b208f35a9eb5b79dea4f6be9fe53802357869824d52967c9eb4ae719562b76510407a5b0250baeee96d)); vm_compute; reflexivity. Qed.
Definition ibetv : list int := [37886809; 200165479; 30609410; 74842500; 80498822; 209116160; 179210523; 180816594; 266565572; 239503032; 99423592; 150315392; 2841631; 53668]%uint63.
Lemma ibetv_d : ok63 ibetv /\ d63 ibetv = Fof betv.
Proof. apply (d63_int _ _ (-0xfffffffffffffffc57c9f1a0fb97fbdbef4cd502a43c3ae8aec9c3081b2da486f6cec74f6331b17c4ca53da99b572eadf5)); vm_compute; reflexivity. Qed.
Definition iwv : list int := [92936209; 158222439; 30785820; 88336470; 20865894; 78707857; 182841275; 141034000; 160699143; 258998889; 184741623; 151546876; 109402393; 76062]%uint63.
Lemma iwv_d : ok63 iwv /\ d63 iwv = Fof wv.
Proof. apply (d63_int _ _ (-0xfffffffffffffffc57c9f1a0fb97fbdbef4cd502a43c3ae8aec9c3081b2da486f6cec74f6331b17c4ca53da99b572eb7cd)); vm_compute; reflexivity. Qed.
Definition iyv : list int := [214006660; 214293077; 25386471; 65136247; 165981745; 163160186; 224798039; 192878999; 119325914; 174489490; 105977342; 77805324; 240874602; 53613]%uint63.
Lemma iyv_d : ok63 iyv /\ d63 iyv = Fof yv.
Proof. apply (d63_int _ _ (-0xbe3366469ae664be563b09bc2a742fc466bbdbc95ee97849c209354f405928fe9b86bd0ecc6eb354b477365e3f772f8d74)); vm_compute; reflexivity. Qed.

Definition rep63 (p : jac (list int)) (P : E1) : Prop := erep KFp ok63 d63 KFp_field KFp_two KFp_three b1 b1_nz p P.
Definition rep63x (p : jac t2) (P : E2) : Prop := erep KFp2 ok63x d63x KFp2_field KFp2_two KFp2_three b2 b2_nz p P.
Definition iG1 : jac (list int) := mkJ iGX iGY one63.
Definition iG2 : jac t2 := mkJ (iQXa, iQXb) (iQYa, iQYb) one63x.
Definition isig (p : jac (list int)) : jac (list int) := mkJ (mul63 ibetv (jx p)) (jy p) (jz p).
Definition conj63 (x : t2) : t2 := (fst x, sub63 zero63 (snd x)).
Definition ipsX : t2 := (zero63, iwv).
Definition ipsY : t2 := Eval vm_compute in (iyv, sub63 zero63 iyv).
Definition ipsi (p : jac t2) : jac t2 := mkJ (mul63x ipsX (conj63 (jx p))) (mul63x ipsY (conj63 (jy p))) (conj63 (jz p)).
Lemma iG1_rep : rep63 iG1 G1gen.
Proof.
  unfold iG1, rep63, erep, jrep, jcan. cbn [jx jy jz]. destruct iGX_d as [A1 A2], iGY_d as [B1 B2], one63_d as [O1 O2]. rewrite A2, B2, O2.
  split; [auto|]. change (jacobian (K := KFp) (Fof GX) (Fof GY) F1 (@Aff KFp (Fof GX) (Fof GY))).
  cbn [jacobian]. unfold ksq, kcube. cbn [KFp kmul k0 car]. split; [exact F1_nz|split; ring].
Qed.
Lemma iG2_rep : rep63x iG2 G2gen.
Proof.
  unfold iG2, rep63x, erep, jrep, jcan. cbn [jx jy jz]. destruct iQXa_d as [A1 A2], iQXb_d as [B1 B2], iQYa_d as [C1 C2], iQYb_d as [D1 D2], one63_d as [O1 O2], zero63_d as [Z1 Z2].
  unfold d63x, one63x, ok63x. cbn [fst snd]. rewrite A2, B2, C2, D2, O2, Z2.
  split; [auto 10|]. change (jacobian (K := KFp2) (mkFp2 (Fof QXa) (Fof QXb)) (mkFp2 (Fof QYa) (Fof QYb)) F2_1 G2pt). unfold G2pt.
  cbn [jacobian]. unfold ksq, kcube. cbn [KFp2 kmul k0 car]. split; [intros E; exact (F1_nz (f_equal re E))|]. split; apply F2_eq; cbn; ring.
Qed.
Lemma isig_rep p P : rep63 p P -> rep63 (isig p) (sig P).
Proof.
  intros ((C1 & C2 & C3) & J). unfold isig. destruct ibetv_d as [B1 B2]. destruct (d63_mul ibetv (jx p) B1 C1) as [D1 D2].
  split; [split; [|split]; cbn [jx jy jz]; auto|]. cbn [jx jy jz]. rewrite D2, B2. change (cpt (b := b1) (sig P)) with (sigp (cpt (b := b1) P)). fold bet.
  destruct (cpt (b := b1) P) as [|u v]; cbn [sigp pmap jacobian] in *; [exact J|]. destruct J as (J1 & J2 & J3). split; [exact J1|].
  unfold ksq, kcube in *. cbn [KFp kmul car] in *. split; [rewrite J2|rewrite J3]; ring.
Qed.
Lemma conj63_d x : ok63x x -> ok63x (conj63 x) /\ d63x (conj63 x) = F2conj (d63x x).
Proof.
  destruct x as [a b]. intros [H1 H2]. cbn [fst snd] in *. destruct zero63_d as [Z1 Z2]. destruct (d63_sub zero63 b Z1 H2) as [D1 D2].
  split; [split; assumption|]. apply F2_eq; cbn [d63x conj63 fst snd re im F2conj]; [reflexivity|]. rewrite D2, Z2. ring.
Qed.
Lemma ipsX_d : ok63x ipsX /\ d63x ipsX = psX.
Proof. destruct zero63_d as [Z1 Z2], iwv_d as [W1 W2]. split; [split; assumption|]. apply F2_eq; [exact Z2|exact W2]. Qed.
Lemma ipsY_d : ok63x ipsY /\ d63x ipsY = psY.
Proof.
  change ipsY with (iyv, sub63 zero63 iyv).
  destruct zero63_d as [Z1 Z2], iyv_d as [W1 W2]. destruct (d63_sub zero63 iyv Z1 W1) as [D1 D2]. split; [split; assumption|]. apply F2_eq; [exact W2|].
  unfold d63x, psY. cbn [fst snd im]. rewrite D2, Z2, W2. fold yy. ring.
Qed.
Add Field Fp2_fieldGP : F2_field.
Lemma ipsi_rep p P : rep63x p P -> rep63x (ipsi p) (psi P).
Proof.
  intros ((C1 & C2 & C3) & J). unfold ipsi. destruct (conj63_d _ C1) as [D1 D2], (conj63_d _ C2) as [F1' F2'], (conj63_d _ C3) as [H1 H2], ipsX_d as [X1 X2], ipsY_d as [Y1 Y2].
  destruct (r_mul _ _ _ _ ops63x_represents _ _ X1 D1) as [M1 M2]. destruct (r_mul _ _ _ _ ops63x_represents _ _ Y1 F1') as [N1 N2].
  cbn [ops63x f_mul KFp2 kmul] in M1, M2, N1, N2.
  split; [split; [|split]; cbn [jx jy jz]; auto|]. cbn [jx jy jz]. rewrite M2, N2, D2, F2', H2, X2, Y2. change (cpt (b := b2) (psi P)) with (psip (cpt (b := b2) P)).
  destruct (cpt (b := b2) P) as [|u v]; cbn [psip pmap jacobian] in *.
  - cbn [KFp2 k0 car] in *. rewrite J. apply F2_eq; cbn; ring.
  - destruct J as (J1 & J2 & J3). unfold ksq, kcube in *. cbn [KFp2 k0 kmul car] in *.
    split; [intros E; apply J1; rewrite <- (F2conj_invol (d63x (jz p))), E; apply F2_eq; cbn; ring|].
    split; [rewrite J2|rewrite J3]; rewrite !F2conj_mul; ring.
Qed.
Lemma comp1 : j_equal ops63 (j_scale ops63 iG1 [4294967296; 12413508272118670338]) (j_add ops63 iG1 (isig iG1)) = true.
Proof. vm_cast_no_check (eq_refl true). Qed.
Lemma comp2 : j_equal ops63x (j_neg ops63x (j_scale ops63x iG2 [0xd201000000010000])) (ipsi iG2) = true.
Proof. vm_cast_no_check (eq_refl true). Qed.
Lemma sig_gen : sig G1gen = zmul Lam G1gen.
Proof.
  pose proof (erep_scale ops63 KFp ok63 d63 ops63_represents KFp_field KFp_two KFp_three b1 b1_nz _ _ [4294967296; 12413508272118670338] iG1_rep ltac:(wrd)) as H1.
  pose proof (erep_add ops63 KFp ok63 d63 ops63_represents KFp_field KFp_two KFp_three b1 b1_nz _ _ _ _ iG1_rep (isig_rep _ _ iG1_rep)) as H2.
  pose proof (proj1 (erep_equal ops63 KFp ok63 d63 ops63_represents KFp_field KFp_two KFp_three b1 b1_nz _ _ _ _ H1 H2) comp1) as H3.
  assert (E : val [4294967296; 12413508272118670338] = 1 + Lam) by (vm_compute; reflexivity). rewrite E, zmul_add, zmul_1 in H3. apply g_cancel in H3. symmetry. exact H3.
Qed.
Lemma psi_gen : psi G2gen = zmul Xz G2gen.
Proof.
  pose proof (erep_scale ops63x KFp2 ok63x d63x ops63x_represents KFp2_field KFp2_two KFp2_three b2 b2_nz _ _ [0xd201000000010000] iG2_rep ltac:(wrd)) as H1.
  pose proof (erep_neg ops63x KFp2 ok63x d63x ops63x_represents KFp2_field KFp2_two KFp2_three b2 b2_nz _ _ H1) as H2.
  pose proof (proj1 (erep_equal ops63x KFp2 ok63x d63x ops63x_represents KFp2_field KFp2_two KFp2_three b2 b2_nz _ _ _ _ H2 (ipsi_rep _ _ iG2_rep)) comp2) as H3.
  rewrite <- H3, <- zmul_opp. reflexivity.
Qed.

(** ** points of order r *)
Lemma G1gen_nz : G1gen <> gid. Proof. intros H. apply (f_equal (fun P : E1 => cpt (b := b1) P)) in H. discriminate H. Qed.
Lemma G2gen_nz : G2gen <> gid. Proof. intros H. apply (f_equal (fun P : E2 => cpt (b := b2) P)) in H. discriminate H. Qed.
Lemma G1gen_r : zmul order G1gen = gid. Proof. apply sub1_r, sub1_eigen, sig_gen. Qed.
Lemma G2gen_r : zmul order G2gen = gid. Proof. apply sub2_r, psi_gen. Qed.
Lemma E1_atmost : atmost E1 (2 * modulus + 1).
Proof.
  pose proof mod_pos as P0.
  apply (atmost_inj E1 (fun P => match cpt (b := b1) P with Inf => 0 | Aff x y => 1 + 2 * fval x + Z.b2z (Z.odd (fval y)) end)); [lia| |].
  - intros P Q H. apply curve_eq. pose proof (curve_on KFp KFp_field b1 P) as OP. pose proof (curve_on KFp KFp_field b1 Q) as OQ.
    destruct (cpt (b := b1) P) as [|x y], (cpt (b := b1) Q) as [|u v]; [reflexivity| | |].
    + exfalso. pose proof (fval_range u). destruct (Z.odd (fval v)); cbn [Z.b2z] in H; lia.
    + exfalso. pose proof (fval_range x). destruct (Z.odd (fval y)); cbn [Z.b2z] in H; lia.
    + assert (E : fval x = fval u /\ Z.odd (fval y) = Z.odd (fval v)).
      { destruct (Z.odd (fval y)), (Z.odd (fval v)); cbn [Z.b2z] in H; split; try reflexivity; lia. }
      destruct E as [E1' E2']. apply fval_inj in E1'. subst u.
      destruct (on_same_x KFp KFp_field b1 x y x v OP OQ eq_refl) as [F|F]; [subst v; reflexivity|].
      cbn [KFp kopp car] in F. assert (Y : fval y = (- fval v) mod modulus) by (rewrite F; reflexivity).
      pose proof (fval_range v) as Rv. destruct (Z.eq_dec (fval v) 0) as [Z0|NZ].
      * rewrite Z0 in Y. apply Aff_eq; [reflexivity|]. apply fval_inj. rewrite Y, Z0. reflexivity.
      * rewrite Z_mod_nz_opp_full, Z.mod_small in Y by (rewrite ?Z.mod_small; auto). rewrite Y, Z.odd_sub in E2'. exfalso. destruct (Z.odd (fval v)); discriminate E2'.
  - intros P. destruct (cpt (b := b1) P) as [|x y]; [lia|]. pose proof (fval_range x). destruct (Z.odd (fval y)); cbn [Z.b2z]; lia.
Qed.
Lemma order_big : 2 * modulus + 1 < order * order. Proof. vm_compute. reflexivity. Qed.
Lemma lam_mu : ~ (order | Lam - (-1 - Lam)).
Proof. intros H. apply Z.mod_divide in H; [vm_compute in H; discriminate|vm_compute; discriminate]. Qed.
Lemma lam_quad : (Lam * Lam + Lam + 1) = order. Proof. vm_compute. reflexivity. Qed.
Lemma sub1_complete (P : E1) : zmul order P = gid -> sig P = zmul Lam P.
Proof.
  intros H. apply (eigen_unique E1 sig (2 * modulus + 1) order Lam (-1 - Lam) G1gen P sig_op E1_atmost order_prime order_big lam_mu G1gen_nz G1gen_r sig_gen H).
  pose proof (sig_rel P) as R. cbn [pact] in R. rewrite !zmul_1, (s_0 sig sig_op), g_id_r, sig_op in R.
  rewrite sig_op, (s_inv sig sig_op), (s_zmul sig sig_op), zmul_op, zmul_inv, <- zmul_mul.
  assert (E1' : zmul ((-1 - Lam) * Lam) P = P).
  { replace ((-1 - Lam) * Lam) with (1 + (-1) * order) by (rewrite <- lam_quad; ring). rewrite zmul_add, zmul_mul, H, zmul_id, zmul_1, g_id_r. reflexivity. }
  rewrite E1'. replace (-1 - Lam) with ((- (1)) - Lam) by ring. rewrite zmul_sub, zmul_opp, zmul_1.
  assert (E2' : sig (sig P) = gop (ginv P) (ginv (sig P))).
  { rewrite <- g_inv_op. apply g_inv_unique. rewrite <- R. rewrite !g_assoc. reflexivity. }
  rewrite E2'. rewrite !g_assoc. rewrite g_comm. rewrite !g_assoc. reflexivity.
Qed.
