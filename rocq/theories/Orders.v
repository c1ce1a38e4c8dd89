(** The number of points of the two curves, and the cofactors, by exhibiting points of prime order. *)
From Coq Require Import ZArith List Bool Lia Field Uint63 Znumtheory.
From Verif Require Import SpecField FieldProof TowerProof TowerProof2 ModelWord ModelPrim ModelScalar ScalarProof ModelCurve SpecCurve AbGroup CurveProof CurveRefine CurveRefine2 CurveInst CurveBase CurveMaps Endo SubgroupProof I63 I63b GenProof GroupCount Primes Primes2.
Import ListNotations.
Local Open Scope Z_scope.
Add Field Fp_fieldOR : F_field.

Definition i4 : list int := [220197600; 100663296; 705639; 53975880; 29903744; 15237699; 14523006; 109305080; 113405195; 77983426; 72836668; 4925937; 157807592; 89577]%uint63.
Lemma i4_d : ok63 i4 /\ d63 i4 = Fof 4.
Proof. apply (d63_int _ _ (-0x2760)); vm_compute; reflexivity. Qed.

Definition i4x : t2 := (i4, i4).
Lemma i4_R : R KFp ok63 d63 i4 b1. Proof. exact i4_d. Qed.
Lemma i4x_R : R KFp2 ok63x d63x i4x b2.
Proof. destruct i4_d as [H1 H2]. split; [split; assumption|]. apply F2_eq; exact H2. Qed.
Definition okj (p : jac (list int)) : bool := okb63 (jx p) && okb63 (jy p) && okb63 (jz p).
Definition okb63x (x : t2) : bool := okb63 (fst x) && okb63 (snd x).
Definition okjx (p : jac t2) : bool := okb63x (jx p) && okb63x (jy p) && okb63x (jz p).
(** p is a point of order dividing the number q, not the identity *)
Definition chk1 (q : list Z) (p : jac (list int)) : bool :=
  okj p && j_isOnCurve ops63 i4 p && j_isZero ops63 (j_scale ops63 p q) && negb (j_isZero ops63 p).
Definition chk2 (q : list Z) (p : jac t2) : bool :=
  okjx p && j_isOnCurve ops63x i4x p && j_isZero ops63x (j_scale ops63x p q) && negb (j_isZero ops63x p).
Definition ne1 (k : list Z) (p : jac (list int)) : bool := negb (j_equal ops63 (isig p) (j_scale ops63 p k)).
(** -psi^2 *)
Definition isig2 (p : jac t2) : jac t2 := j_neg ops63x (ipsi (ipsi p)).
Definition ne2 (k : list Z) (p : jac t2) : bool := negb (j_equal ops63x (isig2 p) (j_scale ops63x p k)).
Lemma chk1_ok q p : words q -> chk1 q p = true -> exists P : E1, rep63 p P /\ zmul (val q) P = gid /\ P <> gid.
Proof.
  intros Hw. unfold chk1, okj. rewrite !andb_true_iff, negb_true_iff. intros [[[[[H1 H2] H3] H4] H5] H6].
  apply okb63_ok in H1, H2, H3.
  destruct (erep_ex ops63 KFp ok63 d63 ops63_represents KFp_field KFp_two KFp_three b1 b1_nz i4 p i4_R (conj H1 (conj H2 H3)) H4) as [P HP].
  exists P. split; [exact HP|]. split.
  - apply (erep_isZero ops63 KFp ok63 d63 ops63_represents KFp_field KFp_two KFp_three b1 b1_nz _ _ (erep_scale ops63 KFp ok63 d63 ops63_represents KFp_field KFp_two KFp_three b1 b1_nz _ _ _ HP Hw)), H5.
  - intros E. apply (erep_isZero ops63 KFp ok63 d63 ops63_represents KFp_field KFp_two KFp_three b1 b1_nz _ _ HP) in E. congruence.
Qed.
Lemma chk2_ok q p : words q -> chk2 q p = true -> exists P : E2, rep63x p P /\ zmul (val q) P = gid /\ P <> gid.
Proof.
  intros Hw. unfold chk2, okjx, okb63x. rewrite !andb_true_iff, negb_true_iff. intros [[[[[[H1 H1'] [H2 H2']] [H3 H3']] H4] H5] H6].
  apply okb63_ok in H1, H2, H3, H1', H2', H3'.
  destruct (erep_ex ops63x KFp2 ok63x d63x ops63x_represents KFp2_field KFp2_two KFp2_three b2 b2_nz i4x p i4x_R (conj (conj H1 H1') (conj (conj H2 H2') (conj H3 H3'))) H4) as [P HP].
  exists P. split; [exact HP|]. split.
  - apply (erep_isZero ops63x KFp2 ok63x d63x ops63x_represents KFp2_field KFp2_two KFp2_three b2 b2_nz _ _ (erep_scale ops63x KFp2 ok63x d63x ops63x_represents KFp2_field KFp2_two KFp2_three b2 b2_nz _ _ _ HP Hw)), H5.
  - intros E. apply (erep_isZero ops63x KFp2 ok63x d63x ops63x_represents KFp2_field KFp2_two KFp2_three b2 b2_nz _ _ HP) in E. congruence.
Qed.
Lemma ne1_ok k p P : words k -> rep63 p P -> ne1 k p = true -> sig P <> zmul (val k) P.
Proof.
  intros Hw HP H E. unfold ne1 in H. apply negb_true_iff in H.
  apply (erep_equal ops63 KFp ok63 d63 ops63_represents KFp_field KFp_two KFp_three b1 b1_nz _ _ _ _ (isig_rep _ _ HP) (erep_scale ops63 KFp ok63 d63 ops63_represents KFp_field KFp_two KFp_three b1 b1_nz _ _ _ HP Hw)) in E. congruence.
Qed.
Lemma isig2_rep p P : rep63x p P -> rep63x (isig2 p) (sig2 P).
Proof. intros H. apply (erep_neg ops63x KFp2 ok63x d63x ops63x_represents KFp2_field KFp2_two KFp2_three b2 b2_nz). apply ipsi_rep, ipsi_rep, H. Qed.
Lemma ne2_ok k p P : words k -> rep63x p P -> ne2 k p = true -> sig2 P <> zmul (val k) P.
Proof.
  intros Hw HP H E. unfold ne2 in H. apply negb_true_iff in H.
  apply (erep_equal ops63x KFp2 ok63x d63x ops63x_represents KFp2_field KFp2_two KFp2_three b2 b2_nz _ _ _ _ (isig2_rep _ _ HP) (erep_scale ops63x KFp2 ok63x d63x ops63x_represents KFp2_field KFp2_two KFp2_three b2 b2_nz _ _ _ HP Hw)) in E. congruence.
Qed.
Lemma val1 q : val [q] = q. Proof. cbn [val]. ring. Qed.

(** ** E(Fp) *)
Definition pA3 : jac (list int) := mkJ [0; 0; 0; 0; 0; 0; 0; 0; 0; 0; 0; 0; 0; 0]%uint63 [110098800; 184549376; 352819; 26987940; 149169600; 7618849; 7261503; 188870268; 56702597; 38991713; 170636062; 2462968; 213121524; 44788]%uint63 one63.
Lemma A3_ex : exists P : E1, zmul 3 P = gid /\ P <> gid.
Proof. destruct (chk1_ok [3] pA3 ltac:(wrd) ltac:(vm_cast_no_check (eq_refl true))) as (P & _ & H). rewrite val1 in H. exists P. exact H. Qed.
Definition pT11 : jac (list int) := mkJ [183599511; 186256076; 47796485; 179927053; 59106480; 100132052; 101865767; 195303539; 129869220; 1856317; 104022317; 84515193; 14057369; 104600]%uint63 [147847295; 124440207; 97674815; 1823406; 105713559; 144509563; 191916132; 257863930; 153316386; 100059445; 211349741; 191419092; 96947398; 50120]%uint63 one63.
Lemma T11_ex : exists P : E1, indep sig P 11.
Proof. destruct (chk1_ok [11] pT11 ltac:(wrd) ltac:(vm_cast_no_check (eq_refl true))) as (P & _ & H1 & H2). rewrite val1 in H1. exists P. exact (indep_inert sig sig_op sig_rel 11 P prime_11 eq_refl H1 H2). Qed.
Definition pT10177 : jac (list int) := mkJ [53974749; 93214454; 137564335; 186421850; 247851485; 34465495; 66784811; 209991600; 265197676; 112364199; 141211496; 244297802; 29502740; 22925]%uint63 [49534674; 173363430; 173335196; 40410605; 145947523; 3989037; 154278459; 105640390; 223785870; 137369834; 52344343; 127937685; 37715338; 88732]%uint63 one63.
Lemma T10177_ex : exists P : E1, indep sig P 10177.
Proof.
  destruct (chk1_ok [10177] pT10177 ltac:(wrd) ltac:(vm_cast_no_check (eq_refl true))) as (P & HP & H1 & H2). rewrite val1 in H1. exists P.
  pose proof (ne1_ok [4773] _ P ltac:(wrd) HP ltac:(vm_cast_no_check (eq_refl true))) as Hu. pose proof (ne1_ok [5403] _ P ltac:(wrd) HP ltac:(vm_cast_no_check (eq_refl true))) as Hv.
  rewrite val1 in Hu, Hv. exact (indep_split sig sig_op sig_rel 10177 4773 5403 P prime_10177 eq_refl eq_refl H1 H2 Hu Hv).
Qed.
Definition pT859267 : jac (list int) := mkJ [92176462; 129658593; 55186912; 4691080; 126168632; 44337131; 242828821; 139985598; 248469919; 100966568; 162335813; 261865973; 237504947; 76718]%uint63 [178449629; 127880540; 191705852; 96347303; 41246611; 68450401; 29746467; 54040041; 51844266; 66044176; 191978877; 61067620; 215202042; 12419]%uint63 one63.
Lemma T859267_ex : exists P : E1, indep sig P 859267.
Proof.
  destruct (chk1_ok [859267] pT859267 ltac:(wrd) ltac:(vm_cast_no_check (eq_refl true))) as (P & HP & H1 & H2). rewrite val1 in H1. exists P.
  pose proof (ne1_ok [119571] _ P ltac:(wrd) HP ltac:(vm_cast_no_check (eq_refl true))) as Hu. pose proof (ne1_ok [739695] _ P ltac:(wrd) HP ltac:(vm_cast_no_check (eq_refl true))) as Hv.
  rewrite val1 in Hu, Hv. exact (indep_split sig sig_op sig_rel 859267 119571 739695 P prime_859267 eq_refl eq_refl H1 H2 Hu Hv).
Qed.
Definition pT52437899 : jac (list int) := mkJ [95772794; 184361331; 44277453; 208324641; 36231675; 76547377; 220760371; 61525533; 101788398; 157505084; 118253420; 202941611; 241277952; 19605]%uint63 [42476567; 41870801; 40508871; 2076681; 137312048; 189987540; 9348856; 56913409; 249950617; 232649563; 202379497; 240733681; 173208773; 4419]%uint63 one63.
Lemma T52437899_ex : exists P : E1, indep sig P 52437899.
Proof. destruct (chk1_ok [52437899] pT52437899 ltac:(wrd) ltac:(vm_cast_no_check (eq_refl true))) as (P & _ & H1 & H2). rewrite val1 in H1. exists P. exact (indep_inert sig sig_op sig_rel 52437899 P prime_52437899 eq_refl H1 H2). Qed.
Definition n1 : Z := 15132376222941642753.
Definition m1 : Z := 11 * 10177 * 859267 * 52437899.
Lemma T1_ex : exists T : E1, indep sig T m1.
Proof.
  destruct T11_ex as [A HA], T10177_ex as [B HB], T859267_ex as [C HC], T52437899_ex as [D HD].
  exists (gop (gop (gop A B) C) D). unfold m1.
  apply (indep_add sig sig_op); [vm_compute; reflexivity| |exact HD]. apply (indep_add sig sig_op); [vm_compute; reflexivity| |exact HC].
  apply (indep_add sig sig_op); [vm_compute; reflexivity|exact HA|exact HB].
Qed.
Lemma E1_struct : exists (A3 T : E1), zmul 3 A3 = gid /\ indep sig T m1 /\ exact_order (gop G1gen A3) (order * 3) /\ forall P, In P (all3 sig (gop G1gen A3) T (order * 3) m1).
Proof.
  destruct A3_ex as (A3 & H1 & H2). destruct T1_ex as (T & HT). exists A3, T. split; [exact H1|]. split; [exact HT|].
  assert (HA : exact_order (gop G1gen A3) (order * 3)).
  { apply eo_add; [vm_compute; reflexivity|apply eo_prime; [exact order_prime|exact G1gen_r|exact G1gen_nz]|apply eo_prime; [exact prime_3|exact H1|exact H2]]. }
  split; [exact HA|].
  apply (all_span sig sig_op _ T (order * 3) m1 (2 * modulus + 1)); [vm_compute; reflexivity|vm_compute; reflexivity|vm_compute; reflexivity|exact HA|exact HT|exact E1_atmost|vm_compute; reflexivity].
Qed.
(** every element times n1 = 1 - x is a multiple of the base point *)
Lemma E1_cofactor (P : E1) : exists k, zmul n1 P = zmul k G1gen.
Proof.
  destruct E1_struct as (A3 & T & H1 & [HT _] & _ & HP). specialize (HP P). apply in_all3 in HP. destruct HP as (a & b & c & _ & _ & _ & ->).
  exists (n1 * a). unfold span3. cbn [fst snd]. rewrite !zmul_op, <- !zmul_mul.
  assert (D3 : (3 | n1)) by (exists m1; vm_compute; reflexivity). assert (Dm : (m1 | n1)) by (exists 3; vm_compute; reflexivity).
  rewrite (zmul_divide 3 (n1 * a) A3), (zmul_divide m1 (n1 * b) T), (zmul_divide m1 (n1 * c) (sig T)); auto using (s_kills sig sig_op), Z.divide_mul_l.
  rewrite !g_id_r. reflexivity.
Qed.
Lemma E1_count : exists L : list E1, NoDup L /\ (forall P, In P L) /\ Z.of_nat (length L) = modulus - Xz.
Proof.
  destruct E1_struct as (A3 & T & H1 & HT & HA & HP). exists (all3 sig (gop G1gen A3) T (order * 3) m1).
  split; [apply (all3_nodup sig sig_op); [vm_compute; reflexivity|vm_compute; reflexivity|vm_compute; reflexivity|exact HA|exact HT]|]. split; [exact HP|].
  rewrite all3_len by (vm_compute; discriminate). vm_compute. reflexivity.
Qed.

(** ** E'(Fp2) *)
Lemma sig2_op x y : sig2 (gop x y) = gop (sig2 x) (sig2 y).
Proof. unfold sig2. rewrite !psi_op, g_inv_op. reflexivity. Qed.
Lemma sig2_rel P : pact sig2 [1; 1; 1] P = gid.
Proof.
  rewrite <- (psi_rel P). cbn [pact]. unfold sig2. rewrite !zmul_1, !zmul_0, !g_id, (s_0 psi psi_op), g_id_r. change (-1) with (- (1)). rewrite zmul_opp, zmul_1.
  rewrite !(s_0 psi psi_op), g_inv_0, g_id_r. rewrite !psi_op. rewrite !(s_inv psi psi_op), !g_inv_op, g_inv_inv. reflexivity.
Qed.
(** x^2 - x - 1 + (x - 1) psi + 2 psi^2, the map of clearCofactor *)
Definition hcl : list Z := [Xz * Xz - Xz - 1; Xz - 1; 2].
Definition ih (p : jac t2) : bool :=
  let q := ipsi p in let q2 := ipsi q in
  j_equal ops63x (j_add ops63x (j_scale ops63x p [15132376227236610047; 12413508272118670338]) (j_dbl ops63x q2)) (j_scale ops63x q [15132376222941642753]).
Lemma ih_ok p P : rep63x p P -> ih p = true -> pact psi hcl P = gid.
Proof.
  intros HP. unfold ih. cbv zeta. pose proof (ipsi_rep _ _ HP) as H1. pose proof (ipsi_rep _ _ H1) as H2.
  pose proof (erep_scale ops63x KFp2 ok63x d63x ops63x_represents KFp2_field KFp2_two KFp2_three b2 b2_nz _ _ [15132376227236610047; 12413508272118670338] HP ltac:(wrd)) as H3.
  pose proof (erep_dbl ops63x KFp2 ok63x d63x ops63x_represents KFp2_field KFp2_two KFp2_three b2 b2_nz _ _ H2) as H4.
  pose proof (erep_add ops63x KFp2 ok63x d63x ops63x_represents KFp2_field KFp2_two KFp2_three b2 b2_nz _ _ _ _ H3 H4) as H5.
  pose proof (erep_scale ops63x KFp2 ok63x d63x ops63x_represents KFp2_field KFp2_two KFp2_three b2 b2_nz _ _ [15132376222941642753] H1 ltac:(wrd)) as H6.
  intros E. apply (erep_equal ops63x KFp2 ok63x d63x ops63x_represents KFp2_field KFp2_two KFp2_three b2 b2_nz _ _ _ _ H5 H6) in E.
  unfold hcl. cbn [pact]. rewrite (s_0 psi psi_op), g_id_r, psi_op, !(s_zmul psi psi_op).
  replace (Xz * Xz - Xz - 1) with (val [15132376227236610047; 12413508272118670338]) by (vm_compute; reflexivity). replace (Xz - 1) with (- val [15132376222941642753]) by (vm_compute; reflexivity).
  rewrite zmul_opp, (zmul_2 (psi (psi P))), (g_comm _ (ginv _)), <- g_assoc. transitivity (gop (zmul (val [15132376222941642753]) (psi P)) (ginv (zmul (val [15132376222941642753]) (psi P)))); [|apply g_inv]. f_equal. exact E.
Qed.
Definition pA2713 : jac t2 := mkJ ([56650535; 262599336; 260420234; 56943248; 74622925; 216102809; 130704813; 265072245; 181177320; 207340172; 235497945; 137274813; 60219872; 93002]%uint63, [113149576; 51910621; 56845711; 190099285; 159013172; 252117863; 207918818; 200272075; 144358790; 52814710; 172009541; 157546790; 232655587; 17531]%uint63) ([127201889; 173004135; 101129498; 44364616; 217537803; 151233645; 228572745; 102192508; 182175260; 204473840; 216914785; 78322313; 33352432; 52685]%uint63, [168984999; 198262177; 182453530; 224941842; 86164331; 80496875; 104164825; 157695041; 95759920; 246344847; 86969468; 59451304; 191190010; 65821]%uint63) one63x.
Lemma A2713_ex : exists P : E2, exact_order P 2713 /\ pact psi hcl P = gid.
Proof.
  destruct (chk2_ok [2713] pA2713 ltac:(wrd) ltac:(vm_cast_no_check (eq_refl true))) as (P & HP & H1 & H2). exists P.
  split; [apply eo_prime; [exact prime_2713|rewrite val1 in H1; exact H1|exact H2]|].
  apply (ih_ok _ _ HP). vm_cast_no_check (eq_refl true).
Qed.
Definition pA11953 : jac t2 := mkJ ([208957044; 169240452; 33810835; 152701087; 138882297; 177189797; 35186018; 261178074; 153626284; 182743427; 136040686; 201876533; 33098394; 78070]%uint63, [130466556; 32874136; 203632237; 155704337; 34496330; 13932143; 33412888; 168330840; 37441019; 16134471; 225731729; 141165637; 27567863; 80830]%uint63) ([25016917; 171640620; 151598778; 103763060; 50391611; 29302327; 248137655; 188283662; 149370205; 103068485; 178434638; 181395633; 5006029; 76874]%uint63, [155817572; 162994370; 126580525; 202281552; 57978241; 63184078; 102902162; 161199706; 194441589; 179951739; 233571639; 68857128; 14691488; 98162]%uint63) one63x.
Lemma A11953_ex : exists P : E2, exact_order P 11953 /\ pact psi hcl P = gid.
Proof.
  destruct (chk2_ok [11953] pA11953 ltac:(wrd) ltac:(vm_cast_no_check (eq_refl true))) as (P & HP & H1 & H2). exists P.
  split; [apply eo_prime; [exact prime_11953|rewrite val1 in H1; exact H1|exact H2]|].
  apply (ih_ok _ _ HP). vm_cast_no_check (eq_refl true).
Qed.
Definition pA262069 : jac t2 := mkJ ([196931542; 33160312; 143394636; 146261524; 24958750; 66318810; 180034013; 199512184; 212253701; 88321229; 47421951; 230508500; 213193019; 86866]%uint63, [10498933; 179144999; 56274358; 266947178; 164762946; 229231382; 13307839; 160944889; 133388327; 263309466; 258292162; 55916820; 221215125; 25035]%uint63) ([60870523; 159267586; 210707958; 116983300; 147907948; 206055849; 129826411; 203133636; 41383944; 122315204; 212123639; 43360529; 89594716; 73390]%uint63, [52963213; 106872675; 68582311; 268414245; 67337015; 261968167; 31973946; 52258114; 73023060; 215099822; 63087125; 181249585; 126631378; 11946]%uint63) one63x.
Lemma A262069_ex : exists P : E2, exact_order P 262069 /\ pact psi hcl P = gid.
Proof.
  destruct (chk2_ok [262069] pA262069 ltac:(wrd) ltac:(vm_cast_no_check (eq_refl true))) as (P & HP & H1 & H2). exists P.
  split; [apply eo_prime; [exact prime_262069|rewrite val1 in H1; exact H1|exact H2]|].
  apply (ih_ok _ _ HP). vm_cast_no_check (eq_refl true).
Qed.
Definition pAP136 : jac t2 := mkJ ([168004149; 257555787; 55430762; 59252968; 234423255; 221286060; 26585807; 183472697; 149624959; 266605702; 61077618; 211906763; 39686704; 52305]%uint63, [112577858; 191508745; 68366683; 267855007; 121963278; 223903772; 227957185; 242737312; 154581910; 166519396; 52204733; 259344852; 117837565; 37308]%uint63) ([11929549; 234542417; 9774454; 198750686; 81132115; 87728214; 112707052; 202584322; 46310307; 20491609; 49522142; 163471919; 38216757; 2888]%uint63, [126637226; 45061226; 170848242; 88371163; 205399184; 62603353; 258106919; 75044106; 216300565; 116018644; 149862812; 23882532; 224765169; 76873]%uint63) one63x.
Lemma AP136_ex : exists P : E2, exact_order P 402096035359507321594726366720466575392706800671181159425656785868777272553337714697862511267018014931937703598282857976535744623203249 /\ pact psi hcl P = gid.
Proof.
  destruct (chk2_ok [9398193775798440881; 8635779299748007283; 18066683424268231363; 12238351364871522186; 16161462322720796338; 4770845242337938794; 10204963507576462684] pAP136 ltac:(wrd) ltac:(vm_cast_no_check (eq_refl true))) as (P & HP & H1 & H2). exists P.
  split; [apply eo_prime; [exact prime_402096035359507321594726366720466575392706800671181159425656785868777272553337714697862511267018014931937703598282857976535744623203249|replace 402096035359507321594726366720466575392706800671181159425656785868777272553337714697862511267018014931937703598282857976535744623203249 with (val [9398193775798440881; 8635779299748007283; 18066683424268231363; 12238351364871522186; 16161462322720796338; 4770845242337938794; 10204963507576462684]) by (vm_compute; reflexivity); exact H1|exact H2]|].
  apply (ih_ok _ _ HP). vm_cast_no_check (eq_refl true).
Qed.
Definition pU13 : jac t2 := mkJ ([230632612; 181242243; 156737024; 73304531; 154950031; 263677522; 133360774; 100587492; 6718725; 211377337; 82234914; 181461129; 84784329; 51767]%uint63, [255761633; 55450269; 187745725; 185935106; 129400516; 172269451; 39596731; 159094163; 64705355; 25452988; 264791624; 6447289; 121274588; 48558]%uint63) ([79462350; 54264598; 55047737; 68669165; 119800006; 226574377; 64395574; 25044075; 241282319; 140566843; 153152272; 90670104; 90089771; 44466]%uint63, [93595505; 60223249; 93440401; 262676593; 97965797; 152440401; 194160024; 20325850; 202904399; 174483266; 56415487; 195560711; 120920512; 29961]%uint63) one63x.
Lemma U13_ex : exists P : E2, indep sig2 P 13 /\ pact psi hcl P = gid.
Proof.
  destruct (chk2_ok [13] pU13 ltac:(wrd) ltac:(vm_cast_no_check (eq_refl true))) as (P & HP & H1 & H2). rewrite val1 in H1. exists P.
  split; [|apply (ih_ok _ _ HP); vm_cast_no_check (eq_refl true)].
  pose proof (ne2_ok [3] _ P ltac:(wrd) HP ltac:(vm_cast_no_check (eq_refl true))) as Hu. pose proof (ne2_ok [9] _ P ltac:(wrd) HP ltac:(vm_cast_no_check (eq_refl true))) as Hv.
  rewrite val1 in Hu, Hv. exact (indep_split sig2 sig2_op sig2_rel 13 3 9 P prime_13 eq_refl eq_refl H1 H2 Hu Hv).
Qed.
Definition pU23 : jac t2 := mkJ ([108539262; 121705039; 104729607; 98758053; 241798948; 230220962; 73523403; 165074944; 24497079; 186934577; 231275631; 116365125; 21654434; 98469]%uint63, [68158312; 267494811; 152870681; 60880175; 182308084; 48133420; 9404996; 225695719; 149004121; 147907881; 49409230; 219045806; 97455039; 13088]%uint63) ([32883536; 55684088; 111141166; 225238741; 168332682; 28324703; 12356223; 219642145; 29371959; 256377404; 260423556; 116616596; 163999366; 42440]%uint63, [254221501; 237965380; 165869426; 116537366; 168521411; 213324646; 13871481; 118245121; 80556160; 138375176; 88271436; 187037274; 78096794; 76804]%uint63) one63x.
Lemma U23_ex : exists P : E2, indep sig2 P 23 /\ pact psi hcl P = gid.
Proof.
  destruct (chk2_ok [23] pU23 ltac:(wrd) ltac:(vm_cast_no_check (eq_refl true))) as (P & HP & H1 & H2). rewrite val1 in H1. exists P.
  split; [|apply (ih_ok _ _ HP); vm_cast_no_check (eq_refl true)].
  exact (indep_inert sig2 sig2_op sig2_rel 23 P prime_23 eq_refl H1 H2).
Qed.
Definition c2cyc : Z := 2713 * 11953 * 262069 * 402096035359507321594726366720466575392706800671181159425656785868777272553337714697862511267018014931937703598282857976535744623203249.
Definition h2cof : Z := c2cyc * 299 * 299.
Lemma C2_ex : exists A : E2, exact_order A c2cyc /\ pact psi hcl A = gid.
Proof.
  destruct A2713_ex as (A & HA & KA), A11953_ex as (B & HB & KB), A262069_ex as (C & HC & KC), AP136_ex as (D & HD & KD).
  exists (gop (gop (gop A B) C) D). split.
  - unfold c2cyc. apply eo_add; [vm_compute; reflexivity| |exact HD]. apply eo_add; [vm_compute; reflexivity| |exact HC]. apply eo_add; [vm_compute; reflexivity|exact HA|exact HB].
  - rewrite !(pact_op psi psi_op), KA, KB, KC, KD, !g_id. reflexivity.
Qed.
Lemma U2_ex : exists T : E2, indep sig2 T 299 /\ pact psi hcl T = gid.
Proof.
  destruct U13_ex as (A & HA & KA), U23_ex as (B & HB & KB). exists (gop A B). split.
  - change 299 with (13 * 23). apply (indep_add sig2 sig2_op); [vm_compute; reflexivity|exact HA|exact HB].
  - rewrite (pact_op psi psi_op), KA, KB. apply g_id.
Qed.
Lemma E2_atmost : atmost E2 (2 * (modulus * modulus) + 1).
Proof.
  pose proof mod_pos as P0.
  set (num := fun x : Fp2 => fval (re x) + modulus * fval (im x)).
  set (sgn := fun y : Fp2 => if fval (re y) =? 0 then Z.odd (fval (im y)) else Z.odd (fval (re y))).
  assert (NB : forall x, 0 <= num x < modulus * modulus).
  { intros x. unfold num. pose proof (fval_range (re x)) as A. pose proof (fval_range (im x)) as B. clear -A B P0. nia. }
  assert (NI : forall x y, num x = num y -> x = y).
  { intros x y. unfold num. pose proof (fval_range (re x)) as A. pose proof (fval_range (im x)) as B. pose proof (fval_range (re y)) as A'. pose proof (fval_range (im y)) as B'.
    intros E. assert (K : fval (im x) = fval (im y)) by (clear -A B A' B' E P0; nia). apply F2_eq; apply fval_inj; [rewrite K in E; lia|exact K]. }
  assert (OP : forall v : Fp, fval v <> 0 -> Z.odd (fval (Fopp v)) = negb (Z.odd (fval v))).
  { intros v NZ. pose proof (fval_range v) as Rv. change (fval (Fopp v)) with ((- fval v) mod modulus).
    rewrite Z_mod_nz_opp_full, Z.mod_small by (rewrite ?Z.mod_small; auto). rewrite Z.odd_sub. destruct (Z.odd (fval v)); reflexivity. }
  assert (OZ : forall v : Fp, fval v = 0 -> Fopp v = v).
  { intros v Z0. apply fval_inj. change (fval (Fopp v)) with ((- fval v) mod modulus). rewrite Z0. reflexivity. }
  assert (SG : forall y, sgn (F2opp y) = sgn y -> F2opp y = y).
  { intros y. unfold sgn, F2opp. cbn [re im]. destruct (Z.eqb_spec (fval (re y)) 0) as [E|N].
    - rewrite (OZ _ E). rewrite (proj2 (Z.eqb_eq _ _) E). destruct (Z.eq_dec (fval (im y)) 0) as [E2|N2].
      + intros _. rewrite (OZ _ E2). destruct y; reflexivity.
      + rewrite (OP _ N2). destruct (Z.odd (fval (im y))); discriminate.
    - rewrite (OP _ N). assert (N' : fval (Fopp (re y)) <> 0).
      { intros Z0. pose proof (OZ _ Z0) as X. apply N. rewrite <- Z0, <- X. f_equal. ring. }
      apply Z.eqb_neq in N'. rewrite N'. destruct (Z.odd (fval (re y))); discriminate. }
  apply (atmost_inj E2 (fun P => match cpt (b := b2) P with Inf => 0 | Aff x y => 1 + 2 * num x + Z.b2z (sgn y) end)).
  - clear -P0. nia.
  - intros P Q H. apply curve_eq. pose proof (curve_on KFp2 KFp2_field b2 P) as OP1. pose proof (curve_on KFp2 KFp2_field b2 Q) as OQ1.
    destruct (cpt (b := b2) P) as [|x y], (cpt (b := b2) Q) as [|u v]; [reflexivity| | |].
    + exfalso. pose proof (NB u) as X. clear -X H. destruct (sgn v); cbn [Z.b2z] in H; lia.
    + exfalso. pose proof (NB x) as X. clear -X H. destruct (sgn y); cbn [Z.b2z] in H; lia.
    + assert (E : num x = num u /\ sgn y = sgn v).
      { clear -H. destruct (sgn y), (sgn v); cbn [Z.b2z] in H; split; try reflexivity; lia. }
      destruct E as [E1' E2']. apply NI in E1'. subst u.
      destruct (on_same_x KFp2 KFp2_field b2 x y x v OP1 OQ1 eq_refl) as [F|F]; [subst v; reflexivity|].
      cbn [KFp2 kopp car] in F. apply Aff_eq; [reflexivity|]. rewrite F in E2' |- *. apply SG, E2'.
  - intros P. destruct (cpt (b := b2) P) as [|x y]; [clear -P0; nia|]. pose proof (NB x) as X. clear -X. destruct (sgn y); cbn [Z.b2z]; lia.
Qed.
Lemma E2_struct : exists (A T : E2), exact_order A c2cyc /\ pact psi hcl A = gid /\ indep sig2 T 299 /\ pact psi hcl T = gid /\
  exact_order (gop G2gen A) (order * c2cyc) /\ forall P, In P (all3 sig2 (gop G2gen A) T (order * c2cyc) 299).
Proof.
  destruct C2_ex as (A & HA & KA). destruct U2_ex as (T & HT & KT). exists A, T. split; [exact HA|]. split; [exact KA|]. split; [exact HT|]. split; [exact KT|].
  assert (HO : exact_order (gop G2gen A) (order * c2cyc)).
  { apply eo_add; [vm_compute; reflexivity|apply eo_prime; [exact order_prime|exact G2gen_r|exact G2gen_nz]|exact HA]. }
  split; [exact HO|].
  apply (all_span sig2 sig2_op _ T (order * c2cyc) 299 (2 * (modulus * modulus) + 1)); [vm_compute; reflexivity|vm_compute; reflexivity|vm_compute; reflexivity|exact HO|exact HT|exact E2_atmost|vm_compute; reflexivity].
Qed.
Lemma E2_count : exists L : list E2, NoDup L /\ (forall P, In P L) /\ Z.of_nat (length L) = order * h2cof.
Proof.
  destruct E2_struct as (A & T & HA & KA & HT & KT & HO & HP). exists (all3 sig2 (gop G2gen A) T (order * c2cyc) 299).
  split; [apply (all3_nodup sig2 sig2_op); [vm_compute; reflexivity|vm_compute; reflexivity|vm_compute; reflexivity|exact HO|exact HT]|]. split; [exact HP|].
  rewrite all3_len by (vm_compute; discriminate). vm_compute. reflexivity.
Qed.
Lemma pact_sig2 l P : pact psi l (sig2 P) = sig2 (pact psi l P).
Proof.
  unfold sig2. assert (I : forall Q, pact psi l (ginv Q) = ginv (pact psi l Q)).
  { intros Q. apply g_inv_unique. rewrite <- (pact_op psi psi_op), g_inv. apply (pact_0 psi psi_op). }
  rewrite I, !(pact_s psi psi_op). reflexivity.
Qed.
Lemma pact_zmul l n (P : E2) : pact psi l (zmul n P) = zmul n (pact psi l P).
Proof. apply (hom_zmul E2 E2 (pact psi l)). intros x y. apply (pact_op psi psi_op). Qed.
(** the map of clearCofactor lands in the multiples of the base point *)
Lemma E2_cofactor (P : E2) : exists k, pact psi hcl P = zmul k G2gen.
Proof.
  destruct E2_struct as (A & T & HA & KA & HT & KT & HO & HP). specialize (HP P). apply in_all3 in HP. destruct HP as (a & b & c & _ & _ & _ & ->).
  exists (a * pl_eval hcl Xz). unfold span3. cbn [fst snd]. rewrite !(pact_op psi psi_op), !pact_zmul, pact_sig2, (pact_op psi psi_op), KA, KT, (s_0 sig2 sig2_op), !zmul_id, !g_id_r.
  rewrite (pact_eigen psi psi_op _ _ _ psi_gen), <- zmul_mul. reflexivity.
Qed.
(** a point of order r is a multiple of the base point *)
Lemma sub2_complete (P : E2) : zmul order P = gid -> exists k, P = zmul k G2gen.
Proof.
  intros H. destruct E2_struct as (A & T & HA & KA & HT & KT & HO & HP). specialize (HP P). apply in_all3 in HP. destruct HP as (a & b & c & _ & _ & _ & EP).
  exists a. rewrite EP in H |- *. clear EP P.
  assert (S : span3 sig2 (gop G2gen A) T (order * a, (order * b, order * c)) = gid).
  { rewrite <- H. unfold span3. cbn [fst snd]. rewrite !(zmul_mul order), <- !zmul_op. reflexivity. }
  apply (span3_zero sig2 sig2_op _ _ (order * c2cyc) 299 ltac:(vm_compute; reflexivity) HO HT) in S. cbn [fst snd] in S. destruct S as (S1 & S2 & S3).
  apply Z.mul_divide_cancel_l in S1; [|vm_compute; discriminate].
  assert (GG : Z.gcd 299 order = 1) by (vm_compute; reflexivity). apply Z.gauss in S2, S3; auto.
  destruct HA as [HA _], HT as [HT _].
  unfold span3. cbn [fst snd]. rewrite zmul_op, (zmul_divide c2cyc a A), (zmul_divide 299 b T), (zmul_divide 299 c (sig2 T)); auto using (s_kills sig2 sig2_op). rewrite !g_id_r. reflexivity.
Qed.
Lemma sub2_iff (P : E2) : zmul order P = gid <-> psi P = zmul Xz P.
Proof.
  split; [|apply sub2_r]. intros H. destruct (sub2_complete P H) as [k ->]. rewrite (s_zmul psi psi_op), psi_gen, <- !zmul_mul. f_equal. ring.
Qed.
