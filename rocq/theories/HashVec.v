(** Two values of hash_to_curve: the vector of RFC 9380, appendix J.10.1, for the empty message, and the message "hi" under the signature tag. *)
From Coq Require Import String ZArith List Bool Lia Uint63.
From Verif Require Import SpecField FieldProof TowerProof TowerProof2 SpecBytes SpecHash SpecCurve AbGroup CurveInst SpecMap SpecSig.
From Verif Require Import ModelWord ModelScalar ScalarProof ModelCurve CurveProof CurveRefine CurveRefine2 CurveBase I63 I63b GenProof SubgroupProof Orders HashCert.
Import ListNotations.
Local Open Scope Z_scope.

(** the blocks of expand_message_xmd computed in order *)
Fixpoint xmd_go (b0 D : list Z) (prev : list Z) (i : nat) (n : nat) : list Z :=
  match n with O => [] | S n => let b := SHA256 (xor_bytes b0 prev ++ [Z.of_nat i] ++ D) in b ++ xmd_go b0 D b (S i) n end.
Lemma xmd_go_ok b0 D : forall n i, xmd_go b0 D (xmd_b b0 D (S i)) (S (S i)) n = flat_map (xmd_b b0 D) (seq (S (S i)) n).
Proof.
  induction n as [|n IH]; intros i; [reflexivity|]. cbn [xmd_go seq flat_map].
  change (SHA256 (xor_bytes b0 (xmd_b b0 D (S i)) ++ [Z.of_nat (S (S i))] ++ D)) with (xmd_b b0 D (S (S i))).
  cbv zeta. rewrite IH. reflexivity.
Qed.
Definition xmd_fast (msg DST : list Z) (len : nat) : option (list Z) :=
  let ell := ((len + 31) / 32)%nat in
  if (255 <? Z.of_nat ell) || (65535 <? Z.of_nat len) || (255 <? Z.of_nat (length DST)) then None
  else
    let DST' := DST ++ int_be 1 (Z.of_nat (length DST)) in
    let b0 := SHA256 (repeat 0 64 ++ msg ++ int_be 2 (Z.of_nat len) ++ [0] ++ DST') in
    match ell with
    | O => Some []
    | S n => let b1 := SHA256 (b0 ++ [1] ++ DST') in Some (firstn len (b1 ++ xmd_go b0 DST' b1 2 n))
    end.
Lemma xmd_fast_ok msg DST len : expand_message_xmd msg DST len = xmd_fast msg DST len.
Proof.
  unfold expand_message_xmd, xmd_fast. cbv zeta. destruct (_ || _); [reflexivity|].
  destruct ((len + 31) / 32)%nat as [|n]; [cbn [seq flat_map]; rewrite firstn_nil; reflexivity|].
  cbn [seq flat_map]. rewrite <- xmd_go_ok. reflexivity.
Qed.

Definition jaff (X Y : Fp2) : jac t2 := mkJ (e63x X) (e63x Y) one63x.
Lemma one_sq (x : Fp2) : x = F2mul x (F2mul F2_1 F2_1). Proof. ring. Qed.
Lemma one_cu (x : Fp2) : x = F2mul x (F2mul F2_1 (F2mul F2_1 F2_1)). Proof. ring. Qed.
Lemma jaff_rep X Y (P : E2) : cpt (b := b2) P = Aff (K := KFp2) X Y -> rep63x (jaff X Y) P.
Proof.
  intros E. unfold rep63x, erep, jrep. rewrite E. destruct (e63x_ok X) as [X1 X2]. destruct (e63x_ok Y) as [Y1 Y2].
  destruct (r_one _ _ _ _ ops63x_represents) as [O1 O2]. cbn [ops63x f_one] in O1, O2.
  split; [exact (conj X1 (conj Y1 O1))|]. cbn [jaff jx jy jz jacobian]. rewrite O2, X2, Y2.
  cbn [KFp2 k0 k1 kmul car ksq kcube]. split; [exact F2_1_neq_0|]. unfold ksq, kcube. cbn [KFp2 kmul].
  split; [apply one_sq|apply one_cu].
Qed.
(** h_eff2, ten limbs *)
Definition hlimbs : list Z := [16717924791090763089; 6451771550755190452; 16813287336095381155; 3368952460600638490; 7891079509683868336; 3646841576362204053; 11062809923385098209; 9863631852917151592; 6362576984766887208; 848540440590185907].
Lemma hl_val : val hlimbs = h_eff2. Proof. vm_compute. reflexivity. Qed.
Lemma aff_pt X Y (P : E2) : rep63x (jaff X Y) P -> cpt (b := b2) P = Aff (K := KFp2) X Y.
Proof.
  intros [_ HP]. destruct (e63x_ok X) as [X1' X2]. destruct (e63x_ok Y) as [Y1' Y2].
  cbn [jaff jx jy jz] in HP. rewrite X2, Y2 in HP.
  destruct (r_one _ _ _ _ ops63x_represents) as [_ O2]. cbn [ops63x f_one] in O2. rewrite O2 in HP.
  destruct (cpt (b := b2) P) as [|x y]; cbn [jacobian] in HP; [exfalso; exact (F2_1_neq_0 HP)|].
  destruct HP as (_ & -> & ->). unfold ksq, kcube. cbn [KFp2 kmul k1].
  f_equal; [apply one_sq|apply one_cu].
Qed.
Lemma x_ex X Y : j_isOnCurve ops63x i4x (jaff X Y) = true -> exists P : E2, rep63x (jaff X Y) P.
Proof.
  intros S1. destruct (e63x_ok X) as [X1' X2]. destruct (e63x_ok Y) as [Y1' Y2].
  exact (erep_ex ops63x KFp2 ok63x d63x ops63x_represents KFp2_field KFp2_two KFp2_three b2 b2_nz i4x (jaff X Y) i4x_R
              (conj X1' (conj Y1' (proj1 (r_one _ _ _ _ ops63x_represents)))) S1).
Qed.
Lemma x_eq p q (P Q : E2) : rep63x p P -> rep63x q Q -> j_equal ops63x p q = true -> P = Q.
Proof. intros RH HP. exact (proj1 (erep_equal ops63x KFp2 ok63x d63x ops63x_represents KFp2_field KFp2_two KFp2_three b2 b2_nz _ _ _ _ RH HP)). Qed.
Lemma x_scale p hl (P : E2) : words hl -> rep63x p P -> rep63x (j_scale ops63x p hl) (zmul (val hl) P).
Proof. intros Wh RS. exact (erep_scale ops63x KFp2 ok63x d63x ops63x_represents KFp2_field KFp2_two KFp2_three b2 b2_nz _ _ hl RS Wh). Qed.
Lemma x_add p q (P Q : E2) : rep63x p P -> rep63x q Q -> rep63x (j_add ops63x p q) (gop P Q).
Proof. exact (erep_add ops63x KFp2 ok63x d63x ops63x_represents KFp2_field KFp2_two KFp2_three b2 b2_nz p q P Q). Qed.
Lemma sumchk_ok hl X0 Y0 X1 Y1 X Y (Q0 Q1 : E2) : words hl -> cpt (b := b2) Q0 = Aff (K := KFp2) X0 Y0 -> cpt (b := b2) Q1 = Aff (K := KFp2) X1 Y1 ->
  j_isOnCurve ops63x i4x (jaff X Y) = true ->
  j_equal ops63x (j_scale ops63x (j_add ops63x (jaff X0 Y0) (jaff X1 Y1)) hl) (jaff X Y) = true -> cpt (b := b2) (zmul (val hl) (gop Q0 Q1) : E2) = Aff (K := KFp2) X Y.
Proof.
  intros Wh C0 C1 S1 S2. destruct (x_ex X Y S1) as [P HP].
  rewrite (x_eq _ _ _ _ (x_scale _ _ _ Wh (x_add _ _ _ _ (jaff_rep X0 Y0 Q0 C0) (jaff_rep X1 Y1 Q1 C1))) HP S2). exact (aff_pt X Y P HP).
Qed.
Lemma hl_words : words hlimbs. Proof. unfold hlimbs. wrd. Qed.
Lemma vector_gen hl h m dst b u0 u1 X0 Y0 X1 Y1 X Y : words hl -> val hl = h ->
  expand_message_xmd m dst 256 = Some b -> field_elt b 0 = u0 -> field_elt b 1 = u1 ->
  (map_to_curve2 u0 (Aff (K := KFp2) X0 Y0) /\ onb b2 (Aff (K := KFp2) X0 Y0) = true) ->
  (map_to_curve2 u1 (Aff (K := KFp2) X1 Y1) /\ onb b2 (Aff (K := KFp2) X1 Y1) = true) ->
  j_isOnCurve ops63x i4x (jaff X Y) = true ->
  j_equal ops63x (j_scale ops63x (j_add ops63x (jaff X0 Y0) (jaff X1 Y1)) hl) (jaff X Y) = true ->
  exists H : E2, (exists b (Q0 Q1 : E2), expand_message_xmd m dst 256 = Some b /\
    map_to_curve2 (field_elt b 0) (cpt (b := b2) Q0) /\ map_to_curve2 (field_elt b 1) (cpt (b := b2) Q1) /\
    H = zmul h (gop Q0 Q1)) /\ cpt (b := b2) H = Aff (K := KFp2) X Y.
Proof.
  intros Wh <- Hb <- <- [M0 O0] [M1 O1] S1 S2.
  pose (Q0 := mkC KFp2 b2 _ O0 : E2). pose (Q1 := mkC KFp2 b2 _ O1 : E2).
  exists (zmul (val hl) (gop Q0 Q1)). split; [exists b, Q0, Q1; auto|].
  exact (sumchk_ok hl X0 Y0 X1 Y1 X Y Q0 Q1 Wh eq_refl eq_refl S1 S2).
Qed.
Lemma vector_ok m dst b u0 u1 X0 Y0 X1 Y1 X Y :
  expand_message_xmd m dst 256 = Some b -> field_elt b 0 = u0 -> field_elt b 1 = u1 ->
  (map_to_curve2 u0 (Aff (K := KFp2) X0 Y0) /\ onb b2 (Aff (K := KFp2) X0 Y0) = true) ->
  (map_to_curve2 u1 (Aff (K := KFp2) X1 Y1) /\ onb b2 (Aff (K := KFp2) X1 Y1) = true) ->
  j_isOnCurve ops63x i4x (jaff X Y) = true ->
  j_equal ops63x (j_scale ops63x (j_add ops63x (jaff X0 Y0) (jaff X1 Y1)) hlimbs) (jaff X Y) = true ->
  exists H : E2, hash_to_curve m dst H /\ cpt (b := b2) H = Aff (K := KFp2) X Y.
Proof. exact (vector_gen hlimbs h_eff2 m dst b u0 u1 X0 Y0 X1 Y1 X Y hl_words hl_val). Qed.
Definition DST_QUUX : list Z := ascii_bytes "QUUX-V01-CS02-with-BLS12381G2_XMD:SHA-256_SSWU_RO_".

Definition va_u0 : Fp2 := (F2z 0x3dbc2cce174e91ba93cbb08f26b917f98194a2ea08d1cce75b2b9cc9f21689d80bd79b594a613d0a68eb807dfdc1cf8 0x5a2acec64114845711a54199ea339abd125ba38253b70a92c876df10598bd1986b739cad67961eb94f7076511b3b39a).
Definition va_y0 : Fp2 := (F2z 0xbf91670a17a46bfadc5ea2d7874aef4ad2d794c549fa74d7ff7d1bd8ba4ba23322e23545100443bc798fe0efc322ec8 0xc78bd191c411d8d499b453ce46505bdb33aa109c39a2838208b4d74654c3f1e21112a9a041eb1642502c9a89d0f773c).
Definition va_si0 : Z * Z := (0x18c1ab04717b8973ea5c28d558a5acd3a76fb34cec58251fe13f6f4805131c97c7d456e97ca715ca01232df5a3f1dd66, 0x769d6efb31d9849f7041d968eeadc90591ca1c157ccb36dfd1bf5d7129240d4466d49c644d22755f71a71b08f9d70f3).
Definition va_x10 : Z * Z := (0x136caea162b2e532e25319e1ff1f0bc4d1d2588133aec26884fa3164b58bacfdb554b9791c5710c4032680f2103629e1, 0x10012ae2dc2436d5b78bf55f5a27bb2db08e9a7b74993d26ba384eb9245f9c36d2aa8b8af6f0815d7365a6abdf4c06d5).
Definition va_w0 : Z * Z := (0x19867eb33392b4d2cd4ed29983e0af2496309cbec9b9ddf0bc844b38e67dc633c6340e1cedbef502419d1b0fbeeec1f8, 0x12a222373df67e4adca76b60070f5dfda720cd42aee8b2742ac1669cc6d42255f0fad19928db30a8dc106631e7eb5248).
Definition va_gi0 : Z * Z := (0xcf34b22c179b46df173de34c5fdfc70ea3e8e4dd96bb5a1060c141e103329230e95c5ac6a0a7db2daf768f953370707, 0x5c8c13962b4a9ee8b9f75cba96ce47727ebf9ba3c3e45e61e2a99f2f53f92325588e67ec8413cd834e31caeec86016).
Definition va_x0 : Z * Z := (0x136caea162b2e532e25319e1ff1f0bc4d1d2588133aec26884fa3164b58bacfdb554b9791c5710c4032680f2103629e1, 0x10012ae2dc2436d5b78bf55f5a27bb2db08e9a7b74993d26ba384eb9245f9c36d2aa8b8af6f0815d7365a6abdf4c06d5).
Definition va_dx0 : Z * Z := (0x16b3235d9195b8960425d0fb18535db82c1a9b6d9ca6b70b5efaedc1e8c5450128c2c8fa83463303c1727fbd6dbe9b59, 0x52da1c821d679ed883ab20b4b18bdf4d64ea063c1be214347cde3e1f8ba053b26d511ae11eac2d22cd1246ef33df986).
Definition va_dy0 : Z * Z := (0xe2a6028e600018ad6cb3cf84c2bbef094fcb2eecbc6b27d6f26fa56439f00b49ef0bddd4266574d51a3307b8a062c4f, 0xe581c64910fd4e7cbaac91e41246d9c9aaa9cadd9073ebcde3e017359cade2155ea5d10f2925ff7329646563fff9001).
Definition va_X0 : Fp2 := (F2z 0x19ad3fc9c72425a998d7ab1ea0e646a1f6093444fc6965f1cad5a3195a7b1e099c050d57f45e3fa191cc6d75ed7458c 0x171c88b0b0efb5eb2b88913a9e74fe111a4f68867b59db252ce5868af4d1254bfab77ebde5d61cd1a86fb2fe4a5a1c1d).
Definition va_Y0 : Fp2 := (F2z 0xba10604e62bdd9eeeb4156652066167b72c8d743b050fb4c1016c31b505129374f76e03fa127d6a156213576910fef3 0xeb22c7a543d3d376e9716a49b72e79a89c9bfe9feee8533ed931cbb5373dde1fbcd7411d8052e02693654f71e15410a).
Lemma va_c0 : cert true va_u0 va_y0 va_X0 va_Y0 va_si0 va_x10 va_w0 va_gi0 va_x0 va_dx0 va_dy0 = true.
Proof. vm_cast_no_check (eq_refl true). Qed.
Definition va_u1 : Fp2 := (F2z 0x2f99798e8a5acdeed60d7e18e9120521ba1f47ec090984662846bc825de191b5b7641148c0dbc237726a334473eee94 0x145a81e418d4010cc027a68f14391b30074e89e60ee7a22f87217b2f6eb0c4b94c9115b436e6fa4607e95a98de30a435).
Definition va_y1 : Fp2 := (F2z 0xdc422d7b285dd7b6ab072598691e8851b24c71ddd9208617bcc44e900293981614303daea51f7632041aa3f679e45d8 0x70134804bdc43cee8f93164373fbcd8c35899aa9c70882197dcd1091c979a0bb8082e28bfae315e373ed81134837b93).
Definition va_si1 : Z * Z := (0x16304e0e08fa53a6e33b5323daaffbb881111f9f41bd0d157e7523e4ba1913223dfaae2c2df308590665463b22f506f9, 0x181b99be327b2e86080e510e5ca4394a5a74a89c904ce49784c70fcd48929126b84fb5dae67cede39af3e88cb6065886).
Definition va_x11 : Z * Z := (0x13aacc86868d2539032558bcb87eb04dd948e0883c6354aa38f24862e33fafc6e532d71b387f62131089989ba7bec7f9, 0x5dc408f74632621e7776a38bda13b6ad32c4c36b6fc9552b7a412048067ed16d216891226130bfc1fdc1c1703d591c2).
Definition va_w1 : Z * Z := (0x1114e22d32c383b1a89003ec2445da051240e6f70752d5481c2ea9e1e99b23a3cdaccd44fd73f0577cf17cd7b753727f, 0x348e084eb8f2ac583b63c78626fc3a47905b5fd9fdeb18bc73743aa7af98b9fd8802f97edd66845cd54aa4a9319078).
Definition va_gi1 : Z * Z := (0x18388ab458af08a5b53fbd900f1b699ea3479a88630d7c9681be75fc8124fd520609ed1f632b540dc1995181de152f09, 0x48b412f0e2ac2aadfe424885d8ef8da228be792ba3ce9093eaa2b0eb1d2d648217a463d4dc3878059075b4f3fec292e).
Definition va_x1 : Z * Z := (0x13aacc86868d2539032558bcb87eb04dd948e0883c6354aa38f24862e33fafc6e532d71b387f62131089989ba7bec7f9, 0x5dc408f74632621e7776a38bda13b6ad32c4c36b6fc9552b7a412048067ed16d216891226130bfc1fdc1c1703d591c2).
Definition va_dx1 : Z * Z := (0x6a4e4a57db59eb758ae26d5a66489dcdefd6cb4c6d7f8ac4e05385b6a10966a7b6a87b7bd07db1d56ae195fe21961b7, 0xf82355b69118e57a45464d313aae337318aa288eb5db8b5282b0de12b29993b700669de6af38ce095e2b86bc1979710).
Definition va_dy1 : Z * Z := (0xf40b2b536cd82f4342580702922c07297dc9cc2e87e81e82b2cb3792390271c248681d0f4c032d9a37b414ebad57442, 0xbd59d42ac703dd6e9394ec97c0ea8c43442669ceb498b974073ec865810774ff88cf32a056a8016fb444ec0da11037c).
Definition va_X1 : Fp2 := (F2z 0x113d2b9cd4bd98aee53470b27abc658d91b47a78a51584f3d4b950677cfb8a3e99c24222c406128c91296ef6b45608be 0x13855912321c5cb793e9d1e88f6f8d342d49c0b0dbac613ee9e17e3c0b3c97dfbb5a49cc3fb45102fdbaf65e0efe2632).
Definition va_Y1 : Fp2 := (F2z 0xfd3def0b7574a1d801be44fde617162aa2e89da47f464317d9bb5abc3a7071763ce74180883ad7ad9a723a9afafcdca 0x56f617902b3c0d0f78a9a8cbda43a26b65f602f8786540b9469b060db7b38417915b413ca65f875c130bebfaa59790c).
Lemma va_c1 : cert true va_u1 va_y1 va_X1 va_Y1 va_si1 va_x11 va_w1 va_gi1 va_x1 va_dx1 va_dy1 = true.
Proof. vm_cast_no_check (eq_refl true). Qed.
Definition va_X : Fp2 := (F2z 0x141ebfbdca40eb85b87142e130ab689c673cf60f1a3e98d69335266f30d9b8d4ac44c1038e9dcdd5393faf5c41fb78a 0x5cb8437535e20ecffaef7752baddf98034139c38452458baeefab379ba13dff5bf5dd71b72418717047f5b0f37da03d).
Definition va_Y : Fp2 := (F2z 0x503921d7f6a12805e72940b963c0cf3471c7b2a524950ca195d11062ee75ec076daf2d4bc358c4b190c0c98064fdd92 0x12424ac32561493f3fe3c260708a12b7c620e7be00099a974e259ddc7d1f6395c3c811cdd19f1e8dbf3e9ecfdcbab8d6).
Definition va_b : list Z := [76; 183; 123; 242; 216; 85; 172; 59; 49; 27; 155; 23; 12; 143; 253; 16; 109; 83; 179; 173; 153; 107; 116; 70; 250; 170; 25; 7; 61; 171; 143; 230; 67; 185; 189; 48; 231; 242; 250; 214; 22; 241; 42; 196; 47; 100; 89; 73; 189; 76; 195; 43; 1; 118; 43; 207; 152; 181; 155; 30; 213; 237; 104; 177; 125; 184; 30; 232; 61; 202; 77; 164; 37; 196; 108; 129; 99; 141; 58; 76; 25; 243; 17; 193; 250; 15; 53; 124; 96; 242; 120; 13; 88; 240; 101; 66; 36; 31; 70; 177; 4; 22; 219; 0; 209; 136; 82; 15; 68; 28; 103; 78; 78; 221; 208; 210; 143; 219; 112; 188; 12; 83; 110; 101; 194; 169; 2; 202; 209; 213; 108; 18; 206; 92; 175; 148; 109; 100; 1; 197; 86; 132; 26; 211; 146; 185; 4; 26; 24; 79; 129; 96; 45; 171; 77; 19; 194; 137; 242; 53; 174; 96; 17; 35; 161; 5; 157; 84; 147; 32; 87; 147; 237; 34; 79; 190; 105; 208; 194; 25; 221; 226; 109; 96; 37; 72; 7; 52; 52; 12; 14; 31; 68; 125; 217; 109; 234; 70; 187; 217; 207; 18; 92; 30; 155; 148; 124; 122; 199; 222; 40; 241; 10; 9; 245; 7; 153; 166; 215; 92; 81; 60; 22; 67; 74; 161; 153; 245; 73; 167; 81; 243; 210; 205; 112; 247; 205; 66; 235; 114; 235; 113; 230; 212; 28; 153; 172; 163; 80; 117; 224; 212; 127; 209; 218; 108].
Lemma va_xmd : expand_message_xmd [] DST_QUUX 256 = Some va_b.
Proof. rewrite xmd_fast_ok. vm_cast_no_check (eq_refl (Some va_b)). Qed.
Lemma va_f0 : field_elt va_b 0 = va_u0.
Proof. apply F2_eq; apply fval_inj; [vm_cast_no_check (eq_refl 0x3dbc2cce174e91ba93cbb08f26b917f98194a2ea08d1cce75b2b9cc9f21689d80bd79b594a613d0a68eb807dfdc1cf8)|vm_cast_no_check (eq_refl 0x5a2acec64114845711a54199ea339abd125ba38253b70a92c876df10598bd1986b739cad67961eb94f7076511b3b39a)]. Qed.
Lemma va_f1 : field_elt va_b 1 = va_u1.
Proof. apply F2_eq; apply fval_inj; [vm_cast_no_check (eq_refl 0x2f99798e8a5acdeed60d7e18e9120521ba1f47ec090984662846bc825de191b5b7641148c0dbc237726a334473eee94)|vm_cast_no_check (eq_refl 0x145a81e418d4010cc027a68f14391b30074e89e60ee7a22f87217b2f6eb0c4b94c9115b436e6fa4607e95a98de30a435)]. Qed.
Lemma va_s1 : j_isOnCurve ops63x i4x (jaff va_X va_Y) = true.
Proof. vm_cast_no_check (eq_refl true). Qed.
Lemma va_s2 : j_equal ops63x (j_scale ops63x (j_add ops63x (jaff va_X0 va_Y0) (jaff va_X1 va_Y1)) hlimbs) (jaff va_X va_Y) = true.
Proof. vm_cast_no_check (eq_refl true). Qed.
Lemma va_hash : exists H : E2, hash_to_curve [] DST_QUUX H /\ cpt (b := b2) H = Aff (K := KFp2) va_X va_Y.
Proof.
  apply (vector_ok [] DST_QUUX va_b va_u0 va_u1 va_X0 va_Y0 va_X1 va_Y1 va_X va_Y).
  - exact va_xmd.
  - exact va_f0.
  - exact va_f1.
  - exact (cert_ok _ _ _ _ _ _ _ _ _ _ _ _ va_c0).
  - exact (cert_ok _ _ _ _ _ _ _ _ _ _ _ _ va_c1).
  - exact va_s1.
  - exact va_s2.
Qed.
Definition vh_u0 : Fp2 := (F2z 0x157b8fe0640fb050fa04c38a9d0a62a7055acbe90ee3dd3d97fa44023cb56219274d67ce0a568513017cc4cc122482b2 0x3fe1ce38b649fbcae52f540385f31fc19e2f4c959ad4ba726ac6bf8d69e92497c077699d8e9a2d8384547bb9060620d).
Definition vh_y0 : Fp2 := (F2z 0x6b3b2f81d06ea5440a3d57070646aa3615abfd54bc7c280521c635a49b93984c12f40b2175fcb5d44ce855de98bd4f2 0x7375c5f646aa0130a6de647a85aec670b0eb39a9b6a9f83429bc61903d82112b39e0c67bbfed15ff52efbdf31302ded).
Definition vh_si0 : Z * Z := (0x16a340a880dc1ffe94623e38038df6c709ab988d5898bfbc3009aa569de64dc9e13b89cd343c0f5f35a90c0abd4acbde, 0xd7b262c49953aed3ece7e4b64e6c5e9da321bf329c31813c5f109cae682ce4847e3f881c93b36900fa60839ee6cc704).
Definition vh_x10 : Z * Z := (0x13ad2ca43bb205b7933a54f1182bdb441499d4fe6dc3c0a7d7a4d7cfe9232d58c6e9b9904a1a386ac824c866eae17c17, 0x8ca1e08d65a64e5427e5b110d4f1d54718ffe44a10449b6ac7dd50a7f32f33e4f488599805fbfb2acaa589f7620efdd).
Definition vh_w0 : Z * Z := (0x995636ced6f235399334d3fb76051fd9a7028b5f6d135f4ad48ef84cdd08aa2d58fa08b0eeef025ac25ed943c842ba1, 0x147bf885b7da2246815675cea7ab35e42c806c9a4fa17fcbf1dc41f0fd54a29ce60f7028833c401cb89a3525241ccc15).
Definition vh_gi0 : Z * Z := (0x546b67eee0fafcd518743269fd11322ce599e2395b2cfff13a261bf1f9d230829040bcb76961ebbc67bd057d63b72f9, 0x11ff910a9c4bc71e3e3602229dc40f3d2aad7519da3e7a62e0ee09cd6117bd2111993e31b3f172e937dd40f0d9528f1).
Definition vh_x0 : Z * Z := (0x4e81822daec1836593e7e91604bc9f5f6099802534d48eebf0b03a255158f5e52d007be06632ae532c31011e73d5b59, 0xf722b5998db3719a6baa3404712026d1765046003e182dbee5d202a943905cb355f4df0b0d96e1b75b90d774f70fe09).
Definition vh_dx0 : Z * Z := (0xcbac5b3ec6d8eb120ba0a35b1232fd35b813eba54d07f16db4e7d6e7b33bb1fe28833c3a1f48537d36edbff3125ffa8, 0x982701761f6b2aca9bbf5a4c6d149ec4361f4398303699508673cd707d094bb71bac840df1dc651ca72fce329322f9f).
Definition vh_dy0 : Z * Z := (0x1980cc7fe445e4c030729cd03827cdc271eecfdca6be35e951cbd305eaca00d5d77f317c75f17765da8b1c08f66544, 0xf628550893e4544dea726499001785db120409aed7982833c4c8e46024e8574f49bc97c8d6056887f47166f2a14c2f5).
Definition vh_X0 : Fp2 := (F2z 0xa06f53e99a6f4af554d42c99611f8b6264b76c940277880712e0d8c527417a19cb3f40c320124872d7fe160a04092f4 0x17f98905c8a4f0162ff31b981bd5034433281813b30c9b9a0b32be0d0d50cf5a7f12e18212b22db5c333f4b3a6a0a483).
Definition vh_Y0 : Fp2 := (F2z 0x11abf5160479ea1bf63fb7814c7ed37768e2c404f9dae1fe6c7de33769140a3c3476d593caf96b72cb2cfb10a1a1e8d5 0x7f0e40931cd8a59d0ccf6ea3ba417dcd04d9983ca8951e710952fd8cd5d1cb24944841ce269572a1afeba12792390e0).
Lemma vh_c0 : cert false vh_u0 vh_y0 vh_X0 vh_Y0 vh_si0 vh_x10 vh_w0 vh_gi0 vh_x0 vh_dx0 vh_dy0 = true.
Proof. vm_cast_no_check (eq_refl true). Qed.
Definition vh_u1 : Fp2 := (F2z 0xfdbd97f97c3d00de42011f3d2376be11402f4ffa1c6f8c0118932e2baeb8e2fe3348fe613f565046661497a802a8d6d 0x583bb755a06cea42703c9c4d7bae81046c381f47e8fae79c8455d960d5d750c8836c29e1552aa2e04b15320fe929c6f).
Definition vh_y1 : Fp2 := (F2z 0x521b55deff3584b14cb426e51a5c2a4bdbc2e48c80e0e8bb90a64a800421d68ecee64760640cc9beb94bd8eed3f3cf9 0x141a9ddeae09569ba835b55d1ef5a1e54a758c3864f38e51843a83c54efa1cc8376e3f05df3760be2e27e6a8866d9fc5).
Definition vh_si1 : Z * Z := (0x9b5d8f1595d62ed10371557a4ff0e32e8645b13cefe123ab58e6475bd460a8123c7a5678040e923007a73cf4b7a85d1, 0x6a7cb2d232e24715334ca9390388b98dc6bdfc9ddb018a49ac46774a4aa832bbaa2b9a373409fd3c1b8f9787dc0a507).
Definition vh_x11 : Z * Z := (0x6c0b07584bfc1dde16bb53f6eb3843a0e7b64defed194850bd212dc4bdd90a8ea0b417c8ea7153f6b76aeef1d5e3b51, 0x754bd64187ad74b4543e32e17cd01f9d77d3af2a2fbd6cf4f7523c2e18460616d79e537153cda12d3aa65ff2483f717).
Definition vh_w1 : Z * Z := (0x10ca113ed028f203446d311303498fd5e8ea4aadb0d101ad2382509cf16f94f254f23b2cec54a552e92807a523afa8dd, 0x2d1670562aec49f9f1fc76d53284bd8d1091069de247ef500525a21528cc69294f27f16d8a2170bb27ef760f4d20808).
Definition vh_gi1 : Z * Z := (0x1070d802f24dec61051b66168b18b11bb9a840e3a6f8b51c4c8b6148a257fa8aff0f6b64676b8208e2a9abcbdc0c7e73, 0x15c6519e5ca263516093477a75631d08161af5828df64725fc1c571d551e9bb44177bb843d702af116d5a069c33fea26).
Definition vh_x1 : Z * Z := (0x6c0b07584bfc1dde16bb53f6eb3843a0e7b64defed194850bd212dc4bdd90a8ea0b417c8ea7153f6b76aeef1d5e3b51, 0x754bd64187ad74b4543e32e17cd01f9d77d3af2a2fbd6cf4f7523c2e18460616d79e537153cda12d3aa65ff2483f717).
Definition vh_dx1 : Z * Z := (0x257d44c729f1cb872b3a3d86ff43f98bf358687854ee0d70ad7e20396a316d7d4c2ae6f2802645bc1f753d2875a25a7, 0xea462fb9cf299d3af957e07168d06328dccd7e54f6c0caf8857dbd15a7e30a744f0b9d27872b1b612a37048a868568c).
Definition vh_dy1 : Z * Z := (0x7a223dfe69907693001619454b4d884417041385367f344f2db8b8ed1ed59aef95e9425099a12b2882b5ecc200dd1fc, 0x1226d92fc18acc134f4209c908973b61c9d2ce26c16c61599016ff78a2889f35a0e903050de519b823ddff7a8ddd9c6c).
Definition vh_X1 : Fp2 := (F2z 0x1806d582db4aa049e40b4e0048942f67cc08b0579b034df009b0a642f321cc98dfbfb20b6cfcc9144623a5d07aa67b22 0x16a424b9adbcad118fa29122d6c523b732664760183f73c2440a79ca37e72368f8aabb9c0c32a7d9e1fb83917eb91b64).
Definition vh_Y1 : Fp2 := (F2z 0x18784db721603e1264f117f40452befd09ca24a60615a6d083abf6c57b7bf78f263e4147c4e3b15b57c99c868f08d466 0x12c6a6dd5be5f8746a639410f49846dce35c4cd87fbbae972b76718b8fc9ab511f1e2b1ae37b53a525ff6ceab8000220).
Lemma vh_c1 : cert true vh_u1 vh_y1 vh_X1 vh_Y1 vh_si1 vh_x11 vh_w1 vh_gi1 vh_x1 vh_dx1 vh_dy1 = true.
Proof. vm_cast_no_check (eq_refl true). Qed.
Definition vh_X : Fp2 := (F2z 0xd4512fc240cdbefe189fde9420c694c93c82e786c9b6380b71e7b85557f113dda2ce025bca0bce0fcd4692a8e5c49c3 0x8f9b88d49c12c4aa22dabe80460d69a5b5287d2eed5a149f80f69da31dfd6305d121c749bf813841fc4e0e7890af1d).
Definition vh_Y : Fp2 := (F2z 0x112dc701a4136c6cacbc70f61edc7187aa50cf3e1bd0c6d01685abdecc390b90734c03c2cfbbdcfc795a26b4de068d4c 0x83926cd185ef5b453c49f2c0f7d98d352017a5a6bc6cc394ac19ee5efbf94c5930de4412e935a9501e3c388c9bd37d5).
Definition vh_b : list Z := [198; 231; 252; 34; 111; 164; 131; 56; 29; 31; 23; 123; 12; 226; 222; 63; 173; 17; 114; 168; 230; 156; 128; 214; 76; 128; 48; 152; 105; 75; 206; 9; 221; 11; 152; 94; 171; 234; 129; 49; 78; 244; 140; 124; 94; 213; 138; 84; 94; 227; 128; 168; 248; 54; 235; 31; 82; 107; 18; 5; 26; 175; 182; 28; 154; 129; 28; 29; 255; 87; 136; 105; 242; 36; 24; 110; 22; 164; 172; 38; 183; 55; 172; 45; 150; 190; 180; 105; 12; 239; 175; 107; 75; 116; 43; 252; 115; 243; 63; 167; 23; 147; 14; 162; 152; 223; 182; 120; 246; 134; 130; 82; 164; 40; 208; 161; 8; 31; 36; 143; 130; 3; 83; 171; 44; 158; 168; 21; 77; 4; 158; 177; 155; 53; 195; 80; 166; 199; 59; 155; 249; 229; 73; 106; 32; 133; 181; 177; 129; 45; 167; 80; 37; 37; 184; 175; 44; 209; 33; 213; 102; 216; 84; 237; 7; 246; 133; 154; 0; 153; 6; 156; 123; 220; 18; 196; 161; 54; 97; 220; 131; 106; 49; 135; 99; 97; 105; 209; 106; 19; 135; 232; 247; 119; 115; 86; 156; 178; 67; 11; 82; 169; 197; 120; 105; 227; 64; 130; 36; 6; 215; 49; 1; 183; 209; 18; 161; 217; 165; 126; 212; 28; 113; 117; 34; 186; 106; 194; 175; 130; 66; 113; 23; 253; 245; 9; 124; 182; 137; 210; 231; 24; 92; 229; 243; 89; 53; 115; 31; 169; 186; 129; 211; 182; 43; 27].
Lemma vh_xmd : expand_message_xmd [104; 105] DST_SIG 256 = Some vh_b.
Proof. rewrite xmd_fast_ok. vm_cast_no_check (eq_refl (Some vh_b)). Qed.
Lemma vh_f0 : field_elt vh_b 0 = vh_u0.
Proof. apply F2_eq; apply fval_inj; [vm_cast_no_check (eq_refl 0x157b8fe0640fb050fa04c38a9d0a62a7055acbe90ee3dd3d97fa44023cb56219274d67ce0a568513017cc4cc122482b2)|vm_cast_no_check (eq_refl 0x3fe1ce38b649fbcae52f540385f31fc19e2f4c959ad4ba726ac6bf8d69e92497c077699d8e9a2d8384547bb9060620d)]. Qed.
Lemma vh_f1 : field_elt vh_b 1 = vh_u1.
Proof. apply F2_eq; apply fval_inj; [vm_cast_no_check (eq_refl 0xfdbd97f97c3d00de42011f3d2376be11402f4ffa1c6f8c0118932e2baeb8e2fe3348fe613f565046661497a802a8d6d)|vm_cast_no_check (eq_refl 0x583bb755a06cea42703c9c4d7bae81046c381f47e8fae79c8455d960d5d750c8836c29e1552aa2e04b15320fe929c6f)]. Qed.
Lemma vh_s1 : j_isOnCurve ops63x i4x (jaff vh_X vh_Y) = true.
Proof. vm_cast_no_check (eq_refl true). Qed.
Lemma vh_s2 : j_equal ops63x (j_scale ops63x (j_add ops63x (jaff vh_X0 vh_Y0) (jaff vh_X1 vh_Y1)) hlimbs) (jaff vh_X vh_Y) = true.
Proof. vm_cast_no_check (eq_refl true). Qed.
Lemma vh_hash : exists H : E2, hash_to_curve [104; 105] DST_SIG H /\ cpt (b := b2) H = Aff (K := KFp2) vh_X vh_Y.
Proof.
  apply (vector_ok [104; 105] DST_SIG vh_b vh_u0 vh_u1 vh_X0 vh_Y0 vh_X1 vh_Y1 vh_X vh_Y).
  - exact vh_xmd.
  - exact vh_f0.
  - exact vh_f1.
  - exact (cert_ok _ _ _ _ _ _ _ _ _ _ _ _ vh_c0).
  - exact (cert_ok _ _ _ _ _ _ _ _ _ _ _ _ vh_c1).
  - exact vh_s1.
  - exact vh_s2.
Qed.
