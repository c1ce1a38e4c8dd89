(** Model of the maps to the curves (src/g.cpp: mapToCurve, swuMapG1, isogenyMapG1, swuMapG2, isogenyMap).  swuMapG1 and swuMapG2
    have the same body over fp and fp2 and are written once over the operations [o], isQuadraticNonResidue, sqrt and sign.
    Field elements are in Montgomery form, as in the source. *)
From Coq Require Import ZArith List Bool.
From Verif Require Import ModelWord ModelScalar ModelPrim ModelFp ModelTower ModelCurve.
Import ListNotations.
Local Open Scope Z_scope.

Section Map.
Context {T : Type} (o : fops T) (isQNR : T -> bool) (sqrt : T -> bool * T) (sign : T -> bool).
Notation "x + y" := (f_add o x y). Notation "x * y" := (f_mul o x y). Notation sqr := (f_sqr o).
(** the structs at g.cpp:549-562; 1313-1342 *)
Record swu_params := mkSwu { sw_z : T; sw_zInv : T; sw_a : T; sw_b : T; sw_mBA : T }.
(** g.cpp:563-577; 1343-1355: x1 *)
Definition swu_x1 (ps : swu_params) (tv0 : T) : T :=
  let tv1 := sqr tv0 in
  let x1 := tv0 + tv1 in
  let x1 := f_inv o x1 in
  let e1 := f_isZero o x1 in
  let x1 := x1 + f_one o in
  let x1 := if e1 then sw_zInv ps else x1 in
  x1 * sw_mBA ps.
(** g.cpp:578-582; 1356-1360 *)
Definition swu_gx (ps : swu_params) (x1 : T) : T :=
  let gx1 := sqr x1 in
  let gx1 := gx1 + sw_a ps in
  let gx1 := gx1 * x1 in
  gx1 + sw_b ps.
(** g.cpp:547-607; 1311-1385 *)
Definition swu_map (ps : swu_params) (e : T) : T * T :=
  let tv0 := sqr e in
  let tv0 := tv0 * sw_z ps in
  let tv1 := sqr tv0 in
  let x1 := swu_x1 ps tv0 in
  let gx1 := swu_gx ps x1 in
  let x2 := tv0 * x1 in
  let tv1 := tv0 * tv1 in
  let gx2 := gx1 * tv1 in
  let e2 := negb (isQNR gx1) in
  let x := if e2 then x1 else x2 in
  let y2 := if e2 then gx1 else gx2 in
  let y := snd (sqrt y2) in
  let y := if negb (Bool.eqb (sign y) (sign e)) then f_neg o y else y in
  (x, y).
(** the Horner loops at g.cpp:689-703, 1571-1594: acc = c_n; for i = n-1 .. 0: acc = acc * x + c_i *)
Definition horner (cs : list T) (x : T) : T :=
  match rev cs with [] => f_zero o | c :: r => fold_left (fun acc ci => acc * x + ci) r c end.
End Map.
Arguments mkSwu {T}. Arguments sw_z {T}. Arguments sw_zInv {T}. Arguments sw_a {T}. Arguments sw_b {T}. Arguments sw_mBA {T}.

(** g.cpp:557-561 *)
Definition swuParamsForG1 : swu_params := mkSwu
  0x78c712fbe0ab6e850553f1b9c1315219dac23e943dc174077672417ed5828c30f70008d3090001d886c00000023ffdc
  0xe8d3154b0ba099a9bcb227d792841394c506dd8a8076116678cd5473847377a5b28ba2ca4d745d10e8a2e8ba2e83e10
  0x155455c3e5071d8528376eda6bfc183527e11c91b5f24e7cb85ce591b7bd31e286464c2d1e8416c32f65aa0e9af5aa51
  0x6824061418a386bca72b5e45a52d888873e27c3a221e5718c476013de99c5c49aa93eb35b742d6ffb996971fe22a1e0
  0x97cab54770ca0d399fffd1f34fc181d2527e7dc638517671b75faa0105ec9833b40d72430f93c82052583c93555a7fe.
(** g.cpp:547-607 *)
Definition swuMapG1 (e : Z) : Z * Z := swu_map fp_ops fp_isQNR fp_sqrt fp_sign swuParamsForG1 e.
(** isogenyConstantsG1[0], g.cpp:613-630 *)
Definition iso1_0 : list Z :=
  [0x913be200a20bef4d15b58d2ffc0005423dcea34f2ffb3043f2885f1467f19ae19fa219793fee28c4d18b6f3af00131c;
   0x7097bc5998784ad11b22deed20d827b8637ef1e4d6623ad1597e193f4cd233a3c79e43cc7d966aa898985385cdbbd8b;
   0x784151ed7605524df6e99707d2a00795b5491c05102f0e75ba2ef314ed8b5a6fc7169c026e568c6a542583a480b664b;
   0xe93d431ea011aeb65dadd7828505289049dfee82aefbd6026f5577994e34c3dab9be52fbda43021494e212870f72741;
   0x9f20ead8e532bf6169139d319ea7a8f104c24211be4805c0f1a8953b325f4647ada1c8a41bfb18590ee774bd6a74d45;
   0x18f4bfcbb4368929b0282d480e56489f2e0a94ccf77ec0db143245631883f4bda5482c9aa1ccd7bd6ddd93e2f43626b7;
   0x1277ffc72f25e8feffd89869a572b297d0df5c98e1f9d70f2c390d3d2da5df637a43ff6958ce4fe923c5f0c953402dfd;
   0x8b76279f621d028bba074f260e400f1e2a57f6505880d6512da3054b18b641085f894a88030fd8179f4f0490f06a8a6;
   0x9e699dd9adfa5ac05a69cdcef55feeee21585b9a30f86cb7888bff6e6b33bb48456ba9a1f186475e67245ba78d5b00b;
   0x98c4bf7de8b63750443915f50fd41798ad456574e9db24fe256bb67b3b3cd8d0a0db4ae6b1a10b20de5c357bff57107;
   0x54fdf4bbf1d821c4a51d8667f0fe1cfe4efd1ad3f767ceb1dafdeda137a489efe6e37d442537375e6b0617e7dd929c7;
   0x18ae6a856f40715db14f01aadb30be2f464170142a1009ebe969d6833764ab478abf91faa257b3d572db2a50658d767b;
   0;
   0;
   0;
   0].
(** isogenyConstantsG1[1], g.cpp:631-648 *)
Definition iso1_1 : list Z :=
  [0x165aa6c93ad115f9c0b3ac929599016b43fc37b908b133ec14d568c3ed6c544a6a9740fefda13a0b962a077fdb0f945;
   0x83383d6ed81f1ceed4530924cec2045116dda1c5070ae933b294ab13755f0ff92cfca0a9465176a23279a3ba506c1d9;
   0xf29c13c660523e2ff364f36e54b6812a0fba72732b3fafd17da9ffd8738c1424a2b54ccd37733f09885c2a6449fecfc;
   0x12025184f407440c1c2c7844bc417be443a92bd69c15c2dfc9d325849ade5150d487228f2f3204fbe349cc118278f041;
   0x13b93c63edf6c0157408904f0f186bb2ccda066072436a42fbf995e71270da491444ef325140201f587f65ae6acb057b;
   0x6cc402dd594bbebaeedd424d780f38830f94df6f83a3dc20beb232927f7fb264a4c64423ecaddb4fb918622cd141920;
   0xc6f7f7237b466066933a38d5b594c81df70a9a1f757c6e464f436e888c62cb932a92465435719b3d41f761151b23f8f;
   0x17916987aa14a122bc6be2d8dad57c2389bc62d61c7baf238e9071dab950c12422c9850bf9cf80f0693c08747876c8f7;
   0xc102cbac531bb34bbc2ee18e1c227f432c6aa9af394361cc7f7f62962f5cd819965243a7571dfa71be3ff439c1316fd;
   0x12a6dcd7f0f4e0e816178f5bbf698711ca2b066c2a87492f5b8c95fc14353fc361f86372b99192c0997614c97bacbf07;
   0x15f65ec3fa80e4935c071a97a256ec6d77ce5853705257455f48985753c758baebf4000bc40c0002760900000002fffd;
   0;
   0;
   0;
   0;
   0].
(** isogenyConstantsG1[2], g.cpp:649-666 *)
Definition iso1_2 : list Z :=
  [0xd300744d42a03107d7b18a682692693cc31a30a0b6cd3dfce028fea04bd73731d4d9e57b958a7672b567ff3e2837267;
   0xa8dadd9c2414555706326a6957dd5a414e03832052b49c85df0608b8f97608afe7f53cc4874f87899c2555fa542493f;
   0x13f70bf38bbf290583d0c7532f8c1fde0000bd1de7ba50f0cf05a27c8456088d357e33e36e261e7d13d942922a5cf63a;
   0xbb6cde49d8ba257b3468f4550192bf7afe19ff6f97e6d533983ceb4f6360b6d28a359a65e5417075c57fd95bfafbdbb;
   0x386213c651b888d64eace4cb09821916ddf84a095713d5f6bef32ce94b8a800314b4ce372cacefd590b62c7ff8a513f;
   0x1fddf5aed881793cf5b1f022e1c9107aa6ec095283ee4a7f9ad9cc95423d2e9a14ac0f5da148982a5310a31111bbcdd;
   0x7eb1b29c1dfde1fba12961be86e9efb05b2d36c769a89b0c2fcebe7cb877dbde25c2d8183473a1965a572b0d7a7d950;
   0xad52ba3e6695a79f4fa918082e44d64a47da89439f5340f8569467e68af51b5364e92907679509193e09572f7c4cd24;
   0x149c9c326a5e7393a90ed5adf1ed5537fa86d2a3a9a734823d587e5640536e66d03f51a3516bb233911429844e0d5f54;
   0x1862bd62c291dacb8100e1652b3cdc62649ef8f11a4fae469a558ebde836ebeddc9af5fa0a274a17462bbeb03c12921a;
   0x12c7e1c3b28962e5bb1d0d53af3ff6bf14665bdd8846e19d6a643d5a6879fa2c0194160fa9b9ac4f05c9b8ca89f12c26;
   0x2419f98165871a4389547f2334a53910dfbd15dc41a594d1f07db10ea1a4df4fedc77ec1a9201c4b55ebf900b8a3e17;
   0xd2d7b829ce324d28346fe421f96bb1301458ef0159ebbef7c763e17763a06528e563e9d1ea6d0f5b416af000745fc20;
   0x46959cfcfd0bf49724b136c4cf2d9faf563e63704f7092f8f66b3ea59514fa46f2a2619951d823a93096bb538d64615;
   0x1017290919210e5f07f897e267a33f1ba06731f1d2bbe1ee41064965946d9b5991e9079c2c02d58fea748d4b6e405346;
   0x106d87d1b51d13b9c4b92d15db8acca854759078e5be683807afe37afff55002eecc53161264562a872aa6c17d985097].
(** isogenyConstantsG1[3], g.cpp:667-684 *)
Definition iso1_3 : list Z :=
  [0xa8b981ee47691f152f45700b70d5c69723e71dcc5fc1323ddfa71a0889d5b7e18ef5f8a10634d60eb6c359d47e52b1c;
   0xfadeff77b6bfe3e6a33dca5235607763e50dffea3c62658f25f4cc5e35c65da6f5f037395dbd911616a3c4f5535b9fb;
   0x1c2a7a256fe9c4104fe8bb2b8d81af4b6634a652ee5884d115dbe7ad10c2a3724a2c159a3d367422be9b66df470059c;
   0x11037cd58b3dbfbd59b0c17f7631448ac8e0bbd6fe11080624482e6b8c2f4e5f898b367476c9073ff27bf8ef3b75a386;
   0x44393bb632d94fbb1cce69b6aa9ad9a3cae528fbee9a2a4d30d4fe3ba86fdb11dbf6f1c5fcdb70031c7912ea267eec6;
   0x96c3a09773272d40e49df01d942a628104fc1aafb0919cc71b1a4d2f119981d9824c289dd72bb55c66ef6efeeb5c7e8;
   0xc81d4645f4cb6edd466a75599ce728ec4b76271ea6506b3fb1fa3721569734c32dca50a885728f09abc11eb5fadeff4;
   0xd3378023e4c7406f08d33680a2374659e9efb24aa6424c6cb353efe9b33e4ffda64e495b1e879304199f10e5b8be45b;
   0xef3c33371e2fdb5564c2935a96bfa9303bfd9cca75cbdeb5be603899e907687c341b4aa9fac34977eb4ae92ec74d3a5;
   0xd22d5a40cec7cff6cb95e0fa776aeadd0fda172174ed023773a8ca5196b1380e5d5bd5cb9357a307ee91fd449f6ac2e;
   0x467ffaef23fc49efce95ebdeb5b490a178419613d90d8f87549d8bd057894aedc9d55a83017897bf727e09285fd8519;
   0x116aefa749127bff828e0f1e772a53cd6e20829e5c230c455461c75a23ede3b579bc930deac01c03c1769e6a7c385f1b;
   0x189e5fe4470cd73cb9000209d5bd08d3fc009d4996dc5153a0ecf39ef026f602bbf18d053a6a3154101c10bf2744c10a;
   0x13dddbc4799d81d698738983c2107ff3b0a1ba04228520cc57b2b625b6d4ca21e47d5a981d081b557ebd546ca1575ed2;
   0xef9c24eccaf5e0efb95832e7d78742efd04e3dfc608646755ba77a9a2f76493039e952cbdb05c2109319f2e39834935;
   0x15f65ec3fa80e4935c071a97a256ec6d77ce5853705257455f48985753c758baebf4000bc40c0002760900000002fffd].
(** g.cpp:609-711 *)
Definition isogenyMapG1 (x y : Z) : Z * Z :=
  let xNum := horner fp_ops iso1_0 x in
  let xDen := horner fp_ops iso1_1 x in
  let yNum := horner fp_ops iso1_2 x in
  let yDen := horner fp_ops iso1_3 x in
  let xDen := fp_inverse xDen in
  let yDen := fp_inverse yDen in
  let xNum := fp_mul xNum xDen in
  let yNum := fp_mul yNum yDen in
  let yNum := fp_mul yNum y in
  (xNum, yNum).
(** g.cpp:537-545 *)
Definition g1_mapToCurve (e : Z) : g1 :=
  let xy := swuMapG1 e in
  let xy := isogenyMapG1 (fst xy) (snd xy) in
  g1_clearCofactor (mkJ (fst xy) (snd xy) fp_one).

(** g.cpp:1321-1341 *)
Definition swuParamsForG2 : swu_params := mkSwu
  (mk2 0x815664c7dfe040dde291a3d41e980d3d951e663066576f40fd0749345d33ad2656fffe5da8ffffa87ebfffffff9555c 0x40ab3263eff0206ef148d1ea0f4c069eca8f3318332bb7a07e83a49a2e99d6932b7fff2ed47fffd43f5fffffffcaaae)
  (mk2 0x132fc6ac14cd1e1242dab41f28a77081f1b574bcf4bc90ceb5ca2ac9b76352bf9dd9999dc88ccccdacd0000000011110 0x10692e942f19579129ae4da6aef7f4966b9c91267926ca580c4bbd3c1aff4cc44fbf332fcd0d9998e396ffffffff2223)
  (mk2 0 0x1220b4e979ea546702d6985717c744ab0b51375126310601e7889edbe340f6bd01080c0fdef80285e53a000003135242)
  (mk2 0x125cdb5e74dc4fd13dd3a569412c0a3475bf3c53a79473ba6e1b94403db5a66e6ec832df71380aa422ea00000cf89db2 0x125cdb5e74dc4fd13dd3a569412c0a3475bf3c53a79473ba6e1b94403db5a66e6ec832df71380aa422ea00000cf89db2)
  (mk2 0xe7146f483e23a05467a4ad10ee6de53c68946b6aebbd0629f8e582eefe0fade5f98cc95ce451105903c555555474fb3 0xb8fcaf5b59dac9504a15ce53464ce839dee04ce44c9425cc7a27a7206cffb45bf133368e30eeefa29c2aaaaaab85af8).
(** g.cpp:1311-1385 *)
Definition swuMapG2 (e : fp2) : fp2 * fp2 := swu_map fp2_ops fp2_isQNR fp2_sqrt fp2_sign swuParamsForG2 e.
(** isogenyConstantsG2[0], g.cpp:1493-1510 *)
Definition iso2_0 : list fp2 :=
  [mk2 0x13808f550920ea41c54516acc8d037f6048103ea9e6cd0627c80cd2af3fd71a206dd57071206393e47f671c71ce05e62 0x13808f550920ea41c54516acc8d037f6048103ea9e6cd0627c80cd2af3fd71a206dd57071206393e47f671c71ce05e62;
   mk2 0 0xac73310a7fd5abd2836cda7028cabc521c28884088749456a6b4619b26ef918873fffdd236aaaa35fe55555554c71d0;
   mk2 0x149d7861e581393bb70040e2c20556f4d3960742ef416e1cb1fb2f941d797997db0c00101f9eaaae0a0c5555555971c3 0x563998853fead5e941b66d3814655e290e144420443a4a2b535a30cd9377c8c439fffee91b55551aff2aaaaaaa638e8;
   mk2 0x198e1a74328002d2696eb479f885d059d86485d4c87f6fb1d817050a8f41abc3190955557a84e38e40aac71c71c725ed 0].
(** isogenyConstantsG2[1], g.cpp:1511-1528 *)
Definition iso2_1 : list fp2 :=
  [mk2 0 0x4f69db13f39a95203977bc86095b0893e6427366f8cec18ca3757cb3819b208f25bfc611da3ff3e1f3affffff13ab97;
   mk2 0x381be097f0bb4e16140b1fcfb1e54b7b10330b7c0a95bc66f7ee9ce4a6e8b59dcb8009a43480020447600000027552e 0x167f53e0ba7431b8e9daf5b9482d581fb3741acd32dbb6f8f7b1e8d2ac426aca41f3ff646e0bffdf7588ffffffd8557d;
   mk2 0x15f65ec3fa80e4935c071a97a256ec6d77ce5853705257455f48985753c758baebf4000bc40c0002760900000002fffd 0;
   mk2 0 0].
(** isogenyConstantsG2[2], g.cpp:1529-1546 *)
Definition iso2_2 : list fp2 :=
  [mk2 0x8c8055e31c5d5c30fd2e39eada3eba957cb23ecfae804e1184a88ff379652fdb530e4f43b66d0e296d8f684bdfc77be 0x8c8055e31c5d5c30fd2e39eada3eba957cb23ecfae804e1184a88ff379652fdb530e4f43b66d0e296d8f684bdfc77be;
   mk2 0 0xc7d13420b09807f02c3b2b2d2938e86a27aa27b1d1a18d59d82f98e5f205aee4d6d55d28b7638fdbf0a71c71c91b406;
   mk2 0x2b1ccc429ff56af4a0db369c0a32af14870a2210221d2515a9ad1866c9bbe4621cffff748daaaa8d7f9555555531c74 0x174f45260f808feb010df44c82a881e61c06a963f163406e0c96011a8a1537ddfcdc000768795556e205aaaaaaac8e37;
   mk2 0x117c5e6e28aa905427f6c0e2f07467641c55c9935b5a982ec9d3d0f2c6f0678dc0fe38e23327b425a470bda12f67f35c 0].
(** isogenyConstantsG2[3], g.cpp:1547-1564 *)
Definition iso2_3 : list fp2 :=
  [mk2 0x3c6a03d41da1151ca713efc0036766011e19fc1a9c875d5561b3c2259e936118f7bea480083fb750162fffffa765adf 0x3c6a03d41da1151ca713efc0036766011e19fc1a9c875d5561b3c2259e936118f7bea480083fb750162fffffa765adf;
   mk2 0 0xee3d913bdacfbf60ac6735921c1119bbb2c75a34ea6c44a5ea60761a84d161ad713f52358ebfdba5db0fffffd3b02c5;
   mk2 0x5429d0e3e918f5211e10afb78ad7f138984c913a0fe09a9a73e5eb56fa5d106cb1400e764ec003066b10000003affc5 0x14be74dbfaee5748393a9cbaca9e2dc3daf2827152870915bff273eb870b251d5397ff174c67ffcf534dffffffc4aae6;
   mk2 0x15f65ec3fa80e4935c071a97a256ec6d77ce5853705257455f48985753c758baebf4000bc40c0002760900000002fffd 0].
(** g.cpp:1490-1608; the z-coordinate of *this is not used.  The loop for t3 starts at params[1][2]. *)
Definition isogenyMap (p : g2) : g2 :=
  let x := jx p in let y := jy p in
  let t0 := horner fp2_ops iso2_0 x in
  let t1 := horner fp2_ops iso2_2 x in
  let t2 := horner fp2_ops iso2_3 x in
  let t3 := horner fp2_ops (firstn 3 iso2_1) x in
  let qy := fp2_mul y t1 in
  let qy := fp2_mul qy t3 in
  let qz := fp2_mul t2 t3 in
  let t1 := fp2_sqr qz in
  let qy := fp2_mul qy t1 in
  let qx := fp2_mul t0 t2 in
  let qx := fp2_mul qx qz in
  mkJ qx qy qz.
(** g.cpp:1301-1309 *)
Definition g2_mapToCurve (e : fp2) : g2 :=
  let xy := swuMapG2 e in
  let p := isogenyMap (mkJ (fst xy) (snd xy) fp2_one) in
  g2_clearCofactor p.
