(** The value of hash_to_curve under the tag of proofs of possession for the message of the public key G1gen (secret key 1). *)
From Coq Require Import String ZArith List Bool Lia Uint63.
From Verif Require Import SpecField FieldProof TowerProof TowerProof2 SpecBytes SpecHash SpecCurve AbGroup CurveInst SpecMap SpecSig.
From Verif Require Import ModelWord ModelScalar ScalarProof ModelCurve CurveProof CurveRefine CurveRefine2 CurveBase I63 I63b GenProof SubgroupProof Orders HashCert HashVec.
Import ListNotations.
Local Open Scope Z_scope.
Definition vp_m : list Z := [187; 198; 34; 219; 10; 240; 58; 251; 239; 26; 122; 249; 63; 232; 85; 108; 88; 172; 27; 23; 63; 58; 78; 161; 5; 185; 116; 151; 79; 140; 104; 195; 15; 172; 169; 79; 140; 99; 149; 38; 148; 215; 151; 49; 167; 211; 241; 23; 225; 231; 197; 70; 41; 35; 170; 12; 228; 138; 136; 162; 68; 199; 60; 208; 237; 179; 4; 44; 203; 24; 219; 0; 246; 10; 208; 213; 149; 224; 245; 252; 228; 138; 29; 116; 237; 48; 158; 160; 241; 160; 170; 227; 129; 244; 179; 8].
Lemma vp_msg : pop_message (cpt (b := b1) (zmul 1 G1gen : E1)) = vp_m. Proof. vm_compute. reflexivity. Qed.
Definition vp_u0 : Fp2 := (F2z 0x7c86c9a328866c9f90a7fcf4fd2db7f0efbe85c3997d58cfe1705d79a43c31a8a224b1dfc91710c385271dea236b40b 0x7e9e3bc4c6ca57e4cfd74c3af560d2dc63efaf3e40f950cb11801d405776b04191a95bfac37828a6ad7798f30dbff2a).
Definition vp_y0 : Fp2 := (F2z 0x168100bd720336e9ad74d0c06d85a0f90ed0506533fcf8d0a92f77fad1cc73b9768633365842f660b565f7a9ad91c69 0xff1c9c87aa5c80b86fffd778c595928075a799a52e2860d5980d01c6ef21506e4b80e11e4d0ccb0bba00db26b8bcdf7).
Definition vp_si0 : Z * Z := (0xf4426ad94034b2ce5d98a16e6ceec04a388a9cd3dc0c433b3d54d20e993993c624405aceabca99f56bd535228a310a, 0x16106204ccfddcb6282c86963b4abc04695e96f9132a1b056bc03348e27e5340fe7ff65e64bf30c712d902d99179e831).
Definition vp_x10 : Z * Z := (0x14bdf6c058485b4454e5acac3d0d941635425aa04e39f96d3caaabb5e5751558eeb5f4065b923f9874f86cb0e17d5dc4, 0xac0d3720c4d1bf99981ac4d3528828a70060a69ec0094e22f98ec72f8b2af645a4b905b2f824fb44483bf8ab1844bbe).
Definition vp_w0 : Z * Z := (0xba763fcb5ce3710cbc8b7a2bb5f268e60930be1a18c0e9795d23f8fe9f6c78e2fefe9b22c3928ff6efad6905db01775, 0x2d4ad8e8fcbb2847ef202ee626852954e6ec8eb45fa38a6133fbfea786dd7e876840d14097bd21f537579cea8f54b1c).
Definition vp_gi0 : Z * Z := (0x13547442a88c07d097e675496afe1f1e3c5f42fef701b4eb028a8895ae65f43e738e08c4f8e07ede48853e292a1449c1, 0x11af019ca023ef87d5cd1abdc2e2cd189629a91a177d6c2e721053699965fd7253cbc1434e93c740b2bb43a1c0cd4d27).
Definition vp_x0 : Z * Z := (0x14bdf6c058485b4454e5acac3d0d941635425aa04e39f96d3caaabb5e5751558eeb5f4065b923f9874f86cb0e17d5dc4, 0xac0d3720c4d1bf99981ac4d3528828a70060a69ec0094e22f98ec72f8b2af645a4b905b2f824fb44483bf8ab1844bbe).
Definition vp_dx0 : Z * Z := (0x1747f38a252e19a31f6e7c35117cb00247970b606c84563e85f005da3cf2d86b2b166d135a2af1c88435c0d8141c60db, 0x150b8f5899a3cf0e2510489145cb1284ae37415c54c2c0afa3dfd1ede9ba63db9354c13e3fe20556d0c5ecd52fb50abc).
Definition vp_dy0 : Z * Z := (0x8cf6ea2196e5a5db8035d4980b30589678a005cce09ad4715742596959c9242010452a63578acc2ff7d0a3283a326fc, 0xa1459ffdc87ec79c3008d83bbe4cf9287f40ba836231f8ee4c8ccb6a6ed11dce9d0ca4f9f7fbbfd191a87ddde96a8bb).
Definition vp_X0 : Fp2 := (F2z 0x886d0c101e8518b607a5108631233fdeda3df049057a712ee5c83740d8710e5fba0c3aaa60d05f224b1b82ede99d328 0xe9361725551ef3f3c8f5a2b444a78fe2ec486a7cb56a8666e2cc187df06a6edbd724f84167e52786c8ca36f574a03a9).
Definition vp_Y0 : Fp2 := (F2z 0xa3057db88938959692703bdf0cc72a4cdc1c140bf6377115ac04d27bdca25db4f48ede054d5ae9f8dffaa4d7daef692 0xa78b03212abb82b570e686ff9c39b7384bfed90e50702411891d25bdb3b23c2c315713d7f765ebbe7d79198d0ff56d9).
Lemma vp_c0 : cert true vp_u0 vp_y0 vp_X0 vp_Y0 vp_si0 vp_x10 vp_w0 vp_gi0 vp_x0 vp_dx0 vp_dy0 = true.
Proof. vm_cast_no_check (eq_refl true). Qed.
Definition vp_u1 : Fp2 := (F2z 0x1007c6c1db78da032ebdfd372e869b6d40bd8630acbc6c1951a7038609d502658c01f450cf0391c7e7089624949f9557 0xb05b16f454d8a7358e9dc70772f8aa5b117d584fcddbeeab28e9ca3e30363eca99f0844e1c1371a1acc85467f34e935).
Definition vp_y1 : Fp2 := (F2z 0x1762db37bedefe2a4394b297cbb14015dab6887e634530b6c2e70cefd569e5b37161538ce1145183773fae026bacdccb 0x2ca4c854796b28e986759b7a327411ee00ae764c4e6287b5e309eb3f7e2cd059617e1e4626daa902782534b016c38b1).
Definition vp_si1 : Z * Z := (0x10eede413871aa6f98c5450643bad22d655ec43384c6464b4a79a75c950bba73de4214b6bb614f94c3af568b6a1951b8, 0x1574bdebc4245fa01c4564718ee6f5e20b2942035814ec0020347905d3cd539aacdaff2c07e51f492f30ee6e21c92d5f).
Definition vp_x11 : Z * Z := (0x4780c17312206942cbf8db63048308afec2df47194561318865b2c61293bba478684f7287fc5ce2d0c50c16e44eb31b, 0xf2d4c4308ca57fdcf92a7bb00fb735042f99c47343dee4dc9b8b70c1945ec5f5ed377fb4d15f875ec1cc596527eab8).
Definition vp_w1 : Z * Z := (0x9af8aad3ce0bfd3d29951992346a9ae1f906e10e19ac68429e517e17b60a3931c95fad137d0111c186ce8dcd26913fc, 0xb977a618e5086bd80254dbaa7cead29bd1b7a6a559d2a321e0a140a96218b3895eda6a8f0217d6a9cd5e3aa5d23e548).
Definition vp_gi1 : Z * Z := (0xd4bcf6893524088b1a47e4b77262f3f9358137d0ddb560f8b5bcba157941073421c5f381be11d063e96e0116bb92663, 0x14bfc9966cae30bc50b81815e93557e32a8aeaebb48057a00c6fa2e8f32c66ee4e9de9eb02561660b834b0adc6891dc8).
Definition vp_x1 : Z * Z := (0x4780c17312206942cbf8db63048308afec2df47194561318865b2c61293bba478684f7287fc5ce2d0c50c16e44eb31b, 0xf2d4c4308ca57fdcf92a7bb00fb735042f99c47343dee4dc9b8b70c1945ec5f5ed377fb4d15f875ec1cc596527eab8).
Definition vp_dx1 : Z * Z := (0x4bcf74978ef54e9fcc8c24e880b1aa1a3b71c31c6d887ddf501c7b6bb4dfe731ab621f041a5626084df6c600a93803f, 0x1caa11cfb415835d1c8b0bde8babc46eda3135b77fe39c39d5529919900a599bba675a5b2d34dcc974880d7e2477bf9).
Definition vp_dy1 : Z * Z := (0x144754333e20bcac37c9cfa123e0ea6690214fd01137b6ef7bff786c47dcc8560e11af8f460c605a4ee813b98f683c28, 0x15dbc898c6ba4faa3be32101b9a889e3c57c415be24148f8a844a7f65f93885d3c87b03023645b72b507a91656646695).
Definition vp_X1 : Fp2 := (F2z 0xd2a31897af3fad928e8a141b745fd2eb3e296d6b6a6f1d46e6288e5d077f9ea55c5199f519c4c2c59ecbbec65b10cab 0x1c64066f46a0eb5b3755feb4825c7f2f02b0b507cabf523c93afd621a08db81eab5e30ea43eefe2b36981486a9211a5).
Definition vp_Y1 : Fp2 := (F2z 0x2fd997f1c3058e0e236b503d0ef68e6e01e27b8dde336ab23db4642c8330127f2fda1368c85138623bb0468ed5c6e7f 0xd73c68e54f0f1e707c479a91588f16a9fb56022b508432afb4fedcc2bdc59ad3ce85d7b7afb760ece10571192cbcae1).
Lemma vp_c1 : cert true vp_u1 vp_y1 vp_X1 vp_Y1 vp_si1 vp_x11 vp_w1 vp_gi1 vp_x1 vp_dx1 vp_dy1 = true.
Proof. vm_cast_no_check (eq_refl true). Qed.
Definition vp_X : Fp2 := (F2z 0x8cc406493e48518d1ae5aa9db9f153a3d872c6ef607575d7c63333504b224c705114e6b045c9d908cf6b954f9045eb8 0xdefae061e8337313e428f3bf560422c50a36f8e6594f0cc02862630beeff24d87cac6c26733ab2e6fa13cff93d8ccaa).
Definition vp_Y : Fp2 := (F2z 0xb0541cfe030a9e2424173427ba81dd1ae6384775a17dbccfbc6160957b8a2f3a5e43e20be5ae88fb6f6325ed6f3dabb 0x178b31a9e7e8e1d9e62638a9f1c882c6145dd8817974cab678a7fcf36268cc97e7f389de5fe8c66d2771b8b79e6783b5).
Definition vp_b : list Z := [15; 13; 49; 129; 77; 50; 197; 155; 140; 144; 189; 24; 135; 100; 45; 108; 63; 228; 61; 26; 235; 3; 20; 229; 19; 224; 166; 11; 87; 132; 65; 166; 51; 69; 162; 150; 214; 226; 85; 249; 35; 130; 172; 195; 205; 159; 50; 241; 154; 44; 71; 62; 161; 68; 207; 0; 40; 6; 107; 47; 106; 197; 143; 141; 222; 111; 1; 86; 240; 221; 143; 14; 64; 150; 18; 146; 117; 132; 213; 27; 224; 226; 84; 227; 92; 84; 188; 234; 213; 204; 112; 173; 51; 94; 41; 192; 145; 232; 247; 0; 79; 68; 190; 136; 21; 121; 57; 208; 191; 153; 55; 190; 22; 167; 253; 73; 168; 161; 48; 169; 125; 164; 254; 215; 5; 165; 181; 167; 8; 237; 161; 100; 148; 88; 135; 115; 124; 111; 51; 153; 122; 238; 57; 151; 109; 55; 135; 4; 61; 218; 43; 233; 245; 92; 242; 13; 122; 225; 239; 121; 182; 255; 191; 157; 183; 115; 52; 175; 58; 60; 48; 14; 97; 166; 231; 100; 140; 66; 247; 240; 19; 241; 54; 205; 84; 5; 190; 176; 3; 197; 209; 179; 161; 72; 10; 16; 45; 246; 206; 4; 6; 119; 168; 75; 9; 47; 238; 154; 75; 99; 69; 42; 20; 109; 123; 93; 43; 133; 143; 15; 25; 124; 144; 44; 33; 8; 93; 222; 57; 29; 107; 147; 124; 173; 248; 197; 23; 41; 199; 120; 182; 81; 86; 237; 36; 33; 230; 74; 24; 248; 178; 136; 3; 170; 53; 88].
Lemma vp_xmd : expand_message_xmd vp_m DST_POP 256 = Some vp_b.
Proof. rewrite xmd_fast_ok. vm_cast_no_check (eq_refl (Some vp_b)). Qed.
Lemma vp_f0 : field_elt vp_b 0 = vp_u0.
Proof. apply F2_eq; apply fval_inj; [vm_cast_no_check (eq_refl 0x7c86c9a328866c9f90a7fcf4fd2db7f0efbe85c3997d58cfe1705d79a43c31a8a224b1dfc91710c385271dea236b40b)|vm_cast_no_check (eq_refl 0x7e9e3bc4c6ca57e4cfd74c3af560d2dc63efaf3e40f950cb11801d405776b04191a95bfac37828a6ad7798f30dbff2a)]. Qed.
Lemma vp_f1 : field_elt vp_b 1 = vp_u1.
Proof. apply F2_eq; apply fval_inj; [vm_cast_no_check (eq_refl 0x1007c6c1db78da032ebdfd372e869b6d40bd8630acbc6c1951a7038609d502658c01f450cf0391c7e7089624949f9557)|vm_cast_no_check (eq_refl 0xb05b16f454d8a7358e9dc70772f8aa5b117d584fcddbeeab28e9ca3e30363eca99f0844e1c1371a1acc85467f34e935)]. Qed.
Lemma vp_s1 : j_isOnCurve ops63x i4x (jaff vp_X vp_Y) = true.
Proof. vm_cast_no_check (eq_refl true). Qed.
Lemma vp_s2 : j_equal ops63x (j_scale ops63x (j_add ops63x (jaff vp_X0 vp_Y0) (jaff vp_X1 vp_Y1)) hlimbs) (jaff vp_X vp_Y) = true.
Proof. vm_cast_no_check (eq_refl true). Qed.
Lemma vp_hash : exists H : E2, hash_to_curve vp_m DST_POP H /\ cpt (b := b2) H = Aff (K := KFp2) vp_X vp_Y.
Proof.
  apply (vector_ok vp_m DST_POP vp_b vp_u0 vp_u1 vp_X0 vp_Y0 vp_X1 vp_Y1 vp_X vp_Y).
  - exact vp_xmd.
  - exact vp_f0.
  - exact vp_f1.
  - exact (cert_ok _ _ _ _ _ _ _ _ _ _ _ _ vp_c0).
  - exact (cert_ok _ _ _ _ _ _ _ _ _ _ _ _ vp_c1).
  - exact vp_s1.
  - exact vp_s2.
Qed.
