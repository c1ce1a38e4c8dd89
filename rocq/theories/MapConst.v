(** The constants of g.cpp decode to those of the specification. *)
From Coq Require Import ZArith List Bool Lia Ring Field.
From Verif Require Import SpecField FieldProof TowerProof TowerProof2 ModelWord ModelPrim ModelFp ModelTower FpProof TowerRefine ModelCurve SpecCurve CurveProof CurveRefine CurveInst ModelMap SpecMap MapProof MapComp.
Import ListNotations.
Local Open Scope Z_scope.
Add Field Fp_fieldMC : F_field.

Definition dchk (c : Z) (v : Fp) (q : Z) : bool := (0 <=? c) && (c <? MODULUS) && (c =? fval v * R384 + q * modulus).
Lemma dchk_ok c v q : dchk c v q = true -> R KFp canon dec c v.
Proof.
  unfold dchk. intros H. apply andb_prop in H. destruct H as [H E]. apply andb_prop in H. destruct H as [H1 H2]. apply Z.leb_le in H1. apply Z.ltb_lt in H2. apply Z.eqb_eq in E.
  split; [split; assumption|]. change (@eq Fp (dec c) v). unfold dec. rewrite Fof_mul, (Fof_hint _ _ _ E), Fof_mul.
  assert (RR : Fmul (Fof R384) (Fof RINV) = F1) by (rewrite <- Fof_mul; apply fval_inj; vm_compute; reflexivity).
  transitivity (Fmul (Fof (fval v)) (Fmul (Fof R384) (Fof RINV))); [ring|]. rewrite RR. transitivity (Fof (fval v)); [ring|]. apply fval_inj. rewrite fval_Fof. apply Z.mod_small, fval_range.
Qed.
Fixpoint dchks (ls : list Z) (vs : list Fp) (qs : list Z) : bool :=
  match ls, vs, qs with [], [], [] => true | l :: ls, v :: vs, q :: qs => dchk l v q && dchks ls vs qs | _, _, _ => false end.
Lemma dchks_ok : forall ls vs qs, dchks ls vs qs = true -> Forall2 (R KFp canon dec) ls vs.
Proof.
  induction ls as [|l ls IH]; intros [|v vs] [|q qs] H; try discriminate H; [constructor|]. cbn [dchks] in H. apply andb_prop in H. destruct H as [H1 H2].
  constructor; [exact (dchk_ok _ _ _ H1)|exact (IH _ _ H2)].
Qed.
Definition dchk2 (l : fp2) (v : Fp2) (q : Z * Z) : bool := dchk (c0 l) (re v) (fst q) && dchk (c1 l) (im v) (snd q).
Lemma dchk2_ok l v q : dchk2 l v q = true -> R KFp2 canon2 dec2 l v.
Proof.
  unfold dchk2. intros H. apply andb_prop in H. destruct H as [H1 H2]. apply dchk_ok in H1, H2. destruct H1 as [C1 D1], H2 as [C2 D2].
  split; [split; assumption|]. unfold dec2. rewrite D1, D2. destruct v. reflexivity.
Qed.
Fixpoint dchks2 (ls : list fp2) (vs : list Fp2) (qs : list (Z * Z)) : bool :=
  match ls, vs, qs with [], [], [] => true | l :: ls, v :: vs, q :: qs => dchk2 l v q && dchks2 ls vs qs | _, _, _ => false end.
Lemma dchks2_ok : forall ls vs qs, dchks2 ls vs qs = true -> Forall2 (R KFp2 canon2 dec2) ls vs.
Proof.
  induction ls as [|l ls IH]; intros [|v vs] [|q qs] H; try discriminate H; [constructor|]. cbn [dchks2] in H. apply andb_prop in H. destruct H as [H1 H2].
  constructor; [exact (dchk2_ok _ _ _ H1)|exact (IH _ _ H2)].
Qed.
Lemma iso1_0_R : Forall2 (R KFp canon dec) iso1_0 (xn1 ++ [F0; F0; F0; F0]).
Proof. apply (dchks_ok _ _ [(-0xad865d8a7fab3843caf6ce6ae5b1f68486fcdbccb82de57460fc9c979b6dee215c88991c6d5687e2198a94d0b9abc6ac); (-0xe4037e9943744d398aa67d2f2670c8f8be501f5cb33afde2fe0f30aff942d78febb9766b02f1d092c8a32122b0cbc75f); (-0x8335b0fa46be04bacb0b2d4b6ae0d505f6421c8eb47ba41898beba7d81e126188de45b22e276d6c9d1e3ec4df4fccd1f); (-0xe71312243c401a83ee3a60e41acd94d25a7f9a84c16dd0785facdbd2929cec179e21fa7e76bb85b3a0aad3de37578a3d); (-0x8fb99011cf6dc6b0c2c1d5f687afa090397bfebb8fcf4fab1b980134a2217f992c5c76cb423c1817f61f2e57943b1831); (-0xda74ab56452aca8483362833d9e44c090d93e4c43687d84be8496601ecf66d2eff231f18c323dcb2f387f38faf388bdb); (-0x843de0db435994067cba137d9c3991fd44746fd223e240b4e321f346623293cdc3cb3d6f0e18f8a702b5a9ec7c487609); (-0xe981688d66cf01cd1390dcc46613c5e4631ebc6962adf6f496879a614eebd1a1ef35635eb9c9d3cb286a081ed8fa060e); (-0x4f44014e16a0fe50cfa310186c0caa8867008a5835613de154b5aa0560cabe386302b1ab6c172ff1be74b42e855defdf); (-0xde8bbf5d3162fb325a5df4c4fe960bde277259f8598dbb53c643d1c0c7363bfe8e47650bebd09cf5c61323036d0aaceb); (-0x9f70bb5c5a0f0b781466a573646f76fe9ecda9eb2c3014f5a994d9f61293c682a4161c9cbdda98c0fe93e4a4091f82ab); (-0x43b3d5af9a723f789854a0cb1b810ecf56be69c8fde26152832c6e043b3d5af9a723f789854a0cb1b810ecf56be69c8f); 0x0; 0x0; 0x0; 0x0]). vm_compute. reflexivity. Qed.
Lemma iso1_1_R : Forall2 (R KFp canon dec) iso1_1 (xd1 ++ [F0; F0; F0; F0; F0]).
Proof. apply (dchks_ok _ _ [(-0x568bb86615aab08d74625d0e11c3702b8f3878a6cc090e20e716f4bf26344a6db6b5b8f3fbc03f297c2139b61b1e1431); (-0xb4836e7c1208784960d366ba552d2f0bf4275d5df037677087c8adea57853580a1af2a9fc0f1316dbc95fcadcb60ba75); (-0x6de1bf3bc1bf7be253259f89ff80d609b73e50e5f66f11a303638756bb052df05f7feffac6abc94adccc23396b2c390c); (-0x2015a91f6e1cd410a9a9ca82981e5229023428fbc91bd01e25e4c27412dee000823301570e9b84ba3177439da7d22f3d); (-0xc18a8cc6b075e6d6bb5edf508fdc99918efc78e973f269c2200532849c81cd92fc691daa7997ed0091517e22af2def8f); (-0x8e42601339510f643f55e530685fcc56dd48007f590cda6581b31e90de19489cbc5e74ed2beb3f5e2626bafb4d63b4a0); (-0x49538bfda05dfbe32dc0cc023c20affa3ae10ec573c45d9a75dc83ca441696a24ea2279198bb4cd247a2ea084c3c4153); (-0xcb56de7f590f36510086bdafbd5e061b97b47a8cc07001323b3a7994720c723f3cb1b00a24bdffb8fbf622593bb6a51b); (-0x6318ba68c4e43882b5bdf70d036a411c15d841b1a87fecae5dff28658b54bb974c5eac273d8ea55b2873e904e6cfbb09); (-0x5c488ea6911c6bc1a484338a78af3e590f355027e2b9e81d275b054ec7d8d3bf8e738615bc52333853e711884fe4c2eb); (-0x9); 0x0; 0x0; 0x0; 0x0; 0x0]). vm_compute. reflexivity. Qed.
Lemma iso1_2_R : Forall2 (R KFp canon dec) iso1_2 (yn1).
Proof. apply (dchks_ok _ _ [(-0x591fb560021918753e3959af5bc8de63aff1dff5e1f54c82f27bcf7bda7028ba61085f81921d97c57fc281650140a8cb); (-0xbde070e1f3b4d9e09ca93d43f3be624b52189f7bf2c22f83ebd982f98cc58d3438250ccfe17b53a8c9df345d347c2443); (-0x7dcec6143052e6c86569d75a0ef8eedeb8797801b28b42ad7e01df49779255a87fd896b4466343636eed6849e3b1d52); (-0x13657d26bb28982c8b3baaf5543f4b195c7792933842622bffb6818ee1e49808e0da3e708c393fa29c638efe87bfc6cf); (-0x569a20c840d794cb8fb05a80a92b6fee83bf9f7afb72f1ddc6301c3b49a2a41c4f36c1a3f2b642f5f4f2e54c0da40c43); (-0xdc48284c6243c10e6ebedb35be911484b160414ad47841ce8671d7e77b0fcac5bf94640df4280b1c062a77829615c969); (-0x2df4b587ed253503bd4603932129ca348f1ef65c79d3e19d6b58faac136f1e4e3c8d728daa720877e0459505ed187410); (-0x5dd2a1e9baae418c50b0ce49d28deba3d7ae0cb83fd568adb006ec1734739e2354fef1e20b61a04c6706f0ecb1459894); (-0x624d30673e60254c765dc6569d671270d6ad6fb75b32ee82daee28e03b8c1796a95bcbfa638ae67eb61e7b4ef7dbe204); (-0x8ae3eaff665cf222ad0d5a32c7a3def2285549b58c249d958a5ac740031535f21877aa1563c69a9967fc5969957a49b2); (-0xfa781679989106e1262e00128b0bb45075e9f851b234a8335e1665a882852a14392c6fa69b431e4490a7b35addba7b8e); (-0xf3352ab4981d7c360ef3aff1c2a41526c65c8737f5243b6eb7b52abda3940cc84a6ed20c1e0290bafb80e46c231c45bb); (-0x6d384ce363a476bcbef96ab76f949bf1bb3805a640d13a26c7bf670adb1dee8217564443a414a37c2f69e8cdf5ce0ba0); (-0x165dfc89b00a13e1c5b067ab05fd1b6460b05695543c4002f58ab0709700b6a37de37e0e128866d86245401e833e2dc1); (-0x38a6a52f80a4f5ed7725451b5f2678f42ced7fe5e31dd4500b7d0673028883cbff1a49b8486f436022b7138abb6d062e); (-0xd79bfc273c9605c5251ef75848518cfb9385ac86a2b77d360becc42eee1cd9b99ad4b96997c0e9e19c5ea12d95720e3b)]). vm_compute. reflexivity. Qed.
Lemma iso1_3_R : Forall2 (R KFp canon dec) iso1_3 (yd1).
Proof. apply (dchks_ok _ _ [(-0xd93dafcba70489e188e65b3a30ace455070c4a4e16dc02c28958bf644eb98cf4c356d463818f049fd7e40624a6fc7eac); (-0xf9ea4e54d558e5040349f6b8db48bbcbb309749c5b52439da4089baf24bb918d8712cd464d99bfd3bd6e1d7fd26dd20f); (-0x36ae7cdb833fa69e04e4bed6b15d238b0a956be3da5be9c9583f72db8a0ea3c56eb9300cb9eaba585058ee9211dbef2c); (-0xdfa64736702b83efffb79652a7bbdb27ec6e85396bd6614d4f1dc83003ad5fcaa75dda33ad6cec111d15783f630d156e); (-0x74f0210297bf6155d6e48d1df63912dbfdffd45c23399c95f3f4e4ec4e8a48c712baf4a6262b11645a9d98ea4c7633ae); (-0x5722c43792ff9f6e30cc6386dcb8dfd251821f3ce9c9ca477400fcabf38e5862846b7d4654c3c55face1f756dc26a848); (-0xdc4600a1049ce07a739596f078c53ce6bc4eab9b553d22c4e1eae5b4417ec1ded4eff5d87f24578a238fdb58111a3024); (-0xdee27b969751db113d57602f67641be77b6967047631326a39776810bee22bcf82f9a62a1499ce78af1f6d20404b52ef); (-0xf038eb421932cd2cbee5513a0f7f4a7c030e3c5809e65eeadb25680dfa8015066f7fe56ca7f4cb87b90eb3f9bfb28511); (-0xdd48f679ea5bc85376c61ae9ed76a865c9829b77f27947a144768059bd20e34143958664c0dfaa26ffbbbe151d91fb76); (-0x2f7d854b14a1e636841078eaf14ae6a87a77b03142f1c1f8afa313c9fda180bd0722b5467c34b7e223ac3d04debc70b5); (-0x6a519a09b4f1f4d45d713b3c580ce227d1bc8944c9bc31a5db617a7af98e7d4633aa1322eb794e69846f92c66e05e2af); (-0x6ab3f79b1d03b77f125a4f2d119c48239ee5542f3c3d3f48179a127da339743a8e1ecf089272f1587f2814d64713bce2); (-0x179cb881d749e120d4d5b83f7476c5c744066f15a0be6d4cf8225519b60333c1792879a5933a41d664a4023dff83e38a); (-0x8a6cd5f9d9aaa1a276c64d4fb506dd8596cff83bd416dc2bbb0887f62bc53d9f55ad49209a7b4cd47dda9a4c77d72461); (-0x9)]). vm_compute. reflexivity. Qed.
Lemma iso2_0_R : Forall2 (R KFp2 canon2 dec2) iso2_0 (xn2).
Proof. apply (dchks2_ok _ _ [((-0x38e38e38e38e38e38e38e38e38e38e38e38e38e38e38e38e38e38e38e38e38e38e38e38e38e38e38e38e38e38e38e4da), (-0x38e38e38e38e38e38e38e38e38e38e38e38e38e38e38e38e38e38e38e38e38e38e38e38e38e38e38e38e38e38e38e4da)); (0x0, (-0xaaaaaaaaaaaaaaaaaaaaaaaaaaaaaaaaaaaaaaaaaaaaaaaaaaaaaaaaaaaaaaaaaaaaaaaaaaaaaaaaaaaaaaaaaaaaaa90)); ((-0xaaaaaaaaaaaaaaaaaaaaaaaaaaaaaaaaaaaaaaaaaaaaaaaaaaaaaaaaaaaaaaaaaaaaaaaaaaaaaaaaaaaaaaaaaaaaaab7), (-0x555555555555555555555555555555555555555555555555555555555555555555555555555555555555555555555548)); ((-0xe38e38e38e38e38e38e38e38e38e38e38e38e38e38e38e38e38e38e38e38e38e38e38e38e38e38e38e38e38e38e38e39), 0x0)]). vm_compute. reflexivity. Qed.
Lemma iso2_1_R : Forall2 (R KFp2 canon2 dec2) (firstn 3 iso2_1) (xd2).
Proof. apply (dchks2_ok _ _ [(0x0, (-0xfffffffffffffffffffffffffffffffffffffffffffffffffffffffffffffffffffffffffffffffffffffffffffffd3b)); ((-0x76), (-0xffffffffffffffffffffffffffffffffffffffffffffffffffffffffffffffffffffffffffffffffffffffffffffff89)); ((-0x9), 0x0)]). vm_compute. reflexivity. Qed.
Lemma iso2_2_R : Forall2 (R KFp2 canon2 dec2) iso2_2 (yn2).
Proof. apply (dchks2_ok _ _ [((-0xd097b425ed097b425ed097b425ed097b425ed097b425ed097b425ed097b425ed097b425ed097b425ed097b425ed098c6), (-0xd097b425ed097b425ed097b425ed097b425ed097b425ed097b425ed097b425ed097b425ed097b425ed097b425ed098c6)); (0x0, (-0x38e38e38e38e38e38e38e38e38e38e38e38e38e38e38e38e38e38e38e38e38e38e38e38e38e38e38e38e38e38e38e3ee)); ((-0xaaaaaaaaaaaaaaaaaaaaaaaaaaaaaaaaaaaaaaaaaaaaaaaaaaaaaaaaaaaaaaaaaaaaaaaaaaaaaaaaaaaaaaaaaaaaaaa4), (-0x55555555555555555555555555555555555555555555555555555555555555555555555555555555555555555555555b)); ((-0xb425ed097b425ed097b425ed097b425ed097b425ed097b425ed097b425ed097b425ed097b425ed097b425ed097b425ec), 0x0)]). vm_compute. reflexivity. Qed.
Lemma iso2_3_R : Forall2 (R KFp2 canon2 dec2) iso2_3 (yd2).
Proof. apply (dchks2_ok _ _ [((-0xffffffffffffffffffffffffffffffffffffffffffffffffffffffffffffffffffffffffffffffffffffffffffffef63), (-0xffffffffffffffffffffffffffffffffffffffffffffffffffffffffffffffffffffffffffffffffffffffffffffef63)); (0x0, (-0xfffffffffffffffffffffffffffffffffffffffffffffffffffffffffffffffffffffffffffffffffffffffffffff7b1)); ((-0xb1), (-0xffffffffffffffffffffffffffffffffffffffffffffffffffffffffffffffffffffffffffffffffffffffffffffff4e)); ((-0x9), 0x0)]). vm_compute. reflexivity. Qed.
Lemma sw_z1_R : R KFp canon dec (sw_z swuParamsForG1) Z1.
Proof. apply (dchk_ok _ _ (-0x6c)). vm_compute. reflexivity. Qed.
Lemma sw_zInv1_R : R KFp canon dec (sw_zInv swuParamsForG1) zi1.
Proof. apply (dchk_ok _ _ (-0x1745d1745d1745d1745d1745d1745d1745d1745d1745d1745d1745d1745d1745d1745d1745d1745d1745d1745d1745d0)). vm_compute. reflexivity. Qed.
Lemma sw_a1_R : R KFp canon dec (sw_a swuParamsForG1) A1'.
Proof. apply (dchk_ok _ _ (-0xc79b31de768b720355a24c9786c676cc05577359741593b84aea9b12841ea1c0e070681839b60d50f63200302c010d)). vm_compute. reflexivity. Qed.
Lemma sw_b1_R : R KFp canon dec (sw_b swuParamsForG1) B1'.
Proof. apply (dchk_ok _ _ (-0xb9ea3764674c6ed63fa555592e6abcea4630432d40e38eb2e50e08793b14db7e51405d47dd745d30fff5e3a21ff81a60)). vm_compute. reflexivity. Qed.
Lemma sw_mBA1_R : R KFp canon dec (sw_mBA swuParamsForG1) m1.
Proof. apply (dchk_ok _ _ (-0x4a91717b413ee2a0f3ef5bcea38472da5c6d8267d018de935bac607ec87be24aff90c9e816e57468d14adca968050806)). vm_compute. reflexivity. Qed.
Lemma sw_z2_R : R KFp2 canon2 dec2 (sw_z swuParamsForG2) Z2.
Proof. apply (dchk2_ok _ _ ((-0xffffffffffffffffffffffffffffffffffffffffffffffffffffffffffffffffffffffffffffffffffffffffffffffec), (-0xfffffffffffffffffffffffffffffffffffffffffffffffffffffffffffffffffffffffffffffffffffffffffffffff6))). vm_compute. reflexivity. Qed.
Lemma sw_zInv2_R : R KFp2 canon2 dec2 (sw_zInv swuParamsForG2) zi2.
Proof. apply (dchk2_ok _ _ ((-0xccccccccccccccccccccccccccccccccccccccccccccccccccccccccccccccccccccccccccccccccccccccccccccccd0), (-0x999999999999999999999999999999999999999999999999999999999999999999999999999999999999999999999997))). vm_compute. reflexivity. Qed.
Lemma sw_a2_R : R KFp2 canon2 dec2 (sw_a swuParamsForG2) A2'.
Proof. apply (dchk2_ok _ _ (0x0, (-0x93a))). vm_compute. reflexivity. Qed.
Lemma sw_b2_R : R KFp2 canon2 dec2 (sw_b swuParamsForG2) B2'.
Proof. apply (dchk2_ok _ _ ((-0x26ea), (-0x26ea))). vm_compute. reflexivity. Qed.
Lemma sw_mBA2_R : R KFp2 canon2 dec2 (sw_mBA swuParamsForG2) m2.
Proof. apply (dchk2_ok _ _ ((-0x5111111111111111111111111111111111111111111111111111111111111111111111111111111111111111111110e7), (-0xaeeeeeeeeeeeeeeeeeeeeeeeeeeeeeeeeeeeeeeeeeeeeeeeeeeeeeeeeeeeeeeeeeeeeeeeeeeeeeeeeeeeeeeeeeeeef18))). vm_compute. reflexivity. Qed.
