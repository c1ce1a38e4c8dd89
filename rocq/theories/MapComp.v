(** Constants of the maps to the curves in the int63 representation of the fields, and the computations about them. *)
From Coq Require Import ZArith List Bool Lia Uint63 Ring Field.
From Verif Require Import SpecField FieldProof TowerProof TowerProof2 ModelCurve SpecCurve CurveProof CurveRefine CurveInst ModelFp FpProof I63 I63b Orders ModelMap SpecMap MapProof.
Import ListNotations.
Local Open Scope Z_scope.

Notation R1 := (R KFp ok63 d63). Notation R2 := (R KFp2 ok63x d63x).
Notation RL1 := (Forall2 R1). Notation RL2 := (Forall2 R2).
Definition lchk (l : list int) (v : Fp) (q : Z) : bool := okb63 l && (zl l =? fval v * 2 ^ 392 + q * modulus).
Lemma lchk_ok l v q : lchk l v q = true -> R1 l v.
Proof.
  unfold lchk. intros H. apply andb_prop in H. destruct H as [H E]. apply Z.eqb_eq in E. destruct (d63_int _ _ _ H E) as [C D]. split; [exact C|]. rewrite D. apply fval_inj. rewrite fval_Fof.
  apply Z.mod_small. apply fval_range.
Qed.
Fixpoint lchks (ls : list (list int)) (vs : list Fp) (qs : list Z) : bool :=
  match ls, vs, qs with [], [], [] => true | l :: ls, v :: vs, q :: qs => lchk l v q && lchks ls vs qs | _, _, _ => false end.
Lemma lchks_ok : forall ls vs qs, lchks ls vs qs = true -> RL1 ls vs.
Proof.
  induction ls as [|l ls IH]; intros [|v vs] [|q qs] H; try discriminate H; [constructor|]. cbn [lchks] in H. apply andb_prop in H. destruct H as [H1 H2].
  constructor; [exact (lchk_ok _ _ _ H1)|exact (IH _ _ H2)].
Qed.
Definition lchk2 (l : t2) (v : Fp2) (q : Z * Z) : bool := lchk (fst l) (re v) (fst q) && lchk (snd l) (im v) (snd q).
Lemma lchk2_ok l v q : lchk2 l v q = true -> R2 l v.
Proof.
  unfold lchk2. intros H. apply andb_prop in H. destruct H as [H1 H2]. apply lchk_ok in H1, H2. destruct H1 as [C1 D1], H2 as [C2 D2].
  split; [split; assumption|]. unfold d63x. rewrite D1, D2. destruct v. reflexivity.
Qed.
Fixpoint lchks2 (ls : list t2) (vs : list Fp2) (qs : list (Z * Z)) : bool :=
  match ls, vs, qs with [], [], [] => true | l :: ls, v :: vs, q :: qs => lchk2 l v q && lchks2 ls vs qs | _, _, _ => false end.
Lemma lchks2_ok : forall ls vs qs, lchks2 ls vs qs = true -> RL2 ls vs.
Proof.
  induction ls as [|l ls IH]; intros [|v vs] [|q qs] H; try discriminate H; [constructor|]. cbn [lchks2] in H. apply andb_prop in H. destruct H as [H1 H2].
  constructor; [exact (lchk2_ok _ _ _ H1)|exact (IH _ _ H2)].
Qed.
(** * G1 *)
Definition i_xn1 : list (list int) :=
  [[3196557; 16726768; 244082031; 159417738; 193679445; 84654401; 71863479; 90634235; 259060666; 185848862; 193241690; 210949099; 94118727; 38382]%uint63;
   [198478569; 212043213; 44735591; 64102620; 41956744; 153417486; 247969998; 204757495; 63423351; 30300034; 163230186; 139966267; 24643595; 29471]%uint63;
   [192847933; 169059456; 80132408; 201876807; 112177757; 109577207; 120980257; 153086188; 244135783; 113442554; 110986233; 103678011; 51182300; 105584]%uint63;
   [123136891; 184715023; 69300328; 50825572; 259946961; 179398443; 206639569; 243695219; 257669350; 13617975; 180967609; 28532326; 1303209; 54195]%uint63;
   [124623413; 226803050; 226863988; 145492205; 13318896; 190500466; 151062916; 166806552; 183534523; 216078131; 256313962; 156893627; 63867317; 96878]%uint63;
   [108552537; 143535939; 62763228; 163455351; 219409808; 13027730; 108039119; 117857950; 74024634; 230903982; 96903150; 125854827; 109784865; 72602]%uint63;
   [6967833; 173839668; 199841092; 111433438; 200316003; 99855381; 138643537; 214699229; 117715937; 51787885; 181782494; 255757280; 211058298; 87009]%uint63;
   [113572665; 72650992; 159486259; 177140993; 109562232; 66726437; 93780581; 181265080; 165892576; 235464164; 105045131; 158862084; 120654424; 86136]%uint63;
   [97542197; 174827405; 7733496; 162127481; 13940622; 244556519; 40845351; 211921679; 72490050; 86447184; 38854614; 79229714; 64689711; 49953]%uint63;
   [93325025; 33913855; 213002068; 183388904; 32172344; 60905538; 165281507; 40216581; 83879938; 205190325; 91363978; 183463848; 96970732; 106119]%uint63;
   [154868804; 156755933; 58062056; 222848230; 262681415; 102098281; 213513233; 267866563; 127292989; 137052744; 173373796; 72298755; 137064327; 31354]%uint63;
   [231155034; 29689432; 198554888; 264104804; 157663481; 14882345; 165523303; 230941487; 145404027; 55360148; 220237715; 100492525; 100984201; 104057]%uint63].
Lemma i_xn1_R : RL1 i_xn1 xn1.
Proof. apply (lchks_ok _ _ [(-0xad865d8a7fab3843caf6ce6ae5b1f68486fcdbccb82de57460fc9c979b6dee215c88991c6d5687e2198a94d0b9abc6ac59); (-0xe4037e9943744d398aa67d2f2670c8f8be501f5cb33afde2fe0f30aff942d78febb9766b02f1d092c8a32122b0cbc75f45); (-0x8335b0fa46be04bacb0b2d4b6ae0d505f6421c8eb47ba41898beba7d81e126188de45b22e276d6c9d1e3ec4df4fccd1f49); (-0xe71312243c401a83ee3a60e41acd94d25a7f9a84c16dd0785facdbd2929cec179e21fa7e76bb85b3a0aad3de37578a3d8f); (-0x8fb99011cf6dc6b0c2c1d5f687afa090397bfebb8fcf4fab1b980134a2217f992c5c76cb423c1817f61f2e57943b183161); (-0xda74ab56452aca8483362833d9e44c090d93e4c43687d84be8496601ecf66d2eff231f18c323dcb2f387f38faf388bdbf5); (-0x843de0db435994067cba137d9c3991fd44746fd223e240b4e321f346623293cdc3cb3d6f0e18f8a702b5a9ec7c487609b5); (-0xe981688d66cf01cd1390dcc46613c5e4631ebc6962adf6f496879a614eebd1a1ef35635eb9c9d3cb286a081ed8fa060e55); (-0x4f44014e16a0fe50cfa310186c0caa8867008a5835613de154b5aa0560cabe386302b1ab6c172ff1be74b42e855defdf61); (-0xde8bbf5d3162fb325a5df4c4fe960bde277259f8598dbb53c643d1c0c7363bfe8e47650bebd09cf5c61323036d0aaceb5d); (-0x9f70bb5c5a0f0b781466a573646f76fe9ecda9eb2c3014f5a994d9f61293c682a4161c9cbdda98c0fe93e4a4091f82ab34); (-0x43b3d5af9a723f789854a0cb1b810ecf56be69c8fde26152832c6e043b3d5af9a723f789854a0cb1b810ecf56be69c8ff2)]). vm_compute. reflexivity. Qed.
Definition i_xd1 : list (list int) :=
  [[16620113; 181895131; 262192368; 16780684; 80812728; 19201164; 152034266; 47518896; 95725008; 193264706; 54847470; 178021293; 61784466; 80328]%uint63;
   [115114896; 245611088; 124401927; 11521965; 71907850; 245623361; 183109854; 91327350; 143819460; 128195616; 204036068; 199974088; 230394361; 78563]%uint63;
   [2008697; 91907146; 267436356; 215573524; 256135480; 226114591; 13317477; 259551547; 37237456; 96965688; 110743584; 179509235; 252874162; 29212]%uint63;
   [153829573; 131143719; 16520112; 151087471; 31150646; 84205426; 58352611; 191630999; 45129647; 43398515; 156219322; 162980837; 33703381; 31042]%uint63;
   [189146474; 41608876; 136285580; 53800423; 28640919; 24636412; 264672841; 193536222; 127870385; 19626283; 188149785; 88633817; 7234515; 18125]%uint63;
   [70197226; 209857745; 95751581; 69816627; 16409612; 176547259; 55610587; 119467723; 42761905; 118459025; 48749095; 125729035; 259178946; 98200]%uint63;
   [40384898; 251729179; 28571003; 106835281; 201067308; 221470070; 231142023; 77971282; 265266331; 63058840; 94404423; 34477703; 144199026; 45006]%uint63;
   [118901768; 252135303; 15771820; 13799862; 57081253; 228328993; 151794424; 212951649; 4613535; 242746731; 47951320; 40797613; 191232184; 1812]%uint63;
   [54415918; 122960321; 128400424; 61930322; 217268700; 51643328; 241661203; 88995720; 128830379; 73698983; 248176317; 244961858; 147763398; 80615]%uint63;
   [217843395; 213686202; 113298304; 121277672; 261098351; 4049916; 147369835; 120753288; 163541024; 115883285; 175666510; 16557676; 159505011; 65936]%uint63;
   [55049400; 226492416; 176409; 13493970; 208802528; 138027152; 3630751; 228652862; 162569026; 19495856; 85318031; 1231484; 106560762; 22394]%uint63].
Lemma i_xd1_R : RL1 i_xd1 xd1.
Proof. apply (lchks_ok _ _ [(-0x568bb86615aab08d74625d0e11c3702b8f3878a6cc090e20e716f4bf26344a6db6b5b8f3fbc03f297c2139b61b1e14310d); (-0xb4836e7c1208784960d366ba552d2f0bf4275d5df037677087c8adea57853580a1af2a9fc0f1316dbc95fcadcb60ba7550); (-0x6de1bf3bc1bf7be253259f89ff80d609b73e50e5f66f11a303638756bb052df05f7feffac6abc94adccc23396b2c390c95); (-0x2015a91f6e1cd410a9a9ca82981e5229023428fbc91bd01e25e4c27412dee000823301570e9b84ba3177439da7d22f3db1); (-0xc18a8cc6b075e6d6bb5edf508fdc99918efc78e973f269c2200532849c81cd92fc691daa7997ed0091517e22af2def8fc2); (-0x8e42601339510f643f55e530685fcc56dd48007f590cda6581b31e90de19489cbc5e74ed2beb3f5e2626bafb4d63b4a042); (-0x49538bfda05dfbe32dc0cc023c20affa3ae10ec573c45d9a75dc83ca441696a24ea2279198bb4cd247a2ea084c3c41537a); (-0xcb56de7f590f36510086bdafbd5e061b97b47a8cc07001323b3a7994720c723f3cb1b00a24bdffb8fbf622593bb6a51be8); (-0x6318ba68c4e43882b5bdf70d036a411c15d841b1a87fecae5dff28658b54bb974c5eac273d8ea55b2873e904e6cfbb0976); (-0x5c488ea6911c6bc1a484338a78af3e590f355027e2b9e81d275b054ec7d8d3bf8e738615bc52333853e711884fe4c2ebb7); (-0x9d8)]). vm_compute. reflexivity. Qed.
Definition i_yn1 : list (list int) :=
  [[60647125; 998952; 57101981; 92676053; 183097586; 243721334; 184743366; 191649493; 25558028; 4699177; 153332352; 231463458; 231551119; 88019]%uint63;
   [40604723; 197524052; 209237484; 214757826; 41297951; 214262488; 191609804; 51114965; 70832007; 103913143; 103563370; 148226736; 75833039; 95226]%uint63;
   [221744916; 6890149; 243091826; 239527452; 160301699; 74934465; 67387705; 75950436; 90655773; 49844593; 183215110; 125183225; 204978492; 58275]%uint63;
   [266604591; 118053882; 185039818; 175065781; 183426069; 175524045; 237559830; 26893939; 592448; 47525596; 49180638; 201734290; 140883757; 34093]%uint63;
   [173839434; 139231224; 117269079; 238679002; 258291828; 54481524; 3847893; 26807840; 128751853; 21613864; 33979304; 248409874; 189364363; 73677]%uint63;
   [197341775; 30609681; 226667107; 257896116; 83035132; 102583050; 84213031; 46154812; 166066762; 255015647; 26191645; 124107905; 109790105; 64688]%uint63;
   [133364369; 201002362; 102333107; 136216335; 84222577; 102057019; 15940749; 95957203; 183612793; 230679495; 78255664; 204806068; 105813093; 101516]%uint63;
   [82868530; 267857788; 143765724; 152047816; 172071770; 203989180; 78581575; 33662148; 71520045; 259864398; 235866886; 266411537; 149592676; 68515]%uint63;
   [228763922; 255345888; 171165776; 172333046; 240126873; 64666818; 99350563; 134429555; 11603137; 166551636; 56107219; 165584048; 261685127; 97344]%uint63;
   [48372144; 183174081; 169314252; 263470728; 201316789; 987218; 160942407; 3066674; 253895798; 245729126; 69880869; 162376047; 120367602; 7113]%uint63;
   [23690008; 118270111; 206518298; 17409108; 34310262; 192064660; 137962998; 66306621; 10327545; 153633859; 214478561; 40718866; 56178037; 94670]%uint63;
   [172321870; 223936696; 163887970; 247690572; 233060783; 21918092; 204056823; 47094538; 160489559; 220948661; 126388609; 221209102; 234186611; 22656]%uint63;
   [103227349; 50331764; 217438045; 165442743; 173728146; 94285220; 158770164; 243980240; 91349526; 160409466; 247416749; 166475488; 194374065; 77591]%uint63;
   [106195527; 158028685; 104505035; 27055430; 207487810; 83761508; 152141961; 16445590; 64784304; 37694584; 239120293; 148404950; 225978435; 45756]%uint63;
   [8908918; 45397732; 227546537; 164604175; 256309983; 63096374; 257304422; 117179841; 93410756; 145156870; 106949146; 12376536; 176792606; 43007]%uint63;
   [143016309; 75241433; 36352817; 24006120; 104301095; 206372947; 130690819; 159086298; 109705800; 55528932; 144456504; 187414476; 224850851; 77240]%uint63].
Lemma i_yn1_R : RL1 i_yn1 yn1.
Proof. apply (lchks_ok _ _ [(-0x591fb560021918753e3959af5bc8de63aff1dff5e1f54c82f27bcf7bda7028ba61085f81921d97c57fc281650140a8cb81); (-0xbde070e1f3b4d9e09ca93d43f3be624b52189f7bf2c22f83ebd982f98cc58d3438250ccfe17b53a8c9df345d347c244367); (-0x7dcec6143052e6c86569d75a0ef8eedeb8797801b28b42ad7e01df49779255a87fd896b4466343636eed6849e3b1d52c4); (-0x13657d26bb28982c8b3baaf5543f4b195c7792933842622bffb6818ee1e49808e0da3e708c393fa29c638efe87bfc6cf73); (-0x569a20c840d794cb8fb05a80a92b6fee83bf9f7afb72f1ddc6301c3b49a2a41c4f36c1a3f2b642f5f4f2e54c0da40c4322); (-0xdc48284c6243c10e6ebedb35be911484b160414ad47841ce8671d7e77b0fcac5bf94640df4280b1c062a77829615c96913); (-0x2df4b587ed253503bd4603932129ca348f1ef65c79d3e19d6b58faac136f1e4e3c8d728daa720877e0459505ed1874104d); (-0x5dd2a1e9baae418c50b0ce49d28deba3d7ae0cb83fd568adb006ec1734739e2354fef1e20b61a04c6706f0ecb14598946a); (-0x624d30673e60254c765dc6569d671270d6ad6fb75b32ee82daee28e03b8c1796a95bcbfa638ae67eb61e7b4ef7dbe204ca); (-0x8ae3eaff665cf222ad0d5a32c7a3def2285549b58c249d958a5ac740031535f21877aa1563c69a9967fc5969957a49b2f0); (-0xfa781679989106e1262e00128b0bb45075e9f851b234a8335e1665a882852a14392c6fa69b431e4490a7b35addba7b8eb8); (-0xf3352ab4981d7c360ef3aff1c2a41526c65c8737f5243b6eb7b52abda3940cc84a6ed20c1e0290bafb80e46c231c45bb16); (-0x6d384ce363a476bcbef96ab76f949bf1bb3805a640d13a26c7bf670adb1dee8217564443a414a37c2f69e8cdf5ce0ba081); (-0x165dfc89b00a13e1c5b067ab05fd1b6460b05695543c4002f58ab0709700b6a37de37e0e128866d86245401e833e2dc12b); (-0x38a6a52f80a4f5ed7725451b5f2678f42ced7fe5e31dd4500b7d0673028883cbff1a49b8486f436022b7138abb6d062e9e); (-0xd79bfc273c9605c5251ef75848518cfb9385ac86a2b77d360becc42eee1cd9b99ad4b96997c0e9e19c5ea12d95720e3ba1)]). vm_compute. reflexivity. Qed.
Definition i_yd1 : list (list int) :=
  [[88961331; 164222078; 23136150; 145322152; 93362219; 206946951; 192269537; 1608077; 41056840; 245230733; 109470201; 43248579; 161960988; 86686]%uint63;
   [99438626; 224720211; 17927046; 122024693; 146074507; 15687452; 239857169; 75600156; 18649257; 135776958; 163675866; 140087379; 9753869; 38067]%uint63;
   [738981; 209116999; 54669455; 94085325; 247372117; 34252445; 193167486; 194715877; 123625818; 21472907; 93298272; 252469275; 29961501; 35159]%uint63;
   [98250867; 167703479; 188751910; 123015603; 234457346; 146021852; 133649668; 55807156; 115970883; 242000997; 118984778; 82520859; 96451408; 52386]%uint63;
   [133984413; 195226150; 50347261; 29972084; 89445859; 254823012; 193363495; 244656706; 121075571; 149863385; 146749922; 13614167; 216004633; 104061]%uint63;
   [98996876; 86965995; 190177175; 145054600; 144514802; 25632762; 144447777; 139751674; 81954611; 121678467; 247224595; 256488638; 155879547; 81273]%uint63;
   [236516311; 147764730; 217103454; 11702844; 148381697; 200156880; 76230206; 104950560; 34679049; 23606391; 230754169; 35333381; 148220995; 13580]%uint63;
   [202332885; 119596472; 87057632; 157657298; 128380984; 133057423; 137733339; 182543685; 249435819; 86298959; 65352250; 221449028; 188175104; 102111]%uint63;
   [84190415; 68759239; 144156391; 179699087; 17147120; 51285395; 61143703; 141902455; 257519439; 140850512; 132645063; 78369460; 166911628; 21086]%uint63;
   [114765269; 168641695; 103850543; 97918370; 145907985; 265404023; 70972033; 160176912; 226780184; 147412085; 244109197; 213569030; 218493705; 33977]%uint63;
   [227765831; 12134495; 226231018; 176588006; 113997425; 264277429; 250914139; 177728804; 68137448; 154148506; 160583181; 238101691; 211457864; 40218]%uint63;
   [144186055; 76982211; 258105; 15508688; 190398383; 166877940; 175385256; 127044599; 80948365; 209033440; 102217782; 258418217; 265595404; 50058]%uint63;
   [85046362; 2880116; 156521033; 6777996; 77001461; 208616149; 23121026; 176708011; 131589608; 133629424; 226462239; 65921021; 81572335; 38351]%uint63;
   [127914431; 24562197; 257274896; 160546641; 73474134; 28229610; 202933685; 7092296; 182156765; 229947889; 147057869; 49353687; 252694805; 61617]%uint63;
   [58340559; 52618136; 2175332; 47701458; 205914577; 55901299; 226062007; 53455414; 73630318; 268367077; 31511763; 172369738; 88976108; 45648]%uint63;
   [55049400; 226492416; 176409; 13493970; 208802528; 138027152; 3630751; 228652862; 162569026; 19495856; 85318031; 1231484; 106560762; 22394]%uint63].
Lemma i_yd1_R : RL1 i_yd1 yd1.
Proof. apply (lchks_ok _ _ [(-0xd93dafcba70489e188e65b3a30ace455070c4a4e16dc02c28958bf644eb98cf4c356d463818f049fd7e40624a6fc7eac67); (-0xf9ea4e54d558e5040349f6b8db48bbcbb309749c5b52439da4089baf24bb918d8712cd464d99bfd3bd6e1d7fd26dd20f9a); (-0x36ae7cdb833fa69e04e4bed6b15d238b0a956be3da5be9c9583f72db8a0ea3c56eb9300cb9eaba585058ee9211dbef2c11); (-0xdfa64736702b83efffb79652a7bbdb27ec6e85396bd6614d4f1dc83003ad5fcaa75dda33ad6cec111d15783f630d156ea7); (-0x74f0210297bf6155d6e48d1df63912dbfdffd45c23399c95f3f4e4ec4e8a48c712baf4a6262b11645a9d98ea4c7633ae29); (-0x5722c43792ff9f6e30cc6386dcb8dfd251821f3ce9c9ca477400fcabf38e5862846b7d4654c3c55face1f756dc26a8485c); (-0xdc4600a1049ce07a739596f078c53ce6bc4eab9b553d22c4e1eae5b4417ec1ded4eff5d87f24578a238fdb58111a30247b); (-0xdee27b969751db113d57602f67641be77b6967047631326a39776810bee22bcf82f9a62a1499ce78af1f6d20404b52ef81); (-0xf038eb421932cd2cbee5513a0f7f4a7c030e3c5809e65eeadb25680dfa8015066f7fe56ca7f4cb87b90eb3f9bfb2851193); (-0xdd48f679ea5bc85376c61ae9ed76a865c9829b77f27947a144768059bd20e34143958664c0dfaa26ffbbbe151d91fb7681); (-0x2f7d854b14a1e636841078eaf14ae6a87a77b03142f1c1f8afa313c9fda180bd0722b5467c34b7e223ac3d04debc70b52b); (-0x6a519a09b4f1f4d45d713b3c580ce227d1bc8944c9bc31a5db617a7af98e7d4633aa1322eb794e69846f92c66e05e2afab); (-0x6ab3f79b1d03b77f125a4f2d119c48239ee5542f3c3d3f48179a127da339743a8e1ecf089272f1587f2814d64713bce2f2); (-0x179cb881d749e120d4d5b83f7476c5c744066f15a0be6d4cf8225519b60333c1792879a5933a41d664a4023dff83e38ac3); (-0x8a6cd5f9d9aaa1a276c64d4fb506dd8596cff83bd416dc2bbb0887f62bc53d9f55ad49209a7b4cd47dda9a4c77d7246193); (-0x9d8)]). vm_compute. reflexivity. Qed.
(** the polynomial whose roots are the abscissae of the kernel, and a Bezout identity with the numerator *)
Definition dd1 : list Fp :=
  [Fof 0x133341fb0962a34cb0504a9c4fada0a5090d38679b4c040d5d1c3afb023a3409fcc0815fea66d8b02bbef9c8b5a66e07;
   Fof 0x264908af037bcede00d054cf5d4775e83eb6cf63c76b969f8ed174fb59fcff78d201f46f6cfc4ed6552e59ce75177b0;
   Fof 0x1335c502c1f54c49aceea65e87fd7203ba0f626f305fc0cfd606a5dae9f3c8e81a4b3b69600129fabd307c69bf319d39;
   Fof 0x94440f65f408a6e930e16e3e92dd17bf60d6e9679a8d3d58593de55ac23703042d609537eb3549aac234d896ca82944;
   Fof 0x4afe09d5cf4956a23b6b71f59d2b3407b415a774b7be81bbb6fa99cbc798e0ac98ba725a5bc328016b1c268b4766e85;
   Fof 1].
Definition i_dd1 : list (list int) :=
  [[203215547; 241261937; 256034828; 126134217; 68353024; 155571538; 182975979; 258244741; 129949157; 67297210; 146970656; 266520059; 17053861; 47865]%uint63;
   [214056628; 52876055; 195317061; 230786123; 68328857; 178104014; 115203669; 63200486; 21325670; 211452712; 136382430; 109335282; 205517428; 97291]%uint63;
   [128670195; 216913064; 68627157; 84816937; 189151131; 50694183; 59943532; 71046870; 162314881; 134614740; 221067478; 172302394; 53808847; 60928]%uint63;
   [190734745; 25294436; 132120611; 97893260; 13820351; 131711944; 174016641; 265588592; 157589942; 176006657; 20200056; 49553659; 63531797; 60076]%uint63;
   [108910775; 106318813; 224421277; 194853886; 47846669; 220633990; 68677662; 188051162; 253451730; 231834949; 51385800; 129181071; 230033913; 86224]%uint63;
   [55049400; 226492416; 176409; 13493970; 208802528; 138027152; 3630751; 228652862; 162569026; 19495856; 85318031; 1231484; 106560762; 22394]%uint63].
Lemma i_dd1_R : RL1 i_dd1 dd1.
Proof. apply (lchks_ok _ _ [(-0xbd049aee227c2f56948027951bd27b324c05cdf8aa35c1f18e3aacf443d6591439fc8e11bdb597e22730adf1f3337887cf); (-0x178e6fa25f59322666115315fbb334f66daba951677d10f8807f136df7beb0b028ad4d829b43e107be8a1d8608cd9d43e4); (-0xbd1d554955d9cce21e9cedc14336e8ab0e8a6770c6be8987e0e62dbc396f12654ec10fc107545430e0164dc3455b24f227); (-0x5b39d23d7d20ed77c421644d31ed54845480c7551d95c83f609e615cf953aa56cea6839ab725e4be5c3d3d9ae6f919db35); (-0x2e244753488e35e0d24219c53c579f2c879aa813f15cf40e93ad82a763ec69dfc739c30ade29199c29f388c427f26175db); (-0x9d8)]). vm_compute. reflexivity. Qed.
Definition ss1 : list Fp :=
  [Fof 0xe119e9a5c1aff96fc03a04ec4a13b9b717d988e45cb6ceebc99f4745ce75a50585a08a54f0c4dd182e9c58470a3074f;
   Fof 0x13337b4e8ac3099601d9a1015f09bda53b6ac8a3648bd697dd7c4cb7fc801f89993ab0b964c177abc53258c77690388d;
   Fof 0x10a69989514fa7e7b5d0f2b611dd5c6a954efc9820d588885e7c5308f8dd78d77172731a52090ddced4615afe497d19d;
   Fof 0x159c80e2d41dcfbec54e94b47c9b2af5dadfa56ae6323eed1ef61eacb9e323bab2b45b0a15cfbd6ca36925c6ada037d1;
   Fof 0x1250a920d129003442f8467dae52da45868ae1f83d8c376dcc331a638e2f5fe672b688ef3272de67809aab1a36efcd90;
   Fof 0x1753927218a398134192d8819d92b936409136b4fb53200165d7b11a9ea176c222e1fe0bad31289c446c146bdc3ae11;
   Fof 0x12e3ad2c0e0eb805bc43e950b0309909873dee9bedbb0523bb09de14cfff29ef3f0f4c9738bcdf55b52ac6fbbbaad7ea;
   Fof 0xa195eef5c3cb6b404851a165604b756a87d7e8d7836161e91c85a629c5522ea2b4061f6f750e7ee1faad7c5269ffb66;
   Fof 0x158bf7bf4267bd7abdbcc56cfcaa770c4a439a73debd99ebbfe77f92fba3efed601d021957fc0c812767300ab6bdf641;
   Fof 0x19c417add02c3a033d75cc6e056d44bf10fd870a4a1e8a100a3c46671700c83d8c2885d0f47a53c785083d8f93ea68aa;
   Fof 0x19e10cb4a51c6202c26ee5c3dbb0b5a7cb427b54cd51c768bd6a87ccb38e86c7584ad33f03858411e91901b15764d6c5].
Definition i_ss1 : list (list int) :=
  [[94304260; 198801433; 13206006; 147242385; 211767974; 236445850; 105631550; 184953463; 198612588; 139554487; 115617674; 82966579; 238403849; 100551]%uint63;
   [109879440; 57341152; 29106903; 3403527; 80812251; 46060299; 18085943; 160447862; 169567951; 201018539; 49339318; 156685747; 37779325; 75694]%uint63;
   [154089714; 156824982; 15975883; 73663730; 209549079; 160522885; 196128217; 200901004; 34034570; 7310602; 95681268; 172996604; 168002447; 38540]%uint63;
   [235452047; 254507951; 139917925; 50523277; 218841010; 208712429; 1052994; 144897492; 27274411; 93157909; 71442212; 119273752; 199520604; 19538]%uint63;
   [199928111; 263473855; 181698715; 257919129; 247894913; 267076883; 143239207; 16027283; 109211783; 74646899; 117381574; 166932044; 99069889; 20470]%uint63;
   [48469526; 171848660; 84283442; 242002978; 32270926; 173531623; 147759095; 91226068; 238873825; 235692993; 15916767; 243305685; 170701836; 58604]%uint63;
   [7748187; 100998313; 25836096; 199037302; 161429094; 125468152; 76214579; 181939476; 49623120; 130821988; 14017005; 172061553; 252584834; 21256]%uint63;
   [128217197; 60984025; 247904962; 79870533; 129914794; 196041154; 260820093; 42153048; 131274564; 255854111; 262112682; 211198582; 74722429; 6807]%uint63;
   [129280481; 161772800; 227070540; 27783427; 28539009; 80728703; 255133495; 194917206; 4892967; 163039617; 220142640; 58359359; 29880040; 52914]%uint63;
   [19023106; 253827884; 220046450; 122121782; 161832745; 178307593; 29266311; 211536618; 220842406; 112955788; 166148756; 118932874; 163135066; 1676]%uint63;
   [39097393; 220841122; 11756767; 68022293; 162953769; 26998033; 234799825; 47729767; 42759340; 226119201; 46424030; 97749845; 17096376; 22492]%uint63].
Lemma i_ss1_R : RL1 i_ss1 ss1.
Proof. apply (lchks_ok _ _ [(-0x8a80667d2ab1beb9b71b9091cd03f8207f058194ba40215e37c2968b599221a0a84facc6a33860b69b1c359092571717f4); (-0xbd06cf48318fff645afb86fd2908f62130855dbd71f5dd784118ba29891d9b7d0a30bf4cb0d169ea7f720bfcc00aaa1e50); (-0xa3eb7796073b6210aeaa3a131c824d934b85c6ad6dad68f479cd0d21ed0420ebd43f3e6b7ac2a52bad7c4d6b90199c552a); (-0xd4c11fee7d89dbaa988866de3e9708f51b084d66ee5841e05fda889f68517a78ad69febc60be0d7aa03428bb07e238dc53); (-0xb44ddaa5aaa7f6c6b06d597e3fd09adb84122ed05bacefca17facd4b497597fe6acf956c5b3d0f6053d21642af10b30473); (-0xe5a3911939441a033cefede1833dfa1a9eb0daba132aab0717b0420e266e5f35a263457de1efdde58c8a9cb5b75133dbe); (-0xb9f5295d45c46c88899540e3148daf0b48583c1d708cf506bd6c278f846eb159baaa643a7b2f314432e9d8aa2c9f8c50ef); (-0x636bde17498babfc891511f50f5df55fe1f6c3e73e266aaefd293a1aae2e86509cf16866acf2fb6dc5f53f6dc2e7cbaeb9); (-0xd41e567e5695db5efcc7d433063431b31b4f37ae9ae7ccf039462448835636c54d6936d572e96f57cd8097154eeb3f025d); (-0xfda7b3eb4556b3e4829bea69be15f83d82f14fdf2886326ed710c9a238cfc2cff091d6d289c680348c0692b87aed9330fa); (-0xfec4c5fd1c7028a9c17f6d1853ede9a4ac335ec5436977549c858bec746fb108be9e4574face165cce9c600790dc6f436d)]). vm_compute. reflexivity. Qed.
Definition tt1 : list Fp :=
  [Fof 0x223ce80b1d41ef002af5399cbdaf1c57d59f777d5dbb2d4a70d9d016e17da6a52fd7c2b31f98beca13492c1e30d9aac;
   Fof 0x19c34a77414bd6a050d1246ee4287f3069def9d857be4dae52b7d71ceb50596ef4739f694ce82661159469fb90655b4e;
   Fof 0x3c19d6c7c7cc2c1d801a04c5fe3bdbd8390b706ac2643769cea7bbbf1a1780ac67ddabc1f97bb8c6fa57a609e87b238;
   Fof 0xb4bef7faa1cd3b7b5c00cc185a588362061b3e4af92b51e8df2884e3cd40b012d1ec0cbe61ba6f17fccbdefaf57e368;
   Fof 0xf2276532309ab9f99a7ab92f83ed57f69f666c20e3e9bf63eb95e53bb46a2d9c3ee269926989367bcb5332db12e27b6].
Definition i_tt1 : list (list int) :=
  [[91221387; 172721437; 42755471; 229787992; 146997719; 115020855; 108436615; 124801998; 58221045; 11860428; 171534684; 141860413; 152616687; 23716]%uint63;
   [190093309; 25631204; 114611035; 98692486; 96810784; 179209035; 193172004; 131801897; 54995938; 48727566; 93236057; 248071852; 127807003; 32171]%uint63;
   [174087288; 14004446; 186375498; 200785883; 148685886; 125572685; 160382691; 82668521; 62486089; 263167264; 24329288; 204880099; 121977257; 2861]%uint63;
   [123357193; 101179707; 136561103; 225941913; 191267206; 127042268; 9458317; 249376130; 166246888; 265516064; 74230753; 21125917; 253271152; 27078]%uint63;
   [100485685; 94506844; 53824281; 90662454; 141254648; 47843901; 51437711; 58466654; 263882271; 204075094; 3617409; 96329419; 108827097; 47801]%uint63].
Lemma i_tt1_R : RL1 i_tt1 tt1.
Proof. apply (lchks_ok _ _ [(-0x1510ebf0003d52bb30ca0d0f21cca65737440b52543f2e11c2bd6d20a0d579cd8da078b87fe21d6eb173488e19b70f375f); (-0xfd9fcfaf11801d161baaa55ec64677ba7d68dd863efa616f6e865252b243c54d12c5f2cf49feb6b1a0fa020130560b3809); (-0x24faafd1e7cdeb08cc9b439c3d421d19d760fb423a234c1f1abf58272a3fe77022d6ce27b6d4e8672aabed1a4d2b76ea98); (-0x6f35dd98548c8a9675f3743ee5134a603bb53d7b9b9ffa9a5bee0877937e7cb6e1bb1345565f3db21f6b28879b01d627e5); (-0x94fe6b5d8efcc7c38ac56f80548c912a9bb834c32326990204e0dd3cf73552dde7312bb574976e2258169c6c87cf692161)]). vm_compute. reflexivity. Qed.
Definition i_A1' : list int := [99613541; 129034671; 46360716; 48430056; 252263392; 82144142; 85854620; 36348647; 196602411; 83989741; 183410443; 68357725; 61609394; 104290]%uint63.
Lemma i_A1'_R : R1 i_A1' A1'.
Proof. apply (lchk_ok _ _ (-0xc79b31de768b720355a24c9786c676cc05577359741593b84aea9b12841ea1c0e070681839b60d50f63200302c010dd1)). vm_compute. reflexivity. Qed.
Definition i_B1' : list int := [45561152; 177676258; 225447193; 188412402; 194182718; 168745091; 41626475; 67767323; 5562981; 248851170; 200722815; 206797500; 112405054; 8126]%uint63.
Lemma i_B1'_R : R1 i_B1' B1'.
Proof. apply (lchk_ok _ _ (-0xb9ea3764674c6ed63fa555592e6abcea4630432d40e38eb2e50e08793b14db7e51405d47dd745d30fff5e3a21ff81a6040)). vm_compute. reflexivity. Qed.
Definition i_Z1 : list int := [68716178; 77594626; 136158376; 148444379; 211718728; 106991641; 59967285; 125435218; 27792597; 55752106; 10546335; 66808308; 34171838; 33312]%uint63.
Lemma i_Z1_R : R1 i_Z1 Z1.
Proof. apply (lchk_ok _ _ (-0x6c4a)). vm_compute. reflexivity. Qed.
Definition v1 : Fp := Fof 0x123939a31626a32de772bc7a591ea140683bca0c62efb105310d5ce1d27d1aadf79a5d5cbe8e2c4ff7d4816af76d2814.
Definition i_v1 : list int := [235198824; 148346243; 249357740; 167321996; 188274246; 252025056; 107466261; 34409458; 86262170; 235462789; 96104595; 45287056; 4100825; 102685]%uint63.
Lemma i_v1_R : R1 i_v1 v1.
Proof. apply (lchk_ok _ _ (-0xb367243a9cfa487d0118c91bc296de493d6a688232e67766f7aa82dd3397a59c174feda51530f56ad5b3604db0b9b973c8)). vm_compute. reflexivity. Qed.
Definition sv1 : Fp := Fof 0x5be3446f07e910e291153e84f1dabd3dfe5c2b1080d8b6a640425c3826f2a429373f9bab7e8308f6dd10ffa11124dbc.
Definition i_sv1 : list int := [203023363; 121102941; 159817440; 26252689; 130989974; 8776470; 1819601; 260218133; 129193768; 169866164; 84146307; 218936250; 98115181; 19999]%uint63.
Lemma i_sv1_R : R1 i_sv1 sv1.
Proof. apply (lchk_ok _ _ (-0x388987b6a1129d5336caeef4817fb26b567f5f29480ca329ceb234640f030288035df332165331cfc23dc24537bfa953f7)). vm_compute. reflexivity. Qed.
Definition nz1 : Fp := Fof 0x4610e003bd3ac94dfa9246c390d7a78942602029175a4ca366d601f33f3946e3ed39794735c38315d874bc1d70637c3.
Definition i_nz1 : list int := [119896398; 36624635; 259651967; 172425684; 64326400; 36404732; 5285404; 65398544; 174301534; 233729274; 127418178; 63729309; 187924907; 92503]%uint63.
Lemma i_nz1_R : R1 i_nz1 nz1.
Proof. apply (lchk_ok _ _ (-0x2b1c4d85fc149539255a9c899f3674e874f5d282e5569687dc9240322f0222a9ad60e351fdfb5ea24df0cfa5f66ea59416)). vm_compute. reflexivity. Qed.
Definition zi1 : Fp := Fof 0x25d302c90dd14f6c102839c34a9c9e509221e235bf4d328ac4a41b18aca44ec02c9d1743eaa8ba2e25cfffffffff83e.
Definition i_zi1 : list int := [141408891; 198752814; 164705700; 47578261; 204342950; 82290143; 216567711; 47575; 30058852; 263901107; 265202064; 212254058; 47881111; 27013]%uint63.
Lemma i_zi1_R : R1 i_zi1 zi1.
Proof. apply (lchk_ok _ _ (-0x1745d1745d1745d1745d1745d1745d1745d1745d1745d1745d1745d1745d1745d1745d1745d1745d1745d1745d1745d08f)). vm_compute. reflexivity. Qed.
Definition m1 : Fp := Fof 0x793154fd85631d966ef2470460c78f6a928ad9f5bdbfac21df39753aa278ba751bdfcf95a84188e29d670675e4c9c7c.
Definition i_m1 : list int := [96927201; 235705173; 142745235; 38447323; 136059995; 158074881; 49888795; 14416249; 143748375; 161820250; 20053641; 14207855; 39856426; 42109]%uint63.
Lemma i_m1_R : R1 i_m1 m1.
Proof. apply (lchk_ok _ _ (-0x4a91717b413ee2a0f3ef5bcea38472da5c6d8267d018de935bac607ec87be24aff90c9e816e57468d14adca9680508065d)). vm_compute. reflexivity. Qed.
(** an element sent to the kernel of the isogeny *)
Definition u_ker : Fp := Fof 0x146850b3bdc2495ed73bb803dfaa951a88abff0acb5c7aeac52b48f3c808e87ce3885b98ce916e17caef21a6cbc6b598.
Definition i_u_ker : list int := [23558055; 109117638; 101110177; 193195114; 161474006; 97161214; 240144599; 78894959; 72221843; 220315966; 258239484; 69986104; 54703257; 3075]%uint63.
Lemma i_u_ker_R : R1 i_u_ker u_ker.
Proof. apply (lchk_ok _ _ (-0xc8e724d30aae95feddfac4ca9784b14b295cff071c116037314b4104f0766d632dccabc138d14ae12c319844af74d4990b)). vm_compute. reflexivity. Qed.
Definition x_ker : Fp := Fof 0xd7f2d0d03ae035321eed4c1479d13251abf0e9a96479623eb5380b575e319851fb5e5a8b43b9c1a46880f54bf2b2f7c.
Definition i_x_ker : list int := [241119935; 230557635; 101269013; 30754499; 11113617; 225739976; 35615507; 73589158; 229329535; 46575270; 64652739; 101651887; 248687872; 58108]%uint63.
Lemma i_x_ker_R : R1 i_x_ker x_ker.
Proof. apply (lchk_ok _ _ (-0x84deb9eb9d60d43295b2c96cde166dddaa8281c8d6b5d8b3b4679e8210109c2abc4391653ebdd59039f6e60b30aca567c3)). vm_compute. reflexivity. Qed.
Definition y_ker : Fp := Fof 0x59e4a8d101f0c51d351b3877c5197f07d08511978f9492dacd907f783f756008f967f1556f49e19032b4ecc3f415b40.
Definition i_y_ker : list int := [217448524; 106849633; 114086010; 223989032; 253630239; 30859944; 171636600; 29583390; 218819042; 199978687; 183068347; 165426705; 45860661; 31256]%uint63.
Lemma i_y_ker_R : R1 i_y_ker y_ker.
Proof. apply (lchk_ok _ _ (-0x374f5c4338cc0f7566f29a2549d5e947077ebdf14bcdef91f404361bbd2b298b2607bb4f267d5da0db7b59f537a839ff1c)). vm_compute. reflexivity. Qed.
Definition i_g1' : list (list int) := [i_B1'; i_A1'; zero63; one63].
Lemma iso_chk1_1 : qeq ops63 (qmul ops63 i_g1' (qmul ops63 i_yn1 i_yn1)) (qadd ops63 (qmul ops63 i_xn1 (qmul ops63 i_xn1 i_xn1)) (qscale ops63 i4 (qmul ops63 i_xd1 (qmul ops63 i_xd1 i_xd1)))) = true. Proof. vm_cast_no_check (eq_refl true). Qed.
Lemma iso_chk1_2 : qeq ops63 i_xd1 (qmul ops63 i_dd1 i_dd1) = true. Proof. vm_cast_no_check (eq_refl true). Qed.
Lemma iso_chk1_3 : qeq ops63 i_yd1 (qmul ops63 i_dd1 (qmul ops63 i_dd1 i_dd1)) = true. Proof. vm_cast_no_check (eq_refl true). Qed.
Lemma iso_chk1_4 : qeq ops63 (qadd ops63 (qmul ops63 i_ss1 i_dd1) (qmul ops63 i_tt1 i_xn1)) [one63] = true. Proof. vm_cast_no_check (eq_refl true). Qed.
Definition gx63 (x : list int) : list int := add63 (add63 (mul63 x (mul63 x x)) (mul63 i_A1' x)) i_B1'.
Definition num_chk1 : bool :=
  eq63 (mul63 i_v1 (mul63 i_Z1 i_A1')) i_B1' && eq63 (mul63 i_sv1 i_sv1) (gx63 i_v1) && eq63 (mul63 i_nz1 i_nz1) (sub63 zero63 i_Z1) &&
  eq63 (mul63 i_zi1 i_Z1) (sub63 zero63 one63) && eq63 (mul63 i_m1 i_A1') (sub63 zero63 i_B1') &&
  negb (isz63 i_A1') && negb (isz63 i_B1') && negb (isz63 i_Z1) &&
  (let t := mul63 i_Z1 (mul63 i_u_ker i_u_ker) in let s := add63 (mul63 t t) t in
   negb (isz63 s) && eq63 (mul63 (mul63 i_x_ker i_A1') s) (mul63 (sub63 zero63 i_B1') (add63 s one63))) &&
  eq63 (mul63 i_y_ker i_y_ker) (gx63 i_x_ker) && isz63 (horner ops63 i_dd1 i_x_ker) && negb (isz63 (horner ops63 i_dd1 i_v1)).
Lemma num_chk1_ok : num_chk1 = true. Proof. vm_cast_no_check (eq_refl true). Qed.
(** * G2 *)
Definition i_xn2 : list t2 :=
  [([10357867; 51147214; 222198833; 8436616; 219413251; 230618783; 243490820; 197686874; 201495148; 203429128; 76270746; 55210935; 122174077; 105519]%uint63, [10357867; 51147214; 222198833; 8436616; 219413251; 230618783; 243490820; 197686874; 201495148; 203429128; 76270746; 55210935; 122174077; 105519]%uint63);
   ([0; 0; 0; 0; 0; 0; 0; 0; 0; 0; 0; 0; 0; 0]%uint63, [211100978; 200627540; 44268769; 232447966; 227708103; 12884786; 162598627; 186841122; 153304827; 90390306; 171281071; 68440533; 95170149; 11290]%uint63);
   ([162863122; 32855381; 44974409; 17988390; 257611848; 28122485; 177121633; 27710746; 266710023; 168373732; 244117739; 73366470; 252977741; 100867]%uint63, [105550489; 234531498; 22134384; 250441711; 113854051; 140660121; 81299313; 227638289; 76652413; 179412881; 219858263; 168437994; 47585074; 5645]%uint63);
   ([125409111; 203540252; 126780749; 90974840; 229570225; 198582950; 233449094; 197092610; 59689325; 165554830; 118113418; 194124969; 59514779; 61662]%uint63, [0; 0; 0; 0; 0; 0; 0; 0; 0; 0; 0; 0; 0; 0]%uint63)].
Lemma i_xn2_R : RL2 i_xn2 xn2.
Proof. apply (lchks2_ok _ _ [((-0x38e38e38e38e38e38e38e38e38e38e38e38e38e38e38e38e38e38e38e38e38e38e38e38e38e38e38e38e38e38e38e4dabf), (-0x38e38e38e38e38e38e38e38e38e38e38e38e38e38e38e38e38e38e38e38e38e38e38e38e38e38e38e38e38e38e38e4dabf)); (0x0, (-0xaaaaaaaaaaaaaaaaaaaaaaaaaaaaaaaaaaaaaaaaaaaaaaaaaaaaaaaaaaaaaaaaaaaaaaaaaaaaaaaaaaaaaaaaaaaaaa906a)); ((-0xaaaaaaaaaaaaaaaaaaaaaaaaaaaaaaaaaaaaaaaaaaaaaaaaaaaaaaaaaaaaaaaaaaaaaaaaaaaaaaaaaaaaaaaaaaaaaab7ca), (-0x55555555555555555555555555555555555555555555555555555555555555555555555555555555555555555555554835)); ((-0xe38e38e38e38e38e38e38e38e38e38e38e38e38e38e38e38e38e38e38e38e38e38e38e38e38e38e38e38e38e38e38e39fb), 0x0)]). vm_compute. reflexivity. Qed.
Definition i_xd2 : list t2 :=
  [([0; 0; 0; 0; 0; 0; 0; 0; 0; 0; 0; 0; 0; 0]%uint63, [62625520; 50331633; 255732827; 102090307; 36477884; 10324030; 115224653; 239044942; 231280001; 134352312; 206975991; 22108196; 89420206; 91813]%uint63);
   ([123765578; 35651586; 136334786; 161938349; 152085800; 245018794; 63598036; 85652624; 190361624; 75247962; 95864366; 68039792; 140732600; 55706]%uint63, [144648033; 231735293; 199209463; 106491751; 219380099; 192199268; 194822909; 169696411; 153000812; 4103195; 99676181; 173764673; 159830215; 50806]%uint63);
   ([55049400; 226492416; 176409; 13493970; 208802528; 138027152; 3630751; 228652862; 162569026; 19495856; 85318031; 1231484; 106560762; 22394]%uint63, [0; 0; 0; 0; 0; 0; 0; 0; 0; 0; 0; 0; 0; 0]%uint63)].
Lemma i_xd2_R : RL2 i_xd2 xd2.
Proof. apply (lchks2_ok _ _ [(0x0, (-0xfffffffffffffffffffffffffffffffffffffffffffffffffffffffffffffffffffffffffffffffffffffffffffffd3b30)); ((-0x7622), (-0xffffffffffffffffffffffffffffffffffffffffffffffffffffffffffffffffffffffffffffffffffffffffffffff89dd)); ((-0x9d8), 0x0)]). vm_compute. reflexivity. Qed.
Definition i_yn2 : list t2 :=
  [([211052686; 80235487; 149073501; 256556361; 227730204; 38497796; 195043901; 26544460; 185634385; 133795776; 155677448; 78883193; 159544542; 47765]%uint63, [211052686; 80235487; 149073501; 256556361; 227730204; 38497796; 195043901; 26544460; 185634385; 133795776; 155677448; 78883193; 159544542; 47765]%uint63);
   ([0; 0; 0; 0; 0; 0; 0; 0; 0; 0; 0; 0; 0; 0]%uint63, [31240322; 247230921; 16638054; 221425475; 18272093; 177799258; 106280237; 13295206; 164134337; 132284361; 80082561; 160935816; 141271692; 100619]%uint63);
   ([52764322; 116741461; 44621589; 259435906; 108442247; 20503636; 169860130; 107275934; 210007425; 129382019; 73481677; 70903502; 39856217; 56079]%uint63, [215649289; 150645418; 22487204; 8994195; 263023652; 148278970; 88560816; 148073101; 133355011; 218404594; 122058869; 170900963; 260706598; 50433]%uint63);
   ([137146652; 110760694; 69587833; 238108724; 226255528; 169023522; 8323950; 198375779; 94557703; 150222413; 204766013; 105371650; 80349345; 14950]%uint63, [0; 0; 0; 0; 0; 0; 0; 0; 0; 0; 0; 0; 0; 0]%uint63)].
Lemma i_yn2_R : RL2 i_yn2 yn2.
Proof. apply (lchks2_ok _ _ [((-0xd097b425ed097b425ed097b425ed097b425ed097b425ed097b425ed097b425ed097b425ed097b425ed097b425ed098c656), (-0xd097b425ed097b425ed097b425ed097b425ed097b425ed097b425ed097b425ed097b425ed097b425ed097b425ed098c656)); (0x0, (-0x38e38e38e38e38e38e38e38e38e38e38e38e38e38e38e38e38e38e38e38e38e38e38e38e38e38e38e38e38e38e38e3ee7a)); ((-0xaaaaaaaaaaaaaaaaaaaaaaaaaaaaaaaaaaaaaaaaaaaaaaaaaaaaaaaaaaaaaaaaaaaaaaaaaaaaaaaaaaaaaaaaaaaaaaa41a), (-0x55555555555555555555555555555555555555555555555555555555555555555555555555555555555555555555555be5)); ((-0xb425ed097b425ed097b425ed097b425ed097b425ed097b425ed097b425ed097b425ed097b425ed097b425ed097b425ecac), 0x0)]). vm_compute. reflexivity. Qed.
Definition i_yd2 : list t2 :=
  [([107426889; 38797223; 125111169; 75697709; 240585998; 23337511; 204549553; 157524474; 207738738; 140922629; 264153212; 265804131; 107448980; 18314]%uint63, [107426889; 38797223; 125111169; 75697709; 240585998; 23337511; 204549553; 157524474; 207738738; 140922629; 264153212; 265804131; 107448980; 18314]%uint63);
   ([0; 0; 0; 0; 0; 0; 0; 0; 0; 0; 0; 0; 0; 0]%uint63, [187920250; 153092051; 96109981; 37846177; 171808221; 230277787; 97267521; 206436755; 7115131; 244354622; 229846879; 119586570; 204005898; 62413]%uint63);
   ([185648367; 53477379; 70284451; 242907524; 228128700; 99092735; 95397055; 128478936; 17106980; 112871944; 143796549; 102059688; 211098900; 83559]%uint63, [82765244; 213909500; 265259798; 25522576; 143337199; 69689871; 163023891; 126870099; 57820000; 234914670; 51743997; 139744777; 89463915; 22953]%uint63);
   ([55049400; 226492416; 176409; 13493970; 208802528; 138027152; 3630751; 228652862; 162569026; 19495856; 85318031; 1231484; 106560762; 22394]%uint63, [0; 0; 0; 0; 0; 0; 0; 0; 0; 0; 0; 0; 0; 0]%uint63)].
Lemma i_yd2_R : RL2 i_yd2 yd2.
Proof. apply (lchks2_ok _ _ [((-0xffffffffffffffffffffffffffffffffffffffffffffffffffffffffffffffffffffffffffffffffffffffffffffef6325), (-0xffffffffffffffffffffffffffffffffffffffffffffffffffffffffffffffffffffffffffffffffffffffffffffef6325)); (0x0, (-0xfffffffffffffffffffffffffffffffffffffffffffffffffffffffffffffffffffffffffffffffffffffffffffff7b192)); ((-0xb133), (-0xffffffffffffffffffffffffffffffffffffffffffffffffffffffffffffffffffffffffffffffffffffffffffffff4ecc)); ((-0x9d8), 0x0)]). vm_compute. reflexivity. Qed.
Definition dd2 : list Fp2 :=
  [F2z 6 (-6);
   F2z 1 0].
Definition i_dd2 : list t2 :=
  [([61882789; 17825793; 202385121; 80969174; 76042900; 122509397; 31799018; 42826312; 95180812; 37623981; 47932183; 34019896; 70366300; 27853]%uint63, [206530822; 249561086; 133159128; 187460926; 26987543; 46273210; 226621928; 212522723; 248181624; 41727176; 147608364; 207784569; 230196515; 78659]%uint63);
   ([55049400; 226492416; 176409; 13493970; 208802528; 138027152; 3630751; 228652862; 162569026; 19495856; 85318031; 1231484; 106560762; 22394]%uint63, [0; 0; 0; 0; 0; 0; 0; 0; 0; 0; 0; 0; 0; 0]%uint63)].
Lemma i_dd2_R : RL2 i_dd2 dd2.
Proof. apply (lchks2_ok _ _ [((-0x3b11), (-0xffffffffffffffffffffffffffffffffffffffffffffffffffffffffffffffffffffffffffffffffffffffffffffffc4ee)); ((-0x9d8), 0x0)]). vm_compute. reflexivity. Qed.
Definition ss2 : list Fp2 :=
  [F2z 0xd0088f51cbff34d258dd3db21a5d66bb23ba5c279c2895fb39869507b587b120f55ffff58a9ffffdcff7fffffffd554 0xd0088f51cbff34d258dd3db21a5d66bb23ba5c279c2895fb39869507b587b120f55ffff58a9ffffdcff7fffffffd554;
   F2z 0 0x16c0efacf24fe9c701b832bf7ae2373c77e86214551470677a4ab84cd7dad75f9ad67ffedb297fffc2bf1fffffffb556;
   F2z 0x27019adf563fd9e770a97b9164f1834316b2f1476d479c1f1ac93bf1720971362e01fffe09fdffff96fe7fffffff800 0x1790f83c441be8fbd4110ffd2cfc94a3330c1c707cb098fd75843ee1df905f10bbcbdffed0b41fffc08f17ffffffb2ab].
Definition i_ss2 : list t2 :=
  [([185839511; 61865983; 66844179; 248189146; 58262107; 95959606; 252974819; 180805198; 99508896; 184325101; 67563500; 239957239; 140721672; 72921]%uint63, [185839511; 61865983; 66844179; 248189146; 58262107; 95959606; 252974819; 180805198; 99508896; 184325101; 67563500; 239957239; 140721672; 72921]%uint63);
   ([0; 0; 0; 0; 0; 0; 0; 0; 0; 0; 0; 0; 0; 0]%uint63, [20643525; 185597952; 201392745; 5060238; 78300948; 219532342; 68470395; 18635959; 60963385; 175083106; 166211989; 201788398; 241286877; 8397]%uint63);
   ([266709701; 185597951; 201321061; 268012430; 86341395; 180488639; 14160127; 39914641; 13651463; 94726016; 146882244; 43635416; 122142328; 25928]%uint63, [1703910; 81788928; 134223188; 417670; 16689048; 256729424; 244260818; 215434394; 61275517; 253060598; 48658302; 198169049; 178420487; 80584]%uint63)].
Lemma i_ss2_R : RL2 i_ss2 ss2.
Proof. apply (lchks2_ok _ _ [((-0x7ffffffffffffffffffffffffffffffffffffffffffffffffffffffffffffffffffffffffffffffffffffffffffffff13b), (-0x7ffffffffffffffffffffffffffffffffffffffffffffffffffffffffffffffffffffffffffffffffffffffffffffff13b)); (0x0, (-0xe00000000000000000000000000000000000000000000000000000000000000000000000000000000000000000000003b1)); ((-0x17ffffffffffffffffffffffffffffffffffffffffffffffffffffffffffffffffffffffffffffffffffffffffffffffb1), (-0xe800000000000000000000000000000000000000000000000000000000000000000000000000000000000000000000004e))]). vm_compute. reflexivity. Qed.
Definition tt2 : list Fp2 :=
  [F2z 0x4102acc98fbfc081bbc52347a83d301a7b2a3ccc60ccaede81fa0e9268ba675a4cadfffcbb51ffff50fd7fffffff2ab 0x15f0e71da083ea922f5f5581c8c7d9d5bcc4a7b82d7847d17f1131b7d0254fae79e11ffee59edfffc4ef27ffffffb800].
Definition i_tt2 : list t2 :=
  [([15466260; 205520896; 49562; 3791163; 68889680; 224127348; 110950778; 138379882; 101917774; 190825698; 69987810; 64259192; 70842950; 86183]%uint63, [252947351; 61865983; 67059231; 264638938; 34140763; 213090715; 147470167; 116969153; 241444662; 156960915; 125552736; 177545273; 229719865; 20329]%uint63)].
Lemma i_tt2_R : RL2 i_tt2 tt2.
Proof. apply (lchks2_ok _ _ [((-0x280000000000000000000000000000000000000000000000000000000000000000000000000000000000000000000002c4), (-0xd7fffffffffffffffffffffffffffffffffffffffffffffffffffffffffffffffffffffffffffffffffffffffffffffd3b))]). vm_compute. reflexivity. Qed.
Definition i_A2' : t2 := ([0; 0; 0; 0; 0; 0; 0; 0; 0; 0; 0; 0; 0; 0]%uint63, [59610906; 186646577; 176559590; 17595065; 132363380; 259759801; 29928551; 233303949; 105172660; 174576759; 230317308; 16493013; 77459302; 48999]%uint63).
Lemma i_A2'_R : R2 i_A2' A2'.
Proof. apply (lchk2_ok _ _ (0x0, (-0x93ab2))). vm_compute. reflexivity. Qed.
Definition i_B2' : t2 := ([148484548; 188743887; 178541602; 235260047; 218707778; 17044373; 160251943; 95299773; 190528044; 223006769; 58530266; 181145667; 96759393; 82348]%uint63, [148484548; 188743887; 178541602; 235260047; 218707778; 17044373; 160251943; 95299773; 190528044; 223006769; 58530266; 181145667; 96759393; 82348]%uint63).
Lemma i_B2'_R : R2 i_B2' B2'.
Proof. apply (lchk2_ok _ _ ((-0x26eab4), (-0x26eab4))). vm_compute. reflexivity. Qed.
Definition i_Z2 : t2 := ([158314811; 82837503; 66755974; 241442161; 222296299; 161163757; 251159443; 66478767; 18224383; 40359445; 24904485; 239341497; 87441291; 61724]%uint63, [213364211; 40894463; 66932384; 254936131; 162663371; 30755454; 254790195; 26696173; 180793410; 59855301; 110222516; 240572981; 194002053; 84118]%uint63).
Lemma i_Z2_R : R2 i_Z2 Z2.
Proof. apply (lchk2_ok _ _ ((-0xffffffffffffffffffffffffffffffffffffffffffffffffffffffffffffffffffffffffffffffffffffffffffffffec4f), (-0xfffffffffffffffffffffffffffffffffffffffffffffffffffffffffffffffffffffffffffffffffffffffffffffff627))). vm_compute. reflexivity. Qed.
Definition v2 : Fp2 := F2z 0x1a59d4b6bbf912a32d63b43028e2deeebe8d5d97ca64b6d66f64ac7a265a9305e1a40da5edb81b4e3ac4f5c28f5bd27 0x15103a07f641331bb298f5ed3ba1230aa0bcc9f87d923077324df24a0f7ffa93045d3d6f94c17ae10efa11eb851e7336.
Definition i_v2 : t2 := ([25153134; 262423620; 83960988; 138942798; 74954618; 249779668; 175548177; 142606324; 158057417; 47910338; 12713450; 220555523; 230162292; 3836]%uint63, [192954209; 16986931; 83661283; 120037162; 146602044; 224749970; 211868; 95965518; 137625640; 204055598; 157400196; 117008808; 146946849; 95002]%uint63).
Lemma i_v2_R : R2 i_v2 v2.
Proof. apply (lchk2_ok _ _ ((-0x10369d0369d0369d0369d0369d0369d0369d0369d0369d0369d0369d0369d0369d0369d0369d0369d0369d0369d03694b6), (-0xcf5c28f5c28f5c28f5c28f5c28f5c28f5c28f5c28f5c28f5c28f5c28f5c28f5c28f5c28f5c28f5c28f5c28f5c28f5c41dd))). vm_compute. reflexivity. Qed.
Definition sv2 : Fp2 := F2z 0x1776b5d3dd70bb2ac6e46be0849209c9c47853350da878bdc14a5042102f1f01cbc75043b8d13d709dd5ca27f92cb390 0x2c094c100c4f8a157767045bc04279dd04f207fbddc4de6675911b512cddacc0061215698453b5b11125516029e4d21.
Definition i_sv2 : t2 := ([89674980; 221744788; 157424159; 234729093; 136113285; 57636141; 44368629; 261019177; 99689783; 257429730; 191929127; 154646291; 255976292; 5328]%uint63, [42907232; 227442043; 12512792; 132290510; 130409178; 131058079; 79958877; 52311415; 91527594; 30713110; 206126449; 49424586; 139623083; 86425]%uint63).
Lemma i_sv2_R : R2 i_sv2 sv2.
Proof. apply (lchk2_ok _ _ ((-0xe6fd7cc6ea42091472ab662af0b962622e749aa228adb5c9474268f2c403d425b83cffd8ffce1b47ba5310c68f314b0154), (-0x1b184c6f448ec836b882c36080942a0722429bd353f7dc695d5f8256d1f9548099f6f0947b176bb7c319c20dacc533dce0))). vm_compute. reflexivity. Qed.
Definition zi2 : Fp2 := F2z 0x14cda7ee9466521508e2ec91cf6fbd791d2c3c6a5c6a7565ec270ee72bc0c4e9b2233332277666662e65999999995556 0xf9a3df2ef4cbd8fc6aa316d5b93ce1ad5e12d4fc54fd80c711d4b2d60d093af459a66659d98cccca2cc333333330000.
Definition i_zi2 : t2 := ([22002284; 197132288; 214818872; 166454577; 219632457; 136549855; 100814875; 242053282; 232343377; 232340542; 83185467; 193936166; 68326192; 94168]%uint63, [257412469; 168820735; 93917085; 50985084; 127431943; 234725407; 208013508; 104666; 227190748; 97398614; 153947813; 144836382; 266399719; 59428]%uint63).
Lemma i_zi2_R : R2 i_zi2 zi2.
Proof. apply (lchk2_ok _ _ ((-0xccccccccccccccccccccccccccccccccccccccccccccccccccccccccccccccccccccccccccccccccccccccccccccccd0bc), (-0x999999999999999999999999999999999999999999999999999999999999999999999999999999999999999999999997a1))). vm_compute. reflexivity. Qed.
Definition m2 : Fp2 := F2z 0x83c12791abdd5d2fe2f284f0cc6e5aa9b8c2d3f6f3f792302cf75e62bfc4df1d6834443da498888725d8cccccccb1c3 0x11c4ff711ec210c74cec7f673684c72cc8eb1e458445999c64615cbacab4a8324828bbbad70a777747a173333332f8e8.
Definition i_m2 : t2 := ([125765670; 238376276; 151369488; 157843079; 106337636; 175156517; 72434521; 176160711; 253416175; 239551692; 63567250; 29035791; 77069640; 19184]%uint63, [142647941; 29010603; 184174761; 110587021; 265128263; 262061545; 185986424; 79188324; 89946261; 108234921; 131973296; 212768674; 223493175; 87328]%uint63).
Lemma i_m2_R : R2 i_m2 m2.
Proof. apply (lchk2_ok _ _ ((-0x5111111111111111111111111111111111111111111111111111111111111111111111111111111111111111111110e78e), (-0xaeeeeeeeeeeeeeeeeeeeeeeeeeeeeeeeeeeeeeeeeeeeeeeeeeeeeeeeeeeeeeeeeeeeeeeeeeeeeeeeeeeeeeeeeeeeef1871))). vm_compute. reflexivity. Qed.
(** square roots of the opposites of the norms of Z2 and of the value at the abscissa of the kernel *)
Definition nz2 : Fp := Fof 0x186417302d5a65347a88b0f999ab2b504614aa5e2eebdeb1a014c40bceb7d2306c12a6d436befcf94d39c9db7b263cd4.
Definition i_nz2 : list int := [170921750; 190056436; 254673289; 17429129; 219559030; 218638722; 38879537; 91417330; 39320625; 134704763; 41818554; 48832103; 67811259; 61559]%uint63.
Lemma i_nz2_R : R1 i_nz2 nz2.
Proof. apply (lchk_ok _ _ (-0xf01e651460f196ca105de19cf995739a5203805230e674cf7e860670f7842e87984c52aaf4baa6d32ee9ca32aff42dd2be)). vm_compute. reflexivity. Qed.
Definition nk2 : Fp := Fof 0x1764c4d4cfa3326ab57cbfed7f4a64378dc56542f8ff574f159cb76173021e735e4c97e34b82fa6cc8627df6f1f0af2.
Definition i_nk2 : list int := [166885687; 159460689; 132452195; 15754161; 261040082; 75502455; 30591328; 2148637; 225333955; 74581691; 129883995; 49708821; 112688173; 103654]%uint63.
Lemma i_nk2_R : R1 i_nk2 nk2.
Proof. apply (lchk_ok _ _ (-0xe64cdcb28ccda0d4e27b21eac5e81dcca2121b508b43db1efb65585fd36b80b23ca17899c8a655a5c464d0e044683945b)). vm_compute. reflexivity. Qed.
Definition x0_2 : Fp2 := F2z (-6) 6.
Definition i_x0_2 : t2 := ([206530822; 249561086; 133159128; 187460926; 26987543; 46273210; 226621928; 212522723; 248181624; 41727176; 147608364; 207784569; 230196515; 78659]%uint63, [61882789; 17825793; 202385121; 80969174; 76042900; 122509397; 31799018; 42826312; 95180812; 37623981; 47932183; 34019896; 70366300; 27853]%uint63).
Lemma i_x0_2_R : R2 i_x0_2 x0_2.
Proof. apply (lchk2_ok _ _ ((-0xffffffffffffffffffffffffffffffffffffffffffffffffffffffffffffffffffffffffffffffffffffffffffffffc4ee), (-0x3b11))). vm_compute. reflexivity. Qed.
Definition i_g2' : list t2 := [i_B2'; i_A2'; zero63x; one63x].
Lemma iso_chk2_1 : qeq ops63x (qmul ops63x i_g2' (qmul ops63x i_yn2 i_yn2)) (qadd ops63x (qmul ops63x i_xn2 (qmul ops63x i_xn2 i_xn2)) (qscale ops63x i4x (qmul ops63x i_xd2 (qmul ops63x i_xd2 i_xd2)))) = true. Proof. vm_cast_no_check (eq_refl true). Qed.
Lemma iso_chk2_2 : qeq ops63x i_xd2 (qmul ops63x i_dd2 i_dd2) = true. Proof. vm_cast_no_check (eq_refl true). Qed.
Lemma iso_chk2_3 : qeq ops63x i_yd2 (qmul ops63x i_dd2 (qmul ops63x i_dd2 i_dd2)) = true. Proof. vm_cast_no_check (eq_refl true). Qed.
Lemma iso_chk2_4 : qeq ops63x (qadd ops63x (qmul ops63x i_ss2 i_dd2) (qmul ops63x i_tt2 i_xn2)) [one63x] = true. Proof. vm_cast_no_check (eq_refl true). Qed.
Definition gx63x (x : t2) : t2 := add63x (add63x (mul63x x (mul63x x x)) (mul63x i_A2' x)) i_B2'.
Definition nrm63 (x : t2) : list int := add63 (mul63 (fst x) (fst x)) (mul63 (snd x) (snd x)).
Definition num_chk2 : bool :=
  eq63x (mul63x i_v2 (mul63x i_Z2 i_A2')) i_B2' && eq63x (mul63x i_sv2 i_sv2) (gx63x i_v2) && eq63 (mul63 i_nz2 i_nz2) (sub63 zero63 (nrm63 i_Z2)) &&
  eq63x (mul63x i_zi2 i_Z2) (sub63x zero63x one63x) && eq63x (mul63x i_m2 i_A2') (sub63x zero63x i_B2') &&
  negb (eq63x i_A2' zero63x) && negb (eq63x i_B2' zero63x) && negb (eq63x i_Z2 zero63x) &&
  eq63 (mul63 i_nk2 i_nk2) (sub63 zero63 (nrm63 (gx63x i_x0_2))) && negb (eq63 i_nz2 zero63) && negb (eq63 i_nk2 zero63).
Lemma num_chk2_ok : num_chk2 = true. Proof. vm_cast_no_check (eq_refl true). Qed.
