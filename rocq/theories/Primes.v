(** Primality of the base-field modulus and of the group order, by Pocklington certificates checked in
    Coq (generated file: the certificates are data, [pocklington] is what makes them proofs). *)
From Coq Require Import ZArith Znumtheory List.
From Verif Require Import NumTheory.
Import ListNotations.
Local Open Scope Z_scope.

Lemma prime_3 : prime 3.
Proof. apply trial_prime_ok; vm_compute; reflexivity. Qed.
Lemma prime_1327 : prime 1327.
Proof. apply trial_prime_ok; vm_compute; reflexivity. Qed.
Definition ws_prime_421987 : list pwit := [Build_pwit (1327) 1 2
[true;false;false;true;true;true;true;true;false]
[0x0;0x0;0x0;0x0;0x0;0x9f07d;0x6cf97;0x3d3f;0x50be9]
(97231) (39677)
[true;true;false;false;true;true;true;false;false;false;false;false;true;true;false;false;false;true;false]
[0x0;0x0;0x0;0x0;0x27;0xec906;0x28007;0x116316;0x27bfa;0x132f;0x20ea1;0x3152c;0x339d7;0x2d307;0xa71bb;0x190c;0x16295;0x8131;0x67061]].
Lemma prime_421987 : prime 421987.
Proof.
  apply pocklington with (ws := ws_prime_421987).
  - unfold ws_prime_421987; repeat (apply Forall_cons || apply Forall_nil); unfold wprime; cbn [pw_q]; [exact prime_1327].
  - vm_compute; reflexivity.
Qed.
Definition ws_prime_13090036741 : list pwit := [Build_pwit (421987) 1 2
[true;true;true;true;false;false;true;false;false;true;false;true;true;false;false]
[0x0;0x0;0x0;0x0;0x0;0x53fefe5;0x29b6f0704;0x9d9796c9f;0x138d50500;0x131271d4;0x2b94e6cd;0x149c95a3e;0x26d86b;0x278eecf56;0x23c0ac5a]
(9508339913) (7028843336)
[true;true;false;false;false;false;true;true;false;false;false;false;true;true;true;false;true;false;false;false;false;true;true;true;false;false;false;false;false;false;false;true;false;false]
[0x0;0x0;0x0;0x0;0x0;0x53fe;0x302532443;0x9b36bbcfe;0x79c607e15;0x5a4ad7ea;0x706e2b27;0x2cee5d86;0x1048d56c1;0x3ea2d6999;0x8e1bfbfaf;0x1b033bfa8;0xac85d;0x11917462c;0x28105904f;0x8f3247d;0x93e271a;0x346c8fae;0x10e293e04;0x3f2fad78;0x401f2c2e6;0xe941c1c6;0x2e1c6a90;0x19922cab2;0xe2b7bff4;0x37a5b855;0x1d5c49d;0x13a381be7;0x388c91a0;0x30c3a1c03]].
Lemma prime_13090036741 : prime 13090036741.
Proof.
  apply pocklington with (ws := ws_prime_13090036741).
  - unfold ws_prime_13090036741; repeat (apply Forall_cons || apply Forall_nil); unfold wprime; cbn [pw_q]; [exact prime_421987].
  - vm_compute; reflexivity.
Qed.
Definition ws_prime_3819663927398918131021 : list pwit := [Build_pwit (3) 2 3
[true;false;false;false;true;false;true;false;false;false;false;false;true;false;true;false;true;true;true;true;true;true;false;true;true;false;false;false;false;true;false;true;true;false;true;false;true;true;true;false;true;false;false;false;false;false;false;true;false;true;false;false;true;true;true;false;true;false;true;true;false;false;true;true;true;false;false;false;true;false;false]
[0x0;0x0;0x0;0x0;0x0;0x0;0x10f41af85b;0x5b15e596002b2c056d4;0x27dc991e39c7901e95;0x58d26b5efa1f299791;0x32d8d2f6916c2802b3;0x58841c68a1c28e3283;0xc32874d9ade5ecf09c;0x67574c3c65b02e9707f;0xaa6ef6308374781d7e;0x40e765246cebe07f1cd;0xa341418882001bf029;0x4233369dfec717aad8a;0x3124869a26bd5ea3afe;0x541795b4d117f89023;0xa1c5298854ba4efdbe;0x372e0207478e8f61b42;0x42008751f2b2325c6ae;0x1477336f77b5f59a7f;0x1f7d0e40bf2beea3b39;0x34a97d665cf5e372b22;0x57c72d182d0312d597;0x21a2b21412ff44d27;0x517940d293be46e81b;0xabfbff97139e955c26;0x43a0adf451c34c8286f;0x86554f695d6625eb92;0xf199540d4b68f6281;0x314f6691f77702df0b7;0x478ffa425a6cf3aeb7;0x9d4e4ead95d50a7396;0xe8d133b5a590452cc;0x285cc269a8950df9e;0x65ec42fe0fca72db548;0xc09c722b2c7f9abcb5;0x11844aa4025ae4dd5;0x18206f61edf0b3e22b2;0x24250ab6aa28d328d6;0x8c80e6d503ea2f4bd;0xc7c24f94134e92fb8c;0xbf42007021a8f2df;0xa5f43b646f515fd36;0x88f4632f49da781108;0x58094f9d991e0cda;0x2b3792c1686bb0c;0x1373ed7a4ac229bcce;0xa0593d04cc089416a0;0x3263114ba5f769a29b;0x4383659ef6ef3742af;0x5318ebfdcd9a6948a25;0x1ad9b4e8b6144a8335;0x3635a4185e7921cfa1;0x17a91fc77210274d891;0x72077664ef6c3bd886;0x9d6e222dd0a07807ba;0xd5732c7872bf5870d3;0x15a574967bd02d30c0;0xd29bc1057bffacda5;0x2fe8ce6e41b77f42e2f;0x1c96055bd267c8e32c;0x5098599e2c912d60070;0xa5c54f35751c0af59;0x2ced1a900e3336c37a;0x4fb08cf85108fc24de;0x69f01882dba7ede7087;0x998959d903a6c841b6]
(2369591047488682099686) (329138301285175695665)
[true;true;false;false;true;true;true;true;false;false;false;true;false;false;false;false;false;true;true;true;true;true;false;false;false;true;false;false;true;false;false;false;true;false;false;false;false;true;false;true;true;true;false;false;false;false;false;true;true;true;true;true;false;true;true;false;false;false;false;false;true;true;false;true;false;true;false;false;true;true;false;false]
[0x0;0x0;0x0;0x0;0x0;0xbb;0x68a9d277fcbed8a4bff;0x62ed7159d355d1248;0x38533538f82501d895;0x4e3af31df5698ea9f;0x52e35146bd9b434f53;0x66508ed80030eedf8a;0x7e57cbfce206a549d;0x813866b42e26a06b5c;0x4c88c79e761c760bb6;0x39a8f35cbfda1a7ca1;0xf73937e78dba06fbd;0x6a688226c0c53e962b;0x4def91e841436473830;0x5f4506b5de31657df38;0x353557553341e00c2e;0x1b3364c7407a313d343;0x9aefc5640451a18f9;0x730fa56ac7ff91585d;0x3b41951ce5f7bb8ac7;0x76928d83c1ed8f3cf4;0xcef57aad4aa4ae95c3;0x53de6f0bc6ec9ea12;0x21c8ee9f9290ba353e;0x34a8452980e0215658c;0xa969df20f88a41762a;0xac1c8492358557e0b0;0x8ca3af84c9eca2c471;0x981e42fb7847e2c4cb;0x7521f988cda2dbd2e;0x51de2d9866587d3b83;0x1382b5d30aecd3786;0x8243fdc356aa6ee5d9;0x5fb8212738330748ee4;0xae1ab330181a9db;0x7088fc0ba89589ef7f8;0x21e50913a5f90b63dae;0x2b76a67f06a8652b7e4;0x5b3e450735ed85367e;0xad96ed5944d24859c9;0x41be261c40d2c81dd2;0x24f9c3710af470671;0x2c41af3c559606d2cd;0x390a237fcb0d754298b;0x63e717f6377044ec387;0x24a0615cc3cae7bd90;0x4304f5367275b885139;0x1cab2a46bc43cd83bb6;0x7da57c818bc05f04;0x6971a37de43bf7797e6;0x6f10391d3c877242;0xa622323ecb469b;0xa05ffed69fc836446;0xc6160eafbeb13703ba;0xa39fbd303535d1a;0x106a058a7dda1deea8;0x66523cb7f54108dbeb5;0x28e1db958867e2a6976;0x91c112beb0efef30b6;0x7d4b096f8afd33cb75;0x183583f48491d4d3d;0x238ca1583772da555f4;0x5e5e9847b2d29017d;0x778340a57ecf243095;0xbfff60d8cf334912c;0xcf107c4885c1f60d4b;0x0];
Build_pwit (13090036741) 1 2
[true;false;false;false;false;true;true;true;true;true;true;false;false;false;false;true;false;false;true;true;false;false;false;false;true;true;false;false;true;false;true;true;true;false;true;true;true;false;false]
[0x0;0x0;0x0;0x0;0x0;0x0;0x0;0x4f2009610ee356d3;0x57f0fea027872d05dc;0x26c4061faa5953e02b8;0x13b66afa4c53b19d562;0x2949741d8932d286fbd;0xb77f0d91c6beda6;0x36d123b3188d4a8ab3;0x5963b011acddf81e2e;0x72926511c1930a170d;0x9fcac01b7fadeb2c06;0x871ba6c003ba6e93cb;0x9465fcd9c4b5a598e6;0x1c5477a2609eb99ee36;0x2c87111273d98de9f1a;0xa698605020107c97;0x76bc3711117713b8ac;0xc54c904faa1b2b4129;0x30a31983134c089d30;0x1c386d4ba7ae9ecf481;0x46a82b548cc00f4a2e;0x1d01155062f7bfb464;0x2b4f944965f45b5039;0x2a45d39750edf8846e9;0x41b7322b679350d6d0;0x951966d49984fe8aea;0x26a38c85cc304b25;0x45f9c4b9cd580f;0x34ec55830317b4652;0x1740da30fd881b51b16;0x28a41d20f27e4568831;0x194976871b1dc263b78;0x23696c1f8b8fdd07fa]
(493108134941997590084) (288747912583058559999)
[true;true;false;false;true;true;true;true;false;false;false;true;false;false;false;false;false;true;true;true;true;true;false;false;false;true;false;false;true;false;false;false;true;false;false;false;false;true;false;true;true;true;false;false;false;false;false;true;true;true;true;true;false;true;true;false;false;false;false;false;true;true;false;true;false;true;false;false;true;true;false;false]
[0x0;0x0;0x0;0x0;0x0;0x0;0x4f200961;0x2cd2279ec90ad960f;0x69a42fdef874b5d7df;0x7882b910a4a7bf3;0xc74b7e06e19d7adea0;0xac224b8f8f5b645865;0x1e874715194dff93f1f;0x14bdf4b55210d84e85;0x9d3170a625ac59088;0x18f2bc97bb16b54e07;0x1cdc02944434e96c4c;0x853b043244719830c3;0x2cc888da2d1987bab66;0x670a3bb34750cef43f;0x1181550ea6ab9898a93;0xb6352a762b11d5d3aa;0x2c2526fc97c4a9bdfed;0xad5d7a0f082b210e7;0x95053b7dff1ed7059;0x7adda7e55e5906e0bc;0x10cc104b58210adb19;0xcdaf231f3e857d30eb;0x3bcf3a9abb47635663;0x1bf4ab2dad1cf13a8b5;0x403075b06a6c635be6;0xcda4a7a74482913f98;0x1986ad896264d4e3bb;0x168a3950d449a5bf78f;0x290c42d80bcec96f5f;0x6720d05c53524e28e7;0x5d0e2209061e8d2bfb;0x42c3d43aa3f638ae67;0x4bf56e0927219f93fa;0x37533676f5e56520a;0x10b6c09f1430476dc1;0x30c925c485e248faafc;0xb0c9436d31cf372619;0x1f7e68b8cd77018aa6;0x17cd81dcb3400ca02c;0x187c84080f240331b;0xc0f8ef7e405ed15b6b;0xf6fbbc3847f003c3f;0x290b0f60f9c6029cec;0x69b3c218ef7ccbcfd7;0x230b3c2b2d752ffad74;0x222fa5590c2a4c3719;0xeda89da752df36bae;0x46e6938ba9c060db1;0x17a552b54528b949caa;0x11adefb9813f38ad121;0x58dc0105d24a3b71d5;0x2b08c3a9798eab54b1;0x158cb384046df4d81d;0x609f17a7eec7198fb5;0x545fb68d0a9f4c3b6;0x1fabf3495de8535c5d1;0x2b88fb3d47ec58ab620;0x2b541fa6702ec2383;0xb88f17cda3d83041ea;0x24aeeec2444ee7b1a7;0x1335d6084dbb39d543d;0x81478b31739337376e;0xc97f6fa091ef8ced68;0x31a05ee7f0d1ee4dcc;0x32b0cd0f4403f285084;0xcf107c4885c1f60d4b]].
Lemma prime_3819663927398918131021 : prime 3819663927398918131021.
Proof.
  apply pocklington with (ws := ws_prime_3819663927398918131021).
  - unfold ws_prime_3819663927398918131021; repeat (apply Forall_cons || apply Forall_nil); unfold wprime; cbn [pw_q]; [exact prime_3 | exact prime_13090036741].
  - vm_compute; reflexivity.
Qed.
Definition ws_prime_1125266252156850182658904441386709967 : list pwit := [Build_pwit (3819663927398918131021) 1 2
[true;false;false;false;false;true;false;true;true;true;true;true;false;true;true;true;true;false;true;true;true;true;true;true;true;false;false;true;false;true;false;false;true;false;true;true;true;false;true;false;false;false;false;false;false;false;true;true;false]
[0x0;0x0;0x0;0x0;0x0;0x0;0x0;0x12e6;0x9d90dbf6c07a94a3f33a56b301d053;0x58573b4485749485945c348754ca5a;0x254b149d58a1fe01d02f48df974338d;0x4ac79396f0a7196aec55e6f87901;0x103bdcd496cd8fb57dd14bf11bd6d1b;0x7a58f9f623260b66b6d03f93144405;0x11fc1d2ba066204f6344ec6a084175;0x35493dd1dc75bdde6c67ecbbcfba781;0xf5826950c3ab2a3f8d8d0d2d4f96dc;0x4e00e8210e9ad274c03c16c4b2474d;0x4de2776c8de7a10c191faeef190a85;0x3152eed9d2539270c72a3f817c1aa3;0x1e935b7ebf9c74811a77db106780820;0x75e3950faaca6ba00f9a4e0375bce1;0x16978fe45587ae382ccf481c1408770;0xb38f9fdb2c1f0eb15b7635badb1ab0;0x936cddb553f39b185d4c63690c17;0x201d0cb00d3f6f102d631cd75f98779;0x1071b8dcdc522046854e8e4502b68a;0xb915e211309cd2404d51b1b170902;0x10bf046ee71a5dc6f3987055cbe98ad;0x1b738407534bbf9c6671ceae096f9;0x365c4e6fe4af2028c04eacf0cf9189;0x2d61beb23f7b8fd6cd50c0de76762;0x11ac775228640ef1c3bc485c51764d;0x1d1d5ff17b2e0cd46a09add1d513ed3;0x73cbe43d2672e8e8d2275c6ce155c7;0x5c20223c8373900f7eee344515cdc7;0x330871206e4614221dbcb79632b9b0;0xe036353117e97c49e90e6fd6c44547;0x19086c7cf07631d6ab7fe529937569;0xc2962a5ae3a6c26e6d8e362abd8094;0x27f9b72fb4f85b6cee2ec13d002aba;0x57c4a21a351ffc6473bb45bd88c9d;0x3ed6f94068fecca577d091286c4949;0x2174a2f9d59b24d7f28d2e9e837559;0x4cf4bf92e7ed60be43b4e8edbcf89b;0xcf30332c6c137b5d61583893ba7796;0x46dcdccaa3eba725303d069ba8b65;0x199ecbfa31bd13398237d334eeaa4d8;0x29c054acd549ab1e1a23069f7c6e29f]
(363966040104148855705611644974454555) (184072867699701266872102148000741207)
[true;true;false;true;true;false;false;false;true;false;true;true;false;true;true;true;true;true;true;false;true;false;false;false;true;true;false;true;true;true;true;false;false;true;true;false;false;false;false;false;false;true;false;true;true;false;true;false;false;true;true;false;false;false;false;false;false;true;true;false;false;false;false;true;false;false;false;false;false;false;false;true;false;false;true;false;true;false;false;true;true;true;true;false;true;false;true;false;false;true;false;true;true;true;true;false;false;false;true;false;false;false;false;false;false;false;true;true;false;false;true;true;true;true;false;false;true;true;true;false]
[0x0;0x0;0x0;0x0;0x0;0x0;0x0;0x12e66d246e5a83224a3e1642f;0xb151e29724b25dad99962c79c68ab8;0x2a8159d9d597871e347a1ae15c94fc2;0x80c72f25bffc8dbb49ecbe5a2d1;0x25aa5694f988994b7b1187235ed9cd3;0xd4322b7b5584a06275266177c1eeca;0x20c0582bcad91addcd05dfdd7c8fec;0x198c9ce1c6cfa4a67da5b6c7c0fa5ea;0x2c2f0f4d8e2c769ebb5669175dbc3f4;0x2ee3f6c8ea557c969eb42047a3b03;0x1860a0e807886e6355df2c63ad12252;0x11c92d7d01a1fa8a35b6d4e447b3fc6;0x78eb8d40146ac74150723ed6b3f5ee;0x81663491db9fd094f3571f5e5ee6ec;0xd8b5054215a369e21e684fe204d4f4;0x16b05a0ae9519b395e1c1270577c0;0x733085a7f43a3fc7c846f5c5c8ffc0;0x26600f48bae8f71a0ffa7c77a837ec;0xd44b3b365d94b2e1fd4dc38f1aae0;0x992e7f458f05ede3e4e3455dee0447;0xa15bb578546f6964ba38c05f35aa8;0xcac80d8db3b89dd35784c30f02ee4a;0x2addf6d5a051f21157d47ba1626ff3;0x13d215ded53fd4e6f80925477927a9;0x1396cc661c5892d5fbd1042e13a4e0;0x3a9ca9b553215d7122b3c21bf19263;0xa57a5b2a0ecb04d0e17d135b8c9f9c;0x2a5898c6c8a67aa0a5870bdb305b46d;0x220b012e4ce4da35c15f312d77d124e;0x1dd2fe12ea50cce00615cc1628c846;0x973185c9c3a9d813a551cdfd71ef59;0x78770ac47f60e0b2665ea01e9a953d;0x232d108c283dbdb4db6719629821e3;0x207336ddfce380eaa1d8b9a9316558;0x7d1ed6955fb8baee8b6f1355cf21c4;0x311a4ab92dbf0ffa7b2a1fa51cc2fc;0xd11668984796218b2abd0295b135;0xe137e72cfbbd1ebf99d3608275a912;0x1e321dc2bbe870f6cd069b7e28572ed;0x7f3eb5f207c62e8d8a92c62cfa9970;0x9f364b473a292eac64cef00c69b1b5;0x79b55e829058ea6544ef0c70bc31c0;0xc7665e766309ee6007e0e76af788c8;0x2b44afbf870a0690772c2fba74ace81;0x266631ca77a86778cf809288b859222;0x34567b5687fac7b683b1a164efda52;0x474b07cfd3f4e3f8334d3c7cff8874;0x334615ea2b804439d2514fb9678;0x102bf2772ca52694e2a5a3ad68b4b;0xcb182c99bd4b11e3a80d31f01da669;0x4ebf9ab7c43d2591347d0f07e47473;0x16dbaaf6784eea2eab79a2f13e46376;0x25bdad38d75b9de27083035de2f4abd;0x6b9b2099ea44497eee47bd3debd135;0x7b70b81c4add973356d588e6c41c28;0xbf92f649ee84e234400658052b660c;0x294f373cea5e60e86748f2519deb53;0x3a5bce0ae440fb5ff34f0e9198dd8;0x10d5db0594d49d10f7f3ad442c25e4;0xd3202110a9c4aa6ae596f62aa195e;0xacc335937432e9fcc6fed2008cb33a;0x299f820f4a35d19a062757dabdb078;0x163c54c9fef42380cf02b677d05c55;0x99da8e4e4bc17e0a1c8fd71af024cc;0x17061e6bda42b9e2e00f44f5724f;0xefaa2e1216b6edee1798e31136cb5a;0x7ab16b7928e238de3b470c9db289;0x4e687ea202aa93f0f3e3b717b78eec;0x7078b8bf77c13ba5df618cff4a9723;0x1055d27605b47d9e9d7efd814c8b17;0x29f394deeba2396e66b9895da16536f;0xa685d83a959977131b4cc47a96;0x3ca9fa176acd299a6d44f3329fde99;0x2651931d4dfe5a2e7108010b373662c;0x2c57b75e72ef386613a45aa76f622cb;0x2602400398d7a786989f473061fc08e;0x8d09faaacc0a3f194ae5831ff0aa00;0x5f22966697820b0fe7bb8019b1528a;0x3475139e28b1043426b0014a7b7759f;0x710e8922ccd2b1ab9014c60b4b3c44;0x45f55c718cd5c61c71903fa0e3acf3;0x7ea054ac904b52956858a131e0;0x7504362946a6f11417bec60242cb0b;0x2e29846b2da124a74aa7a0aa46a67d5;0x699fbddeced9fbf64d8ee6525ef6e5;0x74ce24e4be1d30c75f01f4091a36db;0x2a3eb9dbcbc1eef2b1deff77ade7b84;0x12862bfd035d49ddb941512c302644c;0x32a6fd19fe6553c7a6143354b5beec;0x6e80c21bcc8a78be88ef7570ab833;0xd88845b944abb3fc33f4f61234bcba;0x56fd3028631994ffe823309ccb4a1e;0xa04e6e97a2d3e2bdc0968b8d90140f;0x9e0ed4f488f5ddefad7aaeae8dfeb3;0x1f5c91f76f5470ca48a5875fff207;0xa923ae1b9c497a64619d0451cf38a6;0x13be858164c4d0908174ea38e5d7cd;0xd011c1ff257348beacf9c00d3e95b6;0xa274cd16d61cdaf2834ea2e9df69c5;0x69e8fb5f26736a29b3e7dee5229bf;0x263406f40b7ae310d386f5bb7277236;0x12695fbd8ef0d005238b03363648770;0xaa6aeab5216c7116c980b4ad32c06;0x2f28301a59c4a48da9514865dfb087;0x7f385c85553a49bc8683a8340eeeb7;0x1b12c644cf5ea155102d41b9a7350da;0xc67e760098f89c6af00ff8b88ea983;0x3b1251ce5cd607a480a0fc09566dec;0xc8c9cb13dd734099e7984c8f702714;0x1695a6a8e209e0807332305c7c61ed;0x1d206eba6cbd9285c14c41d364c03a;0x4144b32b9a35c6f3a366ce88a44558;0xd8b7e8de605a60610129ea5e2033d1]].
Lemma prime_1125266252156850182658904441386709967 : prime 1125266252156850182658904441386709967.
Proof.
  apply pocklington with (ws := ws_prime_1125266252156850182658904441386709967).
  - unfold ws_prime_1125266252156850182658904441386709967; repeat (apply Forall_cons || apply Forall_nil); unfold wprime; cbn [pw_q]; [exact prime_3819663927398918131021].
  - vm_compute; reflexivity.
Qed.
Definition ws_prime_15778400344354997994418419698270088123916926905054652752758194827714659 : list pwit := [Build_pwit (1125266252156850182658904441386709967) 1 2
[true;false;true;false;true;true;false;false;true;true;false;true;false;true;false;true;false;true;true;false;false;true;false;true;true;true;false;false;true;false;false;false;false;false;false;false;true;true;false;true;true;true;false;true;true;false;false;false;true;false;false;true;true;false;true;false;true;false;false;true;false;false;true;true;true;false;false;false;true;false;false;true;false;false;true;true;true;false;true;false;true;true;false;false;true;true;false;false;true;true;false;true;false;true;false;true;false;false;true;false;true;true;false;true;true;true;true;true;true;true;true;true;true;false]
[0x0;0x0;0x0;0x0;0x0;0x0;0x0;0x0;0x6ffa95a96c05dad99d2f0d86d637;0x7313c8e42bc7dcbaa9008f812f62eb1428d33e22dc7361ed2b53f4c83e6;0x50669edd6642ce95c914e0f764e905720b64a33f597381992dac1bd1d8f;0x14450cb71cc79a4fcbe0f47a69be9d8c6245ade7afd427b1374ee873d13;0x19420a2e1de55ca49a2e3daf2c96a4ede84f5d812e62c6e3d25d1048e10;0x94e8b9aadcee24aa35ce4d96e3d238e3faf57def9375aa50f27c66ee2d;0x2c827c715405741f43b8623f0804d5b198150b59845ecb1b6e4459f56cc;0x566e484987ffcb15c4fbec0b81510eaff8c2b81285e309058c799426ae;0x3a5178ade7d85e2c0a61070b23cd75236067fe7f076431f98736286b329;0xe70b054ca4c9980e530335d1dc0b05ffb4fa004776fcff9fa2d829c5;0x1064e032ec55be499fd594036001bc638da32d9d4a2f34d02efe7db22f;0x69fbb4e2ea7211f62bad7fe224a1d2c1a49ba1cda34774ad15757f0e740;0xba689b4b24b6d1bed52a129673613a244eb7ef292f34adcccfc0c21ee9;0x2575d6aceb11a71c80bae55ce30f46972beb7e65e1759d08a956ef9b15;0x20c9fb98619b2d458067339ecc6bd88e4eaefafd2fde7679243aaddec60;0x3cc81fe0e1e13e9684af4e9380cf2057400b27ffb1b034169632b895f1;0xfffd0a29902e22d896405a422979b69388299c259928316f5e9f2943;0x961cbbf3efbb7244dff952f6c1ba68028ebbeb0781558f0cb3eddd20aa;0x33eac89a39674d1fb02a2b24424601fe92b85f32910e9a027a992b6274;0x119c583c8d8d50ac148eeb477db1f4790d00d1180559ee8d8f7055e89b6;0x7d94fa773fbf329b4e6fd431d5d63f22605eea03d103c2267a65b8f2a;0x36070cfe8ae6016bcc1cd2086ace98437930cce2e80055f7cc96dc8837a;0x412c565ae773154185e55300e08092622acf4d831df918e78ae201d3b;0x6d0806a3004c30ee613eaef77295ea88b00367c0d7a11054aa4989fd18;0x543e6306ffde1b23eb49be3daaa993f94c17592357683d30a12259ca7a;0x28cf00521a51bc96ab215eb6cc9aaecd47a9460505f90ae4d5db95edc;0x18ad360e5b53ddb04ef355c319ba23c75b09a6d99798c078303372f33b9;0x1d38e518bc8b58c28f0ffb979f3c00985932cb049a22066e28d371d79;0x1c7f09a1e4fb6a908e7de67f6b7e05cdab953fad08162f2167bcd092a5d;0xc6fa750ba6c7fcdee6576ba6767d90637a7ff093ccc7f5ea5d2997b1;0x9dcb4b1b8cd596e7f57bd99f3d293119a66ed3049d95840939f397686;0xda25a768073c7f9fc8e3fb659780c3b5289978f8decf94ebba273c3c98;0x91512f1b04340ceaa2169d51da9d260f3e7d46948a7bea3c91a1cd5dff;0x21d93f6655680f15f936388d595b45cc0c93a659693398541241b8c4744;0x2ae528b6a6f4757c4719241941bfe5ca89cdf07486e4d66bd094ff253d2;0x381ebb36187886426114983040a135a523a7dcff75b3b64455f881d448;0x18de5cfb95cd7b31f7982f6a38996d83f8b989443d22fb3fc6ae1e79c61;0x6aa152f0d197e73a4d4f352abb0564c50315054f389b4c75ba786068125;0xc02ab9a6a79ed7fe24803da8d7c28f35c1b82e94e986803ef1c0cf5223;0xc7ec9ea08c5db1bae6d1965a5fd30dc07be42176ee970ea5f74f9ab6a2;0x8f02a0c6d24333b9ffb8515db761fe3f96785a3162cf526cd86d3621;0x4e1abae26a778729761a3c569b086dd855699b7f5c08042f745c976ce2;0x10782ebb0c87d2ae7f8b8d8d14f0495b95ca8014fae9a95a84482a456e5;0x14b66b1352b1d7a7f664383c1c91c8ded0506355175b48da90d2136ab;0x197cd7af2ba428c45e401e3afe4c5bd606a71c7f3fb1dd900169c710120;0x3b0bd8f8b2fd3563379f76615db176aa587634647802cb621e1eb5d81d8;0x1f3dc7600ed5842c1c59bd2ecb80f255c0d3eb44128f8e6848cfdaa000;0x7e9c23b53bbaad24ef37f8f5026884fcf1a1a7b4b76bc286e5fbb511;0x16530d9775d5587ef525681d1bc6fbb9e5db5db6b868985dc299042c77b;0x4e66cbeebb140cd0110ab8e5dadba87c3e110dbab3689a6718ae57ac7f0;0x4f3b91f4aa20e20cbfdc2e7a26cb9a5150f0b2ffbff9bbdffc174358c;0x18337b4a90cfb5fa7423816b31c83bd6f34808220389f38b893b9443116;0x37c8d0a9ac501808e2654d79839756c22c4e554a51eaeac73b302a1a580;0x1df8548c91a7b7c3d59c576252dc83adcb3437b8367576aeafacc495dc7;0x23ea1d44c9b26ccdeeb038022eb38f8afc1f11817731a985695b06efc25;0x24acba751c3b452e7bce5013525be6aa20cfb91ef9089f3e34a2603eb70;0x4c85aff70d5cd8c48f1c3c182cbd343b8e92a6c26a51bd9c68b36c5bb1b;0x4d29a1c56dc655d87cc0568a8a2e673d79dd2a97a57ecc47393f142f8f7;0x1204bfe064da834daffc11aa23b27b2f5823ad6a6e3fb0f3251bfdaced0;0x3810dea8fa66d898d6fd1447e9cccebd6bd3a4b8b396fcaea21f1c784c;0x1d17217af3bcbbcde78840e82af13fa0fdc2292791ffa328f983925328f;0x292782cf9d6492a9e4c0d7db20ca7c1bc30c1c7099d1cdb13fdc1991ccc;0x1e37367cfac55d540ad6bde6cd09e5efe5f83fce89261fd064b4c944209;0x128a7e0a3c0c6ec3383b2fbc589c721e7deb4c7a836586f9388420ab2a4;0x1631a71f08f54b8676db988fe174e22b60d050a9bda71010ad0d75e540c;0x53fde56fe03080a1beeb72f838329fdd48ee176a3a86aa811f3b14638a;0x173fd1c47b96bc5a20795087d4e9465f8720009ffe1415c241907d9dce4;0xefe22619c9007d3fe2713b75244acf9a3e6c97ecaeea3e97d487376bff;0xb9cc241966fb2e89ffe6ebd760ce65314556e5e00787a9c606bf92c0f;0x2650b4af464177fdd75bcde725be84a658098e1b5dc2ef6b2dd93a61bf;0x8774e9f7a908a36275344a1935191b58ea7f16dffe96af977f391abe83;0x50ba7464509448d9e495bc7118bad6fc7917d4a9968d92f71edb3f1ac57;0x1104b52560a89084756c7abb6e0bb42d6b5c74dfa1c9919bfd62219a;0x103fb24f329245ef5f59141b3a5b53334fc2ff6c24919e97941226138bf;0x3a94134b1f7d5c20787afabce26ea3e9518d8a8e3151aa761bc772a51fc;0x16368219c3c83bcef973bfc670a6ffc385957ebf86b76686473dcf98484;0x245bb4ca5d97e756e84d9cd2bd68628af2facf50669845d87d9ff292901;0x11359289c4afec865780e524902e9a1a0339eb75c9d3b8c840f909d1b98;0x605fc1169c4fbe24713a74ed88be580e5ff1bafd03a0de5d1c4bd8e94ca;0x30964164f3e8e9b78273b5a2307c256a52df82fc3792e6d3b36c1637dd;0x91e2107b2ccd28596703368cae8439b5bf1cf7d2f8490dadff4ad0b47;0x1f5d746d399dce9a3e0c74c921b32f1dc15c593adb6e6864e89547d2063;0x5501dc08b1238f9c9476d5fdd991df5807147b66a02d54fd6da41349d44;0x14b874c2f23f1035fec2fc28a02db5e9d6b2bc68371bbd4ab78571c6e3a;0x6ad8af9586f24c2cc8a10a8d92e2b63a234f066a7b47875551e5a2a785;0x69cee63bf08ab93c9d139fb179f14397fe7a565e05e185734472aaebc6;0x2decdbf891879ced4e4ad90e21aac0200673b613e6cafd408f39cb17c7;0x1331e3a480661cddb4744c53c285477513513b66995a0589ff6379cebb;0x6c188038660c7abf20f921a11297524c44e7462a9ec1eef3f1992462f3b;0x630027b8aa0e015c1e4892823829818b28f2a4a141280e61334096553f;0x7bb70fa2bf742c571bd243eeb6b9881f968e65021817addcc7992b87d5;0x2e9d45cb55cc5ccf1834d6b32c049bc89efd0b78f86042b54e3ed22ea;0x16e4d0661bc0de214204d9024bb19c33ff118bbd3d56a8bb13460110c42;0x3469777622af0e2e2ee59d75d9585ce4ea128c25539aaf028746c1f98a4;0xcd73ff84c0b32c81bf010fd23ce6b6b3d0285965144d91ddcb0db80ab6;0x24442299605ed9b21c355ef8e35104cb93556895fdb367823cd4cdaa280;0x89c31a5ed6e80827f4fa012fb831553a5b8bb2b48410c68e006b5487a24;0x6ac56a1f7933edab1762a7989191acd05ab15ce89d171738c8fc7862339;0x3ceca4e650028c05f53d8a68e89b9ec89cd02f0bc9683af4f367c71f01a;0x62697edcd19966ac2cd881fae61a4ce8a949825048529c0550e52f39339;0x35a1f0bc707a23bfef2a2391c2cf3d68fd208e0803c355abd89bcbd36f7;0x44612c8695e35c5f826f881c068e4fa15f49e496d8b69c92565eda7fd6d;0xc9931fc74ff41c7609e6e7c51f379146cd218b565de6fac12de70ed24b;0x44608b2557b4c97e6d40c30937bf8e3b9c9c0fcf7adb0671b272da5398f;0x17c7d9e149157886e9582042f41bbf9abf29e272132cc7300350152b7df;0x8ec427b82d5055227fd12822abbbc89e4fd9581a6cca0a92e6d0b5e6b75]
(8254959361366692087094521958599552736149856986728481575631050697403242) (305852912761524340126384807729958336057871492735745874295893113231853)
[true;false;false;true;false;false;true;false;false;true;false;true;false;false;false;false;false;false;true;true;false;true;true;true;true;false;true;false;false;true;false;false;false;false;false;true;false;true;false;false;false;false;false;false;true;false;false;true;false;true;false;false;false;false;true;false;true;false;false;false;true;true;false;true;true;false;false;true;true;false;true;false;true;false;false;false;false;false;true;false;false;true;false;false;false;true;true;false;false;false;false;true;false;true;false;false;false;true;true;false;true;false;true;false;false;true;true;false;true;false;true;false;false;true;true;false;true;true;false;false;false;true;true;true;false;false;false;false;false;false;true;false;true;true;false;true;true;false;true;true;true;false;true;false;true;true;true;true;false;true;false;true;false;true;false;true;true;false;false;false;false;true;true;false;false;true;false;true;false;true;true;true;true;true;false;false;true;true;true;false;true;true;false;false;false;false;false;false;false;true;false;true;true;true;true;false;true;true;true;false;true;false;true;false;true;false;false;true;false;true;true;true;true;false;true;false;false;false;false;true;true;false;false;false;false;false;false;true;true;false;false;false;true;false]
[0x0;0x0;0x0;0x0;0x0;0x0;0x0;0x0;0x6ffa95a96c05dad;0xd34e60012aa908c0c038a164521e181ad2981f1629d82c906fafd7ebe0;0x25644a1e64c8f09b0c3eb6f13014728251b4dfc9c9745eb764c759cfa63;0x22aa1270dd2fa41b5a614c664cf4307627e2539ee6f18df34adb5564ae2;0x7e82f9f767ecde21cfb6b3ab1b18104c9984bf5f58f440ec5540fa9eb00;0x1fca0484567a008b840423f7c8cafeb2a85b37d9def2efebb83ad8eb3c1;0x17054dbb0a3e0b37d18265d3af378b8042e7d49e1209e6d0f089f599d95;0x20d3a20ce3e63920cbaddbd6a23f7935e4d512a4e79edbdf2b9e4e8bfae;0x17bf72f415f41b0f0e846b720dcc5f229129476a63df3cce6e8053b1f19;0x9f6d697a69f99c57ef306a14f7cd9d13c827e8ce4590d60697adb12cde;0xc3e201673341d2160935c587575d57491f401be8b7f382157466e1e6b6;0x5f61e6a0bb41fe8572fb6dbdd4ff51f226a6dbdbd29aed1dadf711d0c63;0x66f5d0d6467604e4a936f84fa3f4c1dce9a56091e6c7eb24212bd455b5;0xd5b7d1855371e98594bd4ffad1dff197f9782abc2642791edb96e14e61;0x2b52bf343ea46b6f19308f2dcf9633a9672a55cbe73e551aac1a6f29661;0x1bcff902f039438239f53bfdd214e549066ca40e38a1ddef5e9766e3fdf;0x6334b6e7a60abdfc4a73f679e39f4162d2957b9d8d79f61398b8554d9b;0x27a68ef8f6aa94b3ab4c7fe4f8eed581011d2f1a89b3ae7504f24f79d11;0x1962b94fcbf2124888e9d643050147b0fc98c0c5bddb7b67e6a9bab9140;0x8f654f3951770db4e3bc47d2a831ffcf78c40d21d0ba1d98b966dab3cf;0x8baa63a825f1617e009b2a562d84cd6fa3f01214ac1c2417443778d090;0x12460c1ec198801478eb57d1d4c24fbfe5d278de0fe6dcf9b86c536d5ad;0xc08e3b1bf801767972037b699bd75eaf76185cfeb04a0b565e32fe2939;0x575804e2892f5e1ef0d1eff4639424b629b7dd9f22014b773262b0918;0x1570594080a87dd2cf33b047e0a8f869103e3f60c9f4d733c930d6456;0x1d341541aa0e3b87aaf7381067db361cbd7ab229cf8b0b5c338d462e2;0x2e72cd9c6258e81fba14bee920476e4e9a7ac9a24ae3d3b0a23b79bd21;0x892911a9689cab2c8f833944c5894e640192cfe03f72233f7d7203ad6;0xa3aeb19ebff370466c182a4a393eced54c51031edb2736891b14740d7d;0x9ec6c67b78dfd44e6c221c756f201e873f1c393f3469abca50866832c9;0xfe339e5a04a7b4cdf3882561fdf0cd36ff9e89dd7f2e0f7872d376e1ce;0x150b6ae2a37f839f82e4fdb2a93606f26d092de518d6b7cc87d19dec64d;0x8b12863aec0de2c3ac32fb7d5f1004fc886be3fe107c6a69b2f4dc21f;0x18106bc2d33ab026c365af901676c3e36242d48ac35daeb46f9ad001e91;0xff4a1d44b5046de70aee205a4606d316d96c764990dc82838848a4128;0x3d0e1f7014c7d4887d7303fc6a0e6371b2304f85881d75da7aaf9ac008;0x205df1d601f03c6d7d63c963801398dd4b1a3958aa7430b1e8ea8c5173;0x79af784c72845eb98d65232d6d9ea7f80869470e60faad40246034b8a9;0x845d9d9b214ae49a1c126c402be4203519a332a32c3f768f0e5c6273ae;0x189bcd1c9d65f76a19d06468463db1c3036ae75d96e7157a03005f45f9a;0x283d7a939168c0c09e688ea32274744653bc045a034b764ccd8446a2d5;0x2a2261102f466ff4a1f1072f8a6e7224719cafdf1aebbceda13cc6359a;0x360b49bec435a89d528813e1b2302ad36d390dbed8fd576cc7adf69d96a;0xabf5eef21e7331ac7058381accbb96bf75893d96152968b28ebad4ad60;0xf39adb0a8c423d3d46c2d715794d1c1385ef7d05d144d065123970721d;0x60e74e1dcd75ef0315c7157d3558e9a0b22137775f934e2e0f6de2610f;0x50c157839f6535593be9b09846c0dab066ad04e8a4ce24d6647322608;0x194bf2f8c793c5e54b0554fafce8ec9e3d2795dddb2cb86b6bf6694c74;0x1ec96b739417c7efe83b23ee78f1bdfc8e1d85a680af89916f36c610f6;0xa7d5f376ee65c3df63312df7c54e9c56848f8f88afeecdd7c866db53b;0x18631a2111f43fc2de52e7c48f580d76a66b297b715579bc6ad97343725;0x1513817fe86196df98c92fe077efdc6964698daaf6c682d208d0e3f1045;0x1296b445d52f5de0a7d70358fc10583e805b9fb23a8e9d7d4a1e689123;0x2024dea875d9875658a3f276c1604b5823e4915aac5ac8d2bf1c52dc6b2;0x1c897c67704e8bf781f841db1d2c765c3cd2fcaa8cf130578c2bfcc8a43;0x25da5d319d41d8ea3ecc8a7ef96785a547bf1babb2a34525cd7d622499;0x6ba35771a2fb595e729b75a460b08bd54b4ab8aa6901032bb6a5ae34d0e;0x20090bff34f034b4ef396ef48547c328c17483d57de5931694400e538b9;0x14f4cfc1eaa3ebd372f02255eab78355dd1744ab71d246efd66a78e8c37;0xe66a84914ca38b6f183a729bb47589b1ed3172bc4f82d77751747f41b1;0x73bd50f79bc9520721d5aa4b61fcee3410c9a9a26582cbfe110f48e9069;0x274b14a74de742467c46ff3abe6818b922880f9c10c2b2b48efb8ee32cf;0x6004be1b3fec68517fe197dae25b74055385b683ffa6e19324c2cd97a;0x6f22e2d00da1cdb86b426494b70263648e1fdcb44973d895118cb9bc6d5;0x1bb784e2d683b14467728396274bdc208292f8a7e9f50bd7a7384051d4;0x3c8f5db0925fde5c129a6088a6f90eed4a4c3e00d2f3907d0f42b59dc54;0x141194058ad2fc96bc14dcdae84c0175828bf8a47edc58751d55ba42e1;0x15c90d12eac57a1893021026d4f30a6230f11f92e77bf0c9fa13baf38cc;0xcea8f2da61b38d3ef868bc7aee5e1acb56fb98ae63161887f5d32f90c3;0x1da9b04ab0f72f1965f924eacd9f592fbea65cca078199dd1d51115458b;0x1b1cf55a7a2de3b3719fe116bd4ffcd89a06dab6650376f075a76a99c6;0x3b32e86290063cdd25144d1457000192bfd4cb02412e53edd00f21091c9;0x2c7f8b25052d5543c60f17ae82f0518cfb402306f811fde917286556d1;0x23555350447d1eaf1f568b79a2c2b4021b7345f78c64de46266261a0b4e;0x2a9908446d80e080d70b188c1f8fc14a2818f7063903dbdf228d8c7b47c;0x2520c05d4890e93910ff97b5fa3f16a28c7a60e9b2c33c11ae1e40c1d;0xa7f6342bb0405928182c2d1226971a64df17a3076bacddf79e4356a84d;0x1463e240abec8ef24345975a18fdf92f0394ece715661b255a8cf67a2d7;0x468a55bc6ae7415c848f919f3265c00d22d8ab1a81ea8669b890dca2261;0x7b15487513aa4c0a708c9b12714430d26db8d07f52110af74023d9efe35;0x3d9a28e85c9d18fe9544b62b8594f5731974c0296017248ea0fee189df;0x802da2da6b4424be0ef9cbfe6bed69748a35395579236a326827af3be4;0x17136eeff84249b42d8d60571bebe348fdeb0b5c4453b48759d0a29289d;0x1ef81673468575c15fa19f0c2a08dd521a00e1e9b936d80b008b13b9fc6;0x3240b0ac63e4a6de9aaee49b7d92c8a62a8dd0be50e79e7a83436e52019;0xb9902490b5e241d5506d98c9251c7875ebdb583ab6de7efe6e54097bae;0x72064d6a88f0ebdbd206cea21fdf6249c2c17e0d68b4a652597b2341f9;0x39859634947f4b8e0777b2ea9b937deae6cc6973e56bfed330c2582ac8;0x12ce26856201adc53c7a4bb8937e5b800b0824d941d64bac73bd794bc96;0x166814211848080980f5f0c5df9e1a0fbfd0d495c42eb38c0d721aea8ec;0x167d6be795c1ec12028aa79a5b16f3672931a87a311ae75e4ba0e3499c6;0x192a81ef9d9651cf6b354d14e9b02a2017453632a951486e68ffc323430;0x257e840aadc02fdd2b22416dff977cb64d4296097c0e836045f1392955;0x38a284c251d636e66cf92c52cab58796adc14db5e435ea6ffa2e3f8c27;0x50f0d026949ac18fbd20bc12181ef0a49b8e1b49e6137ae3f4c8d9708a;0x4cce642324f7541a22e8dcc7cc6de6fa678fc3f9082bbad2f225a27a63a;0x195d9a019ce36e59d87cc4053f17c7c6797c970561e02657ca0ceb16dac;0x630bec4b2c10821853212be85318c6b783dc75cfba5c665f768da6cde7;0x2f80712061de811aadf84d1ef8c38937b01953da713afffe918e383885b;0x9162f3b13bab4afd4b264c2075a26812e619418cb0917315a8d69393a3e;0x1ec46e06c4afc5fde86ea6e8074919856f3977efd8f8e2887bcd9f712f;0x3896ba6ef5071b23d864ee6dab88e55c913ad1fb0d67973ea1d8402819;0x461e8d9d10a6d4ff3a654736e4899cd6ab6e1e3c715b76fffdf6217a2;0x11a49cde6eaf1d5eb4e255402096c667a2dd82fcb8660489f9f93477c29;0x131bd8a9555c80ae5d35635c1ed50cac58d15b40ce37ab9ff704e35634;0x17fd045b0c93ba43f2030054e84e0f0ebd9836d39f86a29ff80e8149ff0;0x3e7169d440c49d5befe287f8689bb785a98f29ea423753dc275af66c4ed;0xac1f149372e411b92d9f7b5ee00d13e6509b0598dacbf3a859894e0315;0x170de7b9eee3ac9fb3999a900e0733182d6fcd63f801415572cbb73fa81;0x5b551adf09b54d335bdde67ed7871af8dbac580f3efbd6e68d456f4fe1;0x4529a4e4259a9c4da4aaa37f8b6a17fee2baf7c173b7b686d8710df8521;0x1b4943a18d0d810552400ee64ab149ff0caa4c1824fe179646972cd203a;0x45666a22da57e03406d8877e411824ba0d8601ac9038a9c9d54833adeb;0x3190039008fb05b7bde036adab1a9f4b44768d71ffc5baec067bfda8b7;0x6e8884b5e93c165beefebacf36d16718609a5c206ee1d87bfc87b5e5805;0x19cb24c3f6756f43bcdbf5f1eac6c598291c4b50cfd286f99e017b66216;0x1155368f987c27806b2c6fe004317a073c031a551cb327cad8e75ad26f4;0x2182e49d7bc36d7688058820f992dec5942c695d2003eb6d171b1c84124;0x8334ff9a7433cf0ba39a2d0e87c60609064dcf4a2904fd8f77a16739fb;0x42c1279697373ab89eba3331e20dbe7e81dcec5d115ff6aafaba2d8615;0x3c424b311e88fc1fb4c5dabd0d12cf7c190cd656c27cdf82555cafcc39;0x13fca4b1935865bb78ad80578da5f051c5b77b2ca2016e21726a4319b85;0x1fa8982fa88ce5b6ee120828b405137d18b079ef629d72b86c7f4088c8d;0x6141f87797da260ea3109ac5c1ebcb95332b3f0ddd4ac5402e7b751ec3b;0xe9bc6eff170810445516ce0b88f352d191321dc892ab09d025f49cb6ab;0x77deb49ed87eb897420df3d2148e09ff5e78a25a7c526b52b879be26673;0x3481bc2fb5560a3a0ef011c6e1414b8ffa0b9c52c46e1df849b6044620b;0xde3ccbb8b560ccea79061fb4508f4aab7cbedbcf0706ebc7d73fbc574;0x1f6558ee93a8b87074801b59e2be5d52cfafa6f5afbc1fc859bab37bf88;0x34343593f9458c867777a2de2f64382d1aea50dceb2aab30c51f42dc93;0x3f44d9868b7dbd011b18e1c2775de3da14d329021e7c82302ba971e0;0x33a22610fd3fd4efbbab2a81ffbcaa8fd1409807bc9fc1b7c9d08681daf;0x163851739d7fb9a7988f1d15573a3caf7474bdbfe665d14b79d2c4a5e91;0x1e1868306a9b97677ba0775f1a2d8d262d9179f2faf0c340551c9d17775;0xc45a8c4aeed2f37af88ba29f4c6ff295bb252d1e5567892ca329ce85e3;0x4e594f43b3a54fa980b446285aba3ded625831e376e7a30e828343a6a66;0x4fb6a6f303dca7e03919dfff8d9ee4dcf710b29a6ad86566fb4663200;0x254a086c8053bc2a38d4eca455fad6be9088c47a17096a16de1e190c5b;0x6877265bc0cf1106ed4406aa876debee6556e2f978db6262a643238e0da;0x28c48a59cbf1794cf85917f88e7f23606e2c41cb2fc14858131880eff13;0x16d1ea588fe68cd074cb54deafdf725e3d482f6d2d58eb95f7c17694f2f;0x5434dc3565f6bfc5c2b309c97e9ed76cefe05013065b43904ebcc18e;0x434219c40c35b2c6ca73f822108f4ae8f6e0f2d23f214babff52a353d42;0x17c0a70b2f6090b85589335b75d5418b615318e76a174c231ead4f55d7f;0x36a5d37f2e6c8581d486e1e7905938d9f0ccd34d89f215321c57e20efa;0x1350413ec4c3e495c86d943b0fb8b6e3e604a6361d33b015681a950cfab;0x3536dac0a31fdd3a5a1eae211da83a9fbc7558b9c7218a25844c682cbd7;0xe5eead42377d55559d9f521d10b224928b27163e764a25ffd51c1a2961;0xa57894de3cec3ff0ed383aacc72adcc06b243530b5b46ba4c2a0db48eb;0x2cd71c2bcfaf354151f5d25630225453b973ec2eab071723d753a061794;0xbddb19fd856075f8887b70d78c8349b6ec2de0763dd8ab8032917d6317;0x1db36ec625e0b3f0b9edbf57a1aa893e50834525ea69b3b4b109c155445;0x9bf6a8f110faa73f03f04735e06785de0ad31b7c36383b24d33e092f19;0x22c1d878508ba2bb4af782c0df7ccc7ad4bf1279738966d72c337425030;0x1efaa34a91c56e8f0f4d533028917ab71940a016b03a57bf64f4f38388a;0x20a98c1d124b1207e220848f8c76ab349f45ab3ceb47caecedc9064e980;0x7f6febaf4c42dee27689551137ba70b8a1700f8517b1f93173db7758a9;0x23733473b38426c72f3ace20a6e4bdb8e90a3503387092d45b9fda7f2a;0x29583c49aa0b7c91b45e34e1945f5468f47f50f218010b474f41a0e3901;0x76c9447df707c0d7c95032e12eee04ebe42b4b99e43ca80e545fd81f;0x42a21dba4f0a82b6cbe104e29b1402e763e847bab8b02747eabbb49634;0x1034d40354c65d172c8908f9db42778d261b799f52d5c7782d3dd2235d3;0x161b74de8fa9548825ccbf2bde26d9c57c7b8de57f437d7cb5058cd9289;0x1984fabfe27246a6962db45cf670b462d4d52aff193163b2593e81ac47;0x451976fc3bc6cf668a18360c001070994f8da8b78bdd93a1bb70dea87e;0x8513aed5ef40b0f1095007592df341e9d4d8f05fc732845b3711842bbd4;0x147ef52515e4620e31c657a2123a94595698d09f37fcce4ebc15332fee4;0xf52818a3bc551b20672c9628e208564678604a1fa3f95c10dd629c982;0x9702f8aa937f54dd45c9ed1bb322c468431241830fcf69dfd1f8efb4fc;0x890f9193518102aac42fe693e742f4a9a8fccaac19465007c2d1e5d63b;0x1edde50bdc22e320402c2b3338d3fbb4a7e8d0d0d142a2a3c98db77e8e7;0xa52d98c6a867949a4ccba1b660d149df348b669e00129a65aa2983a13a;0x9698acb3848aa13d91bf75340a928ba9d246f52a1a5037ceb3757ee2b5;0x74c840d387530855a4e84a041163adac76a72a75cd3ffba82d8f19669b;0x425ca29392eda5e83f21d6ee52c6eeb409b8c2088247f6e014e2eec39;0x6c564577a1b50a6f5f79a555006012eccb49c361aec05f5157529134d0;0x34d348b604f8b71d844dd23099ede45c2b662da0c3685b44fca9b23099;0xadcf66fbfceec4ea34d4bd906c97f8f23518b62fe3b8338ecda46861b1;0x123814c056f0cbe3df0116594b1424e79436e0214ec80a5c2d9539505e;0x874c2df6982a1e8531236a9ece4ffce9f87d2306fbcd632751a0985ae;0x198e59722b202eaf495ab59e64962e9d84f7bf3a3e1e8b9d3dd15578e24;0x10cad9399fd64c08fc51b0ad1061476192c516ad86c2e7f2129a1bec04a;0x2e1a9e8a6206fa39dc764766ff1d16b98db7a82beb486450bd9119a11fe;0x38c38a3debd0ebdee33515d101436f88f00cf310300dac43513e45bbad;0xd59f43b0dc2e6b5fb8c6daeda730510f242faa4f8fc5623f296e99a2;0x8e6f6fc9e52eb6dec19775d2f73bf0e5cec598d68916420edc20f3c0f9f;0x1a4de8180a60d46eb92fe8d5c058cea0e1992870dc75bf32fdde890414f;0xccbe43d976b77cd2cc3986f37fdfd266a95d3ccbf4a25fbcdbbc90853;0x1c2047433047c34f3ee8200e703aaf76eea2e10d803afe14c28bb3ac591;0x7b137728de5dcfbbb79d2651ca1961b0604d4a699f87e29ad2f6ace5455;0x5c311b648404d9ad475107253c4048d5b093e64cf612bab8b7fc8fc5e22;0x15c3fd6613ff929c55ec6242b10d7c9901f0c427960729d454237642e3c;0x7948398f4fadf325b925aeee6955ed5bf80426a8e0d4ca822e8357c8a5;0x57338827b3a0d78b14904e3dbf665c56c8d1b758400691b1e9f02713aab;0x50c7e1f97801d1a336b9e55103e867f1a045bfa777b5688fadd64eec37;0x608f91ab83a452f50e4f2d719073bb5e4373fa51ca8b13ccb8da9baaea;0x8d7b90c879a2e69717ce9ee1ee39cc189fa526aa27550610ff739fc560;0x5e15c1ea82fddcb98381a94608bb1645ebb254044034596f0977789ef9d;0x15f68d4945f8ebfe288d65edc351ef29f63a78c56f02acec933768a0b5a;0x17ee2f13ca7d4b8a244d9d7ba3e5e58f41385c8cdcd98fa38fcc7889e66;0x6a91bb8bc9d9b76e5a5e29d870662a8207c50cbd39e4b7180e7b2d69a3f;0xdbc0f3ed10f1a72f7e296042f31a36ec941027edc610543583e00e1721;0x82504b4bde8c690146233bf813b99486838dd29f04086c6ca40d53b1028;0x87fdda4bf007da886be7b5aab79f7d2751173d30f9d85b062dc375ec79b;0x669f1b70dae56a4022258b4ba8958024cf7257e22470986bdcdc932e094;0x3044740a2bd43a82a0283a8bca9e53d7a88ab13682db3201882fc2f256d;0x114820fdb3dd6923e33f558a2513dd1d926ad93116314bcc18fbad172c1;0xa015437db1adeca3734d1a21e615d74f75a68f0150520a61c523312c;0x79e9c29ef648ba05f022aa8d4a77684945db426526e69875d411eaa7d7;0x59ba2f7d0cb3146153585dc52b7f62b0d72926d3e3c9c58be99746b287;0x1767443cd22cff1df1e8a67ccf6a7107cdb32039e99799c5b8e47702036;0xaaf2f211dabc1660649bd189255ac886283916edd585a0d34a79e5f64e;0x81b159257e823d37b0852caeee6c14b36997e3aeb8e612d0029baa90706;0x111062bd5976d8a043ac7f343930de1afd6cf8abf7ebeb99295e7f58eea;0x16ead18b8eb0d80c84252ad2fa2c7a32ffc521cf5a7ee0e37cb5b4b6a61;0x217f3f846cbd10060901ef3b5d9b1ca287fe698153f0cdfde72fecbba70;0x1175566209b20b929a849c5cbd342bb9d178314c77989303f9299460e33;0x1420424078726165649981e8da5496cb8b16d500d02400707b10e273a8;0x24c827221fc2516be742418a6b5cd16e84e12ae7d4f3071507a315dce9;0x22413aca8fcbeca8023efef2f2ae0fe36ed59a8205386c4492d29680de1;0x90f0b3bf4cc9e20d2223a966f929cda464a84e8a6b78c12b51c1a0926b8;0x7f16c0b6975680de45a6e0cf6ce5142038b1fc47f1f0e0377cb888442c8;0x61d09fa3e351ef1794664ed44f953c07bf0a63dccb814ead0d586e438;0xa030cbefcbf5dd5dec75ec7ffe9c88d69ce7956cb0a666e9ef6d852fa7;0x14cb7538e16581d20216c21f24f9e5c12c7fa51b8c151594f8b8ee3b858;0x24940de9050250a366a091851a9a9b1c0b6ebd56195f3b017baa5e86061]].
Lemma prime_15778400344354997994418419698270088123916926905054652752758194827714659 : prime 15778400344354997994418419698270088123916926905054652752758194827714659.
Proof.
  apply pocklington with (ws := ws_prime_15778400344354997994418419698270088123916926905054652752758194827714659).
  - unfold ws_prime_15778400344354997994418419698270088123916926905054652752758194827714659; repeat (apply Forall_cons || apply Forall_nil); unfold wprime; cbn [pw_q]; [exact prime_1125266252156850182658904441386709967].
  - vm_compute; reflexivity.
Qed.
Definition ws_prime_modulus : list pwit := [Build_pwit (15778400344354997994418419698270088123916926905054652752758194827714659) 1 2
[true;false;true;true;false;true;false;true;true;true;true;true;true;true;true;false;true;false;true;true;false;false;false;false;false;false;true;true;true;true;true;false;false;false;true;false;true;true;false;false;false;true;false;true;true;true;false;false;true;true;true;false;true;true;false;false;true;false;true;false;true;false;true;false;true;true;false;true;true;true;false;true;true;false;true;true;true;false;false;false;true;false;false;true;false;false;true;false;false;true;false;true;false;true;true;false;true;true;false;true;false;false;false;false;false;true;true;false;false;false;true;false;true;false;true;false;false;false;false;true;false;false;true;false;false;false;false;true;true;false;false;false;true;true;true;false;true;false;false;true;true;true;false;false;true;true;true;false]
[0x0;0x0;0x0;0x0;0x0;0x0;0x0;0x0;0x0;0x2760d74bcf32791738a0406c331e9ae8a46e09d07fda82a52f7d1dc780a19de74e65c59e8163c701ec4f881;0x65dfad798d377cd1e5eff85e8fc9c6bf109ec032bc8b76cd14162b032bb1c9b628b5eb0a08f661323d89e9d36e931149;0x5678d8a92a4b35696ad9f997edcd81692e436c755bcc621f7df31193d366eca017329516384526f408b6676d35c6f535;0xba9acc48ccfd32331ad31b7e6f3aa453d9dd2398bd10c34112305247ca6907c690886d9c89676969e4290d1322eeb21;0x54ada51227e1668f1b564eb1672cd57194a7bfc6b2e8d8a14a1738a35e3fd8b6f26a588798addff3040b1a19f4447e5b;0xdfdc78f66cc0a0dee35ad69563c8379538c6f1ba887190f485d4e3d1991e0f705af5ff412f71129a3d0d5e13dbb1b0;0x3aeb2e0739ed89f519755e6552550245bf605abccea9dd1588eb748768b54b6a0b23ba755068abe7ccba408dcc673201;0xd4c3e5b9dca5898e97c7ac9c9f9e634c28ecada813511af412a8ad9460800c80789f694c60c78683b9765e27d61206f;0x199c3e270b4989fbf022d30c3b2e8a3e6346990ef24dd256a3a420866fe3294f66db7b19c6b5833f0042a8b0a92d1ef;0xe3de4a89827eb4c4c46b1b201750e96235e9f5ecc5404017d35edd0a1b7364d7237ba2b1b38616b68344db2296691f7;0x41b53b61d407a9b29777da7a7c42819dcd3b0f2551fcb0401cf4e155bd19bde8fba7373ac25972debbbc117fbf3ceb42;0x34ab96681e3e1d3dbf1a62f91e8682109c93c7657ff906b4112cc0b57d2a8241b13d93e183f2813d43bdb0246845b9ea;0x9a5c1c4ab889ca4156835966a3f3094ea5a13b94916746ba8dc445dd638b2da3958afde74fd2afdf1c176ec3b7bb4d5;0x42bb69318e2948a5820ebdaeed46cb1a3ba78f4e0479e6fec7707ed4efb62b7a2c2f5c8a12eb3dd06a7941f9dfba08;0x74c36f221d621cd163cf2dd9515bfb63fdf79c30780de8a6b95e54d72b6a54454b8d6db3b387c16bec8182ff220019b;0x1305f4c2096ccf369db67fa24171fa893fc476bf78b49328e06fb8a0539f102011abae4eee53a81cf28316cc613f2cc5;0x61f82c759fc008469c103cfb670f8fb90a1d213bb6123adec994fa3a655fee910da2fea3963bcb8c401e1a757499514;0x11b9f60c6896f5a1d0219d1f7951efbd964dc79e8b87be1bc77aca5e05c78278e128dff1d12fc60130cc523678688723;0x4436bb15b19d561a937fc6241ed231d435e066e928fe9da11eaa734d3297a355cc65ea53b8df697c7c1851265f0e2e59;0x5a97e48c772b5291824b7fc9bf267c730425a3f0a1a9480034fc32952e1afee24c3997687ff25db2f99032329bc8df4f;0x16b52d5bb86ca446c7599169f2753f045735f688517f0553361dc4bc1819b535b1b294c5831ba9c1caaba5a92171fd2;0x5c3d6fa56ab77e0f8f77107eee6aa47a8fe1862c2621cfda9eeda075bd52b242174eaa12c9a4849ee116c69027e8b2ef;0x62b0099e05005e440d85aa8fbeca9b493be3f647bd0b3aa95a82f089086c9a9e6ad5a58f06ec5c8221717d6976ab3971;0x2af59f7c1cb6d930f6e69507ffa9a462b5e6c1529ae8ee39168c22f98108341b67ec16827390e24e9ca80920266725e;0x17e51898c9715395c8226339ded8f4b9324a808cd823fd69b56160546c46e352f037b9e407327051a8ca706f88a1dd6c;0x14eecdc3f1510681bd6af6617d582729e3062f80a2c172c09e5f76f299dec3e9e82ec3610d134c41efea87b2716781;0x2065861628db9d76284c876cb008a9a30d921bd79be319548153cbb35e45e17953f2ecf0d3f43b61bd77c344ea2c66;0x177e3bd158e561f75e9ad565ca87dbc76b9bee89bfaf586d16397d1ab2007d2ff0db29b6abf70b17d805de1605d380c9;0x391fa2cf74865ba6206a74fd46fd53cfd6575c7e438b7eb9ed244bb5291d8669136ad6898401f34b4bbcfd384842c463;0x1062c98318f633c6a88c4768c19b1c832fb74c9a1518cc29db3f56a3ad28b83d6bff3546a5ee3261c53ab9a4e81a06;0x1683e57b985738fbb4fa40100292330cfe15692107baf7b495d1b5ad90b6bcc58f1b7b6edac2ff462a84db81594a3198;0x8a08b944cbd4a4773a6c4cc4ba6fe5fef9f4167688de28d5e24c4018289e1e58ede8b77ef03382869177074eca0ed2;0x2b7e245392dc94f5835a5b94e34f97eb17e0c146f504b696cb35d4255721162f1d7c6c3b3657372de01792a953facf8;0x20c397f1872e00e783bccf74d14178fb9a3274eb54e853d3651bab1dafce5b3841b5db87ce928b5aaab8d9c28afdb8a8;0xbfec3ab1404d46385003e4b326519375df8984068a6285b55c9b0adf0d0bac1c1e1014903427b6a20f2dae04d69d5c5;0x28f041d797107122797fccb60249d4f825c2f553f06a29f18382273a9a13fdfd003e4abfaff246af670d79b8e2eb389;0x7b0a4de3318ad8b5674aa4f38422c210adf9e7c4b47529b143277525706b31494eb5129bab7609d3b3f0a52149cba6;0x1099833adc25de3daa4226983e28399bf3b25b7704e4e4b046773db260fd6f5787a2d2c358cf7b775abff7319b48993f;0x25b26f38981b9fe3678b9334d18508358c532add18aeabc05367fdfea042d53fe153eb6a0b26b482e58c25b8930063b;0xd5a36eeec79e23c188d0591b4525ebab2f994f2b719da9ebccef6c0f059d3ddcc7ef03ef265537006bb5d417534f9cc;0x1b2b86e80269fa2680ee1d9151351cb66ae11378699b787c08933f30f80e210a9d4b021d384798fe52e8adeb413028fa;0x5acc1c7842a82722045eb72a483d262a0189ba6906428d1200629ba16c7cf464310f5f98e66c37cf3fe5472cd2a7aa4;0x79693235c33681f046f3f907373dffe81a250186d32f8a82d9a3728eda01f66d040c0bd1811c72d43997039dd0b31b4;0x123ef03348c8745f5d5c2f0668c51a3263754750cf4dce216c9fbc1103acbc3ac20f4902c4c39ee5bda043d82f34a6d3;0x46ea5ca2ffe9fa3c8790f8128f5d46810a4649c0c5313f08890487e0376c99844411ac2e490b2923b81036471a72fdaa;0x2e2be0805eca3006740c7112f997bbad987e5c6e859fd992414f7a39534785a2627ec3c3a96638eb836ae3d6281c7b60;0x28ad4e032b03f78a55f8f541be26c6c57381b3c09387035442271581d819fd6e14e38e5ef325c3d620f522fe8bea1;0x17f93126036cb2a3bd397f593eb512a99f3b3f4abe327ed4e089b85384be376302a58beedd12c12a3dd666c5d2963969;0x203709b33b817287a32fe20988976ce23b97f90eaa48a20c375e06b836bf25dd96cf77522bcb24ee5b6aa9d434f32ad8;0xf4254dd64ad677a8155d087643e45b658cdf2137894dfd860b04c7e51e9470735f8e7b05db192b90152303e25b6c68c;0x38bde3fb90ddec382f6ba651d8a77deb2ab080a66c10b90be38893e39eda3e134bb9405f6be0996840f1958ada55fd;0x151c2235d3aa0375f079aa62c2f346611245345c0b859eedf154b981924dc10ec3779ae46b5b89f6a77e909d298c88e0;0x16582202c1373928b6be41c4c058d3f4e06ca1c97ee160a8e40f3e5696ae74921df9fef253b6fe29a887c8af2a87186e;0xfb1f7d387f3a8195ce3fe4eb44b09c11732863b45cd5dd88b55350591485becd7e3ffe319b2b9dfce4b00167f2fab7e;0x1e0269349871900040c8a2ce5bf8f2fdc32a301c03efa8fec926ef03f423a10e7172f65fec4d832d704321f34209174c;0x73e11191a7b5b90abb89ed3ed288b1042da41af3de5f0f51a64f199bc7aaf8fed1d676487b5ce1c68aff9bf2e5def4b;0x1244a1e2bb7fe3473c2177bd9608faee6a960b7801af38880a689bfa3d3c858ff215b56ef92cae1e2b86b16ef7d69644;0x3d1dafb7bc5c683819456b5c47fe8a1344253231b81e0c57472dd8d782528cf9d4ba00d7cd78d71354070bf63144fd95;0x246a24f751afa869c869e838c8167aa28e9b91cbab1f7e8e799be81a1a98c9ae1419fbbfdd50cefc3ba10a720ae41b6;0x5e18c2f5f3e04eb36f3cc43bf89fb96125cbc214f043add9fdb2b1acc5d8b8d2433c5b4270221b3a045f48d4a7430438;0xdf7ad945de9f5b2752a4f6e91ae850b7e1938a44fdefdae91dfe90347313b6457368499b2083092ad1b7726d2f9e2b4;0x35f148e909fed11f7ef76880a54ba3714a2c1061ca7659241b09fc68fb16cf65d372d231cf36a20d087ab726002197a3;0x1f01f920a56e3122ff7b66817d4e8176b3fea2cf3d517914b2abb69ce6efff08464318f765a1e01b1ed93f35dffd4c7;0x116d0104ee2c650e283fc1938992f5286de0af28f57083daad5a3961470b92e56c6191329fdb8365303f809c2db37d4;0x1c3275059113c9d0f5d63e79f6a985be3bf02db09563be5779a378320e2aa504e074acfb3a92964b60053b97cdc42e31;0x3cf0532f47ad8a314c492c69ddfebceb2dfb4acf61ade1ea593a42cb6f2d00e0521d91a405ea528b7371c6fbb14912;0x64e179b9c04de78a4a410a38877329d081c585ea5c6c79ba3014b7e274f879093e745136080eacd8bceb92dd1469b2e;0x1d778a5c1ef124ed0d22b1dc13ed2e80da6fc5c6154a320e35b77aad5f43e3cedc56048e07ebbbbb39af043872c3565f;0xc01cd5d077abe7cb0c03da9d3c1716eb1500fceb1efd495b775b1d0ab5036cbc37549a3ff9d093dfa000e353ffaa8fc;0x1c9e55e8e8c8097b9f4a6705db22da219a6088a95fe81edff75bd105a33c88a806b37c566bc57bccde9f61daceb95a9;0x147a083d90fccef8bf51785cc3314ed20504e8b16db7287a8d4b8c8d854d830e1f7eabbd5c63e467b2614ae78a578bc;0x75f8cef87bede24baa1dd6b534fedb731f889b0e5b10ab83a142956fc73543564e98d691cc0773a0a0e7c7ac8e3fc0a;0x480facd0d5d5e336d2d959176cd16b00c76d9655ea2be79132f29694b409fac5448f72261137d8d5eb335ffb4e208d9f;0x16b7f6782c9a0ce359a2977d125f756f7ef86a90e762e063164cb84b6a74d59d7b21f9f5392dba1c7f0b36f1649310;0x28cfc2775e42a1f029589ff03ac8115205a3e6dcce50b317c559c0c51155774eb5304c9e633ec9e0635d61af0b08f39;0x14ce34b60b0f7e8c53ca9dd31570b9a1b90018ba2f55094f5f6195437dd747fed61747fdb88a45e50fdbf91a8ea73e3;0x157650005513df76b33ec084480b52e329e09611b9b5c13086290c846b5061cd2342ea5e05756fbca04d2563ce6f7019;0xc8c856f75b4c7c2d0eecb0ebb69147639ea52aafd9838bbd7b8784dd48e0182f7c91b9446bad49fb4d9b5b1ad95179a;0x21ccc9c82248d7f66d60d88767a9fee226498fc5e3118bbe4ebec7dafd49c9e9923563885ffc1c873257fd57756aee98;0x53debfe3f76f832c475d0bb19101fbfee268c73d8b33e26c5fb30f29b3095bda4529c20673beda79ee401fc12af8c2;0x153d14d14177f3bc8acccbc45aadf4508fbc1170ebf4ab50be58e1154d17bb86d356d6767a963dedde99dee9c62f6d69;0x65c42248afc8da8c492ad48ae53baf45f7c4ccba5590e10e3d3f7991601225c57de4eba23f8a323d3ba83e2d3bb9e23;0x4f4fd5ffaa9bc595aab7014fd90b2fcc9b094e3c2873ec5408a577006ad78eb7a96852a996302fe9b0818518230bd;0x2187d8af81c4f5d5374d3598686158979f799cca27c4fed30e0ac5d5806147a2c4e57dcd67031c69f8beb2020581f694;0x3919f071694cf037af49714f1334888bfe60bfdec3516d379653c810ed8002a076f7083c3e6aac183ac1bcab43a6abe;0x192e585b77411e58f302d9208bef1695e5a28fd92bac5886c9e3b0bbe8dc00138d2a21078fd56b708f75b8d8deb97e8;0x1310b42d038a7eb7e7ef11c91e7f436c8f8027c0d9bc166d5fe1c57bc9607a754a217243aaeac48e9a7e3e80a97390e9;0x11dcfb8f4b501e539bb918c288b1707ba2665415397738bb75bf760983e73ef86079b5ae6f255458b20919c26eb0ac4;0xb9ab96208a59fb785f482e2d1dfea14c54ccbd43ff6ebd5adc9487d31cb1c3f7485b621131e0137ab19f0717be1da3a;0x3c5542d168ca29d5ea419c50ed4afae30a9ccb3430ae85f24960f0a9e59e8b17ddf52cc4c7cfbe058840c8dfdb35daf;0x165a2561682a594df87611bec5f181088be2ef763d8ae8668353b017227d2e739ee01d0e258765e29615b97928a4054c;0x247f5de698d14d9c27fc646ffcd8834b3c6afd0c565548de10a5eecdcc5843dec8aa877f9281683c67f3abb464ba045;0x1512ea2e02c9a4e285bd2dea9bd9381d93d061b9cd0c0987e25038ec14e2a91588bc4fa07fd0712e7aeefea16bfeb7c5;0x7d8a8c8409b6743ffc96e22049af0c11f99d46267bf60431292f03f3638c55dc2a76b39262a3a8a704ea438f67f1269;0x34b46b3620ef38d6981c292e4fce9b986cb88819add4740556ca1ecf26c36163224c7a9056950f02da3bee8735d9b;0x73cd9bf357fe20f33e15af345a4ec3b4c8ef7f73cca51747cd47d5e9e2fa4cd4578bedc6478619f1b5c4ec28f022ef0;0x1f863936e9f6f086a2dbe6f7e5e3efb90d2703281366d33bf31ec7d8fdce7429da28e5f311f291368ebe5a8478828cb;0x1ce7bcc0a81dc36517fb0e45a3aed04f43447cc31bd60519783301dc66d2034272b5e001a6e4ef6266817894efdb84ca;0x20e85727dae0425d4901dd70aa93bc9360168558e09cbfea68d07366c3809beff570c64f643527c18df1df154371bada;0x186e24a8162a1500aae299994e5299c5265ffcf18857436f721e21cd4913bfa03f2e142c74355e6b4b24cc10bb287153;0x13bb8694cd7cf5adc1d705189cb0132de6b4875476586e1cd5008efe091322162b55d6dba14a1244905a18507ee19cb1;0x5c4dda20d84ca3b7c33437e4ec6d754afdf7a7dea3ce6d16a6edc266037d736d9861d818bd18c1811414a8bebe6ebe4;0xb45412169b25e16c59766e8d35d77af0fb93cf83b05607abf164d3668de638defb35ae710946b8a9e109818474badf1;0x1ada14b2db951c006a4186a086933c2c9d970b269c21c11e3599e082ec7eea3273325aff1d35d3797f643c38b77b1ae;0x30d22199898d86b40abc946990fcfe6ad240109dd9f61e4f22286c7166130de7c51226d036fd72708bb45fcf4c2aa1cc;0xa29657edd7a7bb02f28ec8343f9f6cd96e0c9a182b3548ad0bbeb866d8bb7540e97b53c3af7165462faa5cb23e89882;0x9dad2bd62bbf5b5d3b92e37325c974bbde018342226cb115564ed0f3ef12a5e8bc5218c384afdf1cdc3d259740eaeb0;0x43fb62179d3db8eb2a0bc41705429d3e9876f52a81d4c26c5a0cf5ada9be6e56b163fea0066782fb56be7a2ce4615;0x6a76bd88c8c24e34bb5184230531cdcfefd4459b82065ec1508a28124c9013abab8a9b50b420fc314aa8b412495349d;0x1441aa74105955229f02e4e46a844fe697a898948aa2fb7931dad69a196768219992eaca3372bbe8136593abb20dc02f;0x5228ac30f80674e3dec911f34505e43fdb7475d6a72222feb9ed46904fc82694a36a10c0d93984ba59e6a8aa808f629;0x56aececfda3e9b884b86666f96de58b059702756adc760d89f8cff1835784002ec0a02a5d951745d8c048d89945f751c;0x7dc6447d2d2ebde013a4f4cafde63ab4b12b545c123cb04d41f01e5ae56756e13e1b6ed4c4afc2d5c423c0b94957e11;0x18f73b3509307f20329ad5b7f675b5c8f44e9fd43cdd1c4d2080474399be903b62934916d69e516a1b93f7d2ea5922d;0x53f70d59e1f8abd1b8cc20618680f73e493ea28a95db3b7c72c77e6df0ac2a80cddcf6a5489f3b4aae72af3b8435abaf;0x1fa4d4c5a2a458e28fe48fa9bcde614a352ad15aa89d3e8e8a777069817fd5b00963446496f095d3d4c3300ef5a46a9;0x1317c1e66791c08f3c92dc8769bef88e5f530dd1163e15f656540f2ac82aad03823af1667aa82afa61a98a03c35921e1;0x17464a428c2c4469cfbcce25da718ff5d19c5e110951a6b122271d5e651c07a48e1655f15d72af3127f6a9a2186c46f6;0xb7ff1348d68c9d427ed69e13a5e33bf0a54a9c0b21c2984d638d8540fefd69be0408c104be010b8f9561b94fa2f774;0x39b573542eb3e756089fdcf14f3f3f805fdc9cff3189884dd2b2f1dd7e896eb47ccbfee399ba8c10cf8f3053904790c;0x1f3afd793765846ee8e32e5f7b462b9d7cd06dbcf81e2a1cfb904a8388025c47bf936ece0847abf445d66c2dbbb720c1;0x1ed9bc36fedb2b86c78d351286489e851f721d0c66c7d7aebe3764d76f5a15abe1490d06057daedbd5e90baced034e7;0x49600a2c3996f173af83b81c835df571d12f1a330fca1773432e395854ac37ac7771b93710541897eeff12c9a0af9f;0x322262087f1346017b95930d7454ce8bc11c1b226166c5837ca1b3648b84415606d0efd7ea91049925558cc07c09a98;0x2a198b0881e8cf7e7bbfcb450fe007b5fec1a9ecec861820b6685fc2ba11ab441e19fa2cd20c427c33bf3ae723a8c2f8;0xf522790b4a18da638e691fc609ae30529d14a8ccca1e86b0bb4d8ea2b2f7e98854d688a103a15606525148da0129f8c;0x616a31a03953377f90cfbc6c15c7b4acb4e744e40b5421f4919eb8b6ab027b5f2d5d1302f39d27da1ea91787bf7db86;0x501225465e2e1bf0138144dc2f316e84bb7464dc48654c2222f105141bfa860c2ecd30023cf77516c36b3f1b2de539;0x61347308ddac454f84b44f8362abeef029ef8186946c32074a9cd030ee33e7e9174285dc007cea0b612662b21b53ad09;0xe635bdc2f8b89b0de351b23d4e9f910bced4ee769eac8c3c1c52708100781b997be8c8b4e991857214f6ef96cbf86f8;0x1968fbb4208a5073449602fba446d09bcfed51ba33cfa7d658b8dc45780681bc8e8232e15cfc5b418aebb7ad2691c1a3;0x7103505b46c7fad02db37291a058f7a9a7587f51773b6202eaf710e49d0876683aced31f1408b802adab68268590a64;0x362edbc85d4f59ccf36bd84874d3a955c161e9114b0b10b1a9473de42b20433c63f2ede05fd9d52b1f6cf76dd2804933;0x4ee7f6bbe608750f2961ab3500fa5311115b4baf0b567d3c0d5c94778805a0ff94319ebc8aedce5d642a29e04e8610fd;0x83d548e377bd07c8973ebe821e1a8cda16545b9c98574015bf80ec5f6ba70cef917d2b2cd062a75dffd3e89f0bbd26a;0x670db6a23ecd206b55b40c63138d90aae7aefdb4d37ac90293b67bae0215612c45f9315f3d26f68489e4fb5a25c3e23;0x63283ddb3ff905e7003fa502ef92b543e7f417af279dbbb3888f6b81d19ffeb29e184427f9a6fc668ac9e78a646e9b64;0x11a8efd84affdfbec6ed341a70a78750b6a250a49cbfddfe8d3ad0c4bc9b38f7955c014976ccbe9205822144f7e42a36;0x36a5bcf1646d0a601415a4ba55d09b1b62f22d5c141a307f84d5664e54bcfe04036b282c7fadc4e4a6a0b328b3832ae]
(2187498333999863193215640476378758310847690922566267545269384146546613166935166697200060931464500123887301765890575) (2108381890695039412361994553002174205830713821287548444451941585848121714255858692518771174474333949762233000334702)
[true;true;false;true;false;false;false;false;false;false;false;false;true;false;false;false;true;false;false;false;true;true;true;true;false;true;false;true;false;false;false;true;true;true;false;false;true;false;true;true;true;true;true;true;true;true;true;true;false;false;true;true;false;true;false;false;true;true;false;true;false;false;true;false;false;true;false;true;true;false;false;false;true;true;false;true;true;true;false;true;false;false;true;true;true;true;false;true;true;false;true;true;false;false;true;false;false;false;false;true;true;false;true;false;false;true;false;true;true;true;false;true;false;true;true;false;false;true;true;false;true;false;true;true;true;false;true;true;false;false;true;false;false;false;true;true;true;false;true;true;true;false;true;false;false;true;false;true;true;true;false;false;false;false;true;false;false;true;true;true;true;false;false;true;true;true;false;false;false;false;true;false;true;false;false;false;true;false;false;true;false;true;false;true;true;true;true;true;true;false;true;true;false;false;true;true;true;false;false;true;true;false;false;false;false;true;true;false;true;false;false;true;false;true;false;true;false;false;false;false;false;true;true;true;true;false;true;true;false;true;false;true;true;false;false;false;false;true;true;true;true;false;true;true;false;false;false;true;false;false;true;false;false;false;false;false;true;true;true;true;false;true;false;true;false;true;false;true;true;true;true;true;true;true;true;true;true;true;true;true;true;true;true;true;false;true;false;true;true;false;false;false;true;false;true;false;true;false;false;true;true;true;true;true;true;true;true;true;true;true;true;true;true;true;true;true;true;true;false;true;true;true;false;false;true;true;true;true;true;true;true;true;false;true;true;true;true;true;true;true;true;true;true;true;true;true;true;true;true;true;true;true;true;true;true;true;true;true;true;true;true;true;true;true;true;true;false;true;false;true;false;true;false;true;false;true;false;true;false;true;false]
[0x0;0x0;0x0;0x0;0x0;0x0;0x0;0x0;0x9d835d2f3;0x109cf75b53f032e042b77a5b591423e8baf840ba0eff3318f9ac171dbcf9994f0e7298981d6147a1f6915ae1660822f0;0x2bfb22c5aab2e7dcbf639fc8ca98e40872cdade7e37f1636056a83f987d00593beee640968433f1206f5216b091c6c7;0x14641846942ce539cad41a206d667e207a5c47fcc56b85eb8af5f1bb9d86c69dd71d49de8f26dcd0f79e11f8c6f36e69;0x152c9722b45a8d71ba4bbc7a42cca3d776acc3eb60a17e8594241c5c94eedc2175f878f0789a79bc4d83ac53be69288e;0x2311ef91c2f2fdacd4ce5f95187d31a7466cfc1d4fd12a5cc0b6372f377b0d18dc102a26a0018c59fb466b376ff42f61;0x22ec6e72044cf80a3a75cae0e0a7adf76d78a4afa58bd72fe357ff9599b4b7220880925b3efb6759152d5f7b554a6c4;0x178909600d041565e05ad56283511a425e15f3d050ff782203797ecfaf741317ffad38609f555a8754ef2de482856964;0xe9b681c89eba222428541af60c472eaa12edb1b8fee240025ce52d4989bdbf1f67c958fe29cfd648be0cc5205f0c573;0x540f2e0000e8227bb06713d6b563cf6b068cd4fe8671be395b9e99eb095c57743d0736925b2e6d57897c73f3e7998e32;0xfe902a7e3ce2ca819c99e3504dd17ac5171849a95cb45067ed2c3b517b3de650e637e75ade0fc65b30a5c1cc12d8f3e;0xa29b8d62cac14c1908d31b1036455638d21738ae7fb5f4d0ef960a7fa35e7ff3c162858e9e10880930c63cdf0f202d0;0x17bdf47176a174b0320710fb74ef9cff86cd59fb43f2df4323f24c4587795e5a0fd161d28ff7b2704d89f73399d6bae7;0x4884ee857d68163c2536d17d7d1a49076c346b0800be42847da77f452dbfcd1f4e53f3493891e8f5dad9b26dde9632d6;0x63a7aff4d7eb467ef422965d3e3f807a04faea517f26765aab223b60d9728cd28fb56e1678e1b9f2e66672f7b62fe59;0x297ed5bace1221550369e0e65dc91f39811efead8adb5edd591fa73569814b453395f5edffef591693261eafd1f9692e;0xc346168ae5e2f751baa84b752cb90fb4838d365322cb2296a54358776c76a870015cd536e4a39a7b32b6305d9ad0ed9;0x5a152a81821958a2acb6a7ca25c0ed28ea0cc617a8edffac2a5265951b0eb4fab2b095bef52cad7e8e30a403ce2e060;0x25ab6c6b5048be80b57455869404d50981a71432d11250d92318e4a0a79474141cfde833f71741e481bb533733832fa0;0x8e806ff7908f3f54b47394d4d910ec573c014bcb21eef8d94b19868c43c3a1a097e5b31f8b468931052c2526ac134a0;0x4f49c2e17deb52b884f33f8fd708c109fe6d045728cc150399839794c4bfececf1bd5e67625196b6f450bd24b461feda;0x17f01785b63c8ac0efc3760b5054678ddc8e7f29ef027fa2eb6ee9a0898e8aabc2eceec33cb438a329aa34427d95beb1;0xeac9ad7073bad741b37b04eb9c2b67ff9c3de040d29f09bee65bce83abb493f65b6f5b95056d48a9a1deb9bb7916ef2;0x13a72d5878304b55625e2b2d14200f52d8676aa80afe458c214f07b35c2281e23f437f4b7378a12e07ed000bbc78275b;0x6d26850c42da31150f7a3e4feb24a9ca8c91a74a5ddaf1b42e6f0cc8f8058acc0f6cdff08419d4ab9cc12d5aa716f1;0x5ad759f831a6b4937992fc07310747bf7b42f4252efde06bbb461708454b91c132011cf1af1f63c2eb1693ccfced30fe;0x34e5e553813c13410ce80bba06dab010400c2aa4cf3f635150af404dab2f81bc9015ae41daac9df0adb061d8b5c20750;0x46b162ae4f2edca8d897cefae9fa5998c15c5191699e7a2ac792350bc52f92d356b8a453dca39ed43bc923e582943a;0x11e9ce0d6a2edeb360c9bfcd0e4d9ebf3c078a981f30cf64efbfe78d3ac9c2431d8a718468530c975c11508f54ac627e;0x57164d7080dd81511cbab75fd3c7fa03af79384e4992ca437900be1422f01e37fda32e2025a76eee91623a7cd2890901;0x351d3acceaa5b15a4c437c862d4933ee3346f2c3caa3d4f6cb8391ceb0a1b10bcdfe3bef0b4f2cfff93317563c3796e;0x467f6b0b7aaec0c174719942b450f1baa6a5b8094b3b40127692368c88187c1849c2c6b9f2cc265cb59fa9c0f0eff4c3;0x432b8b9399dd2d0d50b15778de84376c9ffec4cce18391f2544c17efa8f0d090d7db00ba6c4e0dba08ac842d1c8b372a;0xa5e02083c8dd6e3ebc54b91009059df232698dad70877e09c3087a61a2272e1afa35ad4d91a076f498703a63a7a7816;0x3dc498d15c7b9c4c177e9e3b8285393fd07079ad0fe65b019ef58f58b888093d24103a5be06cf5b5cce4b4d95b8412f;0xe645a58a2cc4bd7915e28b72e59aa1228127134c3712faf48310664e7879d05c3f40f750391bc3cef6b7232396d70b6;0x80a6370920aafc76288b5ba0ecd3d1394bf7214e067998e3f5356b1983d046f3e27bd395c9c13aee959151daf371f4f;0x3dae55e288963c0f3990240a13209b98585fecb5a53b9141e319c73bad887039057475d07344e6b02536a4bc1604e1d;0x16754cc0896cbd6a2123cdcc8e893ae7e66e1160070253b02c2f3cb580c08a62cbbf8fc7c698319abb4fb9d31f9de55c;0x2b370fc49fd6f9109b9e7f0532376237a1e6c899a819f9320c7c3d0803109f0560fe9257b6ab7b2468fad8db6dce886d;0xcb10446c72c778548cd44e189b32b9c50e2de1e6ebf85f16186436a4ef3dee97f5260a008d2b755a06a5acf12d0e45;0x7f6e456025d82d2aad96fd61fba101c45a3926b41dfbb18e20f8b4e982175ed33e8acdaaa3cc1cb113c63925fd6c01;0x2b98554e6983835898ad33bc2c46bff080fecaf380acf536a8239cd7943d2088ce2b1c0a1ee5af92b86607660c2a1bf;0xf4a0ae2548543bcd87065a8f6809b17c5dd1472e2875cdb7f2d24fb54fcbadc1a1c2b5d5187e0400f88ee0993d74b93;0x4a6c2b0bf43f33f98fb8fe88af0759bce27b6002e20a3ea38398a0e0452a0139eac6798b4fae0019c041a5a492695e13;0x4d4452ab5774ad7b7c3ab8b81f926eca4646953aec9f90d1852b778aefa09aa9e9e8745a5b18daeb1377625f0f96e4b;0x17e28a4bd485e3491f0ac1c18cb90e595f6aad490f01f2265a52269086731c2706dbd6419963681ca6556be945e6821;0x34889c35c82e124c25e6c93d5c1c6264fef84dab962217735c317fdf104c34509506b3cf6790edd5546938fae30196e;0x4dbf6f1c8332198462bb3522685b9576bb9cc703f34728a59969ad7b65c041987c79875f032f9a42bc6aab72794e823;0x7f8b07d0410be34a3286e05f84a0418b972924cbfdf74b5a8fb494620b46ece9d85ee4feb454fb7a55e6a0111394b8f;0xd04fdd4c3035e8dd71940af9d35aa8af722ca0a7b8e8cd761b17ef8355008081015ead4b290231d3e785dcba3f4ffe1;0x192e3ea852fde090ca644b2bd864f54b3435156d3d2ccd7dcef2baf6c8150f94f2a1ce492f405ef18fd468178e1a39c8;0x4a6e0d355f81f06fe0e0a5e609d8df5cb57ed6db2357be5ac27a2f97a7d3ca52ab16e05815b61ab13e6d9a834154226;0x133e5a77389caab6f04facffc5e42de30a995246a2323d655048858909d3b7fc898c817b9096b23ffcbca00a0a954e8b;0x15451653cebb634e839ff4d4e2649739c4751628cec180960532f10027a0a371220bb4fdad26d7d66c90f782b88e2bee;0x1461124adbcfd49d7473a624c93723dcd4ca0378b3cd2715cd18792d7859ef5148c03206adf0217a32b0eb719a4bcd1b;0xf1370beec50c3e774a275ebdf79a9987f3d6078e1c31c29962e2d3e2f8e11bdeefbbbe130a9d83127a720e8952100ee;0x1f8d5474f03719ca082bac560e81c6d4129e82c393f79b0151246dbdfba989e7163b7ae720a689445ca048ab8b9bb1c;0x49c13a2ea7905395d7179c57ab12fbcfbe620fcc31aedf52178dc9a8892a80995a3c57a9a1ca724bf9440c8883215729;0x19a2baa41370ca49de672f674f143e025f17feb18e40b703f2c6227dc9b2bc80f3674bf54f592fb6a00073d4bcfaa12d;0x104d826f4aecc2de1abfb6d35582242a4c30ced1ecabc479160a7a87578844960db271be3e739328548499e527be4386;0x1b44d714e4879c4f5519ee73978a56e70137f436724bec33906da530c06403b1eee1f2c915535b0da0f419f3b98dffa8;0xebb5ea2d1c019b16aa3bea66de0cbc3f0ffa2f99956152964244599a4e88aabe13c321243c881b18de601cd0c49b840;0xaad2edab3e78f719540fb2bb72079361313eb14df06d2920f401a23442252b248809c05344e90b90109b2f6b8cd71e8;0x5d77c2dc1f54d9a6f3948262c9502a8307e90fdc2646e39abcc3bb829e458513824ff89a2a6928789e1d0a921d2bc1;0x5f926e52185a8b1178d257f0e72cf8346e781848799cd11cac6470de7b7385ab9d74015aec66fb334fc14f401afd0e6b;0x41ed1ef68d124c6f519ed5be76727471f1ccabbdf463dae0bcb9677677f18da69bd9bbab0b1e7106413e0650c9e60e2b;0x7a808043d23be55648440897eb25d98d7429eebb0fdc958dc30d31923959cfa8bcb2d603ad0d94fb7d0f549f3b74999;0x319a370a91826584892897864fc78ac9e08ad3669a91f8602ffa0e48da5d4e87f2c4db4cbd5283f3f510c58d5825f313;0x1855988d74c2ff64e1eadf64770795eab4a26ef84d035c07d8fba79ca0b34cec1f45293f491f43d1165a3f2a56a2b836;0x37fb9f1399e30c938a3da1188886fbba826972d3d1d9cef09a50f944d2f1f9841e43ee3d183e5f9d6e5006c4bf65ad90;0x3984aecd78666f551cb4ecfc637ccd4144562b177b9bded9dcb3f2da275a19253cc7b4875ff9724f813dc7eb5448014;0x1f3042be2bcd088a09275655801eec4aa82f658313dfc6c57da88c3d67f57454ed4194943dfcefe608dbd5242b6ac09a;0xb67ba4b014214def39e1a4128b76d58897cd45c2046a5c43926f2729c1fbe84065ac40772e8cda696cff094f0dafb;0x88ba34aaa2d9eaafac35fdfe383b61658e4ba96ce72709abdc1f74341adaf17208295abd16d764416dff43525f22bdb;0x661dfb19ec53eae47bfda423f53dc8efdebe8923d5d16493e0227063f1321c807a390d85621229c9a9f25aa5c234c634;0x38befe1ea5083d4873dd3083f1c9c2bc19c42f17cb333f2073726c4d2f2127327785ebfa5ea9c067d0eec02e5a64b62;0x322b2bb39fe0cdfff1c478973c0fdb46a578eec87e8b72ab18cef929f5962296f64d1c55ba3d3c419f2b5a55517920;0x66896c97911bfcff9db1c138951c56a3efac81b8b6ad32ee5bd0d1961e80d2fa33f495510b515a3fc29c923a3fdcbde9;0x27ffebd8b40cfac59a926745a1d441d43c7192cdfad6271dcfc805dd28ff200be19327965eed09cd11109441c9fcd07;0x111e33a32349ceeb341fa1a5ab6904cf8adf531c5cfe3703bc21867784054760312ab4ca2ad21378b94adf426b3b614a;0x65463526320abb1e8f56771a2096b0e8ba8b6e9b406fb9e14a6d1882525e454d43af490858006aae64a3dd6f9c84de2b;0x397c96eee8b4ab054546d3b7565e2bf240e2500963e8cd681aa59f412a0f3934f3045381e5130246ac8c8b1f1c3bdf2;0x2522f5274a18e5d2460aaba5a19c14ffe767d24b19a0e551c2a85e06e839f1714f5566d08c4fe40fbc7ff95c37df789e;0x6846a0f8c535da62068c4de8b1967d8addabc0523d0e1e0311f94ee00566b9e3128b7129655bc789973b1ca82e428d3;0x4937c485e9dcdd706b73fc71a0302e13c8340c2fdd42e48e5777d0b376ddadf09f342297dba3e9898505cf0dd528a86;0x58967c8aa88c6bad358ae35a86050821645afd965108f8e135e111b4e242c6eaccef1e3916efe64aa9d79362c0c3250;0xf3e2f1f6cbb36aa8f76c75670ce2b47ea067089bca7053311778adb29c8611e6ac2e1e29bc6e911e920ad4d5ec1f0d8;0x23f7a387fc40d730ee50082a67d1cbfc48e96a8b89b6b998b487f8492ab0fad3a820cd8f6209ac6ae1e785d3b0db5;0x103b30c6b53327515fd5c8bcb6e09caf6c9e4166526f3917758e9ede2e8ab1d8e6af555459bac4d36fe428fb7d27e26d;0x2b43cf4f3979a01c793752a1d7057f8a94a7321628cab3802bc17c4b411979fbbd9ae06d2ae7c667d34f380776e6f57;0x65c32362aa078c22af041d624dbb75a8f6d1fe9988df90e7943f11bda420aa295e3def14d99d9da5adef5e3acb6258a;0x421c28efc5b031b5daed38d86ddd620049078625548b7866e0ecc197abb08242d87d0233422bfbc01a87efac59b79bdb;0x34688243c811bb94a17f2f3d8d388c188758ece33e33c613eea3131e748fc067ff70b90d2ae15b2dcb27fe596fa62fe;0x2a60084d22b0cd9e08006c89a378f9c4e9800eebece9a5b7863ce42a874aa2c0f8e22807f13e7861dd9e1975ea26dc6;0x38c38d8c68b9fe4602a19ffbbf60b7cbbdcc6a47b9fd1e3c6076602068eac373920076f26f0138f6276fa855d1159a74;0x716643ecdf9a400a3181fdebd7c1ea3710e9649f2b6666e256b45b9860ac4b052ba3c30780f63a56ae5ef854cbe2815;0x2eda169ecc32a8194e3b5eb9a6885614b2b0053168131809b71d4d7498e4b275c7ec04ab595d460280ccbcb962daac9;0x21af0db80b7c5e3ce7e2b55a73a1e7d3c9144a7aa70ae23bf25fede1c59bfd9ee7c1a94859cc5056ef358fc234bd172d;0x356639186acfcad2eae138b64b0af086a32b72a1b38740da3e56b4dcffc33c579ce9fd216f53e079f71c224567e4e58;0x1ea4280127da1073177225f6721a8a54d90cb27c43a1549bbcde5dd55f0dabd3f110f3d657c5f2d0a956342b57b38be;0x827affcd86847b678d3c0b9e3e1cb76d677e6eb7f7837d4eb70b6739e3cd606bf39ac4a5a1215fa14f896e1da53366;0x2edb665d7a95a1ec54221c3ac42fedec75499855ab73a393491f3d2390cf47964197653dc7ad3d635db66c35ef5a0af5;0x4db3b0b35b163d1ad4bc4938d8ee1a8aead9e2bf58fd57d34149e91929e19576f20afab5e6e905bac62bcf3e3095bd9;0x77e0c34dfa83fa32848a37dd54565c8d263c1652ca423db70d36cb68a34c2aa469a9b2fadd4988ed64e4b880d3ebfaf;0xac8d133fe8a7175df3cb32a45bd184854e77f9ae17ceda0bbc6be09c0587912450bddd7548e6d4baa3e5bb3657dcf96;0x23e23546cc4a18b5fdb198e9ad77fa319065728c999886ad540eb5d83101d4f65d33c683c648f5bd1e44e4923ea98715;0xa3ef1a6f847e90e1ea31f1770195bd34a439969bb5ba5aa9e60c01c5f4b6a465da8965f94e9150f9a481cd0fbc674;0x756f7075fee1f371eea11d8bb369c79a8962a4d366f7f34987b9c1020dc7eff73563e313c0d2cbedbb01df5754d1a04;0x16ca00f4f178eee0fb23b7f825128e6af6a33c266c6b0d9618176a3ace8b340d6f3a4db4f4beb0296ee7cd8288df78;0x4167c91385cbcad097ee55e37b34d4643abbf27afe46b9140f440fc3aa92e473bcedd8cf7d8b3aff1552b02e8674cbf6;0x416bf9727b81cd8546fed5aa2e6446772b7d7ae201f2826c3770f6187fe5ca0065a0c53b9c5a9f31f7610bc557418072;0x6c70a36a6db5467f10da0285138eddeb88220aa675423babd9572827df9ced8ad28724c8bbcbaf7d3bf43329ba9c3cb;0xf89a61d4109bfb5a98247af373528b9e32c3cc0d249ae498ce056d4ee7f95dcd096adc5aa2038ed670657899cd4dff;0x1332d2522453f6d2d18cec51ec458a155c26b1d514f6c3266802db562b06c17a30b3e89f6b899dfa72c6535ec198acb;0x609d8c1adcdc63cd0663037f085b3f9c15e8280328b9466b47b158b63bf06059717efd8e9549ee696c375d4a073ebc5;0x29b790f5d4a39c6ad98e9b096ebfcf8a00b079d2d2dfdb71f6c2843e4e78c7759e63867daaff47e01d66f6a9b187f19;0x5687d7048a015b06d268091cf8c2ed298faf9bc150bafbaaa650f8de1557faec351005776acdce5592d907419824872;0x682db0328f7819cc2946f90fa87e9db95a4c28e94889b7a2a83d0ca2ee3eaea675e068b720e39ed1b5afb266e75025b;0x3ad482b96479041c82bb9cbc65d05a1b67ce363a722f8650311f0a7d6e3bf00454a1063d1cb163a171ed94f426b5244;0x4d44517d305ab96fd0157f9abe712de427c96f8e5a072c97cbf161032e4abc025388b08e24b5c7de9ed4beac3e01ca65;0x409b12a7c8d510ea5f45dfdf2e350daee98983f2a820ea175c74c4db2de60edb46d48ae167dfca47b545c888b2a8826;0x61b8ce1b8e6dbb99a31fb6c2c0b2be450c285531648196fca5a1761db3c88c882bf7540b232bacb84f4ad109743383;0x479154b830f165544a7ff48c169684faf17794fc7998debb09da372ed61bbf3e2ebc47d1d349a5c4f286217436af831;0xb9b69ba64f5ad39393897f5e1fb2db0033f6e77251f0b260b5849e213446b4dbe9ce32d9edc9fcdbb520bfcb24ed31b;0xddce09c972b224ac312ecadff519cd51518465423369c913c0a4188211720d288112409c0fc8ef3978934758dd32738;0x9bf5f844e61cddaf7d4ea83f7c0fa1f417acf18bd9efd585a2a4078979839e1a5164743586c11df074741cfb991b59f;0x227aec6d7b677355356606c2cba6ed7ba72422f54ca4fa88b0919df60b6b59aaf21aa43658e68862f56f4c72f16b0aab;0x191fd173714d16c00fbef37ad0be5c1aac2767b4b42354c333f5dae1e9dc566b26d6f83c117b6853c8689a7001a7e78;0x1176984aaacd7fee588c1c0dc59fcfd93c4124cbaaeb2ad9716b90df2c7bf233e1b73a2899ec834aaaecf7301a400639;0xf404f98c5566e9b0ca56d4af421c0341fd1dba63ac0fde0ebf34677e9e554efabd35810230cadc334e30e1db2d586e5;0x108f55274243391dc216cee0244f5fe868cf7bbf88cb2d7d9ff71b8cf0c9956f17463acd91a3195d7ca6231bcf1897ac;0xa2f356ab2a959b9846c9918ff090216745931897210da1b0cbc6dcc3a7abbc1ee2de4f379917b31b3ea62e2190f80e;0x21f25b33409fbbc8d910963c987b39121ede515f78edd26fb771b860efd8cdd0f66c6aa1cdbdec5ceefb93d6eb002c1e;0x8ad96ea4db749727f2a691d2475d18ba32ea92404fdb8965928e525bec33455895653516e8000a8a5e35b57afc34f73;0x2bbbe481e84bd9f6a5f348b1fc366030953bfdcbe471fb276b6f52c7f22b78de36083b3d0c35038875c683676bed0d3f;0x15bbeedfc39d1c6ec2d4d3bd31419839d8543b20dec1c53bc3f53c7f9dca5a539034e8247c0609ac7d6209b73b37fc4;0x84ba45dd49c5a87afad49d6594f6fafca5304a0bf8ef44bd02f0fc4b1310ebd8f25336266d9f1922e0545544da5ab36;0x4842d0b0d1ae9ba9182614bac97b0341c5f0da1db8d5a67ba0f00cfceb77802810ffd809431beaf3a1d4a46eb51935ef;0x62b01cf5cdc975f38a40037b3deb2e510413631e99a6538c43784ab797bb7cfddbee1d9fc3581f47ffe254180d296c;0x9f07b0d7dc703c63d3f78c906c364fdbf2e4571dcaa435a0af50e78332116038787a06399f8b7434496c6c8da597f05;0xbaef8651569a19af0680db7ac53e29dfa37932318c3895239c3c1b5d6ca6d912c9274512e5dd3baf1659dba0983987e;0x5280b3387dd2c9e1742740fd365412a045229dd57682ca66466f52a442a3dab9466fd3a84d8d74729a45ed91cbe6a30c;0x16c517464c72cc4c6d9f90c49b72d709ed07de5d10ce9f5a162c049813d5c74012ee8c816a2a719ee2ff4926153325c8;0x378d904c2b0f8754983dbcf3ffc6e90e2a1aa402a437aab24f149dae380ea48e162aa2f05e5ff2d0bc03e7b114a2b77;0x24d54f1672d998ff259f554ee16b598448343ebcc6bec95a6df4662e60662dbee60265ffd90494f40fbe6d7256df29;0x1920682a64b820882f38a434fcef01350010b49ed311bbe5224bc14c4197014445f9706378f0b218f461ad394e9a624;0x26c7cc11edfccb17f12c0f16fcb2ba29bd437c93768df8b795b9bae871ba87db78a56771ff4b4fb5c69700211badf932;0xf72759ee03cbeda4d56170196ffe877008dee4d101a79766435b4bd52ae202a590a6cc1426b095a154e48af002e7197;0xf1c02fa2ef7908614bd84d5df87614108f277078d4ac4fe5852f9dd0f1e3f289ed783ca19f6071717dce4924040;0xca46ab712ea2465700f5f39555c0efd4e78e28d38a9e6e617f8866fab0d030e33d8a3e24969ca6fd8983fac3bf45521;0x227de6c71f8af4893a2b8fb07392bed9d6f40e87d8f3cbdc2e4d7c0171e3dd900787427fee24ade17f1d2566e93240b;0x312f5eea1ca3066b6f32c88ad27ad2ad439da385e7462c5b926a13c9f4862a42396838ed06c9f03b7c07161e8697c9bd;0x1d548a254611c89fa711a54abbdb1bf72e2017d4df5e1c865375f09cad95c1d479f72d78434602d87e2e38c7235f9560;0x4d4bc0149ca4aa9c5920af0226f9570aacea5beb179dedf7880860a60a2fcc4d238d88700703d68ece983a128f0ed;0x91a339e2c164b26931bb0f110eb30ea583e21d1a90214869ae99206c2c1ae2e51002821cd9c0f6ab63a414e59f98c79;0x1c36116151cb04f2491ac658398a4ca1ec3d1cc9e9f0f4db428befd473dc0f138914188bb35651374128708f210cd30d;0x3be1581eea444632fb9670c2c79fb1d6168d0ff96fa868f93cfdf2e66b9a8f0bcb46bdd5c94b45ae5d943c9bbd870ca;0x108217903f6acaa5ac91bcce15a51ec55ef5b1f764f0ca14d1c786db1b8bbaa09769689d3fac945b8c8a0a3fbec33c22;0xc81f63ab54887de5bfed92e6df11508122dda1d205ba143f1205521ed4b5479704b33737019c9e6d171661d23e8bba9;0x522375daa1ec859c2102fe8b77cd6ffc43cd5235ade3fdc17dbf43dca532e9d593b26ed90bba444c50ba6c115cc5ded;0x1b830ba779e2e2df060768e18b7a6c4d5696f5aaabf5ce3c2bd77277413962292d22db65220777281d01b92493e34ad;0xb19b34f654d5ef748fdc2f9e4b43afa58b2dc91d7eeda91757c97628bbbe1317f05da6baa498608c6e2fda319d09262;0xcd9a5b96d6bf9c6fe2dbb1fd218076b2110d1f89fae545ec79c9114b9533cd03f9bd34afeabb1e3de6b3a75028e32a8;0x5fa27167c478562d81d614a8d2075c9b19ee696ca88178fb5005d146ed663ea96493174c5b4c754ffb200ceb6ed313e;0x1e15235d85dd5a3b3a97bec4827f6ed8f6b684f4fac73d20f44e8c4dd028353d7d81a4acd11a876c9a20d0ca38c48a80;0xbef7b0bfa5e8336e4d01726cf8bd86ffe3b1117b15b0fe88d4dd98aff90d8373e61555964619ec837583de075913e0b;0x920390fb6786ae27902bdd0b80bc364fd43f8c2fe69c6b1fbe943f185175227e67edeee91c46264de9929722ddcd3e;0x19f076a44a061e7eef475550b62a6db26ab1782ac6a3b19611f6ed2231e6ecd0c26dc2faa430f4d75ab5420176b10299;0x27a8559217a723e2dc15f09db9f78e443d5ad2a609ac1b450798122e1be1c7e79c884b650b0fbf11fd9eceb7a69d77fa;0x18d3b94ce98066f9673655cf025ddd7aa45e780f7e547c3d06f23800a31d0cd9721bf0f3958b8a9c20c2136e387cf048;0x8b48d9b956a457d630beb201a4ae003b5612ccffb8ed9d1018286db999c0b8eda892e01a39d0272ef0942028714cf6;0x4f7951f4169ae3c452d395cb5abdd77c1e3c9b7ffeb2c130b5f18aaeada32027a3ac4f99f20ed54c1f5a926f6839931f;0x1045d0b43770e607015160394075dc3d38ec972198c852164e5d235c18ff2a52cb9379844a38c30e8d4702129f9fbbab;0x32a55c87027b2f197a9bda708a8c2525ae62edc3a1acac11206b959a69308acc4088b1625597fd03247490c89a882e0a;0x2e79a8effe629c7ceaca59414bf1def67b977fc4602f5c30c3948ccf5d7c6be486fa3c8521883238c32c49fc18d2c46;0x3f2e028350c15119ce599622f5b744e71d8d91043d852181884c233953782505ed2885617721435526b6ff754dae6cd9;0x110a3f289ee417a0c5475c9584c328bf5563cb235a06313d377f3b0dc9e966179a20cbde39814231e0a039ba651f99b;0x1ac7b0f092225039d8b38d26a9f0006be77e370e30080b56c006b5bba5e3448b0b7611a79217596cd4a17061408a47c2;0x36f34bb31609c0eb3beb6ee1606c14c97ebcf80915fce4b9bec69448f9d8de5a84998cbc22a6179f93e8aba95f89e10a;0x975ed386a320b9092e9d1a6d4dfe67cddb365a7b08f8f99f44d295fa428ff2a148c02dbc35606d82ee8fe8e11ebe26b;0x49c9a29e832ae2f6ce4f4eff061322e8b4e072f94074c5f9928c272f33a772b471c06a8f00162b071570098c0d53fb88;0x456eaaf93174c9956b36977e57eb2325780bc9118261c440ed6938eb5f3a7c2c8005da72e4e64e3dd15323678a9227;0x283bdeb3d3f5e65b68b447ec6ddd0f45788fe22710bb5f54e2e03509e4a6c3b8a736c3069104368d6e5f0f7be0e528dc;0x595401fa5591b7b0b4aaa102d41cb26cfd5d9264544fe29d8efe3a6ae04019fa3f59f11bf9fe6dc6b53a1d9ff308f50c;0x6047e3a1d5699a3254bb422284388edf9e6d42b79a22ee44f335773da1a30fb8004ef1672ecc96a32ff229f0dbc1624;0xb7c3c98e3ef88bb6ed6c7d2c8f5366b56334cf5235457a0f660b98e6c9f22e6a914ec3e37d56bcde70fe0f8af4e1228;0x5d980b7847007506d2e615cdebef5f382abecd7b95f8e96a5aa49e07ed8e2da73876ffb962ba96d21534ab2185b2bde;0x40e9f9433b9a2a09d6ab4ac7905e3a40c5d445e2f3409783b41aeb55d6b7894462eb0a7eea964e197bdf68062bc1f186;0x2af7695a3dbbc65728d3a5a7cb945854fbdb677ca6d477f7d034898151d944d950ac24cbe868c0dcf58e0091053767ea;0x43a183b74706ad62ce463e513eda92217eb3aef3e5a495961556988e264d0d96b3e6895c2daf12c207a7c8d01393002;0x9323bc7d0e23e9c3405ce846e3d84a5ab707228235fa9f89127e0ffaf82590223c0be590edfb1a6b824722aecf1a213;0xa547e0891bb3a47ebc8af5b32b0f7ad54163e8dbcd41edc8aa53a84745b9b977d2d133b928b15318f9717b449c2c29;0x38daf80140d57a47f0a2e7aa1ce5beabdf2ecdc7f28bf30e9b4930b7cb5bc022e77b53d327dc6ec3a85616fcedd78dd7;0x360dd61f86e72978ab66c59143c69d9ce63af241fd23f3ceb4acedc4aca1c2724af7299a8b8b5a9afb242f0709cdd7d;0xfe6b51d092245f69d71dc171b637426922c49b70f1bf77a3a1a67a87bf446cbbee3c9be3828b2a9babe6c9de48d9;0xb019e2f16b6e1d72e72c07143574da35c81238ca9a69124bf84a323b7801cd8619351c21f2e0684ab3372b58329c19;0xa7bb24451a4e885b8cbd3ce065cff938be07379c67186034a8c3c246760832283e8835db9c5ed9f6c1c5a9a01fb61fc;0x6e52f63d3baef4ca826bb52a5bfa95b3444010cc16ad3cc0853ab8a7cbd0676c6a1d6c57a4721fe56e06d2c0f60bf20;0x150d972ebba4cb0c59c7be4c53790cbb6de33a4b9fb010cdd107c72bac88b00476a954feea8004d4525952eb397a064d;0x30f30b7b51111952fa8d82b74504f200f50f966deb28005e39a0acce700e47fbf877041f6381267a79ebde5a7c78514;0xaa9395ad96ab765f52c563087fff5e372a52c040adf795e91850ba95cec4f9ccbe7cdebd057622dad9c3f2c328fc96a;0x10a8de2417dd0290859f5bd1471a9af435711f56a2cbf8802a14df1a913b0ecdf1b93e7f545f752d610f6dd939140172;0xf417ff3147408d732061d26283c6ddbbfb784cb082d8035328b7ad84e29af6257c9ece28ed70f5418bd5efa9b03caca;0x1ac1d2e1c10f2a0099e88d1ec75034de402c082094900da96798c651e3c62c7bb331380b881e92b05e358525d4e51623;0xc08a5e67f81152777c8dd5fd9722fb5d4b5b2aeb8acc64360586c2865cf2f4a63b1f0631ae8281a5eb31794d96ae476;0x379b56d70008bfc0891638ae474ab64a6981624f487cc262b1fc4120c61d51406734efc11aeb8dfe94629c90d6a159cd;0x447530ba190ff62e4cd6878b51d635e52ce6474a07c7b281f63f9eff6a21c8840fc75215a5a6a96553e833584511af8;0x4408707feb66ee925f65b45582f0375f2f6e3571be8d8dca0bf1d80f72fef4938f22882bf7218a73f6d2a778599b1d21;0x193c1d93cf856c2d255a568387f6fd8dce4eb1a06ac3d5e7af64b1fb8c38a369730516d04faf500809b03dc77eee8b58;0xcc87a59746a32ae04193375714c32518776e9109181b81b3979f27c26594c42b58edc066497f610ce496e9dab5f74d9;0x8e2f7b58365576155ca7daec224f13942d2440aaa969a7de73d90fd3eaa594764df029f882ece3e91942ee06c256651;0x3846d00f5f1295ce521e093f10e1be13e7115c0fc19a05a13f7156ca84fc17e5e7a01d7cb9573f7ed949c9a21a5f9c;0x27b164899eac7ca95ff4397ffc52c164a4f8599482dd7564f4873c11a69e79eb3bde8d4468654008fc63512f12fa63;0xb3c808a0d7cce59c9a303d5a32b38f0e4a63abd9570eaf53ff74e3a4950d57f3cbd099ed57f41c690940bf916fc724b;0xa776257b7268b74e77b266e8d1b88b1ba81f5409fbf9348e1dfe52f48b0af821b7c5b6dc3dca8f1d72b0959f6291ebe;0x4e1a1475ea7cc98a309952eca79a594c2698e9e0ce6d0fd75904b3e3b4f5da657d61790f8a063c0473a35fc07b6c15;0x43c08d5ee9dd06b12494c18472d6af0e072ec0fc2e2fc892043eadf8b5715541a6373262a56c5c2f3cdf58478f06f8f9;0x14e6fc96b97b29fe305f96a3983927da17dc52d7a0746d9ac7fa975b8608533358478faed37f512ab2b0276a5afd8e8c;0x5f189d0fb558df38c8a3323d80e0effe67f3c125b69bf017a1f45ca6db5bbb644133979a4bb9febbc630fd17fbbd115;0x2215f6ab0c4c5deddca6afe70e21df323ac6fa320dcf4df6b02e722773f6d48c1ac013bbf9f5081c146c9607eb31fea9;0x48a036a71a4676d16e17180676204c91f65d5403bb5e22a2f5e0817088df93d3c2125efa4e759697a27c81e77e901ad;0x9e8e984e9b5e4ffb005d94e1a82c3e05ee0aa9861b4bd293fbf87082f239a8240016adff11d837f64741251e2542618;0x63fbd911f493cb0929f91eddeceac3cdcc95d06d659590f474153eb2ce57f11a97185f590bfaa8ffcb015e39b3c63;0x217e6e995853d471e54fc4f2effafe3d6dbbbe5eb92c080034a418e5be3347999741a8a0a94087259446767318f37dc3;0x2bcad8bbc9eaf903d340c8414ac89acf078411e13c1f5e31f2af59ba397c2ac5bddb891c5a401099ec786002e20b9046;0x3ccc2ba575aeb6a7d6365e1b136786d0708c05060d87e42d5aec2a89cfc1be792678553238df2580936c96be2fa9d;0x11698b654ff9251404567be626f88ca0950fca9715588968188baa97b44961a2172e4ce9c43e596f7ec75c14afe6446d;0x2a8f9de337243dff47d67b7f1c820d8c775e8a5f109dc9bab6aeb523ac08b0aeab2d7a6ff54c8d6a095adbccae58bb1;0x1ad1780e666a11011395c5624bcbed31b2400966573878124adf363e6e9d79433fdecad386d1e456ae8eac52cf89a01;0x3c907825d416eb5b9f415f398fe850a19a13ebbfe3352ced2e26dfa785cd9e3bdfb7283e0d48feeaceb46a6307fc509;0x3510681589e65c3c0d21855ad1d5f5679d9f43b8084129a25ee5a0b789c74f9fd7061a04580a8f8df7bd947d00de7a9a;0x2f4a51b8aaeb654567adf5b5adc746d71ee3fed45ec69ae23e1552b234278eef81fb5021db36d05becf68a09ebcdcca;0x2067636bffbb9c29fc29922c1f2d44385f0834b848113944ab6c29a578cdaf569964cd46c0b735aaeded0ade1d192862;0x1928fd004bc80a227e120890c2ee5bbcd4518128eaa1319a01fe81574b9e86a977f84e0cca6e9c11f2991f78f5ffbad7;0x2fc7f79a14da750f8cf8110ce6ab8885e05cf92ec40cfc4bb65d5b2ab4e0f8b79c9895f9c36f2a35a4d4c664c3ec4a97;0x527ec25da15b9c8aac2c54ea49ab2fbd5e7f6fb16ee12c7826a8a0711ec14ce1912d192179010c4a9fdcaf65de5fe2cf;0xf8197c936b921596f01b4d3886dedd6498ad812e495aaea8b4ca4fc5d51b0a87f4a691c0d83ecca30de0b29b1dfb164;0x47b5afb7c3334687e884563f38215f1df9cf1111bc093890e1d8aa541e86da4d663f83cbf64f1d2fc9c7d42dff1d345;0x1078f7e6bd80dd9599d01a82765e77923a5cd33f4e7c48035d1f2e7772cd6874156d9ee9b2d80574e721a12dc2e8d0;0x14aa7336f84df7d14dcf796b0f11c454759161d94f0b76577678955d427623861c66c1304570cb75c30c83b13d9d2ec2;0x502e294bc07773bc55c55b23958d2e3f337a8b10bd28cbdf8999123807553b2d821f316cce868d82c36ee4032385e3;0x7beab33d3089637d6ffe2de472e8be9fb358abc047c20f0bca7dda317aadcb5ea4cb8d857a653db430643e3dd965bf;0x2d11d07b24ed946ab4d6083d72ce5199f0fc08de5da535d7a356a9ee7f52c210c25c18b4e1b648000ba07714c2ddebf5;0xf5e00981c90e1265a6e63168bf99ae9a32e022bfd007d83eb223addcac0a522fb1316bcab29558d1b93f25370e608fc;0x992031d01afca4ab0b1c7ee62c2dc971dc1c47a426aef769ef35a7c3497c5468b05824ee1a39483e4af87c4d65a6457;0x4c37bee551c876b6de1264b9cdc4e18f20530986a9fee99004b0ff4c078b6e540525a9217874e747e43f930a9bf121a;0xc0a4a51aef4bcbd97e2495438fc3396a0c42983d13c53465b8415ea217d52d22724d7499b9f2d93df58bb4b102d94a2;0x20c3e407b3a9d53a20614e8e9fe259d6ef4c3f0a1772c31d961858cc03a62dd6c364fb980daacb65384ae28d29e5baf;0x4f491c33c0e4606b2d7bf171b469cf6466ae75c7b7056f50362b571b531a51dbf7c4dfc290ae61b313368d7b7c1ccc;0x1913141317a5d29a1f1d085f44b4fad688fbf405d6bb331131e4b5c9035d5568b23d8e1ed76c85090711696872d518b3;0x36a24f650c9ff216b7b3cdfa9a0955d3fe0d70cbf7a456644f15d5f3cdcf45e0731d4c2db77f8735d8b174bedcfc2a1;0x1a51153404756f162b83393cf3e66183c45d713c58f2dacab534b7bd6aef1b3f024354fef5e171cf800502a562b4c2;0x18eb3a033f90f3ca75e9ef19c2f9401cc40c6f525920e74a91da7d1405d198e78888eaf1f5eabbdb476c6f9c23d16234;0x1e7b301b86a3969da72b76ce460247e945133eafaf280adf1ffaeb8f1195921868e68a0e1018fc8c7f5ba2d59c89dbde;0x13bd9837893e8aaa5a8c36b4d3c6f80fa8d6f3a3aa4b903c60a958bbd0d52ae7fd66580adc08c6ab62508f3a4bb1d81;0x570891ef22c1b3cd5df0fd601d317af4563e115e84fe252ec56990fcfaafa35c5fbd4dd96ab63edf511c1c6d14b00b74;0x2cc2522b5064835bd6bdd3249ecec53f0a1900666f379501575495473fa1e73615ec5cd6525d4830d8a9ddafe4d7211;0x1d17e3c2b7d945e9c6a99f65b614d7059ab2c9e3f4eb0e41d6958240e176598527e9d58045f249e6c1c2006146b28ec2;0x19c9d29f2cfefccab99d7cadd6a3bf2ea2e95a98afe61d79d47b4110fc106a10a7c98c5d4c30610ce5c2082dc655d862;0x2000228976659a4bacaee70e659537e1330fc9c736f6f94f3ed04aca4901c76819e9a46209c12117b94b04981d2a0729;0xd7c7b44ef5cd9e6d5aa3d9f3bd9311f8f8c94ed95d99138f1cd08936be2e64ea40eaab3134b5cedf416244a965d99af;0x112a0a53b8241b7155f1aa72af80eb5c232fb93b8aafd46ec6a1cf8ef4d796d85b3c71c42a081b8898b5bd92d738168c;0x15168b530430894187b95d17e7beb6cc416233e1dd5c7d8e5e6ff5558b3f74780f2f7346f7182253cbeb28bf7754121d;0x4158b1031d39a73f35f8cb93c8d5b200a45da49f3500c9be26cda6a43490abfa25bda7b932dada4312af44eaf9e125e;0x1fd7ee10596ed42708eddad32a5719f640c9592c6fb08d7dbd3159ff35f94fc1e6396e0803c3b0b42ffea5b0251ce4d;0x5c056d8f11d5b9c98ed2723a4daa29618f53968b351bd09c48f26261827efd6862db53c0dfd0276890369797d45e1af2;0x2e6bd72abc6130f4019c2f9c939b04cb27dd85715e24612b709bdf61a366fe258d81aef994bcf78564de2ed03c7b44b1;0x279d99eb43d5489fc7b45ad80ccf5954ce9de952e3dd7b791f662e64e58f6ae692f54cf4fcf9034c09d0ea38f754c5;0x23836cf8f690961e65c4a6d819253c63a2c09b8938b459eeeae9b2d9cd6d0a1c728e227eb0617ba735e3d2f55bd0e7e;0x4f066c2331172bb60596be38c57565e6866e203a296018425c28d465891c740999e8f19db6ac54ad2eb9dcbf49c32991;0x3fef32528a14e19f5ed4fae5e476b13a706a2dc7f906e252f6055db6e5743ac1a7bd963318ca9f07ffee09dd3558fe;0x3bc21b55ff19b734e361e9f482c8e32234e74e9e0c4b340199b636d037b119f2496741d438a434178aba32872b3ec6;0x1501278d84af58d4baf36437dc9ab1d4062e2fb056b37f009618665259c13d3faac8991f32a2acf34ffc6a6aceb04334;0x1ed0fecbeae0e1a01b30a763b8c73ecba36b9cd52828a621c3745bb258e66e78647d5e05f0bfbad3c87c80f5ea6d410c;0x17429d688af739c2ffd8370edb501ab88942a58bf76e1a6ae960f47ee8a86c8b44ac1c77f9001b1f0a2397ec632d1e5f;0x3f671e6261e42ece8daeaa5b38b93b07514bc4dd2cb5013397541de1c61761d230ab0c80cefe7fb8e70bb9c5b1a98aad;0x12e78bcfa3451b83a293cd25a839045ecdaf8be715ac2f446f30d53fddb48b38693537888d75f2ee093e44096aafc911;0x5c919fa26fafe6927b29a5a694267b60867ae99a40b2b6a3252b4182ec24700dd8e7049f06b4ee9c556bef5cf11181ed;0x15414abee99608ee3f15ec6b62d43cb10ae9c6a9ba1f74eb92518da764633c9cdc5b09d534b5b0ee54f904f25a5b3d0c;0x5bbc93e62ef1d17eeaf2499c840cde675adfd6e885932e7d06a1e0a1554d5752b86c3a139e5610f1df6220d0bb43abdd;0x49151eba6c89d7dce09af9d0cb85b20ddc16c12106ec6940237e5082ccf1c8236a61b2ef06492cb2895ca4ef9e664f75;0x5645541ce3bdc717395eb190ae4c3f163cd756e7aaaa5fc11b247a886e60b1457402f9e4468e84d9011e02136736e18;0x1153d6ced9482fcd10738bd3ac47d4b1e8ee47266fe95935f6264947cc39f306e9d53fa08e1ba0b474a74e2cd95ef4fa;0x876e772574195305a11215b45dcacb237fb41c148d0a28cb1044e97f83f435da5a83262a36dcf5cc586858b006ef123;0x1f76dc5b16cb1dabcb26b0ee461de38cd31bf133db4c7c410626ce19c93ea5351fed395968700d59806403bada740a7b;0x2061c75100085bf9b7766f2f7609e8b2d3d96c47beae35eca8a69d68d15f218d864634cfa46f6fd0783acb2ac061985;0x4e92e4ff85674b1bd323def5f9ac3ee2def79aeef0b40b3e80b948c13b0a33e82f491f82bc6faa222a48e60917daa076;0x14b2fd55618cfc620340f0a47749d462e49ec436b8fc19da3ebcd5498fe91997c2e08c7755835889c805c319f4b36947;0x5fb74506fbb4b512c30140c7a2c19f9c200abf628ff617daf1c884cfc6deb24fb7d32148563c07983175f2c38b55bf2b;0x133437be3247da814a6398e157be6afd1d5ef3dd482aed00452c3518d1e8f0d4b2b2e6f874e851b5439cf7d414a32116;0x116ff69c8562d2af87534fa84835ccf79524d751c6d220bcc481ee7847e0975165924e422b6e6a1115aa40646dcd390b;0x1f2fd9b583e068ae70a17a97c84782625a67e30ac0bf9f7b15721d29208a9640bd7cb1b974c88135b9d6b0122b3f4b83;0x5cb8a5878e1833cb980cbab0b6d66d71d12826ef7109c247b25e2b7ea03007712a4cee5816a9881ea752aea7fb117bf3;0x12c52ef052449b06d86bac0d8c55a1ba7efb4703e3ca41b5da43123e23dd602bdc10e1c48e6e491ed17d1ff43830d4b3;0x92b3c297773f052c926bb13152a3fe51b1769265ee69a39564e87989a8824e91d31caf72395b4d66c116d7193c1e09;0x4fd1ffdbbed38603d66ca6c3a4ff44f2f1e2f55de6a5de831ac0e46ad26f7728e47c9cb81e60ba709d7785193d1a2d6f;0x39885ecd5fd4636ff7e111e1d3e2af4154e46d8a1fe15bc2627f60d60426b7202a859a29521c888fbe0125ba9415279;0xb48f37c9cc09a80dd44d5dec5afffde25257a837a3ea23e959c80ad1f2ff352d46faa9963613a7a10c45f1c78cf039;0xc7bc104728f730ab41420ddbf75fcf179176cbbf6e9d6941d43625d8c1e9e8b3625ef78f1f3b96bfbc58f05d3c4880;0x16bd6c7c40ebbce1b83a840a1da8dece7b0444ed3d62cf8170ed1edeff656c5ec20ea14a87d9227a449aa1f623704ca0;0x1b52d3a02be0dde70d723f86bd1b2d43c1f0a5ca881d8630c62e5ca15145be501a457c156dc1051f8387b2301bbe8230;0x173362d5b5cdd106a9f7f9ce7c496eb4d143e3202059703eba29a2fdc103f11394eb1f63039912ea09fc43797cb22569;0x35a99c6da4741aba57eea920dc07af5b5c0cfab461795ac02b693e90b72c2c5d29a68f2f22cf04489641c393de597590;0x2184b9dcceab9ebe6254c7a2af0d4368408a0319c21e68854f6901e9727855cbe7ac75305066797284770790651c82ea;0x30660586c9370a362c4ad7e3bc8fd10e4b153d5169e861e2fc84a742a66b17224800cbcd71feb72c5d476f07789739ac;0x22c7ed76431f9c92e1f53630157eb1b854a47d5077b43f63c2386f18a188dd2d2a4f1799d4357058b64e2a553a57fd54;0x7b6b6bf22ecb4f0d32a46fcbea965732444d3b1c2fedc5de083afad2c5007226d2cd681e750e3f788c51b1347cd2d;0xb9ef13330bb9f2f72c56afa2455a58632bb8e5c6f988c668ac98c27fbc4c877fd8c1a7234f02ec50112332bc2d6095d;0x12038cd4b60dde7b4d280f052994a774741be348e163b476556b1986545cbfb55be992e30d9caf71c0eea703cbd70e22;0x4af7bb166008676bc5000e793588a6817a890935d7ce6945b93100f8adbcb19d1cff978031fc867285d89af5d9d026d;0x150fa7dba52cd1c221f8805758f0bd8172d7be71483009ab9912be75a7f38a2486de66d0465ae0c125dd841d6effaa6a;0xfc51ffe58e64d90d4dc05b56f9cda8ea0301af3933b5a1ca9ebbb66bfaa1a53c47f2d3f4be7bc965cab7b9d3bce60a5;0x660f0a7f921e0235a9b03e69747f0505feef2868da553ca7f73307cf51c700443034eec99dcebb0dfc3b9cc87af11b3f;0x113b2878b34c26c26c00eb55c6d7d5461fe697acc61107b34513fa73dbbfb6744f9fec807a6861c99aec218cf352684b;0x18895988c978b1a141330ad485b84c3eb2cccfc41ec7bfd4dbb7b6b5d82823a83c37478e094ca9a3030ceee4dd5a3357;0x4dde42ff2b487c7ae1c332cf57a9382153a28c4fd53a7261ca36a4f467601af291ff5c81b25c9ba8c2a077c3b26ef5;0x550f0d63ac7b8d5dca6ee36f5d38ddd2d5855f982406a995e8775cf669d1cd6d2ef002c988c1b33da6f3f73df39df166;0x5f591f38690158e9b35b028eac5e57a6b8e07035c55dea59ecc8cf71561ca6caf7ee87622121069fffb2b4ebde6e5db3;0xa2e21896bc69e8fb0174df20640fbe60cc5c9c93093b6a7c285bd1840415f6bb48d2ce1fe71db0eec91da984da87c8;0x42458df828fdbde27f486141e0bea538a740d6dd9448eee6c94d7880a6eaed44299e4afd10440382b5509d3bd37324aa;0x6a4b5c3cd97627bdd435ad84596be9994c58861ba5415c54894ed0d4a17ad1b99079844f3dc2723436f58416b095654;0x1aa309b08ceb421d4258180f5ccb49aef4ceb0d5057c1b1a420aece89c344f5187d5e53393100d266a6b26d6cdfa125f;0x9cad50bfcfbaa6f11334b8b91b715a9e4512e2f23a2de22267d2180d75baad097e2914a0ad9c2b8c55a790c6dbbdf01;0x5dac0b88e09d40d0a3a22c8ceb7d2d6dea4e6be22b0a377b9e4ec9518db9198a1a8442c2de2b492e20baf508c5df4dc;0xc84897f5d48a34a8876cef8abf8715a5417733b3bc0ff2ec66695684d08e58ed9fa20e5e4c778f16bf9dfd69af933c6;0x2a6737f21e165ca3120a4432f6695dfd678f6eed9867e6ef29bb1e2652e6dfbdc0cd6acd2d067161fb218712521ed031;0x1c4a55ebd4d8dd095d9d835eac78ce3a826339e1ff171468e8455b86b5164869685a060f49cd1b441c88a412d1989bd8;0x18ba9541cf4becee76bfb0df6a3594e20aa56ed664c1d1423bcd5d5b776d006764f93ab06cda0991f925755ab33890a9;0x2a218e5823c42ecbbd66bf693bfd81af609f3141859b1fecd1b2e8ad949523281e5d634f7e8c449362ad8c6b311aa6e2;0xf4257491821bb208234670ac5f312ca358cd9d07bb5b3f1baf6596198aff1d853cc9caf064a35eb3bffc853e1a139a;0x61655749655582d0a35c3c317a50b9e9f6f4572082c5a1c5e79b0dafc1189cce6635c475295de911cc7bdf0eaf64da8e;0x76da048a6b92fc057c8a95afbe54b05f6344658d920fada491d0b5e5542b9bd8c3b3a03ac516987c068d7ecf54f12f;0x9e892eb4be12454237bdee5650b47278b7c20ff9d838206be9081dab46d2d68afe82fc34d195b4fbc73c5bcfc0ed5c4;0x2e62ff89485d0f3e19b3da70c414ef10cef81e1857a8e6c1367534bcf86ebce953cdd58be752db662cea983e3dca759b;0x48a0d21aad36c40606a9240a345d576742d4ffa97f218ef22c85210e3eee1be9913983cecf67b93e7555efce209d7a1;0x162e599782bf8ac089d5b2fbfa1086d4b037fccd51c9611143f62e97207718be898092ea22330a6d43897d7a3132d8c9;0x1c203c41a01e8f461214b0d6d76b7f3efa57ae5c573711326c94d5d107aa08060a720502a877b20b657ef052abefc436;0x19319864fa9ae4959e67790d610c97001cf6cf7df93b801875e00db165d1c3b6d4896f878666c2a834ebad951f30eb55;0x208de3b6d17eab341440f00a3b3709f6ddbb9aeb5b09d6b6526ccb6233e2104e68c1e418885fb8ca587628b46e87a838;0x516df6bfb952d4d286c6440927982e2b17fc1f92eacc498e6a40ee67ff978f0b91883d2b2c494fd106a2bf17b7f6138;0x32bfd79595250c022690e000c02b8732b707a5932661a55d18b015bbc92cf3017375b80136c524100ea98d8710ffd914;0x3ed80cc32d599aaf525c328859ffd511db4a76474478b72865997967477e6a26216487fafd72a5beba5f3027d7c13756;0x5704f339eedca0f07e96bc45dfc7002bbe9cd31b1946b44df48de5adb989ab3b2060a1442bf567f239f03527dd08c15b;0x62f4b6918b67bb5101cd1e03d34d0cdbcc6ac1dc3cacaf7ffb9eda0563ffdeb236dfdfcf1582334d84a1722f03e19a1;0xde55e25f732167f945c8da0682bfea7749a064430fa098bcd63063170d406f854e7565d823aaf4da405340e6c28c0cb;0x2ea91da2e072a1220e3ef3fef8f4236d74812b75bf9b47381b682c0a4f6b1cbd4076bb43801c1880c02e6b24a1b5c2;0x2c604470c5af1515af21d48381a12805f261c949ebcd57f91b087a0ae7a14b7d80161bcdc6cd414e107279b044c41ed1;0x2c70e3c95b715ac152d60660bf5844e325528450c7b5c8cc36f13738ba4819aa3be5cd18c815cdcb27acbfee0f5908c3;0x5b826841f6bfc5a9ae7d4a09afdb2625136e3b0acb56149d8c5284ad7a5a66c47b508278addaefa1f8aafc791087f20d;0x4e40b6b219c1d8eb48d0e6dc199c36c28cb1513ee9f7f495f6b95b5ca0fe74863d15a4ac50bb32177e8ad2bccaf73599;0x11de6b7361dbfc35aadaf238cd65dcf1d911647871633363ed8fac7ec93e36e1650f23e1e8db44ac0105788b4cbd0986;0x2dce07cc8a631a1b7fce6c857abf7cf1896f52dbf282ef5586d584dbeafb596d036ec920825cdc183cd9e6573eec1ab0;0x54417c2555ef02952ca8334a585071994d0297c6f60e98980023f6ebe6f167d18b6320325cd4fe286066872015271337;0x1224e977ceaea600db9fcbeb4004a421a1614567f729971d36b78284750e5d4e577d3a967d3c4e6e52aec66a37bb72b3;0x16c3d5b9a51ec58cfea8edb4a399bfb18194e2be0ba82976e2752a65c53b2e67ae1584cecdd00462cf98ac03aa20fed4;0xba3bb48951a58693b7e0100d932e8baef252854f46e6186212e4671f26bd3e002fdeefdfa12b75c4ec3046e6898556;0xcf44882c933fc831dc27dbe595da68b76282852b945fdb1bed869413a5990501c6034ba134abb2d6b208d892356fa45;0x13454de6d11e70932102c307ca8dfab73fc607b03b5969a348545bd012416ba6ff295a421bf57491e02ff7118fe59c50;0x4da6b9f0469921d41668e94dfc0004aaf22cca4dc328e6ddc9ac0d7fd3438a881e66569a3b38f67e95d839d0f6aa61c;0x161c58fd45b100883dc4009d0887fc6a610cc7731f8f872b5b686fdb8ecad0956823cad8b53a6f49328847f45e1f980d;0x1744af5bb5d05e1fecb9839f7b822fee1a3024479072f4f6187259b8586f46a9ea98f509cdbd69816825c030bc8e016;0x26966d516de4a5f8a5e123e2f98664174b4c1c2f8ac32b66bfc4e6f97ff5895f81a341ca0950b7e407578a73034d68f0;0x880053584e624361c66e97238a220f10eef487a85b2ad26766d0d0a7f96f2aefaee13870f9b106441cb1a44146754ff;0x2c5cf32106eec03109664c3893b9c831d9dfcffe454bc1df796897bb7d0226ae711470b387cd7be51ed88acfd8e767e4;0x687d1dce4b43b10beea856307ddcc878ebffdb72516461ce3de52fa56f0ee5e5a4f1b25bc79303348ac71800e923e03;0x1338a18842c2988bbef95c5ac60bd9116c8df541a1b65d5722e04f286f25545140873ddbe79c367a3928d860216587aa;0xa1a9d42f55e369e7e6469ad34587b5c3fd50f8f03654d03d1d3f809a028cfaba07b2d817c59c1e05137f44b3eb0d9;0x1186418c7eab2c96e966eabee0a922414f4b9df178ee68c7b02af1bde1744269756efa4b50ec467526e88aae9c4c6ca5;0x50671170910dab657100cd67913281da170d21d1a2c2a196cd061e4365a826024a13ff98b14f4b1fd625299916573fa;0x7f5740361095410f0fbe6e4cd5cb45397cf1aa3190df76886e366ff750c91b58232c11a5e2fdfa49cf81d0c6b2982c6;0xe5abff37d9b375f2adeaac09211f628f5f39a3b9fa837dd1ca229ecb5c3dec2323b6f6f867eac6628b449201ae99b8d;0x1a0111ea397fe69a4b1ba7b6434bacd764774b84f38512bf6730d2a0f6b0f6241eabfffeb153ffffb9feffffffffaaa9]].
Lemma prime_modulus : prime 4002409555221667393417789825735904156556882819939007885332058136124031650490837864442687629129015664037894272559787.
Proof.
  apply pocklington with (ws := ws_prime_modulus).
  - unfold ws_prime_modulus; repeat (apply Forall_cons || apply Forall_nil); unfold wprime; cbn [pw_q]; [exact prime_15778400344354997994418419698270088123916926905054652752758194827714659].
  - vm_compute; reflexivity.
Qed.
Lemma prime_2 : prime 2.
Proof. apply trial_prime_ok; vm_compute; reflexivity. Qed.
Lemma prime_1607 : prime 1607.
Proof. apply trial_prime_ok; vm_compute; reflexivity. Qed.
Definition ws_prime_906349 : list pwit := [Build_pwit (1607) 1 2
[true;false;false;false;true;true;false;true;false;false]
[0x0;0x0;0x0;0x0;0x0;0x4a0b;0x9d6;0x51a1e;0x1c5f1;0x18598]
(298534) (69307)
[true;true;false;true;true;true;false;true;false;true;false;false;false;true;true;false;true;true;false;false]
[0x0;0x0;0x0;0x0;0x4a;0x1a45;0x1dc207;0x64d9;0x62cf1;0x8a5d9;0x1b878;0x4473a;0x49a65;0x93026;0x3681e8;0x128a35;0x733;0x2031e0;0x964;0xdd46b]].
Lemma prime_906349 : prime 906349.
Proof.
  apply pocklington with (ws := ws_prime_906349).
  - unfold ws_prime_906349; repeat (apply Forall_cons || apply Forall_nil); unfold wprime; cbn [pw_q]; [exact prime_1607].
  - vm_compute; reflexivity.
Qed.
Lemma prime_359 : prime 359.
Proof. apply trial_prime_ok; vm_compute; reflexivity. Qed.
Definition ws_prime_110573 : list pwit := [Build_pwit (359) 1 2
[true;false;false;true;true;false;true;false;false]
[0x0;0x0;0x0;0x0;0x2;0xed84;0x8da8;0x6a4a7;0x2bb4]
(49392) (21979)
[true;true;false;true;false;true;true;true;true;true;true;true;false;true;true;false;false]
[0x0;0x0;0x0;0x0;0x25e;0x16cda;0x60805;0x2d0;0x20c5d;0x14b57;0x1c3d;0x42a1b;0x73f3;0x12a;0x9cc;0xd2e4;0x1afeb]].
Lemma prime_110573 : prime 110573.
Proof.
  apply pocklington with (ws := ws_prime_110573).
  - unfold ws_prime_110573; repeat (apply Forall_cons || apply Forall_nil); unfold wprime; cbn [pw_q]; [exact prime_359].
  - vm_compute; reflexivity.
Qed.
Definition ws_prime_2653753 : list pwit := [Build_pwit (110573) 1 2
[true;true;false;false;false]
[0x0;0x0;0x0;0x0;0x6]
(166544) (53639)
[true;false;true;false;false;false;false;true;true;true;true;true;true;false;false;false;true;true;true;false;false;false]
[0x0;0x0;0x0;0x0;0x0;0x65273;0x302a0;0x1f7ebf;0x12ff5b;0x7119d3;0x5d16ae;0x435ede;0x53e8ba;0x1c9bef;0x66291;0x25031c;0x4b994;0x7c704d;0x4a226d;0x37f2c;0x287e37;0x0]].
Lemma prime_2653753 : prime 2653753.
Proof.
  apply pocklington with (ws := ws_prime_2653753).
  - unfold ws_prime_2653753; repeat (apply Forall_cons || apply Forall_nil); unfold wprime; cbn [pw_q]; [exact prime_110573].
  - vm_compute; reflexivity.
Qed.
Definition ws_prime_63690073 : list pwit := [Build_pwit (2653753) 1 2
[true;true;false;false;false]
[0x0;0x0;0x0;0x0;0x0]
(34981479) (9214808)
[true;true;true;true;false;false;true;false;true;true;true;true;false;true;false;true;false;true;false;true;false;true;true;false;false;false]
[0x0;0x0;0x0;0x0;0x10;0x2ccdbc1;0x12e3bf1;0x6840ad7;0x1695026;0x2bb6330;0x2e6d77e;0x4caa111;0xa5c1bf6;0x14ba6ce;0x54d6b3d;0x203a9ca;0x68f11f;0x1bafb7;0x3ecbf7;0x56f9;0x21cf046;0x336274a;0x33cc49b;0x3cbd55b;0x0;0x0]].
Lemma prime_63690073 : prime 63690073.
Proof.
  apply pocklington with (ws := ws_prime_63690073).
  - unfold ws_prime_63690073; repeat (apply Forall_cons || apply Forall_nil); unfold wprime; cbn [pw_q]; [exact prime_2653753].
  - vm_compute; reflexivity.
Qed.
Definition ws_prime_254760293 : list pwit := [Build_pwit (63690073) 1 2
[true;false;false]
[0x0;0x0;0x0]
(220792254) (13)
[true;true;true;true;false;false;true;false;true;true;true;true;false;true;false;true;false;true;false;true;false;true;true;false;false;true;false;false]
[0x0;0x0;0x0;0x0;0x4;0xb336ee;0x5f16995;0x102b619;0x843fe2e;0x3632c35f;0x58038a3;0x3d94057;0x42a65a8;0x7b3b67b;0x247a94e1;0x5dc90a2;0x13f86cc0;0x22ade36;0x272cd82b;0x51dadd6;0x99c785b;0x7bac082;0x2ab59b9f;0x5b99fbe;0x29f0e6e;0xb86a865;0x85ee580;0xf2f5563]].
Lemma prime_254760293 : prime 254760293.
Proof.
  apply pocklington with (ws := ws_prime_254760293).
  - unfold ws_prime_254760293; repeat (apply Forall_cons || apply Forall_nil); unfold wprime; cbn [pw_q]; [exact prime_63690073].
  - vm_compute; reflexivity.
Qed.
Definition ws_prime_order : list pwit := [Build_pwit (2) 32 5
[true;true;true;false;false;true;true;true;true;true;false;true;true;false;true;true;false;true;false;false;true;true;true;false;true;false;true;false;false;true;true;false;false;true;false;true;false;false;true;true;false;false;true;true;true;false;true;false;true;true;true;true;true;false;true;false;true;false;false;true;false;false;false;false;false;true;true;false;false;true;true;false;false;true;true;true;false;false;true;true;true;false;true;true;false;false;false;false;false;false;false;true;false;false;false;false;false;false;false;true;false;false;true;true;false;true;false;false;false;false;true;true;true;false;true;true;false;false;false;false;false;false;false;false;true;false;true;false;true;false;true;false;false;true;true;true;false;true;true;true;true;false;true;true;false;true;false;false;true;false;false;false;false;false;false;false;false;true;false;true;true;true;true;true;true;true;true;true;true;true;true;true;true;true;false;false;true;false;true;true;false;true;true;true;true;true;true;true;true;true;false;true;true;true;true;true;true;true;true;true;true;true;true;true;true;true;true;true;true;true;true;true;true;true;true;true;true;true;true;true;true;true;true;false;false;false;false;false;false;false;false;false;false;false;false;false;false;false;false;false;false;false;false;false;false;false;false;false;false;false;false;false;false;false]
[0x0;0x0;0x0;0x0;0x0;0x0;0x396;0x9ab7272dc0b09a2357dae08a1d2d1b6ee0e3e5572248f7a533e0bcb461a3a0a2;0x7a762a706668eb04dcd05b49d825697bc98f47ce05883a7fe68bc21a448d9cd8e;0x44156fb8b64b4c3c1d8cf336bff9cc7aeef221d98787e93f2987ad87ae303386d;0xaf8d320d78a63294671940032470c089c30bfa0f43035bee3d56d91ebc64a6c39;0x41cfd870d5cae5b6375aa92164576d74e4644a0411c8d495b0bc81dea3cf46d;0x1250ab6d34c41fd190a21508e13273c34f5a0658ae625c933af6bcd48b02dfe56;0x5a3594894082b3acfca3726d6aa0610427488495c888320931990e68bebfd6d92;0x829d7a0c0cbafb43d70aeeb6f0a474571d4b4ad1f9d9f6f9ff75630c23de1c;0x12cbe15fc98e448ab58f0a7b40fd355cf0cfd2f04f78747084124a9d36bcf81eb;0x55e7cc7165a412b6dd067d2fa2979853743cfac2c4aa12e568f3c671af81c8677;0x11ffc32256518842c53619c4721c55649f9b1b163942dcda9f559b59dbf553a2;0x1b11f76c4c7d18564c43848f7abefaebeded0185e2d52c9ce0e39ed74dad9f2a1;0x566fad61ba9ad0f679cf1bde1a99309c72378bbe54704d95ef06a2bf5a911da;0x3ba0f4ad71b9bfa115095609343e63de456482ee5626b672b7d8cf9e8efa1934;0x3a57c3818255ed92d53513d75919a44520f53026534beb9e52a614bce11df2e62;0x3d270d228cd2dcc5645f541e0d6ab63016b31ad4e4cecbf61c5e39826d1e88f09;0xc70cca2bbb8a2b14b748314efbebbec30502c69c4bf0b15acacfd53d63136d9;0x1c805080a6cdf3d2544c4d11c1130dc831429ce6e5a3976997eaddbd74e725c7;0x9ed79f5595334ddcc40c7a19c20f775bbde2f131b9f07f4761bddf6151a7b1e2;0x265c5d401770a4fd5b346e27af18f48fa76d131af1af8212ec8ed89aed2408fe;0x123efed6433c8a0f31c74c90c5c5ecc34124313dd6a8af28fb494327c841eb6e2;0x4048b12bf5a3633dc663339a06ffd4a25718dbabe8550775284c8cc1960a3b1f;0x15ef144118e064354300181245f28a1b9bc47cfa163a7de91509ecd8e4633e30;0xb1a6b5c9196b8ca256d28526741e00d03cc619bb076e8a0c51f7dabee04594b6;0x5945e8c5c507d08e3fe70ba7df1b00e01aa7bd4c4985f3e346d82bc558798d37e;0x6eb36d9357f48b462c9455bf2749bc871c117b85884b2fd2f25604d8286b9b49;0x1bada8d939f4e2d68636a81e2ddf3296e40388cbd60a5c4e84ad22c805bd0eb;0x4ceeb44ba35489dda284e3f01b0783c14c2bdd9ef97f2e4e3b64d5dc93a45581d;0x1059b4ee14dc8ce95e2ac6254e3a669cd8627107c43d1211e8c1ecf5d6210e3d;0x1a1580224e55daabfe9e79b86dcf8d0bcf8b68ea5d800dc7f8da382b85126ad7;0x5047e31945957b8fb39d33b05d1fd341859464bdcef480976cf1e2255e3991d;0x6b4a093abb5da18d2fdd2af042cc135a50339f3eee314f48f9cbaa3a06ff80d;0xf8f66fc7ed73965a85b5d33bb713106298fbe50800edcf26b1eba4af1659833a;0xec10b5d76f400055f29ea61bb33255ab7ae5d9e9b9e66bee607025bb5ae128f;0x1f1ee63027845950a6d293800b092f9b2eea065348028fd1f25be0ab291d4cb9;0x42809934804b5e6ff991e6ff4e090d3d78b02975d013d421260feb72ef3a8b2d;0x1e6b52af742aa324510cff794f2861fb255dc457650fd9fb00a1151f9f0671b4;0x2a5084b766d8fa0a4fa4a30c19237da6c954a20949c9aaf84f1ce06e54f078dc7;0x51e005ec66b7e0b058243e5e83ad69768257934069e642abf8a0947d127df53a;0xc972ca569afb6ec86c03c2ede757d2d1d57201a82e3f519590388c11f32bc63;0xad25913f3bbdf8591d644dd7caf89c2db3e099296301ac73bd0fb52c206031e82;0x22c8ac594f22c7ba2ed3a9697552e384f7877bd38e65477c23c2832b0c226b44;0xb7047ffc5ef146cdf9af4f9e1b4d427ddd3e0ae14b0610c860fa2b5ae5d41a1a;0x8467bd0eb078ba5d01c5997824f5d239fd156753180efd1dc03d3f3e0d81f9739;0x28022d1180f65834fb7ea0872ac7a44f4f523e81053a88a5bb02fa21f5b2992e3;0xa030dd5e28b93cd29094c14a8c378932e06f3dfccf5ea8fccf5fa02a21980ecb;0x7c39649d759285ecaa1a8db117fadf34f59679eed636ce624aebfc856956a9b17;0x3cadac584ff2c254eb4b45ca65c39ea1f0f84b422af308d0a1bcdc7b539e8fcc;0x13425ff6323ef8019af5617fb1f54954fe02d8420064f8d0997bee78f37c17f6d;0x2021b0388bc5b3b7697649aa77481f7f13208f8b9aca622e5c268a27d56f0d;0x557f415e876fc3822e6bcef10f3b0a16c428a7a5bed8f46fedf9d6a0de58164f;0x5cfb8e58af17d65dfb525c751e01e53ae87ae578e149307c0e620c1d22f2b1da;0x3f8d54af88124d95ff80aa6bb6cdd41352b4ee4fd3c78ce334c9203b626b7d3c;0x36513b7f30e75e5495142d5fa30564a9b3234dec9946c157df58f18380dfc1de6;0x5faf7d6c9266271eb98a5ff8cbd29f4ba8cbea7a9cd68f7bc6aab239141b79bd;0x4dc5aff6407be01aa3ec1a4c0d35707afaa5748cd5f7932ad201ab479488ba47;0x70681fcc0a10569e5057c01fe56223e42414eb67b24b494c7b4e0a005b479785;0x4aa7d6b7478345118bf9f3228e633d95320a31a7c9436082f9ada1c6f91023e;0xa2f8de0d1e9d1d1c9781e4187de6ed1d8503254372e628e3ff7b1ade35b7bab;0xa49d14d8b7f00d8fb78d1df3cc10df8aef9f566095283fcf4ef8337d953ec6ed0;0x69d8af321f32a04a4c71dc27a67e4234ca2aa78c7ba9a9aee426bfba4c9a86340;0x2203bc5eccd5541386ab3ecd49fbc6a609feeb55eef3dabb21cf0a574537ef81;0x4502109ff8db5ef2116f1384adae31d8bbd6ecf0a606299e9bf465f14c4488d5;0x9b5474e32eb57a628850c3a74d1d62ed2b58d26750b59201da317a46f6ca016d5;0x64922494d6afdc7c94dba02b744c67f95b9c4394b0bdfc0c77852ca6c9c751d2a;0x17eae0738ef9fe6f2b74bd8c326c7e433d68b74667cd8731ae3fa180bfff6c7a;0x9e39fe5cb458ca8186c01e5f8f256bb8bb7e7a8e2087fe463ce3fadf4fa73d;0xbe1463cf959dfff4ce1dca98c61208c9d0c467f3b94e57faf47d3120114bd2e4;0x63d6b61a89f3cb470b71afe101b77cde3c9ff855fc5352d62d8f50d0150e406fb;0x9d5c51966a46c8782ea3c166bd1c2815dcd7af346693d969d2ea89c49eb3f4edb;0x2592392c952080c122749a2c3883805534fa9f4b30eed6912e7f5a0886fd78e;0x18a17d346d48550fa40712c7c7ef8812196eebd72237e369f5e842a82a2cf4b3;0x85866b30c604956b31e08ed6f5b1b4b888b4cd9b876728c6a60cabfd69bc86b4;0x6ac31395389e8b839e4ea1cc46b4e4992d0a2e35ca2d2e90ca71062f2cdf2c57;0x7bb55d4c495540b6f881bc3ee90486b3c8a280932e3d55fb11b4ff2632749ce3;0xe33365b035372e7dee34e78bfd35a9041332913457556b45ba01df13d136;0x14f512894c06e0ee45108608c6718cca07a76266d3b63d335c0a5d27ebe56a34;0x599a6fd8357da8e786ed75bac89a16a87ae2bdf214d58d62f4f18c5c61c53c2c0;0x5d98f3196a34883ccd7596240b1567544e596524a5ee0ca24fb6d29aee5ca512;0x146d928cf76cdff85aa1d89799a8270728824f88704bd966dcf9e6a460e30659;0xb23a03c21268447180b9d385eac3482cf4934b86cdced29d4b71a98312f646;0x5534044239ade3ac7c14b460976ea25af11fae2922adce90d8df220695077fc;0x443ee2a6451bf23305739740d19d7e79280cbfeaed1d23f9b9be745afc940edc;0x3119b7e912397c984790e8045de705188cd8d14e8b69971c1fa537f8eb7e7a9;0xb41b1c48c13b6043827641cf4f9f8d486ca5f477ad38b533e636a460089ae37;0x6dc8410a02b541f8bdbb69db2b11c16370cd31ea57321457a8e497df1717273ca;0x18c21ff8cb14d7cb37fa3f8424f5729c9c78ec0f52abd42f21dd41e15dc36b43;0x116f6856acd04335faf472ed096b5e53e2b3317c60238d9699bf12f431483be7;0x6178bc8f13b83f654b6327cdb06361464cd8a553c46a6b85229b3f0bb124ac17;0x4c4a8da829c030bfbf955b2d825f698bf84f999e814efec0a6d1996ce23c356e;0x20a7d8acc9f2b9635834079bed47fc90edb09cf24c387c1cb3f012cf27461;0x16f572770b0e6457a97add850ebb6255f85d57a8af4b317271325add1fe342fc;0x727670f61f882daa17544de904d37c80073ce02ec8b10376c7f5c1c232df32e;0x43a42c190f92d20822a9820228d608d1f1b5c8c7fb3a14934fed61936c8ed4ae2;0x5fec085f8eb44aca1f49a4426f6967ebd52c48a6cfe09f3e4bc29ea620a3406c;0x5754e745d5211f8a54aac999755fe70da6ea12d34bbb8eefa2f1792e4e63b31f;0x2237acef7b86a859e6907d8b6802d00e06f93440a5a915f00b1fa9cbaafc60dcb;0x11a387b1b43cf1c914c341fd11b0fad6f6309a24dfeb492f38aeb437383b71d2f;0x26e036648689a186e9f7a12756dc9b9f86f8ca69493952a2abe3390f9d9fcfdd;0xfb1b7da16952fb130dbc2433c532bf21831189256eb2464ec15b9ae362614b1c;0x83fc4d7388a50bc8b124a1d4603ce20e9c9605ccd31dc8b2fa6a6454a12c7;0x846d4f48b09988e51060e83c6fb6cd715a370441a34b55e862a400da49e47f;0x1c41e423e355930d8db7cc4a5208628c76b2846d0c0fadd9db58b034526f6c64;0x2a4e8df33a4c653fa96725833ea81b905224c18f005224199350718d3b3032;0x3518d5f55724549edd74ae6a7a3533ed54774dd45d66a832460f9c6e9650ae4f;0x1a5683280e0c1b3030732cb74fa727dc6950046f304680b542e36567347080f64;0x66b1b0e8ca23f302c427603bbec71b3ba19115340125200f0bc8723fccad41b05;0x12d293ecd62d0c85a5959490a9a06e0fccecd51dca4642371cee343d6c33d0ab;0x33492242c6e9d0e743cef255826da9af10a4f8c5ec5d6a8e4290e325b113249af;0xc3db44332b33c5751dbb17dbac3ebbab4f8dc67a955f9040d27e450985e03d52;0x4531b049b9cd24b50753d2382818086a03cbe8033300003ddfb1deeeb465978;0x32f1dca801cfa6ee5f76242ad70b6bf9ba52eb083f74f2a1eeaa88cc020d1b0c;0xa862b608e7fc8803ab38a1bba360b89faadb4c23e2e7d64b57c6f6db4c66339;0x2de7d8d1b1d1c0154369bba5e341f06abf8a2fd02dcd3fe78f2752eaade9563;0xfd6abe38b6109c75e537d2cc436eff4781151692f17ea8d373c65c5eb501f87;0x604c593d7049ddc221e4459d696988c092e6eb25bba372fff07e725e15d2a51a;0x3bf8b5961c81a6662d5b128b297f1fb8e0249dfb8b858d012a46fabdd89649b9;0xffcb24918bf10840c6b972d8867b341ac13341b7449d60d8244a6efc551c48b;0x94780135e2320a9c01c74b6e1ff83d0baff36ace045f778dbe8feef46f64f7c10;0x73a7831722c186edd176f954b9596de0e4b7fcde5325268295521281fc75360;0x8e0c27bee1028304439464092b2d528bcb3a5042061e08eaf41af7f724cf8fcc6;0x22cbbe50ea8960557bd64d1ce5454ed0d82d550391540ed233f61ab21c4d239;0x136cb9312e4ba4a93781a65f5d4c1a2fe6efa0994e2f3c052a44c0a648aa41596;0x284ee823222792511d1b60a92ae9ebdd674995b7f76546d5bcb4dc5b017a797a;0x595b2e2b5b034da47d5821261f96a1043aad481d7c40c6e3448ea4a0cbbe33377;0x3acdae9a8d39f944d3a569a9740d41d31c6845d1de2547b6044189f1da4596a;0x2ba53906fcb5eeb8cd5ff5cf0ca2cdea4b6be18c4c4e688d9e1826f706a2eeff;0x800a8c66ba69fc7eebe77d68b1132159b8ec1f4285cfd74ed840653a9fdb2fb0;0x13f6d6a1988e445c4da0c614cbeb47fd592717f0fcb656df347c76aca97e68f2c;0x190313a6eaad051114843d8ea07bcba32045c9fec7606ebace61eead9f75e12b7;0x1169c2957a9bd856f6d4887901fb998e0b6237c1a87d85b01c570caf8cd00fa;0x14cd4d74a550bdee790003ba7e1b1696fff20b1b0a677d868ac5916c11cfa6140;0x20bb7165b6d262f58e2f69da7e8ee50c8b507b83592d29a0b8e7843be39a59a74;0x3d72965023d57f2dc0fc4894d6077b91d2720c4bb91160deea785fc10064d68;0x4cc288ff1fcc87e791a08208fb0940db264035e71968abd67ff6c344ee5915d7a;0x2684921865fa70504a01bd8ecd932e10c62615226f85df6ef712177e1012c88e;0x375b1b6bd92d938602680ab5a020dc001233784313942768ceb0d447830f1c66b;0x12ac712102d50cbbd99742134e06d382dc83cda3c2d2ab573fd359fb6d4ca2a35;0x82ca1efc3dfb469be895c1d651d06181cbf9e7b3e6084d88893da15e758b0b8;0x4701db0b3c2270edfb0c76ca6f2110e4dbe4d26fdf4622e9d17165abf1cf1d96;0x1d05f781ac4b8940fba1e7fa8db5d90ba76eba915e0cc5733df527f5d29618b;0x18e797ccf14d2149345f98c9a259d6b3a653fb7a60302037c5c40cc062545b77;0x1c0fbcdca2f504e041b9a857b2d7648b4a48d9e6ae5dd356cd4fd029b3602ba84;0x7602a93c86bc3e3c9497366e81ff6d92bc5f33785a0cdb7764307c841220977;0x418760035b2f7b217bf5fc3ae318164bc2804d7dc7b7905a23cac79fdf3da28c;0x1c5aa1913033cff434779780e3474fe9562dc403901ff38f71a1780ce6865e8c;0x331d8690c04ea7539041d63d7f422ab92f1d4071a989c76c438fe142e4fb58bc;0x55d2490406ee31c417cfa2e002982acb7525bf68150f52cb733d2942af67852c;0x16fc1bd35576eeac1e83725d02690f740c1a1eadca5e0d93259870526c3529a;0x706ff7be59f60932c52dcb0a4eb1c4a2c6fe8032b25431c53a414c8424a21b24;0x4ad1e3bb899e3df52d48e6962c16dacbd82a536686b5a1d11d6fdc21ae768a87;0x1595403c1023467809d787802a9a1924e04b4cdef81f410b92f1dd3bd644f0530;0x42e18fb89865d28c72903b3e5de50d28d6fe7bc7c07b7efbd4c31ad44b3d580;0xca1eba3be1eacfd0bb1296b75d0c9bf6576a6e92cd579d76976e3c734d080c63;0x811af3932a6edee4d56952b8567c78a670cce9bcdf6c3f426b7c8a62593f95f49;0x40e57a8f44619891db0f1157999e224af1585f340dc1690444439591f9c2edc3e;0x3857ee1b4834f064dec85b8efc84eb0ad54c6be7d6b6b67d5e46eaa06657dc19c;0x8d7aade5c03631444f3cc59dfc689322427a1013ea84d4a84ad27fdda5da652c;0x137e60559eb88679624c72122d81c9f70996a13674f4d6993324338ae5a8cee;0x43cae78d91830dbe1a5e02515bc3121d5ebd5f1abd387288bc1d9846877265b3e;0x5959e9d79158a83990c35b74fabd7a78603d1e343b30d5b9fbd1b7a8df07a6c35;0xa9ea424665820dcf2ac5647ad88d8a35ee97463a4b10db41dd3f599651cb9ac66;0x40f5865c713025835d3875cfe5a2fe0de6073226aac9eb4067446957703cb0d6e;0x655e0d8c37a34b099ed1d52aa0722c1c6c85e9a9f0ad3cc20a469432dc922ccbf;0x7b225aa385b8672eb8ff5f18a80a0124146bb60426620bd05efc42532e6a8452;0x6a773bbea5450dc50d742b9cef2f8102ccf792f2e893f8cd24f6c15c11689f5c;0x3e65fcbcfec8065ac8a384c20594f5d61ee2a55d3ebe8d044a702b215f1a8415e;0x8a3a5da14e9a15934c6bf9ba3b3d9cdb0c85a3aca62fe77e7b127b8d78b8f6ec1;0x5f4ed34374a08e2fabfeffaae16f405479f9627ad2b9bde9798ee779994be07;0x10f1378021970b6e5f678e781524aecd9a607fe61e8cabe5ca64a9733b0bcf3a;0x6d019bcd116944738389cc99f217608eafeea7a480c0a20e34091f92fe23783ee;0x1f442ed4e07ea92f096bb5ec57deae16da167c9f6ff12609a6e715d43d74785d;0xe4aba930f5fa578c1aaaf32a5469e79029df47d65d144e63fe9b1ce79af348b;0x237d4a39e5d887d6d131aa1fc03c45877976ebb91612a2f9fbece7c048bc31d82;0x45b64ba0bebeb19a50c014306668c5de73df90bbcb90161b9fcbdd4eb09c13b;0x8b9a0b1de7f1567a006e512ad74f3702098b44e7f4ef607f085c2976098d466f6;0x1684955d7705d455a7da928c40a08339b54b6d88d680193462df769cffc8ab09d;0x38a50b24614c8a23ca82235fd630ea440bc6b52c9e8edfd612d708ae1e1406e;0x4a8d066b0014cbcbd755db507cfbe7b74fdc9b3a6e22fe570469a276f2c45f2bb;0xe4ad3d24a8741af5d1308350b514a4657c8ad92dbd6523edf17477bf4bc10098;0x3acf5588223f07df563f8d6f923336cded4ddbe4d2cdf00a901e4a71424cf64b9;0x6719b0b1284a6d85f37774f12be1d48106ea953fdf6a5f0d72df4c89ae560d39;0x197434b88c544007290b6d0509c7cde135e7cf3616e99fe763231fe4de31d0160;0x5faf4908ffcd7e944db5437cdaeb35289311a65860cc1b6dbb073dd3939810d26;0x1319345050ea6645e7cedb1962dfb7b04384e815e8a76b72083873bf0d29f6;0xa63578fd98e78ac3f22523e3857a073f59d96b46b62a510e9d20e54de9388d438;0x44c3d59f7b1ea62565e84c5794c00b886633ac3673b4e1156a8f59b544e9c9a9;0x2b0bed7168b2fa02cd43de868dd077d6ed85b066ccf06aa1d5890f1d5dc5fb2ca;0x10cb2db7c69dc76d5fac1b2eb55e8be94b9d26023a3a6c65de8b4e72bc8c7aad;0x1edcf2e7879b3ef24ce9abf658e1f9127a3cbf1db762b8e943fb7c24c4998f0d2;0x680fdd9c06497f66f90b4f738e7a0c21b071bfbf0078d82581802ab89afbd3415;0x5ab18f4f0bd9d763b7528f7bf660aeadda621229ff08ded05b76952c974cb011;0x1d5ab19714a0bd8968044ab206f18bdef855fcc55a0bcb91ee62e827ebea35c;0x1738eeb3021f2e7c57149b8bf4aebaba9acd239ed529fa1854a860cb6f6e6076a;0x54383a39eb3c57fe4f54221df3d65e926f4a5a8c50c40af9aa17c440e0d28cc63;0x107d8bf25ba8515a9309a208725308ae5dd2cf43dacd2f63d14be07e30e8f4267;0x454e884a91160e236aae293c343ae5ece666e94d4f62d37ca8ea6f7b51d9eb519;0x288882e01d8dc18ca88e10a18ddcc0f75c232682c3d08b4e85ddcef4f4bf0eb17;0x758e1e25fa66bb3378f8a0397d87fda213cf462924d7727b23ba3849812512b1;0x108bb078ec14bb7ee86e52d98811353b1c8f8204a596ee99ca4d009d8390e0aa4;0x564354636c93444dfa6edde42045659b1f0b2fd76f600a925cebbb8763dc45ca0;0x8d769a9ebdbef9fcb6d9dbaabac11c6fd53e70ef1a1f828600426887a6164fa36;0x94cb0be605b28115f1970bcf61fd537027c176009096b1037ced4a4536dab365f;0xee446a0d5c017ec70211f2e3c63dce53d5e3b0a4af1515a5f56dec6f1f7a9fc9;0x5145443e5135aca923120f8d1587219c7b26fae2411f3d4193bd8b333385b3f60;0x143f7dc548ad6cadf344cc639001c2eb524bd90447dfd41ad64789d29a98f3816;0xd2c435cef17e7137c327065d2ef10b57fb422f25910393cbb506914cc9e53de2;0x169c0e10374b3c8e99dfa5a47c727c83a513261bb88e7ae4392736cdbe9268137;0x86a34477b4d9897cc579dc274e93362c13179457cb1d67c848c5cf1ca7b0208e2;0x510dfd9a70e731758748a670d05440223aed433c7b37a2db821a2b7779b0f75df;0x3d297396b8802a8a1e5e5b558961b308261cce2fdecce782dc5d329fb61cbce54;0x261a9d4d454f3d76bae72a9897991f93129a231f01d53482a1d581e347b5cdef;0x1ea8540fd66cd76333164cf4762aa31272b643c60593aff53ec79d5010eb21905;0x592c70353546900d1c79b50ab531bd6d8a3e6e5906852a6c9268515ad47899fda;0x4842d40b6086f2457bb510321511fd4877675239d3c14cd814936fa7d864e427;0xaab4c7817d2dcaaca6f9d05d5b7c4a733538c55bf4581d5eb22b54fa96f4839b7;0x1d80b7a87a2b2b20b26d8d269a7e1e6af4febc737cc2c9d548a9845a2da2aacd7;0x502666ebb081c5abb605f4cf4e7d2aa84c5d64a8a14a72b11806f88a91be59dc;0x9cc6e14dbb285be99673e9f3a9e05ffc8428c7a30aed5eaa84fc649cc554c7;0x6ce4020aeaec38b60601ebc3bb0a7d553abc36512011272d69d059830ca4fcdd;0xec974e094d1e708a3ca8446e16d33c4312b65d7f6da9fee692491c3a0357a5d;0x1849901086edbf68f071aefe83f233b04ddf2fb8bfd6a0eb0ce2bd2a2acf376b;0x6e7d3dcaac86a8238a5f670857eff36aae311485333d55c62cbb0fc5ccda4419;0x4811281ce65b32e34320f18b633300429f3b5660a97948a35e02379e89fb98d;0x75a2d8be908c8bdea06bcba0627bbe9ee3d60d051883c70fe5e9805bd608a98;0x38fa0f29f46190d58e140bb82754be6cf74c9d918267e009a74854252ce9d96f;0x1de8df20ba9a97a0300308806dc357b69d20000d299b15647bf9609ab973ba;0x6a25eb02275a64997a420f5e58fefed36cc4a630405793cc639f0a1b3daede87;0x1783d25e89194350ccfc9487c356c4b77fbd422cd070fdbc77f8cdd100798dd0;0x1d6da460ff96a6046b184d4a6d59507fa3c5a6cf2c35f8d6af74c80637994d88;0x4dc90512747f4ad98a2a0b2af56af03dececc00ba5428822b87de7085d676002;0x4c1679f4df02768f50e7dac29e2da3f46a43933e61c055884ef284ac652f8a;0x5b94d09feec90e80aacc0f202dbdb1aa3ab607c410b9595a2749e17c39f8f950;0x2671883e00a38e63ef13ced0a6062825809dd943c2f6c609c0da5ff3c33a5b8c;0x37bfcd131f59913fc8cb8aa3a8e8140955b5d29e022da2afca96cbe3bbb0e17e;0xff33eb2d8ec5deffe6ae2cdb4dda2f37e3d9fc24e8e3b652b3659bc9b41d3f;0x281fb8a79a250fe628a13907f4e26ca408f9eef53c0e3b38f480adca3ca47a2;0x271872b6aaf6d3bd3a0de66e338beb15aca070366a7b0a38c6e3f7bda4bcdf58;0x132e4898b000b765b7b5e1a49d4648d1170a4e226cf4fb429d0281e1ace4ba3d;0x69ef3310e922a170b589ce6b4000a59cf2b76680e44d02ff26da7bdb7974dd8;0x12b85be2662a19f97481e19201952eb11cccb2502096f174b7058b717bdc8238;0x86e309d78307a1a8c11a25ae18c48c1c80c9d29c30ebee036386956db46bc1;0x1c27233889bb358bbb07388c13fd4f597dda3ad33810434597559b99127ec5b;0x2c050183cefca9b7a2ebcd2504effdeb07fda882ee83a7cdfe9f06ed0781e531;0x3612442d7f79e669a9408b0e77d936062fbe75548db7578ad6e4f011f7a2a722;0x22e0a7276a7660a09f826eaae83d8d992b3aa52595519d2b937d12035364c731;0xac45a4010001a4020000000100000000]
(26217937587563095239723870254092982918845276250263818911301829349969290592256) (26217937587563095239723870254092982918845276250263818911301829349969290592255)
[true;true;true;false;false;true;true;true;true;true;false;true;true;false;true;true;false;true;false;false;true;true;true;false;true;false;true;false;false;true;true;false;false;true;false;true;false;false;true;true;false;false;true;true;true;false;true;false;true;true;true;true;true;false;true;false;true;false;false;true;false;false;false;false;false;true;true;false;false;true;true;false;false;true;true;true;false;false;true;true;true;false;true;true;false;false;false;false;false;false;false;true;false;false;false;false;false;false;false;true;false;false;true;true;false;true;false;false;false;false;true;true;true;false;true;true;false;false;false;false;false;false;false;false;true;false;true;false;true;false;true;false;false;true;true;true;false;true;true;true;true;false;true;true;false;true;false;false;true;false;false;false;false;false;false;false;false;true;false;true;true;true;true;true;true;true;true;true;true;true;true;true;true;true;false;false;true;false;true;true;false;true;true;true;true;true;true;true;true;true;false;true;true;true;true;true;true;true;true;true;true;true;true;true;true;true;true;true;true;true;true;true;true;true;true;true;true;true;true;true;true;true;true;false;false;false;false;false;false;false;false;false;false;false;false;false;false;false;false;false;false;false;false;false;false;false;false;false;false;false;false;false;false;false;false]
[0x0;0x0;0x0;0x0;0x0;0x0;0x396;0x9ab7272dc0b09a2357dae08a1d2d1b6ee0e3e5572248f7a533e0bcb461a3a0a2;0x7a762a706668eb04dcd05b49d825697bc98f47ce05883a7fe68bc21a448d9cd8e;0x44156fb8b64b4c3c1d8cf336bff9cc7aeef221d98787e93f2987ad87ae303386d;0xaf8d320d78a63294671940032470c089c30bfa0f43035bee3d56d91ebc64a6c39;0x41cfd870d5cae5b6375aa92164576d74e4644a0411c8d495b0bc81dea3cf46d;0x1250ab6d34c41fd190a21508e13273c34f5a0658ae625c933af6bcd48b02dfe56;0x5a3594894082b3acfca3726d6aa0610427488495c888320931990e68bebfd6d92;0x829d7a0c0cbafb43d70aeeb6f0a474571d4b4ad1f9d9f6f9ff75630c23de1c;0x12cbe15fc98e448ab58f0a7b40fd355cf0cfd2f04f78747084124a9d36bcf81eb;0x55e7cc7165a412b6dd067d2fa2979853743cfac2c4aa12e568f3c671af81c8677;0x11ffc32256518842c53619c4721c55649f9b1b163942dcda9f559b59dbf553a2;0x1b11f76c4c7d18564c43848f7abefaebeded0185e2d52c9ce0e39ed74dad9f2a1;0x566fad61ba9ad0f679cf1bde1a99309c72378bbe54704d95ef06a2bf5a911da;0x3ba0f4ad71b9bfa115095609343e63de456482ee5626b672b7d8cf9e8efa1934;0x3a57c3818255ed92d53513d75919a44520f53026534beb9e52a614bce11df2e62;0x3d270d228cd2dcc5645f541e0d6ab63016b31ad4e4cecbf61c5e39826d1e88f09;0xc70cca2bbb8a2b14b748314efbebbec30502c69c4bf0b15acacfd53d63136d9;0x1c805080a6cdf3d2544c4d11c1130dc831429ce6e5a3976997eaddbd74e725c7;0x9ed79f5595334ddcc40c7a19c20f775bbde2f131b9f07f4761bddf6151a7b1e2;0x265c5d401770a4fd5b346e27af18f48fa76d131af1af8212ec8ed89aed2408fe;0x123efed6433c8a0f31c74c90c5c5ecc34124313dd6a8af28fb494327c841eb6e2;0x4048b12bf5a3633dc663339a06ffd4a25718dbabe8550775284c8cc1960a3b1f;0x15ef144118e064354300181245f28a1b9bc47cfa163a7de91509ecd8e4633e30;0xb1a6b5c9196b8ca256d28526741e00d03cc619bb076e8a0c51f7dabee04594b6;0x5945e8c5c507d08e3fe70ba7df1b00e01aa7bd4c4985f3e346d82bc558798d37e;0x6eb36d9357f48b462c9455bf2749bc871c117b85884b2fd2f25604d8286b9b49;0x1bada8d939f4e2d68636a81e2ddf3296e40388cbd60a5c4e84ad22c805bd0eb;0x4ceeb44ba35489dda284e3f01b0783c14c2bdd9ef97f2e4e3b64d5dc93a45581d;0x1059b4ee14dc8ce95e2ac6254e3a669cd8627107c43d1211e8c1ecf5d6210e3d;0x1a1580224e55daabfe9e79b86dcf8d0bcf8b68ea5d800dc7f8da382b85126ad7;0x5047e31945957b8fb39d33b05d1fd341859464bdcef480976cf1e2255e3991d;0x6b4a093abb5da18d2fdd2af042cc135a50339f3eee314f48f9cbaa3a06ff80d;0xf8f66fc7ed73965a85b5d33bb713106298fbe50800edcf26b1eba4af1659833a;0xec10b5d76f400055f29ea61bb33255ab7ae5d9e9b9e66bee607025bb5ae128f;0x1f1ee63027845950a6d293800b092f9b2eea065348028fd1f25be0ab291d4cb9;0x42809934804b5e6ff991e6ff4e090d3d78b02975d013d421260feb72ef3a8b2d;0x1e6b52af742aa324510cff794f2861fb255dc457650fd9fb00a1151f9f0671b4;0x2a5084b766d8fa0a4fa4a30c19237da6c954a20949c9aaf84f1ce06e54f078dc7;0x51e005ec66b7e0b058243e5e83ad69768257934069e642abf8a0947d127df53a;0xc972ca569afb6ec86c03c2ede757d2d1d57201a82e3f519590388c11f32bc63;0xad25913f3bbdf8591d644dd7caf89c2db3e099296301ac73bd0fb52c206031e82;0x22c8ac594f22c7ba2ed3a9697552e384f7877bd38e65477c23c2832b0c226b44;0xb7047ffc5ef146cdf9af4f9e1b4d427ddd3e0ae14b0610c860fa2b5ae5d41a1a;0x8467bd0eb078ba5d01c5997824f5d239fd156753180efd1dc03d3f3e0d81f9739;0x28022d1180f65834fb7ea0872ac7a44f4f523e81053a88a5bb02fa21f5b2992e3;0xa030dd5e28b93cd29094c14a8c378932e06f3dfccf5ea8fccf5fa02a21980ecb;0x7c39649d759285ecaa1a8db117fadf34f59679eed636ce624aebfc856956a9b17;0x3cadac584ff2c254eb4b45ca65c39ea1f0f84b422af308d0a1bcdc7b539e8fcc;0x13425ff6323ef8019af5617fb1f54954fe02d8420064f8d0997bee78f37c17f6d;0x2021b0388bc5b3b7697649aa77481f7f13208f8b9aca622e5c268a27d56f0d;0x557f415e876fc3822e6bcef10f3b0a16c428a7a5bed8f46fedf9d6a0de58164f;0x5cfb8e58af17d65dfb525c751e01e53ae87ae578e149307c0e620c1d22f2b1da;0x3f8d54af88124d95ff80aa6bb6cdd41352b4ee4fd3c78ce334c9203b626b7d3c;0x36513b7f30e75e5495142d5fa30564a9b3234dec9946c157df58f18380dfc1de6;0x5faf7d6c9266271eb98a5ff8cbd29f4ba8cbea7a9cd68f7bc6aab239141b79bd;0x4dc5aff6407be01aa3ec1a4c0d35707afaa5748cd5f7932ad201ab479488ba47;0x70681fcc0a10569e5057c01fe56223e42414eb67b24b494c7b4e0a005b479785;0x4aa7d6b7478345118bf9f3228e633d95320a31a7c9436082f9ada1c6f91023e;0xa2f8de0d1e9d1d1c9781e4187de6ed1d8503254372e628e3ff7b1ade35b7bab;0xa49d14d8b7f00d8fb78d1df3cc10df8aef9f566095283fcf4ef8337d953ec6ed0;0x69d8af321f32a04a4c71dc27a67e4234ca2aa78c7ba9a9aee426bfba4c9a86340;0x2203bc5eccd5541386ab3ecd49fbc6a609feeb55eef3dabb21cf0a574537ef81;0x4502109ff8db5ef2116f1384adae31d8bbd6ecf0a606299e9bf465f14c4488d5;0x9b5474e32eb57a628850c3a74d1d62ed2b58d26750b59201da317a46f6ca016d5;0x64922494d6afdc7c94dba02b744c67f95b9c4394b0bdfc0c77852ca6c9c751d2a;0x17eae0738ef9fe6f2b74bd8c326c7e433d68b74667cd8731ae3fa180bfff6c7a;0x9e39fe5cb458ca8186c01e5f8f256bb8bb7e7a8e2087fe463ce3fadf4fa73d;0xbe1463cf959dfff4ce1dca98c61208c9d0c467f3b94e57faf47d3120114bd2e4;0x63d6b61a89f3cb470b71afe101b77cde3c9ff855fc5352d62d8f50d0150e406fb;0x9d5c51966a46c8782ea3c166bd1c2815dcd7af346693d969d2ea89c49eb3f4edb;0x2592392c952080c122749a2c3883805534fa9f4b30eed6912e7f5a0886fd78e;0x18a17d346d48550fa40712c7c7ef8812196eebd72237e369f5e842a82a2cf4b3;0x85866b30c604956b31e08ed6f5b1b4b888b4cd9b876728c6a60cabfd69bc86b4;0x6ac31395389e8b839e4ea1cc46b4e4992d0a2e35ca2d2e90ca71062f2cdf2c57;0x7bb55d4c495540b6f881bc3ee90486b3c8a280932e3d55fb11b4ff2632749ce3;0xe33365b035372e7dee34e78bfd35a9041332913457556b45ba01df13d136;0x14f512894c06e0ee45108608c6718cca07a76266d3b63d335c0a5d27ebe56a34;0x599a6fd8357da8e786ed75bac89a16a87ae2bdf214d58d62f4f18c5c61c53c2c0;0x5d98f3196a34883ccd7596240b1567544e596524a5ee0ca24fb6d29aee5ca512;0x146d928cf76cdff85aa1d89799a8270728824f88704bd966dcf9e6a460e30659;0xb23a03c21268447180b9d385eac3482cf4934b86cdced29d4b71a98312f646;0x5534044239ade3ac7c14b460976ea25af11fae2922adce90d8df220695077fc;0x443ee2a6451bf23305739740d19d7e79280cbfeaed1d23f9b9be745afc940edc;0x3119b7e912397c984790e8045de705188cd8d14e8b69971c1fa537f8eb7e7a9;0xb41b1c48c13b6043827641cf4f9f8d486ca5f477ad38b533e636a460089ae37;0x6dc8410a02b541f8bdbb69db2b11c16370cd31ea57321457a8e497df1717273ca;0x18c21ff8cb14d7cb37fa3f8424f5729c9c78ec0f52abd42f21dd41e15dc36b43;0x116f6856acd04335faf472ed096b5e53e2b3317c60238d9699bf12f431483be7;0x6178bc8f13b83f654b6327cdb06361464cd8a553c46a6b85229b3f0bb124ac17;0x4c4a8da829c030bfbf955b2d825f698bf84f999e814efec0a6d1996ce23c356e;0x20a7d8acc9f2b9635834079bed47fc90edb09cf24c387c1cb3f012cf27461;0x16f572770b0e6457a97add850ebb6255f85d57a8af4b317271325add1fe342fc;0x727670f61f882daa17544de904d37c80073ce02ec8b10376c7f5c1c232df32e;0x43a42c190f92d20822a9820228d608d1f1b5c8c7fb3a14934fed61936c8ed4ae2;0x5fec085f8eb44aca1f49a4426f6967ebd52c48a6cfe09f3e4bc29ea620a3406c;0x5754e745d5211f8a54aac999755fe70da6ea12d34bbb8eefa2f1792e4e63b31f;0x2237acef7b86a859e6907d8b6802d00e06f93440a5a915f00b1fa9cbaafc60dcb;0x11a387b1b43cf1c914c341fd11b0fad6f6309a24dfeb492f38aeb437383b71d2f;0x26e036648689a186e9f7a12756dc9b9f86f8ca69493952a2abe3390f9d9fcfdd;0xfb1b7da16952fb130dbc2433c532bf21831189256eb2464ec15b9ae362614b1c;0x83fc4d7388a50bc8b124a1d4603ce20e9c9605ccd31dc8b2fa6a6454a12c7;0x846d4f48b09988e51060e83c6fb6cd715a370441a34b55e862a400da49e47f;0x1c41e423e355930d8db7cc4a5208628c76b2846d0c0fadd9db58b034526f6c64;0x2a4e8df33a4c653fa96725833ea81b905224c18f005224199350718d3b3032;0x3518d5f55724549edd74ae6a7a3533ed54774dd45d66a832460f9c6e9650ae4f;0x1a5683280e0c1b3030732cb74fa727dc6950046f304680b542e36567347080f64;0x66b1b0e8ca23f302c427603bbec71b3ba19115340125200f0bc8723fccad41b05;0x12d293ecd62d0c85a5959490a9a06e0fccecd51dca4642371cee343d6c33d0ab;0x33492242c6e9d0e743cef255826da9af10a4f8c5ec5d6a8e4290e325b113249af;0xc3db44332b33c5751dbb17dbac3ebbab4f8dc67a955f9040d27e450985e03d52;0x4531b049b9cd24b50753d2382818086a03cbe8033300003ddfb1deeeb465978;0x32f1dca801cfa6ee5f76242ad70b6bf9ba52eb083f74f2a1eeaa88cc020d1b0c;0xa862b608e7fc8803ab38a1bba360b89faadb4c23e2e7d64b57c6f6db4c66339;0x2de7d8d1b1d1c0154369bba5e341f06abf8a2fd02dcd3fe78f2752eaade9563;0xfd6abe38b6109c75e537d2cc436eff4781151692f17ea8d373c65c5eb501f87;0x604c593d7049ddc221e4459d696988c092e6eb25bba372fff07e725e15d2a51a;0x3bf8b5961c81a6662d5b128b297f1fb8e0249dfb8b858d012a46fabdd89649b9;0xffcb24918bf10840c6b972d8867b341ac13341b7449d60d8244a6efc551c48b;0x94780135e2320a9c01c74b6e1ff83d0baff36ace045f778dbe8feef46f64f7c10;0x73a7831722c186edd176f954b9596de0e4b7fcde5325268295521281fc75360;0x8e0c27bee1028304439464092b2d528bcb3a5042061e08eaf41af7f724cf8fcc6;0x22cbbe50ea8960557bd64d1ce5454ed0d82d550391540ed233f61ab21c4d239;0x136cb9312e4ba4a93781a65f5d4c1a2fe6efa0994e2f3c052a44c0a648aa41596;0x284ee823222792511d1b60a92ae9ebdd674995b7f76546d5bcb4dc5b017a797a;0x595b2e2b5b034da47d5821261f96a1043aad481d7c40c6e3448ea4a0cbbe33377;0x3acdae9a8d39f944d3a569a9740d41d31c6845d1de2547b6044189f1da4596a;0x2ba53906fcb5eeb8cd5ff5cf0ca2cdea4b6be18c4c4e688d9e1826f706a2eeff;0x800a8c66ba69fc7eebe77d68b1132159b8ec1f4285cfd74ed840653a9fdb2fb0;0x13f6d6a1988e445c4da0c614cbeb47fd592717f0fcb656df347c76aca97e68f2c;0x190313a6eaad051114843d8ea07bcba32045c9fec7606ebace61eead9f75e12b7;0x1169c2957a9bd856f6d4887901fb998e0b6237c1a87d85b01c570caf8cd00fa;0x14cd4d74a550bdee790003ba7e1b1696fff20b1b0a677d868ac5916c11cfa6140;0x20bb7165b6d262f58e2f69da7e8ee50c8b507b83592d29a0b8e7843be39a59a74;0x3d72965023d57f2dc0fc4894d6077b91d2720c4bb91160deea785fc10064d68;0x4cc288ff1fcc87e791a08208fb0940db264035e71968abd67ff6c344ee5915d7a;0x2684921865fa70504a01bd8ecd932e10c62615226f85df6ef712177e1012c88e;0x375b1b6bd92d938602680ab5a020dc001233784313942768ceb0d447830f1c66b;0x12ac712102d50cbbd99742134e06d382dc83cda3c2d2ab573fd359fb6d4ca2a35;0x82ca1efc3dfb469be895c1d651d06181cbf9e7b3e6084d88893da15e758b0b8;0x4701db0b3c2270edfb0c76ca6f2110e4dbe4d26fdf4622e9d17165abf1cf1d96;0x1d05f781ac4b8940fba1e7fa8db5d90ba76eba915e0cc5733df527f5d29618b;0x18e797ccf14d2149345f98c9a259d6b3a653fb7a60302037c5c40cc062545b77;0x1c0fbcdca2f504e041b9a857b2d7648b4a48d9e6ae5dd356cd4fd029b3602ba84;0x7602a93c86bc3e3c9497366e81ff6d92bc5f33785a0cdb7764307c841220977;0x418760035b2f7b217bf5fc3ae318164bc2804d7dc7b7905a23cac79fdf3da28c;0x1c5aa1913033cff434779780e3474fe9562dc403901ff38f71a1780ce6865e8c;0x331d8690c04ea7539041d63d7f422ab92f1d4071a989c76c438fe142e4fb58bc;0x55d2490406ee31c417cfa2e002982acb7525bf68150f52cb733d2942af67852c;0x16fc1bd35576eeac1e83725d02690f740c1a1eadca5e0d93259870526c3529a;0x706ff7be59f60932c52dcb0a4eb1c4a2c6fe8032b25431c53a414c8424a21b24;0x4ad1e3bb899e3df52d48e6962c16dacbd82a536686b5a1d11d6fdc21ae768a87;0x1595403c1023467809d787802a9a1924e04b4cdef81f410b92f1dd3bd644f0530;0x42e18fb89865d28c72903b3e5de50d28d6fe7bc7c07b7efbd4c31ad44b3d580;0xca1eba3be1eacfd0bb1296b75d0c9bf6576a6e92cd579d76976e3c734d080c63;0x811af3932a6edee4d56952b8567c78a670cce9bcdf6c3f426b7c8a62593f95f49;0x40e57a8f44619891db0f1157999e224af1585f340dc1690444439591f9c2edc3e;0x3857ee1b4834f064dec85b8efc84eb0ad54c6be7d6b6b67d5e46eaa06657dc19c;0x8d7aade5c03631444f3cc59dfc689322427a1013ea84d4a84ad27fdda5da652c;0x137e60559eb88679624c72122d81c9f70996a13674f4d6993324338ae5a8cee;0x43cae78d91830dbe1a5e02515bc3121d5ebd5f1abd387288bc1d9846877265b3e;0x5959e9d79158a83990c35b74fabd7a78603d1e343b30d5b9fbd1b7a8df07a6c35;0xa9ea424665820dcf2ac5647ad88d8a35ee97463a4b10db41dd3f599651cb9ac66;0x40f5865c713025835d3875cfe5a2fe0de6073226aac9eb4067446957703cb0d6e;0x655e0d8c37a34b099ed1d52aa0722c1c6c85e9a9f0ad3cc20a469432dc922ccbf;0x7b225aa385b8672eb8ff5f18a80a0124146bb60426620bd05efc42532e6a8452;0x6a773bbea5450dc50d742b9cef2f8102ccf792f2e893f8cd24f6c15c11689f5c;0x3e65fcbcfec8065ac8a384c20594f5d61ee2a55d3ebe8d044a702b215f1a8415e;0x8a3a5da14e9a15934c6bf9ba3b3d9cdb0c85a3aca62fe77e7b127b8d78b8f6ec1;0x5f4ed34374a08e2fabfeffaae16f405479f9627ad2b9bde9798ee779994be07;0x10f1378021970b6e5f678e781524aecd9a607fe61e8cabe5ca64a9733b0bcf3a;0x6d019bcd116944738389cc99f217608eafeea7a480c0a20e34091f92fe23783ee;0x1f442ed4e07ea92f096bb5ec57deae16da167c9f6ff12609a6e715d43d74785d;0xe4aba930f5fa578c1aaaf32a5469e79029df47d65d144e63fe9b1ce79af348b;0x237d4a39e5d887d6d131aa1fc03c45877976ebb91612a2f9fbece7c048bc31d82;0x45b64ba0bebeb19a50c014306668c5de73df90bbcb90161b9fcbdd4eb09c13b;0x8b9a0b1de7f1567a006e512ad74f3702098b44e7f4ef607f085c2976098d466f6;0x1684955d7705d455a7da928c40a08339b54b6d88d680193462df769cffc8ab09d;0x38a50b24614c8a23ca82235fd630ea440bc6b52c9e8edfd612d708ae1e1406e;0x4a8d066b0014cbcbd755db507cfbe7b74fdc9b3a6e22fe570469a276f2c45f2bb;0xe4ad3d24a8741af5d1308350b514a4657c8ad92dbd6523edf17477bf4bc10098;0x3acf5588223f07df563f8d6f923336cded4ddbe4d2cdf00a901e4a71424cf64b9;0x6719b0b1284a6d85f37774f12be1d48106ea953fdf6a5f0d72df4c89ae560d39;0x197434b88c544007290b6d0509c7cde135e7cf3616e99fe763231fe4de31d0160;0x5faf4908ffcd7e944db5437cdaeb35289311a65860cc1b6dbb073dd3939810d26;0x1319345050ea6645e7cedb1962dfb7b04384e815e8a76b72083873bf0d29f6;0xa63578fd98e78ac3f22523e3857a073f59d96b46b62a510e9d20e54de9388d438;0x44c3d59f7b1ea62565e84c5794c00b886633ac3673b4e1156a8f59b544e9c9a9;0x2b0bed7168b2fa02cd43de868dd077d6ed85b066ccf06aa1d5890f1d5dc5fb2ca;0x10cb2db7c69dc76d5fac1b2eb55e8be94b9d26023a3a6c65de8b4e72bc8c7aad;0x1edcf2e7879b3ef24ce9abf658e1f9127a3cbf1db762b8e943fb7c24c4998f0d2;0x680fdd9c06497f66f90b4f738e7a0c21b071bfbf0078d82581802ab89afbd3415;0x5ab18f4f0bd9d763b7528f7bf660aeadda621229ff08ded05b76952c974cb011;0x1d5ab19714a0bd8968044ab206f18bdef855fcc55a0bcb91ee62e827ebea35c;0x1738eeb3021f2e7c57149b8bf4aebaba9acd239ed529fa1854a860cb6f6e6076a;0x54383a39eb3c57fe4f54221df3d65e926f4a5a8c50c40af9aa17c440e0d28cc63;0x107d8bf25ba8515a9309a208725308ae5dd2cf43dacd2f63d14be07e30e8f4267;0x454e884a91160e236aae293c343ae5ece666e94d4f62d37ca8ea6f7b51d9eb519;0x288882e01d8dc18ca88e10a18ddcc0f75c232682c3d08b4e85ddcef4f4bf0eb17;0x758e1e25fa66bb3378f8a0397d87fda213cf462924d7727b23ba3849812512b1;0x108bb078ec14bb7ee86e52d98811353b1c8f8204a596ee99ca4d009d8390e0aa4;0x564354636c93444dfa6edde42045659b1f0b2fd76f600a925cebbb8763dc45ca0;0x8d769a9ebdbef9fcb6d9dbaabac11c6fd53e70ef1a1f828600426887a6164fa36;0x94cb0be605b28115f1970bcf61fd537027c176009096b1037ced4a4536dab365f;0xee446a0d5c017ec70211f2e3c63dce53d5e3b0a4af1515a5f56dec6f1f7a9fc9;0x5145443e5135aca923120f8d1587219c7b26fae2411f3d4193bd8b333385b3f60;0x143f7dc548ad6cadf344cc639001c2eb524bd90447dfd41ad64789d29a98f3816;0xd2c435cef17e7137c327065d2ef10b57fb422f25910393cbb506914cc9e53de2;0x169c0e10374b3c8e99dfa5a47c727c83a513261bb88e7ae4392736cdbe9268137;0x86a34477b4d9897cc579dc274e93362c13179457cb1d67c848c5cf1ca7b0208e2;0x510dfd9a70e731758748a670d05440223aed433c7b37a2db821a2b7779b0f75df;0x3d297396b8802a8a1e5e5b558961b308261cce2fdecce782dc5d329fb61cbce54;0x261a9d4d454f3d76bae72a9897991f93129a231f01d53482a1d581e347b5cdef;0x1ea8540fd66cd76333164cf4762aa31272b643c60593aff53ec79d5010eb21905;0x592c70353546900d1c79b50ab531bd6d8a3e6e5906852a6c9268515ad47899fda;0x4842d40b6086f2457bb510321511fd4877675239d3c14cd814936fa7d864e427;0xaab4c7817d2dcaaca6f9d05d5b7c4a733538c55bf4581d5eb22b54fa96f4839b7;0x1d80b7a87a2b2b20b26d8d269a7e1e6af4febc737cc2c9d548a9845a2da2aacd7;0x502666ebb081c5abb605f4cf4e7d2aa84c5d64a8a14a72b11806f88a91be59dc;0x9cc6e14dbb285be99673e9f3a9e05ffc8428c7a30aed5eaa84fc649cc554c7;0x6ce4020aeaec38b60601ebc3bb0a7d553abc36512011272d69d059830ca4fcdd;0xec974e094d1e708a3ca8446e16d33c4312b65d7f6da9fee692491c3a0357a5d;0x1849901086edbf68f071aefe83f233b04ddf2fb8bfd6a0eb0ce2bd2a2acf376b;0x6e7d3dcaac86a8238a5f670857eff36aae311485333d55c62cbb0fc5ccda4419;0x4811281ce65b32e34320f18b633300429f3b5660a97948a35e02379e89fb98d;0x75a2d8be908c8bdea06bcba0627bbe9ee3d60d051883c70fe5e9805bd608a98;0x38fa0f29f46190d58e140bb82754be6cf74c9d918267e009a74854252ce9d96f;0x1de8df20ba9a97a0300308806dc357b69d20000d299b15647bf9609ab973ba;0x6a25eb02275a64997a420f5e58fefed36cc4a630405793cc639f0a1b3daede87;0x1783d25e89194350ccfc9487c356c4b77fbd422cd070fdbc77f8cdd100798dd0;0x1d6da460ff96a6046b184d4a6d59507fa3c5a6cf2c35f8d6af74c80637994d88;0x4dc90512747f4ad98a2a0b2af56af03dececc00ba5428822b87de7085d676002;0x4c1679f4df02768f50e7dac29e2da3f46a43933e61c055884ef284ac652f8a;0x5b94d09feec90e80aacc0f202dbdb1aa3ab607c410b9595a2749e17c39f8f950;0x2671883e00a38e63ef13ced0a6062825809dd943c2f6c609c0da5ff3c33a5b8c;0x37bfcd131f59913fc8cb8aa3a8e8140955b5d29e022da2afca96cbe3bbb0e17e;0xff33eb2d8ec5deffe6ae2cdb4dda2f37e3d9fc24e8e3b652b3659bc9b41d3f;0x281fb8a79a250fe628a13907f4e26ca408f9eef53c0e3b38f480adca3ca47a2;0x271872b6aaf6d3bd3a0de66e338beb15aca070366a7b0a38c6e3f7bda4bcdf58;0x132e4898b000b765b7b5e1a49d4648d1170a4e226cf4fb429d0281e1ace4ba3d;0x69ef3310e922a170b589ce6b4000a59cf2b76680e44d02ff26da7bdb7974dd8;0x12b85be2662a19f97481e19201952eb11cccb2502096f174b7058b717bdc8238;0x86e309d78307a1a8c11a25ae18c48c1c80c9d29c30ebee036386956db46bc1;0x1c27233889bb358bbb07388c13fd4f597dda3ad33810434597559b99127ec5b;0x2c050183cefca9b7a2ebcd2504effdeb07fda882ee83a7cdfe9f06ed0781e531;0x3612442d7f79e669a9408b0e77d936062fbe75548db7578ad6e4f011f7a2a722;0x22e0a7276a7660a09f826eaae83d8d992b3aa52595519d2b937d12035364c731;0xac45a4010001a4020000000100000000;0x73eda753299d7d483339d80809a1d80553bda402fffe5bfefffffffeffffffff];
Build_pwit (906349) 2 2
[true;false;false;false;false;true;true;false;false;false;false;true;true;true;true;false;true;true;false;false;false;false;true;false;true;false;false;false;true;false;false;true;true;true;false;true;false;false;false;true;true;false;false;false;false;false;true;true;false;false;true;false;false;true;true;true;true;false;false;true;true;false;true;false;true;true;true;true;true;true;true;true;true;false;false;true;true;true;false;false;false;true;true;false;false;true;false;true;false;true;true;true;false;true;false;false;false;false;false;true;true;false;false;false;true;true;false;true;true;false;true;false;true;false;false;true;true;false;true;true;false;true;false;false;true;false;false;false;false;false;false;true;true;false;true;true;true;false;true;false;false;false;true;false;true;false;true;true;true;true;true;true;false;false;true;true;false;false;true;false;false;true;false;true;true;true;true;true;true;true;true;true;true;true;true;true;false;false;false;false;true;true;false;true;false;false;false;false;true;false;true;false;true;false;true;false;true;false;false;true;true;false;true;true;false;false;false;false;false;false;false;false;false;false;false;false;false;false;false;false;false;false;false;false;false;false;false;false;false;false;false;false;false;false;false;false]
[0x0;0x0;0x0;0x0;0x0;0x0;0x0;0x0;0x2355;0x273c1fde4eb6ef9c0ac2b8f858395e9440d658585c9540fd2bb32a97f0704c;0x4b42c5c11ba133574b5d6393c7889f5e7ea1be2453cc94a661d848bf228e21a6;0x2d6f9e85fdde8859bdb9fd994704d034249dffff744cf353f84016edffdfc641;0x5eda88968bea9d65cae0e1622c452d4cf7c9c1dc7846519a140926f81f715edc;0x15fbe441c6d9339db94046a016667481a34849ab93b99f8e4f767d00284d0a46c;0x2ea5d126f6e2a234123d78baf0489500208e7c4e592920fccbbd85ea3f396783;0x23698940b8c7433a7927c7ed44de7d3d8fe3dfff55eeefb1bb08fabb2c90e565;0x5a862e7a28df8b0851773c4b9d04ffcc2e08d61f2a8af247209b0c606940c8de;0x1158a3758b7eae3079dd9b7c1a737927c3355801857a889b153a38a81f11510c;0x4ba4423afab1574f5332b14c5774ba3ddb3c9a41d6b3bd39e6962cee926b19c;0x329b4a4ab289de54dc1b7292d62419ba6b1520f48bd18e4a312de24b02e41cfc;0x3f48b76c29ef010f61fd04642974d064ed63990dea53036f91258b19786f3ab;0x35d2b8a2a0127cce6e28417dca0a66f9e8c37a59aa6254f702143d5358ca70c7;0x303299acb5a10769f804244dcf021a1b063047860744a2e934c4645543f81855;0x170554a74db2ea4b5304d1ad135777f48d58dd97b0577ce4be72aabaec17234;0x4b1acf32924669acb89da61b6976ad3aba623f403b817cf4dc408d63e65e1de;0x86d7b8597388976924fd65dede75945427255afc60c40de4714c4212d55;0xac6cc3d585dc4cd74f2e31befebdc8a64c36d89a7614f742a2c6dc02918c82;0x10cdd7ce1b68d629f1fbf739268c524eaae716bb595b05acf4b015e8764329c;0x2350671694072a6cf087c2e1e7f2b404c222e65bcddcdab20d778c6a8ce0e056;0x9403e581b626373a2590a97aabcc27b4982b0b65531812a856fb2660f9cda707;0x2dd9767c24599fd86f744bf8a451a7cd72d4c61e37f74c4ac3e0665bb159783;0x2dcdedc8cdd4023ecd25822d8010725452c6c31fc61864397040ed6145220752;0x5251ff17121264931dde23ef5c410d95c948bce468bcaad1bc6c0a323ee9ced9;0xc1e43637e334d3c43a80f97056c2e9c62b9cf75aeaa3934d23bbc3a46a3d0c7a;0x12bf4612c2d53f82f0852ab53ad4bdfdbc5b8a72d4eab7478d045ffb0ab6e925;0xc23ce842f778f878f6a7eb78aafdb2da840364a641e75682acdf62fdecc4791;0xd94eb2eb0a97481a4d512c9e61db83dd0dbbf54f35e39be44d4685f5a1466df0;0x44a64a48767d3511d41c8d8fb84b19e2aa53e565ff1758ef458efc64383f5d1;0x602fc8a125d5e9f1144823419691f29800267e58488aebf55b9895c5ee3a95a7;0x25df80c194ce70f672fb4a4d8ba81e08f8c57c8f4052cf752f4d6b2d2c3963df;0x109bff6a9352f95d7fceaa9511cc26878d4d87f2bdaaa317e3e007fef0074e057;0x2e1af81c11f7e20a4f1f433f8cafff8752ff423373756378d6af0ac8d1e137cb;0xdbeefbb5914ed79cc5a5f0c00bd4ed96f06ff841f7937fc26582b9b9a9d153f;0xb4a4bfe0d5ef422e539b5a0f1260734ff9be2e8a05b64878b96958c969a4132;0x14e1d09d692f1a316877628ca861fdda058b9c88aee5ce263dfba37de57ade5d;0x698687b71a27b0e98bdcf0893b5aad71b0be35061152ed9a7f9194aae848a0e1;0x4d6eb9b94a28fdcf538b8585368bee1c52df6fa542d7dec83d3c7710c538b4ca;0x6d72762cb14b64bafc89c51abaaacd60b4988a3af9ddac7db76dcd72cd2181bb;0xdd1dabfc265a5a8fb23e5d2f52658a5aa18ebe88024d8f22c3eb9be9487b91e4;0x15fe3f6cc9e4d47fd46b91a6db6f3d59dbe0a07874d805f07fe5f0097ea3b97;0x6b7de29c8beaa462629df53504ea828f9a0a105fde455b8bb57b063e5b24b8d3;0x86e85707df8f67a2d785b2fa278eb83888deb00976252ce90da0e2d55df6092d;0x43ddf41caed08d4a22b92a51c1eb3a375c3771b577e7208484a551537cfff911;0x228e8f99cd15ebb5987e5f61971e98abe3e215403afc33d3efed1ac6be3a2684;0x21a37d34a04eac56fb82cd9b4fbb8d58a70b0a85e85b00ab93d63616d8d5c707;0xde35b44e681ac9001f98d76211fc2a6a8a1e191db0918716996504bc70e0db1d;0x3e9ab92da902f849c9a560671a74b8aae63cbdb5a26e9c9dd3513ce0b529fc64;0x583dd82fbb896e0a79c1fd3c0c5434414895dc1e1bf571977c247d9d4f49f1ea;0x1575c71c89f11d725e7d48b53485dd62d918fad856520ff5497ff7ba0b690181;0x4c52905249b1a49eac65845657fa0c12a2926e2748bff752c36d52ff093361a8;0x12a9655ce214e09a16725c8d916ac4c11d827c7008e711347d6f27caafd28cd39;0x81dfd660e788823a92c565fdbd304989a13e59fa5509b9f07bc102266696753;0x7e52e5acc84ccac07d85559bc46f4550fb8ebc2b02252f8f66ebb0369256b81;0x3b0bac7cef654cfed1f74636d8e54e9f12402e9637c1c94f2ef120cdf04a8e9;0x24322d7e96a3e72240f84e6c188d421657b76bda3603bd27e81fc12ac15d8ae1;0x140b27a455ba84a45d45483ba892aa2cf2b16cabd7e45a31d3af1c2089c881434;0x24e297e6fba071cdf2e7d6c8547c16cf5815384c36f1ce05081fa6e26abd2086;0x4b9c14991ee70fe581dcb212753ccf33fce57946b0c23d6168ff7e3e2263457f;0xb5cb3e4e1e1e24d8a03780123a6a9c8e6b043d8ec5d6aeebcd7272e3bb616303;0x1c12051ccd66a38c2cf0c656d3b0c79e7d9be3f0d303adb2a488239a16e3b64c6;0x3e822e43e9071ce88434b0d55937808e3015374e70b7b65da427b0653f3de137;0x1a4bc02f5ef03401e8aad2437ee065d19278be2fb888f743f9cff90aee7a9f347;0x7592304c3e43acbf71a062376da88de9066f8b9f4e27452d918227135adeaf0e;0x1c02b7688f50cef727594666bde67a9a485c2ec137a30569fddc881285aff28fc;0x35ca93c820296575cd955d550d02cd02bc868a590e1deaecfb806bf8dc008268;0x559b55bd0b6b5168b37dc8c6c84130c0d7c2200f03f21a28b6d3860c80054540;0xf5cc9d1b5c3c9bb2098635af54187d61e4fb84be61a1fb803f3ab43d09c94f04;0x15a7888ca5a84471be9aafaa7f055b8221842696f226fa407dec38e800121689;0xf6d47446b1a8190a6589bd05ce07e042b977a475746b8683d87329b55a27d774;0xb65efc0215beab8ba66b4c83331afba4ddad22ba79ee05aff0642e57819274;0x55a354d265b63516ee2dcb304f12c1ecb2e93392e2686c104a0e5f2d2a3a495d;0x4c53104857920d3766f715f9ef9b1ddcfd814ac754fd4fc6ba22c23778cb630e;0x18d914bad09f5677286b48f7830b08ebfcba93e809ebe0ef52429ff9a0e2439cb;0x156f8677ca94da5ecdb43154a6e3e623245a3f82f2e2e9f51ce9ae5e0b50ce44;0x32cfc2ed70e5d591deb2613cf2a5eca06371fda4348ba9ce23bc56150934bafe;0x1625707602c1c2ba67dd098d3f36307f2e883ceaff73551ae8c15a82a7d02cb;0x8e4c4334a3af0812f0b3b227e3a9ab892ec7d5b9d2116ffa8703fe31454defc;0x30029c7b26f69e10e00a941429825dbe9d026dc0c157f4808a0d9dd78b0b46c;0x1ee77470cf3659c7b021f03b9eb297267cbd0e767ee9ce569bfdb2ca511563df;0x48446591ee6190bcfd3b951919fc048e677ceb3b865c42ed536bd2d5f0bfab3;0xb1784da3f170a7fa81403019f45fa6d51653bf35a57a901d2e4efa1fbcde923e;0x3924f8806900fc54ffe46271370049759c253185e8f19ca89fcb12335f150560;0x31770ea73751774b0dcca829fe966e893f4312c6472f5fa418285d900a9c7f91;0x47dc3bdd97c2bf4bf8c1fb145f0a9c64e17ed8555e4fd6ca436df94165e0fae4;0x53745f5c9bbbc74c6adf050c70eb61c66ab70a479972f6f17317b0895b4b7850;0x6398a58943a804990dc9565eb075c3b142755606cc8d54cddb641c28c79a40bd;0x54256bd71180ff1577ab284ae518f1b9952b6e6153fae09b75a94ae574e62a9f;0x1423906ecd4a3974a5f943e6ffc0c7b71a6ece00bfbdca3dd668c57459ac0a5;0x84ea25579b7acf066908c1aaea7e08a564d5ff5c24c89a3b687a7b692fc65ec;0x73d68f492c3e4e4131c6d93d2a255a8acae93ca66f0892da967f61e530d187db;0xc93a75806f94506025b39431cb5f16be691fcfcea6d5b76e6f3a7579aeda654c;0xab26eaa2e4ef3f4eb672be12b68471cbba6cc3cec2c2c41c24400138f30cff03;0x8269c98c7462164052086361146dad86790f49093681df7da5daf914653fde2;0x723cff6a597a2a70e09bade362433e59defb1b91007ddc641367a7c0ddf7b05;0x10e8e40a27fcfe2f6984127063ab137782fb1f5ec13edba0f40d1d8178042513;0x66f8847a9702c56c3bd2ea086292cbfc6323f689e6266073fb835c11d37cdf0;0x7834a3ad49ee7e4c5f57676e84241d028895897041801678486936e5a3c1cb60;0x14b12b3034b733aa7f09c54e0efe5ceba473a955b4020fce6028d9d3d3591579;0xd6299e0f00035737cdeb807f2cb0661d54550dcaf2ad293f119f5ab77e0959c2;0x108be5fc84e79e43033959a8b2e22394c4a2edb275663a3de34271b737a4e82b;0x6a6d4a0a6063ea12fc1e3e827f2258122e67901d367879224bd89835dfc020c3;0x13530561979ac416b841f59af2191ed6d98873461fdf2b0e26741fe6811c42c5;0x58a1f25d3bf63cce87bbfa8cde03fa8ccc88052c4613abe9d6c998bbc5405ad9;0x7b21bc15936f5ea1ce0b779e69fa2a02720f2407cf6aba759320a4a81ed095d;0x78f9abe4c710713e4310bbb4fb446a99183c79a8b9d09b2b5a06f25899bc8c8;0x92be7531e7cd825bce1984a80ddceb258dcbc6e197a1fd17fedfe63a672729c;0x1c8dfebbc2c33f56c3e7415a948b982712aece5ceaf209326628943f643b1b6b6;0x1b5f6d5c27ed7d05b81851c220ad7d0e5805f095e4ff2630ca96b038424343ec1;0x130fb6fe1c4fa23ae085e3b5533978943039d7e129e6e21a9b304faf3ea2c4b3;0x13114bc80b0dc9aadf5a3e1a29fef083184e17c4b74ac79278bca25149bbc25ad;0x4b8f57c52bc00f9aeccabc0b08f8a7757c3adcffb084812a0b87e36dc79bdc80;0x580e540ff1c49d18b619a82001e0b039e40c0baee106b8e7eb1c6ab04e42f3a;0x8fcaadf59d83bae1df29f57db206387d750caa39cb0eec2ec3a9f0cf8fd48c23;0x44bafb8eb9f07df666c9fac5f01f7fe5b7f8d95c36304a4aa521815e9f029eb;0x144fd2c424bf1be4e18b6f8c72ce7c61a10599efa7a170c2e5a8d32d4c0e643c;0xe6b4c4fada2aea7165e06743ec6f19524ceff5095b9956360b01e84be499b6d8;0x16f7631284ee71a11d59a7e42ca5ef447cdf7b19a902f4d178c5ef4de5347e7f;0x113b5d32db6b96c434b05ebad462b6ca0f6720bcd5f5881c6125364608261702;0x3ccd58841c0c3d8325512453ffe7d92af3a9af7b81ac2203ae71a4e67b88c14;0x69239c27a4cf5ef5c20421a98d28761e1b71704b847988cc78e0056bf7bf1a55;0x5cc6f8777c8809d9adaccb6fe346d2fae2e7384115bbb735d8d71c6f5efe8cb5;0x65e8647d6e9b107545582d102aaffb2bb28bb64c2f0e9042d7364ace56a9b186;0x3d09f583f3dec0a039da74a16a0409e686920e5c645b4c5af7d150093e5c9f;0x1b03f0762e6282559b66568e7ea08ad77780485a9105e741adf281d19228c7b8d;0x157fab4900c982d230c77968673f429ac53ea0220516b0a68ce4fe2fb76a8f17;0x885b959ff977d365255265a16a0dfd5be544b1945725afb09cfbcee0e0b75e8;0x18c244d9709a4d4ed4cdf73ca1074ed028d79d1dd93f7a715c302a041b895c55a;0x7d7242ef5c472fde8c36199fdbbd2058204af3c7ba7ba70e99333afde15bc15f;0xb7457c88f776351976c4799e929c526b5bbf20a9b2d493eb74bffe40651d512;0x1cf933c4f813dd90684d2f3621e60831279fc20d4e864d030d33e59bbe450c04e;0x12bd4fc9d8cda40cfacea1a20195b1456c8bd2aaaf6e193f52ac0c01482a43;0x27ef2d16f44461bf6af8e9b8d609ec7089f4d9734df12b79269e63e0ee825c5;0x11f50a52a92f06fd51e6258ff75ac27a63d5cf2e3b4312ad6d837762b68a31c8;0x406b36953a59ee0db5d55ee4218a4fd67aa56791030e84810b60c8679c2a33ee;0x163889660054c8780cbfee486e63248828bbe5029b9283ba88c037cf17c22b9;0x9b658fef2a40b955112bd50ad9d098f845701a6bafd99d342d9bde7349afb4;0x323c901b13bbfd475afb1388c8ee5f6e946f024488116de99634bb22cadbc9db;0x98e1f97b16922862c737214e2f399ac77337ad21e7bf60d8e85dd261874a3ef;0x7472564ef60cc35d968e87e083987a9957db3eb1c0ec43a937515f9d8a069f30;0x755809f5cc9a47a9453a86a448b1ece186422001b598819d671b0ec3cf00516;0x10bdf4f8c7c5801eec48c8635ff4e589c7dde85dddf57d96724b4838b0ba064a2;0x39bf7844f6f258884a5d64d4ec4a98903e6ddfc4cc4bb40f5f777b0c93f8fb84;0x1717a3805d521fb98226ccae5c7bba8b2b2dc4fc879f2e038f9d52973aa5de056;0x1a4291b26520b6cfb1337e2805d38bbca85ed2d8a42857498cb61271eaf6ba0e;0x5d937119af5914c340968bc38bd671ac9c561f796dee443b4d58fc62cc4fb;0x3493fc539f120c0e20b4d31ceb4eb0f20dc1ba2806d8155f60151cc4c23bfc82;0x14ed098f17c70986ea4d62d1075c7338490fecfc3908ba810be5da035ce6b2988;0x39bd3e4cde85262f82a75c3399999f51b4a5b9ab8130eabc5ae352c44e7a2f;0x6d07ee152ab77ffcf21cd69ef8835d013c2607981b4914049be4ed355882f0dc;0xa8f66ce1a76f767390be6f7f9749bc38b85e2fb46ee51f1652d9634b4bb48ca5;0x6145e7aae1eec908bd337dbd5488f8d6c2d4a0e0681cb6211e8b5420a5873bed;0x132ee38396c83e7ea2a18a8016a92838f9e9db70c6a4ef92d76df24fc9d468a6;0x19df4bf57b32075320190a8a0d872a8fc45b728856df3f6f917fe9ba2d1b4389;0x5dfb5edf3e3acbdff6715b77f709cf58b87e4c7cd28e1d4f7f73a1acd7b44ea;0x18109e57d68789b8c35eacaae5e937944bf7db32132e751bf1a58423c71226d87;0x4646b791c5165d25d7f08d9af36756b965db1dec819697d3c2c14b00b9029d41;0xfd752254b28d25123ba5b1e6aaaef07ac405644efcdbc0bb3a349c41ae93839c;0x7e52c53e92ef2a913aaa171e2f204ace289b1f6126fce1f3d954c99b4344311d;0x1b25fd645506c382540f6b610e7d86663b892136ef46317807a7381e33d279f4;0x345399f0a47a984dd1545a3a341e95750747f4254b190444471d5dd14be48fe;0x194535c806dd54dffc8574603606e766d28e3dfb65a67b6cf356866727d0f47da;0x805f4a8abac02a89052479ae0c58a60a1e2da810124207f7530642dbc985b9b1;0xa33404d60149fe33beb01e526c7573452db88772f367e08bb0a39bd62f3a4e61;0x107257c715cf20109c56f60895d3bc984f4949e3b46c3487ada0e504149792c;0x4ab95cf1e6905cdb79184ec3cc1297ef640e14ac927b69288bcff783c3153df;0x104ccad78c58e1f43ef4d679a1340a7beb00dbb6d785fb3d01a42be1c23533ba1;0x991f6b2c4b9082543dbb11e03dc69dc3af13f0398ce1a7b2327dab0c0fb12eba;0x3c2dec347159eb0e13e96cd3a6664d90f48115eb4ae1522bf6e5b04b8266176f;0xcc7ef58ac628869fd213bb0fb6c1200095b28985606b9cad038124cc3047e92;0x22eebc2f320139392c2c4207c0885bbac9ddbd83ad5cd2e169de8412d1558e8;0x44ddf33876f079fbebe11d29b66f2a67150a0a2d821da336c78996b0d1d35cde;0x1b5a10eb5d7ef4cf6ee8de819886570da393a8bfdd6a4ea5050792150bf4bad7;0x8287db7d4b0755bc8e7040a340c70133ea79c1d40f2caf517a3fe850119b07e;0xb3df9fe6486d6369bac717686a4866c6a4b91e8b08ef2e556ba1e0b668413e;0x134ad1d8eec8b48ca9d9f17a30886214fed60e0957967b9a2031f18a0ff13cd;0x87049dc6299bc7205f1345b0145445d3bcd13492bd3c8ee385d0997737b70cf;0x29c9d488098f35c857e842a91de5bb70ad896a7ba0fc3a6fa6a7047145ca2b7f;0x1ca0565b76e9ccc685bf4bba4205e506dda79676c2dc87ac0859d0659927f0f8;0x422617a7fd6ff2b1ac6cb6a3ab7187142abbb4017a6c9ef2625b3562783b43e8;0x4bd4d81636195b8e78d1b3a93b323338d36374572743954aaac8341fa81cab5;0x49bc43184761a2d074a4338f74ee620ff47b350dafbba9f53f6c99a886b13d8;0xfab9d19cf17ef0d8b29035e1aeffb29e9f7f1d8170bee4e29e3364619df499b;0x4f7e4d7b78e7d54d3c4d56901b65fee40d6afd498f7879eceb4a96c796757395;0x657e5403aff64944cb3baf6066ba445a936e1bdb24392f7d58e8d38582facab4;0x6c4da62b7fcbd07986a4c3f077a0379d2113d0ef65e2b8f3d7f848de7474023f;0xb810f146e0b6494bc86490c8ce5bb64e48b10c0ce468bf88b8d0336f61aba;0x6f89eb63490b29b4df7f51328967802d450b448d959c6389e70d4a8205be1157;0x13834b48d408e46535604b6ca8de45ba900d2288995698053486f1cbb974875a4;0x54a9de49c72fc1c7a4aea3a4c685932f07d9894a8d0919c98a2dc93ad27fe1a4;0x37d9fa1276c7e7779ac307470cded3a6c935a82c4947bc8bc74d4e9c02b371a;0x119e651e51429fe4e9123503b30f5d3d2b91c10b3f180f2ca7df619f2f1bd862b;0x587115039685273c0b94ecfffa269fb3b6d68042bfef92551afe6afcf873e8b;0x2a0fac36a2563951b7e6dc71f50525df92e0cd50c4b7fd20b63dee88e1352e01;0xdf77f3568862f01f4634a441bd15bdfadaf134ca02b6569ccd8e1c848d3dd836;0x1a96c6c34ab3643372edf01660b33f35a20477d5f6a4a35aa63f4ca1f261425f5;0xcc9b05c143ce6a1886760ea0959b3840598d4cabebee3fa27c469dc13d9261f;0x35bb03842963eabd9084ad8cfa290018e1bb108b2b498dbaafd85a94e16d71;0x1b4e8f41c8c05ae53d0e29b26b8ab509ad3f644f02074967aadfd14a9661fc75;0x1a20364d792dd317a327064d13d5160ab2de4b6843639a6245d250f6404a7;0x47ebeabd7057e7a91b2c83a8d4669ca5b9b200af808c227c3e04f584c7a13afd;0x25057c0d86fc9eda6de29d8cfa05cb1d70913f9f711022f42177a04dab42c1c;0x6e7db1a3cce907331c2b7964913550dfe09d9b9cb57fcffa748712ac5f075e89;0x25220ab1910ce2955668c1a1b9d8d537b5ccba178bfa4c5334b2a8627e0e7705;0x6db2e36469bede40a7638691671c9c184bb7a1fbf77307e065340f75b8df7d6b;0x7323bd3aa1b5b24639ad1537029bab34e75a6bc6d1bf0b048803df6e5aa308c1;0xb679b6372ac4cc1d28358a9fb7a6a95f10098e087ec4eff51a8320bb375528d;0x2a0b7062074f3a70f63efcb12765cf4c6a37600a3529856f6d316dec5d81dff2;0x1afc3b10d3fb524aca5ac7cf4895aed3ec561f3e484501e209e88a23a6487b83;0x36d6cb7467db4a985743e2fe6bbe6915c3908f8aa2b1b92124882290a1043d25;0x10a17c6a8054e530becf40ed2e99303797db7e9ce70c87ae3c86881d5aa5e019;0x1534b06958118d4534b26f637cffe592127027eee79a92847fc9da5f6cf41c3b;0x4d8b14dfca9aaab14fe8223d96e52df4f89c0bab0114d64c21d6dfca18e351c9;0x2f195b09464caef87a3709606fd9062087ee67ed1028798e35646fbd38c09c8b;0x23e6d2bdf4302a6294030e7bae7e22944b5ee3a3a425be1361591c4ebd487b18;0x87fe82b95193747f68617fdce63c83c3c12bd12ffde6d1fcafc035b08aedf64;0x26044865b9b4180a25f3ed6b04007e1e35c029efc61919d31dabd32fdd990692;0x4e86e66e6392f7a781699004b70b72507171e97a77a7659b31f8f3e61483ad0;0x4f84f29dd69b698d9ae9ef9731b416f59c00192b68d2e374c96e68f459230f30;0x4a4a48b3caa0cf424e035a6ae74aa5f9b2f61911ddd06d8155be68c3e1b80a;0x3e3077ba737094c14a20458d54edc72598dd6b9c8d3cf1ee22251cc20e04c8e3;0x183b33b3aad47a3f597f435d9f43e7ed0579e8f448279197e16fbf47de9e;0x7fcf0bbc418ccb8bfe5c647979109a6d0047539bf30357558cba3429e8b97c;0xd2714bfe3a3e7367e17dc0f56f9f12d99119a9dc204043c5781c8569d7773b3;0x2c2381f73737540e83d85affbf0efc9a1c5778ed5a03eb6d2e37e95e98217085;0xdd13fc58bcef8075dc40e14c58acab63ecb7c1a4f6b760bd32f3a2e728accc;0x2743e63545b3a04d9223b5f07e5eca437057c18452c53ad6a689976782b92fc2]
(26341297231206394725939292351002686488477935223539131591963421836754874985217) (7921808302852082262628646497605600862894042340950950165383769792779374203212)
[true;true;true;false;false;true;true;true;true;true;false;true;true;false;true;true;false;true;false;false;true;true;true;false;true;false;true;false;false;true;true;false;false;true;false;true;false;false;true;true;false;false;true;true;true;false;true;false;true;true;true;true;true;false;true;false;true;false;false;true;false;false;false;false;false;true;true;false;false;true;true;false;false;true;true;true;false;false;true;true;true;false;true;true;false;false;false;false;false;false;false;true;false;false;false;false;false;false;false;true;false;false;true;true;false;true;false;false;false;false;true;true;true;false;true;true;false;false;false;false;false;false;false;false;true;false;true;false;true;false;true;false;false;true;true;true;false;true;true;true;true;false;true;true;false;true;false;false;true;false;false;false;false;false;false;false;false;true;false;true;true;true;true;true;true;true;true;true;true;true;true;true;true;true;false;false;true;false;true;true;false;true;true;true;true;true;true;true;true;true;false;true;true;true;true;true;true;true;true;true;true;true;true;true;true;true;true;true;true;true;true;true;true;true;true;true;true;true;true;true;true;true;true;false;false;false;false;false;false;false;false;false;false;false;false;false;false;false;false;false;false;false;false;false;false;false;false;false;false;false;false;false;false;false;false]
[0x0;0x0;0x0;0x0;0x0;0x0;0x0;0x0;0x8d54253b7fb78ddf0e2d772dc1f823b4d9410fad2f92eb5c509c;0x15e4c40f214b9cb9f4efb90cf5844aa869a13525635a0f2b6aad4e384e360c561;0x571e506750de93e7da61080c539b1200026d850b3588fa56fef34f966fb2ea0d;0x2df3585149af452f59f421933b463c20a3198952036919630455505049f9e918;0xc397dcd87bb8cc95e7d59775500be83536a31b37dcbac39ceca7243226a424f7;0x436a5a464874ed47aaafc4abb0df09ec1bf18d204333921755e07d6c5d76e379;0x1a873ec73b4faf5fba1fbeee2a5c72618f88af2a8aeb4460ef3e99f8a3f58782;0x7b5b643079547d56dcb11e6a1b353f3f3c5b1d46aed3589d1ecfdfce46ac8e;0x8bb9b79502b325b8733235711947bbbcba9ef7aa70dd49f4f13f0df9768e152c;0x2a6ab07b0b16620cbea821807dd7f497a7e60b459070c3d4231621446e0a67a3;0x4a32e0fd8a66ad2920c95cc001e626af8db486499a325043a7a43db29c44cf8d;0x70b86e18f750e10bc303a91e21e3d2b1a726a53adca64132c4c6484534d2350;0x34fca2b90ee973d6408a1d8c2039e77f11d7b10c5084e2b9e1e858d759d65ded;0xbbd2a19f252400d15163d53d839e8fcb832acde8b44931c78a6c4b0ad25c9bb;0xb799e34fb9abc41f2746cf40e3eab029f894a27bb276561b4620e0065077bec9;0x1e26d35dfcee68907ba4aaefd52a8d3d50715fa192f53eaae6d5c9496313f13;0x69199c05aefd77c8440526a13cc35c4e9caaf85b441e8337c350be64f720d0d8;0xdc5d669ad80ca96a8834a3cf5eb5c0142361e0117a73731f0e7c05a56b17fabf;0x2666dd92b19d2124ecd48df7a13263f58509a67752f0bf028c0abbded492f9d8;0x16cc1f25f9c3425b12d56bb248054d05ec1afd74bee7e8241a5e2ceca71f74394;0xe61370df93bf2256bda317d33bc8f659800b63dec254783fb3e54ba837340f;0x307ea97678b1c654be8831229cb121296af991f29d70967e56a364a4d5a15a2a;0x78ea4bee8dde1c6c0524519bae603d930078d08ed99c965ce34fa2dfd16c87e4;0xa60e644a0a19fce6d6183d74be402291ec6bb570ab3a1234842a84ce38528ff6;0x5780968da10d28843e209a9a54418350cab94e2b4b5e884310a12639b485f23;0x557b262adf0d026d9d9d14485d4fedaac9519c9a98e3afb65673b6c40d85e33f;0xe02c646b1411061badd8872ec327f8435a1b5110570d0f938862159ea4f3ae00;0x196b81a6262564115f031e5abf4b0fd59cd11894bdd79c8c1734019627ee6f33;0x5cb10f49aca5b04f13eb6a3a22d713b329919d77c238edddcc30cb2785470dda;0x14fbc429970ad55c2327a8434d97d9a60ecca0257fed40c448877e7c82bc6526;0x132d73c24618c00669ab02ab6b94feb6234ddbcc887826cd6732eed3c1e5ac51;0xde91ede80037e286262fff506a9a616b63381e1d89518cf9009fd0aff21ac7;0x10ad1399058d4c129986a927397736d0906fb9e22ab4f2a30d1f7584a0652db8c;0x2cb00ba0e0e44a3ae04da60d341db0b4b2808f34c151b70dc2bedbcf4441e064;0x2aacb1b67c1c8d73c5817bec9782dc786c94f1a4b3ccde8f6937c2a96b55a187;0xa6bd39150571f93205191723845863560f2741a00db3b2ea37081b0acc5896e;0xa5caf4345fb2b51ad91e905cb1846072a414b65db8bdf654d8859a513daed354;0x312990d74fd206b812f4057ac01beebf0c81c56539791d401978b8abea3c0971;0x34f9bfd092830e28468904e2ebd3b87f14baaa1ce01f55653f1cbbc1e81c4517;0x1062903baef11417ebc6a431427e07774b2fb1aa90a32c91401fba902b06c6edc;0x100e73bc6044825e0683d534990a3513164c86b35bf76541b9ce2f8d5dd3a97;0x12be8b4a9ee2508cb960ea14a0e9e8d3ac750918561a302e71189e4d424d63a43;0x105843f2b117eca8643c4655fe97c8d5a71b91bd9abb20cf171bc005f8875f32e;0x19aebb2d132030b201d4d0363ff0ab2f8ca55af0ff0776a9753948239ef5cd1;0x33d8e86dbcb35a3ab95019320fbd9a51b8da70e32e6ce5fca2610d0cf6c74029;0x1f3e337d8d3763ebcd6be52218d02416790d30ea69445894ba9f3e69ea40905b;0x3f5f4e1cd349e39107351cd5be316c30a5ee060bf7f408af0b0594066ded9f0b;0x828241d007f568a52056a88c778fb8a75d93130ffc35516855fe58f2894110d7;0x636a9b17f7b0109e7be97cd9d1a8c9310c12e31fa8da9ff8ba0bcde124eca21c;0xe7188fa3150eede61a34dfc85b0c9a4b26c8037f02432652bb72b4af0a0a4e2;0x3e75c74f6c71e5f635dea1d8f256d713768ea002fedf09bd99a54bba7d066eb5;0x1ba0530c79cdeb2d0c711815d2cfecbbb6c5e598ae8890b989f11be7aa0d3711;0x1a67706bb48960c08f8bc6cd47b43183f3737c3a206e1d9179076056dcb562a05;0x8f4bff20c578a751067008625234e41ac1de3472f10a380a754db4237e338ab;0xfeab7145ff4b413357b03aed05d015e19a9d580a54d94af32b68e9df42d4d5;0x71c480fcd9cc4b1e418d486be124a9253987804232509fe8871a07fed67ed18d;0xad68e6f245e27da5d14a16a95aa17311d93d11eacbb79beaca00e829c7d03b;0x3784db3903be72649411990653de9563bf8134f14e63db46ec01cffddc7f0669;0x8ca97d6159af9e780b2a03efd3181211e29059e1569ebcf856abaa6eded598e8;0x18c50fdefe04a6274e55a34a0274b14e759c0189028d200a49d69265188d9dbb7;0x2a52ef904f0ce65c63d4b6635aa6d972459bea0bd69ff7fd29e8e9836067e4;0x26a0eb9cf380dab5c1e91178764733dcbd88f46c8b902451a1f12cc9b6aa1800;0x1076791ea4c9d15792133e38adcee6081ac49fde520a240eea764edb848b7370d;0xfa79daf06ec0de169f2696f3d823e34072327c9f9a621fa941d12d26e3f2efa3;0xcd23b424215ada185c91e49f78d5044d9f2281e76ae0203651f1c916dc87029;0x7ff58109e676119d409236bc429c8849041505f7049523d25ea01564da1802b;0xba781301724a92fb6f59cc02ec631f604211b30164d94efb6cd1979ecdbc8311;0xe0fa15b9d5238504e478df97ebc9416abda313218d60e845b21849fed578d0cb;0x6b2f5bd4189cd8e933ef6e1b37525eee965585b2b7bf5bc8713cda90290681a0;0xae15d886d71f9c095ea2a14eb51d5bc91e04ad54dc076577c5135145b584b32;0x3d4bed3c5209b6201aeff56499654b7d2612c42ed541cb301a8d3a4cb9a5c51;0x1dc636917ec16ed9a061c50ba2f3d8b499cc164cb42df407cfd3f0bff3b71b7c;0xd44d6e0c54b69bf96827f6bc0e3bae29e94da0b1dd3d561d98e71db2d2705e1;0x15137dc40917ddff805259bff219cbc6c3b80bacd7e07ea9b0c8ae46ac01d2182;0x5386072724080cc4e5b59d79db4c184ba6668aa90f0d33a92d488fe85a158f8;0x40e7f65d442420e3306aed4d77ac15084894bca6b38e017d81ba0dd4ee39f83a;0x1829c85cab6a79f89ad4c791baa892e438dda752c4119bc844f0135047c7c87f8;0xdd9c3ea37bf3bea57be8d2ae2f5af87ff8665b2152850f1800bd3789fec6648;0x1f1c4d2bc819730b0d50a83b8825c11cafafe38fabcb9c495d6e9bc5ce302017;0x517f935470cf5d0119fe12957f0de4fc925ace48a60937dffee893e3e7279a76;0x586bdd196c1c891affecde4375a0737f6753d0d18c07137f33dbaa43467dc60c;0x6c475fcf159efd6defa4b58246c1c183a5c5a5ab5c0291923ffe6f781c31ea3;0x397524dddf2d696340848d9d3584b6ae58836f374e2d251e2a01dfa00e4aab33;0x177b07c7066c6ede4c07e403010e9f46af9ca4be72c615f84a2715e5b023e7;0x23b252906c2a8072e7fee20696e30c02ea2d7f76c7b18c7e20455750b5213f0f;0x657607b7fd5a91b82aa0f4076e868a0d7b5e63ed1a3678f3c9cd3d5e785dac;0x6b256b42ba0f4cc851cf40787f91e65f41c8e271536b9071e9e45cd153ea93a;0x71d710bdb1abe5da5f1b6f7e22351cb28f1028580750a6e1924dc52eab4078f6;0x73aa73acd4b2d23b73b7357df29a025acede6ed86e80a8dac7320a6075ac07a2;0x1a1bab162bac6b9a7e1055b01ef09c07ed7d3026795c809836eb5daaa53bd40;0x5676ee9d549bb198b6972e5019634a2437d63ee21eb1758ec11a293610b5202e;0xce110992a596766fb4d15de074222792cbfa804ba1b53dd6684b629fc74e66b;0xe03f9130692644b64ff72e6d8d222e91fd4b6c28390700ac43e289a79f13b0;0x28132677f7bd13ea69374027d69850e30ff3b318d882561f8f001211ff4fbd1b;0x6fc65147d5dc409908d05b643281bb75a36c4a63f3f9f6ed66732a2eb6beb4fd;0x169802d92705cf47370b346e8f9717e39162a4a194b6f855851b020b582ce5a5a;0xfb4d524a7833db0c88045370db73b408ec1af911114aa266641238d92e2c24b6;0x1057fea7a623c531e3bd0072a348c7822d4a973435e910c71b33671d0e59b162;0x1e01b8131996fc5a4ea6a4ca94ab7864591640706d73eaf448d70dd97bd7c92;0x3292f58acfb869bc70d4abf7fa483851cbec955863862ef6af24c9e4da6447cb;0x4a88a5faa87064d484489cae61abb73a6525499a4898666193a597c208a8c31e;0x183adc92cbf1659c9ab9129ba9a23916264038dc7d16f749b92d3292fb66b53;0x3eb5bfc6dbfb18716e08b5d8c8b8dd8f3af23e86235a6b643a07f7fce16ab37;0x181b68b3e307afc776e3e29a1a15388a1a5d5b48d3784b9a4161b17b77a08510;0x13da55593cbfa605ac0dbb12cf2aba68a60eee86de9e04ad1f184fac9bf44b184;0xb759227e923d1e7ae25eec646ac9b7d7dfcb4bc6a25d4892ab66773a9f83ab2c;0x667bf29951c16f8c07975ce7a95f50337f3c00ab4d409259da97f73d74a5c0c;0x6f1c3d7f99d64906a055b91a0ede30ff69c8d02c0ee8a545986c9a791392db43;0x15f51e02dd3beb0e8ea3a54f526563cf2708d803e1c71bb4867f8b4db3a46c375;0x16d19ed2c125b3f03789f997be1efcce2d3f6dbdf1adee199ef45d1a6df72721;0x30e624d3af6c7a92aa845d31c06a23566b50eec72a25a9a6e1193dc48bc206b3;0x412e3d33e2acfdd4ee0282e70e6615e69342bf04e7877ef134e2c035960dc2eb;0x2e78a4ad547567a13c548cd6d9271b40575046a93dbe486426b1626527a765e8;0xe7152240e27d4c7a23240b62ec5fc791ec71c0002659febb22646bf0260e643;0x6ccbc4e06b36ef9499c203208137c8d8279f9c04d1ec01846a57268039b5835b;0x163ee99a443b65ee581e4c8dc0d7935fa818126f28915aaee23c20a612d3e5b7;0x3252995091c9a25c950fc12e75e9460a1281a693df7bb1621d48877d27514390;0x1595c2aa18053351f6ec819c3cdecbf59a2c3d822d1ec8c874bf780c0e928de19;0xb522480122e76889c540b2c543515518ebfa64d8dd6e2cd98c0b741a76e0c55;0xc325e24c0ab6763642fe560742b3a9dcad039888cb757f032a586a58a28725ed;0x41f62614782f70913951dd081d35d32cf0137956e4a1049b028e7a2b48549f15;0x366b13306ba508c721e6ec4f291e9608e387b0a3f40fcaaa80b658f1bd0528b1;0x106c34a917c26c4a6655b8731653c044996d636cddb62c3d0cdd7172e620a3be;0xc538b8eb6ed752f8bba4aa8313ffbda2db6bca6aa16c924ad0b952e28fc4662c;0x592d0808d0bd36db4300cf9798aa5d04603f0913e43fc5c25502ff782a02fe55;0x816a27c0d0b097d18d2914f8156c18005707350081305f9721c21e7050f2b7a;0x395351e66de2a5a321433390b860602b5a57f3a62f8b9e952abcc341baf8aa7b;0x1a478bc4ac37f42e0c48b14a9103adc7f28fd3c916ebf9b69e82ebeaa92624c;0x17838fc5bfd0f27feb1eab22c47bafc66f99832316c8697ca0e015c94f529de14;0x7e13f409cabd52878e6b5273bcb1fbdc1e85670a6e18efd23eb09a80552838f;0x28e7b0ef2c7d3b084a80ad804c33a7ac8971d24b716594483e6755046a50f2a9;0x152dd58d5b25fbc97eea6e9f97d2484d6a6ae6356bb0320029d41612fdafc213;0x54c8fdf06888d6d49b609bf89835a21284b5c1e537c1780fa1974dba1044b588;0x589d017ca261b5513d569b57f5673b572475e8fbdca90804def6bbc3eab4b49;0x1cda123e9e82bc753274529a1e0cf24ab36b547a3745519c4a614ae7ea6d893a;0x6b9b786808bf02f5b98f3175ac5f48cfa34f1dd0d61900327f550ab5d3c8eddf;0x210794bb4077539c0456d0f7672955c775974d1beb95e0e168a0bada31ec02df;0x37617aaddc06bb4795c3fec7a724866c2f6f3a0b78596f941e989d5bbc3e1ced;0x144f3c17b5054f46a71b5f52237457d88de47ff07b4461773bf621c2a04b931e;0x4b759d0455bac8546f849b0c0b2cd2b38193dd6128f879170f5f96c24a84814b;0x2bb755c1422a06ef33890aba9aed7254b18c594a68b56df7e27638aff1bb9cb9;0x15a7c09379544067c1a3cd5c0a23430086bff1e1990437239dd2360e3185de113;0x623d1b934824f863fe4aa25de49b85158ebccdaaa8dcf1dd921b63765df8874;0x17ddaf629bfe3df54c4a1842e61428e4f59b6ae02e2d7a0a7d6d0c2db267211;0x6ed2b6973cb4dbd25bc3ea0f8bcf42815c5e312f72ef1d9a5a0421ec336ce0f0;0x501a2bb3e9eae409ab2eb0e27931a12615f4b485c2c2aff6dc429d1b464c509a;0x62f8493b6638b9020f7817584ad4aea20d01604ed3d7b4b5ae9c66207c5e1b10;0x5145a0862148440334af534d7be6c54b5ff741a71b870c4dc3f13edb269bf87e;0x4eecf3fa64b495a4eab41c7b8b050699057f426ffff2d678f912d37433f2f37a;0xdc74498820f2641d1a5fffb59d373fa994eab01d33497506bf8299417390e8;0x131616a2b360cb72184ff6638abdf492a098cc322c3897502f48eff0c7339ea2;0x619f2bec6e47fe811b7ff7f497d0692c2ff5bd5bfba6fa1f79981b7d91f2fe19;0xbad3c39880d36c9a9cb587881b56b263fa1742b67ba3d8caec62d16fbd2a383;0xbc8b35804e3f83411f6443c00417f7f8e374057dd8a14959f0ad7a77b8c222;0x18ef36d334bcb5f6b0900a5171897b3a256b3d05b3867a82c6216d7aee98dd63a;0x53e77fbe014fbdae14ca5a5f98a3902a492884dcb25f5510e504fe2935111b1a;0x1098c025ecfa8f551e44134141f1fa3b9a384c4dd6d76f3d0c64950e3094dd326;0x139492424789642b01fe5007e60eb6195d0b0c5bcb3c00d6f660fdafa297c026;0x1c3941ad936c992278de0cf94f87bc7354498b67e93d20cfbb1e1cd20441bb133;0x1a91ecaae3fc808db7de1d6007df484b72febe5ed889ee2743aed87da655c1278;0x142ded7536a56a2895039fb92d266905420d3b7d16bbf8e37be3b3614b6f42918;0x7ed419fe518c5a25c7fd6c03626ce037d8a4bb09ca83321621d37db869c5288b;0x2c0c87b4a5f49e8acec2e01ab2d0e726aacf9488563954aab11c635ab7dec1aa;0x15d45902837dbffe397fb2873aaba829d47f1034d5d0f5cfc0601d00d808a8625;0x143a867b7900b39d7eb64ae01574f41d279f8991191cd0e175ebb9c1bbebdf2e7;0xf66dc7d0e79e3c0cbe1704b3a8f44cf531bfd62de38a3bc2b01bc26fadf161c;0x16b67d7e5767459b6ea702b3ac45f7424163d2ab1b6919111fccd23c0bf904ef8;0x3fc89580dfe11311b1140b5f8e0fc192e1dfef93dc446bdcbec581302a1913;0x67399359e828f0e4e3aa764040a78d6eb65f3ba221f54e7a8b41d5c1a9f7b918;0xf899c0a5523bbfdb153a24d54355b7650a0ac56ac15abdf3281d9a7f85d9608;0x5ba462991c729b06255b1cbb357fce02b73145df724787dc6c5f6e9240f74ce8;0x10577389ebf3e4903f3bc32aa9f09e781cd2517bc65327d777e6aa91e1b5689bc;0x1902cfed6a6041305ec26950fd4b17726bac9fde2431f2773198d6b2876ab58c0;0x24b771c7b3683b769ad252e924e4d07c48c842ced21e6783bbb9cc28b1d57b2b;0x2203490b0427265c0ddeacea7ba45df75fbb691372196808cd2cbe24736f5b47;0x11cecba586d77c4a67327a9455339ecbb4a1813f38c83fc1f47e729455223e3ea;0x791df8e7a35d10a7dbafd76fe7360aa2f93aa8e935af9af407c90c55f294308;0x15a196df6ed4fedecda31580d2435ce83c2fc7beee362caf0f764b6d8f8bf670;0x1120b569cc39b199707b56f2c6bcabeda5b647860160aa49def2ba0db1bd7909;0x132da74f9df4fead6187604b6938245b90dd390ace1da4efde1b2569dab52c13;0xce000402bee724138f67c9cee59b3ae2a5abd75d6a53e91b5b594c63eeaf07c3;0x48faf6f6152d69878ef327463c319ccc04c66288b37236fb13c2f7414454d;0x90c38200b4bb48995a960c8d30bbc0e9a858b523588c3639a477ca4ff7d0b300;0x299021cd8fbe090fe151caa1aeffe993d9b467722f6f609e329b2fc3c35e63b7;0x47e977669222f9c6a464a93bcaa6f4a157249af2540acb00d5ac9cb38b1f99a8;0x31d7c6b146e4516aeca08ba4437a4400dbb5dd0a180bc28eda17867959f1001;0x737489d47b7e1b916b23c01313200f596098731ba30b680d3467003048bd7944;0x3239db570219ecea2e73763f14f5719f01e6311aea1e0d90fd2c31a9aa003d3f;0x272968286308bd2618ae253ad86b05f1b64e1880a55e55fa319e33caa093a0e2;0x10e52d2b91df9c89a49d6ca460a17f25ab03a5f730b950591c5a039711b605d18;0xf8ec5ec1273ddaee046aad353bd6e49ad951d785ad9582cb8209bfe7fa8b16e5;0x16f704947f423ea40f920a903c3122e3580635f4a2d36f488610a1095266728fd;0xc5a40a47acb9cf1de234492b936c4ed7a85fc00f28607d0ace6366bdcf7b2741;0x16a7b94a54e3622cdb7113305a4957b4e5308059f318c3ca7f5f201b412ec87e7;0xac5066af03b1964fbbb027e6a98f20671c32855de7dbbdf841c5d2a98f610058;0x444d39e186502a6f002167521bbed339318f3d9e60381bfc80bdbf3493f991b3;0x129aec9c7b60b25f1381580475597d81aee3c16ebea66f33c7e3abd7150dc1cca;0x16bb5bf7d57c7b2891c7ea64c760fde23fae7ea8310794e2fdd86c8cd25d137a9;0x1a132d466468c2b429a631e56a0ba7b76a07da7ff9a195101447447f8f31542ad;0x67b60f610a7cd34905b9de7646573f1c4e07c30f7c4abf2c4f3de9c413e77f;0x173dd7961c90ae5a5628246e91a2f7decd6aa6de3797109be8ca4a98c4acf4c26;0x1c9af2b41b24622707f2a1539777c6c0cdb6c42edda599f0b70f13debe0d907e8;0x1497c8113e0c458e2157f3904277db230704be95f451041724a71204abb9fcf7;0xa85c97d9938badcb09d113881e4fc7427ea6bcfeae60ee2b44aa6d7feb04e415;0x790f2e82a82194e02dfaff25334f2289255a553c3788a2460a2b222b682e1;0x2971c225f110fc0f0505c7f0f2f2f1ee398271c320e65e8f8bd624ec7175c7aa;0x118949697910d95481bdc937c541aa79c5b1bf51614fe0cc6b67d0c895771c8ce;0x103a7aa68e053221ebf4b763af34069539695a48cb516d103e870a4734e5c4969;0x16ab14c558b2f97c0b1d5dda765aaf5162d32373e9d9fccaf52749754f53b3cf4;0x4337936d59baefcc8b9eea7f0e15fd7528744fbdfbc25a1e143041f6b1af176b;0x15314def3c1e2443547e40ef0c4ca7ea797857af90e0ecf8d607bb2aef0bb8da4;0x27c39c627234e0c6b303151586512d288f4379fac44c102e6cc8fc158b14c8aa;0xc35e47521124c6a8413ee95fc265766256597a0d8c90e0cc8ca5c4537512b7a;0x1b4ee016a0b96bb57070924fbbc596ba537b4a097d75290f1ed2e410495def3f;0xb4ae2141baacc1dde61df942eb36e3c3c366434b94e06a92ba977247372d08;0x1804b223e03d268b9a4c72bf8f92eb10cee55029190665e11eea37dbd9cd007;0x27b99bf92190fddc3fa7e35e5d366e4c93f708c7e12efe692bc2ab8ce407f55f;0x137d54a44d6a9a9d2d82b904e6b26e0a9efa89d27b25e61811e82e705a394108;0x1df8c58ee24e5fc645be3513f3c10c2d5e9c9e24d89fc35abd095a4591de3663;0x4be418fe59b4b18dd02f605c47358e8c990d97a724bea6e5e29bb37861b0a8;0xfccfcd6eae887e4308426fc5d49dbbd56610a24712017228343d0c1080c2098;0xc99e2902204e1fc79804c22d6fec4abe19614906e496aa5baddc7be99292582;0x536823e747352b0666deb3d0651df806481ec099babf909a645b70c9b778d56;0x3717d56fe72445d319f6851e0226940e5d3d76e7dfde841e67470c6b7dc2c9d8;0x26f3fdc0dd0d2a0af7995779fbe0e25e7446e72ea68ea97a8c728a175e45ecff;0x3e7e084fc62525f4186518dbbd0387413133aae0b10835d3e3b31061cb56a1cf;0x304f11d50f8077f5f68c898814ec4441adb53980e9360ec84a9fd4168584da0c;0x158b385c4ad25f81371f85e9621a1a9028534479ed47bb7bd5eca1bca07808bb;0x170032417988598ee9fb79cb3d876242a3033a7674a140730c7cdc6da3b88fdb;0x5332debd92e4e879039297e8b40ff5d8394f5e5830f5d9ea7a322c63f7aa1f66;0x4c9a0799fa6550973dd432257682aa208188350c313b8cb8fc249da86d809697;0x5e15ae490d3fab5f8af05c82c95f571a82195f1b56cbf4447d5467e0c0464017;0x5fa13a3a47ef0de21c4b82c6b8b522cc1c7af72b51abef653698ab04902251ca;0x11a534151a433b5a7baa85a6d6cc58484bd857bd5430178d6d7c3e4d4eb3fd2a;0x12b4c953d67afb9fb13c8807aa3a8418232d37c8f8233b62803e995d71ee8fab;0x4427b8c80e75c59e372e8fcd07efacaaf3e2ca8e9d4a45618b70e48213370b6;0x169fd9aa90c902fd72a47c449f470c86336ce0fe615ae3c1954362ec1a5f1e52;0x690556d44fd73497d6a7493fac8022ec04e99122f39ef4c4c658e110adb4e08e;0x6b20ba7895ff3c0c1a9d5d7ed8c072c21d3f22d8eca4dba3e0379adb746a8df0;0x3e6bbf7373cbb53747b6642a0b671bd9618adb23cc6c143674f76f78158fac62;0x32e37b372393396b537da44da4044f0e0cc5dd3f86147801490a36f7818c843;0x73eda753299d7d4718963e6b1d9bce6427fd47ff13fa0000fffe000000000001;0x73eda753299d7d483339d80809a1d80553bda402fffe5bfefffffffeffffffff;0x0;0x0;0x0;0x0];
Build_pwit (254760293) 2 2
[true;true;true;true;false;true;false;false;false;true;false;false;true;true;false;true;false;true;true;false;true;false;false;true;true;true;true;true;true;true;false;true;false;true;true;false;false;true;false;true;false;true;true;true;true;false;false;true;false;false;true;true;true;true;true;true;true;false;true;true;true;true;false;false;false;true;false;false;false;false;false;true;true;false;false;true;false;false;false;true;true;false;true;true;true;true;true;true;false;false;true;false;true;true;false;true;false;false;true;false;false;false;false;true;false;false;false;true;true;true;false;true;true;false;true;true;false;true;true;true;false;true;true;false;false;true;true;true;false;true;true;true;false;true;false;false;true;true;true;true;false;true;true;true;true;true;false;true;false;false;true;false;true;false;true;true;true;true;true;true;true;true;true;true;true;true;true;true;true;true;true;true;true;true;true;false;false;true;false;false;false;true;false;true;false;true;true;true;false;false;true;false;false;true;true;false;false;false;false;false;false;false;false;false;false;false;false;false;false;false;false;false;false;false;false;false;false;false;false;false;false;false;false;false;false;false;false]
[0x0;0x0;0x0;0x0;0x0;0x0;0x0;0x0;0x2355094edfede377c38b5dcb707e08ed365043eb4be4bad7142737a020c;0x512dd07fcc4806bd144bce62b287fa06d467d8fec6bbc3aa180974bdd04470;0x31758a2cda3df87a6728e90af5286b7aa9ca45a3f4a4d3e26622d89666f2bfab;0xfb61d002b94514f26ac74dffd373480d89bcb8b382108a7b9e7bbd13c1584ce;0x1f6e0f1b8ec3bf45f118d53ba49852970dafb2cde746e79cb270a88f7e395a8d;0x143337b3c54d3854c087734e2cabacd0b2677a0eeb39c55713c3b2a55a6cda41;0x12acb4c78c3689e759d83b73e266ff5d7b22554dc61318fa6f145ea93b81d7f44;0x459c872725a5dc67c9bf4dc2f94e9f075347b46797705643877c8256c1e7e26;0x6b88a329b68e1fd25dc6e0971e6b1bed04839aa8407d85244b6e407b30911230;0x1dc6a395482a4a6cd522873a80685e137d91ba6f8fe24712b89487c749c3ba03;0x1e9799d7f33ad592e54238ba3a9707818436e7f1713ecfdfba6175ce64cdf33f;0x6c70c667e6d459922a020c554bb6b2dfdc3974059c3fabc25a42b76689ec7;0x290d706a8bc4f2d06cd26c306ec72bbbb7ae2a6cf954f11c63fc0062cab94003;0x104b584576009d7f514cda232c0aa684b4aaa34fda971783a6bdc3815237503cb;0x32ff4c2a5fe6d0e963c1a9aac03f5db5365d76fd698996347d58149db5edbbe3;0x5d559a9d1cdabad3799e51c4e5dd0903e4c4a9a74d48cae349b346cf6884153e;0x3ac28838a63e4742bfba4e4c018fe7aa0c8b04babdb5db315d7b56eaeff1efda;0x1afa76f0973eeace955822fed316fea8df4120a5ec1c83da5821733fc5614e3b;0x17395005e04094141f9158b3facbe084a855e84b1520b0371fe4fe605e4f58ca3;0x68413b8a7f660ad9e970483512c0f10022886693a256eaba64926aa27fda0edf;0xd73830b27e25c2b2f0a88f3033c978ae55ee82ed27d1fcc2949371e6f1a6b7fd;0x52408af2b83eec1c95987a45d7acc75cd6d3b3ef0e6b9ed5fb9918d145d7d50a;0x100b101b5d1460195a09a4463428d7e3a736c92d6f3b45010b8fb282355074d00;0x6b4ebef9ee5fb3a9fb8382cedd2373324568656d08d4139a84a3021919516a45;0x13221058750c2760128985150726318222e70f62d4b4c9eea8c4a9a55bd443e07;0x2d003d2f013e60e801a732901733dc36fd73256880984a1f215c563db8469071;0x4bf15d8e3b3a015552f469fdfaf88e844f3a6dcdd86f70b9653bf852390cb1f;0x5ecd5fcb03e976adb4700a84ab2184cc7ee17fe728953da7ec387d92e6d9166;0x1ceb59caabf5587ee2ace60aebd9e7ccfe565c14c07b65746fd119b7c27fe5;0x91304cf55bfcd37ac4f3e0b729be79acea0df62c657a250cb9662f8949924e;0x189e668d5c035d34c53c5293e1d891c8395359036779e84f69ab3b2f06c66645c;0xbc38d64417223858105b822a1192a3b72707870c102aaa42f56942cee7da4aa;0x8a9f57c020b466630eaca139634e3247bbd761b101b04b6c71f41682d7dfdcec;0x69c6f255141a61a228f406919347d865882bc6b92564f944ed9ed53e6b63ee30;0x1a136272db35996b8c60c4a35447c1ebb575effbc0ada92f9c9bddeabc6f5d06b;0x16340672087b0246a555b893b804752ff94636acbf31f0266c5102f3032ae856a;0x1fbd6ad20d1cab14c6e1b7e679eb549f77c5325961657b7135388abec4ffa9b0;0x48a40099601b13d733671d106df5b2cbcf6e494ab0c59062bce5f90e8ace1c9a;0x69e94db54e823a32b7e7892861f572315ad167d43710ade0efe0daa6a5e78847;0x4147716d7c8ed1ad6ad96efcc01d771131ad7ae7009cee9f8fb4524b4710eb4;0x1b2370bcb04ea77c0fcf360508e7a1fb8f1b8662c67eaa520ff2b0c69f386cb0f;0x626e8bd653760649ba08bc598be11a024b9a271e5e358aa6f22097a673753729;0x14abeed4c71bd5eac21fbe1b70434390b8c61012e167e0c50e9eae0f71c2a8eb;0x3053a779b46e3d852e94c06a2cba31029bbbfb82e45841c856463f68b916c2ab;0x6ee4568bd09ea8726fdad09f3c98b90141d1cfbb08bddedce58a449bc9201c70;0x85d967216f20fa94c49c625ec3dee7650525fc86e4d3b473c879d45cab82922b;0x128975e2320c14cf11cfec739e83302ef3f114c85442da9dd4565cd9883abe85d;0x85f5e0a403d69afb552e5746a6e2127a00d5b741e416bb7d3f7898da39f999;0xc1ff428bad958b34846a51e245b7afa43e78960c06fd72dd34c2f67ee32639e;0xe9a234743a507d90612e8b15450d4f2f11dfa7ed473d31badac56c57cc5767b0;0x3ee9e79933a92216805465b41a589602dad70e05b6d252cfb2e55a539c753c3c;0x1c28d5111ee18a98b970b3282ddc4c632cb4a10260b03457e41ea5f2427dc3202;0x2ce9cd44a5c5fae6a349ce9200518c79f41cd3c4dbb81db4f00c2f7d77b67f9e;0x10e5c8f21ef8afbce7257cdfe1f9daaedac88695ea7fff5200fec7c2f5a92d356;0x12806f8c45a4558d990abfeb2b0c597187867f66e2c421f68d55b1971a9db41a4;0x5c57894580152623d0f4fc894bdef7df2f58dcebed330472066be72c773a3c;0x2ee6f26cecc976e46fb76c479927ef6e16f1386cc3acbbe741a9a18f2939ff;0x6ce1df89519cc8fd8c75cd460889d812c049315d6725947d79e08a0495a3e472;0x674c1c2486be3d291f2c67df12846f98502ed5b5f43b291cc253a546261d196d;0x6b9a8ee0f1f38709bc23619adec8404f560b258be213c22ff3270c3901a72064;0x5f8c32c352b732e63b02be8a438a5fd4fa08931726cde25ddd921a36f487fc70;0xc6d135fe7f8fdb962c18683be70a24d626c0f3866bf547f73318b3eadc362a4;0x15fc4bdcc897841db2b99f0a9e31c8b49126890aecf02aabde1488ac220523;0x2b057ee459f3c096da90abb6e25cff9f28707a9b81005bd41c3bf01e00bdba82;0x8ce1a31f47159b4c8d31f94dc5268e11a5f31f56ba480d718439e78397cad8f2;0x114742db3b199dac859edf5da2e27b1d6cd3ae378e98754e8bb582bc8926e1402;0x301a081bee750065622e6ac09adf9a07460f36ee0116cc402b4a9784f7f609c0;0x37eeb3e4102ee81f7f6d52d97a6a84959a3ad3d2ddb56661d2e88289a52e0d99;0x18c351c1263d5688285cf3b1d42b1e38e0e531a0f489b97381d026cddadccf07;0x10f2b22d45e8cfc088d9fc1131f2d3c4f10ca67924265838983461e9f6277a59;0x34a2fb33abf0ae988a0bd5b7570894ccade8109a64c2bd0526771f4f76f5950f;0x2c0e8f0cae38091dfb5088d818499e50795f693ad5c3bce1d6a00697c6db5d2b;0x1a290883abcd9b0cf4d7c494a4d3a1837b8378212f4f0b858622f74f6155fa03d;0xf49f64fe28e311cd8ddb48de9bf62fe7861bb80e1699617f01bbdab07d5f46e2;0x36751fc3ff1739d1f469ea590187956212a9ebc50b18abb69cfbfd9f8c4c4ac0;0xa8911d7ca72f6547e87fe494243a901509d1c41443e6dc710f2a93a2cdcf11b1;0x6b7d12d863e4843ef2590c846158b14e5f9682d0751c1b5e8e3d6e061cf2bc10;0x57438be0aa7b0cfb353ac08732c47d2e8c68e61d41017d65c19b47722292aac0;0x9e779b588831fec08a1526ce5be0a6f3e00362e23d08aede73e1869291951bc;0x27457a4da0989f6c2f0e7615bf583baea0f9ebe47e65d58119b22fb8fab37248;0x15043aaa8ffa929cae1bd3e81b92d172c80c73ea9e46c5a71e6b1ed7612759501;0x277e9db1c14e2a277ba222764fb01629ffafe4424f369e16dae8e177cb767b2a;0x2de96d9488c5d7f5076bd0157591bf59fa820608d2f04257e504827a11d4c40;0xacf70cc95090ac1dc03d5575651ecdabb79ae51e69a9145d0c2e9fe613449470;0xa68a70cb0af1aa315978095b9a5ba443f758bdf2291f9881b4ec6bfe0f82089;0x4073b689c3d84cd482d6250426912a5c821eebec69b12f68e7310796d87c7;0xcdd598d798573c9225286b75f0a9b53deca01fa8933b58975a33635c72c04151;0x32a7cc4081c1828f8b5185cca9d36b3da2dd5d1528c753c9af2e3e480dd50a51;0x36c2feef430c2dfc7150c4a9ae270ba7bf5c7e5e4dedfd508b797579ec456bae;0x51a477ebfe15d9df85c96f9b0d91e39c4d15051188a3417401e99ddcb3345fef;0xc3448ea15910e601470036975822dc2f8c749f54a0d819cafdb570622fd4455;0x32b1c691a3e5c511f57c9832243b004cd232912f79b848440ae3c5e2111dfa59;0x43f82ea4aca82a3ae9108b410dfa813bc036222976c2bbc45b4371d0a77579fd;0x640491d4b11a7e7799730bb62f9c0276fbb17e4974c23d8358dc7dd79420ce80;0x5635e46b1652be2ff0abbd0955d7b2c3748e9827ad4f73098a5b63a61061fda;0x8da64c3e7a1c804518485cf1447cdc322b6316472484fc04fd903b776d684f8;0x3491c2b89e32cb81aa940a35eb58c5740a120c2359d5eb8843456e54c4304e0d;0x420b0542d56fb87586cbaeb2c8924fd04fe7ec35b6f36cf722e287c482701d76;0x37178a650ff9db043c7f2072d504143decb96a76ccf2a0a54a859bc3b2d3bd36;0x5e6c4fb234c8991536068e43dd06d7621fb160ee284e179cf30cb46cc339cc;0xcce2401f481b48dc947ec534f94884ba9db8b7fd354221bd6c1a12635d24872b;0x19af61b619215cc80a8e333a0513b7a287a5d1475cea36d0b831b1155a7eecff2;0x8002350777a40c96e2e28cdf9998b9ed5c8faa2c15f139baf803bd88227c9c6;0x8c179fb0be37ef2147bf15db046d4946e0dcca3b007070723676ee0a3608791;0xeb1c4d4f5c3c5a90b84a01eeccc15103f358fe57f65dac9508579fd0b1a9ad8;0x42a6177663ba4494a9fc4b0f53102a736ecf69434859c7b11c83ffa8a91e0a4e;0x3a8ff1942795e8f89b8470cd032a22579d561e91aac437aef026d0515b2e478a;0x15bceafa445306f7c46cec84cc52443405036ffa6193e90277f4aab34db7a79e;0x12afd54b7b898c6508f81586f8277cf8e438b23268cc582b020b9d5e519e7ce8d;0x4675913384a67aa8922b548f57e473c63f0cfb7d0c4a8c68dbedb0bcafccb3cf;0x613cd28213443f0a3b2039a4643dc58d299a19cc31ade25a04f3da9d470c52f1;0x897a553b7fff8f547d9d07710d0279a01fab73247d71306f34c70fa3d3c9b3ad;0x159a9f631334e39eb2989614a8b6035861a607407fab072f40e0d970fcec79535;0x74a051a45c5f5d1a9f5c09bc645f990e8ad144eebba966cba2982ece05e97ba;0x158c5452a016b826998161712fb6ef67c317e49e68c7e8712bb5b6fae96168c;0x82e5f199d7878647a3524b4dd5b4bf7bb3dc18558b849bc7b20e93c0935ffab0;0x3e7c32e1026317a9570b7aa8aaf70fae699e9f474f05c0ee21820cf971c782;0x43730017ab86ce23df92014bbb7c29ae7f958996d09098835de695200469780c;0x5495a9c19476ad82dc796fe45885ade68f9bf8a7a9b13dc55e2b177c3afa102a;0x10a752fb45015db09b4c9745c343695e8d7063c9b422ccd1cdb1fd75a38ca7862;0x3b21a842d91daa6b7a75ade52675190c28fcf41b5d2a03f83d0441b85ead08df;0x6d21c334f3ffc94db0f5b2d3d51e4ecd5802e65166d8bf43ae9078d82eea8e87;0x38969a7addb662e9f1b6e9497e14888f939fe91045a5f79a261889cbfd67e4c4;0x5c481b34ff85c85d01ebcdb7aed91c1d04f796c3ddf02a2912c2bc2299ddf663;0x47283929bcaa19b9bd564e2636123e22eb448b16ec76df3f5fdd87eaf2d543e1;0x63ef21f6947ee1d6ac8fe04c274d8fd5752530b0ea467e21f2093ac3de9d85c;0x6a36dcd54ee562b42f5de351494cf82f6a8bdd6e32f7fc67225fdfc7ff37bb54;0x58c145463dacf369c1e37c3c238efa65f61bd2ed69eb2a03739d8e44a79bd8c2;0x44a3bddb8122e83649d0fac4683c7c975f72cafd8bb14bda502036c0b373cd92;0x37f51ae3c8784bae2621177e43e0795e8d9bf4c462f4864aed2357b575c49b3d;0x1503e84d2bc6f9add2d0c487d365a738fb736e39ad41c110db2c1d7420f4cba98;0x7635ac4cbb0183e29e31dfc79391ad1fa9604240abc7d034886e114d4a787119;0xba4801beed31aeacfeb9b350b6c2650fec90cbc58a9b9af088ad7f2b7e63fddb;0x1b4f8cd381565764d1b6ad812866796b44a01488c83cd8c0311c3ef63793ad;0x9ead1e239bfdbee30585850d22a45f010df1b628f7e0f1f4df376ab388c9c1ce;0x1f683ec7e7ab47427f4a07c2ad4c27e5d5ce90d26238a0866fa04352dfbaa24a;0x33d93cecd63109763fe8ef24709dc321ea4cc67c2afb0b34f53c31a332c95e4;0xdfa9a59287678654dc543197f4ecd88819470915283ea528cc25faf148b28eeb;0x1563e730d8632e8ea47c23ae7ee41c34d0e5c95475f2fc60f5b36e959dbeee561;0x5ccdd34101f29bc8d1d1d7d21b7ded97c97ea4a641c0dd9ef17f939faf81d;0x17a9ccc9b480ffe1a100506bc193fe7cb7d46336812d48a1aa35bdb86fd15da0b;0x19807af75761e586802f39eaf590b89600eb5b79b2105c0c4dff0ad28386126c;0x36c0fad7eef1d00af3fd57b306b585c507945c81a9771ab1d2f8c36cace8ce97;0x27daa22794e201537df4c770b4604833c683381862c46e4b99e5798b473f1de;0xe8ade91341227f19c039b76ca5e2be768a0bef60a0727476f58c32ea65026a6;0x5049727e36c7e333a55a809ca37f76897987ba2f5ca9e4b5c9ac7763c77b166e;0x38510f646d53327b805ba9048a63962cba93c1c7707d8de809208f9dd48c3ac0;0x521b3953296fe95c678c7d903c5e6b60bc08f7f546f5acd7e18b4742f10a1f;0x121e413be2a85c82b4c7e6c9022f5cbe2b1fd05fc0fadf3fe10492f4302364e1;0xf71c34ce8b97d0f7114dd2ea2a612aa2588aa00e3a31e9ffef5d63f38fcdc1;0x1173a44d92e81369f21f6dd34c88f1f190a14fbd338df97acc35f079ee58f7b07;0x1702bca3aaab5f362f2bfb5a0209920afc07b8bdecbfa804bff3c5c6f4e9bc179;0xd01d44771fc4263c160a2ac95aaef72bc993e99f385847b49912f13284193bc6;0x99d468c005127b9fa2e2a70e9d355c7d9975409034463fc39586979165dfc28;0x8def6739d6de5fa3d1f50322dce8ff0635e527e34d243c21c2bcb17e7419224e;0x3a10ba421dc596aacaa3112bab365a1f94268326881d3c2e0fb20e7ee552db13;0xbb298acaadaa04b344f17b685e244b9cf11c9e1ba3bece833f540b057c7e5f4b;0x115d77d3957bfd4c676493ab3e305263e5ee4bd654d2929ff9e268832c8fe3767;0x3245412efaee30ff2e466d5b6d9f96e69c86db3c0b1ecc4f273211a65c6bd4e8;0x51a76e465a6f7b6b21175db94580b8f4210327c66a1538adec4281b16a701c25;0x3bcdf190cb57cd5446b46b169cb192559be0ab9e695bacdb7a9930847a23e04;0xa6310ebe79870d21b3389ffa56f32617f81c23db94684542523bd966ac1ea32e;0x2c5eb13ba2ee2c51a9b6187a4406caec7e8737bd179fa2166725c0208ed6173;0x1ca4c6746bd8adde48a0c2a3b101a46bfaaaa45a60f2f0a0ffea316bb69b529a4;0x1acaada7fde446de63813c26e0af9648d85755aef3b86ed6bb7d328faf65adecb;0x9c39ab8288e8d8a9c40157c7a5c17962d44774fc98c81de8748d21091f86efac;0x7075b3ddfc40728717867a4722b96a01c48471d25a2ecd7663f5928a766b00c;0x3a913cedc1642ecbe12cd4de2578d38a263269f12deb60f20672360ed37f7a8c;0x3cd302877eb8af6d6fba769d74e36ff6d5191c1fe381111a4a04da2bfc3a347a;0x14838886e1af511d008046663a1667b5d228e04984208360c5cf9a404236e374;0x11852966565cff3589a459c37f0f74461a637cb0dd57886c2233d741a66af68a;0x57bf7358b562a78698b72fb6155ee7569db46cd162fd6c389c44a9abc712cd5f;0x4a92aa894505a3ae0035fc3fca5114141866632b4b22db0c961ca2d5cd2a8aea;0x317700afb6ca4b415a89eab03dadfa11063f6d16b9949c76661d8537f2733173;0x18df59d20bc6f7ac1177f3d1e3fc5906e6ea1c72e4e27bd99dd4ef77216720baa;0x282546c8f5edac708b8168b420f08a009d14cbf055c2551aaf25690aaece7467;0xf441494debd15c83e82b0c100f5a91941d92b4cbea173f47badc8e9041fcf58;0x5ebc3d6aa01f5220e4e105843eaa0e84ecd5e2a592296e6fbcdc04ff7da7cd6c;0x12965fd6c0432c064ebb132bc2b17e96bdee3597b53ed6f4bfd4fa18afbfb1efb;0x222e613c627fa50174ade668f3ec3b61c8b9fe40092de1667e609de2b4fe776;0x2cf8dd21de8f6b2a518a68935d6f26afbc18eee653b841ff7f302c31a036eea1;0x152e45478b3bff75a2d9912350f1556689b79297f8684076a479658157022972;0x250538016824079bb7ba18f9f022934228aa23b370eec9ab6cd98987434438a;0x10d1e2661ea8c19b92730ae23cf8627465065f22046e982a4da312c8e84f27c45;0x83d63abd4d732775b7a862996899ca1c0882c65774a029946bf091d6799ba95;0x238f7cc8161c7cd17a189712588f8f939bb98b530074f010e1edc08854f3bec;0x1af0cd01ae1b98bb608c1370f764ed5c629274b32d5307e26208afc2087cb93bb;0x8cf2fe7029986bfe151db0aed56992cd9cfd54a89853a24ab3c2905d222c8b04;0x5752bf8d8d838b097789ea321eef8b2d33b40339fd3936f0421c166c7ddc9;0x311982d07775043eef684968244dab3309effa086c0a4f7dff404bb133038;0x3d8ab3051ecd6dbb8d9fefc621f9907eb880dbb20f2f84d8d6780bfb8837de10;0x3c30cb146e4b155618db355ecb598bcfb18195ef4c6e8dcf6ccb2559f3775d07;0x4a218e2bf54cb1c996cbd2297fd6ea0590944ba8863f015c1926b854c579dd;0xe34e2766503c84614ed38948309acfd13a776d16ccf08a081e3ec3605fef;0x49500e4df5c4d6d38019a8c47fcc322271df697409702a7e37d696eab00ddbd3;0x1908cbd8e341ebb192b08eaf66ea8cb38761a71c423ae9e7d6c1b22be8329951;0x376022ca187b9ad0b463dccb8fd44ac48848ec412708b31b5fafeb1830ebf03b;0x130b3ab2d3224323e002e8474ac6d32d43d0ebb5b6036c06fb16c4163f7b24;0x147fd230427a16b21ac55c3b26f2a57782fd3c9890a3f045763126ecc14c8ff;0x18865ebd6d48cdc5e96d84aa75b6bb8abe060cad7001c04d2740f41c93f25a41;0xa831ee14e9a128ccf67f8ab043924fbc64e05dbbae93eba313873d21777e0be;0x44add42b277c13844b5f11ab73871a71775b2daa21976f71a21811255996eb09;0xc705e21c0702157f4bedb0a73f1ab70e5b6c196a8f909c5d2b7c75226666a1;0x63509c697ddb410cc3e3f45ca7cf010479dec8ecfc674535e42adb1c9474d6d2;0x2255fdc3b2441d94d88407e01d1e90fb06220761aef258aeb3379724ee9346e;0xbd9ab9d0434f214980b7776477d74177fc2da573b70a334b73222e12bc8972;0x2fdc3a7d8749218ebd1f471f3da6761da2361eece30276fb4ddaea2b4f5da2f8;0x39a013ada402936eae78de610c95f5f222619c6b38fbf44b68e77dd3b273b8f9;0x294c97b679a11214670dc10310d46142b879aa0cff7c106af4038bbad98dda2c;0x15ce30d2c6eed1c4ecfb2bac1ef456514631fd6b05539ad60b9a2618dce9bbdf;0xf21583ce4b33e0ac85bc82ed859e611409a9acad8f32f835ddd17b366f7ea1c;0x426af02ec634b722b18234e48185beafafc7d3db37f0088226bc4bb32bcc4fd5;0x15c8e7585e23e989aad082aca184f00b7828f615b4b05af8b55f63937e886a3;0x681f22b6e66329307b148eff4f6ff825619845432f0b7db24709a0861965221f;0x6085a241cf6b6802e1bd46c440e4febc1fdd676d66ea949e3d37fc7cdff29831;0x453cb312785545b78033453bbe340ca8a9c6e967a41570227bb53b46e006c7da;0x64522bc093e355566769aac64c67028428285acccc571f66cc2fbe0adfe23c63;0x98af8beccf48d4c48d3960d37191c2bac9b659aa3f6d5064968a05457df8d46;0x18fc8f814dc10e847d65083f9fdf87f13e974143e10d5491ee337e7e7e2dba42]
(21008241824338290986197080736683926949006556971416270778403388042974795796113) (18947241452775169914707409006042245769278052000325064266034158270759988127056)
[true;true;true;false;false;true;true;true;true;true;false;true;true;false;true;true;false;true;false;false;true;true;true;false;true;false;true;false;false;true;true;false;false;true;false;true;false;false;true;true;false;false;true;true;true;false;true;false;true;true;true;true;true;false;true;false;true;false;false;true;false;false;false;false;false;true;true;false;false;true;true;false;false;true;true;true;false;false;true;true;true;false;true;true;false;false;false;false;false;false;false;true;false;false;false;false;false;false;false;true;false;false;true;true;false;true;false;false;false;false;true;true;true;false;true;true;false;false;false;false;false;false;false;false;true;false;true;false;true;false;true;false;false;true;true;true;false;true;true;true;true;false;true;true;false;true;false;false;true;false;false;false;false;false;false;false;false;true;false;true;true;true;true;true;true;true;true;true;true;true;true;true;true;true;false;false;true;false;true;true;false;true;true;true;true;true;true;true;true;true;false;true;true;true;true;true;true;true;true;true;true;true;true;true;true;true;true;true;true;true;true;true;true;true;true;true;true;true;true;true;true;true;true;false;false;false;false;false;false;false;false;false;false;false;false;false;false;false;false;false;false;false;false;false;false;false;false;false;false;false;false;false;false;false;false]
[0x0;0x0;0x0;0x0;0x0;0x0;0x0;0x0;0x8d54253b7fb78ddf0e2d772dc1f823b4d9410fad2f92eb5c509c;0x15e4c40f214b9cb9f4efb90cf5844aa869a13525635a0f2b6aad4e384e360c561;0x571e506750de93e7da61080c539b1200026d850b3588fa56fef34f966fb2ea0d;0x2df3585149af452f59f421933b463c20a3198952036919630455505049f9e918;0xc397dcd87bb8cc95e7d59775500be83536a31b37dcbac39ceca7243226a424f7;0x436a5a464874ed47aaafc4abb0df09ec1bf18d204333921755e07d6c5d76e379;0x1a873ec73b4faf5fba1fbeee2a5c72618f88af2a8aeb4460ef3e99f8a3f58782;0x7b5b643079547d56dcb11e6a1b353f3f3c5b1d46aed3589d1ecfdfce46ac8e;0x8bb9b79502b325b8733235711947bbbcba9ef7aa70dd49f4f13f0df9768e152c;0x2a6ab07b0b16620cbea821807dd7f497a7e60b459070c3d4231621446e0a67a3;0x4a32e0fd8a66ad2920c95cc001e626af8db486499a325043a7a43db29c44cf8d;0x70b86e18f750e10bc303a91e21e3d2b1a726a53adca64132c4c6484534d2350;0x34fca2b90ee973d6408a1d8c2039e77f11d7b10c5084e2b9e1e858d759d65ded;0xbbd2a19f252400d15163d53d839e8fcb832acde8b44931c78a6c4b0ad25c9bb;0xb799e34fb9abc41f2746cf40e3eab029f894a27bb276561b4620e0065077bec9;0x1e26d35dfcee68907ba4aaefd52a8d3d50715fa192f53eaae6d5c9496313f13;0x69199c05aefd77c8440526a13cc35c4e9caaf85b441e8337c350be64f720d0d8;0xdc5d669ad80ca96a8834a3cf5eb5c0142361e0117a73731f0e7c05a56b17fabf;0x2666dd92b19d2124ecd48df7a13263f58509a67752f0bf028c0abbded492f9d8;0x16cc1f25f9c3425b12d56bb248054d05ec1afd74bee7e8241a5e2ceca71f74394;0xe61370df93bf2256bda317d33bc8f659800b63dec254783fb3e54ba837340f;0x307ea97678b1c654be8831229cb121296af991f29d70967e56a364a4d5a15a2a;0x78ea4bee8dde1c6c0524519bae603d930078d08ed99c965ce34fa2dfd16c87e4;0xa60e644a0a19fce6d6183d74be402291ec6bb570ab3a1234842a84ce38528ff6;0x5780968da10d28843e209a9a54418350cab94e2b4b5e884310a12639b485f23;0x557b262adf0d026d9d9d14485d4fedaac9519c9a98e3afb65673b6c40d85e33f;0xe02c646b1411061badd8872ec327f8435a1b5110570d0f938862159ea4f3ae00;0x196b81a6262564115f031e5abf4b0fd59cd11894bdd79c8c1734019627ee6f33;0x5cb10f49aca5b04f13eb6a3a22d713b329919d77c238edddcc30cb2785470dda;0x14fbc429970ad55c2327a8434d97d9a60ecca0257fed40c448877e7c82bc6526;0x132d73c24618c00669ab02ab6b94feb6234ddbcc887826cd6732eed3c1e5ac51;0xde91ede80037e286262fff506a9a616b63381e1d89518cf9009fd0aff21ac7;0x10ad1399058d4c129986a927397736d0906fb9e22ab4f2a30d1f7584a0652db8c;0x2cb00ba0e0e44a3ae04da60d341db0b4b2808f34c151b70dc2bedbcf4441e064;0x2aacb1b67c1c8d73c5817bec9782dc786c94f1a4b3ccde8f6937c2a96b55a187;0xa6bd39150571f93205191723845863560f2741a00db3b2ea37081b0acc5896e;0xa5caf4345fb2b51ad91e905cb1846072a414b65db8bdf654d8859a513daed354;0x312990d74fd206b812f4057ac01beebf0c81c56539791d401978b8abea3c0971;0x34f9bfd092830e28468904e2ebd3b87f14baaa1ce01f55653f1cbbc1e81c4517;0x1062903baef11417ebc6a431427e07774b2fb1aa90a32c91401fba902b06c6edc;0x100e73bc6044825e0683d534990a3513164c86b35bf76541b9ce2f8d5dd3a97;0x12be8b4a9ee2508cb960ea14a0e9e8d3ac750918561a302e71189e4d424d63a43;0x105843f2b117eca8643c4655fe97c8d5a71b91bd9abb20cf171bc005f8875f32e;0x19aebb2d132030b201d4d0363ff0ab2f8ca55af0ff0776a9753948239ef5cd1;0x33d8e86dbcb35a3ab95019320fbd9a51b8da70e32e6ce5fca2610d0cf6c74029;0x1f3e337d8d3763ebcd6be52218d02416790d30ea69445894ba9f3e69ea40905b;0x3f5f4e1cd349e39107351cd5be316c30a5ee060bf7f408af0b0594066ded9f0b;0x828241d007f568a52056a88c778fb8a75d93130ffc35516855fe58f2894110d7;0x636a9b17f7b0109e7be97cd9d1a8c9310c12e31fa8da9ff8ba0bcde124eca21c;0xe7188fa3150eede61a34dfc85b0c9a4b26c8037f02432652bb72b4af0a0a4e2;0x3e75c74f6c71e5f635dea1d8f256d713768ea002fedf09bd99a54bba7d066eb5;0x1ba0530c79cdeb2d0c711815d2cfecbbb6c5e598ae8890b989f11be7aa0d3711;0x1a67706bb48960c08f8bc6cd47b43183f3737c3a206e1d9179076056dcb562a05;0x8f4bff20c578a751067008625234e41ac1de3472f10a380a754db4237e338ab;0xfeab7145ff4b413357b03aed05d015e19a9d580a54d94af32b68e9df42d4d5;0x71c480fcd9cc4b1e418d486be124a9253987804232509fe8871a07fed67ed18d;0xad68e6f245e27da5d14a16a95aa17311d93d11eacbb79beaca00e829c7d03b;0x3784db3903be72649411990653de9563bf8134f14e63db46ec01cffddc7f0669;0x8ca97d6159af9e780b2a03efd3181211e29059e1569ebcf856abaa6eded598e8;0x18c50fdefe04a6274e55a34a0274b14e759c0189028d200a49d69265188d9dbb7;0x2a52ef904f0ce65c63d4b6635aa6d972459bea0bd69ff7fd29e8e9836067e4;0x26a0eb9cf380dab5c1e91178764733dcbd88f46c8b902451a1f12cc9b6aa1800;0x1076791ea4c9d15792133e38adcee6081ac49fde520a240eea764edb848b7370d;0xfa79daf06ec0de169f2696f3d823e34072327c9f9a621fa941d12d26e3f2efa3;0xcd23b424215ada185c91e49f78d5044d9f2281e76ae0203651f1c916dc87029;0x7ff58109e676119d409236bc429c8849041505f7049523d25ea01564da1802b;0xba781301724a92fb6f59cc02ec631f604211b30164d94efb6cd1979ecdbc8311;0xe0fa15b9d5238504e478df97ebc9416abda313218d60e845b21849fed578d0cb;0x6b2f5bd4189cd8e933ef6e1b37525eee965585b2b7bf5bc8713cda90290681a0;0xae15d886d71f9c095ea2a14eb51d5bc91e04ad54dc076577c5135145b584b32;0x3d4bed3c5209b6201aeff56499654b7d2612c42ed541cb301a8d3a4cb9a5c51;0x1dc636917ec16ed9a061c50ba2f3d8b499cc164cb42df407cfd3f0bff3b71b7c;0xd44d6e0c54b69bf96827f6bc0e3bae29e94da0b1dd3d561d98e71db2d2705e1;0x15137dc40917ddff805259bff219cbc6c3b80bacd7e07ea9b0c8ae46ac01d2182;0x5386072724080cc4e5b59d79db4c184ba6668aa90f0d33a92d488fe85a158f8;0x40e7f65d442420e3306aed4d77ac15084894bca6b38e017d81ba0dd4ee39f83a;0x1829c85cab6a79f89ad4c791baa892e438dda752c4119bc844f0135047c7c87f8;0xdd9c3ea37bf3bea57be8d2ae2f5af87ff8665b2152850f1800bd3789fec6648;0x1f1c4d2bc819730b0d50a83b8825c11cafafe38fabcb9c495d6e9bc5ce302017;0x517f935470cf5d0119fe12957f0de4fc925ace48a60937dffee893e3e7279a76;0x586bdd196c1c891affecde4375a0737f6753d0d18c07137f33dbaa43467dc60c;0x6c475fcf159efd6defa4b58246c1c183a5c5a5ab5c0291923ffe6f781c31ea3;0x397524dddf2d696340848d9d3584b6ae58836f374e2d251e2a01dfa00e4aab33;0x177b07c7066c6ede4c07e403010e9f46af9ca4be72c615f84a2715e5b023e7;0x23b252906c2a8072e7fee20696e30c02ea2d7f76c7b18c7e20455750b5213f0f;0x657607b7fd5a91b82aa0f4076e868a0d7b5e63ed1a3678f3c9cd3d5e785dac;0x6b256b42ba0f4cc851cf40787f91e65f41c8e271536b9071e9e45cd153ea93a;0x71d710bdb1abe5da5f1b6f7e22351cb28f1028580750a6e1924dc52eab4078f6;0x73aa73acd4b2d23b73b7357df29a025acede6ed86e80a8dac7320a6075ac07a2;0x1a1bab162bac6b9a7e1055b01ef09c07ed7d3026795c809836eb5daaa53bd40;0x5676ee9d549bb198b6972e5019634a2437d63ee21eb1758ec11a293610b5202e;0xce110992a596766fb4d15de074222792cbfa804ba1b53dd6684b629fc74e66b;0xe03f9130692644b64ff72e6d8d222e91fd4b6c28390700ac43e289a79f13b0;0x28132677f7bd13ea69374027d69850e30ff3b318d882561f8f001211ff4fbd1b;0x6fc65147d5dc409908d05b643281bb75a36c4a63f3f9f6ed66732a2eb6beb4fd;0x169802d92705cf47370b346e8f9717e39162a4a194b6f855851b020b582ce5a5a;0xfb4d524a7833db0c88045370db73b408ec1af911114aa266641238d92e2c24b6;0x1057fea7a623c531e3bd0072a348c7822d4a973435e910c71b33671d0e59b162;0x1e01b8131996fc5a4ea6a4ca94ab7864591640706d73eaf448d70dd97bd7c92;0x3292f58acfb869bc70d4abf7fa483851cbec955863862ef6af24c9e4da6447cb;0x4a88a5faa87064d484489cae61abb73a6525499a4898666193a597c208a8c31e;0x183adc92cbf1659c9ab9129ba9a23916264038dc7d16f749b92d3292fb66b53;0x3eb5bfc6dbfb18716e08b5d8c8b8dd8f3af23e86235a6b643a07f7fce16ab37;0x181b68b3e307afc776e3e29a1a15388a1a5d5b48d3784b9a4161b17b77a08510;0x13da55593cbfa605ac0dbb12cf2aba68a60eee86de9e04ad1f184fac9bf44b184;0xb759227e923d1e7ae25eec646ac9b7d7dfcb4bc6a25d4892ab66773a9f83ab2c;0x667bf29951c16f8c07975ce7a95f50337f3c00ab4d409259da97f73d74a5c0c;0x6f1c3d7f99d64906a055b91a0ede30ff69c8d02c0ee8a545986c9a791392db43;0x15f51e02dd3beb0e8ea3a54f526563cf2708d803e1c71bb4867f8b4db3a46c375;0x16d19ed2c125b3f03789f997be1efcce2d3f6dbdf1adee199ef45d1a6df72721;0x30e624d3af6c7a92aa845d31c06a23566b50eec72a25a9a6e1193dc48bc206b3;0x412e3d33e2acfdd4ee0282e70e6615e69342bf04e7877ef134e2c035960dc2eb;0x2e78a4ad547567a13c548cd6d9271b40575046a93dbe486426b1626527a765e8;0xe7152240e27d4c7a23240b62ec5fc791ec71c0002659febb22646bf0260e643;0x6ccbc4e06b36ef9499c203208137c8d8279f9c04d1ec01846a57268039b5835b;0x163ee99a443b65ee581e4c8dc0d7935fa818126f28915aaee23c20a612d3e5b7;0x3252995091c9a25c950fc12e75e9460a1281a693df7bb1621d48877d27514390;0x1595c2aa18053351f6ec819c3cdecbf59a2c3d822d1ec8c874bf780c0e928de19;0xb522480122e76889c540b2c543515518ebfa64d8dd6e2cd98c0b741a76e0c55;0xc325e24c0ab6763642fe560742b3a9dcad039888cb757f032a586a58a28725ed;0x41f62614782f70913951dd081d35d32cf0137956e4a1049b028e7a2b48549f15;0x366b13306ba508c721e6ec4f291e9608e387b0a3f40fcaaa80b658f1bd0528b1;0x106c34a917c26c4a6655b8731653c044996d636cddb62c3d0cdd7172e620a3be;0xc538b8eb6ed752f8bba4aa8313ffbda2db6bca6aa16c924ad0b952e28fc4662c;0x592d0808d0bd36db4300cf9798aa5d04603f0913e43fc5c25502ff782a02fe55;0x816a27c0d0b097d18d2914f8156c18005707350081305f9721c21e7050f2b7a;0x395351e66de2a5a321433390b860602b5a57f3a62f8b9e952abcc341baf8aa7b;0x1a478bc4ac37f42e0c48b14a9103adc7f28fd3c916ebf9b69e82ebeaa92624c;0x17838fc5bfd0f27feb1eab22c47bafc66f99832316c8697ca0e015c94f529de14;0x7e13f409cabd52878e6b5273bcb1fbdc1e85670a6e18efd23eb09a80552838f;0x28e7b0ef2c7d3b084a80ad804c33a7ac8971d24b716594483e6755046a50f2a9;0x152dd58d5b25fbc97eea6e9f97d2484d6a6ae6356bb0320029d41612fdafc213;0x54c8fdf06888d6d49b609bf89835a21284b5c1e537c1780fa1974dba1044b588;0x589d017ca261b5513d569b57f5673b572475e8fbdca90804def6bbc3eab4b49;0x1cda123e9e82bc753274529a1e0cf24ab36b547a3745519c4a614ae7ea6d893a;0x6b9b786808bf02f5b98f3175ac5f48cfa34f1dd0d61900327f550ab5d3c8eddf;0x210794bb4077539c0456d0f7672955c775974d1beb95e0e168a0bada31ec02df;0x37617aaddc06bb4795c3fec7a724866c2f6f3a0b78596f941e989d5bbc3e1ced;0x144f3c17b5054f46a71b5f52237457d88de47ff07b4461773bf621c2a04b931e;0x4b759d0455bac8546f849b0c0b2cd2b38193dd6128f879170f5f96c24a84814b;0x2bb755c1422a06ef33890aba9aed7254b18c594a68b56df7e27638aff1bb9cb9;0x15a7c09379544067c1a3cd5c0a23430086bff1e1990437239dd2360e3185de113;0x623d1b934824f863fe4aa25de49b85158ebccdaaa8dcf1dd921b63765df8874;0x17ddaf629bfe3df54c4a1842e61428e4f59b6ae02e2d7a0a7d6d0c2db267211;0x6ed2b6973cb4dbd25bc3ea0f8bcf42815c5e312f72ef1d9a5a0421ec336ce0f0;0x501a2bb3e9eae409ab2eb0e27931a12615f4b485c2c2aff6dc429d1b464c509a;0x62f8493b6638b9020f7817584ad4aea20d01604ed3d7b4b5ae9c66207c5e1b10;0x5145a0862148440334af534d7be6c54b5ff741a71b870c4dc3f13edb269bf87e;0x4eecf3fa64b495a4eab41c7b8b050699057f426ffff2d678f912d37433f2f37a;0xdc74498820f2641d1a5fffb59d373fa994eab01d33497506bf8299417390e8;0x131616a2b360cb72184ff6638abdf492a098cc322c3897502f48eff0c7339ea2;0x619f2bec6e47fe811b7ff7f497d0692c2ff5bd5bfba6fa1f79981b7d91f2fe19;0xbad3c39880d36c9a9cb587881b56b263fa1742b67ba3d8caec62d16fbd2a383;0xbc8b35804e3f83411f6443c00417f7f8e374057dd8a14959f0ad7a77b8c222;0x18ef36d334bcb5f6b0900a5171897b3a256b3d05b3867a82c6216d7aee98dd63a;0x53e77fbe014fbdae14ca5a5f98a3902a492884dcb25f5510e504fe2935111b1a;0x1098c025ecfa8f551e44134141f1fa3b9a384c4dd6d76f3d0c64950e3094dd326;0x139492424789642b01fe5007e60eb6195d0b0c5bcb3c00d6f660fdafa297c026;0x1c3941ad936c992278de0cf94f87bc7354498b67e93d20cfbb1e1cd20441bb133;0x1a91ecaae3fc808db7de1d6007df484b72febe5ed889ee2743aed87da655c1278;0x142ded7536a56a2895039fb92d266905420d3b7d16bbf8e37be3b3614b6f42918;0x7ed419fe518c5a25c7fd6c03626ce037d8a4bb09ca83321621d37db869c5288b;0x2c0c87b4a5f49e8acec2e01ab2d0e726aacf9488563954aab11c635ab7dec1aa;0x15d45902837dbffe397fb2873aaba829d47f1034d5d0f5cfc0601d00d808a8625;0x143a867b7900b39d7eb64ae01574f41d279f8991191cd0e175ebb9c1bbebdf2e7;0xf66dc7d0e79e3c0cbe1704b3a8f44cf531bfd62de38a3bc2b01bc26fadf161c;0x16b67d7e5767459b6ea702b3ac45f7424163d2ab1b6919111fccd23c0bf904ef8;0x3fc89580dfe11311b1140b5f8e0fc192e1dfef93dc446bdcbec581302a1913;0x67399359e828f0e4e3aa764040a78d6eb65f3ba221f54e7a8b41d5c1a9f7b918;0xf899c0a5523bbfdb153a24d54355b7650a0ac56ac15abdf3281d9a7f85d9608;0x5ba462991c729b06255b1cbb357fce02b73145df724787dc6c5f6e9240f74ce8;0x10577389ebf3e4903f3bc32aa9f09e781cd2517bc65327d777e6aa91e1b5689bc;0x1902cfed6a6041305ec26950fd4b17726bac9fde2431f2773198d6b2876ab58c0;0x24b771c7b3683b769ad252e924e4d07c48c842ced21e6783bbb9cc28b1d57b2b;0x2203490b0427265c0ddeacea7ba45df75fbb691372196808cd2cbe24736f5b47;0x11cecba586d77c4a67327a9455339ecbb4a1813f38c83fc1f47e729455223e3ea;0x791df8e7a35d10a7dbafd76fe7360aa2f93aa8e935af9af407c90c55f294308;0x15a196df6ed4fedecda31580d2435ce83c2fc7beee362caf0f764b6d8f8bf670;0x1120b569cc39b199707b56f2c6bcabeda5b647860160aa49def2ba0db1bd7909;0x132da74f9df4fead6187604b6938245b90dd390ace1da4efde1b2569dab52c13;0xce000402bee724138f67c9cee59b3ae2a5abd75d6a53e91b5b594c63eeaf07c3;0x48faf6f6152d69878ef327463c319ccc04c66288b37236fb13c2f7414454d;0x90c38200b4bb48995a960c8d30bbc0e9a858b523588c3639a477ca4ff7d0b300;0x299021cd8fbe090fe151caa1aeffe993d9b467722f6f609e329b2fc3c35e63b7;0x47e977669222f9c6a464a93bcaa6f4a157249af2540acb00d5ac9cb38b1f99a8;0x31d7c6b146e4516aeca08ba4437a4400dbb5dd0a180bc28eda17867959f1001;0x737489d47b7e1b916b23c01313200f596098731ba30b680d3467003048bd7944;0x3239db570219ecea2e73763f14f5719f01e6311aea1e0d90fd2c31a9aa003d3f;0x272968286308bd2618ae253ad86b05f1b64e1880a55e55fa319e33caa093a0e2;0x10e52d2b91df9c89a49d6ca460a17f25ab03a5f730b950591c5a039711b605d18;0xf8ec5ec1273ddaee046aad353bd6e49ad951d785ad9582cb8209bfe7fa8b16e5;0x16f704947f423ea40f920a903c3122e3580635f4a2d36f488610a1095266728fd;0xc5a40a47acb9cf1de234492b936c4ed7a85fc00f28607d0ace6366bdcf7b2741;0x16a7b94a54e3622cdb7113305a4957b4e5308059f318c3ca7f5f201b412ec87e7;0xac5066af03b1964fbbb027e6a98f20671c32855de7dbbdf841c5d2a98f610058;0x444d39e186502a6f002167521bbed339318f3d9e60381bfc80bdbf3493f991b3;0x129aec9c7b60b25f1381580475597d81aee3c16ebea66f33c7e3abd7150dc1cca;0x16bb5bf7d57c7b2891c7ea64c760fde23fae7ea8310794e2fdd86c8cd25d137a9;0x1a132d466468c2b429a631e56a0ba7b76a07da7ff9a195101447447f8f31542ad;0x67b60f610a7cd34905b9de7646573f1c4e07c30f7c4abf2c4f3de9c413e77f;0x173dd7961c90ae5a5628246e91a2f7decd6aa6de3797109be8ca4a98c4acf4c26;0x1c9af2b41b24622707f2a1539777c6c0cdb6c42edda599f0b70f13debe0d907e8;0x1497c8113e0c458e2157f3904277db230704be95f451041724a71204abb9fcf7;0xa85c97d9938badcb09d113881e4fc7427ea6bcfeae60ee2b44aa6d7feb04e415;0x790f2e82a82194e02dfaff25334f2289255a553c3788a2460a2b222b682e1;0x2971c225f110fc0f0505c7f0f2f2f1ee398271c320e65e8f8bd624ec7175c7aa;0x118949697910d95481bdc937c541aa79c5b1bf51614fe0cc6b67d0c895771c8ce;0x103a7aa68e053221ebf4b763af34069539695a48cb516d103e870a4734e5c4969;0x16ab14c558b2f97c0b1d5dda765aaf5162d32373e9d9fccaf52749754f53b3cf4;0x4337936d59baefcc8b9eea7f0e15fd7528744fbdfbc25a1e143041f6b1af176b;0x15314def3c1e2443547e40ef0c4ca7ea797857af90e0ecf8d607bb2aef0bb8da4;0x27c39c627234e0c6b303151586512d288f4379fac44c102e6cc8fc158b14c8aa;0xc35e47521124c6a8413ee95fc265766256597a0d8c90e0cc8ca5c4537512b7a;0x1b4ee016a0b96bb57070924fbbc596ba537b4a097d75290f1ed2e410495def3f;0xb4ae2141baacc1dde61df942eb36e3c3c366434b94e06a92ba977247372d08;0x1804b223e03d268b9a4c72bf8f92eb10cee55029190665e11eea37dbd9cd007;0x27b99bf92190fddc3fa7e35e5d366e4c93f708c7e12efe692bc2ab8ce407f55f;0x137d54a44d6a9a9d2d82b904e6b26e0a9efa89d27b25e61811e82e705a394108;0x1df8c58ee24e5fc645be3513f3c10c2d5e9c9e24d89fc35abd095a4591de3663;0x4be418fe59b4b18dd02f605c47358e8c990d97a724bea6e5e29bb37861b0a8;0xfccfcd6eae887e4308426fc5d49dbbd56610a24712017228343d0c1080c2098;0xc99e2902204e1fc79804c22d6fec4abe19614906e496aa5baddc7be99292582;0x536823e747352b0666deb3d0651df806481ec099babf909a645b70c9b778d56;0x3717d56fe72445d319f6851e0226940e5d3d76e7dfde841e67470c6b7dc2c9d8;0x26f3fdc0dd0d2a0af7995779fbe0e25e7446e72ea68ea97a8c728a175e45ecff;0x3e7e084fc62525f4186518dbbd0387413133aae0b10835d3e3b31061cb56a1cf;0x304f11d50f8077f5f68c898814ec4441adb53980e9360ec84a9fd4168584da0c;0x158b385c4ad25f81371f85e9621a1a9028534479ed47bb7bd5eca1bca07808bb;0x170032417988598ee9fb79cb3d876242a3033a7674a140730c7cdc6da3b88fdb;0x5332debd92e4e879039297e8b40ff5d8394f5e5830f5d9ea7a322c63f7aa1f66;0x4c9a0799fa6550973dd432257682aa208188350c313b8cb8fc249da86d809697;0x5e15ae490d3fab5f8af05c82c95f571a82195f1b56cbf4447d5467e0c0464017;0x5fa13a3a47ef0de21c4b82c6b8b522cc1c7af72b51abef653698ab04902251ca;0x11a534151a433b5a7baa85a6d6cc58484bd857bd5430178d6d7c3e4d4eb3fd2a;0x12b4c953d67afb9fb13c8807aa3a8418232d37c8f8233b62803e995d71ee8fab;0x4427b8c80e75c59e372e8fcd07efacaaf3e2ca8e9d4a45618b70e48213370b6;0x169fd9aa90c902fd72a47c449f470c86336ce0fe615ae3c1954362ec1a5f1e52;0x690556d44fd73497d6a7493fac8022ec04e99122f39ef4c4c658e110adb4e08e;0x6b20ba7895ff3c0c1a9d5d7ed8c072c21d3f22d8eca4dba3e0379adb746a8df0;0x3e6bbf7373cbb53747b6642a0b671bd9618adb23cc6c143674f76f78158fac62;0x32e37b372393396b537da44da4044f0e0cc5dd3f86147801490a36f7818c843;0x73eda753299d7d4718963e6b1d9bce6427fd47ff13fa0000fffe000000000001;0x73eda753299d7d483339d80809a1d80553bda402fffe5bfefffffffeffffffff;0x0;0x0;0x0;0x0]].
Lemma prime_order : prime 52435875175126190479447740508185965837690552500527637822603658699938581184513.
Proof.
  apply pocklington with (ws := ws_prime_order).
  - unfold ws_prime_order; repeat (apply Forall_cons || apply Forall_nil); unfold wprime; cbn [pw_q]; [exact prime_2 | exact prime_906349 | exact prime_254760293].
  - vm_compute; reflexivity.
Qed.
