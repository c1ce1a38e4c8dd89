(** The power 2^((p-7)/12) mod p, from which the sextic and quadratic character of 2 and of xi = 1+u follow
    (generated: exponent bits and quotient hints for [powh]). *)
From Coq Require Import ZArith List.
From Verif Require Import NumTheory SpecField.
Import ListNotations.
Local Open Scope Z_scope.
Definition e12 : Z := 0x22ac17e2f75533786424df9daf0f911f309f0f5bef5c18ff344118d69e41483028e55553971aaaaa4d53ffffffff8e3.
Lemma e12_ok : modulus = 12 * e12 + 7. Proof. reflexivity. Qed.
Definition two_e12 : Z := 0x1904d3bf02bb0667c231beb4202c0d1f0fd603fd3cbd5f4f7b2443d784bab9c4f67ea53d63e7813d8d0775ed92235fb8.
Definition bits_e12 : list bool :=
 [true;false;false;false;true;false;true;false;true;false;true;true;false;false;false;false;false;true;false;true;true;true;true;true;true;false;false;false;true;false;true;true;true;true;false;true;true;true;false;true;false;true;false;true;false;true;false;false;true;true;false;false;true;true;false;true;true;true;true;false;false;false;false;true;true;false;false;true;false;false;false;false;true;false;false;true;false;false;true;true;false;true;true;true;true;true;true;false;false;true;true;true;false;true;true;false;true;false;true;true;true;true;false;false;false;false;true;true;true;true;true;false;false;true;false;false;false;true;false;false;false;true;true;true;true;true;false;false;true;true;false;false;false;false;true;false;false;true;true;true;true;true;false;false;false;false;true;true;true;true;false;true;false;true;true;false;true;true;true;true;true;false;true;true;true;true;false;true;false;true;true;true;false;false;false;false;false;true;true;false;false;false;true;true;true;true;true;true;true;true;false;false;true;true;false;true;false;false;false;true;false;false;false;false;false;true;false;false;false;true;true;false;false;false;true;true;false;true;false;true;true;false;true;false;false;true;true;true;true;false;false;true;false;false;false;false;false;true;false;true;false;false;true;false;false;false;false;false;true;true;false;false;false;false;false;false;true;false;true;false;false;false;true;true;true;false;false;true;false;true;false;true;false;true;false;true;false;true;false;true;false;true;false;false;true;true;true;false;false;true;false;true;true;true;false;false;false;true;true;false;true;false;true;false;true;false;true;false;true;false;true;false;true;false;true;false;true;false;false;true;false;false;true;true;false;true;false;true;false;true;false;false;true;true;true;true;true;true;true;true;true;true;true;true;true;true;true;true;true;true;true;true;true;true;true;true;true;true;true;true;true;true;true;true;true;true;true;false;false;false;true;true;true;false;false;false;true;true].
Definition qs_e12 : list Z :=
 [0x0;0x0;0x0;0x0;0x0;0x0;0x0;0x0;0x0;0x2760d74bcf32791738a0406c331e9ae8a46e09d07fda;0x6c5c417e0a66ae72c2e230211c3866a8cf23986dbc3abe28cb146342545f9701449100afb989aac89a6cefd7fa9b454;0x227d16516e024707e93256314c9112cf6d55d7e24bb6dffdbd6210d9bd56afb6bbcfb1b1c809301c58e6bcecaf7772aa;0x42944a0ab5d0162801670819f37002e3aee6e134b9c71169c1210d08f35c481d170f2a05d0cef2c35831f4b3d9e28d2d;0x757ba8dbd50247c47160f8806904f554b19b469c33e45a133fb543eb3d86e12f97e56db64ffab334c37624ebdc071a9;0x113d925e7598a8849e85f3364e33acc0ebf473ba225a1106eb50e25ec78917433dfa7687752ecaebf9089788a8c65e62;0x9befb130358d38f3e60c1d9eb97436e05c70603f00a1c8368df09def6bfaa04820c7293da25480c622a9ac8ec9fe2d5;0xffd43c3a8da7f5c6a581772d6b66f44c7b003e47409a8b59279c51904cc29c8829308a51e6ffe7897596d4d9d06bc64;0x1a52f299bcf841464967459c9a85a49f640ad61a13e4775991be900ffa645963805db3d2cc0f93ca18c193384ccc783;0x2f9202382233e4a02f281e4021e4dfd8e76e0a107c600b8dc61fe14692924ee2e059c4a3ec975705ca31ef836948224d;0x591f26729dacf8dde7f6b4ac7a86c7dff98761f5961f8be57f9be32b00376913bd4ee6d65c2415183f1b2f2df7f58;0x1af31d4d3bd9f8d5a1680a2993cf0ef8eb0e942e37178fd05430b83ca82ad3177276f6b6807cfb91296686587ce85bfe;0x2623d33750415159aac81f7d9452ec9a96060be1ef45e8d5cbe81156f80e934098baf551d84e6d4307739a28aed85536;0x5b869c326d0a87a8598359cd598142fda6a8974e5f58c742fbc9dffa789547ebfc0083dd5c0247ccab35c0d018f4acd3;0x9017c92c27c9dec6f64d5d8c813efc31ce9fc8474bb01418e10be18b7a72e0c2604eab41ff67b29b4999114abb47a7;0x612807455fa6b9a0610c9f4a8f3f6340659c00148b581c5ee04cae84725ba82c28b60b13c616f7258a6939ddc95de905;0x20034c0aac665337b3ea942dad4c96542ffa57657fbe16757979ce774738f75b69ed19998369533bfc338a326c964b23;0xd661e7b1948316162969a605ab3dbdb5d1227e3c8d696fd35ae1a7db28b6457fc9e8274dfc50a59e2f15971ccd69f4;0x1342f3f7dc99ce0e718899ee793340112c99ced60e4ff39afe383c3799d7d013cbd499eed1b580c8f37b2c62910a631b;0xac48ef6ff5a368149f96c51feb397dd27a9088debf35221299d6f72be48dbea2c0bc2eac4fc2e2b32f0c8cf19100a67;0x5e0e88a436a9d076e7d101ee1111494458b592ba4d1b29133fc70c168c41848d8b5921b47e71173fcb97572fe4c5a695;0xe1769ed610e0d0b639584a91e946dbe073fd2df37fedef30bfb45e05f38c86c8d741f7bf927c6ad4a703ac955d3e20;0x5a1745ebb912963a1720dc0d208ac5555f6a76eb0a54987868b7b9cc36df093680b72c4d74ffd5ccf2b0ff627d16d167;0x518b40a4e3fc4c8964771720ded473075f23780433cc49eaa01c9d51d50304aa1a11c5b40303a33dc1e7b39fd49ed615;0xf469da91410dcf782ae23fef7aabfc950c083a35473c677afced1d5574649dc66c83136ea20c1bb0bd1bfb8904897ec;0x1c052c354c06b015fc4fa4cfef008bae2c31137c77953cd86eb3305023fea144be158fd267b23fc6e9ffc908bf351c3a;0x7f70f7227bbc7ae8c6c9221555362cf9c277dcef46b4aac800d2b9d2f54f7bc9e1795de5dce0351389856c638bb4b7;0x4c2327f069f76aec6824f03d99840f1b0888f9ae9dbf3b20d086b2bbf333a9225ada703d34ff6b695d6319541ee37abe;0x35692aad618b589b5eaa0399c19c9700f09cbc503db291f9803ad79ffe4d4a5c5da980bd30ee849aa85df6239c310bfe;0x3ae3e923928aea4030fd3d3910ca6f9c8436462105efcadcece2b3fc95df9547073daf1bdf0b006150b9be8b3c46fbf3;0x499ce3361b5f5441cbfa72a17e4fe12b2bd7193bf07e2eb6422b35317bf1d509ed835182dd1f2745a2641401fb7833;0x4affad24be2d2712015248837c674150f5c6cc17eca5556aa95f4f4d1fe7dfa07784f7e7322ba5a990a5a7ebd0506a;0xce725afe4faa31d6b93afaff8b4c3fe9552e1f07bfec1f481b8e7131380bb8b6ec99433f620890822df9961269b0e;0x2d9b4761b27a88d2afa9986b30e3b772052cdb36dc5b5f73736530961bef27dc01cd990928f49a0c9fab170ab76c5200;0x684800ec9afcc7c61178cd43560e0b21b650898db25419297996a45fbf55365fb7bed4a7ba92b5d7c5e20be83a28416;0x7b433cf459f246de7ccab605be9d527e37d9e5e70fdd6387d96bd7db0025c91089e1d6c1f3a513da602f98facb0d66f;0x15e122657abe2ab5c7617f49a3a7905af396d43ae33cd798241afe25cb546d51a3ffdebd02164657f44d5be98fd6da30;0x11fc588541a4496961d79b8f5a8026497e1da81e6f5eb9967c238780fe57fb53e5404391bf0eb9d5de20492a2da44b2f;0x15b9b6c6caa37ef2c5540171cde9b19313d6bfce5f1182e9f28984d60a3b375bcdde5f28335f64b14bc4bed6a7e4f9b8;0x14364cbf348b4813579489288b05e5792d00510e60c562d76a97ac3c352b45515b43592c12cfaa532b74adc33b1d1c80;0x6479bf8dee81df298ae6dd3065f446092dd5d67fcb26b018627c24d8b76047e8c1aa619c5172fd5dce594b3fa376b467;0x3ef43c6ce93caa3970adf137a839ee68251ac84c0e56333626dafe442ee6cf13fd815cff979bd896fe042b6bc3c571;0xea5fa7de581f8b7abaa98835d0ac38f895e450ece604ac0f0e33e53514df2fd7b4600939e9f98d8205d2362bbf41556;0x3fbb82f77f119a18c1846048ccfe7a7b0dd85e5903e266798a9263f337315b1d34a55c949a1721d821674b6b8cb8c;0x301987979248ef5bf048891a0f0239d5768c35904139832008e4b2b13f9ec583646ca5a9f68275bee7950dffe566df5;0x4683a34e226d92d5489c8cdf20c1e7c9d6fae11a028a26453acd5f0a6f3bf5cf005b1353f0594397f7b90cbe1516089d;0x2acfd11936e70e3cae5e8e31460a51ed783b206ba215552b7c8ac7b96d8056fe0c7ed4c5c16a86511c9772bf9df45d;0x209361ec5435d553aeb6b24663c9bc91adfbd6ee980e956b3dbb7868b4c00ff50b0ac0416b83323a553cc44197ee1a8b;0x42e4c801ee0666bdde345123a6fa37bc5294fc5a55b8de7f2856a6303fb08ade0ab39e0dab982a19c0f7a839be7eced;0x24281d29c7d211915a53dd81de3531ca04afc6ad7a6dcb276d495f5e1551c442ccd6a269150627ca51fcebf5139b6b64;0x5e0a64e8ae31fdc47c3b91b1d75cfb5b44385b08595c1169af5296da97c75d6bab7a33cf3bd965169f2184526f604bac;0x6062d017bcd77a1b81b5782236dd58b267ed83dd483d3935931ee958841b3ffbe7066a2afb11bebe287017e4a01c37e;0xa938260c3604acc4dbb21b3f2d91bc0a2a2a2e2f295534000ce9b12ce8a4b57d50bd9c2cf7bc9c1e4d13a0d92acebc5;0xc7393a7b14f82c9987cf488cede441da3da7982f42af864c9f93d0f567188efa8a273710f81d05f81918d8cd41661a;0x72cfbd970c801170f6808895ffb3d2dd6717a583b6ca21b1fcd216c6aa4906c5406bb4f615cfe7d24fb0f486a4e8edb;0x24f1c8c99e1f1f5ea021d58e5d103734c290e293c21b5f99bbec803cf92c20ea740ffb3d4269023ba521be701b6d866;0x8fdae774e74d956a5337ff69233ca9c2391feb02092b891ee13f6d413ba739c2e1031434fd0748523a91f6e7fbe9d;0x1018c163afa7c812bd51a311f46f5c2d2d9fc7d0e8d0ad88f9c85b0cd0d2b77af73792515ef3454dd2ee3961d167ac8;0x13dc8cd5063ddb611ee417b415c4423ea751cf2d921e6758835d1638ef509b1d920b72443cfe33de0710b993b1044fe0;0x2d48ec4e64d685cd00419dc036fec06f05fd75d89ba51aa891b216a7a8f418d62cbf8faf804b4d552aef297e52681084;0x15e3dfbbcd88c1a557050c417f1da3a13723b81268915df83aae061d9b333c2466386095e467d311088a9bb06e9d3b63;0x17d6d5b2a635f4d5f6da7ee757597a71954f12e7b9b8f5674fd95f851d61e463b7f1562d1fd16041278fc1043d6c49bf;0xd40646be958ac723b2b800b4c0b2c3c1b27c709ad20a0439f8a2b03f63ec88120ac5625d643d73720cb619e036f78a9;0x135fe7712873092a863ff23fcc90dd18d8c000ffc0c65e41c529b90dfa94d4632553c41b38f9cc8ee1d17736828b443;0x66b81e520c0300b6441586ec1facd9b48f7ba3972f0232e2e9fb84433f6eb879f7201ce069e7c44d2da861ba782e40e7;0xfc421f1deeae916a67fc474b74486e7601ebaab6f95a7ebbd6b54d5ab09f832155896ddfe6ee5baa78f05817fca87d5;0x657aa8101cf88b97c63ede8025cc5236462b7e737804d392a5d149e289552025a4345463af55c960cdc5da841812eb;0x43f918c22ce37cd03197149c193160d43e41741466cdd73afa04b39b343db4081c8cf36032a25d9e65827f4dbc3bab6c;0x2023926641ce54a1fdbb50eee78c9e5ba7c1a0c0ebbc3e3a97100ba1a12daa6157dcd0e47e0d31436762c7e13e463e;0x17205bd84574389e849cf98ad624768d6601fdde3f9ee362d9eaaf6936b804b57ef1d4ba21e869d68845bc973f12723f;0x624c4859365300ced9944c9af628ae56d6cdeea3734ad3664738babfbde5d3c72e5ccd169a233cdf09c91bb28e8ad5f9;0x1bc7c819a8f1b383d0b099f66c09c2f1fcf11c630a2f0b5f8d64149eeb4ca862745fdef1f2f321ab488a1850c78c0393;0x1188d040c06dd2a65f2d1f8a884a142dc8ba700a4b885275312a60cb47027fc851a6d213f93902853fa1b3ef943ee4bb;0x112a90fc2f7414937935726f3c0579e0624d5a4009d4fbc8cb0f774265da6667fa2bd9964bc5100277b3b047ef6e761f;0xa32d23da3c80a98ecc72b6e401a01ed599398e743ade2b9fecffc0a4b60647874e291d8f7ac49b4270aef4a45769f;0x15da424569a7d2b165756e83f0cc6787ddd4ada08d683b004e2ff0a5ac695f3c979f0316424e5ae8d0281f934052bd9c;0x27f0ba4d94096c0db820e1817309d16cd4173cf631b4b549aca21672b5b8c408efc4927fd5a333048afeed56f5b4db8e;0x2bb765a4e8f381266cefd1211101204a23aadbc0f5036e11b4fc123199160be9932d91855492855dfac9af953d6fab7d;0x528cc97736dc9991e8cd5f8447d3f580ec9c25c1233d69d0e59010ba38b6dea187d57d0ab04735c32f4b688dba21506e;0x8dfefef39b22aff2cdfb593084cf13346fadcd79f9fdc4bd3740c09181db14f3f562955b9cc8bedff08ff11b6d1e27;0xcc505aa2418e8a61e9802eacd6858e75c9f1ca6d713ad1a1d9c740d81fcc7e896f6bb8d1dfead17b539b9f74422a45b;0x2ed594f785f34957b1db9d7be38074e72300102b9995cf40d3d88ee999f9e8af4461eed8feca86790773b44c8a668360;0x445029521d3eb997109a0dc8aed1c5a5d2e485bae8f260f42d15794e6de3c1a479da25bc27b319642aae0248440bea8e;0x48c2844eeed8835beffcca4644749e7b210221190149eef3ab0e0095704c88744f73cfc3e372ad8d941175be9fe3f61;0xf9ce7e3ef81c192e90aba14cd7160ffad8b1aad8a3c40acb7d381b5db1370552e562ff192960424b2d211ae317b5965;0x3486f235444f3f14c3ba6497636cb34cff0f47ed4f0cb25460899f07fdb271f0f7492208888548ca1858c3a7cf2fe61b;0x49a242a38a67e8f3b13c5c4580e9a2578be7ab8a7adef85b4e58feaeb4c128d2ba4b9f88607381924a73bceb454919c;0xa7a7d16e17020b4df87a00ad8d3ee3741c69d3eda7f48c8558e175d8ece5a65585423cd5d0db23d0d30f6a4fe8cb454;0x34496693a51f79e1d1a0e46f6bf38e15c8979890fe1b4da6ce9f1d8882b24a40b148fad6a01bed09a46aec1eb32b8c7b;0x2dc0296d8d5cd96514ee9d4c93b2f99cb69f9733c3360b2c692a8610857f0eb896aa262da6075c70ddff8bfe6bf3dd3;0x95d0067599d7a3dc94405293da89d5f7db99f70154ecd14ec404b960f45fff8836a6a4124c5f412acd9ad85416d032;0x3078d79786e6fb1fcec03793984f1d4ca78f53eb4895c0267db71879af43207a333e5bd75489036f8820538e027b85d5;0x11c0377b4c7e184e29ad488edbcac5531d7d752dcd9c2352c0099b0dfecb58470e808a2e914edc460986df9c797e6872;0x174e851c62e27dec0ef681bf0edcd62febb40c4cfda3b91dcab6d357c34f2810762fc56f6045e774de05924bcb332869;0x11f12f34cf99b682a3bdc6a3e0300afae638e0ddb2eb6e09032e44c85d5a31cb7a87edb50a8202625a2882b9ba7bdacb;0x8991ce041d4412b71e5faff57e1a760b567bda1c22499bc5b2247569bb3954156e3fdf13083710e494b9ab0f2fc7e10;0xc6301f8e613180fae1f2267a507b3229b94d9933b429d923568e1bbab6b88bde753d7c8399af55e22f82adeb1b8496;0x302796b6ec8188f5a7dc048070427bba47dd18211d5b59e9ce516ff615646664b8b03b8ffc02c9134816b85b1ed0170;0x1a05637fc7a11633629e55ebdadce914e6dc77475f5e7e4712ee76a1afd6c16f0ba89e912056f73244149c81ee88905e;0x31c80deeb5a4601dbe223ee8f3a703ad577b9060c5752064a04ca59af08eadad025154ac6fd549b4182ca1b81e7e2946;0x3829ab03383f6df3a941310e1d2741aefda1085d1561e996e2016b9b681318a86c08c8d6fbfac021b96bf84dfb22df4b;0x584d074561637f37831e92c5f9dab970b43dfd449858be622489b8f72f6618483637c3e75a61d6f484ec3d51264219ca;0x3efc165fd4c5a65a938c4796ea88a0567ef94d3d9a088c80ab611de3990a5e4d8db5e6a0935df5a93d40e8c48a79c47d;0x6f51c7a3dd11c07fbbb43850fc9be60c932235248e0dcfa08b2dcb3f02b7b2d4c5d62974dc9708a3667e301c83b8b16;0x11a8708a16247b067b3d550109781d8572c0ccc757ed8cceae3e39f8780b1e325981f9d81131a78fed226154c0681975;0x32f4f1b4ac36c084c504c7c3e829e0b9b33a9a0c8383d78d8d6aec88a68e66b0890461c87c29c253991b70f4bd076be;0xd9bacd789d80f03e67716ccee8c2322533a818cade33c3841c0d8b515f3da752f790960d4b77d116ca02d8c0edcbd73;0x181a81256f4c4571ba5ae8523b5dca90984ec33b882180efa9f327540a9f923441a2942e333948d8ae2fc2c2d948430a;0x16e997d8ea8d8b06ddb1964c47119dd54766c9e29bb70e80b20b2af38ddac7cd58fcc6e50132eff6b85cb16c111d000d;0xa8d6667ae83ae0f2d82fec0e4f568cf50bcd914a47627a6f9b6d6f7366231f67bf65c3cea6c480d3dbee772d5462ce1;0x231bc1c8f2a85fe09e209dbd4b6b5a3dacf98983acd32c72d67e6b0708bea39f879d5bd3d5379a89c6c77f6e06fe42e;0xba5ccebe6bca84e62122eb699bdf429cf136c60a1778c5b017b42a37a12ad3d96a5f0d6a231ee834ae057d8199a54;0x13e12cd7f5bfc9b4d9c13ae20f8570f4c8431d31fcc36c25e7ac0ca809311426a83923ef4b3ca2e97678f3008f2c5585;0x16893e17392438f699c9207a91b7e3c65570f6c66f495484258f41246374bda72d97260faffef1bf86bdb221514eb449;0x89d03edeed0e596e3ff9b09058cbc50193bf8bf3294c0ece571299806771ec5491f6dd16dc9e1da86b78990bc1767f2;0x1e7144d10f910e83ae2aaeb056f54865a3c908649adcf45b391e0fd8d9923dcd17f8c586ac18479433d7fd3a81211f9c;0x11c158b0e3f777a94a0b29de851ddfa57d3d58e599b53cbd087f858e5a9ae0e6a3c562f3aa7ee9729027af04be5a2dac;0x18e8c8fb99d38ff10b4d81ffc70f42953ac3203cf9f1073cee15ed04d87d746a1a7b3a844762d8f42221cf1c75a60e1;0x19a805f2f0d2485311a61fb833fcd74d4323bcde4a5af58d959026367160358a7aa65364d6023142195fc8d833238f0;0x4518157643d2876dd659e8d030ee634deb7788614890fb799085e40a40ebe64f9ce693196e63bad005e5a69ee2c1;0x45a4a500118536944e6cdd557d34e431de85d8c7dc10cfa3ef6c8e4e1de234d59f155517b61eaa00253216fbd104e491;0x2d599c4526a180c66fdd287bce15fa8f79f9d8446854b192a1edbfeb64f93c49225a86462d09852f5c0940b238a1a6ed;0x29bfbd524208722331cf9229339250cb9b4ec42fc8cd45571d05a33242f393c222f30c29b1fc084733f488cc38668f1;0xcdd42cee5ded3ba4aa7968775a39a9b71c744789ce3438b876a7faac3b26818417dc49e53b0434e774eef366a6da0f1;0x18c6c10cadd9268abc7650ad9bc5877bc06e81820e492434ca28aa6dd0ac4eeea619302ea49dc934a80be63323d214ed;0x184a9961ceca8524ebed2b9a46f244f5269e5a58877b47f616b9b43d968a75f46a7fe8363da85588615f1684f1638fd3;0x65d8f047733bfd1eda5a139e525c2024436323d4b46c63938846e82123817935c4de4066a5fcefcf7fb835475faf613f;0xd33cfb487ce8320bcc30d520cac58239bdaba9579284dd7cd05874eacbd9468e5e9ebc4e975cfbb1dded604c4116c35;0x9e5b9f1d19d2c385bbe9ad7772f2fafb1dc9fadd40061e5a056c673dcbce8bd20d6e33ab20ead6b0dbd06c414546a2a;0x7f588baf1ea5f44e2c232e3275cd29d17a46e5f9ad831711a7eb425faaedd6e943ad2ff087367837913ffe0bd35;0x3db7e812e8a60b70258f793da8ae77d69fe25f86e0c46bf3c1b599a0158172829ee003b621b4840e6876dae5cc081559;0x311a49314a5f3f37b02c74fa0a75a75959e895dbbc5ea94855d7d5231d19fdb16e3288342c5295aaed039b195d11884;0xc0b37f7b1491579b68e008a5499691ac0439c9b77ad095d71aa9a76da1a1cae3b2f1b1ee1e1eb9ab1b9a93c8655040f;0x4a857b256b348514f55b3fe16f9ab2cb3e46faf9d240f22870f1d2fe13daa63e9b2df874346ed3fb587f6a8a118c8378;0x295cebb93ceb32d41ccabace75647289566e2e668a87f2084566e48171c91fe5ad64c23129ce18c7d123a4865267b7b;0x14b98afbcdc886a4f8d4d762b72a4ca3a778fbd1e6cdb51d1904b7797e64f33a424c5a3b64bd0261f3b27285c28296a9;0x109f79b9145e6acc9212c4948fa33e37e241385efa64f4162be4a7317850f989ef8b055ecae87be340c2e7b1cdbdea20;0x9aae4f27596ca761cf20a8a732eca5702425bb77a7d6555028ee29f91293bf29c02630568967e4bd81a54e99e1c6d;0x116fc1413d880466dfc8ee6e0ea0f43fc2234a507786a3e9a295f84c9be09ca88af4f228a60520a27c67c455b49e08a9;0xbfa847a52df68d0c0894e974951cef15dcf23f4b479737f32ccfd8194b01e8df781c254502153ddce276f5b4f5769dd;0x9e1cc3775a85a9160c811b61ffae7f77271f7746583571ec9a0c61e084f960363948749457f997743e6a34ff65000a4;0x69d19d121147bd321efb098f39d7e6a85c32358cfa5972bd17003f47ebe3a3edbcc4dec12acc455925931a3ae71c2d9;0x115cbd5a6afd80b36462cb5f4ccd0fe395446dc9683e614efa8735b6e610cfe70d46773a1f5a3b14d38769c30ef99b09;0x11673da7f3c897d5aff336e734dc3e11976ff5d11bf8ba12156bbf850443975576923670312fbc870b5570c85617f5c0;0x10f436fede83d0cec66da18381bd751830096119d16ff35f6224d806e5641b858d7d59355ab4bf9a56ad3c19b5f19edd;0x335540e494d9238b5fbf18e2e68b4d2bfd3b7f36afc00d8fec514c901f58650310122d60df4dcd8365ab2848f03a2d4;0x2bb5416226426ca9a099d3aa444df3a5c114600f66e17340d4de9fe78bf345bd84b92790c8c4f2974ea82cc5e5028aa5;0x9a19f2151c31d872f24773101e6880ff43ad88550e7bc0fc60f531aa8b457037a39abc4a088c50d6a53e5f043725ba4;0x30ac6b517dc059673502bb2657494a6fa0f56d29cd16681ff0ff486d5999ad144fe281cdf9c8428c95ed8309cbb048;0x44d48014d316271e34547b660c69f8a5b4063e00d9ae09ff67b314add493489d75b83faa5e1966eb1947b162186ccea5;0x164e8fc802e27f5ecc1c643f0326e82f0f16ff315433cb12ff3cbc9c9cc2ec2033a219ae5e24ce3939e8b26f9b7bd10a;0x60f7f1b805dfdbe496b124044363c5bfc8118687d2f72f2b70a0bffaba5448041729eee76b5eb1d48d9b91b168b53d81;0x29d93e30757b8d26c4fc6fbe1621bace8a43ff86ccf87a82d8eccedcafb0463e7f5f439e4f4b0d8706fe8ff3d821ddfc;0x18d4ce3a657ff046c83157727d0e8c41a70671fa99775894b1162bd3dc8d816145b84bfeba54ea5c38cec70ca3e88a4;0x3c5f1bb9358e5206bf6e529f58aad28f1a2d24cb4eec5361fff9b3b281514abbe771e6e43a65ebfd2919f5c209329389;0x50474ca717ecc8efed5b40f0acc46f6292448c1ea6435eca37bf0c62ad179e0ca11492ca6ddac877392f5cb5832fba;0xb7328bd8cd8ddcd7a0be474b96124884ac622b8bd00d07dac5108247c36aae2b786b21e8b73cbc22b3d308ef26b61e5;0x6773d495fcfb4d76dc9576c9873c9322f79b1c2e8dcd4a781d10e8d93f4de716f77b199502c92b8bb504d16e9f83ad8;0x180864eab1f549a247e9ad256d4cff5f4f234fef675293d3be26114ae46c8c34ed61b877c3a11a15f50d4f04e6dd53;0x190bac30279bfbfa55c856bcfea68a9b57adb1a5d94df43d035b4dca96042ebb32ec2b671db2be46353afe148602d2aa;0x5ded16988addb698d6c2eb9af14b9759f20491bc36d652245f1e4d8a7b310013ba7fadd5fd1fc9d0e945d2b49620afc;0x564c1bfc035625b3c26bdfa0cd0b5241469386d9d0a716c29e4d3126f2be14a86c4286cfe743ed8c39b471b008f64cf4;0x1849b6be8978d850121f533be1edbc18dda6ba55ccd2c811a1b4133fecdaa11b01022a25fe0aa03c7c4dd201f9eb1896;0x67b234720fc43f16868574e108c38ec58dc43b7071208daabe9ca12c1d8daf7615a3e70777c2712263b5eae5b17d311e;0x40a4d3b52d9d66bb3f26996d4a587e6c617e2a8c6089bddf6e89bcd8bc58b68642425ba5df61cf3464483f818e98a7;0x1619d26e0f568e08bbf53134405f51556b54ef70ea2075c19b9fe384ab5dfa72e4f0e83d12fb1f2d65da208fc2a6486;0x6fe2f0be91bab07ade56ba2dff50347789c03138455c027accf9484f0639e78c3555b2f2b9450c66ead127b89242c93;0xd5a79a0c6023c2223affb59d499162b0be6b975bdd24f6849dcd05182e72496d5b4af9d1ff7ef04f3a7ba1e28fc4524;0x5c1e4f6bca76a11b3115080424eb9c2c4e24f3d2691d7a019892a785276299ae050a446f3dc06460727a6839cfbaebf;0xcbbdb77030bd7411d9e85900fe763f5ee1bb7a9351b3b2cb6465301633fab30326281de96b60647c70d6e418d175732;0x7aa64b9e950db2d28e1110038be4968e34019bd1780dcd17df5afdd8b069c6c52863d20716ca64aadf4c4167da06a88;0x13e793465dc9fbdce81d44a9beb9f9699c607bf503921b6886b32980919364dba1479b9047de25cb000599ec8dd7c025;0x141ac126301a9ddfc7625ca75f55b30dc3d822c593adacfd7aa0d024110a99ed94200a5a0e7dfe54b652e6994a821f9b;0x4623ec6b22dfd51a7a9155fda53fa071731f15b054d970dacb6419438b281261d343482378babb8f5f69435423fb98e;0x48773de2cb756e339fd12fae17094ecd9fb89c83c4493df2c698bb0a7a0235ab36dcc8f58d1f3778840526db01b08;0x2e1dedb055127273831f44bf8b6366e40e3c1aeca933ca4fdcb8074e1f4cb31fbebee7be80e41c3f22b14713758f42ab;0x127b5f42bb78793b2a971c559a4566ca174a7c95d6d32463819f016fa0b5ebe52d60360f1a9b4146ab4037419151957;0x1eebe0ae89867686231c0bbc3fac2e4e1ca4aa0a820d852ade0dd86d77dfbfa75a111fd4dc5c799e698d73403ebdca92;0x12475251c3914726fa93507b8f2fad16ef70068c86945bb382e0bebbc8c7167b35448de474fec51c092140b271eed1;0x9760b7f1d69f902d33c09f25b5fb2970b7a0b39b0ad6328d81de85e7d9c5a499f10734a7fcae97e1327ad10370a455;0x24d5f108a6dff5e077485c9525ff77775745c2bcc5178299e9c4429054ce78aafc4ab355146469fbe9c2c565b9aa8e5c;0x2b91d3862c27c18933aaee917a32cdad402a5786f965888bb14b74e331016c785cfb98013e0cb78ae05fd506956863ec;0x2b703bfa8856af35f3365905822d36b1f177b188715ab78f8d491acf73573791c5caa67baa96b6c3965eb66210dff66;0xb6bb2b9d2575c454e9e9982c43f0449bf209187196c763205f1ffcceb10d9f5dcf5c5649ab919a16822bc9a33713a36;0x489313362d52f07514dec4860f2533da2047ddbf6c6a8cef0e24fa4c7a2a83f14cc95bc5afb110a0e72f4d5d80d012aa;0x191d2324be8d37fc47a454cbc90b16958398fa40f421fa028541437d3ecbaabfd443d6efbee367a83cce53a9f52092a;0x5ff4f848ca82fb3c51a00a536a9780902d44b400f8832f07bf4be88bda276bbf3d8cf3a1ce3bb0473c68c5760c9abf0;0x303758ffb2cd87738da15da2e6a1a0f84d95e33135665e06c286bdd01fe3f6f132d63b3b0fc4d9334ef2824413718de8;0x189a087eadb97f8870fb38e36499401e541bcb77840567ad0c572ec7d79ecdb56f890948bb560657079013c78b3c3e5e;0x1456d35266ece9b0f9f3fc54fa15f2fa3e8fb6b748e7f5477371ddf1431d8fc5c297b7f791e22b8b615da84d94a512f2;0xf09933ad748715ca75d3990308aa0cb4e1f55e3f790ec0da86376f923bd3c7a02028557f598f6d914fbd50bf4266d95;0x41726e68f27546c9d23eaf5e100bff24a0f253cd3cfcc1bf2bad63d6e23d2edb05697308ae03f3bc0aefca9e9667842;0xdad0616e3ab69078eac72518a7277a0521c7485347b0b7a5c23ce68cda84502ef03b8edee8f547268dafab694953b3;0x53090b7bebb89836d9d4479b1757e1b3e4b8ce2dd7bfcefe2f47d9b288ee9ada6e7c36637b5bd7cbad55550853f;0xab97f2bcb0c55e5da0fb74aea0ea2f8bf73982e6a9e35cea88eec5bd00c1ee23a68c4598286d31dd26811f36b781d2;0x15df099935cd612ef5d5e819aa66a168ff3a6ba4dfda4679b4d0b004dd8da4e4e1e8722a713e82380a742e9b1d96a55;0x46e063edd58cc1873ad370927f3af20cc3ffdeace5dc1f381841a9c74283f9d1fba85c0e7860da46e43f7a22f7903c6;0x42e2e26402c440aa580312d7638b9bf0ced6fb51ec8a2d9b0b20f190e2c4754f7a347e6cf90c49039a00a1f4982a23a9;0x171b83bcd2e23da1d9f38756157ab5810977537b01d978640deb6b881a0a8ad8fe29c8b0e44e02dfb9ec545bb0fa2dc7;0x1479caa7474b5aa32dd5feed88f2eab90c55c451b00d5b4901c10ef769731e94b93f6dd1e49a04f95b966159ecb2401;0x9d6cfbca9f707de57270f52befcdcd58aabe1abfd05cfdee545e492f1cdce2397f3fd182e42786ae5bc9a1d10459085;0xbe55ed5876e275da310f946396e22ec41a6340c73097a446ccf1b650e66d14440878035127e3f2672b9e691ff3a421;0x2065dad9faaee8b2d94571769847ae1b1c9f58f3666c46466b79a1b4302d2d04b3e478eb7156dbf2233ec4f1dc99ac0a;0xead3cf1c839c993f89bb0a0c37c45638a587dd1e37606f833aa287d960733412584127d04483cceb129eecaf119bd93;0xfbdf75f9e47bc3e8620d3bab07627aad7b088d5e73ca6dcbf6f16e868130eb4ec24eef209a899c12c54cc63923fa518;0x2cd5b0c0e3e89d12361b08dfa5a9abe07ed0e9414eb39165c96a81f762279c0ec9e314c64d50fefda7afe953af854f1;0x339f5a510dfb629bd330c2897e0539da43a71d7e454366821e5c0c93127d53431ee13b556c675597da7b57687652d8a3;0x26b6717ec9dc49136a0fcb20252794ae5d93370d153f982fd79bbb3352409a373bcd3adb13a7075ee1a55a5890767923;0x37b878c106f3103aecbfb92dc1b0f970e70b05830dddfd5d9f63ab1205e520ec950268d9ab8c8e43ee2ea87d9d1bf3c;0x2104945af1b4bf4695fee125a0317fffe4929c3104098afa75d849a5290ec0e92b4a974ecb678d9ae5464f3d1047d38a;0xd231433e4f7b9fefcf8ead06c3791c07cb1ba738bbd1af765004877a70edd55c0571805a0bfa178907144fae9aa44c3;0x3e428b93e40d8a558cb886ec64409141cc39953b31636380650341a3e697e5e2d8843401de0eae6203f821526b740de;0xb4ef9f1679840b81110f318c90abd18d1b0b66eb32e57edc48e0415b0fbd950afb4b1e946f7e72efc0c241d618ece93;0x11c6024914aa7e0e1a08438dc3738d653965ee333f502395ded8453636acbdff44f9ac7cfaa80ab3273389778fa6ffe;0x1a6107b39e3376e23bd58545b120a72d79d4750cde6678b583bb0c3ba44fd77f7c58550ced3b196c063e313602d55b29;0x111abb75b513ce7244acad260f125a45cecd786dc0776cecfe661c53758cbaa3ad027ebe2e68c82ce7e49caca517afee;0x29d54fffef81e241323415bd05ac5175a6ed8a0a67a732cdcbc4db6403da794774b8796d5bbd11e42c3a758b4705f62;0x29c45e8c5e3c403ecdd03e20ceac0498b5ef2e267b7da843e77bf8dec89ffcca5811144c516e3361ecfb2a18534b2dec;0x23f95f5ebc4b8d833ac335db6ab2e40ff458173a1760816dc193da71a3282226f2fe33b80a7619d4b820c728f55cb6d5;0x1aef5380840366382312e2569bfb1507484029df86ae63ef914397cfb2c58460f6f838818ba32772d69df0a762ea9fd2;0x236cd8848237bfd6e3eef284e2b06772985298970c255f128b95b76457b1bc53619def06891b1e0c6fe0e646aa55d8bc;0x3bee657c9ad153eff6bfc7d6d214af99b0455355bb749ab3fe03510ca9fb00de6d931c32a125cadf6e4810e4a39945;0xfd1150d6457c6f7cfe78f1d7a7cb409f6420bb16b8eed0416e8a736ea5febed33934a6289d88b57653c1347ea1ed9ec;0x1f00a1beea5132b739712fe3284de4228028c8fb09f3311e098a0bbcda37e6580441ccc73c5635094f59ad06efb91e62;0xa94fa03daa47b07c67ce32f0f7e5eb220d069ac729efd5e0b7438c29ebf1be9f35e3a31c48c4a239e67bc0422d5ccb;0x33f7cc5da32a58cab85a7349faa5f59bf56b15663d3257283ba2b273145986833ac2bc1ab218a320bb19ef50c63bda;0x2138e6647890a8bc6ee2ce85f7529edad8afec07c415b4045e1927c44c2429f979e7ddc2842424c677f7990bbcfa393;0x11de4e516dd6fec7b42414a9d12bce1b1215208fbe6c4fd9b945428adc322a43b6edf014cc94e9857bc99dcd1c2b3d4;0x68224b8cc4add5c290fd8b1f23db8a335e09e6e008c6155b501cbab30da45907cb25762e873417c8b7fa702d903530a;0x193ad3f53e10bf554620fa14f9c69c1fcc498e404bf3c36a90b7af85b115862490fc7fd8927dd99cf2734cc4da6a3226;0x8be24a612581dfcd30433cca6e1c4df7b52d437ca4441e1f3fd3f365ab7c35be19c84fe6b5687392660c509c9289c58;0xd389682ac627a090ac212260f7447eb642f733eb5236616c3b9709e2b7bc9296457602d741d4ad59f8c3c6c7f769f82;0x353bfdaacd9362cac366b62c82cc756f1d3da0fb6936c67dfb8379d3b6cd1641f126e98b52c4b5fb3efaef9941c0662;0x8a24e14bbd6e470693723246e0589dd4e5211d4981ed6daf3447445fd676b68247a4771f3f05aed2fe13bca0aefdefa;0x5ab256eae64b5771b058519a6eccdb393eeaa0db704d1a985884a40e6798e29ee3c938293db2a79c4ad2e03687289aae;0x1014177f21ceb089976e865043adff4ca64e454cf35c4b3673584016162317ce699f74f78be26a53261d80dddf1f3e;0x4da3f455ae7758084a604ddacea337f0b4526f30831f60872859761eb683f74987d26c76f88ad8ae328f559b514a187;0x42a98a0514c03fd0614cd1ef5a0bf334df7b1b3ae7eef88506c25486e691fdb09010e6423ed7f54342c3ad63d491b1f;0x9bded2bd6f906a0dc15b740724a60eb5bf373cf274be93cbb1774bf0e8b8b0f23cbc0b3c3f0299b64adcf1524cbb6ed;0x6a254af4fb2165219d46046d6df6325d67ba8605234b3f49942e2c1268e47de7e94c9f0eee7b8f1808f0062e5152377;0x66abffb0c7d99f33befd659d5988112bf00bffea0225e500a1e6ac7c61ad3ebd895d5d01ae075d99906250231f0e650d;0x55231a41942c8204aa85c6b1d0fd36df088edfa1e50ae04495b6546233d608b85a5f9c460462af147fb6f5ba174d0607;0x26d772b1c864974d8a364271e8b2ace16b9fce5eea86ef42eb59a3c36733f2f35c7af3619e0009b71dde63e44cee36c;0x6d0a3c524ba7acb0fc149790bab973e488ac02bd1ed3a487c5d30c2894ec681f0aca27837b9e9a38f0c5fc7bca5e5d6;0x816152bb276b90dda2855953fb6c653b284f86dfef7698ce289dd1912154ebaa1bcdcede78c53a87614438ef39a36c;0xab22696a839e90915611ac99b0df1da0d3ff4d9c4152219050b6567b34c13d05ed074cb255c7e983d6b65b622d1e40;0x188c27d2fe80c4969a4c2e8525c0e2ebc7ff6c11a9971454f20996075b20461570d1de22ef10ff8eb2b2527640b6b32d;0x58edcac79872329a7a3f9d4982bb6f690d45c678f87b4a2afd32981962e53733f3dc003aaf8b89ad35c083457b0f1fa;0xe8577be4d2d00f42cc6bc99c133846068009e41b918f0ed8d46907a5a3e299d48d6d249b2d03c743ee47ba7057eed74;0x945e43b6bb9ee490d473052e83257987fdcb0c195b23bb22f02414d3170429a35896e91d56a1b0b788beb36e4bb7dce;0xf96b50fd6990ce4a83684b11a46988bca12d82cd1b6cd6356e9dd4033db0ac9e2e24c853125957c1c660ab951c20e4;0x2ad747b3ca53d505900a6dc0d5a7b7cfde88cfb370753690ba8317d4245b1952a09da277f2674d77cd0ae7573b3bbb2;0x238e8538493d96bd27446368732d2390d45b34078cbdf0eea55154456442f05781bcb5b4f5a40c15ad42ed7432f36cc;0x22a2d4e5f84e5304e05a6da4e764977664f8f4475127cd519596dcc489599a9d5ed4c6ec82856bb6813c1d353d0b;0x1ab15bac12e8f16d996192e09684f495ae663873efcdfd0e4a70d98f8f02e0f15cefe856ad80bc92ffe9ad09c8cf0a35;0x9f9531c83b88b5d486b43a78413382c172e909f81b5dc2797c3a409be6add7079fcab6820659ac98d99aeb832904671;0x1721346e3bf078abe29edf8b19ccaf67d45419af8ce1a07515d3198c17071f15dbb1f870f2ea6ccf92d9fcdd0d74b5b2;0x9cc9f97357428f7186bf833edcf1ea1a647cabe799c1e0a54cd4ae0d07ce73eb96a9733b1b93de5875cc80289503c0c;0x6f4b2fe545197d45e2e84a4c2350be9d5f0fc6116ac032eb699577667e3d82205e96a95486965a2febf58eeb3f0575;0x2192e36ca85b42379ed011983eb6d4597c2ba75155213a379f822c7f35bc338c3b6e73040779fff9d8402979707bcd68;0xa27b3fa98939f56259c0c476ba9f795058bbc38650e2f97e8aed9a0d0b8f301bc4245e5256036ff4e6a8022946ea666;0x90f3a727854e92817b5014a7494b15e0e85249421f482b3af4379865fa790f5461c11a63c0ed285ae63c6809712c2a5;0x8997e77f6e93952df9b278c6f540fbd7f5ad3cb8960f417925550224c9d909eb51ca90071235dfa19bc3d728e200f74;0x12df6e09a5800e22784b3e76cd4f9a1932a5cb7d256c42039408ccb80d4f52c39cb2182aebbc677154957c2e4fb03ef4;0x1960b8406706cbe0c39fa25f3bc752a36e8b4ba84e72ab80fe80694c11c6f12808e746faf69a567557be0be168ad7179;0x5b08d3ca15476d8782b27e7e250e209466d2a14cfdec73fb0eb4f4a346dfae1ae8d71f75ec78a982bf3fef987a37a103;0x35d43cfd0b7576dbd4fc864c1b2e20c6703a905c22b4576c54d1027195783ecfef8df96273ec9e785e96ab2b89068d1;0x10c214975d3888ab14ddb280b93ee08248155efbb3d0733fe8923fb4e7a75a97e395bd9df2e99c623f52b71ec5ccc97;0x1e7cee801ee3faff64a31d63553adcdb423931f0e2592566f2a0e4ab93d104e22797bae0f93347580ca425a995bf743;0xbff839358d8c4ddbe5811e502d05e1e12daa6b7ab3468cf95caa91c410f0935b99e5b39350d0699722125659124044;0x23846c489c4f002f707d9aa84b29c1bc32aefecac062ea8b1ccc474b2c036d2d3fbfacbe224ecfd4a5469c83a027;0xc9dfd4b18b9e3aafdc8592a7326f1a799f6653fa2e8de2db367d0314798324d2ab3e4510969833a100c47b928032e3b;0x348b352f4673fcc2394cb03a128898dc88b2365bc5e53d3d7d1fa9b4bfac1c0e4778bf625de21333d3bda45f6513;0x23fa7053ea7e7c9b03781a654d617b49c85d04a3cdbb2eeba73d9aa4b0793b82e4c1d7701bd69809eb245c680be85fd9;0x51c8a399cd097987cad53a6e88476709ea2b8b7891deaa3f663655f6d263d768700a13fafdd3dbd578eb796cc40bf38;0x12e78cdbfc9a062e6d617acb93b10972bf70f61d5eba0e6b47e26784b23de9e5e2683b02c55ef9bf74b395466cfa19a1;0x3ba570e278f20f21fdac5510be5f916e9d93e5eec67ab28ce847aba558b2fdffcbe56698e7ad1465fb4132f2f3b81a72;0x3d84ae830bcf858a127bea96827ccb50d9df3dbd1fb09089a7892d82ab00af01b5933a38fdedb5ea5ca3d115ccaf764;0x4d09d37f3c496b3b830d6a9878c6717d065581ca6c88a9678cfe8cd6d780af0cc196c567ed495875342f75ddc4ada6a7;0x4958960f72e4c24f2214b81c358cc64955db1462c0cf243c2925ffe45cfd881ba4d85b684348917da48dc6fe77be7e2;0x7706ba52b6aeb1975d707886336714335cb0076c6fe82f75f656fe0d34014a44f76e631a087d273cfd696c64fe4402;0x3101838c9e0c16d29f76ea572c895a0133f77583901735e9a8098fb042ee6824aea6a8015d7c2d657e5c7896237958c;0xe7833c97fbed56eb9b62101c0c2f021296ebad12a6b500335695f2c4e984310fd92dde216663ae0ac6c55bcafb22e2;0x7280d57e20e9f79121647e35255627507385e83e42f7014725664a17686384854f6d81740f2775fb851a2fa16a2ea08;0x638bb4d4eb5a3b6c6bf07bee526e143dc177d004fbcf2ba32803b32c56898d246be683733501eb1137c7a9063c333acb;0x5167fea132525f396b62297c12d3abe8a5cf3837ed745d6979cda3bb579afe20281bdf08604aa0f0d320b4029a015611;0x11c6d665231e4f1eaadcf03651e0283ff532bcb931d276bf10f71badbeb0577cf4c0b5f2599eeafee598a1f87d4f5a2a;0x11432a1a04ee7df5d028f93aba214100fec30a7305c6a310c6410fddab929b844bb2213dcb55d9f2ed1ac24849a870e8;0x79c25b99b3a2d64a39597602ffb7b44e5824e24e7010b14ea10448258c845e7253feede4f6892fa42592892b47ad8a;0x65faf0ee488921d2e4fb468dbd6b104cfc220337a78accc27b4ab7fcb982ffb364a175e91fbb3ab2d415928e76424d;0xe46854128f658f87b450ca50f8464f53260bab18bbe46e2aae6dbb8ea30a26c01c3d8526d42a84c4a8faa4b631ed246;0xd611df0ec6eb9047edb0d83f9ca5465a8448e15d0b0c0c49663e3f8355a42887794a062cc3c106dc487d3aa0751a7cb;0x66f0039f0adfec108a67403ea83ceb5ce6178cfa389d1d46d19710460779955f9c1c93ff0e6a6f641f53b130c6cb1e82;0x5eb4e26ca90d189e18af9db8a2a2eb5dfceb6b61d227b33e5440dc2225b90333081c70bbb16531ef0dbfc2dd9b63eb0;0x2a8abb6deeaa3f5ac55cdab100245ec8f7157ab5aa463e376bb6e7d086969633dc119ee69ee397748fcbda8585defd2;0x186385f0725e610f70e42523b66a30610eaf8d07214ee8ab3d8db5b8030819127599f2ed7477a7c0df628580e11784ed;0x5d0ae98bc6b5f63b511d7a76280c5599fe6922a0a2a1db5f1f599a7f489de9aa8f52187b972195cb1e10ac9767ec7ca8;0x4484168e72696fafe42cf8a4ebf16e5f2fff0761aa7b9c00e561218fa64f252a09904cd6228bbfe0456f33759f43737;0x936ccf56bc386e1cea013fa3494eb1f620e431845e6c78c73831dcaff1d679e5242c7b47eaa5c7b20ecef059a1b2e6b;0xa5a8ccd3fe3b7d061ef1a04ede580b43318622daa69be3d141bbeb471b0b59bb197560aa986bc28b336d52bba1863a4;0x599b5c2e0b03c8b7fb911e1d5268a097dd5a8cbebec334b3661b0250b017040b23e230773bfaa58ac1fdcbe287ec2c2;0x4e40bbac21a8d282f7247be4e0bd4415f2a2a077e5f9f90bc991f043f774c543560d9015d027a3cbb58e18722211e2a;0x67ea286a45f8aedb717c2c6f10613bc64ecd8a14c8a5a56aaba203feb27ff14118840d8fc79823c86158fbf4f728c0cd;0x2662a911098aa78dd37b7048cf213f8663029390f6979ac6e0d8c48efc92230577a891ae46fb402872fcb3c1d33219b;0x10bb83f0030fac962d5f33c25b9bfa0563df277d7ab048c841ba8384cb16fb00318cc667ffff8c2288583c93cdc75415;0x819580eb3af09a680897171b06b62d4e4dc1929b620fa466c3f4a3d19179bee1329d07b8c4f4b80c3e8a6ec577f6c4c;0x1502fb882a5c59222aa165f94c8ba68ae0c76e36c0a82a749f743f59280167fd24932689510660728fba0de5ef68ea97;0x127da83515f541ec0d300a72a52baa44018cae1fa3838cdb2d07058a6b2054e225a5842dd3558f6e4b60cb985e4e8ab;0x58c83ca5d4b90d9c8c61d825e22d5fd47e2b1d7c078670afe4cebfadd20facd54f106fa0566e681c45502b597d5f5;0x13e35b032ddec682406118ca7ac29f42c476330cf8affc01163248b928e704f03815b950bf6e0e43adbd665f0022fafd;0x18b87ac70f39885887891eae77f2f50582d7c268d647246b7b7838d9eb668c1075ffffc3bfb957633ce865f5e6fa661;0x5fb5026c2ec2123d5ecfade4b13c66c439e004b8207b68ad46fe11656463933e7e472f30d0c57a9e5134124769714c98;0x19e00394c110537c55667d25ac4b1f7840e8ec3c7a5e0147405362a11d2db80a11608c38036278e2a6f2cd432fde3f2d;0x13f0d76d097b29043f28e21f12cd9a1091a7c49d24ec0a7ad8172b05bcbbe77355ac84ee26bebba7c443aa237598faab;0x4a09b8c38690d119eae205ae05bc7a852a3c2fdf5e36fe349d13cfdda6f4e5dcd36fdb61bd7f6f936f7d2d824065d56d;0xce60eef75172c7de7451a2c8c4a1a03bc96c3bcf5ffe13cac881198ea4152cfa9b3be078382d4629f509e24f9a3c;0x53e87131a73db403a51aaf9231673e7f668d3d34df490c1903faea18105a8de2eb656e4299943723e27247e5fa547c;0x39db97dc9d8d6eaaee9584f1d5ea9b3ac8c5468845677192088ec846fa770a2a13d4d53a17917f6e1f1dfe23987f5228;0x108899eb79683e6819589b5cd3b9b2eda3e0c04f2a559272f3557e82ecf829015605878800bf47c2194794cacb6e8b92;0x185fc9bfd9c2eae57f537eb8a085e9bd997a515fbbc4cea9ca8b6dd665e5910e3fe15391120d12d1e8576323b9d92c06;0xbd393beff237a1cdd42be05feaa825fbc54cad39743c5b62482aee38276cfefeb0a1d842abebc5ee6ebd365a98caf7d;0xcf3e7337e87a73f5ff7e5978d5c7db6c369c292696fa8b2a37b13b13c71014bde97c076281478e4bfe2cba0c3214aca;0x13066878f13c8e88308e889b1134fb5f056f3ad03e689f6027c1b50fe5339261850262d05a20222695f8d0dc89015110;0x436eb3a7d82e7f7cec6d574929d6397c01d8b0fef90cb4212132931963aa791962f9f0b0443f2134cba14c388697529;0x476e0b4aa5d32cd223935165338a60125eea0bacfc3962933f748cb850786f220378c66bb676cd8ed40debac2730a4fc;0x5376ea75d96b453b7cd12ce7d917c68c2340b1310f7485f8d2abd532824478006b696596aec074130a40f4cf1413c9e5;0x54f690e5e0dffd02483ed44e154cc90082c787b2b9132823316de728f09d73c8954ca69bcb180155cdb7e7893ced9e5a;0x63a620966badfc2af0187e601ed2bde8b2d2fe1b06f36758ed31128d5b1c52f69cba2949bfe8b91f09d5a25503a0a19;0x571bb77e08e28a2f913f345a53e8f2254e3162cced784062adbba76488981e175ed3356b1f06b61364704180ed5b0f2;0x15ec8b7a4ec3193227ac6d2cef29c5635f36307b4d4f3dd4def6079d4b280c47bc7eeb83d274ecf054641aa75e7fb693;0x43def0c7936e2b896905402ef48344f2727b4f59f030754fee3a51565bd2d126922bf5826e94cff2838d5fff9bdb7e0;0x42aa948fc2e349fa2dbbe926a79ce5d586be0880a2b5dfe63737aa3a7e1840cdd7b6aa7c13c8fa50ae152fb886046383;0x5b29361dbad232d022b00ee152fc5799a9f4f1c8668c40dd0d440391f3734fbe11dd7dd927e6543e7098ed9e7a7293f;0x49d9e729ccf7e23b0d3b465fc50be44d38537d87c5948b9b17132b9893de181cad5dc3ec6e9c193d744cefaf76bb6eb;0x164308009a7987ddf669181f0b1124db4732cb34abe1e351918aedc490925aa725d79917d368302f6312ac94a1fb0ef4;0xd80e7bf190c1c0db6e1f01726c92b2a8fe0731220a5114ab82d9fc41d653c347a3c7f0d5b6c673e5d7e8be32b1a1c1e;0x1611819b251cf4c0f1efd75fbcdc3adec34918940a51d0b7b25cfb4abc2f13d1669adff7e495b7579a27660cf12ffe9d;0x4aa17a94c5ee1d67391046ffe1f3031522298da1f1cd92cf7f1261e0288e5621f72b2ef19422c3ee5fe400990fe35d6;0x1b50f67e5d9baff4ed440d6ee101fb84f1aca1d2f063e927a69a2b2a34072414ccbd234923e70739ce141c6dc5bfcc44;0x8ea3b1425adc55a549ad9bb4e76049364ec9ed7dddd167232e91aac7c1a5de84afad6aab40170ec29a97d5b82aa3056;0x46604778fff06fa15dac527ced98b2c16b5208515a8be59045b6f81d2c49c0f2c062131155985e404372c2f8e596008d;0xaaefd8ddd67043195d34aeb92eaae8f77eb7393e28953d513bd94a6aaba1d5ef4af6dd21b8f065cde46620448545e1f;0xf65eca0af3fc8dc07d7071a9d5e756cae305dcbeaf48d935b2a3c062d901f1d247bb270b5e00f6494dca01fdcd1afa9;0x745ae3bedd67224c1bf1f67158ba77d1de981d9da3287e83e9595a1200fc11bb1473a76920e0d4a362082c0f3cc220;0x4281d5255aaa2d8f3911c194f94e5a681b2b1babe46846da6c0b8059d77964d4cbde3cd32aeaf6a72f280cbbec4a117f;0x3b51c3bde70071ae5b053cae34454203c3c00f46af983f549b8a958ed20aa0e723a20cf4518086b937a0744810c6b35d;0x6172775e83962e63a71e385668cd047ae3cad4d595a2800b2c96aa7a7b358a4b65286ec26d265e49040410e5acbe0361;0x561f6841af2d45d7bee1792ff899129665caf8eb29dcb10004af6e736146f5b767352349bd2a0855202073143cd8a2a0;0x2667c3847880a74047e92a75e9207ed71d5e2bd38db93e23489b6bb5221b1cef5dcc26be778c55110bd960424966ceef;0x226d3f29089ca068e4dc0768696ea8da5cc0010e045e6abbc6472204ac5981fed996775da3eb324bc64cc353543828f1;0x1fcbc976cdd3447ae890a03520c00f2809efc87fa8d2174c760bc2062e208f41ce9a8c721edb25c8796eb12d3674b429;0x50f41aa358b97c96ef9c867d04e52f528b4fb8086ecb533f9165daad4f55d3aa2490ac403faa2adc56d69fda5c547b4;0x63bdfcd70f51da8d5eb3bf094fc10e6835a369c0c3e522a1f0fb431709a9ea9f2227f91f5357282e4999de8f4dad2ee;0x47435c3603866092812880ab32c901a4b953145d4987daae7c8544e1620de99891a09be025d882d62f401191b6c19e5f;0x3f85c5300c5ec262a1922ede752682f01de2268e8edd7acbf54634f44b6226e8d7fdd38b3950192b19db6afd8de66f29;0x1ae78e03e89c3d2b22eb4e293f38cee66ca7047b4480906b81ef931aeaf92e994405cb31197d609a6a276fc1e0d10656;0x3c9ed4a6fb42c55dbc99904e38b86efb7b44f602a77b705069f88ba959ce5c05b78151c648f5a23c94891eef45f0a03;0x2aeaad51a219757f920fdc8847dfeaadff2c42c08780a4a7a26685824e14d3475f09af69668503c8ecd181e2d0458861;0x19f5f8ce2c94e61c15eba5bdb5a3bdc02144bc437ffc6b895d4f808ef964414b51ac8fa4cb99eca67ce5e2725b86f484;0x49a16b56b951c46e46e282bdfd42160846ac801353f7509c028f5756c294f77aea74b474986e67c3a7d6f90bfac105;0x105fe4241ba3bb85ccb28a0062bea68c1f2b1d44a00f4b83e15dd5fa8c8271099573be05ea8472386fc8d1e7b2bccc39;0x9b25181e27f921c991aee5ee72eb79cd71f9683d550387c7ef30d949757de8d5f1de0de406c010210da760082790d;0x14acb4caa605e407030e935db64c8d53445bf438f9b137e72a4ff96a0cfb8a62d7cb3d4ebea81de5411dbb4957636c78;0x4d58cb1143228efe73857dc6fa7368ac717d76bf039f6457601acdfb218bad44bb26b832c1103171a177fe9da7bc2ff;0x3f4697f009f30a97f02c5a6b1b133bd6328e45e1b959bd52eee2fba1e1067de1f34f95e1576992d2d413e8761848396a;0x4d1199b2ae1eb7243d6782c7be4acba95c8c219fbfb6aeb59a4c9433c85b7b6ec5224432a3c3cf3ae707d32e4055da2;0x4ffb7d4136747c1332de89d81a8683e5b72273878aa062d5c8aa52b7b50d6b785d074713b67a6cfcee537da3639c895;0xba3587c1d7066f02d682be94798f9e456004f5b7ee8a872852ed33e98ce474c2bd2dca25d4abb98d9731da54f56b9;0xd05b7a61dca1506deae7d2623293876bedbbf4782fba595374db7b9441027a0f8789d913a22310572f5456f8939351c].
Lemma two_e12_raw : powh modulus 2 1 bits_e12 qs_e12 = 0x1904d3bf02bb0667c231beb4202c0d1f0fd603fd3cbd5f4f7b2443d784bab9c4f67ea53d63e7813d8d0775ed92235fb8.
Proof. vm_compute. reflexivity. Qed.
Lemma bits_e12_ok : bits_val bits_e12 0 = e12. Proof. vm_compute. reflexivity. Qed.
Lemma two_e12_ok : 2 ^ e12 mod modulus = two_e12.
Proof.
  destruct (powh_ok modulus 2 bits_e12 ltac:(reflexivity) qs_e12 1 0 ltac:(discriminate) eq_refl) as [_ H].
  rewrite bits_e12_ok, two_e12_raw in H. rewrite <- H. vm_compute. reflexivity.
Qed.
