(** Primality of the factors of the two curve orders (generated certificates, as in Primes). *)
From Coq Require Import ZArith Znumtheory List.
From Verif Require Import NumTheory.
Import ListNotations.
Local Open Scope Z_scope.

Lemma prime_3 : prime 3.
Proof. apply trial_prime_ok; vm_compute; reflexivity. Qed.
Lemma prime_11 : prime 11.
Proof. apply trial_prime_ok; vm_compute; reflexivity. Qed.
Lemma prime_13 : prime 13.
Proof. apply trial_prime_ok; vm_compute; reflexivity. Qed.
Lemma prime_23 : prime 23.
Proof. apply trial_prime_ok; vm_compute; reflexivity. Qed.
Lemma prime_53 : prime 53.
Proof. apply trial_prime_ok; vm_compute; reflexivity. Qed.
Definition ws_prime_10177 : list pwit := [Build_pwit (53) 1 2
[true;true;false;false;false;false;false;false]
[0x0;0x0;0x0;0x0;0x670;0xbb2;0x14;0x25a6]
(8831) (2854)
[true;false;false;true;true;true;true;true;false;false;false;false;false;false]
[0x0;0x0;0x0;0x0;0x19;0x5b7a;0x4835;0x4739;0x424;0x27bf;0x0;0x0;0x0;0x0];
Build_pwit (3) 1 2
[true;true;false;true;false;true;false;false;false;false;false;false]
[0x0;0x0;0x0;0x0;0x19c2;0x124;0x53e4;0xb35;0xb34;0x8be;0xb34;0x8be]
(4983) (2645)
[true;false;false;true;true;true;true;true;false;false;false;false;false;false]
[0x0;0x0;0x0;0x0;0x19;0x5b7a;0x4835;0x4739;0x424;0x27bf;0x0;0x0;0x0;0x0]].
Lemma prime_10177 : prime 10177.
Proof.
  apply pocklington with (ws := ws_prime_10177).
  - unfold ws_prime_10177; repeat (apply Forall_cons || apply Forall_nil); unfold wprime; cbn [pw_q]; [exact prime_53 | exact prime_3].
  - vm_compute; reflexivity.
Qed.
Lemma prime_17 : prime 17.
Proof. apply trial_prime_ok; vm_compute; reflexivity. Qed.
Definition ws_prime_47737 : list pwit := [Build_pwit (17) 1 2
[true;false;true;false;true;true;true;true;true;false;false;false]
[0x0;0x0;0x0;0x0;0x15;0x2b794;0x1f418;0x927;0x532;0x1344a;0x1f4;0x1a7]
(33349) (14855)
[true;false;true;true;true;false;true;false;false;true;true;true;true;false;false;false]
[0x0;0x0;0x0;0x0;0x57;0x22b31;0x1e8;0x5f9;0xa02c;0x64d1;0x1a772;0x116;0x142b;0xba7b;0x0;0x0];
Build_pwit (13) 1 2
[true;true;true;false;false;true;false;true;true;false;false;false]
[0x0;0x0;0x0;0x0;0x15f7;0x8b0;0xdc31;0x32d4;0x16c;0x343a;0x3757;0x2773]
(22440) (6527)
[true;false;true;true;true;false;true;false;false;true;true;true;true;false;false;false]
[0x0;0x0;0x0;0x0;0x57;0x22b31;0x1e8;0x5f9;0xa02c;0x64d1;0x1a772;0x116;0x142b;0xba7b;0x0;0x0]].
Lemma prime_47737 : prime 47737.
Proof.
  apply pocklington with (ws := ws_prime_47737).
  - unfold ws_prime_47737; repeat (apply Forall_cons || apply Forall_nil); unfold wprime; cbn [pw_q]; [exact prime_17 | exact prime_13].
  - vm_compute; reflexivity.
Qed.
Definition ws_prime_859267 : list pwit := [Build_pwit (47737) 1 2
[true;false;false;true;false]
[0x0;0x0;0x0;0x0;0x0]
(326009) (99458)
[true;true;false;true;false;false;false;true;true;true;false;false;true;false;false;false;false;false;true;false]
[0x0;0x0;0x0;0x0;0x4e;0x21a6;0xbb1bf;0x6cb10;0x614ec;0x83ffc;0xac8c1;0x12c02;0x62acc;0x1247c1;0x9da3e;0x1d722;0xb60cb;0x87739;0x32d28;0xd1c81]].
Lemma prime_859267 : prime 859267.
Proof.
  apply pocklington with (ws := ws_prime_859267).
  - unfold ws_prime_859267; repeat (apply Forall_cons || apply Forall_nil); unfold wprime; cbn [pw_q]; [exact prime_47737].
  - vm_compute; reflexivity.
Qed.
Lemma prime_449 : prime 449.
Proof. apply trial_prime_ok; vm_compute; reflexivity. Qed.
Lemma prime_97 : prime 97.
Proof. apply trial_prime_ok; vm_compute; reflexivity. Qed.
Definition ws_prime_609743 : list pwit := [Build_pwit (449) 1 2
[true;false;true;false;true;false;false;true;true;true;false]
[0x0;0x0;0x0;0x0;0x1;0x1346d3;0x6b74;0x215df;0x50eb6;0x17f73;0xfef82]
(192803) (157810)
[true;false;false;true;false;true;false;false;true;true;false;true;true;true;false;false;true;true;true;false]
[0x0;0x0;0x0;0x0;0x0;0x1b83e;0x4e546;0x7ffba;0x53fb9;0x38ec6;0x5f6f7;0x8ae9f;0xf4be5;0x9b6a6;0x282;0x48df0;0x3;0x926e6;0x2d8;0x94dd1];
Build_pwit (97) 1 2
[true;true;false;false;false;true;false;false;false;true;true;true;false]
[0x0;0x0;0x0;0x0;0x1b;0x27844;0xd1ee8;0x6b214;0x171b5;0x358ff;0x42f8a;0xab8b5;0x4964d]
(106890) (104593)
[true;false;false;true;false;true;false;false;true;true;false;true;true;true;false;false;true;true;true;false]
[0x0;0x0;0x0;0x0;0x0;0x1b83e;0x4e546;0x7ffba;0x53fb9;0x38ec6;0x5f6f7;0x8ae9f;0xf4be5;0x9b6a6;0x282;0x48df0;0x3;0x926e6;0x2d8;0x94dd1]].
Lemma prime_609743 : prime 609743.
Proof.
  apply pocklington with (ws := ws_prime_609743).
  - unfold ws_prime_609743; repeat (apply Forall_cons || apply Forall_nil); unfold wprime; cbn [pw_q]; [exact prime_449 | exact prime_97].
  - vm_compute; reflexivity.
Qed.
Definition ws_prime_52437899 : list pwit := [Build_pwit (609743) 1 2
[true;false;true;false;true;true;false]
[0x0;0x0;0x0;0x0;0x0;0x1479f;0x36f380b]
(17952639) (9255391)
[true;true;false;false;true;false;false;false;false;false;false;false;true;false;false;false;true;true;true;false;false;false;true;false;true;false]
[0x0;0x0;0x0;0x0;0x0;0x1479f86;0x18de8a;0x17a35d1;0x101a0f3;0x84bf4;0x66e218;0x1470756;0x2d1899b;0x1f13417;0xe32e03;0xa21c2;0x583fe;0x3b6ed83;0x6c88bcb;0xbe5de91;0x5f5290;0x140c0ac;0x21474ab;0x35e7fb1;0xb4edbc;0x3202389]].
Lemma prime_52437899 : prime 52437899.
Proof.
  apply pocklington with (ws := ws_prime_52437899).
  - unfold ws_prime_52437899; repeat (apply Forall_cons || apply Forall_nil); unfold wprime; cbn [pw_q]; [exact prime_609743].
  - vm_compute; reflexivity.
Qed.
Lemma prime_113 : prime 113.
Proof. apply trial_prime_ok; vm_compute; reflexivity. Qed.
Definition ws_prime_2713 : list pwit := [Build_pwit (113) 1 2
[true;true;false;false;false]
[0x0;0x0;0x0;0x1;0x2c1]
(118) (1)
[true;false;true;false;true;false;false;true;true;false;false;false]
[0x0;0x0;0x0;0x0;0x182;0xa9f;0x0;0x2;0x76b;0x4cc;0xa97;0x0]].
Lemma prime_2713 : prime 2713.
Proof.
  apply pocklington with (ws := ws_prime_2713).
  - unfold ws_prime_2713; repeat (apply Forall_cons || apply Forall_nil); unfold wprime; cbn [pw_q]; [exact prime_113].
  - vm_compute; reflexivity.
Qed.
Lemma prime_83 : prime 83.
Proof. apply trial_prime_ok; vm_compute; reflexivity. Qed.
Definition ws_prime_11953 : list pwit := [Build_pwit (83) 1 2
[true;false;false;true;false;false;false;false]
[0x0;0x0;0x0;0x0;0x15;0x287d;0xd09;0x734]
(4825) (683)
[true;false;true;true;true;false;true;false;true;true;false;false;false;false]
[0x0;0x0;0x0;0x0;0x15e;0x972d;0x55;0x30e5;0xc40;0x3796;0x8a9;0x171;0x2eaf;0x0];
Build_pwit (3) 2 3
[true;true;true;true;true;false;false;true;false;false;false;false]
[0x0;0x0;0x0;0x190;0x934;0x1a22;0x2c93;0x3af;0x3b29;0x1989;0x1988;0x32a]
(9006) (6659)
[true;false;true;true;true;false;true;false;true;true;false;false;false;false]
[0x0;0x0;0x0;0x4;0x17363;0x1;0x106e;0xba80;0x6;0x199bd;0x17460;0x2eaf;0x0;0x0]].
Lemma prime_11953 : prime 11953.
Proof.
  apply pocklington with (ws := ws_prime_11953).
  - unfold ws_prime_11953; repeat (apply Forall_cons || apply Forall_nil); unfold wprime; cbn [pw_q]; [exact prime_83 | exact prime_3].
  - vm_compute; reflexivity.
Qed.
Lemma prime_179 : prime 179.
Proof. apply trial_prime_ok; vm_compute; reflexivity. Qed.
Definition ws_prime_21839 : list pwit := [Build_pwit (179) 1 2
[true;true;true;true;false;true;false]
[0x0;0x0;0x0;0x0;0xc00e;0x582;0x40b4]
(2908) (2557)
[true;false;true;false;true;false;true;false;true;false;false;true;true;true;false]
[0x0;0x0;0x0;0x0;0x30;0x10;0x4946;0x1eb;0xf3a;0x3b56;0x2a57;0x2e38;0x1ef2;0x10698;0x5551]].
Lemma prime_21839 : prime 21839.
Proof.
  apply pocklington with (ws := ws_prime_21839).
  - unfold ws_prime_21839; repeat (apply Forall_cons || apply Forall_nil); unfold wprime; cbn [pw_q]; [exact prime_179].
  - vm_compute; reflexivity.
Qed.
Definition ws_prime_262069 : list pwit := [Build_pwit (21839) 1 2
[true;true;false;false]
[0x0;0x0;0x0;0x0]
(166777) (2606)
[true;true;true;true;true;true;true;true;true;true;true;false;true;true;false;true;false;false]
[0x0;0x0;0x0;0x0;0x1001;0x7970;0x2d53;0x147a0;0x7d552;0x294ea;0xfa56;0x6ac8b;0x10c;0xa1268;0x8084;0x19de3;0x4b90;0x3ffb3]].
Lemma prime_262069 : prime 262069.
Proof.
  apply pocklington with (ws := ws_prime_262069).
  - unfold ws_prime_262069; repeat (apply Forall_cons || apply Forall_nil); unfold wprime; cbn [pw_q]; [exact prime_21839].
  - vm_compute; reflexivity.
Qed.
Lemma prime_587 : prime 587.
Proof. apply trial_prime_ok; vm_compute; reflexivity. Qed.
Lemma prime_233 : prime 233.
Proof. apply trial_prime_ok; vm_compute; reflexivity. Qed.
Definition ws_prime_1367711 : list pwit := [Build_pwit (587) 1 2
[true;false;false;true;false;false;false;true;true;false;true;false]
[0x0;0x0;0x0;0x0;0x0;0xc444;0x7852;0x3fa5;0x2ca4ca;0x5708c;0x528d;0x2a5d1]
(126498) (21625)
[true;false;true;false;false;true;true;false;true;true;true;true;false;true;false;false;true;true;true;true;false]
[0x0;0x0;0x0;0x0;0x0;0xc4442;0xd6e5f;0x311787;0x12c8c3;0x1f16f;0x255d1a;0x275028;0x4c3976;0x1ae93;0x3877d8;0x201fb;0x3886a;0x1d2b;0x1eba78;0x4f910;0x14dea1];
Build_pwit (233) 1 2
[true;false;true;true;false;true;true;true;false;true;true;true;false]
[0x0;0x0;0x0;0x0;0x3;0x17bd;0xe9334;0x8629f;0x163cec;0x9d841;0x12bab6;0x8ff50;0x10263c]
(981065) (107374)
[true;false;true;false;false;true;true;false;true;true;true;true;false;true;false;false;true;true;true;true;false]
[0x0;0x0;0x0;0x0;0x0;0xc4442;0xd6e5f;0x311787;0x12c8c3;0x1f16f;0x255d1a;0x275028;0x4c3976;0x1ae93;0x3877d8;0x201fb;0x3886a;0x1d2b;0x1eba78;0x4f910;0x14dea1]].
Lemma prime_1367711 : prime 1367711.
Proof.
  apply pocklington with (ws := ws_prime_1367711).
  - unfold ws_prime_1367711; repeat (apply Forall_cons || apply Forall_nil); unfold wprime; cbn [pw_q]; [exact prime_587 | exact prime_233].
  - vm_compute; reflexivity.
Qed.
Lemma prime_541 : prime 541.
Proof. apply trial_prime_ok; vm_compute; reflexivity. Qed.
Definition ws_prime_12192593745179 : list pwit := [Build_pwit (1367711) 1 2
[true;false;false;false;true;false;false;false;false;false;false;false;false;true;true;false;true;false;true;false;false;true;true;false]
[0x0;0x0;0x0;0x0;0x0;0x0;0x1715f2a;0x51a638bedd0;0x8edec7a49;0x1c1a734654a;0x2fe3c49637b;0x4599f8cf6b4;0xa93c1abb99a;0x96c8b11c438;0x98a43eb25e9;0x15dc0025391a;0x8979303aa76;0xeb58e9331a4;0x64c87bbc386;0x529ec8f688f;0xa1b9ef78f83;0x27ecdd77d;0x362a9e5eaa;0x9d65fd16d52]
(8192456486458) (3894598672363)
[true;false;true;true;false;false;false;true;false;true;true;false;true;true;false;false;true;true;true;true;false;false;true;true;true;false;false;false;false;false;false;true;false;true;false;true;false;false;false;true;true;false;true;false]
[0x0;0x0;0x0;0x0;0x0;0x1;0x22cc1e2efb7;0x97100b57bac;0x4791ebaa46;0x8fb82a1cb2;0x55c62f99cf7;0x2070e1a7306a;0x7479c24edf1;0x3d391fd8d3;0x5c998b6f4d0;0xa12f0d396b2;0x186936d9813;0xd97b2ab54ef;0x1ce413b529d;0x4440f05450;0x6d22623e0db;0x94d7dfa0f01;0xeac92a0939;0x34ad4ef2cb4;0x6ebd0d36924;0x23214c7635f3;0xa64b5d6320;0x35853173e20;0xa6f1214faac;0x54c6592001c;0x1c4ec8a505a;0x60f910d8ce1;0x4c1919a1824;0x62a1fbd7be1;0x98d1469286f;0x689057616db;0x2119db12348b;0x3a48df1c5;0xa3cf40623d9;0xe8a8780550;0x28cc6b7140e8;0xa5e017dad15;0xad0e845a18c;0xb16cf381519];
Build_pwit (541) 1 2
[true;false;true;false;false;true;true;true;true;true;true;false;true;false;true;false;false;false;true;false;true;true;true;true;true;true;false;false;true;true;false;false;false;true;false]
[0x0;0x0;0x0;0x0;0x0;0x0;0x5c57caab6a;0x90f12ea0795;0x2b0217c67f9;0x46d786b062;0x34234117ed;0x9b795e2eda7;0x339b964aed8;0x577ebfe575;0x51a23fc71c0;0xd739c3c8e39;0x6191942270d;0x4ce2fe16b68;0x33758e430de;0x66d7bbf374a;0x284827d3a1;0x617203328;0x2413176304fd;0x151c6699e220;0xd14b3df45c;0x1fe5c535cd04;0x1e01d0f7443;0x839e15cbfd;0x364fab60fc7;0x12f2e417933;0x823dc85736b;0x5ec4b1dc0e9;0x25cba02db2;0x1128541b7d3;0xccde8c09c71]
(9009397696044) (656019246541)
[true;false;true;true;false;false;false;true;false;true;true;false;true;true;false;false;true;true;true;true;false;false;true;true;true;false;false;false;false;false;false;true;false;true;false;true;false;false;false;true;true;false;true;false]
[0x0;0x0;0x0;0x0;0x0;0x1;0x22cc1e2efb7;0x97100b57bac;0x4791ebaa46;0x8fb82a1cb2;0x55c62f99cf7;0x2070e1a7306a;0x7479c24edf1;0x3d391fd8d3;0x5c998b6f4d0;0xa12f0d396b2;0x186936d9813;0xd97b2ab54ef;0x1ce413b529d;0x4440f05450;0x6d22623e0db;0x94d7dfa0f01;0xeac92a0939;0x34ad4ef2cb4;0x6ebd0d36924;0x23214c7635f3;0xa64b5d6320;0x35853173e20;0xa6f1214faac;0x54c6592001c;0x1c4ec8a505a;0x60f910d8ce1;0x4c1919a1824;0x62a1fbd7be1;0x98d1469286f;0x689057616db;0x2119db12348b;0x3a48df1c5;0xa3cf40623d9;0xe8a8780550;0x28cc6b7140e8;0xa5e017dad15;0xad0e845a18c;0xb16cf381519]].
Lemma prime_12192593745179 : prime 12192593745179.
Proof.
  apply pocklington with (ws := ws_prime_12192593745179).
  - unfold ws_prime_12192593745179; repeat (apply Forall_cons || apply Forall_nil); unfold wprime; cbn [pw_q]; [exact prime_1367711 | exact prime_541].
  - vm_compute; reflexivity.
Qed.
Definition ws_prime_512088937297519 : list pwit := [Build_pwit (12192593745179) 1 2
[true;false;true;false;true;false]
[0x0;0x0;0x0;0x0;0x0;0x0]
(194591274223640) (1671236014601)
[true;true;true;false;true;false;false;false;true;true;false;true;true;true;true;false;true;true;true;true;true;true;true;true;true;false;false;true;true;false;false;true;true;false;true;true;true;false;true;true;false;false;true;true;false;true;true;true;false]
[0x0;0x0;0x0;0x0;0x0;0x232;0x1523aad593643;0x128a35d26aaf8;0x6fcfb90eccb5;0x1b5c23f484c4f;0x20578d4fc55f9;0xd1750336f0c6;0x1af6f95eaccea;0x2a7fa14fad03b;0xd6f8b005ccae;0x30e61f2ce5506;0xae41e7996340;0x64920a029a351;0x2f246193a1441;0xe738bb9719e1;0x16f5e9d9bf7c7;0x4008a0475d40f;0x4e24c38a8d4e;0x50cee672b228f;0x62b962acfef15;0x67014f2b8d0e4;0x7ac8765edd4;0x201b0e665ee4;0x27db89d5e20f1;0x3bcf465e00b19;0x9eb3a09f726c;0x8c6f3534ed7c;0x54918494c7d6e;0x823a3e4fd804;0x53fa3185adf4;0x5465346143c99;0xe697f20bad20;0x243a642d950ea;0x1cb830e8cc8;0x6dfbbab409276;0x27af64bad0b2c;0x155d651e7bf7f;0x96fccabc790b;0x288419801cd6;0x6389780b08007;0x1bed0297f2363;0x338a1f31e0a38;0x2800025ebab8;0x1d1bdff337671]].
Lemma prime_512088937297519 : prime 512088937297519.
Proof.
  apply pocklington with (ws := ws_prime_512088937297519).
  - unfold ws_prime_512088937297519; repeat (apply Forall_cons || apply Forall_nil); unfold wprime; cbn [pw_q]; [exact prime_12192593745179].
  - vm_compute; reflexivity.
Qed.
Definition ws_prime_1857858664515398933 : list pwit := [Build_pwit (512088937297519) 1 2
[true;true;true;false;false;false;true;false;true;true;false;false]
[0x0;0x0;0x0;0x0;0x0;0x0;0x9edd54032278a;0x18770d721a5fcbe3;0x1510a9c8d9d59d06;0x191da74d49e5873f;0x2a785f78c5a264e;0x107c2b4bf8f012d0]
(1236402836366665646) (242715108498670789)
[true;true;false;false;true;true;true;false;false;true;false;false;false;false;true;true;true;false;false;false;false;true;false;false;true;true;true;false;false;true;false;true;false;true;true;false;true;false;true;false;true;false;false;true;false;false;true;true;false;true;true;false;true;false;false;false;true;false;true;false;false]
[0x0;0x0;0x0;0x0;0x0;0x0;0x27b75500c89;0x50d1cb4e524f6334;0x2a86301b0d6441c;0x86e6e7ace87c919;0x47b4066d6affdf4e;0x140694e3b2940ce7;0x115d94fbc70212b3;0xfb85dc90cdd6e92;0x8db9ae0066f848d;0x4e334d9dc1fc57ca;0x4847caef065a49cd;0x12075b8d183b5591;0x1089f8cc56ee82de;0x7773f92cd346253;0xc6c11699b0ad4e6;0x2c07e58d23f90e;0x125ffc435b46f579;0x90f7f4e07149334;0x5de51e79237579;0x2b076ce237fbc98;0x53ef6b7a962f49f8;0x2e49b8f8bc589305;0x6f7951b26956d0f;0x189e6a87245a0f26;0x1873f87ce14018a;0x3f118507f627d4f;0x3ce1cbcce9bc059;0xc3314ff120068d8;0x57c887296789b69;0x16ed6d2202541ae;0x1703c4f6af59d7d;0x11672da413f50299;0x50b574da73de3e1;0x1ea39a657b4e6083;0x9c785a403620099;0xac52a395780718c;0x2aa7130ef2e0be3;0xb30f06f6bd9590a;0x431f0ae2d27927a;0x175e46679061;0x19476f1cd62641eb;0x3bca9b7974794c95;0x721d51b240abbe8;0x185f2f7c1ee62d;0x1756af2c457693d3;0x262c4fb088f4eb8b;0x367bc0e1b5a82ca;0x4a4131655677c3d3;0x3bc35cd996899c9;0x105536f94b1c05b;0x1895fd8266a8e885;0x10983e1d4281a6da;0x8b96fbfd759a5b7;0x56f7db354875f730;0x19c8709cad526d13]].
Lemma prime_1857858664515398933 : prime 1857858664515398933.
Proof.
  apply pocklington with (ws := ws_prime_1857858664515398933).
  - unfold ws_prime_1857858664515398933; repeat (apply Forall_cons || apply Forall_nil); unfold wprime; cbn [pw_q]; [exact prime_512088937297519].
  - vm_compute; reflexivity.
Qed.
Definition ws_prime_22294303974184787197 : list pwit := [Build_pwit (1857858664515398933) 1 2
[true;true;false;false]
[0x0;0x0;0x0;0x0]
(7523987324132692529) (1382)
[true;false;false;true;true;false;true;false;true;false;true;true;false;false;true;false;true;false;true;false;false;false;true;true;true;false;true;false;true;true;false;false;false;false;false;false;true;true;true;true;true;true;true;false;true;true;true;false;true;false;false;false;true;true;true;false;false;true;true;true;true;true;true;false;false]
[0x0;0x0;0x0;0x0;0x0;0x0;0xd3d;0xf29274623361a87;0x211b1455d0c307c2;0xec814156bac52a33;0x2c0c018cb34abc5;0x2139efcfaf32883c;0x65bc7ba3dd2dfb2;0x2d7dcdb74594f5d6;0x9f4ee21b9ef576d7;0x94a2e31d945921fd;0x424d4377232e0aeb;0x204d45d7102c37b07;0xddd2964a08160ef;0x4a656d9d1abb28b45;0x1f6b6306b2a9e4f0;0x106594c1ea5558ee;0x14d80a4f8ca33283;0x1e1ddd2197f04de9;0x1e013c2c1177dd4;0x34e25bd4a20f3ef69;0xc62bc64dc900268;0x206c1edb9b81bcc12;0x6a30e549d27a2881;0x1575307dbc1b6113e;0xa0b3da7ee560473d;0xdc5be95987ec0bca;0x2b3d7902f7e9ca49;0x297a169836cf9724;0xcaf2ae8b9c44bd0e;0x7b0d8ca02919f07f;0x53105f7b14c9622e;0xbe62475bac60ce2;0x2d4b461555d76b242;0x1b67018a28206430;0x132bd0813b0d55c2f;0x998b67c9fa1012cf;0x33dff231fb0b03ee7;0x2020c27c83cd080ec;0x28bba206378d8f30;0x3366f3ae8f37a29a1;0x291257c298243d4;0x23edf22f4ade41b;0x6aad8823ea5ef753;0x8a30cb9d96cf2f13;0x14ffbd0e1c29ea2a;0x51a713a5685d4aab;0x26860e0420fb421;0xa011a14add9a7693;0x2e5c8c5401c1fc825;0x33427404f60271ef1;0x1cd99ca85bba3e;0x1ecdc1b789725322;0x2899577a94108adc5;0x24d5ed3260e79f567;0x3372318f24a8706a4;0x46a9b6dad7360f0;0x1626d8929745c3e0b;0x19284bebcde535ea8;0x1356547581fdd1cfb]].
Lemma prime_22294303974184787197 : prime 22294303974184787197.
Proof.
  apply pocklington with (ws := ws_prime_22294303974184787197).
  - unfold ws_prime_22294303974184787197; repeat (apply Forall_cons || apply Forall_nil); unfold wprime; cbn [pw_q]; [exact prime_1857858664515398933].
  - vm_compute; reflexivity.
Qed.
Definition ws_prime_19931107752921199754119 : list pwit := [Build_pwit (22294303974184787197) 1 2
[true;true;false;true;true;true;true;true;true;false]
[0x0;0x0;0x0;0x0;0x0;0x0;0xf29ef33a6;0xd7b297fa3027d42f27a;0xa8cb12dba88c198758f;0x103ed34d7a7e79c9d268]
(9302164181215546643137) (1720031852190352550918)
[true;false;false;false;false;true;true;true;false;false;false;false;true;true;true;false;true;true;true;true;false;true;false;true;true;true;true;false;false;true;false;false;true;false;true;true;false;true;true;true;true;true;true;false;true;false;false;false;true;true;false;false;false;true;false;true;false;true;true;false;false;true;true;true;false;true;true;true;false;false;false;false;true;true;false]
[0x0;0x0;0x0;0x0;0x0;0x0;0x0;0xf29ef33a6e4c376;0xa661e593d4ceb577ca4;0x5bc253ee25b588cca1;0x26a3711f91aa1560fe0;0x1b614f164f028a8896;0x2e779c8cb956a5dda61;0xcf8a6a8202f35e075e2;0xde1696013a1ba27b8f6;0xc5d3018165c7807a592;0x310a244cbcaa39609a6;0x2827293a538a363df0c;0x23fbd21d2da4944bc4b;0x5f1bde30a29acaf47fe;0x4e1d7715f3cfbdc;0x39ed32bf30d68fd6bac;0x27e60ba0a628d41758;0x337eb89a3e53b4f2fe;0x65331baf498a8164bd3;0xedf893960e50271349e;0x7c285e4fd525dced6fd;0xa8c29512818002347c;0x2c8ede83d1cfbd8b6d8;0x383b596b03f423e6cc;0x7933b799997a151b3ca;0xbd8b6646be05332349;0x106c4d75f2437d139c;0x22fae1224ff2e83775;0x42c48ca45c560b0a9a3;0x4ca4a0ae43114b8890;0x458f462b687af629b4;0x15c7da25e134454ad44;0x91e376148b5257cd1;0xce9c3a514bcc33278a9;0x28b4747bda2256f6af9;0xd57598f131e1570e0;0x3de29a147412a2bc;0xd1819c9bb9385411ec;0x246da14308c27056f37;0xced5803ad7b67212107;0x10904fd9ffc75a00b2c;0x1b88a6d7c79a8e7269b;0xdda94383c3d6483743;0x323e14960be995e22bd;0x1837c72f0530fe2f;0xe0498eaffcae8bd16;0x1330709cd2a3c9be16;0xa4b818bc330a922d05;0x8ed0c1b3f32096de61c;0x7659a6e41b95c3ba52;0x1d5734e2e9083293f92;0xcc56159deeed1609fe;0x7ae568cd6175060a314;0x25220ff23ce2b9ffd58;0x26e4706a0f44fd12b65;0x38dca7aac9223f7d3f7;0x9bb28f33c6df79c3755;0x9e466ee9997dd07d2c4;0x683f5e0e721aa48d9f8;0x8a8fceb26bc8c67899;0x6b7ddb62ac79748d8fa;0x4b9d30dc71f039d4a65;0x120ceebc07f214ea6ae;0x2956418a34de8f9a2d;0x5158c8f335365d4b36;0x6dd6884c139f2412b8;0x2b10c5d358478c6a9de;0x1ededaf7759d59ca5c0;0x43877af25bf462b3b89]].
Lemma prime_19931107752921199754119 : prime 19931107752921199754119.
Proof.
  apply pocklington with (ws := ws_prime_19931107752921199754119).
  - unfold ws_prime_19931107752921199754119; repeat (apply Forall_cons || apply Forall_nil); unfold wprime; cbn [pw_q]; [exact prime_22294303974184787197].
  - vm_compute; reflexivity.
Qed.
Definition ws_prime_81162125843606155545104998607900118769099783 : list pwit := [Build_pwit (19931107752921199754119) 1 2
[true;true;false;true;true;true;false;false;true;true;false;false;false;false;false;false;false;false;true;true;false;false;true;true;false;true;false;true;true;true;false;true;true;false;true;true;true;false;true;false;true;false;false;true;false;true;false;true;true;false;false;true;true;false;false;true;false;false;false;true;true;false;false;true;false;true;false;false;true;false;true;false]
[0x0;0x0;0x0;0x0;0x0;0x0;0x0;0x4657300fa34b1eeb5eb;0x81e58907912ea189cda0f50289529a67ab5;0x5baf93b2035e5bfe55f7e8d751658eedaa2e2;0x49511b623fceabf9026f05efdd8568dfb239f;0x5628a6de54738dc6c56007c5b9b084670872;0x171294226231506ec14bc01aad8ac5859b6a1;0x2cdd66f94c9ca0d3d1665988b5c42233bde7;0x1d5342fae9a006e2b5f26fa1c6f31b7deab8;0x4a4a220bab3b18928c4e2054602b93cc0179;0x39d6d8d36a92a19275230a6683d052b35cffd;0x37d005fa5b8740508239ed232bf0c62789101;0x1ba4bd6b4acdd664158bb1e23cbf385500b77;0xa3be57d2d27b4d4d7c0ef5dcb38b2890632e;0x503d476126ca77eae7d23c4c309f2d76e9ea7;0x81926d22c2368111d29d0481fc0cc76808;0x36c5fc62190c620dece1958c9054f5b99618f;0x41921a3d5139ff790bbd989a531caac5d0bb2;0xa46f2bc7a57a2cfae2fb48ad16b7f20f59bb8;0x1ad4c3b1b3d490f59d1edc55c36bb3d63c4b4;0x2ee66a788681bbd9177eb0be9a2636a95b;0x1809266d5ce1727ba9b2d4fad9291847f8c5;0x6cd2ecabf1fa9eb01a4f308a88f6a470dc615;0x38cefc8b4c68894c7c975ba3f54b884ea1e40;0x44c2788979b4846addf99550f0b2c8adc2d15;0x9c1f107940bb41b5f61d593b5e84af70ebf3;0x6c083c68225520654635da76b521c4ad619cb;0x69c04d6f694b84bf389fd57b7c8d9c92bbab6;0x15d4478f8f10ef84feac3f00ca834b6a02da0;0x1af7be6a48e1b36815a2c3b82cd9502c4ef35;0x67bddd4b8a62fd28d8fbae6ee0ad0e256e78;0xdf2dc033f058ac45205a527ae6119e879427;0xf8182cfb240afd3e6d0a56dd3003ca339589;0x81809485a033ae33a88e9d86e2bc5c407fcea;0x2460a0b9c7f5b413ce8d9d385812c7e5ebe89;0x85aab37bec0b536cf0e6b171bbc79c9de3a;0x52739fe2ea692cf17cf7edd3212070de5af4;0x1b74cd1655940897ff1a5332e1024bad8ff;0x1c345916bd34a594fc96854709aeecb0806a2;0x293aeeac0b6466bab28f7f60751ec77f2ac46;0x1ce045df62b148e4084cacdd698e8eb5da613;0x279f26727320e6b00fb6a70dd4e7247b2105e;0xdf359f1d15fc1bbc4dbdce4990f143071408e;0x365f53c02c4e70275a796b82592877b70cec3;0x210de3af2b8b78466e66bfc9470af1f92dc0;0x1478562b9575f69e82ab7557d0d8b45262eb7;0x677b36100cc09a2833718c39458d9b2001561;0x12955a37637441eadee816bb135115f63768d;0xccf9cff6ece4945c40b7c5fb07eaedea0aff;0x1fc58483babf6007f72244d747522b9467e16;0x5beabcd62fedbeeb4ab7842bc60cae2edc159;0x1772380370b78e25aa4a5397a91b3f9e1099e;0x2878f40c150803c5a41b1572629babf3387b;0x1796cb1737d92bb8d74d9bf417ec07f820ac1;0x852f64b27c03542c9a0ae7c02f54d99ee8f1a;0x20fd1b796c963fc21a86cae9a22da8beea9d3;0x1868ee90af686bc53acf0528726d9d097ec80;0xf3a77edabe1404fa2399c8c39644401cf9e4;0x92b86c7a58e0a4a5794d8e51e23f492e584a5;0x8e61062860206191e21221c52e1517061eb1;0x86cf9525dc441a92a751ddacff385c4035ce;0x9ef0bcfe2688f61adc8d3a39ad277b80c86b;0x2633015df90339795ac06e72a1270cdc0455f;0x642d022b256dd64a7513e31d6d04fb382a712;0x2e3c1203cf2cda98814903251b140c618cb02;0x1214acc252f3aa8c2f5a38407f1862833aa04]
(17761861072643055516775716555374632761099671) (8297851723650343362939944844604774231393420)
[true;true;true;false;true;false;false;false;true;true;true;false;true;true;false;false;true;false;false;false;false;false;true;true;false;true;false;false;false;true;false;false;true;true;false;false;true;true;true;false;true;true;true;false;false;false;true;true;false;true;false;true;false;false;false;false;false;false;true;false;true;false;true;true;false;true;true;false;true;false;true;true;false;true;false;true;true;false;false;true;false;true;false;true;true;false;false;false;true;false;false;true;true;false;false;true;true;false;true;true;true;true;true;false;true;true;true;false;true;true;false;true;true;false;true;false;true;false;false;true;true;true;true;true;true;true;true;true;true;false;false;true;true;false;false;true;false;false;false;false;false;false;false;true;true;false]
[0x0;0x0;0x0;0x0;0x0;0x0;0x0;0x4657300fa34b1eeb5eb17e;0x729619a2b8d314af21474943b1569366835c;0x2198ab6a45fab0ede203f04db347f084cea52;0x9fde16f46d1ed2f72939b054881e24df66a38;0x108c08e9cbea7fd074d5b9bf93b8e983a186;0xbd6b22d5914e29394a08f8d823c7d373;0xc062b117fd325fdbd86aa5e578a7b809f10c8;0xa1bce330b7aca57c135cb1ed946cea14dd46a;0x4141a82c30f1e9846bea3c8a9f51a26c5232;0x256d2b6778110e51bf074543710c212cf53;0xac18d1eee4bd5c8f4d8c800ac3667e33761c7;0x33b8915c39777c0865c1d137db27f6c08a4;0x2c34bfaa9824fee7dc75d061f4fc97b2c5952;0x1d5dfb627d61b29cc1490bc564f33efc523f0;0x2867d2632bf784d6d4b6891e199a03f7a6e5;0x2ed6f8b10f4b300ac5936df99b28f74086cf3;0xb2635acc02c2e2efcbefce2da7f192aad8f1c;0x69c468fcb4830e8f94f4318318a8d6718322a;0xbe823836d484884dca9d4ae1fcea9268b9ff;0x584e4ed397f15b0ef2afa7973b3229845776;0xaf662483f99a9b2ebe6856e46a5b67458c27;0x20a5ef44857a849d7be74cc1f1bf89fec4869;0xaaadf5c47cfc8f54299f6e2230dccb956b7a;0x4d3524f52a961cc45cfabd07295b58ce43942;0x2cd0cbe97a6974e7be39a97445e4702642dc7;0xc78c9d5736272714a5369353dcc20db10b70;0xe27745fdbf172366a049bd15956e082513fe;0x43ecb419162efd69f03d1e758ba8ca884ea3e;0x18df47fb21f36bef27a938bed6e4a3676b295;0x95b2c57b965285e1e41119fcb5d8dc062de6;0x594b9f6316a914cf8472ca05411df5ce99cb;0x9792c3ce09ddd656bf7fbe30341934bd32427;0x232412ad051f965d1d219a6cec7cd2d7bb8e4;0x1a8435269077a1bb14152c3226d7b865b2a95;0x441ccaaf9d87153ebda6fa48b778d66ebf2cd;0xaba1e9337959775b757a418fa6d6fccebdb8a;0x2ea8723f3823a4de9464f1a33abed6b6675fb;0x226b7c4b592acc6180211d13e3198235b0df9;0x53eb8d76adf9b4a73d5100a346014e8c893b;0x1b6ca6d725947506b7c4209ee69d1991329ca;0x921ac39534c15c46275218c5876230dfa4b80;0x1b2c49f5353f980b6b0ed628e213ca373012;0x64316efe54d32012b159e2319d3d4d600bd3;0xbc8c9d3a5ebe787fea8a4bf76ba1c682b8b7e;0x1ed2a57035a09d58750a4414c321e57077dbb;0x427e11518e5ea7cf102f1b700e4f7ef3d659;0xb44dcaa27de3041067b2ab9e1f1b7e4e42b;0xcd73425461da98b3d953b992f840035cf5c5;0x1095764bbe857a4ae6d5f7b5fee0632811f45;0x4b66a59e7b3578466913c2c43a13db012e35;0x2196db6421802b40c2ba65d55de1aa0512d37;0x2df43fbf96d4cc94f35e8a55817b644123c8e;0x7dd52f03650f7ce6786f0118c94ccde2cbdd;0x1ab1713ec0794b0e4ae156323f88801170fe;0xbeea08484f770ac037477cf37cf855796de1e;0x30f8987c046b5a3cb9c71f7e6f35a4b89e801;0x137afcbc2c073ff0b45e542637dfec0a61ec7;0x3d3341538f78ace1fd07cb4e3294415b10f0d;0x2590f3f77d26bcd42ddcad8b2072c855772b4;0x43f537db6d5e9a8acbc13bd1f4d0cf0e6b85;0x231f3f14d72a8d65ddfc574d16bb3a1284530;0x20425de26de2417f32f57c3dfdab47bd62;0x36ba38c16ff8657139ee52666c2aae215375;0x7c99c51ca6071a4b8535a71dcb9ca1728514;0xf9147ecdb610378361519ffbbc28d881d520;0x6d4d804972c991cdf1d47da7a9957747d4ed0;0x1ca91ef1df4b7cbd07b2ee55ff4db4e32d121;0x383499356de0be7eafbb269284b8533e01b99;0x1433c3ecbf962ab3b700dca626dc251c4632;0x6c0a37a7216a9127bfebd41ca114e52e7241;0x47df0ecc023222568c60582c58c029f2eb19;0x1514615bef95e61ed45b2974070e25e6956ee;0x2c218ed936fce716556f779c0d73c8c8678;0x4f1bc1cc143f666b59e1752cd179182182744;0x77cc0938c26d6ea3ffb01390220032b41836;0x88a81e0bae2c5cf806998dde5a7934eb3429a;0x5436a3aa9a06c0f16bda897ecdb16a67b744;0xd14b88b3f89d8bc0a15920564c7bc3b6ef8b2;0x9d79b784f9ec2cb71324bb5cff0f32d3d6820;0x3070101e27b9e4a62398ba8e71f7126629744;0x21a9868886d2cee47ddf97e3d8aef45d7;0x2b10109390d5768ade53e0bf78095a35f622e;0xa171750a0f7bb06f246325b638d71cf56f9e;0x2bb86e7c3ddb3ac1d7c1ea464d1e051748b13;0x2554cc16464e3c5d116e78f4cab86967957b5;0xa430bb4ae8a418704d3d038c990dc7e0f070c;0xe2f76ee0a7b7e23c14e3a7eb4280182abcb2;0x763f5f09a633e88bda8532248e3d58f310bf;0x17a58a098317f3c9c1d01b505fdb30248f066;0x3f68f3d809346300ad3a87ef62ddb7ace89f;0x6c730b3a87c6388e1b7a0e4c3b113b991f426;0x5b4eb187dd4ae00180a0f6818195232b0985;0x5548b53a10c437193b1db6f7e0d48c8c62fd;0x551f32da3720013815c32e5f482913b873a8;0x6349daeba349b93720778d47fbea94b0777da;0x4499d1c49d443efe119e5867e1361a919bdf3;0x107dbed288c60948693ee0b0f8717839fc598;0x13425d3c49210702724e2d199ec27602eb664;0x845c7c51ba8c7f9ac2cc20b3257959f3950e;0x19612a621d793e66c6269e3df292f96cb1592;0xa6da12e93fa5cb27bc258f8cfc35263297abf;0x2218d975c9cf8ae658275416e0ac8cd7c59ba;0xb2727fa4951f4908c605112414b151f9efc88;0x14746e53717ddbdb9fafddfd8c53981867c0;0x1b1498546216d4717925ad0670901e5505e60;0x24b90af310e9e12b34024a87c76868d19820b;0xb10e12e201c66af3310ec191446d229e4e804;0x89efd81a03e53255be129ae5b1148ef13c68;0x5bf4a4e052809eb54030fc76f4eb1f226c9a;0x20e88b295d9272e7cf7266cd65994671c98aa;0xaa02d05d8232af6bc82285c4bf8b2844ac95d;0xb589576d847456b3a85fbd9db9ab590c248d;0x5acad3cc25cccddd34bf433addd6754145b2;0xca7ffa124ef7ceb9dd64bcf96e76d994c403c;0xcd911b1442bfdf796fbd33e04de54ebe09f7f;0x27f66f732b829b9ca16e02f9fd0230b4be9ce;0x235662553a4a8e00646e077ab3d9581e9be08;0xb7f9ce8b93f6b7abad5fb13cad678b27b11ad;0xe29c3b3b449de3c0f47cb44ba5fb7a794a5d5;0x60412f7627359fd082e5a469bb69e9140b1a0;0x4048a16b7b91254db9cc65912c9da28bdd74;0x45193d44a2b8621b39e70d2daeeb6a69ccc0e;0x572081b69106793a54dfb9d2f1aeda41c8e37;0x1784ed11226337c39fe03519361290876416d;0x14317331fbf064d5f846eb94828fb74f52c3f;0xce1a1e7bc523f0518ee2fbcf24e9c15adb41c;0x14ace0078cc721be87b915936e94c82de6ee9;0xeea67ea399db4ef6846ffa9e15bcfc2593a3;0x15a48b1d619071f965819c3f130887db5f7d4;0x102ddd684f633b2d372d368ac4629c23a6831;0x1b0e6aaa337568b2f46baf753cb40429b2a48;0x53dafe660fe8f9ebbc3e88b59f339914897;0x161293949be5a4a12d87675ff7f63b77922a5;0x18827065ad053bbb470f13dce7f1283e5f649;0x318e26cfd93c9eb304a765ecaad1ff52029d;0x40b27d85e07598a95548c1045e5400508c60;0x2c307b6730be46854bca2260f3a4859ea7f15;0x1433f6e139af5445d4542a70cd1d313728b94;0x3a3b20d133b8d40adad656266fbb6a7fe6409]].
Lemma prime_81162125843606155545104998607900118769099783 : prime 81162125843606155545104998607900118769099783.
Proof.
  apply pocklington with (ws := ws_prime_81162125843606155545104998607900118769099783).
  - unfold ws_prime_81162125843606155545104998607900118769099783; repeat (apply Forall_cons || apply Forall_nil); unfold wprime; cbn [pw_q]; [exact prime_19931107752921199754119].
  - vm_compute; reflexivity.
Qed.
Definition ws_prime_26935696298915610574513298451669528361624243820491956655650666425177 : list pwit := [Build_pwit (81162125843606155545104998607900118769099783) 1 2
[true;false;false;false;true;true;false;false;true;false;false;false;true;true;false;true;true;true;true;true;true;false;true;true;false;false;false;false;true;true;true;false;false;false;true;false;true;true;true;false;false;true;true;false;false;true;false;false;true;true;true;true;true;false;true;true;true;false;false;true;true;true;true;true;false;false;true;false;false;true;true;true;true;true;false;true;false;false;false]
[0x0;0x0;0x0;0x0;0x0;0x0;0x0;0x0;0x1003b00a0b4a73f;0x199613b2518a6d213d85b3790f974437c40538d56e9b4df7647abc0e0;0x50c2de06f4fdaa28f9ecc5cb5cb14240cc732cf1dcc219b94b379af;0x593f412bf5c1d309d0645a4c9836a73116cfcfc06bb8be5373c7e4e5;0x4fae55864f84de0a812d82a950d383a8e6904be4b312bbad17ef190;0xff8481f795b1c1d858a7c9d7479edb1c50962bc909ec39597c184e94;0x1cea4641e9a6964c8a38d3ab2bc2b5942a57a15ade9ada2b6039d972;0xcb1424489b2ad25c91fc705fc548d9c905addf09487e97124efcd4c;0x2a2981dec2088d8205654c3ad48b3289de399f05fa62372654fc5187d;0x1010ae2399d36037953fc89be20eddadf2da8cfdfa43d63d8abd494fb;0xee7f37d0a1ce35f31065d1da0ab4482afc331dffd7b3b84db11858b;0x31d03e785730c97e16013f4847eb66f09267c14d7db3b5d274c24cd;0x1b6f9ced54d81e0fa92d0271324b8ba929932a2a1296342b73b1e4f7c;0x1f717f7eb0de5b23b58e05058062ab8e9638757b687769fa98f59d7f8;0x109383d6c50f07c84ab612aabb3aa9fe2c429a0597e1dccd0cbc3;0x20c608467a41b69ff84af097e9b8e369e7fdf4efebd2bc79f7e10ed88;0xa21eb26c225ba0fb593d6ab9a74e516b7e39dfe29ada86d4752341ff;0x3054629bcc67a6075a209b8ec56c800fe6a535d957177cbe62642b98;0x8b0ccb241e355e12030976ad1fb21b1b1550a9c685a2c2979e17df83;0x1539e1406261db18c26e0d9c19ba5aee76c65d3db4417e97f350dbc1;0xa9c3618eb6a9f02e69d6601079cbf0aaeee2fafd98e0a383461d6c1f;0x18ae2f75bb8fbd1546b403a9d85d1fda7cf094122a3fd2d549859c7b9;0x7d11619ded5bf69500bd8cfd4642559e6afde4cc292c2517bf264ec4;0x1b93509631fde493f6585c211864b38d5c597f6b603f5d7f6b60563f3;0x11d8f393d5d88b3f8fed43e7b6791aa9d5aae64076d12ba7276be46a;0x7d7344052ea92a52785419b1550614233f75a11e04ea8105c807f594;0xdf1b15bbce267be64002287b466b8041af587cffc66ac56f744c6efe;0x4a6db7af04513f2273e556e45f4e43e5be5dfe19bd8acabefbbe0b62;0x1995d5beecd185cda0f92ad45bbc3bb59eeae64b39ec2826b08a87d6;0x2c8c286ddd64efb7c4c1f5a351cb1d399c75e702f8095d913a3f365b2;0x1cd65296fcc800f507d269157f88dc935e594c10afe7c369b3f4aef4b;0x1868b05dbb4dc8c22cc2994e35e18ee53f63b31c8711c6fc133cbd1b6;0x41577045ddfce44cf053cf104d5687d5ebaa418b09b90eaadbf07fb7;0x5118d136ae5ac35b4453b34e43af083bad6a3c29e6f6933d06940c5;0x11323df1bceee47a6c786820b2c102a556c5edfd148b0bb6caf254eca;0x94f19fa134a8f33e8cc57c1b4b0c1c64e75bd0a3d7bc64d391077049;0x4b80d4652bf6d3b7ff1193855c446022e166df27d00ac2a028efc2b;0x1fa5f6da5e4ed256cf18efa48726e08c342a703bc62cbcc92980318;0x3a40ea5da8b6970e9812b1ac51f86fe55d68378754fd111241e74ef12;0x214095ab1e0c2d06937474322faf1aeaa19394aa5080b9e94d214998;0x14d4ae9512a915d654e1542a5d67c3c476e493b8015d9a66606cf4c3;0x5ea47fbe96fe239ce2a6d143797c0627c7ba67411d46dddf2e510f;0x4215b14f036ba47d8d351b1edb8a0f577bd21168aa14f7da84f9b90f;0xc0c2694cb1b02695cfbe5f9a2ede087137643c21107eaef344f9ae0e;0x2afffce5a3a729bc335ac437ce36657b6bf79796bf6c284cb6091f9f8;0x21bb1224e9f098289b24805eb4fce412451f4dfba80b39b576473ca00;0x7287c158a1f24e39f05b4032cb4ba0ccb62483d323e80d29c868b638;0x108960f984798402163bea6dbaf7d5786b2972822c39939e5b6d976d7;0x2d86d3520af40fa0cc6a08b322123d03d332cf1606ba8f379a05db390;0x1e86bc8e225db060200b33b2d9856977d3bc593f10aaf997522d959cc;0x4e4a2675656314032b390f2ab3b1254c537fbeeeae36df36e9d58660;0x36f530ccac0efce332bef0fcc165397cd1072edd500cc2dfbaab9ee;0x3143dc5ba6ce9be10b6a93a1d201eb7d6db18c76e316b14bd1e66e01e;0x32cbfbb866cea1696df603eb2c74a1076809ac749de9aaedb884233;0x175cce2b4f5d1a4084433690d21ff47f17cd0a2f8c270b0d5812e336d;0x12bf8b5ab281af8fc6e9b02fb20c20a75fa77accb0faefd4463f40334;0x3b58d0970131652bb30e25c1e3f41b17b16ce2ee2ea573d009457f1ff;0xe0d0b95e188953466243ca167cbd1ca57eef712a430e0de265a0e2;0x695c841f1c99fe0d3856190be29a56167c7a337409dccbd7d3b63b64;0x362c16a13eb5e041cc8b638152444547112adeedd80c407072a3a7dd;0x26c5129ae06846275affa31e86c677541ba35828a1589432da1985a;0xa5e3f5ca4231bb6f221d6e02ece8006856c214ec9ed0c747a1318350;0xb277d3eca741c0164aeda26be086bc8676efca0963df757d3e6ab152;0x22b17f42b17aa09cbe38b00518b3f20587f137151c5bc3542da983592;0xc531e1f97160970a7a0f5908f64a526a4a2d96b8ecc620ba3f7d56e3;0xbef607060201b12b3f76db089874617dbc3077f96f2b89eaf146040;0x77f252388fd2d8ed6f387641c06301c1fbb4f732fee026ffd8e3c6bb;0x51b46d0509b44edc37b12e746f4bd8e476f203e66d7e1e64bc8ee826;0x2ba022ffa6155aebe0c59fb78d01e8ddbf1b96633f9c9d9e98521f5b6;0xec45706e2acc8d785ddf8810d76c2961d1aef5ac3a96c3d28ccb2a5a;0x1fdf52b65cc31e8f717b89e6159cd64afdf8e3fda74426d5a6ed81]
(343018900097218335727188288694046116764152099260135964239395187015) (82732287457528176083163708104897758152934207321955484304120903437)
[true;true;true;true;true;true;true;true;true;true;false;false;false;true;false;true;false;false;false;false;true;true;false;false;true;true;true;true;false;true;false;true;false;true;true;true;false;false;true;true;true;true;false;false;true;false;false;false;true;false;false;true;false;false;false;true;false;false;true;false;false;false;true;false;true;true;false;true;true;true;false;true;false;false;false;true;false;false;false;true;true;true;false;false;false;false;true;false;false;true;true;true;true;false;false;true;true;true;true;true;false;true;false;false;true;false;false;true;true;true;true;true;true;false;false;true;true;false;false;false;true;true;false;true;true;false;false;false;false;true;false;false;false;true;true;false;true;true;true;true;true;false;true;false;false;false;false;false;true;true;false;false;false;true;false;false;false;false;false;false;false;true;false;true;true;true;false;true;true;true;true;true;false;true;false;false;false;false;true;true;false;true;true;true;true;true;true;false;false;true;true;true;true;false;false;true;true;true;true;false;true;false;true;false;false;false;true;true;true;false;true;false;true;false;true;true;false;true;false;true;true;false;false;false]
[0x0;0x0;0x0;0x0;0x0;0x0;0x0;0x400ec028;0x1fd790ed8fbd20374db473d374de30358c4de2a889d204325e5ff957;0xae318ae6f0a28d5f2cc2280f7f80af30e6d5311b8753353585a225a;0x213a5a5d030bd2cf796226abf2e9a2830cfd37b13b1ab0e3ad527475d;0x6c64c158fbdc0820323af530a8a2239083ff046e4dc1d4e6e7a8abdf;0x9ea54bd6e9e3da316b24636dd66e02245ff2f7545ac017a3533f7d5d;0x5a332740b468f09fc0c4102f79129f81b0b22b08a9c2e65226920f65;0x1c2cd243172bf743afe8813f76236c9ade1638e473378805f3242aba;0x3228e06df3d2ea895f6a47d4c33f07a407fe569b54b55fcd8218567;0x6633e021d682f5c2adff93d1480c7a8db0d34dc55b2a551508732798;0x44c1b80f1eb7f1fd5716aa9ef080cff8eca7d0208397faefb984c3;0xf7b0576d34e92be61a0054f2ae7794c66ed5452412d2c2a504f5bee2;0xf727cdd92362acd0b41a262b98f08cd8a6a22551edb761944606952;0xd06396a68b79e244ddd7dd086eb9f7bbbaf33fc5ac847de3f4b0fd40;0x208614fc55c2f725e46501e48a3830e69a6252a28da4f166a05773aec;0x12974d47710f3d1f2d0345011efb24caf7edb372f45da6f9a7951b365;0xcdfe4cf489afed93537801bb91505f9aaf9b9e3b14a16dbeef0d69f9;0x9285e53e95e85132dbf16de67b6a7d8ccfeb24c3ab6865d1fce261d7;0x398b0fc72e28db92ab7f315874d0389b7e9365ed250f888814244281a;0x3c628b73ab8fbc42dc94ef92441400ddb9403cc9c90abc8ee940377ba;0x11c31db2e3b0180dda6f62dec351396a190a148be8cc3cd53312a2aba;0xa39b8faabebc8a2151197d21d7b898498b3e140fe57edd1e38054412;0x1390920fa77ba454070ad351b176ae187b2014116a029e0442e670df;0x10293f427511d0fde9f54b4f00cc4d05dce0a3f15fb04ada3d90f9c3d;0x72498c15f4bd3f2e2763ae4b14bbb265da94c0929376dc466cbd4b4a;0x9b4836e30164848ed810e1f2f65b7158ed012701158027a91493482e;0x51fd7f8fbca024e67d41862f554bd7eb2bb6ef487a9c3a25d658f06;0x53ed4fe1fc9723479d3063e70fbffd13f173b3a06100f5f25f19cb2c;0x17395e85d293a7d73f38dd6f8a55bb60cb62c28216751649821cb833;0x1508164a508e0f5803958fcc93289f153efa93f6b11e859f9e70e9221;0x77919fddac23f9ffaf6c43b520cf351c79906d9699549317a2d0bdfb;0x33737cb3a7c217c03ab6c0ef73f80a3cbf5148df5973aebdc5b0043a;0x27b90fb1b7e8f05fde50159c8b64511767ceb825fcb2c84bbf0a0535;0x33b679f02f59eeacd6fd9f609e3fb9acad85738762e3ba100605e0f76;0x1bd28dabc134c91c80f7f8c069cbe4219440026192027825fd5d594d5;0xe0df27cef6eb702729e8a2d1144e62b30f653f463953187f9ba47fcd;0x5f1fc809aeeea436b3c5056374a592df401004a8c1dd4f1ee82a0b7a;0x3f2e3e4c1f1b98d9cda52600b11f7a2933d17acca13019cf0862a284;0x7066758f6a86c0f3ed75ee44a4fe159542b54c11f1c6e43c38038b20;0x982e491d0324db724617da804565347596135266f10bc3c5b35917d9;0x469fa1ffbba15953d24f1dbd63a222bc83b7aa2f59c946c21645669;0xe09e29d6bd58d9c9025846a8d627cf05bdb587e250b893ef8515e59b;0x265d1389bd29cb38026a919bc9d866719d61aba4218b157c7582ba143;0xcaaf17cb6732e96f868afb5597316793389bd93a23830d044a0aff3c;0xe6a5292c2ccb5462ca31af284994ea0090acd6d74a7e10f13317ef9;0x9a5772177a341026a1a79f6b5f57608057e68b78541d7586b1df9e7a;0x263824eb72c8552c3dd74d20765f0497d8e9833a1365d3ecf3657eea;0xfce30080fa0f69e82577c36d6cd3ac8f2f3b6512f9f1670ab316d1d1;0xebdd1374454508d77fc2ef2c9ab13b824b1fda17a0938e8179f534af;0x223815abdea5058a0e88b697e13d442a52ca43d1cb47e425bb5eb6c70;0x9a2f60b1ffb6698d2049daf0d9f1b6a8e49900ee3685574d765607e;0xd07b1af52a83f925a4afe3ea9ef92b30dde080edd5f262b456b2248;0x1dec0c5e323cf357f7e4d4270220d90e0b3880f313ab3fd31d06c5c00;0x58e294af7e2cebaa3f32d185c3dc75a90bb7092c7512e82e8f3f75d6;0x89fe7e21b274c62c8898a21adf27354434a227728f6d9d89b170d1a5;0x8b87ce76e946b8728ee22b2360b9e1394cab412618bb2d1e395ca6d5;0x2d6c1d467ab3946e8b5dc005c46cd73cf278c1cfaa9bb237d4fa5af0e;0x20d0eac9e9c6b63170ce8c3d8acc2dc722346750517262c0be8c79ee;0x1265b9e5fb733e871b8c9cf6d24f3f542a86ce9eb69990f9ae83458d;0x2eaed124410abcca96675fb1ebaa2279a2c9facaf59cc037f1925c5ea;0xf8f22f79be22ca57440a0517819aad069cc8f157236fd4f2413e39a6;0x747ffa8f11abe51c4f45cb72d72ba02f4ea53f6943d6b475c2ca7d7a;0x33bc9c12e6a9cec57490f67ddbe4d95599070695181632289121b9d5a;0x368d0883bf57535bca43272d3ec46a799f0df6468c724361803e3abbb;0x7feb54f964210e5e713997129e0678f5977a982f249002030a4bc41;0xc0a126b4cc938d7269bd2b1e0e653ca65bf96ae9ec7eb74c85348541;0x3aebb432a131a4c6a1ac1737febc395ed0b6bd6fa124100e7ef3f87e;0x6338f96b37ddb63c942ab84a7b6241f45df3faab96ccb3e6ef19339;0x2730cf8a096aaaffad230301dadc1ee804b5b622cefe00babb5215b9;0x3c9e9dc49508082926aa9f07f3d3a1dcff8ba0e90b0870a0a072ad49f;0x4446d68dbd590d11b5725079440cc868fa647fc9632c18817f66e262;0x1eb2f8107bb5d87af12047fff52896bafcd22b4e636b36717e854a;0xee72a76c2cd2a5e4decf9ee1bb3cfe339c40af06bf6a9fda335c128c;0x1637d89b4455b97315a0459ee35cedb2eaa8695d62c96ad19cc6eb8;0x3593854d267989c93e5f71a754eed5bbf9915928d6279e2f87e95e904;0x1d17c5c77c758cc0c4dc2d29668b4f75431225c4ddb05211886f0a7d8;0x3f9542adeed063ef0141adb7e047f3343fb7936ef41cc88b004c0406;0xf368269af0b65f8cc53853ba61ac560e2b6324f914450715b1cdc4d2;0x492b2e3cb8febdd18280fa16a2610c35c2dd57a38fb31c1e2d380707;0x47338c4e49647e924ba01534a57a629918dc64b817ffe0c3e03f53a3;0x90da0bdaeab592721da94ace8a3ec9d6dc455c94edd3c0df3f3cc012;0x345609e1efb5af2e7189f7cbe1db025dab0b8d24e05e4a1c39238a4a;0x114dffbbddb084e6a0a2b9a64c0480f6b78515c055805df2cc2747ee;0x252ad1c759f732c429ee0bdb1abe53b2c6ffc2811c395b3d5d4a13011;0x1a5fd4170ba5eaef95e8000f4c851a0f5008ad78e39b1e543f60a614d;0xe9f8a9e6747af74130ae0b54c92cbbc8012ef4a620b81e3ca27a065;0x1665c0d52a5d7a4d0109127e7df605b4cd161e3923f23f8432664b7a7;0x35b2f581cf8cdf5d294d425aa5a2491f9fd965f59cff08bf2e26ce68;0x5d0d5f98d715fd46a57c91672e738852c6e44ecf27bcb8c05d67c549;0x39810bd62030a03874267fc291cf8e2eb00a1d314f60d6730f9d34;0x247d5f91200003fd16f516754da7e24defca30aa31ed3e582454fb96;0xa395c9eb1ec5520b438ed1f87e392a079e24491d33632d1bb898df02;0x3d29f7cb63fdaa387d2cf19c5914e93a735e89c4e32bdfdaf8a622b1;0x1246db0f89e45cc94dee1f10a5edd1e8c8c1cc107048a929c0a596f9f;0x1a6730aabec47d02a87f504ea0a5788d7750a665654364e2ed361bc0;0x2d26ac7cacf071f643dd317653b5552744f6058accd4eb0ee58895458;0x6978a0ccf89227489bf862fa36c956a4d0cb1da306114da65c7963;0x7ead893873a65e8c92dd876872abf023ce04112f37b897e33b6b7291;0xabbb79ef70c403698ff2b42a23b2f304c585ae3f409c64d1a44283e1;0xecffd3821708b0bb89c9632f016fd21b47d06385c1cc446221602814;0x2cf106130d2bc4eae9ec4af0420deebf45a87228e883bdc746f5c319;0x6b637c1a913d87bc9a9aa0adfdeddaf1d552644cc3802e2311b6c301;0x6753fb5f512f33205b6615969dcdc81866b318ac467f7f19aae337bd;0x3b3bfaa898e5596cf61731489078179160bbc99ac9b3551647d22f890;0x1bb3c71e40e2161d4dcfe8068e5c395f3ea8064878bfd3ec2a5a5f569;0x2703e2ec8a97fb47a181898de6335b0e6f348218da9602cb210e54e8c;0x18b53890e58a6d4e88275ae145d5a2421950103b47e5ca17b806d2cf;0x8455a8fe997299d8952ea1a20dde69f49e32bf7de938657aee11b816;0x433706fde038ffb159a91b07df024fb2e2552466307c123ad128c040;0x1a4187d02d755e99c0bd16a052e8b2ea69492539fd72cf42bf2c4c9c;0x31a68c030d8209c43be5f5b86f80048aaa772480634537af6b732c20f;0xbeed19e2115a3fe42d0708f55672b75732eea9fcebe31045bc9b86;0xcb97849b9757b262501660ca7ef163a19c5984e7a7c1dc199f7ee416;0x45e1822327779d26ca21c887351412407a090d9cf39920275c0268e;0xfd22f4da4ee9b551f7121bc64de437bf3d3c616384bb71ba173e15c4;0x90d102f432e438a42935f06aa7e047df6729c743940c78390eb578fe;0x801a048093b14e5beeddd1833d07999b23ba8df73818b5ae4b6916;0x1442f4b9c51c9f0f402447d2563721172ec09d2057be09553874e6f68;0xe51c7e78000edad0878afe8745d319ed2cf34647996b287d883581b;0xebe977e960646efbfb428074537b081c9695f78a0b52bea5d05fc9ec;0x11099aabae4bf09aa94fa377f19c412bc6b036f05632dcbbfb62688c;0xc1683e248f08bb720b482ba55bf225fec7c8045cb5f8a5409c3366e8;0x830027d76d555ab4c468917f99869cfa3ae15569222194bf1afb1c1f;0x272a2ef044d27435c0cf2d7b63fef806ab0d8cd769b2b073c987be7;0x1736d4cc8d4133d2a2a633b5cda3e40faabd39a9fb99e07a56846120;0x5a08e423cba013f0048d964160ab7248caa1be839f2c3bdcdc43df34;0xd207f7705ac74cee8104e898a218c22e29da26d7b408064df632013c;0x42cf2fc87c2e2ded9c8dd3923b177d5f33a391da9572c43436ca5394;0x48a6e889260cfa170d11aabf7c718e4d57a0b1a592f7c4ec42fc98e;0xab35f9eb8bfac2818cadcd804fe47cf2b1a393a9e0889797dad2879a;0x6b71b8f5c060b5b7b5b0dc77108da36d65c942d0118bbad7ebcb0a27;0x30e01146533a4a7832a7555c744c3fa1dc1ac976c2b09c64c507b14bc;0x34253ebfc0bf2aa30f2a85b73707071b7aecac4ecaf5de38101c1f97;0x179578f95686c52802506a7424fa6b94ab17354f50fbb45987f758d4d;0x495af0d5bfda3aa9cf3acaaf7e006018168a998d7fc8e11b8aa43188;0x9fe2654dc6b2aeda239978f281c68acd815fb26d4967c98b34f297f3;0x21a436806dc1c552c1c3585a14b5f8c74365b2022a26fccd5a44c340d;0x673764f15facd58426f61938f322aeeeb3f1ee5ff7440a50bc7cf7dd;0x380e40e9c61de7c3885c3b44eff3725b5c6d61be184ca8dc13ec25f;0xb010a620332be642e93f8083c424fee20034248c69d7d0fabaf4c832;0x432b6ec3d12d77f58a4cfee7e81a83894bb33fed69c19fd40db339aa;0x560a6f9f59d1eb65d885bd4783d39de87aab76b8323857a407c29f14;0xd2d31985583d6f119d2d9573ae5ef0b46af1326e0a058f04baefffc1;0x18cd2c7c2c04334d63a7760da9315af7f04da55a92d533288e19cce2a;0x385abc35ea621f9416273ef71ae438b766007e2e9d2467beeb96797e;0x5348123e765cd6d0fb322d8cfe555c82e1ca29dd75224dc385ec6e11;0x2b86920b158c08e713a22192e7a10d3ef2416c5da5f2d8a16ba629f1;0xebccbe57562efcf40531597f9131575e3759ed10d9dcb85871219e4;0x586d65baac90518851cf08acc19be40c0a2d065336d38f5c32bf8d53;0x3b11e00e4b49f4935d7c79342421572cabff119705e39ad8ec294dad;0x2b8b3b29cd2275dc03f2b555912f40ef6385aafdbba8e30b094a1496;0x81aa849a2932d553d330f205d8e95bf5c918ecdcaea1457d7b1aee;0x1b6e11d4b8d1b5c81684198b7faa084f57ddc51ff06d75a9663e99ae;0x10b8063ee211491fa1cf6f5796d300c7676f6853b8c0a4eccbf8a7ac;0x521a563cb67a77d40b71aa8f495901f55a79bf8a501dfcfaa18e899a;0x3008bfb1e5352835ccccd4858cb9a2f3200d92adfe78bd0c49495f2ae;0x8ec77d5ccfb91d87ef6628f86f973ecf14a993e7d7435290dc875a5;0x13537749291e6abc83cc0fe2eed45d263f6d5af25cc4a1059cfcbed26;0x2e37d9ea6c646a4d856d2e96329d93c5da3b9df3d19eb3f1824e30284;0xc58829aaa8acaaaf9a2113a574ac5890621d1bc0728ab50a35df0c34;0xa77f32b25979fc57d628f8a63a91e591846c0ae727814e6f205d27d9;0x29ca596ef92035778985ed29e936d0e2d2187b9cfefdfce7a973dac8;0x4878884474444115b3e83b8f341d39b3800f9b2f52eac3bdcd344c7e;0x22c60c5a49decad5a68ac56fe79f4aa2e470d2ee1ae500706a808ebf;0x7959db6d6bbe4cd42733cb4a46daad95a8ec981d1c826f2c0a99c68a;0x371e677838b62149983979b2ae3fba5951a12f770304e4e15226af08a;0x219e143e66d45fd9c604483cdbfc86105b76525947507e5a520f0772;0x14a2e99c64c0c8caf0a5a39b264a632c7347655964fecf225dbd343b4;0x7639ef1277fd2e117f8da1e5ab4726e52d113f8a873d62bb84e4af4;0x19d52a3f35fcce96fb8454985c03324617998792bfa10ec3e4fbc4;0xab61ab3f3169faf6d4c826908b072c3f4e43d05f9cf2a1966df181fc;0xd99e4ea86715666af3d45ec0619621cf885ff337d0065114a729ce19;0xdadc5fc54bcc998b0e6204e9f5a2e026f47d15a19adf9e2e6e55a96e;0x24fdbc467dc6154be1ceedce0d31b43c92d1c3a288ecb39c8c0ac5eec;0xca0c6c75fff8c9a5f508df22c1ff15c05b98af91083605bbcbc87b8d;0x37653739b014fa9ec189d0888644b51e67b2732be677f15479f5ab3c4;0x11899212a741d3e61d95c02011adcdf721a3387f2c800d45f86f8292d;0x10f7579f0cd185370937197d35867f8b43c2b212e112cb342b85453e2;0x2e0b15c9790b59599c4e0cba2b2263793af79c3ad8fb58c737ebc18b0;0x194cc2c83472a61b174ecc77532ea823a6fc2434fe42b8ce0fa8590a;0x2e35029b7e2941ce13937b3a194af207dae35f6a406004e045bc9a;0x65ba0b00b6f800daadd660a6ad36ed57f2b483249658932310fb7f1;0x1bb80908730cafe9a66b35e46356adf6828b689ca7e28e5c47eb3507;0x1545d594400ef0b1663b8d10c40e57fbbd645f36e7df43ef95bf0db91;0x2a6a81284212c807d735e5fec72e2a8c5f972a20c8d5c802f9ce12f;0x11c41abc0955189fbf3f6bfeca05dcc8c6b8585790ed80c2e498ca75f;0x1fcd2c4462f790d842b965764fa862172bdeed1dcb0ce6fb5393d0657;0x2b4f4fd7b7e7bd42de16f9b8a391e7d9b7ba63f824e1791742d2df24;0xa67aa9752a674588ae142ea89dd3185bac8d64d9fc9faf8825271718;0xf576f4b81d3c3d8edb697f9d6c1168d5c93d70e13f199f1879362f2;0x173fba94835645afd42aa11f77e30d8f3e7f59294f59481add97d2d2;0x15270b2183952ad36b7b0e47ba9de79bff7541d5128c6545d13fbfdc;0x62a4af4eaf28ee12161e26c0754f6f67605440d4c04cf8e212111cfd;0x1077d422b63be88fd61295556d6d860355cba5684ba302c3060694a6;0xb1edfbc61dc0cf06a9b3dc8b50c12cd48d074c7bcc3cb043322135c9;0xef104773bdf0a3615128841e673354307c08c518bb34f4a9b561a494;0x36c78174d31e6b166511c233007ef6fc392c2830c41fc1b7da4e53154;0x1aaa410948a01eb713f2b9f9487465b45ba899fc2de37949310f8064;0x7d6739257e444dc699b8de5f4dc3a8f3a4f71655a5eddeaccd4f5230;0xb2a60307fd2f4df64015706229855a62a25bbaaad4cf5b2f02c8965c;0x3594011efa1abca4fe507133bb7d539c2dd0f18e812b976f20d56a76d;0x2f566a3c57333f2d012b2d563089cffd0b7ef6d6a67f4e3ec9e0b1b1d;0x12453ddb0a4014ec87bb14787bd2e093dbd981549d593dd7666bf785f;0x1ff8c28375ff2ececbf34c92ead697f2a835e1dfbea6c4f4fa4ae188;0x93de3842fd759d086520fdfcb36bc96ad5b376457fd6627ffb7e240;0x687db2d19c23203d0fcaa83e9584bbae20a80a9d25e3fc0046d5ae44;0x105716941c1ea9b3b7b6a72cda5610cc63a5e9103895ae51b0df1b2d0;0x22670e5148fb40c415eed70ca69e496e1f04c89e04f58a41fbed39d;0x37f6bcff7a8f49c251ced7dc644c835af47dafa5740cf18bf2bed112;0xfa9b18c28867831ea822f3aade4fc77716e4944a038e6e35bb9b0eb;0x9b57649b8914345823225244fbc9c69afaf62844d905fc5298259;0x1b3a1afd68c974b0bf7ee5c8c7c5e98775f04b0a5b98cf841b030b6e7;0x18a14039374c300546466541dac8f8d09225c703a8db645787f0443a;0x14971844067feab9b4cc9e74b4de5a697095f5720f6c40ec685684e6f;0xffc50cf573c89122dd11c279f49f98d846fa0c405df437e79ea3ab5b;0x0;0x0]].
Lemma prime_26935696298915610574513298451669528361624243820491956655650666425177 : prime 26935696298915610574513298451669528361624243820491956655650666425177.
Proof.
  apply pocklington with (ws := ws_prime_26935696298915610574513298451669528361624243820491956655650666425177).
  - unfold ws_prime_26935696298915610574513298451669528361624243820491956655650666425177; repeat (apply Forall_cons || apply Forall_nil); unfold wprime; cbn [pw_q]; [exact prime_81162125843606155545104998607900118769099783].
  - vm_compute; reflexivity.
Qed.
Definition ws_prime_4638704574076146691498289350639807119782054683906549022985642612861209609656189848749536921852444848596916990932297 : list pwit := [Build_pwit (26935696298915610574513298451669528361624243820491956655650666425177) 1 2
[true;true;true;true;false;false;false;true;false;true;false;true;false;false;true;false;true;true;false;false;false;false;false;false;false;false;false;true;false;true;false;true;true;false;false;true;true;false;false;true;false;true;true;false;false;false;false;false;true;true;false;true;false;true;false;true;true;false;false;false;true;false;true;false;false;true;false;false;false;true;true;true;false;true;false;false;true;true;true;true;true;false;false;true;true;true;false;false;false;false;true;true;false;false;true;true;false;true;false;true;false;true;false;true;false;false;false;true;true;true;true;false;false;true;false;false;true;false;true;false;true;true;true;true;true;true;false;true;true;false;true;true;false;false;false;true;false;true;true;false;true;false;false;false;true;true;true;true;false;true;false;false;false;true;false;false;false]
[0x0;0x0;0x0;0x0;0x0;0x0;0x0;0x0;0x21fa0b254df95b1c70986d49e5;0x12f8b7dd30c8f3ffae01dd67380a5d9a1e8b2b1334ee946e5fc277b57ca99478215baecc24f282032c3cb38bad60ba6d;0x3193cf6d5bc3f72051bb2015b77727f4df34c20a789e151f0547bec70f19025778551e5f01099ae2f4a9b63c97f264d;0x1ccdd125f762ddc3d60b6e8e890140429d4f1e7c8820d339aa5c6222a73ba459961a5c4991f26b51082bda8e2739ed5d;0x1a3ac55e69866d1efedd231af5c6aae1dee5afd12f7e1c14c685b00b74b47aee2d96e6ea7d74792d60ff8d881d22281;0xd13ef68c4f6882a4bd86e1f59fc306c87959f5aaf0e181e72d3ef71aeb864c52a2fa12c3922c0714532a8caa1100fb5;0x182645c20a01b4d4f5c58c6574e9a3530899ccad576b0c83df65a19ea79aa8e09ebfed9d8f0bca0e87415a7fb84ae5;0xefbff629b3724d14a40e9fe382cf4616f35fc77d056eb7153905353215c90035100ee940f02fbfd10909b0282688303;0x208b11a21e6ccc24210b8834bb0571c8068c0e7af98e10d0bd1e04c05c3633a30e37a8b618918e67fbdc69f9ba44148;0x20b8ac824962244e260b35c198866a51e093256cebdcc4e9ea6f2cbc1cff4230d6e29bec5120eb439143d361bf49eef6;0x33927d9b9601df87c4d6316331c8055df790d902b6a457dee44395d3bf48b7c12933c15a8fadc016498617d50b39cf4d;0x8226966672ea4ba80c07b201622ff143a4765ccb3f5cc44908677681c4ec792d53bd6c0799a7432445ed3cac3fe838a;0x9b91fe8f0d3416d5bd8153fa640bffd5ff3b743ced030bdb9b6d3c5c8b2a0e276a84e82289523e5ddeb39bfe595f17a;0xb703f0743b8c7c7dd7ad35c2c9ae3ae2a5086cf48de27ca02e2c1f0a208a98dfef8b68415067f3ebf04ac7c60e332b7;0x19dfdc0e33fae471a5b500798e74636d473f0ca0ca56762e54cc6c62adfb5afb1a26ba661c8b20973f6807ff849708b6;0x6523f3d0caef76299fb304c3dd2d239926a01d630174ecd55ba586dbead52c996c6d09437c0888427a3e8331965b706;0x448aedbc2702afda751a53f25db68742d1b0cf6fd8eb3cdbfe73a6c524cb04ede89710d7b92d6647f0ae2ca721d802a;0x18d9a12589a482d2e8e0d4f8290676cb505e301b94b27b658373862f438ab3a3926961f7bbddd34dc6f4e323a303221f;0x1e1feaf6ffdb77acd9e009479d9790a1471448f53b5a0c7535fd0d19e22fa644ecb6d5d4351d3d33770d66935fc1b0b1;0x4bf76b39821f51b283a2c0477ccb94f6b2b4a6d0a0087e5ba84308111b144563b7aa42f8d5e48da79fbc034f0f9417f;0x27d7fae097937decca6c91c6e8d49e4bba9e5afc927dff1fd28cd927e167c6ba20f5ebae259cc6111a8881a9b555a503;0x109eead7aba5fc7ed145fe2c48dd294ec65bf625bd52d4238256b6115cd8ef150190e2d55dc6d10bd4d3f602adcb6ae5;0x2abe18efc964395682db3cb7e9caf6f71fc6186a73db22af342b8d21c7ce14c3f5fd22bc89e204590ce691f827c6690f;0x9acc2a2fdb6550bad80e151b53f14dee7ffdd40ffd626d15edb1f429055270ac3e79909e3f4eb22d2dcf4cd76722a3;0x2924720c8c475c92ac6a7bb3dd280ad4af6eadf36ed8b2475773af43d695ef76d12dc978729fa7a72c818857fdab5eda;0x38945a36663dedf4b53fc44cb66bb4870ef848fe38a755bc40ba6afb108baa7b6bda4dfe31d735aef05dc5322f6b730a;0x34a32bfcf5a3657f3408c968d8336ca754b354a382b26fc243dba7eb154e888dbdbf5a54eed5c3fe290bb720215c4a7;0x150e32b00a25361a5484339098db50f1a03d03efdaf5854a2b5b8004f84f3425021ed3b21356c3ebb4824fdb27d3e894;0x21b5b8db880e309507a968ce81644c0455bfec483801263c2454c45ade9241d4127cadfc253a4932367c7cea218c5b82;0x2749ec2556ef6514e3b4c34e4a4003ab5913cb06fad5ac835f668d18d38371abccfd3b648855bd5f1d4006bdf8eea85d;0x1add3bb34149b7654d4f4b55bde6943444b509dacc2770ee882883473fdbfdbe4e5bdf2813d0edc37568147b819c9369;0x8471741f62e94b2c8294471537b51784d530c5c14512990aabe3d1a81118d817d3daaf1e366867cf9cfcd0c973bddef;0x3a82cc4a641a26c51fb4bea66a6178b2afb4eca7f05aff65c049b4a278fb15f258962e4f75e2a999cd1bab180f18b7b1;0x14aba339071246287266d79b99ae691e13a8bc9fc32d963c01cf3580f8d6cad36255fc0ed6c074fe78b10f413d5cdbc4;0x15bd100dcf297cf240e9c961fcb91e1e188d78ed800723ebafc667fb1d8d622e1ea7233afde7df8222775e9b6d31b987;0x693c4008b744e6b8c2dc48100200f28da0e393cacc6e2497a49f3d55c087dfd1df62dae52d540999f40f34908b1f01f9;0xa07dcede4cc8f21d3e3be3bc7fc1c03fc6c6e30b3f62967c9285266b328a49d55346ac4989283def0a5ce21e7db1fd5;0x1ee69b5cae24e1dfe017481f6d53f6118022a4c24d5963d6044e34cf3c823448f6040e07694ee8ac1b7fec6451606cb;0x13d97657d07d4495c0a16c0f29967deea9bf940c728a58c04f017a889b69078f9dcf47684f98a138c6d05875a3a03bf6;0x84d90904fa54883cccaa63854ebe3aed6395b1dd0cb0382c69d6fd3cb90257c57f1238f7ba361bacd18194f44ff447;0x127a48e812e193e89ff0ed3e38bf44c3ecc0528a61dd4608eeaaa7f797f7656900c1c8170eddf0e9e5d6f795953068d0;0x19504bef958525b7b3790e89df1acf528ccb1374afd361c405546c45508f8e9502fb7ddbf2beb077fc9b2fbcd93453fb;0x4b39ddf868b4df7c40f13bb4516eb2a99a0d42f714344866797714ff824c15a0995efe6378a80b2de0a8602c1757f36;0x399c2b7dfac42d73edff5d95b1c1d88594a768912e8516bb3ccf39b148c03a53e96f5717522cfbd49f73d955f25b0f9;0x258c89912dc4c65596f4167d3357962427d9b4e62b4542a424a0df584826458e186d6b24ee1f156cf4a14676e8ab439;0xf28bbf84f8260a1b8a8a03ae83e3797e322b9634fec2d1405b8da6208a829315265d98c9a95f602093697b2034ce382;0x109f46b0143e51b23ac217d890c72d60718d0c77870c84ffd72c511182fdf46071c1ed174b9d990cb599c74583cb6e7;0x65272ec53658d6c93462656bcbb8abd12b5a12b0a9dfc9c29e6552bbbb1f57948ec55d2769d23e8b934bd1f7707271c;0xf0dd4d3f49e4a9769ecbc33efbf58845c3b281da83ab3291ce1799161f355cb74d55d19310acf08e2ebc02406c4502f;0x6fd7e78d2cc1d2cf2c6b8166cb763cadf87e94da1eef6503854bd8f1d13d96a9128dc8e9d2cd344492c6ab54e1621814;0xc6c14bb16a0806ebc8a38e9c1ffbaafdb10f30015334651fac55b07866388c590017f4f76044844cf92f433299df31f;0x7ef8bbe537f733d57e9eea18c45f743fde87b7f1ca9faeb3bb8edb26c75c7779321d1e35dd13c1493e3b121ee7f6e11;0x7ee4ffcb861a1d3840c243ed246189582c904953f3be2310352c2c97978baa9d176c4d6744733cafae47fd518f372d4;0x17e33fd654ee2c986f3660b85b0b2bd870ff20343de728c1609122dcf3ae8f52a76ea4d55c8e26c86b326f797711ca3b;0x66109f45d1ebd2d172447c50c68b37c1e08ec43b08b9fdcaa3e68e8a10f55e6576975e7fbd3beda6b878d95502e93ee;0xd3c69b103527cbb54879e51878d417c57e8d806ff2df0bb1a66589bb9abdc42e8bdad5588c95ec83439e7d3436eb13;0x3c1af34c8bf07bc6d991d70c2ae2866cdf74ec63d976c0102e2a02abf8566dc488f987b141651255bfaffc0ec60a859;0x12bb95d81d50c64ea7ab4e1fe02491ff79f965ff588182c6f1a2420ab136aa9dcda8044ddfab6702ddf486b404339cab;0x121ecf374af5b09834b44d5a7af3e5bd7b094a08187d96ab56c5f8af42026ad0eb63e816355d8b722f2371558ec6a154;0xd156afe64d53a82fea233ef32e09998cd65fe1673e6221da14ab17be6877364ab8af53c179f3c1a42886816646021fb;0x180d6ad5294314962673b4f58a999791a2a4a40ce12d817274a8467ba02a0548c83f0b46d2c4f6e9a36d18e946f7a0;0x17844538749d7e42a2528a294a1c5db5238d7c110d29d9ea2b546490c06dbf67b17bd2cae598d1f9b76b9e72c7ab610b;0x32ea903e6524b0af14788f224ff8258dfaee1bb33ff32330a41c53e3997caa28700d1144cf7d4dda5d680f3517b0a170;0x5122558a21fdab600ac6ce054f5a094e15a6bf0c898e00037b89b59a608fa955e6d097878aed46158c79bcbb8584244c;0x310fcc70c6edf09222dd7441ff2b77e9e919282e637bb539f98b13b7b7f28ec689f68095f8f0921c8f5df3bfab9c4d68;0x9c06aeefae043850dca869af29e331bf491406fb8d7bf85878d60964097ddf74ce28030a6e45ce8cb17d9ceaec59ed;0x1ab760a044462df7335d3592df05848b7308fa4e1485d904258d746a6a03217cb70b41cf7835631dd41420d1349ec1ff;0x4d171061d5a34c9f80603a68c9d1b961a0071dcef8cf0581953fd5770ea9fcf27fd7b5227b5cfea9fb8019ac5b0c7f0;0xf513ef981dd2ef5a31a1d546a8999732e73b1aa09d30c96e804e1e89382ef900075607e1c2bfa0f0278a93ba6737dbc;0x32a3ab44514da7f2ff6b33aa041b6b9bc728bd541c971808fd1e0e5c794afa82f5048ed52872b73be18e568b5f6e2eb8;0x412d85072073e183a822ec739832667111b2a84b53ad35b8e91f4011b006a72522fd2a3cb8deac5eb32bb0a688c4e9c4;0x55e5a9fa7942f4b603ce0c557967ff7457a2966a4db273abc3d91676ebad59fe277a53235ac6dbe600b2de0db3d00bf3;0x66a26a08cc4f17a79585a116c8eba74e0af0baea44dd1bf09ed05809351c56ed1f699bcaaa09586d4b9b3ace51d3bd4f;0x10b87c9cd853c87b4ed66e59089acf0ae300d71a6a3f335b866b6070057cd16db3c406bb2095eb7b36be063148fa558f;0xb886598d41f39b88f9bec092333f961f0ff08b9b480849dab45ea6c4168c434b8bfa4c74b1adf307da5528853fe68f8;0x1c662c08ef2f7bb3b95bc2f2072e1e36a087794d11e5c05ba1c3458e767637af6854a6eae9219d7e3b4b22c235823727;0x885332980d59f456ce2bc4b305a3eccb1839c4fb343f8157474a2aebca46290dbbd778c20b7f2fa5762d30168b4e001;0x1736e69298db2df0a4d457b0d8d69e600e3c5582e24721a509bc502b1b43cb3924ef74da3cd2ddacad79e6659c3e491;0x5d562ce62aeba368c75dcd423f291ba6af88f2d7effe1d680c5fa2985b6cb166ec5b5bf2c923a4ea269ba1f0558ce640;0xb0062cd61c4e35f814eff3060a3ec74c6f908ef96591b46645a877c84240d085e3306649ab6890ebefcea6b7762713c;0x18cb84026a489aa70b4ae26b60be9a986f594c41e75eb9153f00d9126495824e767bfb79cfde4d96e6100db8b0d660c0;0x1b99b6a419b3db6ef7c42544153fa0a2d42f656c73ac3cc4f1daba011d9ece144cffc086a7ddc13b1f02869715f62a90;0x76957fd20028985a2f8ea71b6baca778d78625d405bd3a04fcf9e32c12d0e00265311113a21dd6fd5b12e92e762a930;0x2eb9997ff351c98dbb9fcf26776adc5800296c2ae341274fa11aa95321df5668e4fd3d7d18fbe02228c46db9b19c00a;0x1e7e3679f65abb12ca62a158c08412f67137823facc6e3de1e4c44ff4b6382926357563544c5d28779f299d68bd42e12;0x1872a6719de34dd716062bb407a76eb28f4e949c188eecf084816b5210644424b105de284444d25b9dee59599f95ea60;0x2a1b0d2cce95b91a1356c6d1d35c2c0ac15d453e25e7105c556ae79cdc198f874a21efed9ccdf2770fd519a4fa9a69f;0x20ba450d2df9fb33554ed9a01d7e2cf8014accf66f67e6ed93cd59830e3c22c7c613d96633c6b5ab3533473ab7098d25;0x502547c083d97cda802d577d834881c3c1774b70cfcd16dc3bf4df66076b45c947aec93a632fdac227ee6c528c0dd1b5;0x9bb200e2000dbd74b7d2f6c0a157153788089c954305e3f88999e087d73f293ecf0aa1e39b9f011908ff1ed04a7b56;0x1e919c26c65ab587b8e81b3c93e3688308fb92e0ecd67bdaa2163494ea299c63c2740dbbfbcdb0c00d0a59493c7d69cf;0xd8fdc5a8555b77a618166b50d3fa848589b3cecd7fce71cece9843a123257be8b2b9f52d57dbdf9d00c2c3b2898029d;0x7be1bcc1ab383ac1cc5e797b90281df61d0148a38f56c75b612d078a6c500a7b2b69923e48a6d40153de50c26e1ba43;0x743190d4bb8ea1970684c01d1b637bf740747360c5c4f1cb7967a521b269ad66335c99e2110c643fe7021fc7b88b3eb;0x2c797da9ad69c51fda1d6e104b2583bd3e2e06f8c4da5e61cc2f85634a8e010ab919602a46f5adcf773b490a96e7011;0x27b38abd31008181214c4639dd20b17c49be521bfa71c83b3bffcf278b6f08fa70a5045f3dc7974c4167cbf35a4df07;0x286a9a5910efa25d4d9bc3ec180e27c2ff27e08cfcdfc79502678d48b39107f28ac6e6e88b9bbe8b900e8021af95bd42;0x4c74c2f8b768d90f7882a63bf81f64078599d1a10378f1e855786e20df28c136e6d4f1fe18208bbe8df866c55ab56ad;0xc10194110812bd5d4c9383355cee08b5d2e9027a46a73f271b3c397c07016f9a6e39860a13cff9fe721b63672c46bf1;0x8f48dde051ac794fb11a28f27f22719dc8f493882d5ec3a69195f4397e098c857ad0afbe2b63e29ac7a89487e1acdc;0xa02538722580777ad4a6cb7041e3ef448cb1a8a8967ad0349982da249e75ef188c8af4fde13659bb13e9dbf0be6c4;0x186a6c8da07aab0565bd4f930232b73ac9f40f628646355a601430ecb3c33ad170e2ad09b63b3122252c6a24b2813d69;0x24e49700fe2fc4d9b310f9ea5fb31e7f600ce4c30150780f03b1522e7663ac1a60194ae8a6d1e18374e6e6771cc91943;0x200c1db62531706bfe17434edac4bd57fe8b9e2c35f27cb7afebaa33130b2d42d20c60ae3fce4964ff5a1059b27d62fa;0x9bde4bdf619ab1a88cfa536f3081d39ca851b1a20b429c11cb1f372a28a343ddb3b71ef955801f14cb88eebdd8dc19;0xaaf593a520a5af1be02e98dfc19071251f9dff3e3509707331f27b05f96edb76d69e6395b54cc3839454032e9a52332;0xae1fc201c6df151f74029bbd7d36c1980b4651e7163f8c60b6ffc2b55b18a5bf4ee89b82f6cc8b2427d74c09c3feed3;0x20fc818589b0c5cf3ffeeda9e77ea34f9f141d21b1098c5ccd63fe861037771ebe6ce51f5810150c7ce027d08ed7024;0x1154ec5d43f3d63ff76452c41421a99f40b1b1042940b3b5c4addff066c95c7a84465071b1962df1f4dc41f4ccb2a033;0xcb10a385004b65c42b8348f6e37ad5d6bbf2cbdea4c98f68eec31a81d52c63fd4781906bbbad3772787fc20d9157dce;0x1d5e8b14429cdf6b9d3334dd345a5ed20f0de52630c0c01bbd2c92e12bc805b5cbbe94546f9148c6e602ece54e708957;0x2644d5f641366cd71a79179cc3b5cbaa1b993a05802b4361eaa4f8bf8841d8750e5e9384325272f5b875e80d372d1cd3;0x90b6bca1df88078427a90bc4d5bdede4e61f90339b88c46f57b5f62b7038f2fd97e4ab43d571ba4787a783280fcdfa1;0x25ffb10ddd5ded5df70b990b2724e54ea9982988c20561802a4ab8d9f52a956ea4e0a5c70745b4e0464877aa5291c7fe;0x14815913735f5c9701bf9c628283bed30a148247ff0761c8ce63916a3941e4950ef7720b01b54052a36b3e62a0d009;0x129171faf1080237e4418a608ab446132abc10584792a531df067771bcc5e4c602780a3ce8baa77499907a941ae1201;0x54bc6c62bce9296c86c14ac0332dbe09cd727093c750dd86bb707a011f716f8de68f23233221d1eb01208abf28179cb7;0xb899c0c9299215708970b6cc9826aa78daf47b4c4faca188c3b4022a0639d391cc59f28b753a9c44bef49bf8b2e2b44;0x1e8ac934f582f138cd997dcaf89a363d543f355b74af76f90be94020606be36f01d29a25333928c9e29d57fb8cdb9c20;0x6c70726122594b3ba7dbbc987356d157cf8db8d1a68142e96b8565dde2fbc115edabac8fd4c7be131bd8c9238f930;0x40276de2b2ef87c4c8fc7b628c6bb1efee110f47b084ab72c9db0b26885a81f6d619319b959d2d02b686be76c38f6a56;0x4f3c3f60d864cfd78962b35f75d32fbf320d74c8dbf5be0027a6ce8fdeca2b28b3254454a5767a4624997aff4b02de78;0xf5fc17e959b39caf873364fc00783473676031a955651cdf35004063c635992d2c2b8a091b02bfdb7ed5f1a330e8c0c;0x1314dca0435e860652a1deb41527a92a1338e90d7f31fbaa1fffa8334bf8498eb48ce2158292d9ed646b359a729fe3fe;0x24ab17c7636bcf192c3781dcff671afcef7b87942d6b34c0346317dc275f61e338aed85d07b48a4465c5060f8aa5c79d;0xe4a4b8cf23b9beb511e8bcfa202cc77a368572e0b6ccc4e788623ed693f4ec77165bc30e3e1a914a4dbe71f572f8517;0x76c5aedeb36c1be347fe73d09405b11583de15d47406b7ee5975e3e952f3de28c0a3371a798254e9b655b6da56b26c0;0x47c4eafb767256514f244db7f4693ce6e9b87ff76f121dc27643cfe8604692a637dba64a5b2a0538989f2cbdc9e6a53;0x1c9e7164a4c2727a26ce9dd707f0c87cd9ee27c40e5a76c5eca88ea7819484f22d309a66d21ab8e31544f25c2ce49423;0x10ae579a83187a5f83ebfce2464deffbc9aa0ff8538271a72cc7a09ac72ce37406f7b81dbed5279c1fd484d8b8e16df3;0x99e0baaefcc43ba4627df3501bc87eeb184ac3ed05110a44459b2e5b0b545a5d07109411e8619482536d4933795ce49;0xd1a4409c4a5c1317f2b06849e8583a65f3e9fc71c02fa0439befd5428ea4e46e6caff3093d87a6222a46a297fdfd04e;0x9da5c8bac934b36bf53aa583e9fe5969f838994a31307c012f4da23c9b19c17310a97091e942e5e94dc7740b488adbb;0xefcdadab2e72a968a11013cece36d1724e548d1ad2d29ad8185d22511cda9f8bf79199a826fd97037b93225092b9615;0x1463d509461a9c07db79fa640afa32cf0ff3df84bf51af635cea78478afe1befd29f86b4d5221d5a5e334961a2a04597;0x1c04ffc8761ec97d236fb5e310cc899cc2e193e6a3df9c166820114001e7ccb0f94ae7fb1b7016a115edd7ac664135c1;0x72c6a672de84e61812a321ef133fa816490ded8e809f0527c8e017a329d1056e804fb0d3a0bede4eb01079ace0d2540;0x60253b5ad6a83ef115d5a24c61c42dcf07fef6b5fba0f016eaf9b2de84fb78e10a2c7a276ae8bd66cd74886bf1def26a;0x3f9c7fac5fd0e2817cef8c0213b312f7ee55f43a47fdb6fc50d460e071f05fb1d81bbf911a2fc26b7847fbfa7c4b81a5;0x671b6e7cdd6967651f8a0300e527274e0ba5e4b8dcc73e04ae7998c7a611fbb0a6e30f87d8a3e1d94f98fedc01c6a7b7;0x10a87c2dc20663a0d973b76a84e891df113e277b0f9b11caf7de962e320a6e27da2484b546334159edbcc49a52a1c597;0x253aeb3e35694e6f6253a21672409edd2c2f423c677fbbb35d626a6016ff22dd0f8c6b53baeb4c06fc5dc3cd83d8c73;0x12f28fc959183136d4378805e2aa6a47bcd9bb50d8a557fb9470a8f4e937c5e98731b6448e0c4eeefd8e11607a329139;0x30eef070b23419a469861c7d1351a983b761116ecb94b0379ab2c63a2f11429cd0e4a16f8916d9d166810e0a7b249ae;0x78f578c42e2c14c1d4976e6dd2c45b885a1ad27ef48ebe2814f266e66f36b415b897517e8043bf5da78f9288046f92;0x158d7ef2656e9adcc4d52e6bcd29fe0a2a2afa3b9b35156e47ccf057e5fa720cf2b901432eb0f4af7a0214a68c34227b;0x15b5c0f51961c680813dcf52b74b2d7b475cc324e6b8c1e22d0d52fa84c491ea52b9b16af4ae04e355589377119f071b;0x11b46822ad43e75e59419095bcac895e2f7d75cf987474523f2346cf9367bb7a84640a5af43bd5f8d6965c380f2caa27;0x97c415848c69531cd554907b5c370e1249b2c99fbb19a10b1810db9a910e8259a398f17643607afa3f7a81897c76336]
(301179848101838158637429221577536891252586276265428575942064732005081606677345289555941200827058757267344231180072) (57502527054838020269106976559681710678919672986558618138974031450701229006864073851626303472351614709051792057679)
[true;true;true;true;false;false;false;true;false;false;false;true;true;false;true;true;false;false;true;false;true;true;true;false;false;false;true;true;true;false;true;false;true;false;false;true;false;true;true;false;true;false;true;true;true;true;true;false;true;false;false;true;false;false;false;true;true;true;false;true;false;true;false;true;true;true;true;false;false;true;false;true;false;false;false;true;false;true;false;true;false;true;false;false;false;true;false;true;false;true;true;true;true;true;true;true;true;false;false;false;true;true;false;false;true;true;false;false;true;false;true;false;true;true;true;true;true;true;false;false;false;false;false;false;false;true;false;true;false;true;false;false;false;true;true;false;true;false;false;false;true;true;false;true;true;false;true;false;false;false;false;false;true;true;true;false;true;true;true;false;true;false;false;false;false;true;true;true;false;false;false;false;true;true;true;true;true;false;true;true;false;true;false;true;true;true;true;false;false;true;false;true;false;true;true;false;true;false;false;false;true;true;true;false;false;true;true;false;true;true;false;false;false;false;false;false;false;true;false;false;false;false;true;true;true;true;true;true;false;false;true;true;true;true;false;false;false;true;true;false;true;true;false;true;true;false;false;true;true;false;true;false;true;false;true;true;false;true;false;false;true;true;false;true;false;true;false;false;false;true;true;false;true;true;true;false;true;true;false;true;true;false;false;false;true;false;true;true;false;true;false;true;true;false;true;true;false;false;false;true;true;true;false;true;true;true;true;true;false;false;false;true;false;false;false;true;false;false;true;false;true;true;false;true;false;true;false;true;true;true;false;true;false;true;false;false;false;true;true;false;true;false;true;false;false;false;false;false;false;true;true;false;true;true;false;false;true;true;false;true;false;true;true;false;false;false;true;true;true;false;true;false;true;false;true;false;false;true;false;false;false]
[0x0;0x0;0x0;0x0;0x0;0x0;0x0;0x0;0x21fa0b254df95b1c70986d49e5;0x12f8b7dd30c8f3ffae01dd67380a5d9a1e8b2b1334ee946e5fc277b57ca99478215baecc24f282032c3cb38bad60ba6d;0xc64f3db56f0fdc8146ec8056dddc9fd37cd30829e278547c151efb1c3c64095de154797c04266b8bd2a6d8f25fc993;0x75de8ff7aaffca199d4c6c28b767ebdacbdc3e601d5d09f75b9bb36b5cabad222ca429bbdc2a1534a23b323b95f1f53;0x4522ad46ef686f0f39ec305e1832873988ef27460abcca3b21787b24d50acffcd4112c89bd5957f800b714d3d1eb1a52;0x7ee20b39fa0c7a1f8c781b9e5646a3fb6268fb1701afbf2c70dee76f5d1fb359d5ba70fe465a802492400bbe5e9c89b;0x6f5819df400be49195405bdbc4041a8bffb2a612ee519320b62a6eda09d4660bd5e01921aa88fceb878efe1a4f9b6;0x80a77d129bdfa162b315d874748087bfcf7b115312d0f16d361a8e04a6b2ddb94ac8bc29ee48d4705c8e2751d6682a8;0x31d165a5baf752d52522901e6f864e72be8bf537b5676ddad7709df94dbb51fd3ae8076c3c9e9b3d72f495747ff2ed06;0x19ffdb2f25b5fa8158ff8e815c3c5d7cee6e213d5063fe8a83ad65832d9e6d71179165d9934bcc2a9fcad50bb1644a9a;0x9bedbea600b0643a684e47c5c4f04c4b950ec671ea86c4e190139bb39e4e83a5db51c931f172e8c8b1e1241c04aa3ad;0x46bf7a1b8c4508c9bf046681ce3b7dd60729948284c4bd0bab66d9e251841456d08d3fad2053aed419ca838d75f0f506;0xb7102d1d92116b0a56fe93af84bcc4d37a164f3d94c1e994d308df699236f40ff011b83610d9de057471dea8b12aa34;0x144aca4c53715db3689c4676d2fbef03a5d2490523f6c8186ff1f5e5e1866ed4d47f8dd32e356685369f46efba7ffa9;0x14aad30ca35b462fde35d47dfcb4aefa0ecbf23d7503a3b7ee90c928bb9fe3debbd09df56f2efee8f17689f40b7f46b5;0x3bc88324ad4685ad15ab7a32e5e3f437a9450f9976dd2102849b16dcad1203bfbbfa81a3f743a27abac3d2081f0e558d;0x19e8f675b2dd952c4c156641c4b5867539bcd11d49fbffec1b88a80d2722ba9a13e6ac3fdc17b6ed4438e256918ca013;0x46aefdb0df481dea59ec69ba38e534659b6df9eeef9e72beca6cd98718d4a803c289c490823acf95e539249b44e2a67;0xffbc11cf97ad50246c07c880a7d79dce5cc7b25e49c4c808dda2775272d0c069ee1df5b4132b45703ee8aaa27d1aff1;0x26bc5fcb8c6d8733782c94f843767a7e5983108eee599b1725a0a7b5eadd7fbe8fe0e166e05dea53a1f7e459471d356b;0xdef8714b1efe6eb7ebd84a3ed4bc77665d1561312f9fd2c642141d72f5bfc48fd90bc6f81374ff6d9b84a2c3a2ff;0xcfc085912e4c09d55f66c305dd764d89da0304695c9c7c8a861d32c12a994331f498fed9c61c75890db6013127921e6;0x10291633d086be607a354f9aa5c04e020cad543e4ec80ca899afc57323e441857e1c6a5862ebb08ea2c42092cc2fb595;0x544d16a275fd04d716183850c69e6e758806c1834150727ccb4b572aad9bd862acbee6f1bebb70fe073d21dbc902a8d0;0x3bd3853fa9dd52b885772e3db6b1c5221677fe856b573c768c46e7799560355f116d420c5df65c6ba083315479b1f6b;0x85fc983473f022e494fb3ddc89283fa3f8e58593dc30f6c8f0f4c199c1ad6611e04e3f5dfde0bb6147393d9852f6dab;0x4684e3680363805ba5c91f593cc10a7afb84d806c140d6ca4e2d98d49146511ac8f3fd62db7a9a9cc6d3d596fca9d1;0x13bc72a7f51cac3c3eb56c7a8a7b3d5e158ef9a88b8969b40d5115c5a789278993cd79907487506c32618b0b84e4fff6;0x3660e38270ba85226bae492088af0f4b5999f804ac1128eaa397fe3c91031360155260adfab129e012c91f8c92e1ce8e;0x608d07c36cec90a66cb651aa2863b8ca21f4df1d9e2b473c85167e71626cd131e47dec0c2a1bd0d4cfb9a7e28d4d00e;0x1b48aea0ee55e1ead4444ecd37b66cb6076c3e52e2e7145428e9be06241ff0119e9224abcff4baec8c5b3ccae05f799e;0x46404e5cdf731b6782af74637f14d8d86514e82fd6d4c4cd5f80e0e3dc00747ff5bfc9146e57eed4cd92a2b8c009f3a4;0xdbde6bfab7d98e299ccc5130ed3e26cee3c5bfdce322a271d01a2bb3bac172b10626e3a9650a139f15752dcd006b94d;0xd392b578dadfa015bcb515831dce13cc42fd2f1ec7a1d913f20438a554853260903cf504bdd7b0889ebe7e7837500;0x188dea811571c20e490b767cd1629c4f524fbca6190c7f2e246adcc1de353f2139f234cd7051887d4ef4f7fe8a888191;0x5e8c7dec6ec27a0fda6b812f33df9266b759c073839e0a6acad471303a50a421c804512718d6bd1fb957ecb7f30c4876;0x600ed1f14e2fd9149731e3a68cdf38c214e0423639399d19245303ecacc4dac2a518b22e0dada7277d52498006de572;0x198ae7399c75307126334d3dd326f6ffd9529652b915c66d70784aa226643cf3754bd1e93d588618f50ffdc9c5f436ae;0x62df0510168e8d2d296a4e398d792cab7c371c88ff3a980c139c1de7d6499deb524d3889be000c31e9157f63bfbe8f44;0x119b742dcf045980ff3f0325a123bb3dd667cad91d29c0115fa38a20adf615c159bdd7c832f5d90ab62a693948df995c;0x4e1a608e710951d50d5a37cb29bc3e04de29fdb75aeaa2e6d92766668c81c18f28564f225928f0836799ba069c2fd03;0x316cb592f9d061b30ca2f9fbe041617d5128ed6e1d2d91add57f1fd84321ece6400eaeaeed7fa7d9b272d7ae9bba086a;0x1a62e23ec60bad10c7f402d620587c86e1c7bc2e944d6067987849c33f75d93da21b54213a76f670f4928a44e37f2ee9;0x239f4be0947948d83c972b4f0b3f3dceb99682e5dd2ba8758c9a4f5620bd3131c707f8ed48036f7a4e93036ad5e0de;0x805249798731943c75a3a0c7635973471bc8e21e4356e8473627425930e5e4a98a7bd97502bfa0a24ab5a92783072f4;0x612eaac28fe8297f41587627d5670221570c183ff5df2adf5fa3698259a46b0756331dba405f5b2175e2e8fdd09ee5;0x7ce6bf14a214cc7149134e970864dba31038d7eee23c64977bd72b216849795ed2a2b51a625d98f73b07bec6af860a;0x21bd3e0748806030c8e25c373395f8815d31618250cbe64d1bb97de32aa840982bf084150c5e2ff9a5e5c6881d6b288;0x1f92eafe8a1fa3fc6259f43314cd24c1aa1cd0f61c7b1fa1ba0a7a251cc569e361a50d72facfa1f7cbe1368558b4305d;0x30ad2a3472ba48e3954af81a0aee681a79ceb0d175dd8f244b52313749ef70f3671642263bfeb13aeac2483333ee1a06;0x3e82273b9b2223a745f39df2da41c67e738d8b4764f1486df731852dc41eb9ed7177de270055c8b602cbf7034c638bed;0x9296dfbbdf3cfb3a1d9d80b4dc288667acf467fac3fe705ead375728f241a32dd4bbf1099094299962561b50c2f6bf;0x6f9ffb56c3ccac3c80cd4ba8f10272ac7f1689d934112567b0480f8d261a5fdd3a47bfca5d651a230e38776144c20785;0x3693d5ec5f3db2009df2d9e6e0b60afdb50b10b4c279cd9f98388496055f0d133b35760feab89662ed9071dd96e2479;0x4cb0e52bf2bccd74651184ea4b42707eed523e55137322a05933f7d65f88fbcb4f7cd9f2bd6a21fbf1a04c7da5108bf2;0x6d4e4a360a027b7400f8dbea4d53e32c29f42df6211eb585e6c9c033a25feb695bb22bbcec11410163f17c8e4145142;0xb402d5adc80e27cd504e34c4609c52a35b31a8078416abd5706d8658bcf6732e0c16401d0cabac709c47e3d744a5e00;0x21a035d1546994e0a695195635f72d968add8811710bea5d0da68653954fbf8bb4410328290767d1ee5273dc07379907;0x610b0871d41c3a602b801f1421d00f8c1d08e4401a6303334f01d3ce303736dde185e82decc35d011377e2a99643c63b;0x364760ef4f7a76b48fea1d4e450edf87208c927e2b54c1df3adee96584ec1dc17e25e2a64fb75f151e99644e6b4e9d09;0x2816b7c57ef98afe9df90ea8b13bd8f7ac98caf324759631f170351f6ae3822250c27b9893646bd4fbce6f510c80e13;0x5d9db8f83e824a4640b7e6ec77d886fff0194fd87f75708ac85c4ff907c0034a7e1fbcfd87cca9c6a26de540b9278;0x3927623ef708d9d50b7e010cc5442ad8385837008a78d4f14a5990903b6cb1c392e7f7fbd31757f2b3c33a2274de628d;0x8658c1cd9b792736197228d3c43e5c7d98db5c81f91937cba36240a98e4bfaecf1f77496916c2a2cf6dc0803b00274b;0x4d4057c676337a8a3cbd5d338aa6cd934b8e1ff70b89e3bad3ff2f613742d5aea41c99f932578c9cf8b162a13d0055cf;0x1317f68d8efc6c75c7c17a434f48487342d0f20fd1200b7bf11e0ff816febc344378ea20bc301d9ac6301b8692e7328b;0x17e18041b093111eb62ae38d08c32746932e13191ca0fd6adaa4c92baf2529ceb76cebbc8480c80d4dc862fbf46760ca;0xc3b60fea4cd1784e59fa00861b873606719bf554a90f68d6905507fadb2967440382a39614fbd3775ab9666e8b24a4;0x596bb7dac96e32ea49c5020fb92a61ace5dd2973c79bce6f31d36c446c515da35248a503d402c96a5078676db378961;0x2f6ef64a4543e0f6d6fe08208e5c1bc0f2e92e7f512375b6022f635686daf494f5db92e0c10f1013c05108323c002b1;0x56a7ad2a1510be068cc0ae0b0cd7b4000511ddb685cc4a7948f743a73f98fe119f2d4a61a1d57e7c6d4f590ed847f3f7;0x33ae2547d5a27667ec4be211fb1a50341da80e8a64a608e11873db591403a4ea7599e77b0ece645cd854d8e79ac12f;0x6088f84ab98d2070fcc8ba0646bdad2e71a02a4584c7fea53ab2f4c84582f25c9413bba6c504f31a4a6d3456b45305a;0xb3f9e847f42d088d921d53dde8c3a034cdc774a448a74a1c3055ba64eb3a181df47de4a5d895b4562f996ee49cd8d4f;0x1f433db798dfcdf982ec669589b84bc8e62a858c78afb010b0cd3d1f605a43ff66c9d92b66828c2e744234ea974a5c;0x5f0d84e9ac24ff856473a6dd136bb5225e38b1781627347d9dd95e49c6e547e53731f2834d5323a4da0dfe8c17e4db7;0x147190cfb4c1d4d7dce98a84c27d6962cbbc54561b46f27fbf2ce0ac8e084b32291c44d8d1e6e33aab641284fdda33f;0xad548b7204efb9d8dae015185d9f45ed06718b75a48c60108cc697fc90046a1c426fc894be8229051b91db88517d;0x43f06a525c8ef2f9ce770f6d9280e88ed24ed855ed05ddd65a1ba6f1c97eca3d1ec50686fbb964dfa26c2a30e0c51cd;0xb2133be2bdbaf448e1901895a886e10f7b49cba0c14bb470b01fcdd5fe998026ef7f1e472e7c77f1b9fd9a573b4063;0x2546c9daf8b891969c11a29d2c7a876c736f4f21c0b6498f4b175049954adec2c77b13fdc9eef1be1f54ad8d8e789be1;0x592b4abbca65701001322f07bad069fdc99444893e8753f8f7718e6e6251104ac476ec443072882d12d3b8effd62a74;0x34cf652886239511deb39dc7e91d1455583eacf1eab43fa9baf367e8eb07a6f1e9a2d356a02c857d46cac449ed9032ca;0x2e7a34cd22ac173020e18901abf55318b7427fb20c4a61376375390226833fe1303e2cba06172af24f62990587a750b5;0x6253bfa7f11dc2a22696759f62711dcd4c41bde780810f70035c2193702e8172f60fe1d9443eb828acf120c6f02bcdff;0x3bd77d848918036d7741908a0c9edffeb044ec689a89f6dd0be68a25af8ebff702758d434ccaf4c6ae366e4c7e36af09;0x2de1751045886cb68634e6ce21d67b757f9c458f99bda7a9e1f734cecfaad2ac8973bcca44ed16e2d380dceb4ac8b8;0xc596f66f95271f27b6b0defe382ba6d9dcb6de011b86d845c6c2d73aeac661597aed0a97a9b73c87543e53d2d0a23a1;0x6fb4ab7737ba0e9ba9b9ea2be9c9bf063af582ca041b1478c6b5f7840e67f7b764720e7711162c630b153ab2e4c36b1b;0xa3069d88337a4505bbdd97b641b80b7ddce23c5f95d97576bd299a686e4591647391963c516328af414c6f782ea6e08;0x156dc8a56f9404a4cf1ea9fa51c6404e3256f70c9095793b40e36f88662bd4d2978c04fe8163b6e38cf1c9a3e56dd2a0;0x169bbd4260998d27571cf35ced89236d53d3303c43228dfc55f0922876b658be6330f30839eaf5be0a8c5ed721ac6b25;0x254305dc570d40e1ab31ca971e4134a29f827dbd7a9f96cd99d59b8ae3a795dc4d25c4e106e2069ee5ea6baedbd503;0x84609bedabed328e2640013dc955829dc5d2ca7344426b48d794de70e11d949fce9facdf7c31da434449fab3fefa951;0x222771cb3d503ce45d8dc6152bcc339ef76851288d3a6acd02c678ba8e5bf88c48c512b284cef10287051835f93a1cb9;0xdbfd36e603fb7864cb9659a1e81505d16004116e3b9dbb6d2cfeada3a215bf98af6d4f7f3d1bbd413a2f542b6e4e695;0xea8de11b6c3fceb24362426b4bfb8e912b05d92bd57bc064431d0248a09e9b37a2bc27bccd5076799f60f2a54dfcf46;0xa28ab8d0241b9fc9580741309777c63dd123442a989e531ba5ae53cba35d2eaf2212d0e78b356b4afa1c0b3699ed0b0;0xe9d8884243fd34e69aba7c1ac29037bdc3e58166f2a01d48ad07eb74fcf5e46b2e2a6b23b0acffb03633cbba27ab15;0x1bd0b585ee55b78a14e1bd11e08dac82a8e5e263b695b6b6928fee9b32e66f86923405656bc6b28a017dc3eed63d11a7;0x16ea834e561c35d83c5331dea3686d0414287b3ac3f477cb9e59e309f626060c5c874f1927ad579822b7123276081cd4;0x31d9720b4f3d5206cb8e2fe27c572f584f5f2b4c539f53c0bed9b63077d9d6f6e9dd851fc5cff38339f866e30c526cae;0x15b115195ab3868c0128255d4504587bd6aa5487b5431224a2a17d2957509a0077350f0c790bb424cf41b204e1f0240;0x1b4493b2ef28ffb67c66c8e15ada39b22b558ee95332a38f4ad0fd11dc01a05b9cf83ae5891c006d11cd69a87c7afe15;0x122b464c3a48d905e36ae288333795e08941bd1159d46c31ab1b7dffebcbe8e01312f407f12db06e929a3b1ecd4f5749;0xa283903d5c9930883d65764775ad5234d0de635e1abd9675f46659022a5d16c0d73e97f15a26586ea9cfec2af75719c;0x2d236332ddd9e021f18f4e0001b75a9bafef2ab0aa98dbd7d84c2189546d43edc5a98ac67c791873d4a9785d44a23e2a;0x610a061f7570edf439404854e11732b4caa4e4a6a115576561f0a226465bafc192888eb402cc1785879f0290d754fb08;0x17ce86ccc710b50d5f6ffbea34d9c4e5f93017cf9259c086ba128178aa5bb5305f595ac936a7a2820a765dc1db30bf28;0x6a9b7f12375c865a6fdcc96278590a7db3f14789fa59d1a6b8d017c3d67473d9f2890866f886351a3581a2e34a8ddbfa;0x27f309526459fc89941658235628acd3f5863e72185e6f87f380477ee211ae14d10ae0c42a0f79e6a2c9211f7381bec;0x14d5dea5e9bd85dfe4b69e364a4d6cc6f3e13be9710863ee5635693b6bb263c454c1a8b99aefc0b94493f45e07f6d934;0xc17da3f55042612f993c73dc814fe957083e7f59963c00a1ce517bfac0e8403714c73e5276a830380b4fad5add6e093;0x1474556b95f14443cb8fa61ee85563fbf1961033c4bd6b5113984e732daca1406741849103e5e589f85dbdce5382fafa;0x1a839ab325362dc9def8c7efad4f2e23be19c64493abfc108415af780dc792b8d7e491ab736d03524ec0f2e4e0ba9ff7;0x17aafeac71e222e49ccaaaa473e8640e054e2bec6bf1ed6953e82160e0da64b8abc2c88fdda1b388e254619e8636e35;0x11a197970ed719fee9611a849f9989267905e6e5bab3d2971a769677107401a3f69890ec92ec0ffc38c0cbd5881861ba;0x5a2352d1c6e2f3cb66fde5826518288236d9dcb951b189d5079dd55780af2af7a3ebd6fcc43256a0a650bcf874f9a42;0x1c2d23a03b2d3eb49bc9f282952cf4d7ac7a455998160b0f80fb592e2f2bc221193b3611efeda82a3cc12408d59e0ecb;0x102398ef88c7332a68aacf69e3121a71257e6f6412f23850dd7ee635af0f38bd1615a1381323486a1aa0aac0b00b7484;0x44be4a73d0ac5c34515030fbc3fd9b01ca69bbbde80ae1a9f89aedc8ac4393bdf8f070d2ee45e5ef01073519134512b;0x600e0ce99f580a36360dae6ee2c59b4526a58b8ba2bc05236eab9f8ad1cb0c971293ea2d3b7f857537cb2f2b2f68d29;0x66d80c71224acb82f80afe987a5837c42d45dfbe135da520bd4d41dffe89e96fc5e18b84a1038413bef09d9c380a6269;0x9be4cfddb34e2f05955b97eefae4a0960f2e73be6aaaf794d5c3bdcd31defb99eaa17a086ebc45b3a85ce1111338120;0x36d84eb449ad68378907daf7f5f429fef9f8800fa80c3e2df9eab1af84e4d3e741b64e669946816d62a00d59afd114a;0x178f5df9c63105da2761ff90c9d2941bf4498af8ba07951780f0eeb6ddbe6dbbc91ec9acee2dc5969e4eb35e7ee8ae7c;0x126a20f938f47956b5564fc9f366740208fdf423f786747340e6e85b3d6b95da4b1c20c839b953ce7ad4fb3fac5bbb9e;0x1574c38f6ee2130da2c6897320ba3e1e77b1c573e8bc1ac5553a12226346406eacd8fcdc94051bdeec806aaf0836f519;0x182b32f279fc1d1238955ef7867a1f9c9ffd75bd9df46cd798c327f9deb8e72c86c941ab0e28662943e942fa23ef40fd;0x45c0b8c188de748eb04e0469116c08c134f533441783af9d0ea2fbe3106008472c2285f459832cc75b90ded59ac31;0x1814e10ce71472d727fe4836d988ca06c346555778b87be6f36273de64fe3ec75fd116328fdab5c11a7810c857e963ac;0x70fd2492c8a1bf336503be779eff6ac811cb109c26335dbafbe67a0bb96bff70792ba072a276b490cb3eff1b6dd6ea;0x1c312f76697fa7f98c1462e738c31f5168999dee554df32f881e9e8dcb49ed48c27f42e303ae5e2f2b26cda73ec7c75c;0x275472597c38729c3dd72023ad3f9246208884f772e1ee5140fd1dbc4f0e4156adeff33752c086e217685d6253ec790a;0x34e2a6a09f54b7f37f0384716d09cd8d8f11d32685ffd67462935a08382803675728091612781d03e56790fbc855890b;0xe37aefa7367216339752ffdb8fbb85c4a5d9eec876226be7bf6459872bdd4a696dbdb825173d30866bc8df9f8e96a7;0x523ea77e57740479e6bb917884b5de3ad9db30b50d5bd0aa377451f0194509a8c9cd59006e441e2e20ca8497dd2007f5;0x1174d40617ae7f0558a63098fc88db912739a8f2ab44787af4c0bb0f188fe0435a12969f7433f4f158d61e9fc046869;0x1125627cfcc2a2c7e30cb05a6bc74ad3b54e134f3f1da7138c032520a7a184fd21cb26e0fbc0a79a6deb64ef885d760e;0x206ba8087b304b6d600e94704295e535681ac98526150c6f4db2fd0ea58ba555234fd57ad4ccde40fc605263f671b71c;0x11daab550f7cc8c91c9ef6c7b3dd32c0d912a8804d4f74c605ababcb88f7c5c03d4e73b566a4757a133de204f215142;0x75caa4ed2f26b1bfcccebd9ff106e24eabf9809ec6e1106696cf3bf95122b84782942a037edbf2ec33e0aaf4fdd9371;0x179aa3993ea1044f8e9d946ff526eea0d33e2a3b55f0ab60d03e88b5e0840cdf0e7d1d00607e6742c5dc2e41688592bd;0x60a6a9bb106548bde0d97a8796f3305bbcb9ca2e39f5ef5bdd1d322daf2d34b854fdc8537209a3eedd7753f124e2f44;0x5460f19c5bc6e3790f6675e265b4cb441e5525a07e16a8a97cdc04dac78d38811b2c34d10f58753fa0d6bfa223aa161;0x14f53a386b759d110cd243b11750df1d2073781d6ce68444f4fdbf145ee0c74bb6677e27294f1fcd7e89374239a4b06f;0x1e88af0cbac11a811b55446554f7fd30a1e9f7a58f74b8dd34c1a8925f05d8349a17a7ad24c6818432e7adbc752cab67;0x721000d95da71e506367a446cd766a8c6dd1f9f523a0fb902c1374e1eb9eb590daecab16622ca1797ccaabb5e8d85db0;0x1aa48b288d12ec121976c1be89896b7f1984692ef70e3324bad7141b05f084d293341ad56bfe05d8284d8afad48a529c;0x603914c3d23567d3cf595520a18e83e36268061d6bceffa45efa66b2051287970fce944092a361cdfd967c009608a2b8;0x6b344eda9028a76367332f2111e472b61f661b3b60a90456f725c76b0bb787ddb123c16e33f3b48b6f97f0a96f83cfc2;0x14a8082f024e7a9c14765a8e31e82d9c93c7d4b84d7bc39ba8ad7bdd713bf7ff38389402f7453f493913a2786a697e16;0x35a0dcc1abd8825aac3d6ead3868484295598bcde146e7403166789546c2bb85fdd782a0e5771ecb11021e6585e8d1e;0x4a1b803d2a50f742c396eb26747398703baa325f3ccd8c4a80586254957b84b36371ed8d52418e8242f5956dab8e9bd;0x64c406d40de6f350d8d681d13470b69295c1b13a4476911ecf7d8b9d8f992dd0f3738d8b3df4c3642eb53a6a4cd092e;0x1947089c4f0a9f6acc8bab15f3a8f63e9af605b4430dfa060c3ca6aa110bec0ff404fcbbd2d336b224b86ba347f1c2a4;0xed65ceb396ae16a1777e9feb2f69380da523072a56d0c8469e5ecd48b518f17f4fee12940ce36fa980e3f2b64eb98ae;0x1e6403a7aba74b847b80307d41a660823f52e20d320930bd4da73d80cc4b82cfad42f014387394d3a824d289d1b2f9a;0x248844a9333e72a0d23a7de23d0239699e2f1bf4bbbc83276b143eb07626cc468faab295d25d240eb4f9f56d7d8e0dda;0x25893130d2fbfa9d11b5ac1520886a88f06c8a19d79f53f8fdcededf4f66e2143188dc4096db66715631345ab1078c27;0x2583079a0953ebdba011ea1aa609cc79d7b2369359322037f7ac047b10e90868cca45588d252ad0f8a69640676324f0;0x9295466f142e33e2797e6f319271cbe290e00d19088417bc4ee86c677199f249cd509443824f7f3abe9a76d2673010a;0x7f77bd21f4bec2128231293f21eb31f08453d23062f7e9eaf600f6318b11a2cd2a9efa753e75e8bad611aebf26c7810;0x829a2a52d80dcebb150fae41dc7e220ba065e7fd86423479bbd43ca3fbcb9d49f14eb1e69209748b3b86f42b44b5123;0x2560c62c1984fddfa00bf906775e9eb1284ec76d08ec46e8cbf948386899044306792d04c08526c2ff5d05a3546fc15;0x29216f0fb883bffe8b5e6e11f3d9c56a9d88a473b0cf796b820949c0092b5a346d8bdc22a544f52cb793a99ec9413480;0xc46762ef5d7bf9f7d18712ad0fef9397f73faa1c894eef81c56f3ae84b52b4673c2373282cb2f0b33c9483fd6d1ae84;0x6a594d48bb35f0a3ae81f4508a2c69eac5193ba36022403ae619461579b02c2b788643f457c2abfd2b9956916c8bd84;0x5681ea7235e26d57706171df7f493a10344efa6001ed1d5f5f6e8617729a856e46767707995a1e762576eac6da33307d;0xf7679ea74368e7d8b9fc51be0b3dc066fb2c898cec260fb4e612fb2a625d37d4c8bb11a86a19adf768dbff64e6ad79;0x14e3a0e16d0bdfd76ed95e5c6010f9581f3685d628ce22b77f867f8ea06f0abd474d649ab8c33379e62a9c189f42d2b4;0x52746dc421621184caa722b3f90bd052613f67c1ed582d072ea4fa311b3f8a8789cc6dbf4580e9066160b8884a231f0c;0x206246c32a07f3ffbf65d31566b133d0ceaebfde5a900dd77f4a4debf38991074fa57765894b5635b4b490020c867906;0x5c06104d40c813d87e3220bcb82cfa971307e38fd473dac671bd9413bd4bcc140bfc34440d797ccd83584a526023e;0x291408d095422fa40347168063a6210a58ef16745f457842881f1ab70e2c85ef70bfd00a882cb61e8dae0b5d6f7446b4;0x154e562b8ae5c5580cf8343492614ef6d84c4f68f726569a769dd36a44e3eb2beaa5c5dcc559f7fe4a8cfad1283d298;0x37cc2f3877d95707d72beba2cbdd24e1ae31978fcec7661926803d4a414ff114d34f21ac3e34d72241a3e7a506cefb29;0x2d34150ea7089a967b2db406bffac458e8d90a9eecd1baf4709caac0e708680d607620a6c79b709cc5c104826184eeaa;0x27695c3e01a110061bf94037951b3a84c48c77f942ca0595251ac4e8cd709c46ae75a1a68212b39d3903ccf2d036ace2;0x6e724791971ae57cfc1c690bb924d91ef0262e4d30ca0950cffab5f0f863fca51e5dc26d0cf8ea3678c741905bf3f7c1;0x163e170b52cfcaf02b2f6f95069c20abdd099561fabf0e458b8142037dcdaa4209ec05fda396324632dc0588de7813c8;0x7440e4e24e3566972eadf6136943f2eaa03994b0f02b4d50560e6d34b593bd42c2bfc1454ae6fa8864ca570453e4b7a;0x2f5df3ee864ec9cfa07c9b69f360b6c862bb92e7ac4b9814559357fb35940390600bf9785dc27e7a6fca7c883b3faae0;0xfaac7969cb9e7483c9534c8b5830bcde3ce1208659b4168f3556a50e1135392d4a08024cc45801f6e9ebf975ec85b13;0x12e02778d8f680f85a3d0a70c176805351b07df6ed695b52d01a15980f41d7a6c2034b9121f60ce4aab6cc7357220bf;0x2819474c1f51cac8b72335fcbbb694fac521b5b2f5f52e6cc1bb3b1e92369ba505b887e25227f88d5b3917e837ae91;0x41c000e7d914646b733e0074a7a8db1c072989bf5508b64fa435c8823bac5d99bac790d914e97f85abab2344267c2bae;0x2fac3906abb31eb38c244699d84f7ff8e59a55c655e14827128696a001232bfc92ff949f2760cd2738823924adfd64;0xf3c404a5fbc9ee4d63e71daf891fc0cfc6904466b32a9467c425642d5b504c7828ccbb9fb928fc67734cb3fbbca68fd;0x7923a3b75761d488a8a477711fdd1276e3e8ffbcb2a4558920109249e3e2783d01676b2ddf3ab6efa1c44e01f07797;0xcc2aa0b494a64d91c228fee20f0b52582dd9be02f7deb705d2d42867f71e01b0b5e79b840c20275ee04e74d85d2cdf1;0x3393840fda42965045a711018a9de145890619ba22db0978feb1e4a9ed744016264224ac57993c037ce3c4e9a73f1ce;0x1895895dea8bdcbf38b0751414d0f1f0808eccc952f7b03116c471ce22a9b38213c98ebcf903725d8ab4c5213ca71ea4;0x613824ad4c23b78d077d831b65db33dbca2b6d2043b364b606dddea56777558381f5ad0cbe35bd8b6d08b87c0fd65496;0x73db8b64f88b23f45c7ff593ac67205737bc34e0f41408dca14d3531aa6591fd258d44f452681277740c72711e1ae71e;0xb4b0009e7c8781a3567446a02ea1bb9c89dd65b8792514c78dadd987886b2756e1c489113afb3e8f5d7d0ada253155b;0x2d000846120bde6a4547d2c5bfda0feaad449a258a56546a31e822e6f66a68fcbb517aa577fab64d3bca8e721814699;0x2daa5f7f85c34fc6ae6b1bfa442a6a433c00cf8dd5470fb81e02952e9cf92b255a7d784bb921c862791fde0b044c7bf;0x328f8a89625f328e6987422d15adb445e65ed37022735fdd085372939cbacc1be9a3294b7a607e29d73f9c2d7a69af9;0x1f9921da124d5ad983ea3af704aea8403deb68106cc94f8725815440daaf4727225469b38c80a93050166aa4ceb2cf;0x189b4e2e39d1a845f32c791906326fbeb6d9a96bef4e94958fa3f90f02d333449ff82109d52bc2b3cf399160eab84a;0x438ed87a2c55660122ef6cc6a6761b2ff9cbd3a59d56eda46b4b728a0dad2bf81cfce38dae9d1ae90e1439c68ab6adaf;0x6d39cff299322990094bea0e79802657654418390b5cd1aecd1856c6c69b0a652c98363dbf9966da5c3c0eaa7ef8c59;0x114319de179589a5516637bb0899d0935475f49e6d1677d0c1da7c80e2c94bae197e156e2e6215f939c835373ea4c123;0x4c9d03c0ecd10029f919120da9cfb75533c2706ac9d41b2fb99e5857c02ce4965ca19d45a9b2836122d3b5cbcb75bc9;0x7118fc325d426197f6f8d5de28c41faba4840a686291ace69cba6836e7fc0eccad2e44afdf5b45bb20906ecca6b41af;0x1500be06e36d649cc597e1743896af6d677bbcda1f4d9225f0ccf987ec77f656e2b0d8be4ee131ceaee772b08898bed;0xad21a5c0405068cc7b9637e31183a22371147444bbea5ab39a3b511a8e696712b2f4f1a13353ff4442d7858980606b9;0x12faf5647ff3bee177d87e7720c553e451c419be1c2e80a08ce68708bcd5e80c31707426346e5240e9cf09383722d58;0x4623c0dcc50b0199c589be621bb4a740fee2b274f2d2dbc4618011d98ac6012db736cd43cdce356b4de817c6a25a7dd;0x3e2f18da87ca7471ee269e0ddb7c881bbfd789c6ae18e72d5be37e5052f215579d59368176000c2a0a0f81d34027a441;0x98f1597ccf298fd50c624f9890f006e31a0da0cc628da3eec45b328308a961399bc7162555c3a49fcf6e560cbc900d7;0xcb66c00e520fdc432370e843205ed91d1875092fd1ce5b5d263dd124dad1a44f4a81a83c4bac87bb977869432f2930f;0x1ca053327fa331949a46231878650cd6a6fffe767680ac1958cf2ad18ae631ba52fb39dbcc90c91141c3734c450ed30a;0xeec1bb1ec16b2d357aed4f46bc54f67ba8df28e54c3f100594f6460700cb0a5754159ddbd979684f039c8694a1f06ab;0x634a166cca07a54da2f1f063c7f50ddab3612548115481f672cdbbf9ef2f9a127f8ea81807e120f210e7bc5464369d28;0x3c7b8cf488deea800944a8f1a95b27edb9cfef234f87c9b3b13c88bee2b2a10ef68019e5f69ce3576b182995a5f48c65;0xba94023ace819b9f22d65a2beb45c0bc52450e67151c846e6a856d803a55e86f69a4eac38343d56841b100274ae4ab4;0x4cc0018972a85990d5a57d874fb82571ca1baa59dfe937f1f712175f3bc4fd016e3a2a237f03293f86bf422985204720;0xdfd41c0b8ffd929ba92b835ddf6e42eb733ff45c53ad7e2fb04fe023bbd9e1f36b66437c42c0dacb48a4d7f5ffb5;0x4487494b879ed599bfb7455653d710e1efa19aa4de451e9a1e77ae5895acfa9b8bb0317ff03fc53a913534d176ee59ec;0x12539f818d76729e2b6bf540bfcb3cee2613f95a785221c15f2eb0a9592c6765ec4ed4a9a284c5a7ecbcc6802ecc3256;0x1687ea7337bd8c354f80aaeaba25e02b3ee0ce98c56d56a88b582f36a1f6bd06754a9218df99aa427346c9b7d61be681;0x152ff4f250ca68f74b3fa5e29ff7cefcd0230a914480000f131765b7134f5877761be1de70dc18a02941a0a785ddfb5;0x905ef251d456e2c6eb6dc6a9ed7a5fa8eae289c1d104525e62642d157972a70aebdd13a122a78f45fa8edf8e1243de1;0x1efe62b2ed74e9bd242e769aad089a8e96b6e595331e5aa72337b03c3423a9c167f00af7f090824d8fdcc4f31d912bf1;0x324cc8b8a742bf715130a9002130c3cf1cee468afaba20a74cb7c3a47681216316d05eef72f0d2bc6f9158eda544cb0a;0xcfb6b80574b53db60cf6354eab4c7fd9ac3500f7d12a5fcd9aaa4a98bfae247665d0730fe6cba339f7a788bc489122d;0xd4ea377cfbfab50e290deab46309e9857c9d5c0eb1fd5780f552dff3a3b00cf88f379733944ace05e94ebd4ce90458f;0x6598ce1feb335ad966f071bb7ccf338970d1761cf046eb50fc92761645fe31018a2e8a5b6a4f3719bccf250a7fb6f78;0x1ab0c7ac4a331cec5a0478309df73ea6759d66a45bd14206d1c2deacc1292f69cc2d6a79b08bf27a4d385e0c02b82f2;0x4d896da3da007177eddf0609f691b98ab98098dc79c1257afa27ffc4d36403659895ab9d2368678c9bb2e637ca5ee0b6;0x820a573827826b69991c507673baf25ee8d1e4233e07b7f4583fec06a7f61a6d4375e6863f810a7d406ff1bf95a08c6;0x1a32e0570c0cd229b4fc57fb2e127c187d69848f36913958b4976437ad442c90bf6e67266737c0c3882648ea2186c0a;0x46807c51786387cac401a94be680b3f609635bba54cf43e30a6d2dfcf42e8f28ef7ecad0997bca14b8fe2baf78769149;0xc75049e8937b2936f44796b1ec435d218f464cf253b51dd2083ca5acfe61fbfbfb401b0d74fb7054330a6c01c916ce8;0x19fbf27e48d93a15387cd6a5d1338aaacda26eea84e92803bc52138a1368585ef0b9f03ba9915da61098ba646501c26f;0x117e1aff16fedb3f29b19c696a90fc11389a93c7f0c166b9c5283b3bfb29f13218f3384a8aac1ba83c9d8116deb48ce4;0x78bd5f2384f598fe172277cb42c7242c8ba7252a081747089b521ca9ceab768312c7336591cd7b56bdfd5bf6d0124;0x150cfd5ca9c344ed299fb1940ffa4d69fda8a9a46881e56e486990347c1d5ec713ace0a631d70ac1e2775273817da6ff;0x12d2bb466c41c12742d69064ef7384076adfa4c8e12c25c01b4f8dc631f81c24f0e071a9eac1ca014f94ac6c3a36e60c;0x54608a7d9e33acd8bf35cad1f4bc97e75d0937442620631ec0592552747f590c052b8bb51f542874f81267a66d2d8932;0xf64e4b9afd8c13e94d62a959590adc5d9cdb22e1b453d29dd49864feff115dbf96b8b990cd040d58f95c116806a0a60;0x1c7621f855458d8aaabd247b61b4fcdfba3968325defef22e6cbd21167bd23f180f002ebd18576f3ad5317038800b298;0x386b9cbd7f0572540b27fcfad2977e25122fcca7367fcd4676a6cb1a18230cb7d8f1824b22bf97082d938e50fd7cd0;0x5ba312b3b97979e7a79079cb8e35d32ea1e6bc4af12887f2b476a178a5066958ddbb2199968b56036e7a5f86db07ed82;0x1267f2176a57ceca804408d367eb279a9312a6dee516507762752ad9310023914524f879f2cb0b3f4df7d3b2fd5dcf3;0x4fd36d27a5ae97f7ec51488bc3e6cd8897c8c090de6fbc4463e0cbd4b55cefd5a2b55cb663e86af0b48befedfc583502;0x71ea967d5b8a5527bdf75f8da7592184b2a9fe1ffbfb255de04a374b15a5dcb9c3d78337cc4dc7225a6543b1bb806012;0x1a70fe81742d3831b2b1a91158ba1db3ac9e75a497a77b85ed902ff5e0926ffd7bc0de25b0efcc8a3ee95c907009d95;0x929e844ba451b39caa97c5bbe77e5ab3b83d18237a562d67c778a1974cab4cb2deb75b0dedc5b8085239aca824b3ca;0x9e0809fc05750f9a5aa775fc65e326705335b25bfe20afc705977852f0620acc9421e8fa48942ae145c2a1899c0e595;0xfec1fd1154e9408f7c81b73be728aa5ebcdecf48bf978d16f93e3f0bcf04b90a6b4ad8c32aa4e959ff419c4bf9ea1e;0x6088563812a0187aa21ea8507919691187daa21298bd9ef5df3e3fca24db1ce9787f30315559793e029ef2f23cd4630e;0x6eb45bbed689281576f30732192f075e0c3b2754abe93b74df9466fe3837e8f9ca6b048a22f0a30d0211cdd2ac6c37a4;0x9bc90639927635b7d75a7436e5b87560a7150fc58cd68572f717a8c0cc589ee33b0d619a44bf04200909cd24e46ff4;0x1af7bd6ee15a04819335f418ac96ce58140a7713612ffc0cb310669c16be3492a6f688beb46afaaa310ef1c132af4184;0x1d95707ddd71b3e46c0976fa35a13d034992ff54688894de3bf15c0b831cef422275c3446e82bdcc3ffb0f0cbb28c5ff;0x53a32a5bcbae2cddecbd100e3fcacd213788ba27bb3ac0755358a6cae09281b3fb0e545bfd1b5df2159c4dfcf123772f;0x141667136e58646b05720c9ba962528d4afd256aad4922f6b2fa311fcb3cec22f7f63dbcf8880285535f1fbdee64d10c;0x380a201a5532c362021173147253b6b64bdb941a8ada8c0fec26877f9b12e039fb21dc1533c4ff6c847d8adc3ab6006;0xc0b03fa970517d3bac730075ed8f9ecc079ad11e22a8289031bbea757a9522c25fa93d1e9c7503391b60bd3ef7dfe3f;0x6c6e25253de80ed33ecad534b07d39044d9644fb424fa1a10a8f017bb521d63dbcf54280958b04b854c8f063ffaf6793;0x1330f5baa14daff21f13ba61bfc83b90bbffb44991147b186cb66a936ddf82497722eccb615cd4f0034690835cd899f9;0x9ff39390fd5343e3fb4089fe7be82fe69942b0b822028761fcd69837f18267f856717f2cf19157ca04f4e8ef76eeea4;0x2b719d996cc05e84d30481fb0955a2570f73ad14b99274322453bf2a86fdf9997c55b120f29e69ae46ff777802fec45f;0x26543633b9ebe818454c6b9232a91130a5570d5c3fc143f84440f6bbf74c9c61a8498cf5455764fd8728e4857a605762;0x2dbc4fef19c9109abf9e306c3dc0ce14a6acc2e775429085e63ff660446bb5c4c9e1809db81039af7d824e2ba657d211;0x7964c0c4e2c890711727c5770f669689af6a796e269729c5b461ff36ffc6eb35c2b1518de67ff8e6c992adddb8a7cea;0x653c4da88de0da55f8cb5bc051d05bfc627828ac62e29992d1db6b7804c9d1975b67c88a7f18b24a23342a292393c62;0x48039ae3266dedaa0b9e809a4c8acfd798cbcabfcc0e0102d53343e61c918d6ec39a003e77b004ccd3d12cc033bcdc2a;0x3854886e3f51ef205592df2434dad61c6e2777debf11e02815e92fcc97298944b3d716683049dd07eb44b8684b1add;0x772611831c033c3e0190ee162ffacdd9a5bf626588ca2c3685414cc0a2d46c43f7c470538f1f477d23fe465974e40056;0x22dcf9cda951c20aa9adff960aab26360a1bc031402a05989710e5ac8ab71ecb3448308577ca616a51831c3afd237d7;0xd34ba91302c233abcd072f952210a4d182d152da923f1c53d1893f38da4cfab7ccd15b6ff6dd214236b769bbcd476e4;0x92ca6ec3db19fa66a8bd5a9871152b1e60fc91bc420406664c6757788b029e3294e0b18d46ab5e2dac89d0921aad204;0x5323021f9ad11e0f46455ec25445a781824b856f35d347c78d1376679fb392c3825f357b53b16c751082a04aeb829d3;0xe45ecc673cf0cd56bc1ac5b45c8d260d8c7a932b0e96b6a8016f22864f3475ab6ca3d0c88d6c66b73c62dfd287c0d04;0x2cc07a08b532555af73765bc44c074f6da06b2883f8e04cce237f767d75b1a5af522837582e4f5f69ff6f16c6b69813;0x21f0077ce23f473383cc6ad25422af9a8b102af43a09a16d7e8dbedb0676a974bb776a6ba2bcca35b4ed0b5124e53cf1;0x58b227533473d251189f768243ccc98fffacdf17f8538e47cfc55d216feb550c79f54b4dc32734b0dc24a1825298908e;0x23c84754ba383cb28cc1f297e3768e0c78956c53fcd0778c3080cd1e7c7b9744524a605527f372dc8705325f6634a74;0x77c852bf3283cd17b481badba77311191e7729c8ff77c225845052e30d96a7127cc751abdaf4b7f4d092c138fd092ca9;0x17b9e507b2283049120d5165f6844335f973f9e037bf4aaa26f68bb614cdf5aac8f309a46e8cec1e0c53f2630b07c970;0x69dc5df90f1a78bf76711b8ccd3ade0a3781d9e78e874289e439999dc07d70a9792f6874f8cd710ea0dd6da861ca1282;0x2d3139288f89f1219c20c6fe61fd4aa0acd980523a1ef2f62dbad1ca56b39df47b3408ea1b644b15b8eb16a3840cbf42;0xfc19a8f6f62e7daa1ca48436307169d3a581015e8228819f5e3286ff4b838cbe8ce0ac8b0de1bd788cd8e33cbd7baa5;0x438ba5c8e9125175124a0d7fe1ec792600b879128fe42f7c0433cc94603e753bba28a43a488dda7bc147dc1644f19ce;0x379dedbb5f4344a7bd063946cbc48631d24e4960092c9d23ef8317e8ea46a4023c1b0e79b235c297c52546faf65a41d8;0x2c33252a3c51f6324b1252f9de007af5dbd2802fd0116e70fb36947cbb654d5f00d4fe6fda69d500d880ba17982f7be;0x98e1e2ff16c8980b5ef9427b16cd7c957cbd0f9fa40241b726879617fdebb6d23a25ff2049d2be54e92baa4406071b8;0x1996bcedc0a6a2067fc23249d352686ef7a583dfe9a677b6c2e7657c0525ee821a5134057b0b9df1c26bcd57ad01f6aa;0x225a363037baa7624ba50ad889246501a9fc1a0d255f1d217ad8aeccbc9f70f0d7da04519e7d88e4acd8ca13d4f41f71;0x2a420ea8b0ad90a6befc16ef15fe993b49e6a5576bf70baca2422087c1a94f9445e75dc9de4796aad3b21ad5ffeb26d0;0x1505465a23c7e80860a6fbeb9bfc44a5c138e6c73160bbf241c47b849a56ac3c182defe24a8da17f13f390a94912dc01;0x7b6af3baa5636f4dbb81f98d2734b91b04815f2c02924ca0a037b5cdf82cb316468f89b3fc5b88d86e1ee89c807f65;0xcc70541f0c3b6ff2ab28172f3d330db6da660c5ab98ee3ee494ce901676e00e059bf29e9bde39bd56ea0b07b0f6bd2;0x1591bfe12a614bde657d6c14a1db89eeb4ecb498e12b0657f3252e0f16fbc2d4278a09fcbf0e8f4581ae109ee62df99b;0x48d3fb95df7ee117e1193e6ac902be90eebcc98fe76e1acdd6eb657c885fbbe345a54e1368a77c5f2bed014756128593;0x76492d8e665ba503bad73064208bb1ac3fe15d6696e69aa3930c8fea1a2de52dd37f5059bab413bc749a6193525e4772;0x1630e86f9443bf6b19ba40558d7d040e0aae748d6783e0950ae7300eb7213f452abbcfc49a23cad1c1cb4ce16e4bbe9;0xb7c824bd696c36584facefaf5d99f9707c802ddcd2117d8d2797491f70ccde26ab3641f6862a4dba9063b9929bd42a;0xfbc49db73ca90ddd40176e693ef43b6ea0e592eb8d089251ae8631cd20f549b5396d8688a5739407f99a35477daf8bf;0xaf8a9981b54be0e0537041185950303299ccade9b054eaa8cfa215a8fbbc6ba52709f32dbd199ad177c73cd06f3acf7;0x97cee6190bf1e261730e194136499671319d0e46dedaf465032e9e1816e2362f5e1e7656d0aa19e0891302401df320;0xcb9dff82f51063534e03920e9562e2a03f5f90dcdfd21553a2ae1ce9b32fe551b55659ff96a835c6c2272ad025806;0x9055defc45b76f2256d03e9d3c63a24589b9ec98ca90c24cd4bf44288a3b8f4fc83d09e61e08b1139560a260bf1819;0x169fcae725cbf7e320907122ad0f47d2ce1fc370747bcc8ffcbcf1b637b2f4c3ecce8bffee17b42d3f631a758676eff0;0x5f1ae2032be7fc85d11420f90317b012065e7c5c60a80ab6961d131a589ad99d4c6ad2ba4f5c62a90d03c9cfe6c3c794;0xa405a67399d2aecfe0ddb08de5824a2ff380c82f3cdb014b252d99f8249bfc3a9b9f3f1bf73cdc877f14d8f597252f3;0x132b71026f8c72c056e610cac30c7bfa7d71d68d85583527115cb7aa1289dbb3045b0448d969b8f542ba32ac22a1df98;0x22025d1f2ef6157541722e9ff92f04518c261b16312cde5ddebd0b7d80b1387164c406a228018a8651268fe287cefe35;0x446b7b1086be551435a299c116486fbdf28d43deba06ab54122d621aae1f02942a9acb621202b9d9748bbf4322fedde;0x15b6f82f69542f396db8ed86ed7b9fe42baee08cc06b454d4ebf37a36f2a2e988c0530b30a451c75e3582e7b0cab57a;0x462f23c4c828db97a8f0b2f30a6a31650e8092d370d885a6649fd3513790a5d2c5677537c96770e335b232313b674664;0x634c1b79f63b12e4975a4feccc65b969be7f96312e4c43a66fb681c134e1903674e1751a8d0a61c3ef100c91202658;0x50ffb7057ab3f19660d86a8c251f27cf64109b8d3415c149e46f0e9fbefc9273fbc8028053b1c1e3ddc12fb5b579961a;0x19285ef95697ac76ae192c1c5cf245f9ae75fc259ab098de2a6df4fc304494e4ed363ea2b62db345fde54817dc25f92;0xebacf42d05186706a65d4d1bacf9c9581f3da0d910e5f09ad734d535aaec92389d0a7d7d701855659069ca20120b66;0x65b3364bef33132c6b66c320f5039af635cbbd56be4fac9abb3ad8f84063e1bdc5d18383c5e902f53552bb7e231dee9;0x5998821edad1b67ce65593b5c2bd681b2ed1dc0c45e02e0f5c4121099dce6c27cd030877cc1c0e306e99ddb6d0d47d6;0x18390c1eb6f1c839b79f30b84a0123e4e8616f0a0691a27f1a5a126f703f2150e61589b422215e11737f3ae347eaf2ac;0x24e24f45271967d58f788a6c0ee98044ffa122ccae39ab36c41218ab6252a69e020cadda690b09288fa4d295fc1d238;0x151ada65ecc8a86b454a65c933d870b62bdad949b4e0f9c1570b38482c20b36502979447928fd20fe8ea9c6eb412052;0x5a80bdb96e1e0479344d7db266d3285f01eb71b1738c786161a78e9ff94df935a5720b224f3aa0dbe099b17ff19fa6c4;0xa3028523957a11c043d6767156290adf531f58e3722064c3143b538e3dbe5e9be4ed4b21faa26518b121c14a914f2e;0x3e6c7c8cdc0b62b83788a4e19f1b11c95397563255b8309ab4d2704c91c7f0d1d22cf8b602c87aad4bd71b6c2ec145cc;0xb9da6203c9e03f3bb448189617f4f4f588989f149bc6e319937fbf4c14fdf87fcc924d1b9df02fbf39a2c9696976953;0xa814cf59a09506122746b1defb2132bad730a7a7bfaccdc546745e7ff160b16ca331d898b7936094bd22e076e4cf5c9;0x1bf947ea8d5527bcd2905b4208f251b4f61183007bee9208d39eb5c8c8611732d10cab8a0d5b1aa383b12a7a7bf9107e;0x6008c18b98b08498651a079dee85959960daf59e075de266a3f8e86c71e35ba80c5ae90c69f77039296fb78358198512;0x655734e668a894e43b2a138ff9d5894ea535d5b2794a81e2a18441e15d67185f5b8a9ca30cefb249c3091c09b6973948;0x2d6861751f4d2b3ba345bd511db4ea2a360a5ce7aa12f103165d7617857a7d7bbb9e722e106e668bd77dfcc00ee0fb4;0x65740f9898dde4a353042d805eb3aa646a0b33a873ef0e4a0f80f672ec60c7881d61e61a8a501b5d8ee6c662a94a09ec;0x16fdc0aad8ea15744614bd33e99215ca4eae3d2cd0bd4ef046107d03a37f5478f580ca899dfbb06847b384cb6fde7296;0x315487295a0f9c6eac61e55d658aedd25b00fc5def91295c80d3f5d9e40fce98e5e90a54c057e454a5a89b0ef2a06461;0x17de4dc760d4d38297c8013b0e0ddcfc7733311ef8b62c8346d8f9b79049eb545f2480f6dae537b720b182e0e2f3bd93;0x1ddbe5dd413dcc293ac15a7dce25a3b7ec48d21bd305de36397f72bed0352a1388696e2c170175c99b2924dc1a550523;0x15848e27c18f849639d921914e8edf018b84acaebf778e70f3cab17a20f39967bec791f4cb4c7afa1a3597207885bc;0x37c2a6e7d61be27eedb3a39e9a976ee863fb509961dbd508b2cde98de818262c884e42ff3df79bc59aa716bbbc00663;0x159148549d20a04bf9186f242cc4dff0a895470b959ea435b6f7acf126423bea1cc12195e71e76678d017684fc824e9e;0x143b6f095ab8aaca7e39bb8b23c3442e7156a91b9ac86831ebdae1e4884fc717079addc36c400fb1bea6eb6dc82f7ccc;0x2ee172a6b1bde0b596c916d3037a266c4b8fc6fc589debd1463590ef29045603d121f4f06d8624e29e5a6207d8866ef7;0x574f86167acd9216ec212971cc95901fb394365379409fa1f9d259ae7c2c897c72d0e7ef106753eff5828e2239d06578;0x5fa4284d8442c646d96387a1c9d59de1c4869d96fb32af164b7f1bdf0b44406be17e6b77f1b5a0e1c4b0a52e5553073;0x6d819e007afaf205be14517e95bd165c215926463e33d2dffef0c418e07dab1ad32664cf858dc0c6d77835619859e1c5;0x15a59ff994571751023a1b8d4e43901547e5949d8aa8e572139e9b9a1342acc5bd7a6cb0749943a1a3ec5d9bf9214c;0x21df3efd5d922e53515c1f109221281a8ff63ec64321e43827317e2da3846d6822fee2da1bbca5091c0028eecc35d58;0x188206d69cbcbe5c81f1ac091e74594ab48c472158bd3e8c1ee9f14f2a8c0d3c17828df5c6a240bbdbdcf03455e63069;0x1148dd9dde38cd82d475fe96c8b2fc516a78c6c549c94b4ff71decb50291d0f0712c8aef91189f6cbf436a9ecdad2944;0x9fe5b2f88553ed05bae844703d877a88f2144450fed2631165c61fb3be037391628b7956b63e3b0e57646c259248d32;0x5bf5f6573697e756ab1f75bdbece994ed1031213e4827603cae7306feb9d74e0bf96e728bc94e09078d3093e5440b4e;0x463d59833a4bcafe286b03361cc7ad4d8192e471f7c435a5b385cf49ed98985639d280e1040e8a9474f96854988c3c1e;0xfa87320c8801e0f22998b6020a781d932ab71a916c5a634471ffba33d9bbcac3d959b63653dbd94f1040c91a31a6e26;0x5db840b418c96ab35aa701ec95556c0cebfc6f4b3f9a8a867e3da40139925fc4406d1b43d3e0622d3289d95015d70124;0xcf53ba8323f6b02e797e2c5c0b3ead96614649a56bc1b608dac87a6a64bb5d122e108febb0a1886e17f332dcf705fe;0xc8050f936aa8237176e1a1ed759ff1034e5f1be1aa9c2a2e4885fde70c28d27151b5b26adb35027b94a2c8e28626ec4;0x1c04cecc4861d76e551d279b565610f40538a0f159567ce15de8eff0619a52e7f09a77946e40b536572c48d2f6c32077;0x171602c7b43fcf8d5766e8ac2c975e90475a902169126bd24be8079aad539421c8fa0e59f67df9288df7f87d646e81f;0x2f066ecf20a5995a08cb43e9f87bb1537b8bfd05fca62144f5636a84e64ac88060e8b453971691f7d0f28faf25b3b411;0x28166b5fa17a543ba84fd460b08e3066d2aa25530e166afb5c8fd810a63e7556a6f456fe8311093c9b98c0f214cb446d;0x1785dab72d11da4507c05c831c7fa60de3561ef47fea9d161dc310045658a9d0f68727f7cd56c2e098b865fd7b8466;0xd6bb30b51b11b5115a4f2679d8dd2e10e71cfe6bdec09ef2a1a749d05017ffb3de5a79657ea038e6ba1d7897a8961a;0x51c26701beaed033fbae41afa4cd58989d6984de3445e8290c94e4352abe6fe3d1731c36c27427e780e564776efa987;0x36cb49f2465ee6d93d36967081d24647c7594cdbed10c70947b550444456ca04bbf6a096dc67cf91a7a9b8dcbba9e35;0x545398b97dd28412ac977a1e4fd20b3f2b38a4c959b9f73ac06e2ddc25d59d052c5c716d47ee5a7b65539e6c283bc72;0x18dd9b128be0e1b45647570c5450128608fc8ebd24c4b37c7d0d0c93a3eadfeedc6d9235ebc6e52619688c7de9b24;0x75f0e78151aa62e1e0a33e4b332408b6b96e4e9f98a7e48150e96627b6a8c0f03656d766edc6d8d7cbd2cf05494d46c4;0x50609fd35e779cccc4a4b35a44f63447e5c6287ae1cb64943887b02db357da289f2ec8977291c57ffa8aef6aecc2ae;0x6f1880e440e50a7030a848eb776eaf1083a131c7ce6f38d73577eb747383f26601f0d0dea64e4117172881a2f442e27;0x1e2365c752d7d23abca2a8aff1995f80a8d1b41dd0e1f6bcad1cd8087e78db3569a8ddb16b63be225aba8d40d9ac754b;0x0;0x0]].
Lemma prime_4638704574076146691498289350639807119782054683906549022985642612861209609656189848749536921852444848596916990932297 : prime 4638704574076146691498289350639807119782054683906549022985642612861209609656189848749536921852444848596916990932297.
Proof.
  apply pocklington with (ws := ws_prime_4638704574076146691498289350639807119782054683906549022985642612861209609656189848749536921852444848596916990932297).
  - unfold ws_prime_4638704574076146691498289350639807119782054683906549022985642612861209609656189848749536921852444848596916990932297; repeat (apply Forall_cons || apply Forall_nil); unfold wprime; cbn [pw_q]; [exact prime_26935696298915610574513298451669528361624243820491956655650666425177].
  - vm_compute; reflexivity.
Qed.
Definition ws_prime_402096035359507321594726366720466575392706800671181159425656785868777272553337714697862511267018014931937703598282857976535744623203249 : list pwit := [Build_pwit (4638704574076146691498289350639807119782054683906549022985642612861209609656189848749536921852444848596916990932297) 1 2
[true;false;false;true;false;true;true;false;false;true;false;true;true;true;true;false;true;true;true;false;true;false;false;false;true;false;true;true;false;true;true;false;true;false;false;true;true;true;true;true;false;false;false;true;true;true;true;false;false;true;false;false;false;true;false;false;true;true;false;false;false;true;true;false;false;false;false]
[0x0;0x0;0x0;0x0;0x0;0x0;0x0;0x0;0x0;0x1cec07dff57ad0fbdbbd9328156954f5775aa8f;0x4e3e43f7c7e92f3b75db1a962aa70ed498681adfda1782f6af0bec66af219809d17284baa01f323d3ff420992f6fa005481ee000b392305;0x2cba426c5297c685ce21f9ace0ef2b863dbb41b73d9c714e2871435aee8e2d25663b78cf2285716454bfb06ab7cb2304ab469e503199bdf4;0x1e8fc5dd5cd32506c6e4d359526313ca18d33996bebaa4014c62b7ce5f8dedab8dae7ad995eb6b1b8a9144b294115cf5980bb3db4e96bc717;0x6ecc16cd23050d55f119536e841dbd33b0d4e91449fff0e2972b401faa41e13169195a69504c135623085a4437ae406ab6debbadb5472e4b;0xb4a244a89102277d0327d50cd99e2bd052cf9509bccbc5999effc763bf6d80b1967602d4faccc5cd6af6f2a5180f5e85fd97dc06b7e1da86;0xb08c04a30701b1f7c2c8c8a57e09d4c8b165e8c4632de4b88a5567ef349c45f746e86e0120abd94e3ef4ae6985c2619685c5fa4b5bc1437;0x29fbf740e78400517c89d8ab81293e1c1bf07f102dad9196cb221770c09b0a49e6872211cb99da4d3057176f8d5d000dd85db811f1634473;0x2f31b9f4eb64de1a6d20d638d0d34821aa4756d83ed04ad7ca32bd5a9519b81d998f896114d3c0eb07c3b1f8203d9607bcaced268f61e76f;0x7458a1ad17c709ac8c390a4c3d9732cc1fe92d8ef56b5f9814403e586157ecb0a534e84cd417c08bbb33d1af9ff59c76cc465d95559814d;0x7bcf8552657297e434df1d8df831bd37b73a2d8170ff659450b1fd360786b23e075483998ca5b92352887ac46545b35926609ce322e67c5c;0x68894ccbf4e0cfbc054883050776ba9b074f8123a104434a298c05ea003bb16848269dfd6dac2bfac8a32c309f19f031ea869385204260bf;0x201938a80f944a6daaf32eb98579dedd02891cf6fc2acc2cf6417b759f3f610c94960632bde0984453cee9f0d86a119e64027599ea3dec47c;0x1c8a8126e930f2d98ed760a6c9460857c321fe958ba6893d6014dbe83849667f2a58a923c45f22771eed6e368e370f87f2b7bbb7496404cb;0x1f51ffd8adb498accceec55e453cbaada9e640d002198fb3a2cdd5d5441fd050db44c81601ac12896ec5147c1369db8ddb3da9e477ebe9b;0xe438f047bdf9f02bebb0c44710134b48fd36f3de7b3a677fa6100040f77b3fbe44501af3b32957a0e6fbb090369970289fb40c92a3a06d7;0x665701679934578585e513e406d4da171a7de57bcd381caf3195932e0eb8f9cf914e19abf95acd2622eaed9fe7b51551810633d5accfa156;0x6bcdbc3740ade97b93223c05370a7d8c909a44680b01085297c070453f6dee326f72296ab45b915a6fe848301d57d95184b815e9f9fadece;0x16adebae7ba6e11977a425ffa6421fd4413344730cb3ec84f17cacb7eeabf1d772b0f8b63dbcb17e40a4800a73b64faf12dc863adb58e90df;0x34f12da4603c465e4c65c6883b4c7b80ca5a3f624ad67f13aea521b8688bfcbfdfe4cb4310bd6f6dc13a1caba989742df4215f675c73711d;0x7bebdca7c5f817a3312f858e3a562cb3befb74cec59b4b973f9887fb7cceb88d6cd19e4f44f00db06f583bf1f677109e49324d91000fdef5;0x739bcffe9a5e87182d17fc666da13328f57ae7558a8edb8505f708c6fbacb37a06fc6217362fa2bfc362ef78b0022b773226afe372bf89f;0x1bd4b1cd1db1ddebae0dfb4f525bcd654ea25691cbe2121f381376b93fd6dd6d599c9730baddc5e59edf746c5aa6529f08ac20b9a413560b0;0x656a0b395acfcaba85f0b19dc334003da8ea427bd54fa54c4a2f1257db14050860c0836fdb64a94834b3f620167d930e37c46513a22cb31f;0xdf9f7780e4d4b0c48c6e6cc8f1fe70dff7dcbaf1c0137390ae83f0c1eb515b85d80a1c4b25238c06ecc33f289d453e902838740f66aff596;0x1b8e27375069723dfe45e771ba0660c188fff30ab0bf6091fb8b2ea2c39c6eb13416b5e08e24d9e46737cd5f3bc63a220c77fc037e47e90e;0xcabc26888b8abe15c0a0fa43ea3a5f41e26644c51311ce38b6d797a0a2fe8a14ba4e04d7b52b4e971398705945938afeaa2278e0b1fa0a7;0x165c5f2e467b690867c26e30e6abc72207eeb707c2a80eb89ae610de14aff6f7f9322a47c4de1f29a77ee750efea900a48373a38b128e67da;0x16f814adf7ae71b297a2b9d811049b97e4b5826007d2468e2c35b095cc10cef71da3b34a566285ed0d33a0b2659f072826183d0233992e67;0xbf61e53bbb2219370ba5d6246c2e9484104ec3d6faa3107bf8f636fb3aec2a69e137e42951312f902041b959d4278d60fac8738edab8764;0xad116cc32719b94f4d9dc032926567054b1816517ca6e5a4081d158ce41c08421460b87b8ee249a8c3567e7e4686b735652a07a1436fb16;0xa30f19f23a1a43e2aa6c782917eeda432944fe78fd2d2936afac6992aee0201a7e85c91478d7a593401c560ffb2fb13af091772e7caf7806;0x36ac18691d818244e79ff238b8b9c6d09fd07195a3def0b39c1d44f0f3cd5fee8fda3db88854be64427599794bec02241e5b4ed6b518e550;0xe1670eb88c4f74ff5fd86fa3810760b76e2068c5cad7ef2880d8cd68974e27af9d6247373ceb50282a6b6233b9d97f3d2a11c4023fe01dc;0x8286c2e2d0aaae43a57cc891d683709882fffb0b575d5b80fd0bddd57dcefb2ebcb38b9dc4143fd74eddcc2e2b9f982da33486c960a62b0;0x15777f47c1b17799afb26ff01215dbbddfaf6bfaff1cae436d5aa9163bd5af91715e13387bdf1475096013f36b609a415f493ae198f4ffd06;0x1ec73f7366279e918018888f43281d06c944eb0b41201ecbc98039c073d3c8ba2722e1a6584b1af42dbb85fa790fd4970bd26894b4065b495;0x1243bda87e4a98e0205647ed78506676764e972b3d3d43f17dd5d5990a6057f2a868e17c65dd8eac1fa88ca150ae1bfca614ecd9a01a2af27;0x8bbf34570cce8c905b183dff2504428a696c36c98dc6ec17182b1e504bd075683ad77d1c74cb60a94a1d0e5d24b369be365fec5a57ac8dea;0x325d93fc5bc9ca5ae7a85870b025c0e260512add43ee8768c8a5700f5e6fa2c8fbed300f78c3f07bdb7cd7ad8fdac122fb5555c1e3d4f737;0x5feaa4c7fac324767716259808c6be7c08f2110dd52e9fda77fcb9ddd40d75d590eaed8f2441ccc4bd9ffbf8dba3ae7c892341d815c5eb15;0xf48ae6a7c3891a347f3647329b373ce4cccd848f7307e6ae89344211603e512b39bc613b1a9e8f7f03c50252f328f0082c4812155dc151cb;0x47b5b7c50d7a1bbfc8f6be564fa20159ee49c7b8d6410e013eeb28fa0fc9e654f51c83b509b33cabde851c626dbcaf056c4bd8a7d2d7ee;0x4c62e94d04b60f3c5cfdee67c603be9416719cc486cc49afaa624730dcb60969550e312634d4bcc479e361799023ebfb7d39d5c4320197be;0x2a34e82526e3d53e0c8d6618d4b005f27c41b0bcace5895f8d4ca3b82995a92028161b6a231760c65dc9ea7ef7013baa1c77df407a9e927;0xc8d6ae8e723affd73c5612cea444a54ee3d54fd1655b885ef358bc3d9fb334b9542cbaad1ed866758e54e4d4208b224c1ffd6287e4cd7b7;0x342ad3405972dc95582aa63a09f509a64571d007653d6a2179a40378b229f7d149bb64cd051ace405183bfc69629b88d680dc17d19352b4c;0x1ba16fb279d9324755060744c8de667ddf729424b1502e9b45c64668d5e48ddaebf5c6b1e8b6e98298f3f33dd0edf668b2105025405d0a1a;0x18e6a506006cbd558cf902f43f6716c495c615dc2172f57fe7f5717507447246b777684d0c4db7ea5e45cbec320658a38eab594f05a136c88;0x159f21cfc79a7f26bf930e3196eec380ff2c77799b2f3a77965e2a0490ef5867845f42d1e7a6433ffe87a59333c4c0cfb119ce41f2d345982;0x91ea54f8aafd51b39a6d2007c0cc11b26e758e26fc19325c46c731e9c4dd04aeec9ab85857f460fab7075059f03c7f65f528ca9311b2890;0x24cdd6056da81a1758dd2294ee8f042f0043398bc6ea595c41e9e4ae4021b6b31bd4169542467fb3ea800997a842b0ec4bfb1789de915df;0x32fcb206ff2a8186dea0fa99753f916d6414b2d82e233041aa4c812cd2249e2e6c94c7384c88b8c2899611f4f79235a398c74152c8101907;0x1175c09a76037ccee36fc006d7714c469ca423c8feabcfba763003c20db90b55dfc3ff1091160c0335d38ef885d4b44a4bcf51834931c40;0x1bbe3231b97018bd8fba944432078253256ac04223d4a91cd7ebea0675e80ab145fb8f6b4a55b6ad6be6bf8fdf6fdbb276406ea0934f21250;0x83f126f87d36b83d6e22e208c3d8fca1f7d23f03082ae93049bfcaa2c4053b3680516c5c99933c34406f621a1ef5c7c0b7e8a94ffc9bdb6;0x228c8c98e1804f04b3aae89ae19ad517b7c0572ad7e05abd256e3322befd6fd0d53b0c71b527892886908addc94d4fba7954fc1080daa4c1;0x8cc522779e98d0acce6a76e4ae6d6585bcb5c9d6a325d1ebd9935f91430fc4de3c07069c740f5c2779c1def4d2ba11e1d50f20ab22527164]
(319784230445419903509767207952060705769347233125295332290745112750552601258167418384123844594125382842167442337474935395548518455133488) (14939213854468705455855564636588888651515482539440038834772064184923203767593361364512923538794145533859135754173203890142669752320879)
[true;false;false;false;true;true;false;true;true;false;false;true;true;true;true;true;false;true;false;true;false;false;false;false;false;false;true;true;true;true;false;true;true;true;true;false;true;true;true;false;true;true;true;false;true;false;true;true;false;true;false;true;true;true;false;true;false;true;false;true;true;true;false;false;false;true;false;false;false;false;true;false;false;false;true;true;false;true;false;true;false;true;true;true;false;false;true;false;false;true;true;true;true;false;false;false;true;false;false;false;true;false;true;true;true;true;true;false;true;false;true;false;false;true;false;false;true;true;false;true;false;true;true;false;true;false;true;false;true;true;true;false;false;false;false;false;false;true;false;false;true;false;false;true;false;false;false;false;true;true;false;false;false;true;false;true;true;false;true;false;true;true;true;true;true;true;false;false;true;false;true;false;false;false;false;true;true;true;true;false;true;true;true;false;true;false;true;true;false;false;true;false;true;false;true;false;true;false;false;true;true;true;false;true;false;true;true;true;false;true;false;true;true;false;true;true;true;false;true;true;true;false;false;true;true;false;false;false;true;false;true;true;true;false;false;true;false;true;false;true;true;false;false;false;false;true;true;true;true;false;false;false;true;false;true;false;true;true;true;true;true;false;true;false;true;false;true;true;true;false;false;true;true;true;false;false;false;false;false;false;true;true;false;true;true;false;true;false;false;true;false;true;true;true;false;false;true;true;true;true;false;false;true;false;false;false;true;false;false;false;true;false;true;true;false;false;false;false;true;true;false;true;true;true;false;true;true;true;true;true;false;true;true;false;false;false;false;true;true;true;false;false;true;true;true;false;false;false;false;true;false;false;true;true;false;true;false;false;false;false;false;false;true;false;false;true;true;false;true;true;false;false;true;true;false;true;false;true;true;true;false;false;true;true;true;false;false;false;false;false;true;false;false;true;true;false;true;true;false;true;false;false;false;true;false;true;true;true;false;true;true;true;false;false;true;false;false;false;false;false;false;false;false;false;true;true;false;false;false;false;false;false;true;true;false;true;false;false;true;true;true;false;true;true;false;false;false;false]
[0x0;0x0;0x0;0x0;0x0;0x0;0x0;0x0;0x0;0x73b01f7fd5eb43ef6ef64ca055a553;0x62d6edc774e34691455bdefcf49a50e40567fceddda0789fcbb736fea2715d24eb344198e97632ecfac47219f10001e464bc4a7065a7d554;0x89720a2766c1000b78cc30168cc36b80739e42bd74df5772e168a66863ebf727eaa62bdc59e16480a15c6468b37abccac0b3d3e0a6f6539;0x4521624b9b990a6a79b31eece1f3d82af5120e4dd68c86e4ae013702e009bc1c7305968fb423cd8d06b27c02017c7b31868c821f32d98c2f;0x225bc246185a9b7a99fbe5567a835fdccf3a1b44ff5612e9c5c25cf6ea11cfbb0bc3b38e2f8d9c2fbad25ef513b555dd0e747be10bfa1f79d;0x1d3d1a0a2618f255deec9cf0e9a9efa3ae0c488f1a3ed3063fce24eb0001a2bf369c4c66444b6d3d8835415035daaaa99a0e3101282fec801;0x75b6f1862fa6dcc7bc0d29632e52c1e4e34a237bb15b6bc99ab5eef8bae43c6480e4945b57ae3beb597c3d182a3dca545d169a2359e2278b;0x1026281b661627120d73e8eb99e50018a1ee41d9ca2ac2fb04b36cdf32b194eb9ddb33da535a5e40fb3ee169ce85019a364638670afceb542;0x102be834410091e2d0d2129dc7210f8c0845bf3a1ff385e3dcd778a68105a2fdf0d819670b4e9a3992c20faa01e8f0a55b1acdb9ce2dba21;0xa336c409c2a76923c5453bc39b553ae3923853c468abf5f78891c103dc89266bac981a01310ca81ba8c0fd774361d8b5a5e1132f32d01f12;0x925dbbedb3640c4f44fda731f6e497ba8ba3c909d293ba0067ae1d1a7bc2cc6adfa14493f76e16a716daf8ec7db42f51b08d5afbd741e1a;0x201baaa52759880c8be1e06584eb62a219990d6b47cc2121b9ba9c4e36a1bed4bb553d5f3257431c1a0127529df7c3f47e36fbe03fbb2346;0x38f6a0d04f7d22772cc17a025be2c835f9b57bc0da046359a0ae3052559af0a110df553b439b51df1c1a7dac00d07418a4968548cb61f243;0x6b29fdf872a056ebd2f716bba6ecac2e0f8ed7d1ab25a595c30b10959efc95beeff50208faa8d6fa1801a7259e2fda8564abc5f4ea7a7f2c;0x8bd38c90d73537c0fb0a12db1e76d6470816da2c79e35b9f0a4d2342b47a7fb7a43034f5ff482ae869346b1ee3f978147f0f37f0d4fab26;0x390c9185614d62321119deec17f3c8be22ea4c55bbb6ee6c1276618fb7f1e9c6e394d98829dc55113cae4923880f5c3eedaa93fb5fc0f1f1;0xc4e560fa37ed2d9495e8f6b8a79eed836efa8fee48ff60c564b95dad57507c8d28cb508cd6004d4d1dc92f4405cda88ae53f0d050ab041;0x751b6afbd6727191c0ca067d772363f2975d89d5b2a2a22a25467b0d201f08e39944e80a7574f8a8189a84f750bc65a4580ea98d59eff1c4;0x240e85076b913b2b4b8f6b9466dfd433bad78d778061041a4ee1dd5baf9bb19658adcfe3e3ccf15969213dfe97736274bd901b5d6b4c82c;0x5810c320c809944ae163c6cb031d74a1f4c1975c0cece43c8881e74bc95d11e64638a0ce441e0385b097b030769b69a06b4b7c270c9b30b;0x25903c52f71ddf1a25aeb989bf64225a3f3e91f06f57e79fa70fae3b3e68232239b61781e7949845d0986d6b26ff19045e92a6740ae19a5;0x15b3d2e2f1d0c3f2bd55195f903c5eedabe6b9a09ba0ac87ee4045d5e23488a2299a28e5e8999b6934c17c2258d2a0d2f3e877d00a0a941d1;0x6fd94b372f78c54f65015c2ac6ad50318e41974b6266d10582dd5df818af60454082b7f6bf0932120b79a309fb06dd207af3e1a2bc6064df;0x91c6a4c738bc3c6954e9a555ba7b8c830fe506ef3fb509e310c26bf5464fba19b6397c0c4fccd3267b46b73e2673c24c15557cefd33e38e6;0x1a7b7d409d62ab73624dfc09b3f7a71a66a3b7b3dc47624c2783ab83f39a7a4e199ea169f57e606b57809dc69badbc6e9b9b9e1522e6b02bf;0x2c4509104985deab36f277bddf8a1db1d2ecda6fcd85827e100d7d120c06ef820eab5a2c29570c752a92d0208ae9cdf18a7915e9d3a8e381;0x716317743690f6500166f2ed21441f4939723b7cd2fa1395a7ad421fdcec1e9aeb89176f44a63427caa748d70a29394f605334a6a403d7e;0x89d4d3f1def7956934171c9cd0038ea3adf64d0f9ee98b4054d246e7b081ee79dfb0dd927fada741e7672b643ff085d76a7724984ba697a;0x294ad1c6dd28b3a34b22eb9aad094ef355996b31bbc25229f8aa7c420131d0a4b11963b4219556dbbf7800a8cd7bdc7aa5dd4ac8731c666;0x1d08726617c0fc7de3ec4ac9ae8b145e8d76c9bea796c26851d079dac49d52199029836adfabc897c64b9d41f5077b73e9201405c1bb5d035;0xd141156699e7ab012cb80640467fc16141678252feacd6dbcb6f14ed9c1603d5b8cbc42ac293ca26fba90b04149ecfdaa610366ab9ee06b9;0x195e65eabea9748e5ea6b80570adbb70f205a413fc4c1d9c532e68542555423130f11b047ded94977339b77205c382a4a1dafc46a3e7594;0xd0a971fabf71a958ed3eae935fc141ec472e13a8137d70de918204458e9f7f0736a862f03bd98fcf9e81e1919c4fd6942d55aa95df6b895e;0x25edb28ae7af1dfab52c14569b4e210eee3f5b917f8a27826ad6769c348f72496df8e11c438a66d167a0bcdd7b2e9d95b296443cc7a5add8;0x21dc9fa956effca7e94f7f368bf033d77fa182c59f254029e010e0578dafd65f601fd54d8ee7dc97527359f316b71e11e223d6e6c3489685c;0x5c7475a0bc1560ce601fd82acb116ef98060c966be59a50e574788563255319894a4fe78139fa4a17977bda001c568a9ab637ce38754bafd;0x199052d527ada65957a1cd6157b7ececa003e403581ed7a81552e7e41f53c75b88062d78f2c0c27e53ec4acea08de847a2afa618235a169f0;0x48040d94b50d0d899e9cadef04235353e7f2bd68191afa0b54d5a267d271ea18e0579ccdeeb59bcad81fb3371f50aca411ba37e73e0f64d7;0x165058e1c02101657ec9fa1db4f1956be69d57a8dacc06b3f04959ef43a928db2e3a6bb8c39a9562cc772ce1c65dc1364f2cbc69a14580e7a;0xa7abd4b2db027159f882f45ac18a09151e38741c3bbfb3cd2f73e6515dbf9aadd93497d0b6705349f2f292b386b381fce18cb340cde45514;0x31ffeba50bc4e4ae35ba1230a7bff1bb12b7ef5672cc042d52f4955cfcb739c217dad33c56c06841d6a149aeadf754f7ce725603b4e402d7;0x23652f8ff7bcc51e43742a3bc1742801aef6130f26b87df70084d94ad2af942fa7540ef9fd2e5d921f66ae3028e038c1551a8a1d42583d37;0x527e19bd4461c64258a2aece01a2332c64af2f6c1b7ca7be33d058f28849e3f4e52bba158926a9dbf29e9b27e78d4961685cdfcf1567158;0x607515c56a4c6112a72549fee3e08980db2a2c9eef2b0dffedafd1ae2970cb70c4aa187e4f5cd83c4ffcf4e5017ba1e14b70ba9e448e28bb;0x995069fb3e59d4e8ceab3a477683d2bfd7c89549d548839111bc6f7f83daebfadcf997eb92b597e96091ae57050fcfbb28432ee36ee37797;0x1480e3d5ef4cfc3be9504b3d20ceec5ae6833ef393c618dbbaf45d8f769a0b4bc47d1bd8d9b3c0db9ba70c0afceb971b2da92ab05083a7d20;0x117d427d9550011269f43039725e1d8c8f90aa13b2e791c1b50395c9f3109e887c781054aba314b18d83830cf4d450c20e124511344188fa;0x9f0c8468a88d8f952f82dc9fefbf839470c3442a64a8152d393f887aaf5489a646faaa70d919c9ea6c1df39b84942e1a0ce741730916;0x30f375f74b2f1232f30a45877035a55c9c6c08de91c1c8fbfdf1f0e19ceef56ffb564f364d289b1a534b1bac067dc58cfccd90b9d2756efc;0x87a308619bb356016817cc52ea23f26514bbd617e8fdfae78eaaaf9c0fc93bbe6f1938fe30565d8879b3e1da2e4b3aa21a5a9eef37985bd0;0x1c02b02501dbcc1c71f0a8cdb50cd148bf6e388694bf9a332bc5bafce5aaf564dea50951de74d0997d4084d5c0adf360e8733ba4a31f30;0xdaa53ce614f700e2971569888e4ab75d4ae9417cffdf4b045876bae5d56e159af91831f9b369efa3d6499c6c2bea3c70bf1579915b6d26a;0x3daaf434ecc7b6ef77d0875b10b9eae92e02bb38fb18f102ac21e10ca38cdd0103faea1d39a51c3044ed7f662d8760f66c84edfd37ad8886;0x132c349462c7753d3d29b47d1bfd5ec6bbe2e8295a953b048ead312051f7469e302f5e81bac31acf45886a366e78c13a78debb1c7dfd0e3eb;0x1c2ebdb722d39743944bc2d0a22fbbc84c8e11af636c08546a42570e894f562f873ff356cea9b17abd0e88870c00a8f4eaeb303b776cb152;0x8c704e7a13e5e6afa66cef81b35860438e2f8043d827ba85871d7c74b7fbe1b73cc2141c6b990c699253916d5de8dedd06b9ee1d5447842d;0x7e31c629428900539ee3d7ada93a45a504a9ab6b84cf2ada5a7162c5b8cd68e0f2d4faf435f8a8d599a0c141f47040135fa1a21771879429;0x3df2efcbdf1a19f0e3afd6ad755d4fce0e863ee21a213f3b6a7e1fcf12f22008d8e8f418b3b53dd0e200c11d55830f092a8e9bda7ecb904f;0x6ae754beedd52a7a496e22bb7304bb52c74de00dbd51a5ae2273cde0df0e67868ab7b1d80a719861736d9339d7dea1cb21d3d0570d33db2;0x94b15afff50e9d75743628d037fd4567145080ca9fdf0559a80fb80374371940de2cc041ce9650acc4b797da745431a9ea2bcb2be2c6bd7;0x4cc4a853c862623a7628e8ac3aaad06c764dbbf5784b98bc390469d2752b950379c5d437450feb9b5d113ac5fabbefa48aa6e4c5d29029bf;0x42a99e207f1986c39bf8869946134525b85cf31c78113268509cf5be796f761834d35e457c82c8f613693b1235ef61eb67075e064a2591fb;0x1508078ce3ecf85420a07ab706dcce9976dd68f5733cd149e936bb8c74fb433831964e6b0d111dc7cdb37cfb31b05ccf362dbeb033ae6b4f3;0x79c6d5399fee1853d88add1f7e612d67e51179bbfb73f948847799b8a472054a017c42224871d29b69fc48c96823d1fe7927a80abf2ee84b;0x42956126a0f928eb579f8fdfdc985ab70793545c5b239a01ba40597adb353f59ba29b0e231be5415abb82bd6e7d5d3b67a74185be65dd8e;0x18295bd593da8cffae9662a7569be2e854a400133a24c771ea216915001042db36bed306dd8a5dbd615c035032a04062dddfe0e0e1de7356;0x969f02c19d2140387d30b5d93fc866adce9e45e9e9e6a959cf98d6aa5fc8263b40b441fc39d7e16f7f158fa27103bc5f97576fd5ad0fcaf;0x2251ffd0874679e414756ee9ab22c55ba3c0680611a21f11178063c2f201c2276dc440bee0b4db89a40250286d093754bf3ae5bee6be0a1d;0x34c94662e57e80b1d2a3f9009b3b3acf38e2edc2e494d3a965cce33bee949b8c8e2a862838dfa461afdf5c9f38f8e63333e9b86407631321;0x904b905d39218aeed54dd7779194104dff76a9cf9ff043f89ef3bfdc00a73f9f4514e616e3121a9b130e8efa98e79b358c9e2f814636c66;0x244c311cccbd8b3ad0427a1b8571a2da0d5187f7e92943251a1ff550ebf29665b3db2a251b21656af71ccf283bdb082a9a00426fe75dfe3a;0x1d94434bab1cf8cf6f6f0184e31ea24673ea3e192ee22584eb11d24671db2aad0443608089b2dcec8983ec9d9af53bbbcadf43baa035ce8ef;0x1cb280318cf91b50303ffce0ded362039caf4bb011e11dd29d371702d7afefdc0ad9825051c680c5f87205a50c6809e69b678fd72bd24a81;0xf77c4affc1363f3a84381e3848d56a462b3e1356817a32d36adddc7f268512df37cbde910810bbe866357e0f1d9362c96ad321ba87ddde16;0x593c06fa8761a0c0c051fb03d92aa56cebe3b17838d10d57121cb5ca0d287a4434bb7212827586f27de0718526c31b53cb87b0bd692ba759;0x1a5d955c15abd29a10a5bcfd821b5553fa0ee1a0fd82c3724c37a5aba800729bb92ce82e6786821b203495db04c135c43fd95cc6e09635394;0x224d78b0933bd2e2e015745b2c05c6aa7f8743ce8fb12d483dbabefb30c9062615d976a4690ec2a360a41c2c0f5d1fd6a8647250519c53b;0x6d932ed324d8c859f2d3c22ba37226d028389dbec6b3ece1fcaab94acc8e66f5153cede957fd9f23a4e9fd1477ca275e2e5ced18b63bacdc;0x3dd7b16e54111ddc96e750a823440c25a0074d73651a27bca414dc01d60155a01c574a9914dd63664187966a41d1483d5cf7a7dfaa267780;0x1b280693ed60d3783f29bb4318c46df6249eebf2fdd25e65405d75251983d1e9e6d4af001fcbec9eaf0fa47434701d06bf6f9efe3d16d224;0x6183b098a4b23170b22682862acc051cd25771e754db039d69f0cb577c9aca53fcd00c0ab4f314c9bfdb7df3b11af664860638de25643ca3;0x1cd65f19463e8c5f5130e15f25f80ddb13b42a81ee906e861c56d5acc5db6f709639b48624c0365e2828ed8afce4144382bccfa6ef7e938d4;0x8a736c913211a286ce3dcb141267b5d6fc3c31b278dfa4fb98fedce2aba29b8e544b6d6768564448a41904c0725d8492a1ff2151dbe97827;0xbce9deaa447e9fbad8dfd064a7907ece979ceee2f6db2d1b95be84e57c203374f7dff478fa14163bfa809d71452be174b13b6b3a1e363cdc;0xacc0a777113fb7c0cf4b5d6b3b17fedefdcaf2a9b09810e2e4c4c6da314fdf53f2bd30cc0b235a2491b1ed129ac5d2fbd028cadbf4bac9;0x66e527fbbb3926160fefab31f09fc1c606b88c1daa916354504b266fcd98f5830438593c6bf543334ccab7a3059ca55b2b2d5dfb2be74b9;0xf68707cf582a4a3bd589409eeb42c62842a26e4f8928ae9153e512a0d4d6d9173e09c26fba4671b39045b21801f5df05abe75af3ed335bb;0x558931759863edb286c013ea7bae1dea40c65e18e9a6528fe4a3826ac47f6d9d8b2ebca2ec38649bec434a87700aa9f3e209f869374f59cd;0x829af62842f1bb1f5541b17107a6a180b88c309b44b6cb009ddfee613446ee909f4967bdc7670dffde0c3593efd7819a2de974d444e95c6;0x20489e015ad25619840d6e539853cf469bda0146ae6111bc27cfbe672238d737066d81129512b3c06ddb4cbfd11ba005c1cfbbacba96053b;0x58391931a43cb9c20fd5c59f053a761a848915442597639b4b0953ba9c79e64d1301c05d588b395470c5a3b39de6229edbd3b17921f4a6aa;0x423aa334a83772e6a5901b3e7d6d2182c80ed31dae7002cd693adb3ea55791cfe8ae73266424ba51520406a3bd24af8f92864a05306b9a32;0xb2badc77462ed91b9274182d952ddb22ffb560ccdf60e5516539c0dd1bd4f2a5ffa7e1518ee590bbb343e15ac5defc4e285152b41f232ad0;0x16bd96fd3e930adae0ce827269ebbd331e4fb5ab2176068d6a0b4f0fd9c42636bef5e48fb34fd2682cdc5be87409092a9a8b9bde1d8288;0x220258fa295c9746ab026b5595983d6b37be0ef7aba4fdbbf9f901eb4d391a04f6aeea62ebc3ff030c8f459fe747ba7fa0ed7ea32d82a6100;0x150c36b6679431d49ac5363b9e51322d8940b8872fd50d586fccece846a38b61c9c59c9912a2a0c81506f27e14eb2b2c6f95b8aa453eb6a5;0x6ece6342472504cf15e756a9664c3e92fffab83f0d905630cc66fd1e4e578f12d243bb9968a43bfd3a710a8659bd9794a32882ce24d18e3a;0x9fcd4f2f4a284f90d81d36074143d9bc556ddb216f8a98d36e9e796aed2d9a37a5ea150e66b77d9328d57f8059085a03f36ba432b907cdbb;0x170f75a653ff4d09b4f0c92f9925a86e62da3d4e4a460517a151bfb1f3fe027977065187a7d3488e3a041a6194933b848f329791d862050ce;0x67fbaadfcf1b7f97c5c4e8de2743372d23efd87ce6b83a4538f12168bde2917ac7e36d8981a9e64e0753fccf637388265638d1aa4195739;0xf0dfa60fa414a3dba3cf5ee0cc66e0f8b06c9e05b1d39e146a6922f07ff99e179118959befd2b309d8abc97de1ecf5c4623348888486697a;0x11c5a4b9e583aeeb35bfe761f185b9bc62cb4f90fc406c9a87db655f780df99fa33edecd4af13fbe4e2144790c14b70b6627f3d20fe66686;0x1c4764c134f04d8315d0b35bb859c16735c8c40ae5f62ac8d9f6fd2f7253425d3d835524317e19f39ce0d687149a2d319036b00c599cee45d;0x99710e1b622c5d9f76804364ac9995967bc22845153e2e1570737184c8d6d45791e6d37e751134918b0a01dfff8d2d8bd52f8103042870;0x681aa6281d0125f8b591a1eca26ac903442131c6f85c599c0226d503c567b235dd28950e80137da33d23bae2baadf69e75fd6f292885d943;0x10614f7d996692fd533029b883d3d6103ed2d2212e3d102573048266a863fa80de73fa566f78e74edfe7969b88aa32186da1fb258506012fb;0xc4319b00a7a25c115b8e049bc97b90131353a798f9fd63a763ce9268207877eaf1fab07ef8c7b375460b356a080d0b28d7d2ecaf1888e0;0x161720d879f31f638405fed0144fde870f640a84308b5174b061f834906e3a77b4235020b92280d3ccdec76ef5be970e0bf7c98dc1b9fa57;0x21da67f2adb378832c445500aa2bf4e232a87a3cb52e9ac852c0ad11596bb7561f59279a5a84d42b0ff61951c9b4e123cd6aaed6e687dd4d4;0x16507c6b34c4e46a1c7da1b973aa9f5e3c3d9510c4c1fe380f97b393c1ae92bd6665a5c8e3ed584739762c809b05695f7dbd5aa65a623a8d3;0x22977aa4b9c8abe8c8d7c2bd3bc775f51dfb2ed01ca5eac724860e22e488b78518d3d6bb8179339ec97058f4b8acc43c59a3060728e6e7;0x1e424a7046c0d25e0c092441ad4de3e8fee1cd400b7bdcb1b107e385f7f963237f4977963e826c944a242445e29d24912447e85daeaa2ad7;0x3aa1acc7222e7d930d443ad69f09ba9e30ea37e6680602e1d16117e7a1b052f5665ff6943409613dabedb09d4199e668ec1af5d523eaae9;0xf28d4c84c6fc8a4daacde42993b1fedc886302c6f55fb4cb9c03a8bf169b52ada50a5468e610bdb88dd7596ca65214c2148462a9ed78fc91;0x11062ab26fd0a3832e13fe8c70cb663dfc3b2f81ed59a9a60998e5bae26fc4bfc6304ea816c2d71a26cb9782b7dc01386adb775cd8ffa3d60;0x6e8fc3bdbeda6e39f0dd94ee781fec5cfef53291d10b4d455f660139d7a4b909876d717e18b16dbaf78e2d12dd9d8aa11b2b8242a91866f8;0x22adfc549d235140f5dd391f2be1d324752586c41dd658596ffa626a0af0753c7acf6f3a0df3819b6c3eb4732308e66f8d8d5f6267e7df12;0x1fadbe7a7cce9c7f63b7dd2fb6979a5df091bae7f70c18b4f7e161633c0067027c043c9a79dc835f9ef6e0d809f321814021ab7adabd72d4;0x2a1a8799e4f3eccd35ab2aaef6b181d4b17327685e0abf93d0f19e4c49ccd13fa635b8fd756d18fd6fcee3b5c7b1ab35f97f007fb4851;0x71b9e89fee0df0ff2e336cfcdd37cb5326fcf79c4be11f6086d682b3107ccb8249916a0062447cf6af6a50bc98a3ea9fd6a927fdba41119;0x89813a79a62e3fc0ac410801d0383e2722b2b5ea4c8b9a31c21245461d0b27fa7acd6435cbeaed88470344d1fa3e913f63c07fd38f2b733;0x107907c32e0690f7e705d1a3fbee5aa2920726f8e20a3c32a86a9d1b4e95d0322510c034859255b168b4e8b62988efb179a1e3c5dc3108c7;0x19ab61fea9c04dae5657a02cc33b35ff88b5bf23314a317203321c688da8b66ff45e84163b18a25ae362a4c4dc84c739e3db78537cacfb725;0xbd8550ae30f953fa36b4959140245dd81440fe3461ace9f9d541eea0bd9cba485bf1a24c2fa24e51d9d94458eb4374115111b446eabef6;0x70ae1ab1e20a199217d063a00b399d737ccf7dc428cbdbb886cd3dc4d04e4de6b6446fdb2d0133cd41c309f48e57b2b1f99c55e7baae9c28;0xd7c2077ede2b0c70decaeacc024397b2a57a0f6af97f1208000c3a59db1fbaefc73b857dde0e35ca23ee4283d1fd417aa633e550aec35;0x22928d0692e5133a7dc0f834d4c487251b2be413aceeea50388b9f8e27c73de0c48204dc80c10ac9d3f4c570ea22f61d77e84f1ce936626;0x29756801341865c76d4a3b483cbe4fd9e977bb6fc5715a8be7f1f85d60cc9e259c18a6d49cf5b3b726cc2e06d15014b14c1af6a68fa505d3;0x7903e2f03d6643bacd332c111e818c550c90c407bf18ac938bf67fa2262ceb991df1cb92b8ed3806f38aaec073c27886bb46ac0bcec646c0;0x409503594153de7a1125b37915b4e47636a5aa57da47884aac8e5f1705cfff59e652723b8c1b8f5b3a69284280902b5c93fe0267c9b2f844;0x694c3747bf32f84d3bb818795f73c2b59ffce42ecff02c2d709e6a93ed313acb5afbe41cb918f8685cb4e47a8ab07af4d32854dad25862df;0x282b09248534f69e610065597c1f4f16c82ab578b5ddb5d1b67788c51d3fcd3e3e5ee25e8a6add16f5b7212d7a08b12b004d8d945cf42f8b;0x177001b6241488fc99519e827e0c3779db815b260931b6803e063a2bea8485a1c835d68c17b3fcf891cf61ea54215f9b45704996d54b1db5a;0x1f7be5e52bd6625c58cb0f5901cf17266591a5ffacdcd3ee25beb9a9ae9985634ff604d8925cd0e48aad1163640f7dcbdebaebc7f5c3b9be;0x1b96ecd5388a9da455094233f99ec8346043cf2af6fa0f2ac1b5a49d40ac07075c089f7cdf96ccc0a5136afb3a020517778ba8d2ebf030f;0x163ddaf5f749badaf7c8c7a1faa5d9225719d6fdf189c5df635d8b4d059857e4ad9aab0fcd61b711b1fcaf84d0a8083d46c7024a4c9d20791;0x34fc662e412f336a724620aba1203883d03489c54496a0110f1151a5d346f97f0c1fc5b1d04ffadb6e613b21228134c355da6e83125009c7;0xf7b403e0bab8a26721224204f81c43283c44bb3346c88ac6f27b142c26ffe20d646a8034e62e267c83b1b7d5bc3074374ea093e24e83ac9;0x49403c5b6d11531050bf679dc005f977e5f6faa7dcca5b8cc3dcf44c1e4edea8f703ea33c0083a6be5dfd0b0554693ea2ee871568fa0de51;0xce76bdb47183239eb967128ce28538971b210035bd60bcc88a4ff4d44735db8dc6e83364a9af21be543ef2cec30991ceb280d6f1a35fa9;0xb655ab8b8451e840849182aaa133fe9ff68c3f017a0704025ab4d7cb440144a438e822efc15ec902848e7b510b7b0a3d3fb5477bf0853b8e;0xef4bcb58d54bb2baad5ef546882056b3b8c30340c2e05a11cfdbe16d65ddc76337e390df44bf1095a39e97ffd6ced5f1640887505f94e449;0x31dee590e466d0929dfe8994fa0cda0caad46a563abae3992d1723a46abf4f964e61a2b8fa3c1bba9a565c4b5564ccdc64b876e1db1aff63;0x1d922ecf7f615bfacf08562193b69224e25dd5ce2ec57fe103d42c6b7af5e297530ca212939c3d6cf9109b31d333a9fba884767bd4ff4f1a;0x8133a19a5bcf8a73bee7f55c474fd6d53510c629d82fd83df87c4e39804962a90e43ee3fb3929ca6e1691c67d7d8871760b947011be36551;0xa4417d9a0c018a6b3f2bdd7296be353e9c351acad236910e0795f0f0c3493d1daad610bfc9f4f8f54bc1a94beee81fa61a003d75dc6b2e82;0xfaebc9df87428a8cb169236704e534ce72d20f313206f4b371fd6dc2370a3ad22d6e4d518c11541009ec5cd59bd9864d0a510c2ec3e9b61;0x10910c294c4791d8d426004e1301751f6641938e30dd0bc2f4d87f11f823759b70897489b5bbfcbc9536cdfd12530e2da8b434e898ebccbc;0xc9ce0a4eb26951aa69b7bc105704885c2404ebd9825e0b7f3e483a4dc855ee94d6f52e14ecbaeb8e30ff30f469b361a887f2fdabbe36dcc8;0x312bd374d0c4935f018d27b847bb860074699c77510ed80c0c6642d54fc380b038b2be4cb4785e8d7336af2e9b2783dd5d53d60dc0bd3dc;0x1a2d86849e5901f369659155f7dd75f6c4f503632fb781b2c4c82875f6e952e14aa9dfc51980e9dfdb4a2918ac708de0480baa844d5a57724;0x714ecf7db0c75457f48d099485c54572d5d46f4ffcd6cc195f6714e706838dfd90069751926449dcb367217d0bd542cdc911e96f4a94d9e4;0x1d84647290884cdcc540e1d4e2daefa041f1183e52aaa1afa5e6783a55170dfa7f40d992eef97a5fc5da5ea621aa061d4264b93ad58f40d56;0x12585fd42906773749ab1a7f98babd613e164ed8eb95ca39cf7b7d247a6bc01cc71f5f6b3c9bbd584f04a54ce6d7b6fb66c61a5ae230991e9;0x30f279ae98d543e01418b5f23de79b2b22a26e8fa9935ffb37fe8c2f7bd3d1b328de0e0f1cfb25a6e74c12a4f95540a28d84d802d13c0499;0x1767620e2661b3f59157d7d5c213314fc4448c9a5f21d3ffbcaed1dc889e9c8b16cb47a15835d320390d640a88d4af13a0e5ee91d9722fab7;0xfbb663c5a32ee3305b2503fd518d8275710dd0e97b818400b86017a8678fe2241f3f5a3932f3df3f1fbddf4837de9ab32376c24ed9d0ec4;0x124fc4d8c5f6ff3060df1215a2df1002efd5bd59bed30f735c4be8fdbc6ab1e445499642a86c7aefcf6dc3e835aa0b517940529af7918ccf7;0xb27bdd51ac2222c60cb3a29cc45ef161f6b16bc635a4283d4850da5cde70fb33619741e171d1c37d7efbfb87ff449939fefab403bf6ce1;0x50e7ad5e2f001cc1a62ab1099cf5d9aad445ab39a366c8f8e6c881f81a0ad461f14ac57d36b1f8369b4cdd7d36bef185cbf8248e310dd7fc;0x940beb13ce64c5b5673a1a27b440cd13bf1614e4c032d3c67358a5568b60bd7da9a00a26eed1a1d3391f960ee9903cc95895a53792173504;0x27da468484ad871a985c3f83e836b68a27cf43b62cd9aa040e52007710436106ede9df472ca8997a24019234fd748ee39df230894c2d5928;0xfda2d7a617503b52fda8c687d3aff89aa0388ab46676f3d475ea40207ddea66b0c2ca13f90678f5708f37a99eb935ee22c9071a662244e3b;0x3e7b9e040067ac35578e7966e6418c4eff047e1deb46484333ba99e10cedd7097f6e03971b6b3c5041db930be8007be9a89a79ace8e5d6;0xc5b805b2a853fa679bef318a626f15b8ad185436715668aadd1ccf741a9ecaa44c40f2acf023617904b3239ef6bfee9462814585a57eca0;0x208bca1633faea775b7c76ac2fc7b66f8f06ab4a2ad003e672d1d2ffe15560a559080a5580eecf8d7f223964bdd1ff6ac9a75eb19ae5e06;0x177e428dce29da900d6f3d55c82c9078c6b60c9d159c9d132f385f7245eef01c47487429980f445eef97a11219b34334a936d55c09589e6e;0x156bea4adac7f694372d78b0288a91a1ad5d5ed4cc55f6f3fcb184137be11a3b7193bd0407a512d0437aee63ae1540b4b69d30b4d286ea758;0x197e6bd86512eb8251f00d9f9db635c0f558183eb0a323614dbe2a4bcc0f6edd7a3695a05d1b6c9abe11e536ad13510be11a6c3faa667f9ae;0xbfae80a26af2cff8fefea9bfca83570e150f06568f2542f7f1436351a1d62e4f5ea73af24765eea0f05bb4af40b2b5d888381f41589775c7;0xe93f701064e59549937279ec3e3423d880451a6fa385864a7e0052fdc21647229db6f7c4057db1f59c40dd9ba4f517b2061701c84a2109d6;0x71c41fe4204882920b32d29f87a6b00613cb70ab366fc6c2425063f7c232abc4fed53b75ea7edcfd1ca899e83e0c449c0a6c2376c935d394;0xf38c75556d4c7515a61e02e15069f4f2f667ce0dea7b2d1f60119eca16ef06e31a7e49296307f1ea9a2d19f8b33019b6cb400c3d1889f4a3;0x244011e4e4ec9e968c26727fc59f478da10ad58c68e80d459ab6fd6753e2adb5a40b8b4eb781b89bb66c728b55c68c3b474d5575a54677ab;0x11c61ccd2608ebc06519e65329418537f6d3d1df88adb88bc54b5af3455e74ed61e87ed1c2bed1decaa218da3dbe4928b3cbbbf0347440848;0x2cf12d693b07fcd956c3894042886c0808f032918cd889e72568bea63565b4f34ae4c96758060645bd9aaa3a070c1e18c7d62cecd0a52f62;0x8fdc94d0125f45fc24f17789346966ef3f44a7ea1c5f68cb177bcaafead9ffa1cf8c45b19c8e3c44335ab18f6bbc494c5c862338e5e37ed1;0x16d7f396d2f9dbfd8a92b963ccb085f6643a92c973a77599bb003c41c19f284306090372d3355e165699223cb3e39450ae03149640f3e74;0x1e3c25f619574e2202a795d8a5525630f5a5f37ee242678f996d2bced85037f9e3f1009b842d329945c043f20ff581e1613f730d9688cd6cd;0x1efa00a9425658e1ddb41713b440cdd91ab57ce6f28ac8d628f02efc6cdd7e910c3a5d8deace244ec1392fb3cb35b090fe86de735d1cab887;0x1081397fbb2f8dac69cadaf3735cb2e2d59ae86e37809b251569bafaaa80a5a9bd06b768b83c9026f5316f3ff21a3195a196793417ab613d;0x31b20b794a19f40b1d8881fe8568195e76260adc3a8ab6a3985f873dea657878847605ad21315d400f36fa4f9f8c186627146e504618a061;0x6fc7404e6eb67250f47029211e2a2c0ba2c38ccb82e416117884aa34e0b75c7caa711b8312ffe97c3293b4efcb830f925a87b7865cce64fd;0x476616a44e7ec82c2478eadff47472e5b02a3953a85bba166e49d7acd3bd47a42986700bf9df3a0608b373f02fccb1cf4ea463b76d649f9a;0x9aad147a0617e6bb7b62a3fdb8dca8ea8ffe4e56cc297535a81a9c9964e800a1fa3cc2242665a11c9d2bbbb918bd55815c32661b2ea38057;0x7b817eea987e4f158036a1ef466f051a3f5ca3c31ed7b011bbc00fb724f7611c4e93eff101695ea2100b667f2de7829b03e2930296403a9e;0x4829cf8f1712f846c45bfd47ee344bef7ca7610421318649555491695b454ee89bacd4e98ab50ec2adc093de58f5539603b52927c121647d;0x173cb8fe23bb4b294a97fdfe1321fed28646e817ed9fe725c885cd4d1ae62179f48601f95fd7cab9e53d8722d39e78b04c2d0045d79a191e;0x2a63575ab4bdc8fd77de5b88ddbec93d2017dc9cd60ed32bb018662f26e73b9559cd04af3f39ada17093be1be885de0c19476b8115f444;0x76649e4e968cccaf2a4511ac628ad9f8ae436b504df80c9016279b22ef45d61c4df8f772efdbf47db48799146dae423b9552e5ac1e9188dd;0x36d69abf3a30af4bfb410672ed52653532ac780ac261002579c512178d1ab2ff018f4ecafd7cb361a5d2d5c326a3dc6fae6f95f9d411de8;0x565bb0fe702ff5d9f637a28619ab8758b5276cbcfe364f57d9b1a4c7aca073c5b516af49366b5bffb8d64403f8726982965900ede3376153;0x102e7ad21ea8a6fc5aa75ca8acec3afc44188ca1669e0cf0a68ce63dfa61f13586ef9721008e86f9d0583c866574fd07b358a796acd9aa277;0x12b407c650ec735dde45f65c4ea66b7e403d36a0f91ea995b9674e6498ee6c3d94b489c308c04a9a42385e868faed11a66af1d6f8dc53bdf;0x2680544291cf30604e05dad46ab1ae4e90ca507ce6136d3622a0a38fa3e5fdf324cca31af494c5ae73bff1eb4aa93fe33e64a810c6e62149;0xa4fb098faa676b5fa6e5bf5a3fc07c8a88a449789352448362077be2fe4eeacf4ebbf51081dc46229088b0627ed0676a43a39d55655eae1d;0x1a12a1fdd432ef0ebf8d5abdc3fc972b27930b53031909871912d58eed4eaa4cb6e477b4ef649e339a0b2ed1b86e6381fb04ec59c2d01616;0x144958a11a0f570591fd8eed9750d4b0a9fc66150acda2f2f9b7a89c40fb8d4abf03ef9b30c87b53f4af1ae53967f3e98326d64ddc97504b7;0x3de716dd86ca2bc4d15fa55e30f924a9b483e854b86123be591781cb0b0cd3365faaa51e0b06a0a6d16a28d8d23249bbc2ac272f69d2d40;0x14e0e8788b9ef2dde4326a6b9c5caf32b479cdf79e72c0659bc4ed0deded04030385ab22ac0dd1aa0a59d7f73c6100760ff5655f6f9c91bfb;0x683da9f8b11627e78cc3e077a8ad4fd837817a32550c33c89d37f8b1fb8a0a7ec49d45b9951e674ae9b180d9394ae76b14778abd399d902f;0x16419ae962ea986fa9555a92f453e282b68dcac1f37cd01b7141999c231b35ca40ac53f2d35382fe2fb3d7100933fb33f286abfbc3db4b1f;0xe93a4b8daed527c63db10d3ebb297d7518a0742458f21e939408a1b2249fd18b545416980c6238b31e544362df3d1f7e291536ae977ac2e;0xa064617b75f2373cc12b06944c196a1805c185913cf2ad8421b443fdf5030f2094b49beb36e78e2b906ab126af8002a91d1a36be48a10431;0x4a547573858e05103e7a0f4413fc206ec82e59a206107b9e6644f95a5328e7a330bfbee4dc95859687c74af44d89843550a06b054a157462;0x73498dfabf80d0492dd6af14cba28b5d7cfdd6db27fc7838af03fdfe812d3053ffc094a05db55ddd90fe334f59343cbacef0a003bd1ba7f5;0x22a9eacec6ee1c5e8882db5188f18d3ed26c32ac5feeafcfaba05f67adc0a43772a9429eb51566cbc0bf2f7635a1492b3d5a4f1d1e2297471;0x1e892b868910a7f471c4f40e367eef968d8026f9f2611b1fd5bfa9389cc94b9b92e105473880b4074d56ca2a8d43bddf7829f3f1de907161e;0xd3d363d178760ddb804e5efd222b645db769465d59022933ac465e25a6b69e902ff60f117c57b13868a4f8793e5c76e09b7ff887a96b22c;0x7b847e3935fb125e14edad542cf69a2b3d0e8fce4c09c195ea48b197591ab05ae0da2d57676447305bf4550923b36d1531e3979824a00a2c;0xd95ef2d27a09d99afd851fcaa70e1989309ed76bc97d6b9607d12575d2b50c5ec479aa2eb4703a9342711abc2949398b610c6475409acf98;0x142b6a715b0692e226fa9b5ab1bac81babf427b2f9594d1dad88c9ccb0824e3a04e718d0be4282c212ccc0d6cb5421ec6545e71d198119bd;0x3992f4098e6de642e0f42966baa95884990e9cea67d55a44a44ad0d8c87c63ac7fe33b82c35dcd9b74659be180cb13588b23629e5b1c71ed;0x3142e6ebff5ea9844e1d963f5efee42a8132c8340be424dd86451bcbde1ed7c80c79a7005b171c30b48fb05759560ca40f68d63fd489d1bd;0x219258446378e1d68c02218da81d8bc8b50b3e642d058d2fa447da32cfe6060a41aca2a6df1f6909db00a86edb6e75a12e387343c1a150;0x43babcea7b329c20f84aeafd5ed24b6194ce193aa0d84654923967881e98706f096cdf949921b48706d01616ab8e61bb108084168c2f1f20;0x1bbca7db3bd7586a460fe242e16071a9542596db47d163336eb5914522de1c45e122cf5acc36ff8b0527a11685115edbe34b64a243313b010;0x82649d592a68c2d67bc7ca417a2578792942fcc37a2ea6be47a5e0844b53842929efac090816bb558f355e401126e1cb2c493ae4bcb84fcb;0x502f70e91ea60416ce81d02f383cb96fe49ee3636247321eedc98e393a3f28630e3a92524ad08ea2c477080f9505b3a36aa722ab2bcd17c9;0x14fc7cc213465dddb6c105adb8bca401d6f8950fb145a12e1aa862ce1d0d8bdf4a8462484276fa7f55117032ea9219a15e452355836eedcd;0x2366ad7484d44714c2438daca5fe99d377548f58745d3350d2b8ed1742afee4dc9bb892b29b8acd7fc5b56935b6d1417a81ee28f7fea661e3;0x646b533660739b5e7f4ea8ca6a84f7ff0e74ec559472d15aefffb439147bc900e3cc413c097052b5f7f2ea6171434625c8ac977966b34e4;0xad7859d4668fd71635b35388539efc4ebc2fda99fc9feb074a3c1112be9c2de9e585070d792a2db487a1460a59d38ef7f9eb0fe69ada2c37;0x80dde36b87a7b9aded6832ddf5a45c35905d4ca8c498e0dc23470aae4492c3130e367ade62a2d9bb4ddd8bedae517985fb9c99ace0e0bccb;0x416cf7af3399540020a0510c80374aefae69998b7b5341c450c4ea2e550ad8b63fa685c5dcd192679213837f4942f0e339a99fc6a453973a;0x14647786e3dcdfce20f3fb50ec0540e80e7aed0c57dd0ce63e80d27c42aa8d1bf25232b536c1630800cc5ee8eace5e93ea400f32fc84529;0x2d0d2c3b34bfe238e7af069787801476986d1b679baf9287e37f58a3248c1231a60bab57b6385add538706a4cf078372976e1fb6410b013c;0x1d86cca2c43afa22ceb6859205e166576de2bec0f4346da31152f0e35fcb000278aaea79305ba8acfbf3efcae15791b4bf88e6381b58a89c8;0x5818b4129addde4043d9c7d6c90fb448d6c297a5f56f4cdb756b242f7a04fbadd2e73ca6278935ffd177ebf86180bfc266a2be70ae8c2bb2;0x330844fd47ff060caf347d9a1e2ca6f19b5ca645f5d00bcbb7451511bdb1fac9b6d6602d69659b5274688f048ce5c78055efba82dd6e97f;0x423a14eba8a09619ad045bb16a8a591b21c4f321380dbb2c0d47ec614eff12cb6566ea9022bbdf0dad369630521c12d371ce5152c80f91e0;0x1661f1a6bf3cd91c4f379ab5947de50863946f72ed29e78dde887a4965120280f4d055aa19a5b6042d4214753b82f37bedebcc5b080664fc2;0x112388ff1dcf003d8de49d7c8cf2a7439fa54f2eddb9aa4cbba7f1a1e0a9d0d848c04a9124bb25ce44804c5638045bab8c2c396efa1431bd2;0x275ef1829ffff6ed729976faf0ba2aff7419e85615026c3ddc36b596e752619c10992162b288bfff89b3693d73991036d3d4332443adefa5;0x2d69223606ba3728cb6574f17b70d434a0710edbe301af5b7cf09165462e9134d7bb7824f49942481542e85acc82e20c2f89a89bb680e1e2;0x5bd88d0ef311d1922b99d05273b34c2a04a82268250a38e867c1e00b1885ddba3c9ae0741d2cb0499d0068340819699bd5ff8fed383e383;0x111ff9ddcf4c3b29c05da74521b18237d4b6c2765dbc8051cc026707b73ce12e03622072568f29c9a8eab3d9cec43bfc4c3aa33005bda422;0x62d94c9fbb2704b14ac2af565e1d773b223b55b798c6bc503bbd01caf471150363b54bccb0dad124dd42e6b43663aa1ab1531450a83d405;0xc620c0647ddbb2a8fd1328de8e637146d4e4fc012521c133938d552bc3cc7c3ddd6feaf7d1024b1c548988ab2f82dc1820757c18bf338cf;0x356569d71762f4630f35f26b96ffea9123e2b333997e5893a0db0ccec73c11c243de39524c6269cc71286296e849f6347b50ca11fcbe1aa7;0x102195555c1d538a774f30ae7ff99c8ff104911f90f254a972b5d9de165c5c7a042b03744dc624029df7cd43fda97c18e59ed2fbce94dfee1;0x590e363feba735facb4ab7e9bdf0e8177dd5668be2c3215930dc2bd75bd92aed3c4990b5ca6d8a5ca9e1fd50d9215f2f44de7eee7b1df9c6;0x3a7e094ffb68892da1fa7f6802f239d29e138ba382819d3044f685ef1f64eb0fe408512a267164c9665c6605a8ba2e02e376708156e9e3d7;0xc964f43e6c45b025026f094840f0aa5608c0dd51e747cc421037226e2b57c1f7a83e156f0161ee5a43d061de3b80fbef6a721366d203052;0x107c895b34fa47fd0bc97abe9edc6167132792e5547ac74ed9b7b499277f2fbee058f38e3060b04418d2e4af349ac62e62df059d6e36d9;0x54a39895efc98908c3a04eb6e8e8d7ff975a7fe081819a90a5a3ca325447ce7ecf4eddcc35decbdcc5f6b762670abe9ad06e2e28b8dd183d;0x107f3e37936e38c8230b93dc6b0be973a295e0326860eb6dc37b689a11b5858178f1b7180d042172eca1f3a563a63f1de7cd6d1cc1aef9626;0x68a947dc88d7f6dad0c675b5d146aecb053fc507b8b973919b3ff9f31bbce8fb7d6b217f4d519fba2488bc18d66aba7f01ceb0b941a79533;0x22201dea7081b4e290c6a3bbd48ec4cacd0a3a43104ca280d6249f56c3bc4e18ef82909b7f4aa02204deeea18af697435f74a31a79f68b8ab;0x1efb2b42a5834f7829e2a15093b9a05a93df56adfbc4f5a5bea7d1b0a6f37707e79e490c50d90f521024e537d785ea0b84b32f6d80fce3e95;0x431c9df771b149f1d7a605672b8dce75069491165e1c4e04fa7361013982bd6e8742963bccb7d8a8fdb31fe91f7378c6527f4951faaa9700;0x6b671cd1490b56ae9e028e8de217743e9726eb9dfd8dd3f3d7395f44abee2e8e63d32cb4d48cb94f6e9483cb335266f87160505a9b4cb97c;0x5ced1026de963ecbe6538569e7786573ad37112be134af4bd10769fed6edd7aa990685f6b1dae8277942be918a8e8681b9a4a62982b2c62e;0x3755ed01a9c149d31bfad1bb141ed9ab50c10169bd5085330945ebdeba3eb9f0a11a2689426caa83a816b8d847fa50c1c263eb3c85e86f7f;0x2229152a5d7c0e2dd5465a2768fd03b650340422e9d22e168b8d0786ec9ed88a2d5f0c8ea29b46a4829eed561e942752d01ddf50c676636c8;0x50a515665c5e209065d4b463a54ef00e9b51716bb40ef8ea17e255c64d600149725cf9bec8f7dbea4e92fc63d0aa4374b2b7464c2ae97008;0xf35acd6849e613a62465aeb6355ee071ca2d9a9c97bfb0c1c9c673eced05511b1411ef354ebf137350da7723e5169c7b3f9e07759938c7b9;0x695f5d86a065935d55854de96e8f41bfe453f11871902d7dc569ca0075b36d2fa956a11dd6f4f5fac8826263a08af50ba9b78e9cbd529309;0x8d67b170ec1fa2ff47f0cdbb23f110875cf730eb16f8378ba3617a0775891b83c76138bae8d852ad2ac6aa68676357e3bc952589d1fb30e2;0x59128dedcd47a9fa6eee71ca57ffddfa70a8d87841898c7db5b789e6d724454bb60b634fb797ae1d4ce01b773ec4e833a783ade9dd5588f0;0xb731c30ffc1f813dd614e66864bb1781c0c5f68617d7384a61b26c659ec948daa77ab5aa4071d36e12379fd67dd81229e6ebf9dfdfbeb109;0x65958b6c4b9d921c48a0983a5caa1610f4a8c3ef1bf10697518a7eab3c1bfc1f0f280882610e6038252d8c7343f78216754880b28a86206c;0x20784fb7b57de2a6483ec19a1cf91c5aa95b63e84d0382e6d559f3afa8a5152ade6cbeb207dac190d343f57b2f14b55411bdb91d2655a7c1;0xbdd99e3e2552ae9cf3e7d7b6756d4fa1b544db7cf273db6455ff043f76f088e40b5a91689bf7aec7fcb4a07202b3f63a6cb9696c8c766b2c;0x1d62ded406bbf0490ee101118c63fdfc9ec7fd8af9429840519c272456d9ba82d3fc49d7672fae709dc38532970b3ab8cfba541eea8ca7a2e;0x3a05dee6549cef4ee87240b1ef3d78f7ecab40f935706f1ea43f276a6b46ee8dcd2c8fede7cff9a932e37ef50131128c755fd0188131f22b;0x2849bc29e24a2ce5d5503caf86a8cda91df5def9af3efd0bbbc134810369ba3d6ec074e2e0e10e1ee563c20fc6fe956e7e519a8765cf8746;0x74db310cf5d570e1e9713da573f6c80c8e921df01ed49cfe930c8067ba2789375412ee22e8286fd80981b09be092f0a917e82d16bc8eea15;0x4288362b85b63ecbedb0c4cd887ce96bf90f8df9a8eff9ffd9dfc25efb3480ec02e1964ecede72cef1578c4c8f28a1290ac59ea3ab98bd0c;0x69630f71d87b8c78edab132374df76906c68a087e4d36d5467016b62159a6bfbe8bc17fdbd664948feccbc778a04440f45adfcb2a40625d6;0x566f6e6e48b318c5093b92e58aa3e5e99fecc4d03e7f96985112443bb7123f982b84e0e6e281504764d0d4caa43f6f357cb36c048e230186;0x508e1c255229c8f4d765729dd7ac6321f53e7bc347b847b7438aa13f42e9eb874ab2460c9f17cd121d12c36fd10c98d3c494cb7cf5109cea;0x15d75c24b1b24608cf3ac7fc42a06582a93348e2b9b38f82b298423d406c01757a662ad915dca93c4a89557bb3d37b1717908ec9d287b628c;0xa0e67f53677279125ca189724de531ef022c09e5cd8fa109a7c4faf079a64951dbfacf1b2d558c568da33a95912070ace04ee0273e90e419;0x12f7d4bec57669f9e169f0b3dcf948d3042f4570b0958a8fbad57a7d7d9194fba164c9edbeec10bba437e8502839d9687efa964c8b1e9ce;0x67ac10c3233f267ab6046231479575f89769e9e6e51eea0df3df449d3b232d14e8f32df2315611fdf6ca2d621e80964bbf8a767bd1a78dad;0xf5b5492907cf7fc44c71ba488b23452da0cfc4500f4f8a7b08b6bc24cad7093c4344f018913ee97590f3f164affcb261498400010f7fb9e8;0x73165a4884463ce793826a5f15ac76f7db2f221456d3389cc0d13385328e4e71e148159b6a6b083c0cbbf3117b2e0a2c346d7f1cfcd46552;0x227e4ef7e7e7007c4db985846ac7caab42361060da75e603af82d44eddaa5f89641b57497e9f5f95f89ba209ada334fd19aafb478d202696d;0x6477081f6864b7a739ff7de1422048a380604d4760091685d1997bc3203095d92e734f024faaf51c80e8ec6aaa7f6a6e1832cb35d424291;0x2fc0f88a1f36d37cc4e78bdd1ecc5ae96eb9ec2326a1246ce92b8066bd0241fa198eb1108bab5c01185e10a01b020148241b8b23d60695f5;0x1302488b9c4e409b9407ddff289105f5938d65aeaeb1e25a7995fd659b2cc4c7e16d318a0963ee865564579b05db3c1b110dfb0fc4015ecf;0x5958593da558a99ed426258b9b314e588ff262390d286ad26ec4e1351f1bf6eb44a6b39a44b15dcb15043710ca3f1504c359fd16079e5f80;0x15e1b8c190f6dc2626be252e7b12d438ae7e7744c4a5ed4efb47814b512e2bd355384fa6b137c7ecdae5f94c14030e66a6f8814a4bd85e326;0x10a69727537988f56bd76e8b54de8b1691716aac7719b5a8ca87d414e52f398feb89c73703fb4230afe6d4606d4286a7bb64ca06e9b1f239f;0x37e2b32193d1ed1e7e5fe0fccf7c903c9a6054006f9738d195c8a3671b7a58aa9aa73973c46938c20b71cd5bb12714b759da7563efb14690;0x2370c6404df08cb32f45587f1a962273af1ebd843bac9c174fa3fa4d0ff8bab31c4b0547e213ec81a025ec40c0bb9a8da5abd1382ac0014e;0xe0e1d36fd23c4c46fb98102c9ce5d233eaebe9c5dbf7ab12caab9d8dc16026eefeebbd3e78f775e6c7786db34998352b875901e5025c44;0x52bc866d0845fc069aec426ab3dc0b5f7b7dadf16c68d59ace8d2be74022515374e38754a23bb3635d893a6cfc35b0259444b7ca0b8ca9cb;0x10ada6fde8a81602ba10a37b788060a3ff630d943faffa3f86044151d3ebc23539f5adaa05b557c3c11e2e7ccde7f463a1a8ea52d06028b5f;0x1f2d19863fba8a597beb71c89ca59dfbae8bb5a80cfb3ac60c354b18943e8c223e18d31c452fd59c49a000260cf73b0fa51042941d5282af;0xb35f957d0013e0c50b1eaa1258673ab8480ad0de44da70f086520fc8208c229561aaa09dc23e442a075cb26fdd04b84035180868504e150e;0x28f59a65e1fa8ba7b2c5d345eaa57cc54c835e2e1e37b4b064fe995781ea334ab8476271f6b454d2d998ba4966a96ccbc7536caa3ac13329;0x1d2e7f3b053c3902f5bf1c9df46f26ed239c4fc1b9e4a168fc5d09ac995b4b6a95f9bb7a8bfbd69f7ad6b6966ded98b88c5e4dbbec086d4;0x2c7d7fcae9dfbde53bf51c8596b6800831aa8f9f9d5230e853479730763cc0d98b807ad69a5d64d6df540e8bbd43f41d1091248478da1b8b;0x711e32fb457d855ad44fe8e1f18cdf046f3b005f217a8ce12351f63a99506d060ac7cadbd6c27e948097c4090c6c6c087ec187de897e4b;0xfd63030fc8923bf3a838fafdd35590070940cc342036dce12aea71aba5244fa64703fd5a23ee02ddbba8ad243c60c6920f839bfa90fa73;0x2804930bf72420ea5ed96ccfc5dbd3671d38c886fcaf3ba34124ce36aa09df573bb0044795dfe3369596407706b4ea402d14d64fd8202c1;0x48f8512831ab79b110dcd3bea147238cc67ee3dd60aafe5a2317cbebaa5ef714c18f1649bca0a360453f429aa4c7e99fb63d5607987bf280;0x1b1661b71e2b951212c71e16cb1749211875f89a55b21dcdf4f98bb9d7d0cbbc983db1896f4a82365f3f4ace1896e90e81d978c2fdd4007d;0x1916b437659a07cba21f8ff339c14949fe1f3b33d42948211bd60300ce67d049bb1ab596a16fe6091b3245ad00c3adcce39fad5c0c459a7a;0x40b9c6db1d7993eb32741c75856273b509033431f71cc2b39b021c48e1e2eec2cc264f40f52002bb9999eb7568d0cf46049111358ec614dd;0x1bcd3bbd8446fb7a40b8213eab762e1bbcd13b6c558bbd0b0ee14dd17da159c3688ec3c08db322cc3871e3f53480ec7bd0d0064cfce91c6c7;0x226b0d6348fdefddce86b0cb3c681929fadf5430dabe37fba0a2185fdf7b2c531d95eb0ef924815b200cfb533c54ee412d585c0ec442a049;0x27dfa2b2b212daef4eace6c3f67fc7e79a54ff2be252deb2555b7c676981a408b5bf45eb9dfd09e1c2f6d4dbc6280bd3b8bec13c4e0ffb6d;0x13f1d9b6d35604e6729c738e403c4d28b86f0ab1f19e455ed4578088315d4a5e9f4ba5d56beba072e2cb1eb49e4386b52cda0302df63c8e;0x53d9e9115501fc16b137d11c6e50c8bebdbd1647eacbf66e01c1aa0eda9ebf913b995da3d398cbf93f6323b0dfbddbb514b8ea1ba9802a71;0x14d99f924847c54bd25bf42b622f194c786069b804f88a0f1c8bfb455fa92e5e6d004ca54412acf4b2e60d9d3e0e96d77df7df3e1969974;0x98bacdce753c38154686c8712a84cc8b78610ede850d36523b885e4f0d011d1c143ea90c1e973e5fcd1ef3dc8b12ad7d327bd11eb13ef8;0x1a6d6305a2ffb25bcbc562f71c4252f75f5a1ab51aaa9ebfc395054d6bb084edf9df8b40e84fc5d47bb3037a3cc4ebf46e62dd4b18f8ea31;0x2105ff1bb1d7ca538e309ec2b221b5fe8d9f446ee9e74b3ede4dd8dc3e4dd76394c482d0554231fed170131000228f59d52d5714ff8294a6f;0x3c9a4f91a1974e98ff06ebe4160a49e4c20001ec50d79638031e3b9592b9baf5855d3278520e45b05051e4fe1424e914c0c24279206974ee;0x1c65c97dd07564261c06a8653016a03b66c26c8f42cbebddac1b10efb618ded9c2bc515959fd21bad43b1b9afc1682db484ab9a31809b03c;0x1eb13dfe93e2c57bff20d20a9ae159b5c0ae0d90ab96d60a53b3b0cefbf5a230c09f2dc768e35ca5677c42f478c7f366b784c96faefcab419;0xc49714db4b81152d0f50379ccccd65ccd7d28b39f1e3bf7f3823cdb950a1ad701d242630ab749f25d6f04b76141e90000e7292e3b45c99d4;0x8ff3ecffb3abdde92d92eee04c8c4d14ab8eb736f504627dcb0913085df1efe0f94949efe8ea3adc66cb03f28482713038555f110dbe372;0x145959089fd11e6fece039919e8e8ef5f3083b152fb7adb50017a4af1ef30005b894385a3f8b22cb95945a513113518582777dbfde11d922;0xb637fcf43bf24215c2a8e4497d1e3c66c0a2ffababe15c1165e1a48a499343317bfa944422b5956348c53575e8df07c67a5bbcf11bd192f5;0x218e472618e680055e7ec43a8c8bc76032858853676cfee5912dcd59ba4e8f2b84b1fcfe1d591101bba9746d581d5deb3968e9aa1d19803f2;0xdd664b1b9bf33623595119b7fc75e6613e8421266f47fdf8baf4e721a4b7c4e849c9527f041196e320ba35acafcd548a599a2aaf75206dc9;0x21a8859e3effd652a0cec2068c03096d2c7403a69777ebe003793d3fb24b349d6fbf9a5468bbab3407a1774937253c63bece73ae40f8479f;0xb4a4fff0b7f596e9ab6de206745a01551f49a86e64d40ea0b756567c953cd1f3f911a53050d46b985ca5d585aed0bba3a76965161c9554;0x56dc7f7fc55782eadb6b8fa3c30b98a53419dfdf58c941f92809e2a5c9f2fd38341c02b89c3cd42312f908016c69b86d513154687da5900f;0x563663ac4ad7cb49e58942e00c590dcc299ef322ee3e889d5e9a334fd55b75385a3ca714f0851ae7f7a936ec3156ed5b606be5df648c43dc;0xa740fb358e4c135a9a241827bc1c34e12121972f812e9eeb4efaa00d424985f411928d77e0b005d2dd7c2ce7bf4edc66b1fcd1b1c198bd75;0x20e0b97631ccbfcbc0fb407989386c22f9055fc66b14a777498a7340b6e174e89c7afe50aea6f8a952dde5015ad400c10c3d1481a457663f;0x66b801febb377e76140627bcfa3426da8abac1f87aac631e9d93ea989e9d3be6c06aec85e324b8f38a9bc48e3b4a2becba33d69abff4ba85;0x6799047394c8ee8c15c4f59faf1dc80fff456e560633725883aa2f1b5d9a4c840486512b3abe38a235e3f8071f4fe320848c7b5308ffb74e;0x16ba8366cfc9d6d1a56dfe1151914a314f84f48c33908d9ff8aa0dc1c642e739a2310f731c92f35afbfc3a03eaf236852f32ccd0b7aa7daf;0x10cc567db1133bfab1b19ce8619a2edbcfc935c2b0ea5df17573d7524e0f8afa8f6aed91a060681377b73c54a5da709ccb4bb9adb780109da;0x63c774a5a0fae5e4f82c9db819b77c9e30f64b8545fbc86fa372eb25a0a7e6d7c5b49ab103cb383c17106cde0579283bed3ef768cda9a67;0x52deac13428e0775947a4949891dff0e9c85fad60275a35bfe58e0b3e4677b84a1f549fec7d752c4f66d2edc2eef3caa0cf58e8a2dc16303;0x5e47c34f4af3727f592c068ae3cb58c29d97bfa4417c6748e1ba6ab98f6b684be9a09030357e7d3cc37b14d8ae7af7f2fd1d6bd3b3d05210;0x60fc64d487133941d8c7e6f17714124800e2347ff081aa9c484c953021fc6b52d0b85c3b881b59e0440f71dd59c537368e680a51d7d4379;0x1ea6f7a5954c5aa3ced6feb83a76a7d6d3aa09101ae0524392e290c2c548a077fe4da883eaca1f418e67762b28f9738e1508f292453a0b51c;0x923c647a0f1b24df735151cb8bd180ee01377e804178567a61846da68c8b1dd2af6f3af9a9c5f02b3bf411bdec8af4528ebc01eff4de3610;0x7df330cc2f4e0c1b160eacf68425b4a20ef615a87b0808cbee06f30b9b9f2092373270bc4767f21d4eba9c068e3fa30d42e87d44cee9a26;0x8b035e23aa952d6064dc50b594c55c79b81adaa8100a936d2a0d1e122528c3f00c40cbd5018ba741abf40970cbd6a684305a59b8ed2b5f0e;0x56163e6f01c879856cc4fc34d7af451b4b8c970678c27687e239da4a3beea7b7ed419e85ce01ff2bb2685c01581d5d52a02ac290e9411983;0x5b8aacfe213f3e2d3e82a7bd998488fdd48107598957ae85da37d901274687f9d88c3a6dc160c7ea4fb8f619195615b614aa8e326680d7;0x7770bb3b203ea7df594db8629fef7f6de7e1747ec98148334a2874d9c9d5387c4a0ed972624cdabbcb94cc25e289ab84a0e61fab3921d89c;0xb06271c602c41799384a34766d32a8422e6da3bcfa146b86176ea671487e5292ecf1a0787ca2b22c3cdc43d9c5c46049c5c44927c854fa3a;0x5ed7e17d65aab926bbec00f7ae00fc8e83998239fd2cfab712e6944ce0da431e7d4648ba68ce038c34280428ff4f7132a98a281c03947bac;0xb4330326aea54c72a03ae1735852eb39c887bc8b5d0c626890f9d8ce4ca5dbb4b83e52e350f6ac38ae5fbb0c59306a5ccf88bf24e0a4c85;0x1a93a97fb831f6b858f9242c52a58026d1c9ee04fb700fd5313da59fba6489f072f62a39321860e6a550ef991abca7298bc87d5fe8a123df9;0x12d329bd7c99f36a08e747c967b723422225d0e25570c93c7c0b334570e8d2ac570bb139523e253a71f21e4be11db8bc181cb99a681f3c75f;0x73d878d4436e4d8db03bf782d5dde554171252b5d047ab3f739070cc900ad99091398c3683a37ea6c105943ca7b15e652423745984042fe6;0x39a298f381141ed966d85366f1caccd174f71b6882ac7f3370cdc98ba4d5853fc5a4e51c4ea4a2c166e5a9316fe49f4aa74b2176f4a52755;0x77357d6fa059f3c1c69984120041d6db454aaf89204f0f729f4e6b25f1780aee49dee450c034ef51b2a7e5ee7501bfc10eb62991e3abdb2;0xbb09a83570c49bfe4bebf0334441fef9e711e542acd40119f65c8f380cfcfdf28220a2ce74dbeba477d3f550f5137381b00095422112a0b;0x102f155a1c5d37411fcbfff52915eb1c85cc688cd897581b4a75bdd54cb26ebfae0251716f8c1233a2f902bafb3beae1cd3aeaf56017f51c;0x196e217bcc72c1ee5fbc1c338e3ce6e169a838a0a360bab69f6757f6761e8f97d9ccdb39b47a40252330771ffa089121304490f4ec0dc851;0x2686101f36465c1c0ddfc5c64f5ae3187beac49efca8778798925128b501ea88c6119be4aeb74a2d736c278ba65516452b4395277bb7dfc;0x5dd7fc2f82444b7569ccba0f1a35abe5c3fa2f845512b5b57f190b223fa76dc3daabc0473808e2a94e30fc677648c891b76212730e85305c;0x15cb02cf3e480cb59ef65e99ea5749349cb83293cf483eca7fdee05f07ee463b9cb20d834c9d74f54cf4f0ae9c2510c1c94faeba2aca74492;0x10744bb0d208f867dac54b59189b97db489071d5ad30b2e3f12617513992d17cbadcc688a931cb6d0b2bdc0b7170c512c1574318bd9219ec;0x279cc625f3ab974dbe3f828b9748e7cb682f25ef46b75e69a3f467a9c6df296e8054424751abc80e5fed58b819729c2e74e1e6639c59560;0x3a08b07d332aeb7eb53b46f087c979be29103746395269eea3594fafdc335f2979c3e5b24918550df3f0bf1a81dd118493cf9f670aa15ff7;0x13e01f458c191723c4f0dadee6c4160995fb0c1c3d92c545e0478eb8e1ba81170836e9da626b2315b459ac1b1896eea94e950a3e26f95362c;0x17692d5c747d991b4640ca93ef9a1c722addb5cdec1782958b670fc28ece21c16cad29038f6cc7e7effb47e664cdb4a871e0ccaf6e3e8f98;0x4d82e2eae22f0c5b4ee3f31933d9c5abc1f882a5a3696aff6118d5487d8840546cfcaadfe35c0166d54b09e5be3fe984e51400c20ecf777;0xe2c1a956950e8d41cc479279408cb8cc428cb23f280371fbd3a48aa40a378c4dc231eacfa32cd1224bf2df79bfa901810bcf5449dacdb284;0x52ff641ee2326695ff9f2c83f0356597ff88a4429871e959d20555f277183d7cc20b231de0a952f3b8d65d35161a2076874503e575235b27;0x7fe6b2c71c47d84dc0eed1a0198f058e13233d51c66024dfcd281f631299c916a0d83fdb5d10d48a050cee1eb723e9e3cda6777afeda8bf0;0x1d70c9b21c88b50206282a31e3571e849c2d98de97bc12f3e9f2d49ca90a2dc6cb1c32d8ddec9fd28d4bd6c217985adc6bea14e171a0691a4;0xa6796e55ee0a700ca8338affcf85f7eeef2ce27c71b22b2e7c8c4f0deb7413818c8479dc02a4e6287b916c239309323afaf0100aa91c02dd;0x816b63736b7e2136b4a6fb87bc2ce7c8ec36cf8f12033164f61e3749b6305f2e0fc276819e3332ecd7882754e15ae53b4a1c5affef9c9bb3;0x863a753f9a8afa0594504e4988f9c053cd649748273248064f6ee76045fb958c49c4d345185c0e54377b186d07956aedb72ade8438fdbfc1;0x4ecfa831ca35ad6b70ef0e4efa8a96a164bfae4844b05d00135d9fc50000fd216e796d376b3a98241781edc7740f689b9e4da5c96bd709f0;0xad6c5612b3ca9233daf5294ea82993c17dc56fd914556ecc7209d50e7bf25404bba0563d4d662695c5e162453da0f0096b88ba7a0226f0df;0x1421f4d9656a85895e37ce5cec5e96feff2b748b6a2789df742a550a18bad9757274cc1be31c01724272470b15155cf3313044f2db36fefc6;0xcf92d4853a53e0fb6430b4097b03af538b1c233663ff051b24bf746838da784eb59ea629e602b3cecf628962fe77285cdf271fdc78f0e68;0x72b3f7aeb0fc45261b8fdb94b8713a27bb27f7851ea377b86d4464b5a178f16574e38af2570a1f7bc9767acf6968d5bf43d6e8a1b25a060a;0x1d5cc18b47b9ebb9b5af8f9fb67c50b6ebfc854bf77176af3a467df0779dc20b47945a15c420e47f43627df006405fdaa3b887c8b37a948;0x86b358e20e1d06737e20f3f01286caacb5a95435ffc6e86008b623110db7e6629df44f9c39173e4d2c41d83a2145f9cf4c5726d5aae628;0xc1323fa5504a3a0e8f7940e78fcf2ae28875e84b60d7c62666ae0d53fd4ae83c1231b3551c09609064e225041521b6b20478e8542e2879e1;0x1a96e1cb70b6664cc08f91c081088aaba2c08750fa7c37838140cbadaa05cf8fabf257d6d4d46c541cfca86cfe22e4ed5e28ea349a0d61256;0x18147aa6e3eb1cd1c6fb9bb3238d21d7a2a4bb342bd3f4a51996410f44235321d0b87787e1578c133cbfab7711d3f44f18cc0c9bbbf09062;0x741e3ee4577bc252c07820a21735d9fc551b7d8fd584a34e6da071bd38e2caea6663b087f392b78aec125ba0792afae0457f531dec167fb;0x20e2547fde0517a6fb2c89f1b0c2fbbdd993c1cb607dd67aafaff939bbdc8c48a5788ba4faeab30f77ad4886f3cf9b7eb0f2fee81a591486;0x640bcaf4f2a83de6c84191d6754e869091de06b14f00d483cba4c18242a198bfc0b35fae80693e3945859174ea1bd8e18446c9720db0b0e;0x2a547f178ecb56ac349108685f9087a59a76b68353fa144d77e1ac6b9676d5b5a53cf4ab114ec611ff33f92102e0d234f08b06bb994d1149;0x920f0cf10ffd6ae655b17c9be1d79f4dd4f9884ff17e9657fc1e3f4d5cb21698798853083b473a1d9fdb0a26994fe8cf46f6ae125564459f;0x8b64542d0be4ff1816c14559f92a2959331bf5e41d66b4d1d900fa44a679740a388d2ed4e8a6adc865bf4fda1a8caf356ce756a945b74bfe;0x82260cbb0a2cddeb45b4dee3bbf4fe25e8d2710f5b88dbd850ec8c1f123dff14fd363ec47547099b1c7e7f83fbdeb4ce94e99023963f3fdf;0x31e6b252e6c9c951491326b24ce9db3444bff7fae0f94e5c4a114258af4983763960b4d25c3a3503cf0ebebadb2e5f918d5de37dd5ac1242;0x715caaddeee6d36c1a0be937a1d3ba89cc7b48114ccffc080af19a845617d0b41447252f1e99eec8fa17f4f8e74e1d5117b03299b059898d;0x1e936060915283844eecd397d0a544bb31351a4e205af0399bf2498afe539903251f98316016413a2953527d8c660275a2d1cec297194ed;0x11132b98d8c177a800a7f5cf7ee9533eb96a189781b81e96424fc87272875f84199abc065a97b2eb8cb269a8898bd52938ba2d97aad105c6f;0x1a61906f742cfd216a82ccfb087f95a5725c7484b43e3a394715a222f5bc2844b80f5c46e00717187fcf028b9a51adf016b5887fc8d65b44;0x407bcb78d57c2f1bc47f54ed7a24ce8f5ad76b47eb02ac5edd5faa499168bb3e38a506120d95a625b9e5a25632dfbaebb53a0b56995e7898;0xc39206908e745635cf1d430f23ee6a4f3eb8d8d5a936997379cc182d7237b97311f1a35e2f4a014b66fc8e66e8306adb489eebb382a4f871;0xa00e8ed6802fd0fff5e227bd0085d57423d726017fbad55541e3a10098b91f7b8c5388b4498b9e2ed90021b1f211cb832793bcd6a3df732;0xd6a859cab9ad8f3b6d8f29cbdc01b1f1f6e0cea617b8f8fc9c3c0083a153d27325f53aab2d3b11531af97440dd8ec887b1259a1f78d7cb1;0x566b8c33f15bd20f235ae1e699fca98da2f20303fea7be3f819ce11ef2cec0331e5961dc704a45766e02139efbcf03c8fdd4d55b9a00e3fb;0xfa3ce1f4565b7105fdcf0468de34e2f64b8095701778e8dcebffbe375347183caa93bb805107c9575039c4b81d846d6ec7ea790378d0623b;0x409ae9f8e526a4591dd785c73528cc11b75c271d1761d0aa20f8955f0d4ecaea8cd1e770d169a883cebfa9a56a1fb142c8eea026c33caf3;0x21888f18ace5125941bd56c1684ec2708c0788482ad9180081dc470a503fe184ef336d5c4caa37cbcf87b44adb5b6d3b805675e5b02c658f0;0xca33d938987af0f10f74b180307eafd3d07c1abddc2d8ebeb0d5ce6863800422db388dea87155b8478c9f7dd25a877d7eef07a523885a207;0x2309aced2c318f7e8a8b715a03e276ab66ae3f57b202baf0119b7fc4e03a7b6f9ca548ba40adb9417dbca6644de94cd5c59c9c8e46ad2f03f;0x5bc7459690d0efe85cdb3db3a2e4113cc9af5fbbf653820dae2774fff782e96b7bf9522c8079eadc820ece1e9894d6ffeeb78c14ff1eaeb7;0x35d590147b5bfd0a4f89ce899e71ed4def0c9b8863b62dbd12f3ee3eb147d11c64562ff00f3b71fa4feaa94a271d6dde8fd2f8598a32f081;0x4ea234166300c383b6ba1876a2de4820a4c1749edb38e4ce3fe841f3a2b7692c5c1233cd0783644baaf2750a849ef4a809bf072e2295c747;0xda8015ccdc14c69d2e2983fe0198f98e416a1b22084197b41cbdadc01e5c4b07de4bb6bc0ecb08966ee818468d605ca82143d98728e365f;0x105665fbbe6d474f144f6fc3ca5bd5849c347fef16437be20b0fb75269ceb3d3771aa638dd19f210ae710a52aec7d0e6985007f486dbc21b;0x71b4beef33774dcd50e48aaf7ed0aac2bf9ae955a5fbe92314ef171b9c8f735bdd957fac5c7c736339ce4c98adee986aa3c9fa465d4d4aea;0xcbb2ef8e3f8e5de0084c994348e75d7d6ce203c98719d617153fc143f9d8430dd935ce498811db476230e9cab67309e13d99c6e41047446;0x2e9516fec05fe203ef87612f93d4f2fe0fc998b9bb2ad6454e216160191e01dff78cb62da2489458f28661e106812c7c15cc759a1ba7a4fb;0x11359dfd09d07294bd9ffadb24d98c7f1ca9d2c2cd66966b42d3b619f442ab5099bac2857793cc0bbea514eab2522fefd02584085e922502;0x29a46252ea17a8cb0fabd283657aee8108ad8b09afd7c989ec7356f958ea5f0bf1022b58d1d26b8b5f15a770146d650f0990b1a66bcd25d1;0x5af0c326d8cb8e401e9b9c47744093bc2f669fdb9e623fda47c871af62b99eb334c71941f335dbaa7296ab12004cf6bc74c93cb0d4c7955d;0x21bdc164126c39153a97a4f0c9ff8406a7fb4d15c62541ba2d51d5c579cd8b50da690e062def724a0f5d2828507819af7d509bff17415f16;0xf501993a95825540c30791429f79487fe5d1b57a9417dbc8cb8b2f756981af5bc7e9812228b3924930c24af3d845e3dc5bf99f829fbed37;0x81f106326fd5c049d8fc4d37c158eaad466fe25d9b7cb98e456b233955dbd08d7acb811f8d27e5b57b39566e1f3fc5e8679629b1f24c277b;0xf5ffae36c5d4260380c2591bd7c335159714ba126b74bb6527c88bc5fb967f8cf56c708c4f9845295ffaabd3f2b26db47892bba4ca9f0;0x8f9cba3f64f725dbc82ad5c3773f411ef8ac66aa899ac23f6ef6bd190ec93106faa773b0a5925d575a617aea0ceb18d5efcc03eda65e0d;0x77ce0aa419fada119824ee7c1855a889ec7b6b5dd111943dff1a0926ba546979cca884af02ad23aaecb65c03cd0816a8e19c21f39e945ca2;0x14df71f682f3bfe3381eb1ade4f8e61660e186459976b4e62d594faf9581724905547503141d49ff6bf02f4570692fdc7bfe025cea19af379;0x2f0a6447677d992015b9f70ac988c6a4a09a9be2abe6bd1948aa18cf512de8cdc0c24e474ceb9bf637ab51acc550aae36c0020da0574ea;0x814340ef0835830822cde4dae477ed0f9c5ed2ba28736b799bfed76f6e12419e16743ab5faa08cf9805d04834d8d0ba1e84985b91deea26d;0x4d5b881d1400d2cd671ba6873dcc0c8494590bfe67f5a16f7781f29ccffc63701ddbe96edba90902302f5a1e28a28e0fa4941dedf0de893b;0x814aca21436e0e9bc706af3a2e097a9860a0a6b40d25a42d850840eba12d2aabfd61f47335439d8951d520c30c7b4a42cbcc0b90d51bd0ef;0x28e01a329ba56f850629cc823d5c353b449f02b9c454c7fa0eb024b5e39e6740f188652440c3622db42c7a5a5c3a180eb11ff69d10d127;0x14783dbc7be859ae27503ee363f82065cc42fa570a7685483b19905c8947204682b0ea941ea66a389ee6c021592c625ba3996393c823c667;0xf6311b9b4b3f40655271c9a2d6323cc8f5830aa6073ed583d85c0d5c64ad2a196a9df93ad5b5bd6dadeb249b11c608cd4b488d75d0105b09;0x7af01fad0be6d693fbca88525375502eecebf0851ab4476a54655ecd689b357e59576bd03a6f69097a87d9df1e5ada92a63ac4d5ae2717f;0x2854af32fc851a2f61c789fcd23d4deb2aa91e00752df4646e1eadd0b681ceffaeaeb3fbbfbeb04624b6a46c7ba440bfc5d4c3d6a7725;0xf6fd33aed075367165d7c0ce867de9ab13c6a0f07a807178a7e6a3198196665c16520c792e315d1e773f6844264b38cb056f3b64aae872c0;0x1c6cc7ea45eaaf8f525d0d01bdc989c09887fdd2e7b0019abe837e1416522461488c33d52c4d3118aa09999a66eeab2c77e45b2cbe2959f;0x6f964675fa38b112c57c1d831f1fc8faaaaeae12d4eb061a3e6c4e53c98ba2a080d62afe99de0a66ef63b476b36f66ccfbbb314d1321bf50;0x11f60eadaec8448143f2eb7297cd84f7e027d32b2b335ed71d9d54f03d602d2add1d8d174a839cbde00c7a27109556827814c854d12c1292a;0xa0247c36e2f0c76d3503d8de0e2de0a0558671d8b273426c5d0b3a995dc901a292b421082ed44403cab2428ec5d546cddcc2b043837fb;0xd91ec33c465ff6e25e2248f11f47494a1b84306357aa35d0c317dd98248dba2fffd163f981ee42117ac716b0e0c4833782eed99b633cf0da;0x19cae58af8f1e07402312b7f91b8cd2358ec5649cdbbeded3a170c7d8f1200f576df02f406d9b9ae675f028a3af065808220bc2484dca8;0x3c1b606856dd73d8168542e1bd7cf25a76a47f7bd4804b89c82bef76026a844a182e7326025316c256e08620672419b130439c0628f4e3a4;0x7b554aab21cf86a16dd85f8fefe445480ed71af451802f68f889d96ca747f784b7c8578c9590a1f0dc1f2ef7c4a56782b0f8ef4e11d25eae;0x26df9e36c1ce2901ea088434fed65a6a08c888ab95ab6b9cc30def0098ec381ed63cd06650add7bed3fd1723e4734269b1593f43793754;0x8d9f503deeeb5d5c423572788bea4d6ae0490c5afca1eeb2a9d75bb98b95878afab9c0da5cf222c377d87384d026cd73826d177200c0d3af;0x0]].
Lemma prime_402096035359507321594726366720466575392706800671181159425656785868777272553337714697862511267018014931937703598282857976535744623203249 : prime 402096035359507321594726366720466575392706800671181159425656785868777272553337714697862511267018014931937703598282857976535744623203249.
Proof.
  apply pocklington with (ws := ws_prime_402096035359507321594726366720466575392706800671181159425656785868777272553337714697862511267018014931937703598282857976535744623203249).
  - unfold ws_prime_402096035359507321594726366720466575392706800671181159425656785868777272553337714697862511267018014931937703598282857976535744623203249; repeat (apply Forall_cons || apply Forall_nil); unfold wprime; cbn [pw_q]; [exact prime_4638704574076146691498289350639807119782054683906549022985642612861209609656189848749536921852444848596916990932297].
  - vm_compute; reflexivity.
Qed.
