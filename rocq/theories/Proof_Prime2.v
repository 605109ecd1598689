(** The orders of the curves of degree 191, 233, 257 are prime.  The certificates are generated. *)
From Coq Require Import List ZArith Znumtheory.
From Verif Require Import Proof_Prime.
Import ListNotations.
Open Scope N_scope.

Lemma prime_2_0003 : prime (Z.of_N 3). Proof. apply small_prime. vm_compute. reflexivity. Qed.
Lemma prime_10_02d7 : prime (Z.of_N 727). Proof. apply small_prime. vm_compute. reflexivity. Qed.
Definition c0_20_d9c9 : cert := CERT 0x18a1f [(0x0, 0x18a20); (0x3d98, 0x84fa8); (0x14c87, 0x1)]
  [(3%nat, ((0x0, 0x1), (0x0, 0x1), (0x0, 0x1), (0x0, 0x1), (0x0, 0x1)))]
  0x60dd0 0xf237.
Definition c1_20_d9c9 : cert := CERT 0x53532 [(0x0, 0x53533); (0x2c0d3, 0x4e77e); (0x297be, 0x601ec); (0x32d0e, 0x70006); (0x3b364, 0x8a1ae); (0x49032, 0x5a268); (0x2fa8f, 0x5f171); (0x32458, 0x25d6b); (0x14011, 0x40cf8); (0x22437, 0x5df39); (0x31ab6, 0x50675); (0x2a81d, 0x3ee8a); (0x21421, 0x25095)]
  [(2%nat, ((0x0, 0x1), (0x0, 0x1), (0x0, 0x1), (0x0, 0x1), (0x0, 0x4e77e)));
   (13%nat, ((0x2710e, 0x70006), (0x4f971, 0x25d6b), (0x9158, 0x534a1), (0x2c039, 0x18f80), (0x5de0, 0x3f0a0)));
   (7%nat, ((0x1936a, 0xcbc6), (0x1077, 0x2d0b5), (0xcdf8, 0x9b041), (0x98768, 0xf7d9), (0x9588, 0x1)))]
  0x1ea45 0x10331.
Lemma prime_20_d9c9 : prime (Z.of_N 0x9d9c9).
Proof.
  apply (good_prime _ [c0_20_d9c9; c1_20_d9c9]); [vm_cast_no_check (eq_refl true)|].
  intros c H. cbn [In] in H. destruct H as [<- | [<- | []]].
  - replace (exponent c0_20_d9c9) with (Z.of_N 0x3) by (vm_compute; reflexivity). exact prime_2_0003.
  - replace (exponent c1_20_d9c9) with (Z.of_N 0x2d7) by (vm_compute; reflexivity). exact prime_10_02d7.
Qed.
Definition c0_38_3207 : cert := CERT 0x14fa140300 [(0x0, 0x14fa140301); (0x8e67b2621, 0xf2ed0891a); (0x67124ebd4, 0x60521fc4e); (0x28de3e7b6, 0x8f2520454); (0x3cbc3b95d, 0x2d8610c4c9); (0x1350b9f6ad, 0x697f970e); (0x2cc31a86, 0x118178db64); (0x76d73df75, 0x2c363b1131); (0x12c23c0326, 0x2eaba12227); (0x13cd48822e, 0x2fcb0be5); (0x14473b62, 0x296226f737); (0x118f03832b, 0x11ac71a00a); (0x77faf6916, 0x9c9679270)]
  [(9%nat, ((0x0, 0x1), (0x0, 0x1), (0x0, 0x1), (0x0, 0x1), (0x0, 0x2eaba12227)));
   (13%nat, ((0x2c0e67bb3d, 0x1a69e45946), (0xe1c9b4659, 0x1f1c570b5), (0x1393af6e, 0x31430397f7), (0x3115a0f4ea, 0x1b0922e9eb), (0x55a0f45f5, 0x2e8d56991d)));
   (9%nat, ((0x2bd549ee7b, 0xef24621ec), (0x484bdd50b, 0x46691b843), (0x6446d4cd, 0x18adb685ee), (0xc5194bbca, 0x5171a92be), (0x4ce1ce4e0, 0x113a8994d2)));
   (12%nat, ((0x600f9fc5d, 0x1548d76bb9), (0x929cef930, 0x2c71bdfb61), (0x27f4221d60, 0xfe965cd21), (0x51efc3d3e, 0x2e2ac158f), (0x1080f223c, 0x2551778ff2)));
   (9%nat, ((0x1c2b2d9b63, 0x1879a3ab0f), (0xc1dcefd6c, 0x66a7f04ed), (0xd5275ad4, 0x1acc2d5f9d), (0xe8663b55a, 0x470225cd3), (0x4307eebbc, 0x1)))]
  0x1c26abc662 0xbf1bb8e49.
Lemma prime_38_3207 : prime (Z.of_N 0x3170903207).
Proof.
  apply (good_prime _ [c0_38_3207]); [vm_cast_no_check (eq_refl true)|].
  intros c H. cbn [In] in H. destruct H as [<- | []].
  - replace (exponent c0_38_3207) with (Z.of_N 0x9d9c9) by (vm_compute; reflexivity). exact prime_20_d9c9.
Qed.
Definition c0_56_a635 : cert := CERT 0x3827cb4496a033 [(0x0, 0x3827cb4496a034); (0xedaf6db178ff2, 0x928fe597a15176); (0x26c57def3e10d7, 0x2a8d86ed796575); (0xb41c4733bcd73, 0x83d0caf821a0f5); (0x22ded3fdd4572a, 0x28869450888a12); (0xab87c39b17407, 0x3c5a1850c5bc35); (0xff728c3fd14a6, 0xbe9219c5487066); (0x3269d8d5b6b817, 0x4d0c4c5cf38df5); (0x1461dac238cade, 0x29c66dff0a01ce)]
  [(3%nat, ((0x0, 0x1), (0x0, 0x1), (0x0, 0x1), (0x0, 0x1), (0x0, 0x2a8d86ed796575)));
   (1%nat, ((0x887b69376f6b4, 0x3c5a1850c5bc35), (0x1128979074bed6, 0x258f19f0fd9cab), (0x6a53e26c8facc, 0x67d62e7412a5fd), (0x32cae329cd10e5, 0x5b62c6328f1ea0), (0x182cd711b1b3b8, 0x1efc2ab502b368)));
   (7%nat, ((0x485d2bc5d69b3, 0x96a9b58e95a631), (0x6aeed2407717ed, 0xa2a49aa225f350), (0x7c9d5b870d298b, 0x516db0b0b33d39), (0x1f3c566d6fca20, 0x2a30cd7da49e11), (0x25e0676f68afcc, 0x26ae13d44bbd8a)));
   (0%nat, ((0x70c4f68b15370, 0xcbea2d51202834), (0xc3e1f1249ef763, 0x52966c4ad8e111), (0x20219bfd8bacb9, 0xc23e993a782ad4), (0xb1be95c5595d05, 0x5f038b65cbf87), (0x0, 0x5f038b65cbf87)));
   (9%nat, ((0x2a871a16e1c4, 0x62167bc00e39d), (0x2d52f52e43eb, 0x3fe83d463d5ca2), (0x133d5bd7ecc1f1, 0x645ffe2626699f), (0x2f765dbdab10b5, 0x8ae5fb3b8bfd48), (0x1b55aad484bc07, 0xaed4309537a07d)));
   (0%nat, ((0x8ffccd3e8e48db, 0xb6c2c288db65b2), (0x9d596529ddbf06, 0x32094120e37f86), (0xbcb4ccc889267, 0x55e2b7b6a120d1), (0x22bfaf2de9575a, 0x19616d7beb78ff), (0x0, 0x19616d7beb78ff)));
   (3%nat, ((0x308db91ceef1d, 0xb1ff088199bf00), (0x954081daa90da5, 0xa457c2476c2ed7), (0x7f3ba921dfe1dd, 0xaa25c1184ee7d0), (0x8861307ea9c9e6, 0xb91e59fecf1862), (0x251bdb1219ec34, 0x2c1ab6629f3006)));
   (2%nat, ((0x929db0219e001, 0xb04f94324e39ef), (0x92705f99fe6643, 0xd1a57a1521af42), (0xcf0c910fbb9597, 0x1bcf0cbe956ac1), (0x3a49d909fb179, 0x269f4279de3174), (0x1aaa7822317f64, 0x5e04d50c7a47c4)));
   (0%nat, ((0x29a4479f6de8fd, 0xb659b246bd03af), (0x9ca4b01cacd1fe, 0x4894e40b99640b), (0x18d12fd2eba846, 0x34f140340f5dfb), (0xd3439687bb658, 0xcd30b4e3f083e1), (0x0, 0xcd30b4e3f083e1)));
   (7%nat, ((0xc6573d404754ea, 0x2d2b5aba03bb4f), (0x99c8428856c38, 0xc8f355da7acac9), (0xbe3aa2ebdc1e6b, 0x26cbaa546623aa), (0x7171be9bc2ef8, 0x1baf10de65638c), (0x18da670c0b5f8b, 0x1)))]
  0xa63146d5842c30 0x2bf6e72cc90d33.
Lemma prime_56_a635 : prime (Z.of_N 0xd446ba5f8ca635).
Proof.
  apply (good_prime _ [c0_56_a635]); [vm_cast_no_check (eq_refl true)|].
  intros c H. cbn [In] in H. destruct H as [<- | []].
  - replace (exponent c0_56_a635) with (Z.of_N 0x3170903207) by (vm_compute; reflexivity). exact prime_38_3207.
Qed.
Definition c0_109_825d : cert := CERT 0xd3e27bfb9faf6d43c96f0248fed [(0x0, 0xd3e27bfb9faf6d43c96f0248fee); (0xa59fd084d075a23286f135f33e6, 0xc364bc0257c9ffd3177f96d1ab6); (0x98bbcac98e0d229434895b961a2, 0xf514e443d1b32ec20b8b7dbc35a); (0xbf92c76ba9a22f277f3defe0ea4, 0xe4495ef8a0f0d0fdfcacc284a18); (0xb271f7232241b88398887943b2e, 0x963c0b1d48518fba1c7026b6e9a); (0x756f2092b819ef5c790ff6aa28f, 0xb939fa23ff489236a32cabc2d39); (0x90c94a59e7d8e3d6d30c97df53e, 0x7f3a4001d4130e56c07efb74e78); (0x63733e129f271ef8751a598c271, 0x42fbeff584dbc9b60730b2ef683); (0x345c0ea522f08cf492988c5823e, 0x64f80d4078be3c7c52a93ae8e44); (0x4eecb0bc86ccccf397d2d47af14, 0xd6c50dfe7137e1547f813f97cf4); (0xa7e122522fc338e292fb08fcf9c, 0x93a841a5cdd09c6ed859556d32c); (0x736b63f377c5a57e76d60bc201e, 0x85b957e5c11ac14a92deaa10002); (0x68873c4606a027a94caf5ae3cd1, 0xdecb4823f650e653e1ffe33e5ef); (0xae26dd823b388146cb651b36663, 0x14ff9130de6b4cfe921d0b2cd3b); (0x1069edbda4c519908807034fdcc, 0x474c2deb6b5f859612b180cf6be)]
  [(13%nat, ((0x0, 0x1), (0x0, 0x1), (0x0, 0x1), (0x0, 0x1), (0x0, 0xdecb4823f650e653e1ffe33e5ef)));
   (4%nat, ((0xb71e50b9d3221d77e865a23512b, 0x5f51dd21faacf71c3de315c2282), (0x2184dc211ee6db7c06eb940140d, 0x4e60cf6ceb91f258beb1dfe74b), (0x16a9b208a0ba74ab5c4599a3a, 0x8e071a68df1d427a13460a1f4e7), (0x4a6ab5706bc0f633159b69b408c, 0xad8c1718da203bc9943caed9d95), (0x9228793aa31a4b2d5f501527a9e, 0x9cc05d475de6ef5a0b77dcb1092)));
   (4%nat, ((0x5aa554368ed6815f6606b38904d, 0x7deaa1d630c5c0e9fbfd4ca0d4b), (0x3a7dbd1c51d286766348496e47c, 0x6cde76b11c186e15c7efc8baed), (0x2bb9b0243be5708e7db9b2310, 0x104bee827482946092546a536299), (0xfad17ae547df08207f03e703058, 0xe1b4245effefccfec7cdc293f79), (0xbe154fdbfd4b5a339b99e3db818, 0xd33d61697c9f60d17ac06bedca0)));
   (6%nat, ((0xa49e17eb01e7a01c8847f4cf60d, 0x9c5d2b304e30b9f2b60effa6747), (0x5a32beda68e08cfcd9c1172a37c, 0x4168582ee194a01544313fd9a5), (0xfc85ea8c41990c825edaec79, 0xae0f64270a447d0f2890ec4ca64), (0x6fc4fe9322048127a66c584e87e, 0x7354938655742d1b812ce53854a), (0x4ecee7ce0d066e88db3acda2cbf, 0xbc97c295b6d3b1025ae3f287017)));
   (11%nat, ((0x8336635014cb43c2b1299799600, 0xfb6f08bc640006c06ec1ceca411), (0xe93926f41b84e0699beb88ebdcf, 0x104b3b1b3d85864d6f93bab4b6ee), (0xfabbe9085a49011ddbca0fa2f31, 0x71487507a132de24ef14f183e77), (0x2f57c5feb30391ec7731cbd4092, 0x29f6475f14f6c9eff0bd2294247), (0x16db9e3f1813b000e647f774921, 0x2c4e37cb57dda50879788f49637)));
   (10%nat, ((0x73de05f7bbc354456f93572ab6, 0xf825126ef2b117d9ca23c138fb3), (0xe329678c286541f8207ef54ca52, 0xed61bd794ac96244514e216535f), (0xcfe2200f3308f9cd83ecc7832f7, 0xb331f7e81be8493845d469bcb86), (0x7676292fe9de9253708058cd19d, 0xa6127eb3c1827d3ace1dde6ea1b), (0x8394df447725b58ffe7394a1d67, 0x1b9b44d0cb063d2751cac613951)));
   (5%nat, ((0x2cfc2b2cb9dd1fc59c82e3b138, 0xd7f6b1f70bf43d273b3cd695a49), (0xac0ffcdd97eaa42711b4b8223d2, 0x6b31f420f4607d07b82eb27c187), (0x2a64207ee211d1a6c319bdca868, 0x24c2331817dc79e564220b8d769), (0x4fc17ecdd80d30833e294d1702, 0x107e6553985547d7eebfa3772957), (0x92433f54147204049d63844a6bb, 0xcf4676b358a90f66c3c7d0cb867)));
   (15%nat, ((0x9e7f1a6cbe067c1557193277ffe, 0x28c0bf9f0b57a16541d3f2dbe2b), (0x6207def9caaff30ee65d499b2e, 0x7d00813ada0a7cfca0dbcf11f83), (0x39a5036db1c16d620feef833993, 0x707ec2ba8c32ed0121743f6ca2), (0x2eafc6686acd8f7a3d9e437c5, 0x61266c6ff383f421fb20541c9f3), (0x198d94bc14c06de1dc60a1d298a, 0xaabd508793217d65d2477e53938)));
   (8%nat, ((0x6b8baf9246c2a9af46d836e498e, 0x81e52bea1106d851e99f1c927aa), (0x3e3ef593c1f043b32adb5332664, 0xc17e191f330ca38b15a48118290), (0x8a1e759608f37bc0864754d1fb4, 0x58d90e2ce945257b6c34e14a49c), (0x1d1f310d08fadad9c5b3e8397ca, 0xd18480a34c120c600ee376386ae), (0x33c64f9342f870f53d4ba947283, 0x2d4ec5923eb9386a6f83379ff73)));
   (12%nat, ((0x792b126d92aa17843e2186d8fa, 0x44dea1aafc06c46c5f838e86d7), (0x117f684291929d8899e396a24, 0x9d104d327fcbf290d7a8413f17d), (0x5b01df6eb6e73112c857b8f1817, 0x10df983fe630c669f1449a3028ae), (0x10ce33b7835de6956430b58a6550, 0xc038a08084b93e258ba126d6834), (0x5ed3e6eb299ddaed5d85ee7dd9f, 0xfd6cea59604d3c4fa5be82d8fa5)));
   (10%nat, ((0xeceecda8ea47995c6f40294b4d5, 0x62d77a67fd952deffd61f18e4f8), (0x240aacfc19a5e39438cdbf422d9, 0x2290b5350851a70231fb82ad56b), (0x4685a0f66a23439589c2fca6d8, 0x8cf8b4a5c16b36104b4104cee41), (0x49506853bf2efc9c34bfe0afe68, 0xe666a5a3dd10d18502c511db0b9), (0xb68cd60af236bcb6f1850c3a0b9, 0xc6e9528e37517593002eb0ab71f)));
   (6%nat, ((0x91f6a655ea3a60d629cf412fb13, 0x464ee711ef1e341d141bf2579da), (0x123c7ea2a44833b1deb2b192ce6, 0x35451d45b52bddf70c64093b216), (0xa77f812f2958b98978937adae2, 0x28567c959646bb5f0bb54f451ca), (0x600b4036f78036c80ad7db67c6, 0xa18d85225dea2913d0af9ec3476), (0x6e64a95d90b65d69c61aaa60c9d, 0x45250897beadfefd897dc2d1d3d)));
   (3%nat, ((0x11a340b2fe3b3e1116da3be9145, 0x51b666ce77cc77dd5e07cf01078), (0x18a1d2cbc3e851691f530e73842, 0x42be2057c4564b822861b344446), (0x106efed3faa2515ee629fb4fbaa, 0x2bd43131a691a06e4a730c78262), (0x7163374f02e08ebfc7b85ab02e, 0x10731fb96c5af0244eaf367450ce), (0xedf71a81352cb8160e3bd004f76, 0x8538ad700525bcb4db4dce6888e)));
   (5%nat, ((0x41797e4656729972da89e259cc9, 0x6a0d411c8ef2786d578f4a27bf), (0x297ddc7c709cb16d035062585, 0xd25f551637a89e2635dd7359530), (0xa344b91b725c9d8ab9144f913f6, 0x5529541e953a732a5722963bca2), (0x1ac15f26d35dd622d4df17bb0e3, 0x1750e39af87d81217787798ce0d), (0xcec2c0d4110117a82a1a191605, 0x1)))]
  0x99bd03cb35da86fbabf2a420c72 0x782c43af59bf90d87628d6e3b1d.
Lemma prime_109_825d : prime (Z.of_N 0x10f10ec866d451736d106f85825d).
Proof.
  apply (good_prime _ [c0_109_825d]); [vm_cast_no_check (eq_refl true)|].
  intros c H. cbn [In] in H. destruct H as [<- | []].
  - replace (exponent c0_109_825d) with (Z.of_N 0xd446ba5f8ca635) by (vm_compute; reflexivity). exact prime_56_a635.
Qed.
Definition c0_191_474f : cert := CERT 0x3966b3a6ed6360aac2517a29b5c1a4fe2f043d958aed118 [(0x0, 0x3966b3a6ed6360aac2517a29b5c1a4fe2f043d958aed119); (0x337b94cff339243b1331c857773083046cec3f0d5717b6, 0x63c5ba86e89987c86b5caab18b402466deb7f8142b80947); (0x597c3552aecbb56286feed7e8d807852cd817e09504df3, 0xaba7565b98f34aea7f783f2ab2dcf907281a86a06f26bf2); (0x99f47d72f276d5bf331e8459ee03f6db8491bd446d5e44, 0xbea516d5abf6bae67b9ad18240ab9e510cb71b09fc829a6); (0xaafcf699ace606be1f0c423372d3118cb4d8aaa7bedc27, 0x3744852b69fce38bb2dc7c76025d1a765281cdc98ecad62d); (0x3191b6f2b2c4895a477fb0d8aec3b4aa39e40ac2ab6584c, 0x368a023ccb893d7616efec9ba73d751006fa07f432953f1); (0x30ea6f09f4ae349003cbe7ca8e284c2625fb24d7323d11, 0x231f4759ff800244df422fd9dfb704beb8ad8faee787644a); (0x1f8037fcf5f45bb9f51696cd28e36a0410efebeffe5810c, 0x3de4cbb36d3de7edf273109a4cb2bca59f45f7983e340e86); (0x378317cdcbfec9e1ebb4bdb752929a39db0fd6af82cc0fd, 0x1fa387d671d409b3bb55e45910442c06ad407c45e6941803); (0x1c606a6b609510edc5d6a9cc7e8fa0137214fcdb1fff5a0, 0xe90c570ca80f7dcaa047f2bebb06721871a3fdbdd9e9eeb); (0xd104f7605dbe650a028e2886e0fbcb8d21d30c91d27c20, 0xac9f3494a4b9be1ca2a5cd7576e4e551d0588d1ccb43213); (0x9ad2cd1fb3e5ad5269cbb40a0f426ccbabce64a5dbd50e, 0x1a66249220f18009d1de97721cede892998db76c83f4c589); (0x17ad5576f75e63630d6d1de3164bdd585f148cde0578626, 0x397d54498bceb071c81fd0417f8f7df46cc33bf8f36933a7); (0x338fe0304fc8992b5e8c210fa1bc43966e8bf3e09ea5812, 0xdfa428e20e9186e3291ddfaebd5d0a6a0e242d294d736c1); (0xc89515d0eeea4a456568c8878822f65e0befc0d221ff25, 0xb0a997a06635c0275e4b47c51caad18ac3a6ac2b0f1ea6e)]
  [(1%nat, ((0x0, 0x1), (0x0, 0x1), (0x0, 0x1), (0x0, 0x1), (0x0, 0x3966b3a6ed6360aac2517a29b5c1a4fe2f043d958aed119)));
   (0%nat, ((0x337b94cff339243b1331c857773083046cec3f0d5717b6, 0x63c5ba86e89987c86b5caab18b402466deb7f8142b80947), (0x9b8a1bf3cdc4319dab7bb296aff1fb4576b3a186456485, 0xbea516d5abf6bae67b9ad18240ab9e510cb71b09fc829a6), (0x237e5e16e72ed5584432d4349bec9c02ea8103a02d5bd82, 0x3de4cbb36d3de7edf273109a4cb2bca59f45f7983e340e86), (0x3bdb563bef008f3a9998ba6e17a9a9ce24fcdea8db43a0bc, 0x314abfe1e31aadfe718b3ddcc741493215a8528b6e6c3020), (0x0, 0x314abfe1e31aadfe718b3ddcc741493215a8528b6e6c3020)));
   (15%nat, ((0x25f6cd1fdd6968eb324330e2827cc55576b3930441eccb12, 0x247026f9bc2f986992393083d6d424585be509a3a1495b72), (0x14bef0617584900336af34ad3491fa02df65a76c4503658b, 0x1047337ab375c31ee9c18f12a4780751e12dcc839d5b5bdf), (0x423e8f3bb61881a38a02b8b12342ecc2511933ab0759875, 0x3a5867a6b207b110eb56aad8ea0940216181e9efa50ccd26), (0x3530b5fbd4f5c54bd2240b1d2f0ce4d0747e7042f9b50fa0, 0x36efce7d3c8e424b0cebab67323a97212b0a9abf8260af44), (0x97a50b3d23ab268c4888432319b7f9eaf1a29f20ecce298, 0x15062f6bc4e7d0fdf825ae61e757ee8e6fc7bb7d60096250)));
   (1%nat, ((0x6e80fb7c0900b4b1a5e3eece09a049ae33f7bac997714ca, 0x11cc6f08ade1c2987059a79fe58572e8ea0cd92a4df7e8aa), (0x4f3280134568aedf358e8d347deff2fd2756a340ee3fde0, 0x3001ba5a520e0482c65db51a2f9133dd6db845a6489c18c4), (0x240297936c85139cf87b82045ec6a9957a4b7b718c3bf545, 0x1453e6ba8898e338de72f6d5900827f768bda743c2b82c5), (0x674de324900b006e3e580c919e4989256425fdb734d0f, 0x872d03ce0ceb425cd970080ac6845c5e5f8f848dbaf8), (0x793d02940cb0e0850fb90993f41bb0a5de446e32973, 0x2d4f7b3e82f5ee36d8ffe7ab6ed4aec23b00377c057e0abb)));
   (0%nat, ((0x2014280517d1aa914caabaaefc909f0acee488c330dc7666, 0x30453d27c92eb1ddf2ca7b3d96eb2a0a8394c432393e511f), (0x246826a3c5ffc7b91f248a137f2f22413c2764c0c61b4e5f, 0x6837c57248bcc51dece899a6a8fa750206c76c467e61970), (0xa9b5724d29f6e0f19e0c808455fb7d81c210f5ae6c24d7, 0xff213609ccb1688c025361e7b5c278c0a82572e42bf11a7), (0x3f90cb7d9fee15afb03e96bb5b50e0b9f61256dc57bd8e0, 0x1b432e74e421642b48e07663d456398060a4d73ee9eb8dd1), (0x0, 0x1b432e74e421642b48e07663d456398060a4d73ee9eb8dd1)));
   (14%nat, ((0xb9cf5b806f2afdc66554aa73187ed62d13e1f64fba43e67, 0x7ad066e2d5db730fa086f8296d39ec8db36e21bfbe711d8), (0xebad2ede3728e6bc20d013cdaf2fd20ce91be9a24eeb08, 0x252df6fcfb1d9798670617665b9a7b4a0ec0b0c8c6cca6c8), (0x159946978f480b5645297e8b73584f4fb8cacafe91a79b14, 0x3d7b0f591169e74a4f8661d82006c7d7a3de6fdec609514), (0x3b0f81e0cb3b0c14c4ece51d87d692758e7405efc98d48, 0x341e2bed21542c1968f58c0d9482c7edc12737018ff6b858), (0xb61ecfa9c1a31f5b64a203b44bbcdef552ebfaeec8a365c, 0xcd11da46b6fee29a7e882d1f5ed156cfd697fae9f4d3ff4)));
   (12%nat, ((0x29116634fe2541fe0dd356941ace7163d1e765630c3b393, 0x10cfdfc8db2d2a584361b8858b5d4c3bf8ab6ff3f2bad133), (0x46a9313175e8f15949db346342d8219021a2ddf5cd95dd5, 0x91515bcfadf7a141ba8ed20f2e93b77b2f8c5b77473486e), (0x149f50f71f5afa6256907eaf8f43ad36b2dcdef0d75d45f, 0xf9de1fa306cd7a85f2018c6339220008a12e195a2662cf3), (0x3cf8769181791a0c1fa6dee84e4639df04bef28a5ed7344, 0x17c33874936204885beaf251812e7173cec5146ffae00ad), (0x9cd3ba5670059caefc63bf2961aa7b7a258d3e1651d104, 0x20c59b6c2af1e9722297162710cfcc0d559fafc8773e159)));
   (8%nat, ((0x10c7fd8e764af18c1941d5d32b51e927acaf00cb3fa780, 0x29b3182358ab5b8b17e3e9fb01f4c22000a35dd41dba6071), (0x1b2b6c18586e21d843971f4786698716f7cf7231b91aef00, 0x10400446bc192739d24200ba7c65b13f18c17e0eb1f030e1), (0x420422bebcdeb9c21865d794d4f873dec0612a600a564b3, 0x316f66256774f11969501c95c7e66a7825d7990e7e886d84), (0x262f56503b313e74405cfc70b5b6287f9352c644d5d823c8, 0x8cef4accc9b6ce8e0211e41bbbd259ff5fba460c5822958), (0x884be857c8e77ae6f71286b69ddae739e3554fcceca3340, 0x346b6a255d9fd8839a866a28e95eb78b7fcb87b8dee7e350)));
   (6%nat, ((0x2aef40c45520aa441a2382763baf751c417657d704c34cc9, 0x1896174587eba05388c8853243de2d3d5e0b8b8543b787f9), (0x971f17144541df9be1ebe246f2cfc93ab45f1d1a3e11462, 0x35aa5f42bae45727ca5b7540bdfbb91ddeb4a2e84a8c17f3), (0x2cfff35125d56dd265fecc2773703ccb0dee65346232a909, 0x354849dbc50c16709824fdcf7d0c758d4e21353f75d2e7e2), (0x2c5c0bfa8213ac8b75ec71adaba036d1d373b47575886ea2, 0x2901a61480dcbd858d9ab04494f0f94259b28a82eaba9186), (0x22f1d11e6a159cd2d4f9c109a97ccdf954367ee4cddba32, 0xeda3b08ce86aebb41b8416110891cb9491673f869f91db8)));
   (6%nat, ((0x37261f63cce1ff6d6b9641701a8f557bb26569f2bb51c04, 0x2c9ab6fd0989b061e73ade9d5b9d23565f5bb8d1e3de7304), (0x1f16319e9a0e47d5fa4cf8670dc7c7ae073a75c31937b9b1, 0x876cd1465339a1028ccf22796729e0b045fb8f858233371), (0x11e8fcbe5a8c39e9908879f4288fc487511ce578c05ecf5, 0x3133bd72df46d48d171d8cf263a335e5abfdc1e284d2546), (0x25d363ec05c393439aea85af5dcd162c2e0e6a87d22123, 0xb8648f5048f76aecff58e43f79b28376d1b8a548fbb6057), (0x9d2278330fd9542c2d28cb43e4b4fade612cc45a77969f, 0x2fb89c361ff8934f66d6bd9d5bfad6ccadc96988617a52d6)));
   (13%nat, ((0x239539f33374f74d792ef8c179f8a26fa64d021dc5ce9fbb, 0x311ba20dd63f6f03db293d7b056e8a8c823e5c186c48a32f), (0x25ae5c138613f7228bd9254aebb599f2d4fd08c8e207532f, 0x391ca911e4a810b214b1a131eb0a3fd1c6ff5d42d7c72e20), (0x32f719fd8d95f56413130ebf3a9ba4fdf344157950c01ed4, 0x2f2010a843d142426941b0e2787c94764c74dc12ebad3494), (0x22b32887d03506e0c09b9db6ce32d93a888450bca9c2c774, 0x32a1dccd258658f65dd23f76c5d9d449dc146aa597bbcc4), (0x2d7b4f7897211d03b3e0e38772604b654a9ef2b0dbfb989, 0x3a42f9a1bd1d3b4705bc20460695e47646f81afd48e8ef95)));
   (4%nat, ((0x3509aa8bd20b28041c0463eb43957356c52df6239e6c308d, 0x1b937b4d4dd56c8a38b193bcf28068de574c6c6249627636), (0xbe1c3e49257208b3c330fccc8aaef61d782731b177a394a, 0x1ff1f9b1f98b3b9c361ed7b1ab53b356522b5b9fc8ec9f8e), (0xff1fcc4bc4d0f07c3df4d2679e0c8e7229767e6ed23e474, 0x29384ba3ffa38dac5b9c25f560477518a271a4b542e606f8), (0x1a8c526ed7eeef223d42f1799add0465a9cf96a6b2b647d5, 0x20602ebd1298c6f4912da0276e6c40e50286b53b3b215285), (0x60710e46f5d3d94e5ad444890bca39b012f908a8704569f, 0x177402c49b6a5f92eab45a46f71483e3f1441e3ad6f4fb2d)));
   (5%nat, ((0x898344758867bfc182ef0efd1301cb88862f0154dc9f615, 0x1b767fd394e4d094dd6454593683c139336c14926563826e), (0xbc8d742e1248e25fab0a41d84348017535fef0872c86a79, 0xd0f6b419fc9a88505e1ceec2355827f85f49b01eb687ced), (0x2aa4749a36c849174ca10851bb93e6c73e34d340c93512b, 0xdb03cfb2647f390ae0456b6d8c1f487e26513bef6107a24), (0x2ed7e15a6fa8805a6625a541c17dbb09224c8e3275472bd, 0x75ae0448cf3e1568dffbfc917489e89b9328dc1038981bd), (0x659f8970942a3a938ad5b070e47722589cc955eb6fe1b5a, 0x35940f498d871132209d4fbacc9d66d2749d86d9a0eb6573)));
   (1%nat, ((0x2cda8fd88a3d1409f3025e136cd61038cab42360d23e7208, 0x70a52278fcd45035f4a7c8c630e18a79e4aeafcb0b88931), (0xc643a2bd475030d406b1961c0cdc57c79e41ab9f5590ee, 0x105895a4763683145e9062f10d808a6eba9cc8aab3b9bfef), (0x42cc56f1d43c47f2b5c1106e2f9ea62ff8d682a608315cc, 0x3977058782a01a84149387a1bb98992b16e665a0a601332d), (0x3398df31f1153df30203cae330fbae9cc246a4a7dc39de4b, 0x1bf598a4d4e5925ddddf836b807c2ab0891eca477b58fc4), (0x191399d9e7f5969ca99b1280c1841f6eff0174ebced582, 0x29538ccab6d707d48f2a74014ed9e3660fc3abfbcfd91d06)));
   (7%nat, ((0x1aaf79761dc721c5a0bee9e1673894166df9c82e33d4e75f, 0x1ad66ec324803f0ac5b13031be52ea30733a33a52bee9cd3), (0xb410874065d6d59b3b08138f1b8032509654d93978657be, 0x1bcef8cd834dd0bf3664c0391f9ffa188741fad53d491047), (0xc153f42d9023a9a6e8146729146abe005599a183369de7c, 0x2a2035935900680fdfdfbf298bbe9dbf7a78f7cc5b82e76d), (0x1bba56872502e7a2e7b2ffc9537c8635ce017603f1eb8f30, 0x1649e1c7edd4b348339dc655e6ca0a290bcb9136b6326499), (0xc3b4c1c011a3f1778a675b2f5d0a058120da9e55dad44d9, 0x76b6942bfd2b4905af3ae1993f6dd5884323480c99c6a43)));
   (3%nat, ((0xdc334b3e46cb149893dc7f75f4db460b62fd5c61fc57b3, 0x326d1e7207ded08a2f27eded37fb6d2f822a54aaf4dcd84c), (0x27bb399def32a75b2e9f4199e3b1a7d989f107448567be2e, 0x21b062ed1871c1037305ca6ca88e488ae4727ffd7a3be45e), (0x11bbcc25322549e69484c559558691cc31f49b630f4468fb, 0xf7050a4347277c4501942c8868805c6446ab8e755a4900f), (0x3b96ae79ce9613255af956becd30b0e157179b56b01364d, 0x19b34c808cdf19489652aeef10865e6e5d8c14dc328ec41e), (0x44ee42f0cefcba55441bd1bd35bb57946cd5627785834dd, 0x120d682e9e0a5aa28665aa58e5190b48f3a1b6998c2d5329)));
   (6%nat, ((0x5178d69356daac6995568ba1313a94da70440be323fc7b5, 0x3e35ead3822be9c98d4220beec936e74eed1efe725b8c8b6), (0x3c78a466182210922f63facb08f1d8a0feb0c68728028b0b, 0x1de2162d6c324723dd127cb9d2e8b4369e33424cb206ebff), (0xdf402c5d2890e2e5c289d9d497635b957bd8980c77bfd2e, 0x3c1af253bf64785526caa7e1a1d62ce63b5c1911dba544cf), (0x387291b58071a83fe4e3dd9d78b5c400ab76b85998de646c, 0x24d47784e31427a9513e2cf1c5f310bcfd01a77dd0a5ae0d), (0x1f62b043762fbde1b55a4253b52b5fc120a3e75035e30a8, 0x2e5415adaeeedf3abb66769a835a82f48c5dc0430ed47565)));
   (13%nat, ((0x21894da29aba6612c39af1544540ecbbc3813e5990868d8e, 0x2dd67bab5722ae104e5547ef9b228f99be28a226c2536907), (0x20d46cb4eb57de566036f7bb5240ceeb649cdda6f46e8171, 0x2eb2a1fb221e5edef0163c2c33c7a1f704d14045e1997552), (0x2212bb6f9ff0ce68aef191ff71f017e4cb77901df3c4f594, 0x1d859ba5453d907dbfb3ad63f2a542abe8313e862a183998), (0xd9e2bfa282dc4fe049ab3a5c66cfd46d3bf4943d62b9161, 0x35abbd18a8df816b85e86095a3d9ca8b28e4f0afc01a4651), (0x30360e865fe345046b474777f98331dec77c8b9a63ee49e2, 0x1fb8a36598bcec1624debde7770e5dd9674cf076014a8719)));
   (1%nat, ((0xfb8f2f7954f664cc6694986a2c64d9ed418c0399825c515, 0x11135674baec960bfbb654bac309811a44b4363cd72bbbf6), (0x48e4bc5cd67377303a903e996e0e670f70e6718c3ebce90, 0x32348337fb06f478dce958dccf78d782b360875439a6a1f4), (0x2762381dc03c25e5e2f11c75a01ca41f521e93e3fe61db8c, 0x12772fd7de432c66cc8d048824fcfa68f5c0cf6b3eba3c5c), (0x553e8df7b8c3955f1c3989d19873c96f418107c29589cbf, 0x3e7dc37b5e312869128a1981cf2a4016417e273a49d0e91f), (0x380c49f4293cba9665280cdf9b1c97f4389d7be331fa9ec, 0x3551a43b4f26b9a4690e63f6654f26d988f4f7b6fd312f33)));
   (0%nat, ((0x2c6ba02796a8aa1afede5544ba123ba949d011a3685520d6, 0x2fa0f678bbda650b3727f07556ea6370f3dbc236bb5f481f), (0x2371fed564c51043343abaaacc6360810ebbeef9b25b0513, 0x293d9d0fbba5400c9716bbdd3aebe9c9193751399f7f9de4), (0x1a932c8d0fdaa1931774482fd5a6260b43e3cccee5ce2afa, 0x388a557b5da3bbfa5890b2d429c00377f4e0a45be1d8d9ea), (0x31f34098fa0ef99824482bae2d77a65b329581ed0cdbbbed, 0x2dc72ebcaba7444b6c8e83f496af66b5fb29002ea5c5d0c1), (0x0, 0x2dc72ebcaba7444b6c8e83f496af66b5fb29002ea5c5d0c1)));
   (6%nat, ((0x20be85a018d0132d7af4b11ab871068e6fa282dcc4c68dee, 0x106f3890bee1697bb77779c270abeeaefa7ac6e091ff630f), (0x4385d90c785680b6920cd53279fbb6f9bb8ce0457b39f96, 0x1451ee3aec3ded33f17970d714eb6ef30391ab22f0cbc197), (0x6739dc74f93244d0ee05553953e88291c868415e75493d7, 0xc43530f02a85cecfb954b39611dde1888707cb30353c6b8), (0x25985f7f437a5c55e9539235c94800f278d45af06c32e9f, 0x1258181e04f1cb0114057022660edd2af5276e7019fea82f), (0xfa1e2f18294fba37c2bc29d0c35e619897cc846543bb79, 0x16d6ee916e7ebf68047697874cd4889d60712082132627e8)));
   (15%nat, ((0x82695d2e1d5037fa75cfec205e6f1470e628760907310df, 0x8daef6e30706e14ca81c6c1a9f4818e6e879aab12bf746f), (0x139a8ce2a81d0f17d93205d083dbaa64b5f451812110e01, 0xd21c8a0976140bd7fbf26e488185054faeab81c357a2ed2), (0x2b1cb569808e3ade044f41d1010afd68cc3a1c2a5f96c90, 0x318d9ccab4f6988129f0adfecb174b97fe30f545f8b3b3d4), (0x265e116ec265ac503d2082b6fa1b0e9e01cfbf0700c85727, 0x4c76ed118c93edeadab04a7d43fded2d41a9a2d1c2a7187), (0xd311ab227fb1da56aba114e247113a6e2f80f613becf6b, 0x16f6850fcb24d767f44471a32e81212b40649cae9a737efd)));
   (8%nat, ((0x83d310ad9b8a786446faff150bbe95c69843f01d1b7b38e, 0x81d64c4cb0ea67223e9599b16874a998d76b85261cd3b37), (0x10766b123c5068f668c0073bc65d0347dd39d5b4f7218be, 0x2b1ae2fffceafb394f2342fff2465796138a87c09964112f), (0x1d082c5390fd2aa4072c376a14319db77f9012afa242fe97, 0xf98dcae49afde40d68c7b3c70e6634ab4ff294f18e5d508), (0x3cd148ce75888c831aa4eec78b35926396eafc31c92b320, 0x4ded6269e19cad92bec92bb2a35dae3184a8481fcc32960), (0x4b5cd782f157d79edc088825e8fc1c581916fb1bc64cf8e, 0x12030a27178942f9d15bbd10d981f0e1333563c3d73c796e)));
   (5%nat, ((0x511b5daf283b9c66a0ebb5d908c298e2c69655d6a2d6b4b, 0x1eac1b31a5bced3797dfcb77f81ab9092372b18e2f06421f), (0xeb32850c1ca003a07d89bc7247d2194809e507b8c3db288, 0x1271ea43f5e5a5fa0631bc0353e103ae09fe9fb5a7c22fc9), (0x550de88d3cebe9895af20f61c3c46d4d23a6a9e343c5615, 0x20f0001b01d7dbcd4f4a20802226b8605e60e42aa2ce0856), (0x10f3841bcc65ba23614bd898d6811ac995b95bf8d97c2908, 0x2b47aaacf87d1ade83ddc6f2400c6efe053dbfa9df439b6c), (0x255fece047d640b3305b751182cc758b6781ae7353039590, 0x1bf0887b24ac81c3d777e9d106d97a8ae63e2262e380828c)));
   (8%nat, ((0xc327b28a590e418ae34301a96241983e7deda62bb64e736, 0x33307fd5555449fd002f45c41471292748866cdc813528e6), (0x28f1707cbf53c61d2440866850cd731e6ad6896008dbf317, 0x236a995cd8ace3d01337ffce969b3ad4e799dadd4248498b), (0x1399494b000b488aa61f902c5bd10f905c0489e82c8372fa, 0x50077d88f857deb2b1302977a0e22c47ed97ad62ea6c053), (0x6412bab6d90e2f31e9151c5607c82be29dae86500f3188, 0x13b25cb145b237b646e3380fbb5c69183ad2c627da7b99f1), (0x130c6a742472841fb16dfa6b660c165a2a54802f1d90215c, 0x9c6f6d0a1eb3e03cbc3b9aff1e1d816a96c71c09992f2c2)));
   (2%nat, ((0x17e5ff5904a8ddf48430f124710f5e09ea84cbdf5885f05, 0x1295cf728f813fe65b8039b86796036732b3c3bcc238a579), (0x565a35cfe8ec31fafa68ca3237ef40c93898eec9cbb8531, 0x2e253a435c17ffc6f240b43ddd893cc56437222949cf8212), (0x21459968674f593e90a245e56ae99a139062cdd73495dd52, 0x394b3d80d66b42907b0e75d5c2fda89a67389efcfa733ef6), (0x334a5e01df00360e501dd9317566e00a46b48dbb043b2d36, 0x10c90adb25f99b5a468e4fa252a746796b8aee70119926ba), (0x1a2ad88c12cbad6bc6012c07c4e2d699d48a8498efdcb41, 0x3e29cb1d7c89eb5b6cfc4586bd527cf46f5e5a20e61e8787)));
   (5%nat, ((0x3c6114d3e3b1e4576cad496224b2f0eec94e9a1c8874b423, 0x306f3a8be0c18ceb27c77f68ce025b993cda5de2bfa55d64), (0x24a799211be4abd7b8d0b472848f390eeec8754b85c9f2fa, 0x59b02af2af86f09014e905d9388d069eab1dacf320e7dea), (0x7dafdc5f4bc6d1de3c3a870a5056f45aa092ec792aa8ee, 0xa73f41b083b3b71e3bf514dab5c87ff5186942fc4e03672), (0x1b50e5d56c6419fd0c3d74db15a9395ca5c09c635909180, 0x2fc1d42b5a35000f6f5d038336c5529b7133e24be09ce444), (0x293db3a5e1d0be0a5982b3cb511fd605b49ab821b4052487, 0x549d5905f4ded1f0802666f1a9bd8396c2bb6e48714414b)));
   (13%nat, ((0x6fde8c88e3d6dde6f7f5452e8124c5024c3f29883cda5f, 0x11225a34f369cdf1124b810266bb1da2f624e683495e6fa8), (0x496525c78b7ee3b9ec85abd5fb79ff4f43ee2d5b173d3ce, 0x2975f8b1a860784186a4982421182f44d038a12251d49fae), (0x1adc0018afae00e058a733686514547fa030302ad857d347, 0x3a6109dc93d5d693a710f48485da095cdf273a184795b65b), (0x35407501b218b6ebe65b00dfc370d7267f3e6c6c724dadd8, 0x88edad87cba48ace99e7e2c7ad7ae3cb7e52763f53bf6b1), (0x7affd3192c92de95e2dc16606b88bf77b449a4dfdd64aaa, 0x1)))]
  0x230b2fbb6a44a6d672476c084831737ce2447b6821424eb2 0x1f6e32b5add65452ab634cdda589a068f793bf4dccd06a1.
Lemma prime_191_474f : prime (Z.of_N 0x40000000000000000000000069a779cac1dabc6788f7474f).
Proof.
  apply (good_prime _ [c0_191_474f]); [vm_cast_no_check (eq_refl true)|].
  intros c H. cbn [In] in H. destruct H as [<- | []].
  - replace (exponent c0_191_474f) with (Z.of_N 0x10f10ec866d451736d106f85825d) by (vm_compute; reflexivity). exact prime_109_825d.
Qed.
Lemma prime_4_000d : prime (Z.of_N 13). Proof. apply small_prime. vm_compute. reflexivity. Qed.
Lemma prime_9_01eb : prime (Z.of_N 491). Proof. apply small_prime. vm_compute. reflexivity. Qed.
Definition c0_25_58c5 : cert := CERT 0x48bf16 [(0x0, 0x48bf17); (0x127b33, 0x6fdd2); (0x1c6b4, 0x4cb35a); (0x137c5d, 0x5f9785); (0x1848fe, 0x7f5c7d); (0x205b2d, 0x16f09a); (0x5d3ef, 0x8a44eb); (0x232097, 0x10189ea); (0x416d81, 0xbd5dc1); (0x301bc8, 0x3c4a6f); (0xf511e, 0xfbc4e3); (0x3ff644, 0x842b11); (0x2193ce, 0x1)]
  [(13%nat, ((0x0, 0x1), (0x0, 0x1), (0x0, 0x1), (0x0, 0x1), (0x0, 0x1)))]
  0x41d95b 0x10ba9d.
Definition c1_25_58c5 : cert := CERT 0x1189424 [(0x0, 0x1189425); (0x112ed43, 0xb130ca); (0xad9f0e, 0xd49f6c); (0xd056f9, 0x9ef4ff); (0x9bc14a, 0x8ba6e9); (0x88d6c1, 0xc83928); (0xc430a6, 0x94e30a); (0x91e343, 0x79ade3); (0x773a6a, 0x24fa3d); (0x243b8d, 0xdb2350); (0xd6b944, 0xb2693c); (0xaed135, 0x98afe3); (0x959c83, 0xc02f00); (0xbc4ff3, 0x113bd01)]
  [(1%nat, ((0x0, 0x1), (0x0, 0x1), (0x0, 0x1), (0x0, 0x1), (0x0, 0x1189425)));
   (14%nat, ((0x112ed43, 0xb130ca), (0x6da521, 0x9ef4ff), (0x583d86, 0x79ade3), (0x33b4ba, 0xfc9427), (0xf338a6, 0x2ab769)));
   (11%nat, ((0x65f50, 0xd07081), (0x97ba8a, 0x324cf), (0x8d6, 0x82b3), (0x3b, 0xbbd3c2), (0x75070b, 0x1)))]
  0x882f62 0x85711b.
Lemma prime_25_58c5 : prime (Z.of_N 0x11e58c5).
Proof.
  apply (good_prime _ [c0_25_58c5; c1_25_58c5]); [vm_cast_no_check (eq_refl true)|].
  intros c H. cbn [In] in H. destruct H as [<- | [<- | []]].
  - replace (exponent c0_25_58c5) with (Z.of_N 0xd) by (vm_compute; reflexivity). exact prime_4_000d.
  - replace (exponent c1_25_58c5) with (Z.of_N 0x1eb) by (vm_compute; reflexivity). exact prime_9_01eb.
Qed.
Definition c0_32_180d : cert := CERT 0x40ac59cc [(0x0, 0x40ac59cd); (0x17f861bd, 0x392b7f90); (0x153071c8, 0xd5daf28); (0x4f43325, 0x7d621a27); (0x2e78b765, 0x3dd1b81a); (0x16e99553, 0xa2b3199b); (0x3c4d670d, 0xa178f076); (0x3bd8f697, 0x744e6d3); (0x2b1b7a6, 0x983e4e89); (0x386d4948, 0x79630c0d); (0x2cfd8903, 0x750aee42); (0x2b61583e, 0x343271b4); (0x13589ac7, 0xe81d09); (0x560795, 0x179906a4)]
  [(1%nat, ((0x0, 0x1), (0x0, 0x1), (0x0, 0x1), (0x0, 0x1), (0x0, 0x40ac59cd)));
   (1%nat, ((0x17f861bd, 0x392b7f90), (0x12bb1afd, 0x7d621a27), (0x5a186216, 0x744e6d3), (0x4d85dc, 0x477365bd), (0x1a7b73e8, 0x49708a91)));
   (14%nat, ((0x1ee8af30, 0x340b1), (0xf, 0x5b1b919e), (0x2f91ebb3, 0x998c9d6d), (0x871ea43e, 0x238eb943), (0x4cf052e, 0x662dad96)));
   (5%nat, ((0x3bd54673, 0x2566b80d), (0x80445f9, 0x7359cb04), (0x4c41159e, 0x60ae6f0a), (0x359183a6, 0xa5526cf6), (0x3a91fcc0, 0xbea0b3c)));
   (8%nat, ((0xd04143, 0x78829da9), (0x533a6f9f, 0x3a0c267e), (0x134f7170, 0x56ce6354), (0x2b2f260d, 0x445dece7), (0x2d91bdf, 0x31387a12)));
   (12%nat, ((0xde2531c, 0xaa0450d8), (0xa5a7ed35, 0x926db28f), (0x7ae0c8d1, 0x71356144), (0x4972beb5, 0x1351f2df), (0x5c78334, 0x925aaa28)));
   (5%nat, ((0x7ac0d95e, 0x84c94c7a), (0x650c6944, 0xab74f1b0), (0xa8795092, 0x3a1a1196), (0x1358b52d, 0x7d09d89b), (0x2c4c7271, 0x1)))]
  0xa28a0f12 0x3c3e30f3.
Lemma prime_32_180d : prime (Z.of_N 0xae7e180d).
Proof.
  apply (good_prime _ [c0_32_180d]); [vm_cast_no_check (eq_refl true)|].
  intros c H. cbn [In] in H. destruct H as [<- | []].
  - replace (exponent c0_32_180d) with (Z.of_N 0x11e58c5) by (vm_compute; reflexivity). exact prime_25_58c5.
Qed.
Lemma prime_8_0089 : prime (Z.of_N 137). Proof. apply small_prime. vm_compute. reflexivity. Qed.
Lemma prime_15_5293 : prime (Z.of_N 21139). Proof. apply small_prime. vm_compute. reflexivity. Qed.
Definition c0_20_0815 : cert := CERT 0x4b2d6 [(0x0, 0x4b2d7); (0x271c4, 0x23b7d); (0x1294f, 0x70480); (0x3a69c, 0x83cb4); (0x44908, 0x5e584); (0x3114f, 0x7a661); (0x3fad4, 0x1fa13); (0x10747, 0x76b22); (0x3dc01, 0x68979)]
  [(5%nat, ((0x0, 0x1), (0x0, 0x1), (0x0, 0x1), (0x0, 0x1), (0x0, 0x5e584)));
   (2%nat, ((0x3d988, 0x853e8), (0x7adc5, 0x3d917), (0x1a3b5, 0x4ea38), (0x2acb6, 0x69152), (0x19f94, 0x423e6)));
   (9%nat, ((0x1e5e0, 0x1d744), (0x600e, 0x4f8ea), (0x2bccd, 0x15113), (0x3124, 0x1df75), (0x15b07, 0x28bba)));
   (3%nat, ((0xb7b5, 0x1c94b), (0x5a71, 0x8e8b4), (0x8c9c0, 0x31d0), (0x112, 0x6a286), (0x527c3, 0x1)))]
  0x833e 0x4447.
Lemma prime_20_0815 : prime (Z.of_N 0x90815).
Proof.
  apply (good_prime _ [c0_20_0815]); [vm_cast_no_check (eq_refl true)|].
  intros c H. cbn [In] in H. destruct H as [<- | []].
  - replace (exponent c0_20_0815) with (Z.of_N 0x5293) by (vm_compute; reflexivity). exact prime_15_5293.
Qed.
Definition c0_47_5b5b : cert := CERT 0x21e19291f0b7 [(0x0, 0x21e19291f0b8); (0x1090bb4dec46, 0x28bfbfd5a55e); (0x13ec596c7beb, 0x140b55666607); (0x9ccd7219215, 0x39a3112c8091); (0x1c2e2149798d, 0x3fc03d40419); (0x1f2b61fd662, 0x204e7b15722); (0xfcba65853f, 0x3314346abe0b); (0x18f94a8faa51, 0x274f5cab921d); (0x13383c3ca240, 0x3d1bdffec818)]
  [(8%nat, ((0x0, 0x1), (0x0, 0x1), (0x0, 0x1), (0x0, 0x1), (0x0, 0x274f5cab921d)));
   (9%nat, ((0x164c9e1b830f, 0x462825b2bf4), (0x4706f563de, 0x253f8bf576a6), (0x14057f27fdb4, 0x44081f5b48a8), (0x42ca1817ca5b, 0x34b84339a6e7), (0x2e7d867074a5, 0x1)))]
  0x22542508632 0x10c8bfb7ec7.
Definition c1_47_5b5b : cert := CERT 0x15feb127d518 [(0x0, 0x15feb127d519); (0x6fb2e17f3ed, 0x38301509a832); (0x11d580ecf8e4, 0x14e3ccb381d6); (0x6a163dca03c, 0x84e701e7292); (0x2a2ee49799d, 0x3392f53a073); (0x105e9d77cb9, 0x5ba057a4178); (0x1d150953597, 0x14119480830b); (0x65eaa9d8ba6, 0x12abc7194d11); (0x5ed19a023fb, 0x1365b145a870)]
  [(9%nat, ((0x0, 0x1), (0x0, 0x1), (0x0, 0x1), (0x0, 0x1), (0x0, 0x1365b145a870)));
   (0%nat, ((0x56df77aea51, 0x56137611b35), (0x6aeae5fb7c, 0x39a7bdc0bfe5), (0x2ff81c19bf9a, 0x439fa718a91b), (0x41fd95cc5533, 0x5566dd73eb8), (0x0, 0x5566dd73eb8)));
   (8%nat, ((0x693fcdd2cf, 0x3781bd6a1fab), (0x2c75f5858b21, 0xd103ae3ac7e), (0x2766e255890, 0xef7eb8be2d4), (0x33bb57df952, 0x3f4152ff396a), (0x110b08638f8d, 0x454127a88beb)));
   (1%nat, ((0x453640129000, 0x2709cb1fd9b9), (0x15fdf665c58a, 0x234aa3f7e1a3), (0x11f926bbcc21, 0x353d0362a30e), (0x28e6a6103f8c, 0x3e54f3ad7a00), (0x13c8bb64ff38, 0x3f3a75034918)));
   (5%nat, ((0x39b0e84045a2, 0x3144a295baa), (0x230730eb46, 0xfbc5dfcc902), (0x392c03bd0c9, 0xbe504237991), (0x20aaa68be2b, 0x3775c33981d8), (0x29469d9c5c5, 0x1)))]
  0x21a4df970dd 0xaadb93c9d5.
Lemma prime_47_5b5b : prime (Z.of_N 0x454c10f65b5b).
Proof.
  apply (good_prime _ [c0_47_5b5b; c1_47_5b5b]); [vm_cast_no_check (eq_refl true)|].
  intros c H. cbn [In] in H. destruct H as [<- | [<- | []]].
  - replace (exponent c0_47_5b5b) with (Z.of_N 0x89) by (vm_compute; reflexivity). exact prime_8_0089.
  - replace (exponent c1_47_5b5b) with (Z.of_N 0x90815) by (vm_compute; reflexivity). exact prime_20_0815.
Qed.
Definition c0_55_c34f : cert := CERT 0xdb65cb102bd0 [(0x0, 0xdb65cb102bd1); (0x21adbbcbdfe, 0xe4ff080cac53f); (0x2326ee9d39d2, 0x2efc840e1acfa1); (0x73670257b3cd, 0x479d2452b0ea2e); (0xafe3ae6dccfb, 0x1876d16747719); (0x3c15fcfbf9b, 0xa5bcf03cc3c94); (0x19710e8c7e71, 0x506e65e07e38f5); (0xc58baf628097, 0x2f9c6cf90df36c); (0x74efc2ba72c6, 0x1b4d3f79eaa212); (0x430e28b8ab68, 0x3f3583f72399a); (0x9b3f1cd7611, 0x1d89660796827b); (0x488b68438d7a, 0x1abf114c498c5); (0x41b0f3d8f8d, 0x2ba68c1d451c52); (0x6b3597e2a4b8, 0x472049a5ace82a); (0xaeb107821b58, 0x1821503cf62022)]
  [(4%nat, ((0x0, 0x1), (0x0, 0x1), (0x0, 0x1), (0x0, 0x1), (0x0, 0x479d2452b0ea2e)));
   (5%nat, ((0x396989b011afa8, 0x2f9c6cf90df36c), (0x19604c9405c3bc, 0x2ca93f7d129a8c), (0x16543c076b76bc, 0x33ac171ee5e48c), (0x1de3d37a6948fb, 0x2732488041f61b), (0xabc1087506bb, 0x36dda206eb10ee)));
   (4%nat, ((0x21b2df8b6a4fec, 0x97e7b3cb72f70), (0x1025184868949, 0x16466a337a5879), (0x58df69ea985e8, 0x239c90702f5e99), (0xe32675fac6489, 0x4a017eb1c2562a), (0x3b5474ddda68e2, 0x17a293ee415bce)));
   (12%nat, ((0x640e6ac810b4f, 0x566683a5596f63), (0x53918ab26f6824, 0x364994434712d), (0x20fdf6286baa, 0x54244f968b0a73), (0x4f41a864ee502c, 0x1016770bc6ee15), (0x4d122acf87a7, 0x3f9edce8f9ca0)));
   (1%nat, ((0x2d4fabc4f524, 0x137071e4ad51e4), (0x43af3b2daf8f8, 0x19cc7fceaa5688), (0x773704b3722f8, 0xeac94cdc0f5b8), (0x26919e5c180f1, 0xdff92ce6a56e1), (0x22618bf2d0e4, 0xe12aff0489655)));
   (0%nat, ((0x237936b8625c5, 0x2cf4ad7558016e), (0x169fe8605c65d9, 0x201bd864a1524d), (0xb8a98859781b8, 0x522eecd4873b61), (0x4b9c19e6d589da, 0x3412c72bb3427b), (0x0, 0x3412c72bb3427b)));
   (15%nat, ((0x1e5b1650f56359, 0x3050415a7633a2), (0x1a216862933992, 0x27365855c6f876), (0x113683418ad0a1, 0x11256d84bad1b5), (0x34a884b1d799c, 0x18ead9dfb6aed5), (0x6bb1c0b15f08f, 0x3cd987a2caaf29)));
   (6%nat, ((0x297348e8a5f0bb, 0x49ac62ce0e59dc), (0x3cc311a462e093, 0xc7dbddc46eb3), (0x1bf278866f4, 0x7d97bb23eafdd), (0xb09446619432, 0x266c2ad58b135b), (0x4749d4e4238aa, 0x2c683c18918a26)));
   (5%nat, ((0x161369164dfff3, 0x16818fddede8a7), (0x5ab9d488abda0, 0x48182755c3b891), (0x3a2f6f48f055e9, 0xcf75a9a62c43a), (0x1e1cff4ca59c7, 0x7971d494593bb), (0x21427ee62a38, 0x370eecc54baafb)));
   (11%nat, ((0x21ef87b0cf4bf2, 0x1e9a7a8a608c6b), (0xa7c0d6b55bd54, 0x2b4f9cca04cbcd), (0x14ffd8b75184d4, 0x1eee6f9a3d48bd), (0xab5e327b86e23, 0x245768cc1b35bc), (0xc0434126f32c6, 0x44a0566e60cc3a)));
   (5%nat, ((0x34b8d73fb2c9ed, 0x49982d633a601), (0x3ca1c0ae537d, 0x396120c9da516e), (0x24db7457d29f3f, 0x5499c86643a9d3), (0x501f90619f044a, 0x1c374e8d99313), (0x7ba3ab6f684, 0x2701a21638931f)));
   (11%nat, ((0x11085b45f60777, 0x18aaba1219ab08), (0x6cfbb95b8c1fe, 0xd494ce32d58de), (0x1f9e53aab2f61, 0x58db3afe09de95), (0x58630b8afd20c6, 0x23236de1c6d39f), (0xb9e5e6603555c, 0x1)))]
  0x51374c3bf180cd 0xc7791c81f9c1.
Lemma prime_55_c34f : prime (Z.of_N 0x59540ddd91c34f).
Proof.
  apply (good_prime _ [c0_55_c34f]); [vm_cast_no_check (eq_refl true)|].
  intros c H. cbn [In] in H. destruct H as [<- | []].
  - replace (exponent c0_55_c34f) with (Z.of_N 0x454c10f65b5b) by (vm_compute; reflexivity). exact prime_47_5b5b.
Qed.
Definition c0_59_34f1 : cert := CERT 0xffff [(0x0, 0x10000); (0x0, 0x100000000); (0x0, 0x1000000000000); (0x2d, 0x4c39900d60ab1a3); (0xda72, 0x34d085dfdfe32ae); (0x975b, 0x30d1412626d0755); (0x8be7, 0x2c655bce225f89); (0x7f3, 0x3e92a9d8450283d); (0xb352, 0x4739e71e42f87ce); (0xcc1f, 0x1ae404fc3338ad1); (0x4d10, 0x278fb087d2133f0); (0x7160, 0x16e3d1a55fdc4a0); (0x4199, 0x16e3d46d9532af7); (0x4199, 0x19ac09c3faa2af7); (0x4992, 0x1fdfe3b4dc8158e)]
  [(5%nat, ((0x0, 0x1), (0x0, 0x1), (0x0, 0x1), (0x0, 0x1), (0x0, 0x34d085dfdfe32ae)));
   (9%nat, ((0x1f39e1f38620ea3, 0x1ae404fc3338ad1), (0x8184fa8edc46f3, 0x2654ff1072fd7de), (0x1072e440222c296, 0x2518e099ce2fd4e), (0xf67f5a1748f76c, 0x14196faee986718), (0x1006ba20d95ac9e, 0xd28ebaaa290492)));
   (5%nat, ((0x1f04f282e14634, 0x15851dfa4d33c50), (0x52f31f7393fe6a, 0x15b8a836e7d8f36), (0x54824eb92cc7a2, 0x863739ff6c87e2), (0xc9a8b35a5ce42, 0x31646757a9b8f62), (0x1d33e2a388840ae, 0x30142465e885cce)));
   (4%nat, ((0x19e08a836094098, 0x49a90215c1006ac), (0x3cbd7f6ae0a2cee, 0x1de60e7e4efdf82), (0xa01da402060894, 0x2d40dfd22439ab0), (0x16ecdb166bd1997, 0x54e9b3628dc75d9), (0x4875050804e8540, 0x2c04439e257a0eb)));
   (0%nat, ((0x15b073c03c8da3f, 0x29283250e92566a), (0x12f66edbb12f74d, 0x25a54c4fd90f067), (0xfdd73d3954beae, 0x5323b8e63166fa3), (0x4d6127b9418c24a, 0x4056d7005d4d21f), (0x0, 0x4056d7005d4d21f)));
   (13%nat, ((0x2e57362b3bfb9bc, 0x285111f1006d5c5), (0x123238ff0d3b01c, 0x27d4395a19eef3d), (0x11c235d96daf46c, 0x3134e7b2348eadd), (0x1b1b0698ee8de90, 0x93b4842399fd39), (0x25d946e2eeb648, 0x4a745e2eff97237)));
   (13%nat, ((0x3e0eaff01aacc20, 0x3d3d1b15d325db1), (0x29fb6109b7b0670, 0x56194ec550e44f1), (0x52fc73550924f12, 0x3cb49cc2d28d2ef), (0x29410c7332920ec, 0x151b88374450cf5), (0x568a11b5c73e83, 0x31fadcde8963d10)));
   (13%nat, ((0x1bf6d47e2722689, 0x1338c61e80a8607), (0x422db93dc7c2ab, 0x1d1bd3e746a5536), (0x97c444d3b8e01b, 0x15bb640589071f9), (0x54979567abcbf9, 0x3114f00bc782ac8), (0xc93b4917c9a28d, 0x13be9564f8b6c3b)));
   (9%nat, ((0x45d3a3246a6894, 0x204a05756395245), (0xbabe279d8c8152, 0x45632ef96a7e067), (0x35e5e182dea199a, 0x455d80a21a90777), (0x35dd0e7ffbaed3f, 0x400a38a78479502), (0x330ff9a989e43b1, 0x3dee68f697247fb)));
   (1%nat, ((0x2aefdaabe1f5c88, 0x450a1d954977411), (0x355bdb84187c45c, 0x88191a8deade85), (0xcf5ae5050c168, 0x4ed8a5bbdfbe31), (0x45981ea5951d2, 0x22e5d40c4fe16af), (0x6402, 0x4bf9a735fc8721e)));
   (12%nat, ((0x409e3f5240fc92c, 0x3769d4251356918), (0x225ff33a21a3d17, 0x15b45fac2748399), (0x5460fd974ea79d, 0x2ac50a0950a42a4), (0x147a4fb38a04988, 0x45dcb6fd742008), (0x11e6dd46976a22, 0xb0c61afd3052fe)));
   (3%nat, ((0x15dd25d5006356, 0x56f8f62e934b80e), (0x54adc639a330fbb, 0x4df612c014c55b9), (0x440a63dbc6d72f7, 0x16becfae424f92a), (0x5caa446fc30ee4, 0x22e5a481bbb6640), (0x6402517c9a96, 0x3b8e51bebe400ca)));
   (4%nat, ((0x27b4d89e6f46a14, 0x466ed79a3fcb290), (0x3788d4d6485f541, 0x2a3ee04a4037acf), (0x13faa045810b68e, 0x3d45abab16b3fb3), (0x2a072017bfbe1d5, 0xb9ffafb330b9a4), (0x9eb6fd7329759e, 0x3a8803a7f94c5ae)));
   (15%nat, ((0x265a17d3295b2b6, 0x328dc52f4b30cee), (0x1c9c2a697a31f62, 0x429dab61d2ba02), (0x31ada36976c25, 0x344c766dede952f), (0x1e9e7c83b21c424, 0x3db762e19e2c8bd), (0x16059cff73e6325, 0x1)))]
  0x4c0c4a9a1ae150 0xd9f.
Lemma prime_59_34f1 : prime (Z.of_N 0x59540ddd91c34f1).
Proof.
  apply (good_prime _ [c0_59_34f1]); [vm_cast_no_check (eq_refl true)|].
  intros c H. cbn [In] in H. destruct H as [<- | []].
  - replace (exponent c0_59_34f1) with (Z.of_N 0x59540ddd91c34f) by (vm_compute; reflexivity). exact prime_55_c34f.
Qed.
Definition c0_62_3da7 : cert := CERT 0x3f [(0x0, 0x40); (0x0, 0x1000); (0x0, 0x40000); (0x0, 0x1000000); (0x0, 0x40000000); (0x0, 0x1000000000); (0x0, 0x40000000000); (0x0, 0x1000000000000); (0x0, 0x40000000000000); (0x0, 0x1000000000000000); (0x1e, 0x130e6403582ac66e); (0x24, 0xdaa45a6dae4f004); (0x1a, 0x39de2866c0bbe0a); (0x6, 0x1e7b82687af81096); (0x3a, 0x7fc6c8b9bac2daa)]
  [(5%nat, ((0x0, 0x1), (0x0, 0x1), (0x0, 0x1), (0x0, 0x1), (0x0, 0x40000000)));
   (9%nat, ((0x0, 0x1000000000000000), (0x7a4686e8f41fbd6, 0xe6befe82eacb966), (0x635745db92d295b, 0x4002147a0f0eb47), (0x7a4e79b0ed861f, 0x19119e2884fc8c78), (0x2fe5359a5c74a3, 0x9befb8444a12ab)));
   (5%nat, ((0x2d5e56d646e54, 0x3f2e3ea4bf6816d), (0x772a28dea3c7e6, 0x114faaa1de9bd35f), (0x8f2338c25a2d57d, 0xb8855cd5ff2afb6), (0x3f86a1aaad25ca9, 0x1b309c5b7fd29e25), (0x33f2a08a, 0x627c890b55e63fa)));
   (4%nat, ((0x1218e5724ecd8b3, 0x8fe312420544c5f), (0x26a0c6d20a47131, 0x8ae3b8e8b89074a), (0x23fdcb89c7a5cde, 0x18b1a8a78ae7a692), (0x12342b263226d1fe, 0x1f70068b03d32892), (0xf040c5, 0x2b04e8405c9ce7d)));
   (0%nat, ((0x373f102dad13e5, 0x15daa907ef04dda6), (0xe41f34c1d43b75c, 0x17a5109d737e7ea0), (0x10b0946cb33a3708, 0x15760a25d5c315c8), (0xdbfd7671de235ed, 0x19310226a3aac5a5), (0x0, 0x19310226a3aac5a5)));
   (13%nat, ((0x12f1d14e85a7098f, 0x117521f09f160d10), (0x91916a9ee189fd4, 0x19ad76503450d9b4), (0x13aecefb0530b52c, 0x13078bff89a4fadc), (0xacf689bc27e6123, 0x35a8365b800b83b), (0x5cb13898b336dd, 0x143b4ed1006b8923)));
   (13%nat, ((0xc381dedb1f381ab, 0x9a12fe58516253c), (0x2c4a98872f53a1f, 0x1bdfe87c4e7118d7), (0x1731f866da6dbde1, 0x1b99f6a6a0d889ca), (0x16be22a5f489ff83, 0x210fe6adf7a6edef), (0x391d5618adc7be9, 0x1296eee9ac355357)));
   (13%nat, ((0xa50f0f8a64725b0, 0xa19e55e179301c1), (0x30bc2dd930528f8, 0x29ae68f32d041b9), (0x33dd0de5e988d4, 0x73318c1f498b165), (0x18c20d2246bd453, 0x1e61a0caea2288b4), (0x347bcdd2bbc9f51, 0xab32a05fa0fb431)));
   (9%nat, ((0x36aef4845f47628, 0x1717f77dfd8a5549), (0xfebb645b114676b, 0x1d96834780869904), (0x1a2259f54339c027, 0x1242d594ba71239f), (0x9f46cf5ff09be64, 0x14ab97a58995d585), (0x277de053edb4dd, 0x103bc02b37f15ad5)));
   (1%nat, ((0x7dde7179eebc48c, 0x12202a6e0935e1e5), (0x9cec47e10b2612d, 0xc4ccabaffec397e), (0x4842f6fde9684a2, 0x7e0c68d847c3a56), (0x1da4d3bcd3359b8, 0x719a9011d42b5dc), (0xd, 0x12f07caf2a155585)));
   (12%nat, ((0xab5456bd4ff24a1, 0x184b4fec05ef5512), (0x119e7eccee0627e0, 0x60aa6be577c9224), (0x116f2df00c7cc43, 0x8dbc2eca60fde5b), (0x257b3451bda206d, 0xd5cd6e9e8d1d43e), (0x5737cadacdbbae7, 0xeee101ed21a7947)));
   (3%nat, ((0x6a77907898e7661, 0xcecf71c2db2db6a), (0x4fccd99fe127c40, 0x15bcc6a8738c3a24), (0xe1b0fc46e8bec75, 0x7a94bd060b833bd), (0x1c090c4cd992957, 0x1fded419c7f226c8), (0x3ce3e, 0x6bc7d313591af8e)));
   (4%nat, ((0x15ac8fa6dcbf318, 0x1647d61e5f6f261c), (0xed1cb07dfc57c83, 0x15308b7a5cf9e29b), (0xd675bd7355a690a, 0x5a28eb775802253), (0xf2aa0b82cdc960, 0x1958d336a7ffe949), (0xc1b504, 0x1bf8b67fcadcf664)));
   (15%nat, ((0x175b52c8c6b9aa46, 0x1dfad34cec1d9566), (0x1ad4bb36b9f6574c, 0x18356d28149fd610), (0x117ece65dc9160e1, 0x681ac1d4969f139), (0x143887649eb982f, 0x150d9946913e508), (0x504e4941490b85, 0x1e0aa85af8a64a8d)));
   (1%nat, ((0x1af11969ff33aa7a, 0x2abff9523b48a13), (0x368e90bbccab7f, 0x1e783de03ef85a90), (0x1bb70d8db7ad93bd, 0x42ff0a662d527b5), (0x85fe14cc5aa4f6, 0x1575b154ba846b7f), (0x29, 0x1)))]
  0x1434893b427e7675 0x26.
Lemma prime_62_3da7 : prime (Z.of_N 0x217f853316a93da7).
Proof.
  apply (good_prime _ [c0_62_3da7]); [vm_cast_no_check (eq_refl true)|].
  intros c H. cbn [In] in H. destruct H as [<- | []].
  - replace (exponent c0_62_3da7) with (Z.of_N 0x59540ddd91c34f1) by (vm_compute; reflexivity). exact prime_59_34f1.
Qed.
Definition c0_68_f911 : cert := CERT 0x3a482003436d85f6d [(0x0, 0x3a482003436d85f6e); (0xe7c6609723578139, 0xb8e4e780ff978cd7b); (0x2df4991eda3fdbe1e, 0x787ec149cd0021dc); (0x1df2f6ccffbefc93, 0xa9508f6ed21276fc5); (0x2a154b792fd012c94, 0x5c80b02f7c66c37d2); (0x16fdd66273fb2f1de, 0x89c0801062997ec7e); (0x223cfebdcdc457e5b, 0x215ee7bfc08487919); (0x84b5707e041ecff3, 0xe8ed492006b5f259b); (0x39e4dd6cf73fada48, 0x260a0bfc8d5d626d2); (0x974647bff6e72031, 0x7f57c70cc2809cffb); (0x1fa6ad9078f601d13, 0x20996cdd2c3c61997); (0x81a419be7289defc, 0x78867f28f51231d26); (0x1df4e3652b1b6dcff, 0x2943a820a1ee8ec65); (0xa4199130f544b41f, 0x2b1701fcfff0ef157); (0xab5c2122c58b50ad, 0xe5038cd6e36e85be5)]
  [(2%nat, ((0x0, 0x1), (0x0, 0x1), (0x0, 0x1), (0x0, 0x1), (0x0, 0xb8e4e780ff978cd7b)));
   (1%nat, ((0x91ca3f5184c661414, 0xa9508f6ed21276fc5), (0x7a4193189a7c8981e, 0xe8ed492006b5f259b), (0xe7609600293ec6859, 0x369611b314ee4acf0), (0xcb5061efb4a0261b, 0x693be3f72d1929635), (0x1a27e998fdc004a23, 0x55197cdc195f33e73)));
   (7%nat, ((0x1ee259b038529741b, 0x4eeafd6541ad0eede), (0x1a8f6f22a2ee215c3, 0x58ee88cf03d56b91), (0x21ba76864645598, 0xa9f5d1b5b08a20109), (0x7b30af4c8874d3d1c, 0x323e1274c7bbc775), (0x7267359da19842c, 0xaa4f9b7d1548c3481)));
   (15%nat, ((0x7bb2faad28adc63be, 0x6ec93d5fef8ca3b63), (0x34579a235c4a2cb5a, 0x772b32ceaf9e4bd4f), (0x3c9015b4f3cfe485c, 0x11dbe6c21d97445), (0x15c3484c4caa, 0x66ba83775b582294f), (0x6454b228a723500b3, 0x909315c36f384e1c8)));
   (8%nat, ((0x5923726969f2c3dd2, 0x1e5fce6ea551bcf4e), (0x3ef3d141d22e4023, 0x5858c57dfbd80ee71), (0x21493cf224637bc72, 0x445e5603db8a3e84f), (0x13ef17e67a3d25d60, 0xa1fa8635e53deb501), (0xa0e6a83bcfe57518e, 0xe86a71245c0b4342d)));
   (5%nat, ((0xe65cecba2713f229f, 0x6f4b6160b4bd65c5a), (0x34d2db717968269a4, 0x4b17af3b563f747c0), (0x180c3a87a6872d47d, 0xc9824cdf5d96c5eb3), (0xad2b46f7559e7e706, 0xaa769da7b75b8c3c3), (0x433efd5c71efde6c7, 0x750b8e8a7bdc998bf)));
   (3%nat, ((0x3a6c706e8567bf89d, 0xca61c4344b1e32714), (0xaeac2f7ab40048e2a, 0xcdc7789da5b36cec6), (0xb4960ae3b6a05667d, 0x6e994d88a189dddd7), (0x342a57fc6d5a8ec5d, 0xc096fb9bd6e32c364), (0x62f7308d36c02fd6, 0x7083f43b747297aba)));
   (3%nat, ((0x35fd32c48ddbea5c9, 0x64e06845559a64bcb), (0x2b65b2604e7e9dc06, 0x89218794b95ef2093), (0x50322b7007a196e31, 0x926b7f0e004d71a28), (0x5b6db3a61d20cde1c, 0x7eb49567e75e02a64), (0x411c1956332c21dc, 0x5bed1d3ad88a61654)));
   (1%nat, ((0x2409b865dfd60b24a, 0x1b253b0d8bb28baa6), (0x3247abafc238459a, 0x18a96105942823a6a), (0x297fedfa71726d71, 0x1f07e74da3860663), (0x41b421a6dd43c7, 0xc72210389ea68bb12), (0x317e9a4f864b1b2e2, 0x2fffcab4621fd5cba)));
   (6%nat, ((0x9d34be102040c479, 0x264f055bff3197a1b), (0x642323724f41a9d6, 0x6caba4bbff59a51a3), (0x325cb8b29b5638f60, 0x99b911fe1453a869), (0x64c6c0e381449e8, 0x4b16e7084a2946aa9), (0x2c1cb5c3da968e4fd, 0x584561782577c0161)));
   (10%nat, ((0x213aa1fefb37955ad, 0x20c5e12d6d9d3f144), (0x4949bb4c9f439548, 0xdb7c8600decf92848), (0xcd72100a0cdc8104a, 0x6e6cc2ad099618556), (0x34005bd471faf63f9, 0x11b2b74efe801a45b), (0x99c7f687c28eaca0, 0xe0a3d51d13a399)));
   (9%nat, ((0xd734e1592bc, 0xc43224b3d9cc296f5), (0xa4285d0cc24806c48, 0x6e4dfa8905baecdb1), (0x33e362051f12b0856, 0xd1b0d7081498dc0ab), (0xbb844b3b037edb7ff, 0x3c06f727c1ea8b34a), (0x9bce165c6cc99cb4, 0xbd309febca90592c0)));
   (3%nat, ((0x98a4aa36b1995e6b3, 0x1d092b4eb6e49231d), (0x3986d66a9b434989, 0x3200ca7be1c02ce30), (0xaa9b37995c8571f7, 0x63756aff434757899), (0x2a2f931e8c2c890c3, 0x182f2b4b0b2ec837e), (0xc6d70713e378547, 0x8f60a666de91c5591)));
   (13%nat, ((0x57ab24511683d89e9, 0xd3cf9815ba1fdd2a8), (0xbf53ebca9bd693c70, 0xb5267745b1421ad0), (0x8bf215201000193, 0x558678b4ef5c8d33d), (0x1f31a71118213f8e8, 0x6fc732066a6206d21), (0x13ab9d511ca57ee6e, 0x25d2615806041a6b7)));
   (10%nat, ((0x619bab12fee437bf, 0xa14c4096aaaa95c22), (0x6ef3f146d2a83bf5e, 0x41f143336907e5146), (0x128b59cf63e62a9bc, 0xb74bc8ee645b83da8), (0x8f47d996d6bd82d80, 0xe222cc0030bbcf8c0), (0x7acec6eeae88857c9, 0xe2b2cd8c4d7e0cee7)));
   (7%nat, ((0xdb2b304a8e4e11187, 0x3cd0bc0158b341b7a), (0xfc5d4a4d9a458307, 0x1de9b056492d73ad), (0x3d0decc54ef9a2, 0x34aae590dc9b5bd27), (0xbd45cdde46bf2d70, 0x6ae706a7f76a4a781), (0xf36b4b9fe4f94b18, 0x1)))]
  0x97eca4509e99f1391 0x25c2c521a322187fc.
Lemma prime_68_f911 : prime (Z.of_N 0xea7ca4659ea0af911).
Proof.
  apply (good_prime _ [c0_68_f911]); [vm_cast_no_check (eq_refl true)|].
  intros c H. cbn [In] in H. destruct H as [<- | []].
  - replace (exponent c0_68_f911) with (Z.of_N 0x217f853316a93da7) by (vm_compute; reflexivity). exact prime_62_3da7.
Qed.
Definition c0_145_1e51 : cert := CERT 0x1010ccb74c0a98372086f853f17146138b91c [(0x0, 0x1010ccb74c0a98372086f853f17146138b91d); (0xbf960867f9b5c990450ca5bec381da32d0b0, 0xac66d3e06148a680e5c03f0501c5af424599); (0x807ed7157108e4f4e8a79ca794c8ede0ca76, 0x1029f46214dee54733052784193af42138fff); (0xc0c202d73aa6cd1b0110ea2659bf04574827, 0x99329ec706a0d0cde520c2f5a9b2bba0308c); (0x722ea98ebf5b09d1aada1d39a17ce6013a25, 0xfd994efd1c6a9f0cfdfa70384a737d2f027); (0xbd038c282cf8d2e5d6d96851e4a6c525a2d, 0x27f2a8cef3012a45cc3d6492eb2b8765952e); (0x1dc6324abb1bbe2b88f937254e296fe96a83, 0x8590ff47ce90317950317ed574760b3e16c3); (0x638cef266a27dee35cf50e14e72c075603c3, 0x7806bd51108cdf05ed0c539e283865af7464); (0x597571180c27eedaed66f7df562af5148eca, 0xeea84a35b4757c2f3cd784a4224393f7996a); (0xb1e0a94048c0fa635c7d338c1639a7f50cf4, 0xa242ae149011241682ce629f787cf53c49ce); (0x78efdd0e8cd9d467f150b82e1552a7969f0e, 0xf2c44e7560a5264417cd47a3ba96a33642e8); (0xb4f0c1b014edba73f19e9a98eaab41fedce4, 0x4e677653fb73c9e114c72239bececa28a024); (0x3a6fc9035717d303140d169e8f1e09893569, 0xe49d0b716adffd2691e82b7761f0c3a3f3db); (0xaa643eb33eb5c55380a9423e1b511f4cda75, 0x10fbb2cee08ee190943e2c99f8c874db50dca)]
  [(10%nat, ((0x0, 0x1), (0x0, 0x1), (0x0, 0x1), (0x0, 0x1), (0x0, 0xa242ae149011241682ce629f787cf53c49ce)));
   (14%nat, ((0x4c5722135cb49824ba96a911f1f211b1a95d, 0xf56ad642b835e265daeb50c544e38813a557), (0xaea360b597a865700e08faa4eb73c820c697, 0x2dc6cbd29f188f58a850c6266bd85df2bbca), (0x613720e99b83218142411b03139e809afba, 0xf0ae33232068ffd6a4a1fbb113c80898558a), (0xa7f6372691237790b5531eeacc3e90fb17ef, 0xa55c7c4f1ed7686c0068efaede315ab859c5), (0x82498b07700502566d4df7063476dcdc99b8, 0x8870b2468c773818e7fe50decf6e2a9ea33a)));
   (7%nat, ((0x35fa4432e8b328b308b91a5a5044725755ec, 0xcc664cc3a82dd908bec5c7188e5717471178), (0x7923ef3bc9f9814ec122b773e203b343337c, 0xe93a121b852ae0ea7f977784411e44855604), (0x9db83b6fef7f83ec45ffa14b5a056183269c, 0xa1b34ea6b67244bc845f9b1bfc8c2a9930b4), (0x4bd0753158aac5091c97db14089910dc30b7, 0xe6b5c1b29cebd687588e44dfd4a5de6f22a9), (0x59597c23a44deaa5f576fab50626f657ae63, 0xd1ff2921482b0ffff16f2d7678c3a3162568)));
   (14%nat, ((0x7fdd997fa58d6fbb5647cfe13d1776dd7801, 0x14151cfaba3c1be62a63cc67dcf8e0f023ef), (0x12b5dd03d1b75cc10ec4814eacf7739f082, 0x128b19e8d398eec8a20fd45f1c3c01b1ee3ff), (0xff3cff21965761a47ba7994cc3519d76b987, 0x11ea9d6572ca0c029311a69e3b67002a7b24a), (0xee45adf50d12034360666ac22448005db8ea, 0xf7c41f05b9acf71deec6265f73e3953c0f5a), (0xc336aeff943a6aa181ee53260e83c782f6e2, 0x1322a73c3b3139da1bebe577296dec9671582)));
   (1%nat, ((0x10fcba3a4ea0f9d4c43119c22494bc19a7856, 0xe2adea7dbf55b18b54002f78438115986ece), (0x94fd0dd36c7bd441f7a1e15fe31f5a49dd81, 0x6fbe310f00eb0f3fe4ef80c7cc35eefd79f3), (0x24347cf0aac7ccf128d2cbe6b5a80641c99f, 0xcfcf1f8d3a34f472fa97888252412bb82f5a), (0x7d372553c55af75553a6eed3ae1899beed4a, 0x1155f5b69e4cd6b4bac09590ec21615426b3a), (0xcebba37304e81a4c8a904cdfd218fd2114d2, 0x5b895ba3ecef0bca605e0250e2789302dd20)));
   (8%nat, ((0x184b88c1aadcc962bb0da7b2c78170ea721a, 0x232ace6d9b360f7d3e0e4f835f2f9d0b1dc6), (0x396010d4441a035513e5fbc5f40f2867b1f, 0xb4f23f0932d8cbb4e72dfce7bb908d43de55), (0x5eef74a26eb093072c2214159d287d99b630, 0x138d20fff8e4c7b1a7dfced2772543dd94309), (0x11bbd3c425ea07307814e3304385153691d8b, 0x99cad09dd7005f07ed2ea51edb1f2c2b1356), (0x3585dd7bc32779f3fbabb59cd5c62e75cc1e, 0x13fd89eb3975ce099f667d9cbd66416376c1a)));
   (0%nat, ((0x128a09541b5ea567351b1d0e672efc47d41bb, 0x3598c5663eb1caed77b9bf4adb7723d03c79), (0x85449b48452ab3aa7fc45ddfb42d18bd97b, 0x49ba608a9da67aba6ed623896e01cd80b746), (0xfc2e97638acce106c9082ee47e785253bcc, 0x1062831c38dc92c394e79b22b55742d3b5398), (0xc74645648dc0e3b4f93b2efadbe4211d8fcd, 0x1ffbc73ed0b62face47d7a65cd1505b36463), (0x0, 0x1ffbc73ed0b62face47d7a65cd1505b36463)));
   (13%nat, ((0x2f7502ea91b2d11c4e6901bad0e689d0f37, 0x1204dc609f0b0c34ad47e1c7fb5f57db93be2), (0xf101c59667f894fba9c8f962ea35d50ea457, 0x10b39daf7354fe85becd8b3c68a25e8a5c1fd), (0xcf0e22f3ced798b12f421949fa1c2bb0d4a3, 0x13cc7196ff0ff7215cebaa1a3f47b35f71276), (0x122f6942be78c695b4e4ca3a2c1cac484b85f, 0xf74e01d1fa75c747733714951a6b9a335655), (0xa3ee8444d4843c10b9f3e9cb8b091c7192d6, 0x1)))]
  0x7d7be479b7b0f952fbaae6a21ea59ce7e558 0x5d86c6c0ecba21ff5fae6d79a51d6a7360ef.
Definition c1_145_1e51 : cert := CERT 0x3bb757fc653bf5c9965905e089ca03d9b3b [(0x0, 0x3bb757fc653bf5c9965905e089ca03d9b3c); (0xa56fe5285f76e1e2b5fc4a4cf9632aac0, 0xea8735d04a24abe8a10b9fc8201f07af2f50); (0x289bbfe0ee54a9a1706e530f9f14a4d5a33, 0xf147dd63262ea68494782ca146d3862d029d); (0x29c7109ed4f139886a8156c333d1c129d9b, 0xa024b9685338d65471711a79e83d1f02a3c1); (0x1bba8e410e9d4dad1a1654d89bce12f6eea, 0xed2781edd4d771db491d79f8e5bc997b832); (0x29102848f290fb30488f1dc40e0ceffdc9, 0x2de085f384a8c8ab442f05717f90fcee971f); (0x7f18e72336b415963882ba73945df0e894, 0x1195d8795d5bd9c995ba4ce7f0556fc034170); (0x30b7dd8ae86a249c24b6f9c7a2fa279f1eb, 0x26cc776a23eff96ed498c9e00fb5a5b710e5); (0x6b7cccc9771ef18b8b98866fd1c824b8f9, 0xcdac7d2623a066bb90c409f2a9520f43e7e3); (0x239cbe5d58c278fe4e6d3930f5df4136edc, 0x7c4773223623a6e2666051194e6666d3ee98); (0x1584d2f67c271ec0b0ecc100fadca97352e, 0x1144610529f0c277975312d48dd22170ebc12); (0x2fd62bd05970a5db39fe07b528f0af26bf8, 0xfd48f2c88ab733ed225abef3e99e6661c0c0); (0x2bdb2ad4f61177f4f51bb904c382d915417, 0x1045bc6196b3b71981c4527d29e20356b1fb9); (0x2d14b5e606562487ac06b523c68a62c1e8e, 0xfc36d2cd296222162f90154dbd39b723236e); (0x2babb3e8334b99d170974e32ea28a241323, 0xfeca1fa6d080acc0585dcf18d80968f1bfb5)]
  [(14%nat, ((0x0, 0x1), (0x0, 0x1), (0x0, 0x1), (0x0, 0x1), (0x0, 0xfc36d2cd296222162f90154dbd39b723236e)));
   (10%nat, ((0xb87201abbf5f94ca55d8098b68160742e84f, 0x111c1cc0edc4ea9aed441ca018a36129a8045), (0xd94cbedcc2443f7dbcddbc65116646072c43, 0x76dabb0572c63896a2447e19e3e50083766), (0x28f5bf49c3df98d0aa069cbbd26ace9b5b, 0x11c10a88b86308d638f08b2254ed1169d2ad9), (0xe9f8e8b48873adfb395db0cb6eeb38d2cc6e, 0x8beae4cb24b450afbf14d95bf31c29765923), (0x326b687a1c6a70caf5f08d71c7b9ea35f7d7, 0x5e6414895ffa5b6cf3eaf848e77f2dc1d9c1)));
   (7%nat, ((0x19d57826b2f5c6037e70ddd67e77b9fd2d54, 0xa4bfbdf416f28c5ef744f9740fea717f93ed), (0x4eb32e21329acf4a4c2c359896a915421d91, 0xc96bfb1b4f48f9536dc380f41bd04eb9b088), (0x75a2eaff0ddcda057cd08b54361445066f6c, 0x12848daba0fbab85952d6c8a9d3e5b5835f14), (0xfe88de1bb8ebeeda4d404bebc47e7aacae25, 0x620a22e8417a183d059df68d27750e869db), (0x4ffbcc929403632b251e9834bbd389a066e, 0xc4a6828ccf99fcaed39f372261c1d36afe02)));
   (12%nat, ((0x702110aa85a3f98f14b14371ac3c01d2977f, 0x7d56ec229718c633080c65e732cdb49126d5), (0x2d8d3ed2aa635de0678c0573b1fa40318796, 0x6f3c536469c4c16dc463fc6f4dacddc672c3), (0x23e086757ca1db9d8f2faba5e185443ca225, 0x8b476d9eb476ebecce797df596ab89129cd4), (0x383f421a5505ef0259e9488391bc8911920b, 0xd2bb0a0c055c37ce01706f3ad269d74a9015), (0x9ac3350365dd8b3e5601b8cbb567b91037c1, 0x131f6aa98d06e76a15730a43ac7b704028daf)));
   (10%nat, ((0x10f6fb999bb3861acb52d6be42d3a54e6c26b, 0xbb855c89e318f027232e139e47da6aee2fc6), (0x65f5ab87f1aeef52adae6155905715414947, 0x129b7cfccc93babfc30697b2733347ff7cbad), (0x10100e3eadc0a7b4e0bf13a101a2bf7430eb8, 0x948b4b65bfe75ca18a681dec46885f109ab1), (0x3ffab578993d44e58283146e9dd37c394049, 0x2db356d7b09e584b104e7c5141ce588f8948), (0x1077e1327684b9af4c12d9f14a11fbc95dd9, 0x1336bbd2d082b609bd9e8a6f000b8e9d85317)));
   (4%nat, ((0x112073f08b32b7a6167beb2f2671351939b59, 0x585f9c985bcf6f6cd9f6248bfb850e3b56e8), (0x16a5200ff92d1333e81516d42476952b6401, 0xac6c55c3968f2acb24fb7deaff5e21b9efef), (0x5633da0982ac91b8edc79b8d3548577449c9, 0x2d041bf420c00a439ee53f89ce03be793a88), (0x5e031624b95f7dfbe01c61e9ae31cefb1d8, 0x5af4ba786cd61298f7b8ecce56e995e352e8), (0x2a3c13c6f2cf840a31e50659aec1f3f5584b, 0x129f4e25bf8a6d7196d53f947d29051157f2d)));
   (6%nat, ((0x1016a5fa18cc67ef44d3d158aef11d59fa7c1, 0x548aab5f7af1c356424cc96a0501a81efbd8), (0x14b94e667d97889f5cd32ae97baaa569e9e1, 0x835f922d1c6f9e504a8d525b1514cb1e80f), (0x320b00a3f6e7019a6997632d915e96d4ba, 0x1d02d035c7756e045539273218106f0a1607), (0x270bb6af9d6eff136e407ffbb98f43d6444, 0xd8ef71017716f25dc7e6c61f3a09e93482ad), (0x1cdb72a5050b395903c2cffd3a5bc18a3afe, 0x97a3aab75f66d0ee4decf649053c08276f95)));
   (5%nat, ((0x42ac6267ad47677832edbc633cf627083555, 0x4da6f9abedcc46b6aef0c937904d8b9bb6d4), (0x117bdcf3cc244510db208ecd667525e34661, 0x10560b6bccc8980d0b6beb0433807c5d7cdf), (0xc6177530df0bd6c06dd116793834718988, 0xd36c70d0a9f254a524b03ea6d1ee00c45639), (0x819bf1aef2937e143133586bae942cdaf70e, 0x5c7bf42ebe7ca195df8cb8c1bad6ae5e8943), (0x3f987bdf05a75e2ceccf46f0ecf9800a146, 0x42e021975d9b576d15fccea48959a4f2bbf0)));
   (9%nat, ((0xcf7bb504e45ebddfa15cfec2e1fa9aa2c87, 0x130f69249f28cb564032e6584510e9cc9849), (0x10daa13bce31c636874a173286b22df6d1f, 0xdb885b76896c6144321b6d3a060c0f379c02), (0x8bbdf48d63ce6f115a919cbd3401b476da4a, 0xe340edfc5ceadd822033965fc39a6d16b29a), (0x95be8d8207cf7f03588c648310b025a42d3f, 0xb06d7bae34f7669a5253dfed32f83a16d1b5), (0x6936d697e1d665989483ee73ba3be0480e64, 0x107e0ba4923699e24b45282045bbb53c900db)));
   (14%nat, ((0xc9e632ad3e05c5d671054adb8897065bfd28, 0x155d25fb6394ce3c5f77f1a05dc328080f1b1), (0x152c9c47cba180172259dbcd0e4e54fa3ab0a, 0xdfb9188e1566d33ad306388d47ed11b27237), (0x9120ada02dce38d7b2c67d8900f0c6ccddb7, 0x13ce85e205489b8d79c56d59708d92a076eea), (0x12333b4b11483392cb55a34990ef91f1b0c09, 0x8373b6b4548e390a08c0efcdfc3eb17e110b), (0x6021a60b1ecb63fe0395b8567c8969e85550, 0x111c8bd355c2d21acda8164e54540ac3e756a)));
   (10%nat, ((0xd957c44b93260748bc329238a7ae0e9f1305, 0xaade3f01b3323ce693760ccda327594e754f), (0x54a7997a0c1c82538b2f3cab314fddf5bd4b, 0x1ca9584332240179faf4c2b0948b099fa6), (0x261c55684db4210671f450fe68706d9, 0xd34f1ed91a5f10efaaf1989f343c8a1106fb), (0x8178016645fbcfdf7f1694c964bfc137a61c, 0x150cbaf27c86b34ccbc84a31be46fca03e33d), (0x795d6e5de22185686a2842f252e543e236c9, 0x10684b63dec6d821f1a968b9afe1afc75be9f)));
   (0%nat, ((0xc7d304f8fd895efb09a0fb180577e7f19b80, 0xa4f44e3b5561fe97a4eaabc03941d19b3341), (0x4ee56e28da65c3685c48a728b8675a5a771f, 0x16c95c0f3d4574ad01ee94d55b4cba27a3b2), (0x18169b752fa079262fa3d30ae6fb967b396, 0x791f456af3e3c277c29aec3abc78e034c14e), (0x2a89b31bce6d85f78f8d59d91af947631c09, 0x1574aab7238a0437a8d3b57d91c2cd19dc6eb), (0x0, 0x1574aab7238a0437a8d3b57d91c2cd19dc6eb)));
   (10%nat, ((0x155b548aa815236d0e3c22ff2e6ac27404ab6, 0x4c1b6f71a56f9113da77d1a51441b45d6423), (0x10cb84df147a043f4ee910d3e2008552e8d7, 0x66f332af4f6ff2a6b18c8ca1463bc2f87ec2), (0x1ebb38ae8cafb3963428fd3c6a038b7cd0bf, 0x11915c1583769857368235612d0b8baf31c95), (0xe516c2711d95e8f43efa9b7bfb080bc2e38e, 0xd36334bfc8051f54117db2241519cd024acb), (0x4c2c8517bbbfe3569a1e170048fbc32a2a5e, 0x120ee1b3a6c8675ce7d43ebd74881d3efb6ca)));
   (15%nat, ((0xf20e1f64d23733ddfa1b249404ec247507f4, 0x19c72bbd7457cf62977c559d677b46e9bb30), (0x1ed402222cc3108b2c58b36f0ec09582693, 0x249881b6c958d4266bc672cbc5b427c9ba7d), (0x3e2194aff9ebed6bc378f2fec739cf9ee62, 0xdf8e2fb94a1feb51db2cf9363954b17f807), (0x90e90763c9057c5fa9a6fef50a9aa08135, 0xc6b674f837d59044f457cda3e003538e786c), (0x92cdaa3016ebfa2d828304de448bf01d0c6f, 0x58cc04539f7ed40a43691263e384a11dc73d)));
   (9%nat, ((0x16dcd07823a4522b81833cf40de9ca854f45, 0x34af08f433e36f6495fab376d46d5d15b9b4), (0x80c423fa4c82b6d75aebe4e17ca7077bbd5, 0x5686502ec6e0696561c5b4d736dac9c4422b), (0x15b51ab539ea3b466566a8295d0e6f206f62, 0x10d8ee4993f638ce52145518dd53478997937), (0xd2af61a471a13b92a6a1263bd88d66928ef6, 0xcd0f2cba498d64eb7a66fe7ff5b6c6aaf9fb), (0x7a49f7133eddde066fb7c7b25b62625f0099, 0xe254ea48a2a35fee7e4c50fcea88e6190828)));
   (1%nat, ((0x94882640a8db32b0c79db2921c142e6f4c8c, 0x141ec0a102072d29d038463aeb1528eb2e5f4), (0x12c7d76fb07830da3d755926a75c884f78dde, 0x1137052d3a02b8786355bc7e15d27e5f28952), (0xdbfa5265041eae0d582bff17efb2eb7a4283, 0x1e484b6cc70d4e60ab45fc5fd224666a78d1), (0x2a8b0a162e9dda06f90c72f4358a9220480, 0xb40561bee56fe37abb465199965d1fce2e21), (0x1f2ba7436277482c5677d072d85b4a91baf, 0x8af683a27874ae7fdc9ca1e57eecc4e1865d)));
   (1%nat, ((0x37fdfa9df98f95850de4ea0eb9c186cd66ed, 0x4c844078d520112b3fb6ab086618a3fe26cc), (0x10f9e7845a7b2b7bf1acb33bc3ea5e0f3d0f, 0xa2817d66d6c94c55de47ba75570178bb1ed1), (0x4c9247863c47695206b3334438122dccd687, 0xb4ae9f0a466caf3d91b06de59128803bf3ea), (0x5ea88c0d3ca2e74afb6028d76de81515e6e1, 0x40ae7bc41f273834db31d5bf80ea7381a6b3), (0xb331728243dedd0d563712390bb86c9803, 0x1)))]
  0x14d93cd224ceeb113b44e2f7e45e4ef8df2fb 0x39c239fbc8a458d62e59c7a8b6d75ac7d58.
Lemma prime_145_1e51 : prime (Z.of_N 0x158e1ef2804574376a2f2e710876592441e51).
Proof.
  apply (good_prime _ [c0_145_1e51; c1_145_1e51]); [vm_cast_no_check (eq_refl true)|].
  intros c H. cbn [In] in H. destruct H as [<- | [<- | []]].
  - replace (exponent c0_145_1e51) with (Z.of_N 0xae7e180d) by (vm_compute; reflexivity). exact prime_32_180d.
  - replace (exponent c1_145_1e51) with (Z.of_N 0xea7ca4659ea0af911) by (vm_compute; reflexivity). exact prime_68_f911.
Qed.
Definition c0_233_e0d7 : cert := CERT 0x9e74ff90f32c78905a4d6dd87e8eaf19112ac3e6f23fac3505dc18284b [(0x0, 0x9e74ff90f32c78905a4d6dd87e8eaf19112ac3e6f23fac3505dc18284c); (0x6214a0ef86a95ba4837e14aa563158b4585e8c89d2e59fc75c5ea5a9a9, 0xce19527a06df7fc75c52c48eb6e92025c22dd02173b4c28416985b79a1); (0x7f91d2209ab4d653866a898822e8b9e29388282cbb1bb729ccac00a5c7, 0x64d69174a29214044a1e0f0bc19074594dc594466a6473ea5be2bee9ab); (0x3e6a83aab88e0286d29ab2028764039ed8187cd98a1ecc7eefd74c003a, 0x91b0f49060a1e844e14fbad56277bd1f6bdfa2b38603e2bdfd34b260e); (0x5a2dcc91ae995f5b91d06124efee96fb6163279acdc0fe4e22eb3a5d5, 0x87147e820dbe4fdb6efdad79ca3772651eca0de2e47b9f47d7115bd645); (0x539c62377d444f96e2678cb694ebe6cf5816c2eec825d36f3751a2a932, 0x105a9772b2c37349356d04b95d936b2be5255cd977eca272d59a208b7e); (0xa1f62d8e9a6e754410a438ef2675143f1912c94d0bb48758dfc96c799, 0xb44fcaff4e8c3936b1b8449eaa269b2ac259296a03cc8cc2a6f24697e9); (0x6f9ba7732187b205d96af93679017dd827aab6b055adba676b25415520, 0x635701b429cee22e7a8362d1d39ae1250a60592cd41f9ab2f9c54f034c); (0x3d7d19a5e170e4aedfc6bc4a75d37ab809a08c151050d87643a644fb16, 0x601b1c5bcaddfdd724f912fc0039a1365d0735edc7074ad36b42acbb16); (0x3b7ca7baec96bfcdf2cfbb9eaba9beb52dd8dfd0708a025804f0de78aa, 0x8d7855dca55ed6eb64c28905900f77c37ec214a923e500a336b6b0e3c2); (0x5790ecc00da4594489035a831a122c511a2d79aeafc784a4c0f36796bc, 0x66d74924a7122971c5cd26d729dc8211e30e25bcfda7afdb6dcc61d5b4); (0x3fa7df5c705dc8b555adf4f223c3d3ab03ef6aad61508e01cfaab3e4dd, 0x3d4db3632b824d6120261132f1d91097e987177c20c1889a264445fbd5); (0x25f1f91f996a3a6d3afcbf49080a91b2417eafee6a6bcb98a79ed70299, 0x3ffd70d1344443fe438caf935eefc08eeab99273dd368cc0cf6e87fcbd); (0x279baa59ebc6596bfd9db738974c82791478d293d9c43ba04e2b17e99f, 0xfeda8b01eb5d637e68efe5a74586b9889c05d43e8eae6119754b833b93); (0x9dbf5b3e299d1bc8616998ee9bcdb7017a977f0fd3ee9c0f54dd19eb8a, 0x2306745b74e2d0ad3e1e06c93e7ee7c7e1f8346f54ca84870d649916be)]
  [(1%nat, ((0x0, 0x1), (0x0, 0x1), (0x0, 0x1), (0x0, 0x1), (0x0, 0x9e74ff90f32c78905a4d6dd87e8eaf19112ac3e6f23fac3505dc18284c)));
   (5%nat, ((0x6214a0ef86a95ba4837e14aa563158b4585e8c89d2e59fc75c5ea5a9a9, 0xce19527a06df7fc75c52c48eb6e92025c22dd02173b4c28416985b79a1), (0xa5ecc33d99776fdd8895fac64c7bc3d4c22075f6a407363d031598bb05, 0x91b0f49060a1e844e14fbad56277bd1f6bdfa2b38603e2bdfd34b260e), (0x52e9ef5cbd9fd15ee3548eddb7281383b69f9fe539a7a21363273f48, 0x635701b429cee22e7a8362d1d39ae1250a60592cd41f9ab2f9c54f034c), (0x268c68e380cd54ac1ddf3db071b18efb5d5f53a2cad1a03cc7e13e4a30, 0x2ae1887a1456355aea5e3ed1ca9c8e81fce1d6f3512f918cfcc7e89040), (0x16a05dc7d443c591b70426014db15cfda1735e79605e3fe892f6b9083b, 0xb8c233e19d446ebcdf62e54101cd555c64f6686035c24d38765bb5d7b3)));
   (8%nat, ((0x8557bde6fe8866666e67a691aa8993956f36c5717d74f2c3cacbd02bc3, 0x8815bec99e84d3824053993ce369db28a822c8b28fb4d33c17fd0fc664), (0x48571c8f13b1089c9069148c84d445735897b9075cf99fa39faa5ccef1, 0x6c8cf3c81489b21af6fd53778f398f25460fbd8da7c371b8ab10932aa9), (0x2e073b4c5c50183f0ecf2c6b57420b5bf6bd33a0f233e8e4918d857342, 0x1c86f4f699945dacb1ce6ee4fb2a5c384ad66e8e21ad9dc0948ce65723), (0x32dccbb4e283e1e2f87352a4947180e569e77c00d1b313497e3c8df91, 0x4096e2e122fe9dd7d563886736f590e47d804a0ccc44d7c5956dfb2c02), (0x19104d7236921fd3439959f2701b99b651162022a63eceefa75f55ceb4, 0xa3e85413caba512815efa50e4c426e2a85233f4a558004f0765138fd6c)));
   (14%nat, ((0x68f1ade9b3a5b39e220bd8912f831f920550024888a3304a33ffb94cd5, 0x6337dcc4e63f5027e83898c1d3a3ca783fddd87902b29defd6ab09bead), (0x267440f0e512ea61808eb664ac339e3d50bc2413fea00641059966ca1c, 0x4cd81a73308671d924b4adf5bb03624c6b86a59ac209d5e7c48d5f0365), (0x1711062109ed5028fd564e07f3176403add9df5a5b27be614158e044aa, 0x1704e3efd5d9efe3f735e77a962309df1cd34169cfa6d378a1631d1b13), (0x211e10d02df0ddbf48c00125c9cd907125a811ce5c1169966e801165a, 0xb1b43c4d1f6bc2b4798b58788d203749cd0d0860b69cd6437e9ec7dd3), (0xb0e887ce10ad1034a727194f97471eccafe17d0ceea807bb49820f48c, 0x75087970f299be19d377fd299d8ff5e438f3792855904f10410ce8ff95)));
   (1%nat, ((0x3580bf490e6ba889ff0aad25eec63f84f77692aed937c7c2dc0207e3a9, 0x366add7af6f1afdd2427de1c31961564c76d1cd1d7f6bf410188bf19ca), (0xb91420c099fffc484979414b86b894a9f2c5feb61465d7cb717d6696a, 0xd8a5d59da861cf6951f5a201631f8447208e5a12481213fdaa01ffcb5e), (0xb75843e71b9fd761d1f0572f855beae1fa2e4032af1d8a13f19e0c4dfc, 0x4052d957eb2f7a62dd5a9459739ef2704d584e68ddd569a989ff7c37e0), (0x1029877bea70928405d416297361f960f2af9384c043ae963723c1077c, 0x633075a93c7b65c3fda6a351b97bc246ae37633d5c976c852afe443adc), (0x3d653d9932b18de486095410e7ae9cd1ae5c075aaba0b77b362066a47e, 0xd35e7a4a236eaf523ab82e5ec19fbf75607fc250883c7f7d55380f737e)));
   (14%nat, ((0xae84e0743f4539884d2deaff5e3af254840c9c0a0723cfaaabefc8b426, 0x5a8e29c61b7513e77ea286af4cb1aba67cec50f2a8ba1c6fe1c0f3e61a), (0x20084451a9e5d5fad6479b66a6ceb423337bbc72464a29d66ca7b63aba, 0x81eda543d873a5d01587fdf81209d00afc7882bea1e2ed1693ac5aa86e), (0x41f15d29ca73da3cd0454e7a5abeb57468e3fff2d3f1f74ce5df3a298a, 0x91ce5a8d5128a9219c52ca5060f60e4fdf6580e09d095995611960ec5e), (0x530b68e9f166581b5c9e10d99fd0c52cd305b8596a55b67b370efdf622, 0xa5a6b299683e95482e4c7f3089439eff6d972bc1e5b2ba79744297fbf6), (0xa4e8cf1b0cfd4f7f18249a229933cd0deb48cadb39ccce25c53f3ec682, 0x878cc673807334cd63b1a3e34b045f79420c9edd48709aefbf30b0e914)));
   (15%nat, ((0x47c5c6b779a4de813d6cf48933f2c4eadd80728a47b7763cb3a3d9264b, 0xb27bed9176136307ec8a83d9f4055986c21dadb00be27795195b2fa093), (0x7c70925c6e71139f0c56a82b5f5ebdfc5889e4d306b8f8502a7d0fa237, 0xa663019c5dec43b266ad7aee2b06741930558b4b1aba8340e95727b838), (0x6c248c6108c1a4c62c13cf10f3d384fd110728be49bacd99c137fd98ba, 0xc02a0a0e9ac2a47cfe83daaf7ab24b51ca5d14e8fda12c2c971d9c880a), (0x903f15fd3553e385f67bcebd367a0f1d9464107b761418ed6cd37f7688, 0x3c11be385ee7abf2b04ac381edd6b693ef8acbeb3edd2fa03ac0bf142c), (0x837f0b9aa3951cd75f1e5039ac52b9c1ad6ab7c758c59d35aca4b4445, 0x20bd8ea4febfe4bb8de99caf8b67affe3c980ca0f1afadae52f41b0ab5)));
   (2%nat, ((0x42ff0052ecb957ae5886d958509360c97ea3728f094d1c397d9c70f42, 0x56a0326b76dc100dc223de55fc1741e111a56b6ddfb29329331abb138b), (0x1d50061f441e9567d90d2d864550a506e589ff0111f7a043fc32571e87, 0x506baae307da7bb5168c4c2749fcaeb813779dd53791a6865e04862a18), (0x1943781630c36db9b17a1b335c7697466addb6ac71e8e0cbe0f42b8a80, 0x11f6201708cf4e5b5c80349485aafcde618505cd34fc3370d930ca90c0), (0x1429ce4bf763b19230355b0f8e395cc8596294972282a40aedef2d5e9, 0x60f0db7b0d888539dbea2fce5d31aac333964b26aa8fc361ac55540951), (0x4e0b675dcf9877dacced7e392c041d3bcfa539c99f4bf60d66fdbd160d, 0x46ef55a94cad7a8b8b658bbc39a7acf4e6539cdc3847082b7a41704006)));
   (8%nat, ((0x13a7c299a4b5e7d0a82dbd2709e0d4150b5b8b9f7258ec00e01c79ca0f, 0xa27ddce23fc721fff6d939fafb0d35eb590b565aee92ef413e170c2d8b), (0x6723896fcc3ff512164d935b53fc47942a5f9b186ca8f8bbb7b532fe01, 0x25d74bda812f5526834c9a870003f43d53710280eeaa7781e6153ef6a2), (0x597f0fda8d66e502a57026e468f7595d886a9e64cb9150e2b6b23ca01, 0xebd428e83a073ddff50df8154f6ec2f2060ba3c5b3cc6ac860527537ad), (0xd93f32ee21b2cc632472ef58763761cab96b22ce5f97e233f027aeceff, 0xb592bba7d70f6e592ebc4fcab8c5e9185fd66879d8a445de0c1e1dd2c0), (0x467574a509c3e452a7172d7476992e3d97259442121ec4ec8f6788a0b2, 0x62b4ee302609147a27cb3861772ec07301386b6c003304e458d4a1b82)));
   (0%nat, ((0x260f063cae7200397d610f25676431d1166f55cb27db75b3b7c1d6a8, 0xf595fa10f2418ee82a0311d6e80ea13c4692e655ec259be8eba4a666ec), (0xeb9868817bb0961ff33a19c42ca98bdc6d0beab3ea4218488d11b0be82, 0x69b1f34a202edd843e438aab7ed38596d0a3767603ef3c95e9f0312a62), (0x2ba37545221cc114639e5fc41241795bfdbf2587495c991f002f201d94, 0x2259d1ed412774570b323ccc674eb2750086690cabbbda9da0ac01f638), (0x49bfb46a86b089a2317b9b02eeefad59f581bd16de10f5933cd635bab, 0xc40e146b92c5a098fdad53571dbfa16f032cb4c8965007a2da8a530fa3), (0x0, 0xc40e146b92c5a098fdad53571dbfa16f032cb4c8965007a2da8a530fa3)));
   (4%nat, ((0x9625900af623a7aabb9f51d8b88da44b415bd77fc08dd4fa82ab8d33ae, 0x75d020139aa18ea17f45f6272ab367175b1ad61b46fd521af56c25daa7), (0x3637e6860f37db1019cf16093253814226dfc51ebd37a86a475cfdee31, 0x92a9adf33964da88bc082e7a6b4368393e76fa8822480f9f0a60b9edca), (0x5405fae08ecb7314d0b356955f6fe115a79888a527c99bb22a239ace1a, 0xdb31db42b671f81813cfc5d97130fa9c9b794e7dd45958d42aba73cb8e), (0xbbae56d9cf7c0ba3be606fdaaa66b21b12e4fdfb536c580bba957123dc, 0x55a245bee8821db7f715896e317ee61e6f5275a421d54aedbcc724e500), (0x30bc1ae00b05c02ffcdff9e65ba353426720eaaa76a2827f73f6170c9, 0x7f6d5897147c3be7c979ef17af4d6336984cebd93e317a726269f5ed31)));
   (5%nat, ((0x3f6dac9a75a2ec7992aa38a8ea5d46146cab12e65f43d7872a1bca20be, 0xdb5d804b346bc8019cf6a0edef6432a6f29f77d2dd2a8150a1268403cf), (0xbbf91ba7229fc9059d9ec7121345767524ece7634cb70ead5aaf333c76, 0xbe943c4fded634d30fef7b0ae7ea0611126941735eba9d1376232d7a47), (0x8de05f5c5955277612a1a820f7bef4455779a5bd95141a430beedd415b, 0x92df15fc1947da8c0c272671a102122527a8e7fe1ac3833bc282c73c44), (0x5443377adbed54de0faa2e9f3da06068f99862bcbafc6985ba53cdd374, 0x81f775ea225725ad8be08795020737f09abefbca954e009662fe39dba4), (0x4493e6bd8113f0aaf71109cbf500e4060198c27f01828945a91af55e39, 0xe6bf2e9dc7cb5303b282698dc8b549be9b211b1c97cb40db81a8e44955)));
   (7%nat, ((0xcffc168a1aee8f9c416d97809a6adb9e8dd1498139e265f3b400e57506, 0x67a69162c75a19a473cf7c2ec6dfdb9b68ca4f8d4e4a61dba0b750e2f), (0x29f7755e5b16156ce3bc47b01c79a415397f34809a71f261e7710a1f, 0x1fb32f8d34b3c9d82ba14e75546a52abd3625f197556d3d12e2ce38c98), (0x3ece2efbb10658bbbe154fd223105256eefd6eca92bae93168913829a, 0x9497de8c8f471d4297c0d5d23807ea094a38dc31546a21932e48972aea), (0x563ff36ad0f35565e0be0331605b73e22fb7e7413c9f6d5ad8ef901011, 0xd39b225a76e8127107d846d00522504967d98b0bc5b690b67cd6723f9d), (0x950b08d2a715a51dd416bf60761fab37a43d2b6f627522474294a977e3, 0x123fe6ace99e764c75fe9385451e9c308354d456b6603cc829a3a83140)));
   (4%nat, ((0x14d0c63a9d06d3478ec103cc44fa899525a090ba4972cff3da3e6455f, 0x42c595bca15aa6cc32899d6614c233852c89fe5fc96d68ce6dd5912d37), (0x116a79b50f183256e9569199d8fa2b59d98d5c09f75301044dc7748272, 0xf4b884a13b480a75dfed00ac9e5299da40272ecbdb4ffe54e6811f1413), (0xe9f041d2457d362da56eae424eb0759c43d4d9ba761352aac4ee89edcc, 0x4638f3000175b20afbe724e40784bba98150902ecf5c293c6f524fc315), (0x1343318f377603a156939905f7be1bd0d13bd190cc320bdc211c460724, 0xcdc57728a3b84b77e2b6c1b29f745d9b81d263d19caa808b703873807d), (0x751b14d432fde4ec08ed4b1775c185a2a63fab2480055a05f11f73661, 0x65eb8fcbdf35d0fe3bd157316ff26672ac9d00ce45224995a66560095f)));
   (3%nat, ((0x2893b8382f31a9702f694894f49be4741e8d24e487e445a94efdc3aa53, 0x6e33d0247487a30cec9f42690cab46237b71328306a6f92db5f71e258c), (0x2f70915bebe640b776a5344d2b5ef516caf27a5e22873dd6d190fda24a, 0x907dea31ff713867ef4be4e6748ce39fb3352e84dabdc308212f77b86a), (0x518de566ca7244c4c60d6b530c974e830cbef17d01d06b117644be7901, 0x38e9a5fc33ba91038658a18bc2b2d3ce891f0bf4c2a70c4df8a2bd0c0d), (0xca70ddde756dc31e3e13be0671e60bb1171647f3cb88995cae15f69da, 0x19af05a4616394d18308961974b7c6b0e58b142ed2332ee4b456bc9293), (0xa1de51ac344626b1eba16c2060e28528c47b8ad87e419d4ee2a580b57, 0x207fb4880f3c89118d1a1a06b7731ebb119fbe973327c30b356410d20)));
   (7%nat, ((0x4202cd6a21dde11b4aafddab902e234e0c9fc533f82fa1e879e95c5, 0x49d19547692aa7d6b2c1a89210bdf415f003343f19c802489018651b8d), (0x154932b7cfa03fb5a6bf5c4ec0d08752c2470c69ecefbf9e076adebbea, 0xa7865e700754cbcf7398888fa4df104655bfc7c7aecf39c8f1da867a23), (0x6da095bd29aec516b612737f43f56fff830a3b30783ad3572c4a597a74, 0x25396a78ab8ea5e050654b22c81e8c715a044199abef30814b96d2095d), (0x569a5a7779bc86c1f323ac8e0409f0b9fd17f5c5ff7403a12ffa6c2f9, 0x4b5f8c8388d5b86035a27e513ced8391e9787b557e545cce0d26ed0caa), (0x3516ad0d68faa67ec829916a5f12770e6fbc7da71378ef4123ec72c375, 0xed9fe96ef06c5cc3cc3db4f65d337c3857ac3e7dd7a3601f7000b14577)));
   (6%nat, ((0xdc917a1b35d26c168329739050ce5a184122364d42f8e6e6fc16f75e39, 0x8893ed46d6bc3beb962756056a3d99e02c28aad3443fc997b8a1e5b72), (0x48dd81959f6ed909ca1a74036cf73fd8b6fb7fece1766a876be6e48e, 0xfb071c23b86a3323ac14388471ef6a95a8d17d29ce9a2cf42257aa0b82), (0xf626f16098ac2b69ec75aee5f3acdd9d376c06e8113cc38bcb14f9c53e, 0xc1f693981d87a6b9790ce300239e2d23c66b575c268a998ea43af86f2), (0x92f5b80b59f75664f2f113f64f984814baab52a33daefa836581a1d1, 0x85f02558844c3252f7b81acf01e6e5eccab22b0fb29eeec37b7989763d), (0x88e67ff51e25997e8e2dd9e34a14e6e56d9c3f4d2a84a7657d9af97fd, 0xe506ad20ec5a45b96bedb3a96a0d2a9a5e83af245e2be920409a724b8b)));
   (10%nat, ((0xcce4f1e9797a18a6f2cced2ebc47fb749fdc6ecf146381e4f2a99fa975, 0xc7bd3a46b630d793fb88cc8f563e9fd0120af457ea61582fbe0c1e0c36), (0x9bd7bc7908ed115ca79e84c465ea367900a9f29be09a47414e5c7259a5, 0x46071027551729f4d0ca007b332a3803d736a7e2220e4a481ecf5871d1), (0x1327dd0765b442e41c27a9f567d76affdff49c1b777ffc8c5ad0ee32f3, 0x31777bccc0922c6eb5e1acba5dea0677fc5fb1f6dbc5bf3a3e802bc28c), (0x98ef528b5f161b7a11245436fad7b7921a9dcb0a9bc64d7c79a9d1016, 0x90b9bc1aca613ff14fe7e06ba6fb09d2f19056baf9cd52d876631aba16), (0x4ffa543556964df6c4e9d597ca23ead2c41d06fd0683d49afc55a10441, 0xbf4338273fbe3d55d24d245a2c5f10b5004a9c1ceffc5755295ee01415)));
   (2%nat, ((0x8ee55f7101fa6f01e1669c56c069b5db0a59f2c5068056a030a9f10a81, 0xb726ffb97e5752afd1055a65c6eae9979ab2372374dace2cddee639762), (0x8308c78c1d256a3db8518c877c64b82aee4c0093aa162138607c9ca000, 0x4fa4dc2659787031bc4899b7f91e7813a5a5d3fe00bf9d44d593c66184), (0x18c72a0a79ace71421c9ccf121f05f5e18989abda724438a9aaadb1225, 0x8e10e211ede958ce88a0176eadf9ae15e6cdf226b8760e7b234c8daefd), (0x4ed6bbe8edd04501b04705cbb535016ffc32942b6d3290686e506daea0, 0x86b01c9b205783823f85c967aa48e4b2d9928c9a6653b8ccfcda053da9), (0x6c6f099c3be19df6e837819a35c50e53529abcd46f2e1a487755c5acbc, 0xd726ec798c924f10749cdea8900615e79e6d13541b29a99805fa571665)));
   (15%nat, ((0xb4d2671f38a3d1210e078b38f981f0ea573987e289a322c7adf57da26d, 0x94eadbeb8f5c0cda013755de801df7149814583bb2145bacbcc6d5ba4e), (0x56a065bf2551632b9136c239f21906e4a37fd8b6fb1d8081a0e593b485, 0x9f198bc91e7e74f5c75b43a3cd704fffbd6396b9a0f712dfe3a1d57411), (0x62e0be306d7d0f1a5edcc029ca0cfe41e33fb11adea9310eb8cc3a0452, 0x363175d8e399f8425df30edee07fc9b86f76e6b5417c7cd314fe1a0843), (0xb78e745d34c0d78a4248610d07aaa92c75ef5a8992d46ed63ad2ea688, 0xc1ad8f17dc20568306304e2511ab3a28c0e3257d954c841c671e036551), (0x1a7f9ca9739e7fbf0ff7b10ca17f3ec7e1db979d5296823b6a6141ed29, 0xc895078195b51f765188b4633cd91204bff799f4d2178ed237259a1aaf)));
   (2%nat, ((0x9d29327c36fb9dc79eef0775ec5179ad2f0ed7fe4b2e3aeccd6fbe0b77, 0x897876bf9c1d2335bc2783a5cbcf7e6d1983640db5baa415e5e67742b0), (0x49d227c89fcebe55b4e649d08c3af182ed6cbfaf32de5c78fb59690eab, 0xe30f705fb9e1ed6b37007cf3e7ed71047f78941f9f6637156e6fa94763), (0xc9646238203259f7227fa5e299bb70bf199dce77db6ea6215db8be6211, 0xe44fd95946cc0de4831dc34497079c466dc41c57a9b831b2f0f22bd402), (0xcb9e540ee3bda3d7d999399b6dbd0278eecd04c4b7c8d4dfef3d8483f7, 0xae6848f18af8e5b2015d3c17bcb3d9f189a5f81706a572eaf778c35b93), (0x8c692b120729b25e617bed287cfbe6c69cc65d372ddea8bd956fe77a20, 0x5472cbcf9ba8df1c2e73352d50810155c175ee76d07c17666478428193)));
   (14%nat, ((0x1bdb893a65505e0c1f2a6850a584cc3120980cf67ae5516a4f72e8c0cc, 0x6e31f0dab55ddb520c7b3bfa04685d9a74ff9352da5c5a9d956e410f15), (0x2f6ef4ba0a30e551d7b3e8673eff1ac73b2c8ad0f40909cc12bd7d2da5, 0x86fb7fe60e8afe2599f3e73f3323bc50a9b4d9ae2edfa159273210c226), (0x472c40f8e44017c9c5a4b3f15adb3141f5fd5671fbfe343bfac10ab7c4, 0xe7b248952169e5c3dc9935e816ac9aebf92a4b77c6a99ca5184bb5c808), (0xd1b33b262643cd96775b5f779018b85136c6c6d5c91cf53027eca53c14, 0x7374f5b49151d6b698930f0ea0fce61f565a4cd9027d65fce904198b74), (0x72f09c13c2f76f3f45af353661b3b4df3e31097c884d559e0a3a499c58, 0xd209db774c1f3259182531fcf09f63d3b32a64e940f6b9b9aec66381b4)));
   (7%nat, ((0xac542c70e36bdca0f1a88076b67a758df7000ab15cbf3969cbacb4a552, 0x65fedafc1203dec9450b525f299e6a8aa4e18957c3ce9ee2a643424eb2), (0x28a316822dbd145af831e2b10a90b955d63e0a1f3a2b5400fb6be6a068, 0x7c97083b533fc55edea473507ed55bfd3abc7117f82bbc0d780d53c6c), (0x3ca2a9142ee5bf62346747392c11d8a8932e335ff242997715771131, 0x1309428cf4f7f78ea666816dacc91d01985aa8789ddc777ae5ea517d69), (0x16a6036ab93041b4a00dc55ce1332806cb0b9b696a9a7fcd881f35f61, 0xd52c21065a6bb15d4e0a9ac22112e68e9618da77fa756ea6363498ba9a), (0x962578e012f5be74bf906db4cea0da68033e052cdce6d1e03a6de0ffe0, 0x9e482b452e8ba9aa65edb13ed5191f0f770efc143269f26dfae133c70a)));
   (1%nat, ((0x61dd29c1c3aee452d069edc0fa2e0821a1a8a52e93cbe933b67774d6c7, 0xe5994571c4ebc8b7e833e7d8ce4f98c83edc3979db0d96d893edc50b43), (0xcdeb92019f21bda57b14a4dfb5a2285230363fa21ff33849ef1803d03b, 0x2e24d6a5123a5a5b363e681b5133a9cddf9bfcb743103a125dd18051fc), (0x851427064f27dcc40bae93d4036e36fadeb8e18de4a695e24313b8d90, 0xae8c0b72c5bc85f781d82a206d7975f33be5d73878120369df1ef8c20), (0x7702ac2c8ad79cc1e35e244e57e5a0c212177c985aa24362c1ce28e7, 0xcf3e74f60a34347d30f17c68d5167f926cfb1f2ce8f545e63e40bb89ff), (0x804743616847fff8939e842fbf43c431660b56f3d967a0346ccb9d18f8, 0xd9b54288a4486e94c85d47effbc2500eb94152660841ec4c1509d3d76c)));
   (0%nat, ((0xb924cb22cd05d788e9788f6e9289f62fac90e4cf5974ae2efb3d0f2769, 0x83ef427936041e87c2e1acc8d08ddb1a468d37fcfbe5f5766fc6319c61), (0x43febda53cddcc2e2df971faf8ecd8ce817cb43a40055f5196aeaeae13, 0x76fbea1e1a13e4e004581f27f4102a8c2f7ba97ed721162820c1468acc), (0x374d33b8ad2c8537d104fa0151b62957922bbb1b88f7aa750207470f38, 0x22eb72ece7008107fc41c6dd9c4209e07b1724d343d9cc86b28a89ca88), (0x4c363131fe4162a2ff585d6510a349fd39acdc4ec4ccfd7106f4f0f3e, 0xa85ea305b2231fb7fc66e22b84c62fe2acf737090630d8a6234fecdb2e), (0x0, 0xa85ea305b2231fb7fc66e22b84c62fe2acf737090630d8a6234fecdb2e)));
   (8%nat, ((0x6ebc58f399cd2c65f21cc9efa17e029162de25b858f7392db53f519a96, 0x95b9a5de7bfaac4db1dc56808ab5217a85364d9dac1ee58e4fe661a84a), (0x5791a1b623598a0bde3f6234cd88a1be6d9e229ee76f40dc61fc57e44b, 0x606f29b7a9957e1345b73198249d1ba02a398482202c674d599f7dda67), (0x24538f8ef34186478f72fdb2e9c3362fc82c0f3968145ea0929561d726, 0xe6c02377382484c684a83b03b1db2119b2128512ccdb8c19b179c2a487), (0xcffdcfef709fa63b1ab6fe84f46693f0c08d3af871dd35b66e71c9d1f9, 0x3fd2b8914883f7ac3f5fe98930db18c1084455adf0abd1da4488c90712), (0x18c42e69a5b95893afab88ac6f54942fd694d208d6af418b384887f972, 0x712a36b10eb3d89ad0b74d1e3f5f5eb50c27d90850d08a8c6811ad109a)));
   (7%nat, ((0x32064b3e4cc2c4e4f3f94e658279ea2cefe1a15173a1e8a2e53bad2133, 0x9d067dbf421e0426bd604c00b91b9cbbfe323219823bfffea3d8871acf), (0x6050f666b9d43ff4c004822405c9e76f3b92ee69e52857749c44383039, 0x258b3c5ca63833584220a796ffe857a6d48991f71437a911c07aa75382), (0x5818b2d62e44f518158754370a5dc1c4e2f922bb70ee2c14541a4d791, 0xb9e23cf931bd421808baf30a6769eb49d508e583fe58941604978aa33d), (0x86f8c40fe0651d91f1dd736aa15429224b9d79e382dda332a3d6441a5f, 0xc790d15f900a5745c51c28a1a38992db01c6e94f73580ecfff61c476c0), (0x8c90072719761dfe2024c01b22b709b85f040c1d85b1bd59fe78e4b8a0, 0xb0921d2913ea83a39f650a283a43b1bbadfcc514576b1cb13a03584660)));
   (6%nat, ((0x79c93b7dc18f8199a64aa01c0d2320241a922758b9be0a16515e9fecf9, 0xe96ab82731458806287b1846f4928b21d7653a8130c9f41d66c557bee1), (0xd4d36fb45c9dbc03dafd952783741c112dafc986fbee5054f6e0bebd7a, 0x11e9925b667c24e080dc8d41646d7bfba8b47948be7decf6984b9ee04b), (0x140da8be1a96c6891215069a3c6dc0d2cdfdcefc380c9784e12b5c828, 0x4cb86f857bf5f4d317d21602a7694f659ab567193357671cdf7cf13c61), (0x16fe0717c2114206997cb2a185aae569586604b6ff5bc4d9f720337e62, 0x255472aabe27541f62fecd5be907651c2b220449d7a12a336b43ccb873), (0x2627cf085384d251602abb9a1bf85b4e4b85a2aaf3ea99a823d64a672, 0x644035a3fd22b9d77446d3645ca020161c8189040a6854b07b35efafdc)));
   (5%nat, ((0x27423a02faff0269f40aff1d403c2243420e79aaa09a6487c6b6582c29, 0xe69e222cbc6f2f1fe6044b5e122debdb24de88d41bd640084c72be8ea1), (0xcfc0871696604bca561fce4b06744a5939b9e7a223b29ac5fdee8f5ea4, 0x4f0026e41f6755e9a9fe62dfb95060d269a375b6bcafb657152a9f0585), (0x18611800d14a4ba0d85798393ce18a31ef57e347c152695641fdaf787b, 0x8e2d0311c204faf2d86291f98417b1fd5f56a60e059aa2ae760b15a7cc), (0x4ef5f751c78527ed1703fe5c0a514d32913f232cd1cb4b43f94c8e1938, 0x51eeddeb48dfcad8aa56d2ec590952c6507d7d855ccaf4fd72cfc39c88), (0x2b3b862d9abc3ee9dae978fc1f40d1c060fbb0e20c5d4dc5a696d1223c, 0x641560d92dae85feccbc7cb672bcc9624215a9f7cfe451457c26cea044)));
   (9%nat, ((0x2720b572b3f571d26a45edf57521e3073c7063f73aa402b1b554bffcfa, 0x950eef4b55e6cac56e3c52b700777d68cadf33a36721045877db06dc1a), (0x56ca636cbde9cdd86094cd1d62eb95f31c8fb289949d0c1f4398d14735, 0x233e642b9944fef3019e5c1b62f2faced4733c152fd12a3d86e1888521), (0x4da1e989839324cb04520214469f8827b14b1d698dba37ad828c2b1ba, 0x806b105ae4d863aecfa2ea15fcfa563f99097f0ec43e9f5b0a3fdf4b0b), (0x406b3d2191df2d72e4f2959bc6d4616f431604e58cb05df0c0000b098c, 0x74c9fdcef554c01e83a94527b5cf02c4e66870f6cd253bb6742f55ede5), (0x2bd81d6b58f02bd55e5161e15df5acd93b4775831434a49446a654f06f, 0x2d53aebe2f5a3afb5880ae7e7e7442adfccdc580492ead957dfb8cab75)));
   (2%nat, ((0x80686c9a33f82e796f81ba5bb822b4c76adb9e9a98f101c111f71b756, 0x8dfa3bb9a4137b62c339359cb8086c50f970249c49e34f83033f574a3f), (0x4ebd9a633341043750232317f678bfdc854aa5ee3f02d86e21389823bb, 0x9830ef2cdbb05bbd0d4eebad926070390df710d811561bb42ad21bd974), (0x5a7a255fd5289922732473c027afc4306f49529236e1c0c1eda49b5e8d, 0xb0e3dd3f52f17b52dfc151ed22ea82d86675083a1ddcc271919af31425), (0x7a3a1b092f8f86b1854a0165c7f1f79bf2465a8c37a2a0104d11ea72ec, 0x62193326d6af028dc722c1cf00bb15b69d15f12a1cfc34af9ae28ac925), (0x4ef9fb3a1492d8891183f5ae1bbfe0cf1d0c9b39f4742658830b4cfeee, 0xbe088438c9aba33c7b182b7d6ffc9328a4832452b02c8a19e8c155a363)));
   (4%nat, ((0x8d10a48cd331fd99d4cc54e025acbb3de58cace9f23f3d565a8baa68e1, 0xa64cd3a4a86b19352aa721d831803b2d65ab814b221522f9c555334352), (0x6c07b987e327bbd0ae74c1727d65d8951a229fe66244d6e73a6232d940, 0x2acabc90a340ace778ae4b6e26b554784af41c568f67ea6e0df6d39184), (0x727266d94b79c4bdfb58dfc9d9960c16de80f87726c120d283123842f, 0x3971abc8b7c5a813d492e312b55a6801e7117fea06474a31ec1ad0a897), (0xce3d0f87c4e0438ed785eaba2ed59e26776910cd4a0261ecd55afb31e, 0xbe81c493096588354227f962f3979b80200ffda04ada1d2ad2ddadadf), (0x6c6b2f8d8dacd5ca7e4d571aed993ffe336e387d79e1e1c02f192360, 0xabdc1ebc5a093bd5fb617406586e9dff1b43c1df38203e670a3195c92)));
   (4%nat, ((0x735fce5477b3c57d3cdcc81bab28296eaa4ecd35d5c37b6e01698560, 0x7746b9c117f1b87b77f957d511ffa639c3a43920d3fed2ae62a50a3fa4), (0x3792d43ba0a477f426675cf873224c9141ebc1f45efb86129f01018399, 0x34bdecfc3a52e7f6c0631d188f9a295427abd7855be56b691d117fbb91), (0xaddb52e3f81d0b27cb1a2a1acd0a068bf4338000cfeafaca2c7bcd031, 0x2dcaa5e73d0b9d61ec9a07109e7cd0f29dd4b8527fdc770fa104ee6efa), (0x830debd87e65138fe1c54ce1af3285b773c8ca7cc20b8c9dffb5cb5a4, 0x392ca2de6bd9bfe65ae92c43516d6da6f1356b42434046cc81538bbf68), (0x2089cd8ebdecfd53495a6cf9d45af7b822da6f75fd879a72ab53e4203, 0x989d69c3d0f2df47437ebc5bdd0cedb8493062cfbe16320ec1010cd72b)));
   (1%nat, ((0x5afb4e636e00ea39b543764d9be98d78dbb1d4c5dcb1fb48e8a1c9b805, 0x326f47b40499f5fa386776330260a6fe8cfe620c9cb6036336fa685506), (0x9efa86193fd7abcec0d3354e56bdf387afe635425e79397e12520f67e, 0xa822abd5d9eb8ba37d51bdf63fa0c3eee1d8e2441dde399f4b18ddb852), (0x6e6d863ac62a6d9cb3ec85f83b808eab37c68d118abdfc195775399e2c, 0xd988d0cd5171395c26365562374972e6894186510502d472a3daeba350), (0xb8d93b1a9886c48eb1252a88b83bd5c754f0ff946438afdb1ed96ddd90, 0xfff41f9f1f815ca3c54cc88e0c3d578cfead26bd48a63910f1e87be510), (0x9e6da5a7a17e9832deb4db09996a88f83f2fede79083d21209db94ee0c, 0x24a90ae73b99fa5a6223e6f20e6df4798caf45f3a3b3af1d83400014ac)));
   (14%nat, ((0x53ffab06e86e13a9c40e125c8962e71f64455b48f958183bd1353b313, 0xe892ad2d38dffd77b124d21e840debfb4c354ec65ac6d5be1084524e9b), (0xd34a2debf3d101c1d58e6f36f4136e8b0f412cd4e63a19df2373ede6a1, 0xfb048876eff88a50d0b8f2e66552b11072b7080e7207f776b865a640a2), (0xf621e3adc7077538f8d895eb7b80ed1f67e9709154adabdbcd5671ad90, 0x48837f430c502715833a07cf66ed2fd3df1193a1d2e29c486c9da2a294), (0x148a3b2134cf47cb13285c0163ffa38724c87309b29b982135ab971edb, 0xfb668db2dd1ec7c83eb6e23198250a0de2c48b9c2f03638d53d7901ba3), (0xfa465e6eb32e5c3ad9a01cf47530cd312ac9801a241b23cc863ed42643, 0xa18ca0e0455ce68866bbab7e29c5a3594f47186dc9da31c280c4b3ad54)));
   (5%nat, ((0x65f22f9a71a3d2c14bf19012aa56734f01e99949e616063e827f53ce67, 0xf8614ca068d3ed7139fc983fa52cc8b60348e14e0f80b156091a8d2b0f), (0xf0fca971f399af6658f840ba6a63a13bea023bdcf1f6125369a062f74f, 0xc0ca55506cefa85434b9a732d137e7e46045f3559d7a0e19f350603788), (0x91301fe362c1e84f5de5e5cf1b7bf416cfd5d07db7e568aef568a3f661, 0xbbb0fbe87455fe00e4399372b836afa20a8a7003a2b0907f86fd53ecc9), (0x899c0a60f1773e863f7618ce5dccdafc34475ac64679bcf241d6e18edb, 0xdc0cb85fc08ffdaa71a088cbee49bd7505acb09e07c5f4d412c6d59be4), (0x741c52f6f30bf6dd9a3c4327abf91eae74ba3ca7cece6ac50f55a172c4, 0x254c74ae1479a4bfc7313922d3308f67697f7c12ca92a097406e70b9d8)));
   (1%nat, ((0x56f308fce758ac755bf7c807edaecef4825a75836a0c86459a62f43c4, 0x8af2647342882906aa95f85b07b4b36660c93b6468a6b6e389bf707ca4), (0x4b6a39ce550ed587f830c2212acb533548f19edbd8b11d981b21b48b85, 0xecb8f7afa0cdbaaace20be969f6903d9b655914ebe2657a94d5beebc5d), (0xdae58e50cc96d8b17e114c6aae4da2be62985105c52bbdf59378cfb760, 0x3f85828ec40a81ba3de54993f40494407378d8c5e7a9bb329347fdb829), (0xfc2fbe32f6a2d7d3384530261fed8eaa89adb73999b7d7bccf6f977b1, 0x1b952281cd9b9ca4607aa7316f0187474380aa8de5275780fb42790ea), (0x1112a668eb2d4462b0dc56fb19b86738083942009649d38cdec6b3c61, 0x1)))]
  0xa399b09ec970d8f8e32cc78da5d7e342a7cda7f7d2fc43620393ea639 0x65439ff8c10fbf22040a9259b96fb0bb96acd6c66a0fd66d99c9f1a9e.
Lemma prime_233_e0d7 : prime (Z.of_N 0x1000000000000000000000000000013e974e72f8a6922031d2603cfe0d7).
Proof.
  apply (good_prime _ [c0_233_e0d7]); [vm_cast_no_check (eq_refl true)|].
  intros c H. cbn [In] in H. destruct H as [<- | []].
  - replace (exponent c0_233_e0d7) with (Z.of_N 0x158e1ef2804574376a2f2e710876592441e51) by (vm_compute; reflexivity). exact prime_145_1e51.
Qed.
Lemma prime_12_09f5 : prime (Z.of_N 2549). Proof. apply small_prime. vm_compute. reflexivity. Qed.
Lemma prime_14_21af : prime (Z.of_N 8623). Proof. apply small_prime. vm_compute. reflexivity. Qed.
Definition c0_38_b2fd : cert := CERT 0xce2f0ce91 [(0x0, 0xce2f0ce92); (0x4d65cadae, 0x104a8aa4e); (0x61d8b8a8, 0xa8cb89674); (0x3f5cd233a, 0xadb901d6); (0x41365aa2, 0x1ca92d09f2); (0xac23de2c9, 0x15c2d855f); (0x82b3183b, 0x138f2289df); (0x757964119, 0x8f485b79); (0x35c922be, 0x114b54173c); (0x67df02d55, 0x13c1c3a137); (0x76a979c6c, 0x6fbcb84a2); (0x29f1b0641, 0xdf3e3a027); (0x53cd26882, 0x2117310bc4); (0xc6bee34a9, 0x1313dee0c3); (0x72950d607, 0x1ab77eb64b)]
  [(9%nat, ((0x0, 0x1), (0x0, 0x1), (0x0, 0x1), (0x0, 0x1), (0x0, 0x114b54173c)));
   (15%nat, ((0x8b6658d03, 0x189c656419), (0x11a4d6046f, 0x1a771ffabe), (0x146728aae5, 0x1b3db586b3), (0x159dd5fb05, 0xcc5d95338), (0x9f0c7d464, 0xd9f92c294)));
   (5%nat, ((0x56807845a, 0x1bcedc449e), (0x168698bed4, 0xe44485200), (0x5edd83fd8, 0x207838b788), (0x1eb5ff1454, 0x1cead2393c), (0x18248460c3, 0x1)))]
  0x19721725dc 0x98d453e77.
Definition c1_38_b2fd : cert := CERT 0x14d2b15af1 [(0x0, 0x14d2b15af2); (0xca172c838, 0x2d09c3d6c); (0x1b51a19ac, 0xecf59111c); (0x8fbb99ca8, 0x6ab256270); (0x40b81bca2, 0x4644e5dc6); (0x2a9f8f46d, 0x176742e773); (0xe3221740e, 0x1fce32cae0); (0x134ad420a3, 0x1578f2f0a9); (0xd064b7159, 0xe359302cd); (0x89e7344ef, 0xea5b26997); (0x8e275f212, 0x15aa3926f4); (0xd242ede80, 0x155665b628); (0xcf1562d03, 0x2193b3afd9); (0x145de93d49, 0x8900f31fd); (0x531a43e14, 0x21bcd9f166)]
  [(2%nat, ((0x0, 0x1), (0x0, 0x1), (0x0, 0x1), (0x0, 0x1), (0x0, 0x2d09c3d6c)));
   (1%nat, ((0x3b1689a0, 0x6ab256270), (0x14b9e92e3, 0x1578f2f0a9), (0xd6e494928, 0x3ab663309), (0x646a43b9, 0x1d8f53067c), (0x11ee204c3d, 0x3cbbff6ef)));
   (10%nat, ((0x6b734642, 0x1b8617dfe7), (0x16114f51ba, 0x404fb299f), (0x787ac54a, 0x123347e29f), (0x9a6396bfa, 0x15245794af), (0x9054c5a6a, 0x7f0fb6b77)));
   (15%nat, ((0x1d64a3cb0, 0x123065761), (0x9a32aad, 0x1f533f9bc8), (0x1c958dede7, 0x1f8c3710f5), (0x1cfde33c72, 0x163ef789cf), (0x15dcdee52d, 0x1)))]
  0x1754b33678 0xe26df3603.
Lemma prime_38_b2fd : prime (Z.of_N 0x22543ab2fd).
Proof.
  apply (good_prime _ [c0_38_b2fd; c1_38_b2fd]); [vm_cast_no_check (eq_refl true)|].
  intros c H. cbn [In] in H. destruct H as [<- | [<- | []]].
  - replace (exponent c0_38_b2fd) with (Z.of_N 0x9f5) by (vm_compute; reflexivity). exact prime_12_09f5.
  - replace (exponent c1_38_b2fd) with (Z.of_N 0x21af) by (vm_compute; reflexivity). exact prime_14_21af.
Qed.
Definition c0_70_a231 : cert := CERT 0x124bceba8221e7e6c6 [(0x0, 0x124bceba8221e7e6c7); (0x90338940c074cd1e0, 0x746079ff840e842d1); (0x3953a15c361c04570, 0xf55bd88df9e8c8c07); (0x78dccffdb724dfcc2, 0x193127f1005b1bfe4f); (0xc68d2bacced91b1bb, 0xe484e2740c5e54e9e); (0x709140f245a0b7615, 0x1562874001512f2ccd); (0xa88b9ebf0aade392a, 0xef162b801047d7c51); (0x75c5dd3d019364fd7, 0x58e96812cb2aa12d0); (0x2bcc28bc270a4199f, 0x893acfd6df95dfa41); (0x439944bfe3fcdb4a9, 0xbcaeac2c88996682e); (0x5cf1a9e2fd246be0e, 0x176ca7b98e30fb1314); (0xb89ec65c25d34eb5e, 0x12bb64a311cf6d438e); (0x93a3001d032b84309, 0x1649b10c6a091090a9); (0xafa989eaee65283e3, 0x17268e8dd2840064ec); (0xb6764b15f81d19165, 0x2010380e1928d5bd1f)]
  [(2%nat, ((0x0, 0x1), (0x0, 0x1), (0x0, 0x1), (0x0, 0x1), (0x0, 0x746079ff840e842d1)));
   (2%nat, ((0x16ca3da174e637ef2, 0x193127f1005b1bfe4f), (0x11162eae4924746561, 0x58e96812cb2aa12d0), (0xd4d68cb87f84d336, 0x746d96617e3814faa), (0x16cf6079ef260631c, 0xcc439587dfc7bac88), (0x280039d5cc1a3d4ae, 0x24f2226fa21e4519ba)));
   (5%nat, ((0x24c01a82453dbab2c0, 0x17ba20ee5b29802464), (0xf283e94370f8a243e, 0xf235129928b301b32), (0x62b72ee12e22682a5, 0x143a0cef05571e2a2f), (0xb03d5bcc70a34f6f8, 0xe1fe1502bf11b3f29), (0x56e6cd1b1da55b059, 0x1967f148d5d41b6645)));
   (4%nat, ((0x1160d10e16008cf9f0, 0x175bcf7401756357a9), (0xeb0ad1a0f2aeaf214, 0x1e31cb408adfa94fbd), (0x188bddd3f8292b8c81, 0x15f4e2aa1a33aeaad8), (0xcfac5b45254c93a28, 0xe20e8ee99a0822498), (0x995315e2889db2b97, 0x1464ca97dbe7b93501)));
   (3%nat, ((0xb3294055b29614868, 0x16b31bdc7cd2aabe19), (0xddf7a6145f68910d0, 0xde11be435d0dd46a1), (0x52fb9a029987ecdbb, 0x1411a6facf8ebaba76), (0xad801bee5b03415d2, 0x1e8a038c7e49fc9d32), (0xc9bd192e3d1f9786b, 0x1f964b29eb959de1e3)));
   (10%nat, ((0x1adcdbf07defaff491, 0x22d445e0db72bb3d88), (0x20a8fe0be27598973e, 0x21be7dae0849f3e962), (0x1ea8247ad7212bdba0, 0xb282ffd2a412f3fe4), (0x359f47daf4162110f, 0x1c65f54c2c036b4131), (0x904343fae5873d3e8, 0x222cc196259be33f66)));
   (11%nat, ((0x1f71c669e551779217, 0x187dde82da0b03d83d), (0x10265ba3071e9a1335, 0xd97ef86e437d5c764), (0x4f999f842bfbf6782, 0x18d50a0bd712ad8b2e), (0x109a1dfd70ab5fbf79, 0x24da6252fc4e76c41b), (0x173df4b44dcc9cfa14, 0x2a82da4269719cd48)));
   (2%nat, ((0x30a7f160fc7a2b82, 0x1e0afd38c247ddcc5e), (0x184ceeceeabb81d2dd, 0x1cdb97d81ea2bebc37), (0x166bcdcc575ac5f160, 0x879395fab08a2e071), (0x1eee14c444d3608af, 0x12366b854a4e058a62), (0x39109e0f39b08b54b, 0xbc066c644833914a7)));
   (15%nat, ((0x3b7d6563f3c0e87d6, 0xd7f28fa9079ff18fb), (0x4e787f391863db545, 0xfd779f889a03aa9e4), (0x6c1b760d922eb2748, 0x234c7a90bba820be48), (0x218bf3934a6120b670, 0x1779f5059aa6d928d0), (0x14442308214fc6480e, 0x245379c27af9b4da82)));
   (13%nat, ((0x23871c97f06d85ad78, 0x16b6b66b541f85860c), (0xde3e260d3eb0d5cdc, 0x22885ad0ae8e5e9274), (0x201b37d189407c48b7, 0x10ce73774feaaccb89), (0x79aceb23333f1e1cf, 0x135d3a8528268b58b2), (0xb9eaac08fdb2f1c51, 0x1)))]
  0xaa085148b04dd1308 0x53c1d6df61a99385f.
Lemma prime_70_a231 : prime (Z.of_N 0x25246e7958f172a231).
Proof.
  apply (good_prime _ [c0_70_a231]); [vm_cast_no_check (eq_refl true)|].
  intros c H. cbn [In] in H. destruct H as [<- | []].
  - replace (exponent c0_70_a231) with (Z.of_N 0x22543ab2fd) by (vm_compute; reflexivity). exact prime_38_b2fd.
Qed.
Definition c0_79_f8b5 : cert := CERT 0x18f138e02d47aac06d25 [(0x0, 0x18f138e02d47aac06d26); (0x5abfb75b6957887471b, 0x441d607d72f040dff38d); (0xf7d365eccf15f1cea53, 0x126b3e6bffde6bcd1b3f); (0x4303bd4134be4d73bab, 0x36b969f8de040ecf0673); (0xc71b3ef5e64ca9bbf5c, 0x648f8ef5841219128006); (0x16de03ff3be2e2cd6ecf, 0x62bd8b875e0160cfae89); (0x16740ba10509874c9740, 0x63465d79cb6425b74d16); (0x1693286f463ef4289494, 0x2275f1349139e36f62a0); (0x7d615f809a55179e2b0, 0x7a0185f39b8f09efd50); (0x1bbe6b34d6526365da3, 0x3ba4e0f391c200fc8da1); (0xd901a0c94f4701c3c0c, 0x56083ec2f3cb7c207e6a); (0x139040fad160d02a6173, 0x4dfa23f3a7468595976d); (0x11bb563794f620d3c488, 0x68ef1a6f15450e202f06); (0x17dc98da453c8db4ebae, 0x658b24fd61c26fd56de); (0x171739c11bd692b11a8, 0x3485b7558c5ff7992f2c)]
  [(2%nat, ((0x0, 0x1), (0x0, 0x1), (0x0, 0x1), (0x0, 0x1), (0x0, 0x441d607d72f040dff38d)));
   (5%nat, ((0x2a4c95087145b3a1901e, 0x36b969f8de040ecf0673), (0x1b4d8cd34d0ffa2b6385, 0x2275f1349139e36f62a0), (0xad3a54816b907804795, 0x183ff2700257e3b5efa7), (0x55c7a492167e5f17b2e, 0x52c5215fdff1db5a976b), (0x4be2572a940c53432483, 0x5ea4a6ad562b6ff153e3)));
   (2%nat, ((0x51a9d8b432e8a6ee0ae3, 0x555f4ad28995413760ca), (0x4272b696cee96df944e9, 0x31fd6a07ccc88b6eaea7), (0x16c87c873eabfaeaba8f, 0x6ac95ef43e241b2101d6), (0x67f6c60c3b411ae4db94, 0x4fbac21ac21a7d30bf40), (0x31830c09b11f738dab63, 0x5f6841ba2fdd91f0141)));
   (4%nat, ((0x52fcc4afde2f6b687f, 0x4d3d1a7ac3d13f19a8b6), (0x3663d68868dc43138e8d, 0x2bb4c6de9d68ac00ffb3), (0x116a5a84f5966436929f, 0x1d2fe764e5a8558c64be), (0x7c440fe6beadb6613b7, 0x1607056245f8e565c4a1), (0xafd68dcefea7410d2ac, 0x6546adc3903f917e86b7)));
   (6%nat, ((0x5d82d67032a6886bd5d3, 0x59acbb15578f673380a2), (0x49507dd51624225b6dcb, 0x137e0c33aa94c5eb1dfd), (0x376c922a04717cbcfb7, 0x63ad2a1681f22be427a6), (0x5a9493dd0e2ae6f183ab, 0x1786ab57890d3c023fbd), (0x152dabe4292d1a953234, 0x44b2771bb6163b02b361)));
   (14%nat, ((0x2b068a7ddc05a280ec06, 0x54c4a126f8ff88441a83), (0x4182ce7c6fc8aa109450, 0xb1ab2b630ab79108279), (0x11fc967080239c1ab4a, 0x306a6b2a9b491b0551df), (0x155eef86a567cb8c843f, 0x31449f2610be997457b6), (0x2d9c58209bcf662ee4f, 0x1516b5b4e2ee39102df9)));
   (7%nat, ((0x40dfb0ada5315501495, 0x5a75b8c77a53bfd496d8), (0x4a9a930a61b971fa9a67, 0x437efac42e5de6f4e36d), (0x2988bf26f33e98862b6e, 0x48e241ec6a3b0d4f37a3), (0x306dfeae09c6ef057a16, 0x24ac78b191d73808d03b), (0x21315945de5dce1ecbd6, 0x33dad1f4379e914f35c4)));
   (9%nat, ((0x1883c37be28d8a5ba716, 0x3057330381d4ac144b82), (0x154dfb5a025887b1f4d7, 0x3589d95e83840a090a01), (0x1a21ec84e47acc9a0d59, 0x1e0b985ebc65d0066c14), (0x83ae42aab54f25b589f, 0x4bc24b4742dec8e73125), (0x5444afd4215c8e339a9, 0xfc6b5a595a7fbad7013)));
   (5%nat, ((0x244e40e45bdaeaa8f0f, 0xce2d51bb235f7b6f3ce), (0x1838d455eecc5d584b6, 0x58b960ad546ea14d9516), (0x47c4b0725a55c677242e, 0x47437b748973f0b1795e), (0x2e4ce764eff80f0ce3db, 0x15689f27546cc60abcad), (0x13a0abf2c28cb7714f15, 0x610babf9abafd109aa35)));
   (8%nat, ((0x55dcaa8e673f28dbbd36, 0x427d8702ad66e1f757cb), (0x284e41cbfda74a6cc820, 0x8943233c4eedc4d1c59), (0xabc58bab52d4e73664, 0x4a354dc8514db42b423d), (0x3234aa8241fc0a8e3803, 0xcbcf78d99fd793f006a), (0x40084caeca425e9db2b, 0x65a44e486266fc5338d9)));
   (15%nat, ((0x5e300bfbd3c37b2edc56, 0x5b2590fa06e24abc8f23), (0x4bbdb8396367cfb1a030, 0x30bf07879169e28b5cd9), (0x15a9e2b32a16c932dc89, 0x6cd47b77408ded020b14), (0x6bfb165d148808a8b221, 0x2fd40eb801baa5aed03b), (0x16e6fb79955a93092663, 0x1a455bac2041b60f9325)));
   (1%nat, ((0x64acb5e3ff663599928, 0x58c5eb4fef9d09417a11), (0x47d8fc00219f32f5e696, 0x13aeb424be1cf314dd13), (0x38829d4c4b010fe8b99, 0x2aaa002cbe171896e43c), (0x1098490fbaa941d9747e, 0x4f2455c601515c3d80fa), (0x11ff253b40cf0b77dc6b, 0x226ab3da3d6c85431775)));
   (7%nat, ((0xacc9670de7792eef30c, 0x36b564fa0618fcb6c3fd), (0x1b498a3429e5eedce034, 0x27c7b26a119aeb328345), (0xe6d590fc5688f86bce1, 0x3d91751aee8713402d84), (0x228f1f523b61f69a3533, 0x438493ff664598d4a701), (0x3d1bfba4ea860d2855c7, 0x7858144a378ae713963)));
   (2%nat, ((0x8409b2f9c2e9d844a3, 0x18b15e4e7b22b28acd0a), (0x58f164d1511c3becac4, 0xe19720295d8a615c7d0), (0x1cff868d6c1e50ac652, 0x3b9d319ffe97086b6106), (0x20666ce48a55342a7347, 0x15f927c58a9c9cef42f1), (0xda5364faca0bba52575, 0x2e79c633e3551af6ce04)));
   (10%nat, ((0x13b1476c4e7598d82d6c, 0x4dae74208ab69a19b2b4), (0x3703ef014d7b87407b2d, 0x12fc206230cf546e1fbf), (0x34935c33e078c79e04a, 0x1b77f077c7c31de48c2f), (0x6e1002a788539acbf13, 0x46e5a49ee0e4104bf032), (0x268d4225cb42e5098e22, 0x3d046d1061821072b68)));
   (2%nat, ((0x21f18144b55e3a860f, 0x48330ff41db25ff2c9a5), (0x2f8642e7cc3bd197e39b, 0x16126d0385de36c46fc2), (0x471077e1611c6fb6efc, 0x4147438d2271e6a836d8), (0x26d9875fb37b2d99eb43, 0x53ee333ea30167197e1), (0x341ee50aa27f228eefd, 0xff6949bbac3d7d6290c)));
   (3%nat, ((0x252be3af62c25cf3b92, 0x31900224454ab6fe4a56), (0x1665302e10e2d32b3ec9, 0x5183332b8e441aa1b8c7), (0x3c935a0c7fbb7f20a5a5, 0x6518b4138fcc46c1b508), (0x5d2e0322fb17a29c8531, 0x4e5f08798af5ebcac9b), (0xd2911ea0ac34784983, 0x181aef2e940b0aecf186)));
   (1%nat, ((0x54c291eeb2f091aeda9, 0x53839d758261c831d1a7), (0x3f964cd03b9d59314eb9, 0x26fc86bef647eaa3a24), (0xddb72fa949b4fb5bc, 0x59dcfccd49ee2532b724), (0x499f7adc6d422fcb1265, 0x5830925cf66cf1d0a3a7), (0x140dd9f519e0990b0945, 0x1)))]
  0x6da8cd3e01a89a321496 0x18efade2e30483071619.
Lemma prime_79_f8b5 : prime (Z.of_N 0x6daf963e5aa90686f8b5).
Proof.
  apply (good_prime _ [c0_79_f8b5]); [vm_cast_no_check (eq_refl true)|].
  intros c H. cbn [In] in H. destruct H as [<- | []].
  - replace (exponent c0_79_f8b5) with (Z.of_N 0x25246e7958f172a231) by (vm_compute; reflexivity). exact prime_70_a231.
Qed.
Definition c0_141_a07d : cert := CERT 0xcd0f7dbbfb826d1c9e7b24bcc2847ebe3e9 [(0x0, 0xcd0f7dbbfb826d1c9e7b24bcc2847ebe3ea); (0x749bb5f2eaf1a417a7f31e63e62cc1c14f0, 0x106a82f8c200a5c9c5682eaf1a87879898b4); (0x955c52c7958277162f1be30da3ca10eb30c, 0x108cc0c61d02f3bc6624ee8ee74419a243ac); (0x9693ddf43b6ba86c4cd75f0dd3086b030ab, 0x845de2ebfbd8cbf667e085a6e8e127abbb9); (0x4b454e51ed55713b4672c9b5b8b89e2351c, 0x1098cc2610ebd44430e6ad7f0fd88f8a336e); (0x970173df4424ac2e09c2c1d9380d9b5c013, 0xea63b52da62ab9e9cc0daeff2557a2e345); (0x8549478daaafb407cff1a41ffb19be1d15, 0x61000b79b7ee98ae42f2afba5b12b8998d1); (0x3728d027657c6c09e99ed9c02d58f7c25fd, 0xe2af5fab80b3f2f56f8d51d73f33e5f5581); (0x80e7b4c5bda72adcef0f3827d0e5235f52e, 0xad24e6593571b1a5a4c7c60f9d490e71374); (0x62757b0cfe1bf7918294ae2b1387223f646, 0xa6c8dfb2b6895fdb66c30689a6a86c4a3da); (0x5ed7b2f514ab5bce9194c0d437eb0a691cd, 0x43cf49b025d17e93e170053fb5c09eac22b); (0x268f6895b0d24ceef51bb5b7d4129872cef, 0xfb623a60aba9560d107cd2c26cd78e24b9b); (0x8ef3371cf2d0fd4519c78f651782b0133c0, 0xabdd69acbf01c0c21bc13f032376bbe47ee); (0x61bb4116526beca8d8a28e046fbc49a9a4a, 0x8f045f8ff0e4213607ebc489a670718336a); (0x5153bb00677a4c66bdf885054fda51c4c08, 0xde3d651a7331390523333a7089bdcbddcfc)]
  [(6%nat, ((0x0, 0x1), (0x0, 0x1), (0x0, 0x1), (0x0, 0x1), (0x0, 0xea63b52da62ab9e9cc0daeff2557a2e345)));
   (13%nat, ((0x985981e039a9d664ce84f8307f7001756, 0xfb623a60aba9560d107cd2c26cd78e24b9b), (0xaf3e14057e3d814539eda7ddea661ea871e, 0xf54e1d5cca5412426a7e280d9e170057633), (0xa6debd4efa9e04d0ad69888fda24f0c091d, 0x10cb99bd8cdeb8bf76492fc2a41b78d87b00), (0xc8410d5226e5a3212ea2a522c85a2f819d7, 0x154175645ca121f5cd8d8e61528bdd5c0205), (0xa21639cf066326b8d969eaa4d37c575bcc6, 0x340bdd97c8dbb051b62e9ff346a1ea256f8)));
   (10%nat, ((0x7830747032ab28ee0c35c8a4daee461937, 0x14c84ebe39465f02a7353119a19b27bce065), (0x1329e6608cfee2d50f0d8ae45c4244a4fc20, 0xb225c4578c6b65addfc8e66e0cc1925cc39), (0x58022f3214d766c96d5db41b60486740b47, 0x4168acc32215466beefad4d1ea7d61d0306), (0xbdd3ca0048cee35689c21dbff08efadb39, 0x1343bbb51a1b4d8ecb52a733c94c0476794f), (0x8e8fa1124e173b8b0ae55bdad603de9b033, 0xaaeb51f8df5cd0d34b8b0f3999af727b15f)));
   (15%nat, ((0x5102f579d72054a2f13d8bf5cfe2ef8ae02, 0x13bd0f4a38d722beed6d9296992bb9ec4a47), (0x11496a659e69c39d9ed85ec1a8b716d46368, 0xf39bc8c324f206a396dc0cf28e9de6f95e9), (0xa491df3405aefaba979d5feed076bd539ba, 0x545e608f2a2d6e7957966d125258d599e3f), (0x13bd36191f3b0585ac04f03aa0fa74e95e6, 0x11f34e2b863e2654b6c0268a7ab72f1ce233), (0xb100dad9b9d246b50b3e88b89134fe40f0c, 0x79e64e43d17720a9cf4817d0e58464ea558)));
   (9%nat, ((0x2934f7907a7ac15c32dc4640be281a0d74d, 0x6200ff41400ae533c8b5f69c68f2f8b4da7), (0x1aa28bf5740d1734c1b1937cfde8057770a, 0x16522ff628d63ed4fe0fa4aae53ae120830f), (0x161b303a4305fe8b0f1720ba5a40c525a3c1, 0xe48310712fab9696b48bc3e0f402bc0c5a4), (0x90ce0a44d2c29f452b8df228a960eb0e22e, 0x10c449d778df81207df96ac4e05784f6a09a), (0x80cec6d0b1a3c988ae0c107edf342e69fa4, 0xf1f68105b0aacce57466431e11f6207c0b4)));
   (6%nat, ((0xa25a9a38f1807027bd2b8677dbd4c213fd8, 0x146379262ba4a2ca63a5a8a2054ac9735218), (0x1271b3a5e10d1bda930720e0a7808fb3ffe2, 0x28af19e244b4832adfe69b5d301df1630e6), (0x49709ed46e765b96a5141c52293b724d34, 0x41f6e95bc6f151b6e40df2b7baa62b6dc40), (0xc110e24a8611f064d1ed529ba683b7835c, 0xaa4e0d921bde287d71b4934422a74016c14), (0x6eb2141d0a19bffc39cb8c93b8571395b8, 0x135c24065fd14d848f8b03d631d8102cc28c)));
   (3%nat, ((0x10a1484aed87ade9575e267c8d028dc0bdd4, 0x115ee854189d912567cd2259e5d905f4c0c), (0xd635f8b2e50b34d9b92d9abd12732c4bd, 0x1060c37e65c2f412a81bec02522cd6d8f047), (0xbe6d06bc81d3645d6f933bc4187655d6544, 0x7d4594b42020cde705ee4eece0b2678417d), (0x2b84aea54a5585e0c35a2406e348825c983, 0xaf5928e0f023e3181143b30bdd5eff17212), (0x80c279cf278b68585af8f16fceb555239b8, 0x537fa12f7c2691c312e5a6c03ac2dae2b40)));
   (14%nat, ((0x13558505a39813062beebef9d3f02f94b26, 0x5853d5526abb341eaf39a353b8e90a91e72), (0x15a28f0af4e1920274fbeebaa4d0f9abc46, 0xdc90442187c082a43c8ba56bedfc9353c96), (0x86e80b5dcfd13dc0ef3db13fb42e6f7d18c, 0x18411e9fd9078e40314eab753dc2711d688), (0x1a19fb35847900cd24042c16d63a817b9e, 0x139748bb7a62d44dea024a06f0220c578c1a), (0x7c5103f236420c53f3bb7620eae75464494, 0x951c706e81064777d9393f4be5227153480)));
   (5%nat, ((0x3da84a26388bd262b54d34fd53dac22d464, 0xdb6aaf7039876e78e4b97041a94af4c0b2c), (0x8581d80f312f486065ae4c5b5dd04e7dae7, 0xdb7504365be52c517af3dba5561e6448cc5), (0x858e6adaee6181b636185d56ea06e6735e6, 0x4fc05f76ba41473ebba3269ea2c1686fe4b), (0x11a34195e166a243ba2bd77f30fb5d520c8, 0x6ac508c71cf8fde6be58463f36ebc1ee851), (0x4e9feda04b65dedc287516efcb7386668ac, 0x50a344b3bbaf8a6093fa8f345903fa559d2)));
   (10%nat, ((0x12082c72860c4c0b0cba63c1ae6f82c56e7, 0x10d30a98068bd3d8c564abb19b5541eee179), (0xc8f2a49231228a54b7246100cf541e9ac6d, 0x1442f998e770112ffec3af484b195e2e99f8), (0x1237163ebede4519a63d4082307fd6efdd1c, 0x10ea1410e38e4f9fa43cf5e39a7a2e21e994), (0xcb1a6a55222f216e44ee2d0d74685b59fc7, 0x12d9ca611788de89d3b4d7f55826df295965), (0x8b7fa2d35d09ae55d299249ef559c8fdeb0, 0x8776e5c77f327545cd2512851449267b312)));
   (10%nat, ((0x32e357512d27b94f9f46ca78ade8a8ee1e9, 0x5715ab5e25c18c766051e76452ca2ba3e7f), (0x1507caf00425a44d862305a3647e4644fad, 0x1620c90544e00a3880e6ec31ff927700bb88), (0x15b9c215f779c69719e9800538c70efafeb6, 0x1f8be4395837427e2150dfe9ebbb3cbd962), (0x2c27d80a2d20d17bcdc2c72499129d13aa, 0x125a0b0c76f667e2c950fe4250d6299a6f82), (0x87ce48da4dd872d50aa9fef0383612b8e9e, 0xea99d8fe638b63a0a56ec6b2f35f19f578e)));
   (9%nat, ((0x989feb58e0cfa503a33710a1bde0e61fb02, 0x147dd18fe808f347e05a47e0cb6d71e102ca), (0x12a17cdd9a160fdbc2cb22a5281f6180fe0f, 0x1626fecf7945bad67d9ac83b8202bd545a11), (0x15c5f58c79a5b86dbcce950b1735e1e376d8, 0x113ddcb555b0ed45397abbb48ff0ff2feda9), (0xd309fcc46734a0215ee0d1d3753e78b7869, 0xdc51ee06dd72da0ea536edd54488b46ee4c), (0x69c923de3db5c2dc078e1265ef28478743a, 0x15d5397d79e22f190e1facb6c47078a69e1e)));
   (0%nat, ((0x15265ff6409371b502040b33e3d6c9ed4cd0, 0x4614573bfcb031828cb8c82cf66ab5089f4), (0xd9e79ada77dc0e37702e0299e419dd1458, 0x855dcd8082eb026309dd074f80638dd2198), (0x3152f0a1962bcc6d0861723a0228429894a, 0x4eeab32db64b07c4fa2699561712c96411e), (0x11453d519cff652e685dbc6de3b8d625c2f, 0x91c8d38fbac7eba26ffb417b6318a51dc91), (0x0, 0x91c8d38fbac7eba26ffb417b6318a51dc91)));
   (6%nat, ((0x3aefdcd6a6431daee806137ce517a58b686, 0x85747bb75f5853896ea10f94ca49a32aab3), (0x3163b8c6c225b8598782558924615e9a09d, 0x33d0bd1f1e7aa8a3b31d8100648622ac80), (0x771ffb09a0e3006ca90a48baf6e16344, 0xf49118ad643eb1525bc8a2667a38f2c47cc), (0xa5ddf7154c95fc92ee3755848bf692f0d70, 0x21d35d063e775ccd3f9d24880671ec33ae0), (0x15fc74b76438268bf629c4651b46aade47, 0x32e6babfd2777f3c127fa226164b9a695b5)));
   (8%nat, ((0x72f57c1a663f1689504af6006e65c277eb, 0x20f6b203db7505b0f12d6035a706596c43a), (0x30364ac5b8a867b447384773d305321f5a, 0x3bb9c0550351a169a9458955ef295434e32), (0x9e45d1427b1c16a31e918bd733c677a57b, 0x40aa8a377a3a10d10b328de97f7af8bd4b5), (0xb98a7302d9ea5289464bf2b5677feacdbd, 0x15b9992e51a8c77a03acdc0bbb11cd27b2b0), (0xda8218655e30a9092b31104734dc94f7f57, 0x318c3dee2e5794a3773595c597c33cbed35)));
   (6%nat, ((0x6ced3aeb5d5d3a67454261759ba9106875, 0x166fccf29d61cb1aa9999b5c6ae602170bd8), (0x1655ff2cfd7589cb45d3c3f13e925243583e, 0xb408c98dbd7b02cde0f5c848cbe158f6ffa), (0x59e1f4a11cc735dd6e433936f4e6ce403c6, 0x1213df00cdb381a162789935324646e12876), (0xe7fff6fa7f1d87170cbf882e9bb4c9ed848, 0x1460b6e32a8a0480ef9a4b761e67ea47b3c), (0xd3ec92f940d3e5026b541e183d7ba1d33, 0x306bac96652ac0053e40f855a93f7394945)));
   (15%nat, ((0x6806e112da6c64022f82cef57dfd8d56a9, 0xaefb7737a50407375a85116fedf72f77c14), (0x54e8af96f03f1b6a757fe7cb2c96099f448, 0x14b517fd8d4f07b8270f196c85a950721a68), (0x1306878300dc48de5b13e999147a0fe4704a, 0x8152b6608c581b77e7e7aa6005dd274361e), (0x2e60ea0aec11a91ccc5dcc21c4226735c42, 0x153eab9d83be8da4c8b81b74bf8a11675f4a), (0xd17d02d2352a5be1d75770b01b486115395, 0x10db2784ccf05578f2ccd4a4c519d5e7517)));
   (8%nat, ((0xc9b4a03e7a03121605211fe358703fae9, 0xdeb202d130c65f67c9485685e54caa0e44c), (0x8986dfc72983da712e4d82b29c1771387aa, 0x5a5e1128c43815fea2fb6f7ec8b0fd7f88e), (0x16a5587e9eef077d46b1d7376b0e1acfdd9, 0xd7c5b04953ce93d0b5c22dd2be5e389dbcf), (0x811be22bdf7a4f96c8ca130e4d62c167c6c, 0x4f21620110a46e1db6c28b64da637e390a5), (0x31be313c4b1697688b2910df50ec6593788, 0xa465531da0d433e886cfee84f9d27b88ebd)));
   (11%nat, ((0x4af21838a7102410405d111b0643303dec1, 0xc564416ef9a2385d4ba8b83b4c727cbd34c), (0x6c0ca9bddf2e9e64b0f5ed6bb5a0a75b803, 0x15b393d8fba06ebdd4a0b1eef22ce5d7a519), (0x14e561d6035347fb9e81e2e5ab83033176ba, 0x116065b0e600b0e1fdda29c4fa5819d0039f), (0xd65ab7fa3f3568307d6b97985ceeaffd35f, 0xcf6cbf0de12719e1dd1dfd0e59aaf05875e), (0x270138f6d91d845445e91f172efaf7ac40f, 0x4e9324beb71c4ce61644d779cd83ff1dd77)));
   (5%nat, ((0x111f000ca51099bb391848f2bba6d904061, 0xaacb7f849cf2ee75a31b0be1c0ba1da9df4), (0x50e4cdd7636459a5d93bf3ef640786b77ca, 0x308480ee0528f119b59d1f0d4c0a88172ee), (0x6871ac5f4b65d2a05e0ea0a7be7eee4761, 0x7438de192d10a34e48c2c514a226c615ae7), (0x25753606568503b764c5010f07757fb8679, 0x1283a1a463229d16aa6b354f17faa68af35c), (0xda23e7b9a6ca736cafcb5bfcce1587ce153, 0x1)))]
  0xb892f0f83df9966e312666a8581284a800e 0x68f561ebc2e4f06afedaeebaa87df5bc341.
Lemma prime_141_a07d : prime (Z.of_N 0x1689b8879f5960c59f0af761d754eedea07d).
Proof.
  apply (good_prime _ [c0_141_a07d]); [vm_cast_no_check (eq_refl true)|].
  intros c H. cbn [In] in H. destruct H as [<- | []].
  - replace (exponent c0_141_a07d) with (Z.of_N 0x6daf963e5aa90686f8b5) by (vm_compute; reflexivity). exact prime_79_f8b5.
Qed.
Definition c0_201_5b7f : cert := CERT 0xe01efc13de6255d3dd825ceb2dda0fe36733867d5414109a3d [(0x0, 0xe01efc13de6255d3dd825ceb2dda0fe36733867d5414109a3e); (0x8061e6dd1956610ea0535fd5d1682a3f18cf2c7ed078571412, 0xbe88e8af08ac19b07f0fb0cb761f83e33b698614bc26854c16); (0x6d24b298d2ddaf6bbe5f8162d051cd198deefafd6c8edb19c6, 0x15d3a252c0171d6eedf02abee32e103516d2bc7fb00bf767e1a); (0xc80be70f91d9005842cb48c747c4ac56b51f1dcea14ab20548, 0x66f5c79911683c3f185334a3124620c79dbd0116d93cacf794); (0x3afa6e1ebf82f28690e388d2bc1a3f01e49d6dcb585ecbce12, 0x20ceee7761a6417bc00ffbcac8f18853aae405e1fe3e35cea); (0x12cb210c9577c5a7a482c13806df670884efc1120f008df4e, 0x1528ec3446c2aaecbcf2de621925a976ed8711ae36630e1c2fa); (0xc1ef4b7878a3abb9398c17f12688d93cb722161e73eaf6dc36, 0x170f40f58a9516aba1da4cf451cf496987b8d4fe31a385d2bc2); (0xd358a06f925f0c5fc5744801e7974d930d31a91d16dc0f7063, 0x9193b4976a698554476bcacf8dca9c40786423fb74d4d95adf); (0x5363ec4133127dc4c12ad23302a37f056b3a72ced0fa65477a, 0x1a37533dff1d2380c89bc19683bd44590647f553fcab33547c); (0xf046c7b08b3b8b2c2d408ea2d3c59e6b9679ca3fd986cccf9, 0x39b2b4128c9eb454b7ef3d23055e98c36c35e546671c60db81); (0x210d0c3ca0505444c9cbb4a9cc1d53eabfa3af88e231a7856d, 0x16bae1886d64a8d9aed550121388e88ee9962effaf7db75d32b); (0xd05354ea5f42550dcee21d6ced4650f3d53ee2792102a9ceba, 0x5e09d43d84df527b852207d792ebdcc80bb449b9d187a35624); (0x35de1f843ac520f50f1ea4b7319820ab7aac576fd3b80a9940, 0xe82e343480d2179df6c88278bb8a33a09cc8aad1ae8b64bdf8); (0x84ffc4a35a1cb22e635e1f023834adc5fda7bfd9dd9ab87c4b, 0xd459a2192dfcd84a0e10e1a5826e129358fcdacceef35adfdb); (0x79a3c655c2cef6663a854fe14e04c546e36149f564c4c065c7, 0x178e6d03cfd96ab1947d4a73f72f09474a9b4ae4919505ba51)]
  [(1%nat, ((0x0, 0x1), (0x0, 0x1), (0x0, 0x1), (0x0, 0x1), (0x0, 0xe01efc13de6255d3dd825ceb2dda0fe36733867d5414109a3e)));
   (6%nat, ((0x8061e6dd1956610ea0535fd5d1682a3f18cf2c7ed078571412, 0xbe88e8af08ac19b07f0fb0cb761f83e33b698614bc26854c16), (0x5cc9929626b5b578dd66edc6d6e91b3f2730d64a747ad84db0, 0x66f5c79911683c3f185334a3124620c79dbd0116d93cacf794), (0x1b1824987a0cfb86d88ddc8286a288673d100bc130d221e9cf, 0x9193b4976a698554476bcacf8dca9c40786423fb74d4d95adf), (0x362a76860892b67ef25433d3256be21b0ed15abaf9522c9292, 0xeab035becfd6da3634b32c07354e92e1425f7533414a44f1d3), (0xcb142903114ba0df5791c762a0e173791d44625b2d8987b968, 0xeeefb3160507393d76becf0b1452fab22578b2c463cf3c1b76)));
   (8%nat, ((0x91eaa6a87a387dd29cf5345e028cd2c6215f940ed80681172f, 0x128d39bd5c54d704211ebe638a8e695f79d6a1ed55fb0b3e513), (0xe13039bd774598eb14625486abfc173eb55e001c263d3b16d8, 0x132ac7f8a7c71a3c749333b724ae74dbec175b1b5e4b62de241), (0xf060a1f8f46f9ac17b6fc39660f469cf237adf68cd88e0a74d, 0xd630c1963f725ea17f0db9da327480ca2d85c5b643f593764e), (0x7541ea8deaca34e0f175681557a73a51cd018c1418672a112e, 0x178ce0240de52aa27d5631582a5893d4b1ac08be620dc9a1ff2), (0x8c335015b8da5cf897bc8d16c94df031743c14cd50e07e3f6f, 0xd701f1830cbc27f77bb527943410d47fcc0a8b0b7ff7aafabd)));
   (9%nat, ((0x762763dc71b984da70b7c4234b99f9733894142209093d8a06, 0xf0967df87d1481dde86d56c7f4ed2d7c2a944e70e1b566148f), (0x93f0d3face755e3ce5f195ad9aea9169281dd183c3f21a532e, 0xcc6ae4a3a7513dea2c80101cb93e06f9b011149bb60d4e0a0f), (0x6acd24dc0f773c32a660722b3e6af1ff3e5c71d610969d6497, 0x584a71de00e8733f3c0fa568bcbbc129fd6fd2a59873dc98f8), (0x13ec7b66f1ae00e4bcc71eb49270e47e425d803e505fcf96aa, 0xe414899441c9c35a8815b8aed4158e765e5c18fb5bbcd943ea), (0xf48564afbf355c7ec1a2c455dc85e32173062d8edeb542f4a, 0x51b3f7529d495ac037b0c0051be142b3f088942373d70ce9a2)));
   (11%nat, ((0x110fbc129f33540cc0ba65c1df6378d1ec8c25196c81cbebea, 0xe31b7f84c6e18243f0fc6b71d8cdc0569501414ab5289e136e), (0x83d39aa41df622731aa45a4f78ebb972b42f209d0d18763aaf, 0xea10082895b834e1d88c7b0716fa3174405f73b22ff0783173), (0x8c064f6e7f2f6a46afdbb6e0c2c267d146ddabbf881af0db1e, 0x37bd7f860013490feb40dec0c5cd7a60f97860426dcdf0dbc7), (0x7f0e8859ac282d1b9a5accb587c1e597f5a08ffda9f344015, 0x12c645152250ee4ad5857432bcd9588a8343224a46f3b78d346), (0x1173890c31c52522e3d14692a3df4714e977d45d15f45064eb2, 0x189ce42c090e44e071868f29ed83d2b4dbe566dc387d3dde74)));
   (8%nat, ((0x18c5f8ed0b478682ebb4dbeb0ca807e6cce8259bcfcd02bcc, 0xca538d8181cedd9ddfd7c9fddcd2205c63d54e8216d106265c), (0x68a09c3f2a0a44dcfebd68b7d0f9acb46b41c86a77d0e999ee, 0x13d734610bcb98781db3c5fe5525593ec2a840472de374879fe), (0x10191647f4c9da28aa2e8f0eaa285733971f90bd061387eb4dc, 0x723956541ff2e4298c9bd8394166025467614e770607842ae0), (0x2158cb7db9da44653e08e02020d7bae823f8541e40cb86af7d, 0x88782ee407e06c1354b0d4d473a4ca0b9102cec586d2c9c5fd), (0x32c6f4ecb6d93966db59d9b5c23fa5d46ad2a15b751e876c7b, 0x13b3e87ef836a90c91894d47330beaee2596753b58cec16df5e)));
   (8%nat, ((0xfe0026faf3e23599aa7ca3671757af11a5562bdf3904091e1a, 0x11f4581a467cc05ace2e48b59727427d63cc68e974592fb99e), (0xd2ec7a50e281de3566bdcdf5ee70aa5a2f7e4f891779b8db, 0x3218b9a2096d7c98f4adbd68af744a038b4ffcb0cb3ec32fdf), (0x66a169e097154e482f2835a66b2f7a7d1efadf3a609ba4e2a, 0xe4f7bbf9a362f080a305e439ac59e18f9b559fea2e8433ef6b), (0x85febd5d27968558281fad355ea0054f320dd79913f6263a7e, 0x60eb2f5115a0f2fbfb934a3de22ebe6768463aec9a8cfd2837), (0x240fad041694cee38cb0a873ad31f1f2328b0d291e9c39523f, 0x15b47f8487f34a8b1a5074b78627564111880d121eb82b62ba8)));
   (7%nat, ((0x1343fef8751f2c7939bbac70e26e4133adabf212f0d0ccb9796, 0x138bef5cbd679bc8978c04b5ebdcdd723f43a3e3feb63358d6), (0xf9fd991a9b982841542db551b6399fc5a0ecb42d57c753f2, 0xe2408df5ecf22e827db758f9554e9edea9f1ccc8fab1ca27d6), (0x82d5e833bb6e309ae5c138275a269ab9781ffe763581c2fa02, 0x13fb527454331af23e53612ff08f490321251edbfa0e81e29e6), (0x1053e780e4b68acc6ab50babe55a5ffc44e27da645de04ab736, 0xff132aa00e82ceaf8605288943b3d7a40648e9faac521664da), (0xf08921e4ad1fb22d01474c96c1564e239af918ca08308e9e10, 0x175a9af065a4edaa14a17c7be547c7ef0cddd4cae7dcc8af144)));
   (9%nat, ((0x164dca358669fd529932558e25466ae83caf5504fda681e757d, 0x9a8b59e04d3d6cdb8ae1c106f6f95a518ec68c6c9ff69f620d), (0x3d0b648dd50d27a2ce315bdc55efc77f587dbedf7e720c8298, 0x128b0a28fdde9b3e52c06d5c3fc15424c62ff8c76b767a32341), (0xe0fb2c0307b8d9abf03cb629119b614a570b05802e3dd972ca, 0x1500097d2b3692fb987bfe6660497f87efffab0c5358b6f164b), (0x1208d7310e144b9e5dab5f5873ca96834f93283ee25d52d8361, 0x80ca67f494add7c3dd3737936ea453a8029301d0ea275951da), (0x8a13081642af196c162cc5ba759994a453d6ae563f61bdb83, 0xbf15dafe65bb30a5f61fb109f712e63930b66a68b80e5b69b)));
   (15%nat, ((0x5d530c5fd680e7c3b37d2f7c3f1a1af90513d5d5824a6459, 0xa76675b69ded6080d2d6bb90f8fc1aaedf5086431d677156b2), (0x479f7c8de64afb198debc673bd3924f4ebb044c181a97115b0, 0x158d99cea4df4637c9fb09655b229dff37e6a3b06fcb4d0c174), (0x12ff2fbe1fbed27011bc5932525bd8a4913bed4e928bfb67109, 0xca00409c3c4469c95dddab8942399bdc4084b45e1cdf95d619), (0x684a86d82807ba5944a3fa88bc02da4624f52c72db2b636610, 0xee4923d3655633d416ef9a7871d9d5d785a8a6234d98f07c81), (0xe58b512b1e199967d52887c45c0372b5fe57e624e7bd8f0bf, 0x11a2fdc4b31ebaa7fe511fa9534e5fad15b1a87edabaaf8cb10)));
   (5%nat, ((0xcb85f9975457c04540fa67640f6ea8fca16f10116f33c30ec6, 0x5cc16cb6ca378dfe6e348f3b31ceba66958f421c366cf1aac6), (0x15fd604c82af4ff3ec734e2204d8780b9ceb552c627883404a, 0x16a166269ce163dbc6a1e41420c054682dcf812c5f5493c5e6e), (0x14f182fc52dc51bd90503188519fe74dca3447b7f4b466c1aed, 0x15211a073b991d4da6a66c91e039c7348560402d49bf09f5cb1), (0x1241ce470aa07b954ccd75f238d426f0ba3d2d6eed067d98745, 0xe18fceea6700f354dad932d0df0663d9bda682c915dbec1026), (0x12ea0e754883030657a4262148b8c85815095fe51b1d4d401, 0x1113ce76f3c186d55826a90d8e7c8e70dc64b3bb3e98cbae33d)));
   (9%nat, ((0xbed1bc4d30094a4aa72cad33ae08036c95a78b3a2ad306b8da, 0x39d1186c06b941e78e6209a3cd6bff0e86480822bb2b2a0a63), (0x88b32b164bc0ffc51b91ef8fb7b7586e6ede240164ea71886, 0xe4453a15498f8db4531c6864cca7a61a5ec379d95503af15cf), (0x852e20ba5119fbedd3a545718ad97b56687ece41d88255b01c, 0x97fa404b37a127b459704faa088d6a031c8a874e5d05e94b7d), (0x3b08995afbcfa539df544b40783659ea7285b4470c28771180, 0xd68b2308901004bb5b18b5d94fa69b111c78aee85574824c89), (0xe60231b6b8c0287657e97401750ef7e6534b3aab2e5dc492d, 0x161e3e137fe9cd091f0ddebb344d8ba9fa3b63752317527ba09)));
   (6%nat, ((0x1401805e4a264f81a89fbefd19ab1db6266464e3327c069bae9, 0x34f40f095d88a7855b8dc73044020dd5e9d116563cfbe087ba), (0x72ab597625bb59b5cd85776107db4e6b0027eb987a0aa94d8, 0xc27d3e5c8892bc28868aff87f87d8953f14d7808c437fd13fc), (0x60adc92cb41ff591cf55bbe10592f514f1aa0d7a8c1cf403d3, 0x1042c3d30de5701804c60604533f2a15dc70e699b12844f7963), (0xad01d7850cd28ca61aa0f2ebafdf3ec737347be4f8ab80c65f, 0xa9af770954063204409c79df57c489378e5b4f6eb2361c8e28), (0x92d4b6f039cc38fe91fad085ac5c1da3ea2c06b88743339cd7, 0x10af66ee2c318e5ffea3814acd554793cd56dd109ae5e13e767)));
   (0%nat, ((0xb627b3901c6e70326893eccc1ddf286b8c0cfcba55a75039dd, 0x5cc3a7f0e28e382717bf9da932b2b5f728586599ff7824c7ce), (0x15fe6f27cc28e47133365ef65fa49efa3143c8aa1abe5102b1, 0x23206ba17877907be25f1f1bd2b93f90d2ac15a374f42a8f5), (0x32755ac0a4e889ea2c7b8b2e282250b878be793e905df68, 0x1110676e57afff16851a31d8b2c3be0f7329bf4e0e59ef2ade1), (0xbe85ba58f9cf46c7f1df85515a10e667539e8d250dba1af14b, 0x5c93a41465ae050b85d7af417d4258604959aeb150533c828c), (0x0, 0x5c93a41465ae050b85d7af417d4258604959aeb150533c828c)));
   (12%nat, ((0x15e7b06317dba07232658e3a72f9932710048ce0103016bdde, 0x4a1c6043be6aefec5cecc2b7ba9f19fba23d018aed27e0616e), (0xe09b778a0ade58ed53601ed7e72e426bfbc93113828279033, 0x17cf586f3fbe16ac8b8cd01a6af52d2c9007cf9c20ad103e0f7), (0x172ef30a20b1ead92fa1e0609e1b2de8419a9881a145429f52a, 0x103d690d6af0790280cef9bfbdda614de1b58e7a233cf40a07b), (0xac8ff98d9d557197aa48913f79172f01af4a7499108acc97bc, 0xce703fcfed2104b3b625f05fcc0758ef649ead2830d792e0d5), (0x319e1e60a062fa0b304c8565f90c484fdb66f8483a765bc5d1, 0x10f69b41bb0e188806cb8d04db5e9dfaa6b87a07640c23bbe45)));
   (5%nat, ((0xbc475d153067cba83950a663859948a00d0d1050037ee8861d, 0x7b352e9683a8115d05efa9265f853e1ec2b92126a008bfa736), (0x26cc72c90cc5c7f800a573ff73151ab0a0f73f08f4fad48937, 0xabbfb23c823cfee2bb77dff1b1ada1f5d3b4b190f827ee01b), (0x4b6477761fb9d6c619728097c2b71ffe41202efd68c8bcfc, 0x180d741ad7e2d54f4435e00047853cc1c20d3615f586c67edd5), (0x17a8835759f9a6f876f161c763381454b66709aa70310bc4e49, 0xa68f8eb53134e979778456c558afae2012310d9264e7314a02), (0xdf780b455ecb8f9eab3281bd8f5e3292122ee8449258b1c7, 0x7d7f811f26bc97f9824847b501bef05bd4ad4366f876846f1b)));
   (9%nat, ((0x284126b9c0ea0fa2b87b6d8e3ed0866fad927f53d92110b248, 0xd2236410166bfd998339328663195cf43af88cbff642186321), (0x70dcdbfcc2d7efc93afa7809666a02dcbb751bdad29ab241fd, 0x2899bf0ed58627218187927f597ad0ebc178db6d34b07cdebe), (0x4368f8da7dfb613c3c238863da3c7f264c343e7798ade515e, 0xd12449cec9c908c1d29d53b3af6b34beba48723c6c001b4d62), (0x6fcb7be77a6874887114fbc3d016a17e4a2c7e795f9eb6558d, 0x13c974c9a984e5ba4a0c049c0858af2c6379dd1679a84608991), (0x153697aef2142d2da632d880264c9000715c4025656017c7a4, 0x1ae26d2e2b2eb97977ec45718800c5eee9cee31e7dee5ddfe0)));
   (15%nat, ((0x1d8ea5e5e99d16e23151dc2f258270e21c30d66112448bf5a, 0x1657fee089e815074925aefbb3abe655cac5128b5ab048185a), (0x146a827d0f1c5803da4518a6abd02b1b370fcfd1b59bb428d, 0x50153d8fb1e172a194c2834b6387e6dfb95cb021dd7590dcb1), (0x10643e4d684b23c53c8d082fb49ec867d397cd535deb73a754, 0xd565b0a7c421c253abf236bdec9a80ce6a28d5323573fdd3b5), (0x7463fe2b97dd1191945973627584a5eba8699075053580e269, 0x157c480b36140b7e6d8a38f0672c57eb79449e7bee2384038e2), (0x14b281030421b4980af07f344531740aa18d09e817dfaf5866, 0x10e227d8009729c954595c2e2b790e890df179affb1664b16e8)));
   (0%nat, ((0xba82752c0f224b2a1b251fdfa02018be17fc48b4054d0da5d6, 0x2abe13047d3771576688dfb21ff8c7609796ccf36adb885b16), (0x4ab5cdb04586d8b29dfe8308c8ee1d40e1313d7c300f69567, 0x18060b871fa0b7b74a7978c8712e5ff3caf5be3d86f6462eacb), (0x1799f29d19736e8777d2ffa16db17a4e37174c2911e8aa85247, 0xea5224c832cb64f18681f5913c44383831d412f8c42f4daec0), (0x8c55746f70bf520092705ebed89a26d5eea3855b03d211253d, 0x14ac0f985ad96f0d70eea1833b5380b5f172fef97af9f5967bd), (0x0, 0x14ac0f985ad96f0d70eea1833b5380b5f172fef97af9f5967bd)));
   (10%nat, ((0x1179bb9811d661b073c1bf831a962e7e5d1dcad661033083439, 0x10c9d4c966a738a10017065dccd73b3b385788a43a951877642), (0xb86a8cda2bd2344749aa3899a2ac96a88fde51181dd46b8abd, 0xa551ae69086f2157c7834236764b3d5663f23162b4e0dfe641), (0x45da6ab313f766dfdf6254892cae3ea892b4af66c335e3ef7f, 0x77991c9d089b5ce350dd30dec907808cefb318b9eec9bae780), (0x248efc94cec052f22f0cbc72ad594556456a2527ca0942eb17, 0xb878db39f6396e0b011b5f012e4aaf7a121382472c63be7297), (0x1b343735af9cc4076e587f0cb0419f1e2ff41392292fc82aeb, 0x9744e55cee8f9003f082ab3b98b56813891b1bc2e930b21782)));
   (15%nat, ((0x3a7c099c2590962e634e42a284fc78d5b7be9e026efa9da00a, 0xdd351ca1a60991f16f2456bbf300735d49efbf6635acd6ab0e), (0x7d10f1e671e964960ccd58f2bba35577e0b7cf2bb6c4722b43, 0x786566361d24be2544cf4e832ad511f235cff10011ef616d87), (0x250c4bba7469bb8ef08deedfb3390abc1d59b8cfecec9bff6d, 0xade93ba739b70244eaf22e063c00e4cdbbc969e68c2268c71e), (0x4d4d7f3b4b16abbb4a55c778c2a64a61a0154528abab3b4622, 0x104e057d40234668040f21713c3ca8e737db11274f71275c6a6), (0xfb4e5d1fb2fa35e0c19b57886eadc0413210d8e9668e8ea31, 0xecc826a840abf104b7c6780b575066a811dd5568c76690dd37)));
   (7%nat, ((0x8f4c08fdcb40d7a3f3f9746ea3f25734ff2ef3e6cd9401356e, 0x14d8330fd98bed7f28594a272aa03d6893718436fcde644663f), (0x11c4aba739e83e6cb863cb437fecfa7f9a609fce5d2c1742522, 0x115142945c0ca113ae627efca675f174152bffc15f00208c1a3), (0xc438baa3b5b9795b6530177772bc30c19b9f3ab5c2c37cfa94, 0x118345a674f079d2c8640442f1334b5a554e325a8d4cb8c425d), (0xc8ac7b4052ba98278f0020feac55b213fc68e98913d8911610, 0x8b17bb66d30a780b1dd586a6533c06c2e80b834b3a3c7a73d9), (0x832a19f1186eb3588a38db56dff04d13851a8da600eada24ed, 0x12ad05e5d73b54fae15faa1693002b1c7f2da46e03b0e2bacdf)));
   (6%nat, ((0xe436c10fb8816bcd6be05e893b7947149d94aa254a1ec4c41d, 0x13b6cb0f0805a687a3a5139fc2248371292b93d3aee3ae0d0de), (0xfe4a8ef7cfa2f1dc363bca684eb235afba12f824b28f22cdab, 0x4d65cbf9aa61037d3ba9123ad569721acc71c8fc885eabafaf), (0xf4f8bd91b6a91cc00ec9bedecf446c98420d25a0c0eee1c70, 0x8fbe3538ba67a99ac4fc17f8a025bbde298016433328bece11), (0x34cf48fa31cd9e9f1ca518af37f0693fc04ff5f10be8c27974, 0xf2db97394584d2130ae57105c39b6d0e187c0e8d3325ace095), (0xd225dbb6765413410226a30c0cf5e12a2922b15acec3290295, 0x1572f704617a6e59486cef9ce918e06ea14b1bcca5efb13fc97)));
   (1%nat, ((0x12d058a8b739ab2babb768d7151f995dc1a2f474dd2a427fb79, 0x47cc1584582b14d51bfe694b688320c85daa199f860a9fdd0a), (0xd2cd6504da00b423f4ba7033b63ad69202eaa34b19f7de0cd, 0xf4223a9a2f19af85c9c88bc28270b1995c2a5ecbca9d98dfb1), (0x985569fc9585a96c189fa74532ffb9fecca0d1df2100bc0f8a, 0x203235075ca7d468780f8dec68c9aafb4df88c2621cbd014eb), (0x2a63f0e0a5e8affc479882448c52fddf63d04218a0d0c3eaa, 0x12569c222d31da310c083500b1b36ff6239bf8715fbc7f80b63), (0xa813236e217d9a3fbe10b54520422cc521bd7acf820cdf95b2, 0x72a6c591c2869c1b725714e36c37a66a5e8290434578e6c6ac)));
   (13%nat, ((0x2198cfca4250fecdb23adc8b469affa891364fe99ef51a1bf8, 0x29257d533128a5262a0cf13e45bef3f54879680b1174297b88), (0x453c2116cf4b23cd1b4f69dd18219e395622d0e6c04a2b052, 0x5037b078e4f5225d35b7fc465bf97611261a66d7c2e6755992), (0x10725b7cc8b613d5d78e0174900b4db6761e5b8f8f196cb830, 0xf1d867cd7fb5c37926f756c941156431b7f3fcc85b67826774), (0x957dc2af816b711a713387868b0b46ab57c07351fa62837419, 0x421df934acc278f95d80e116af063c7e2eaa7e81fc49191129), (0x273c4d1264b61472e02b90f715c039d4092eb09121f040b0bc, 0x15f26042c072d357cbd54f672342d9828133e90524cf0f56374)));
   (7%nat, ((0x13b2744f9cc6828ccd2fc224c718abe82c97d19e60c8586e474, 0x1092548e31c8f8a3968b5bc9255ce0ca1d9826ab7645bc25b04), (0xb3af18f1145d6e533b63bf24b15d2373ba9c20005bd4e0c02d, 0x1420bd94e3eb3159ca6302669b8c059e74967cb01c9ad8a82bd), (0x1091479feb32de14da958d0cfa44e43fb89d0f74a49d7ef94b8, 0xa4f5fb496990fbbb29431e9cc35a12d581e5fbb6cab8205041), (0x458d020a795fc4f5a3efc326703df18715e04b1471729d733d, 0x543c8bf4e288b6f710fa7c8973c9c19ec45a5298d0b0a3d63e), (0x4f6f5fa52370387b4edf4cc12491dcfb853043ffd0f120797b, 0x13295c7d46c523fd480678b98cf8eae1eedd22449801961c7f7)));
   (5%nat, ((0xf03d0655c2f748fc17175de6144ca38b8737b81b747a8e92fd, 0xba254540339d7bb014e00f4219c688e4c75de1984c3a3315ce), (0x588fca462cf14eb14bcd8df04c0873da16d29ef2ceaf9f5e43, 0xc0c7cd372389b0586aaf78e58b85d6e1d665194f86510fdd87), (0x5efccca2a9695d8aca975481244a5a73025936199383eebf85, 0x32a13214e6a4a781e54a4946e3b53a24d2b5bbf9ca09fd1336), (0x68d38cd401a1fcc38695821403b48092e4554f6761cff625a, 0xde655bba5e89cbf8ef24869f2ac53af906638b2b4e2d6146be), (0x12a618ced67a8f7e20c4447b55879a9e1c0b4aad98cbc8ab5, 0x11b1aa87a508d15d0575eeef08bf01f1548dec252c7eb17cae1)));
   (4%nat, ((0xccd936d8e51d8df95d04c0ed29a2ac404222480ce243e78b72, 0x12ce3824859d0630cb7f2064f531c97a34e11fa136616322633), (0xe764de6a2d8b2f4d90b46a0577c107432a13ee917418262ed9, 0x143b18e312bc3908f826514abb56d5a9809b8bb4fd59f7ccd82), (0x10bcc799fa2cc7ccdecf25f5de71da453b23b95fa3f384c7dde, 0x762e19385b7d634a3ebab612a0f6bdb64d414e43d674ad1ae2), (0x23b25f2bce3c7bda0018eebdd2db8dd7424f8663b322ea991f, 0x1652c6fe433e7eb341c7f31509c9e07182e7b423d6dfed0b423), (0x5dfdd2639c625601d382796778a827a374a2b0b86d77607a31, 0x805d1fa78a220bf2575906a545ab2cf42476ba436d1a33dfed)));
   (14%nat, ((0x2a1d2727ef29bc5676a0d793cc0654ccb754ad27d99480e9ec, 0xae586f48b7373d6e5f705583cd7cc0b96b879049803139d155), (0x4db07a510bc5b406a59ed2fe28b38223480f3f1500c21e9050, 0x1477d78082eea8d2f9fe4be49db26691f863eb66864526fde89), (0x1121e138635f3c541a1c7a892c893c78df482ae82e3b7ff7711, 0x1273b6b6b037e0c86d4dc887a9172e5a041f181be2d3ef6c8e2), (0xdec68a8f98165b1cd353dd55395affe543440b3b66d4d42ac2, 0xdbd4158f75d58a45ae942f3d382c8f28ef0b55b3321ad1bb46), (0x774f5b2708a9e6c27375315ef5a98d9ecef0516518da1643ac, 0x2bd20193a629f7e41e730fbb2a61b6684c6b397cfae397788e)));
   (14%nat, ((0x4e8693887a159dee707435c3b9a2a0b4b2136356dc201e247, 0xbab318a170739fe81120db7586880f2ff7c0a6e85c5534f08b), (0x5916f14b4e2f84db237483fb2f434831062d7181d1b92f2f61, 0x25445529e5b98299299a340bd7277067eb1fe1977d19e2ef5a), (0x38cb6e511507b3eae0e69857e006d75a2e6709972f9c9ede7, 0x8a0866584a25c451f62c209712ee5cbc0fac2740c618fd090b), (0x30b28347d3c42047d3538d144821b003213c2952680964ac70, 0x7127ad11f68ce49af26cd86666f987a7b4541df4f62726ae9), (0x3d69f464166565adcc518fbf8f23d21d364731fc517027129, 0x10a302af83c275af3731d6fd328d88c854c47116fc7ced2b5fc)));
   (13%nat, ((0xb519880b69f6e68f3df5d6cceab7babf181cf3f565e98e91f2, 0x63b897c43960e848a86bc043587430f52784fdfc65179ee302), (0x196a99b9decfba0ec4385c2950a6649f02caba27723af81cb9, 0x13f2b819836655ea61d8e7bcdb28d191af14aaa7bdd872e893d), (0x1045db4aa565bcf841cf1aa6d4f785e58cfca20ddcdfe69ce66, 0x7d02d56ea52abcbb52e4b766c46ce699adfe994719b946b1ef), (0x27f15407f7d27674fdb8d8b2a9a00fbc29fe925b2c1116aa02, 0x86f2f58fe88f1a0fd37b70dba2bdcb113a2ac727d3967f5023), (0x50150a3ea23018e0e93c878c0ebc6c8837d1d3b45b36ae201d, 0x2f84e4915ebc4083ec89ea0012ac0a24730663e8723eed3b85)));
   (14%nat, ((0x5c576d53640d2bbf19257952103065e6d77138741d46922cf, 0x9db1ae938d47032ea49ce3977b85a79952a2a15f8fc80ab968), (0x3f8ee14bccb7b4f880a8af771431e67ca6b215bec6f02d1965, 0xc83e1305a4b172fee0f3749c1dc37c76dca501a53abb3efa25), (0x667bb47ea3e333939bc4db4c76c2eb416fcc199c3d4818eb8c, 0x12d8b32d5a78b5122dda02ae035a48b391bf16601e8e208aae5), (0xe867116c95b10d230f310f26887d2d3b6c18077107fc351437, 0x17edc7f584bd27f8d80ab022ed94ee65717f61436ac08ca5c90), (0xcfcb6e93bf3e7c45b6d7a69f7ef7d8a048b6b0b14e4faae952, 0x180fa63c03e814e6b29d986b304b83466004a02dcc07050b982)));
   (10%nat, ((0x17acd55e08cec4413d5613b05e70a80b0557368ea914dcf7ae2, 0xa5d9822912f765bc413d6e927098ce610a87fbbc915d1cd9e6), (0x464d627510660553b6e958b376be62774ca7cc0c4ddcaf4d87, 0xba14f6ba8394d7806facbe89b3c2f12d5e1006d632ab0b47ab), (0x588046c3d9dc894ab795acc9c79cb0a856e4833ca80d200810, 0xc5c741e2acbcbc6f2fe5766e72ab8e3834298287bd4f609c49), (0x63f9fab0c49ea7aa45817a5c2be406bd732c5160badfc9f85b, 0x403bfa257996843660eca43d2d9f6c7568aecd7d223ef07eac), (0x978fb43c14135d6df147fe1f51611a2ab95a53436117d7fa5, 0xf6a97ee33016114688430523d8cd13094b9de498efdf28fed1)));
   (0%nat, ((0x9b815ae30710dd8b7c3bbf28537b49bd9c1f1ea40135cc52a5, 0x9785c2d9e446bfed5808073eaf5e8f74bcd04fb65ee1f3bfc6), (0x3aae3c942048da28fb3ea2b3c1840182bb82a0bcf88cfbaa76, 0xbc5574f3614eed51963ecac84219f8e46047f4b2dbe01f8a9a), (0x5aa7f54082d11f6bec01249a9d265debdea025b7acff85d05e, 0x5509f4d02b06112e17a4e7e86ed892dcb780af7523c3569c02), (0x127bae76418877ef6cddc14d46b9c560fdf5a1a7a8f41c18c0, 0x15e3896bef41956c09688a9de8cc0e6b681375980e6c22de8c4), (0x0, 0x15e3896bef41956c09688a9de8cc0e6b681375980e6c22de8c4)));
   (7%nat, ((0x1397da7387b315faf2da31bf99ede9a2e8a8b663030709111f7, 0x15ab250889db129918f2aae8bff64dec693a8bef792ba9b1f87), (0x133367d16b5b2bf4ed4bd4d12abb24c11fc721359972e061a24, 0x1230f739c90ddbd6ce72210f76c59e8596afe2d4876bb623555), (0xd88632e9e0affb119f5b17a1356c0b67a7f81799e0984b85e0, 0xd1a00b03fea58f3e27ae48165bb21d7dc5728344d75f624419), (0x704ff0dcdd0739df2f54c1bc9a794d85848de33379b94fd182, 0xa56d22e4da4c5fcb5aa47fd328a6539e4d94394de598fb24f3), (0x9bff3f594c9a3df5cc009fcca18b41522aff6e7599b4e37bce, 0x183d2b379958c20d4624ca8e30570602c4459477c9352052bf4)));
   (13%nat, ((0x1806be2e6d1f892847e290e18849b6579ce71d5c3aad1954ffd, 0xbb7401af46cdf4f29ee933d7819f874ed587fa46aba260430d), (0x59cf6bb134422801ed95445b442095684ab076a681fbf08d35, 0x149a85152669734f62bebd5cfda396cfa1fe324d8c8ece5ea5e), (0x115c1fea7ca581b99e8d44cd13827fdae9b79b62c2b6c6195e0, 0xeb2676d79584d782dad210b65316d3cbdb0851a7f6154c0064), (0x8d5438802a3c028d7742072dc4a900e157268efde35b9a8844, 0x1768cd372778df9989f76fbfdf8a56648aaac501c4a225e6154), (0xde447b8f388e4cb21d0ae52e1e178f4013d4327429fe557e21, 0x1)))]
  0x166e1930affbe6683c0e944fbfa1b5617081a9528bdd8bb4645 0xcd939a2f71bf8c56018cf20f9703a7e025042c289c5e06b790.
Lemma prime_201_5b7f : prime (Z.of_N 0x1874138abac1b256c74b1aa478096fead7735f731caea9a5b7f).
Proof.
  apply (good_prime _ [c0_201_5b7f]); [vm_cast_no_check (eq_refl true)|].
  intros c H. cbn [In] in H. destruct H as [<- | []].
  - replace (exponent c0_201_5b7f) with (Z.of_N 0x1689b8879f5960c59f0af761d754eedea07d) by (vm_compute; reflexivity). exact prime_141_a07d.
Qed.
Definition c0_256_470d : cert := CERT 0x7e871473d56ac2f938c6758a6915840e0bc6167d42f5c9d2dcede366f3c1e693 [(0x0, 0x7e871473d56ac2f938c6758a6915840e0bc6167d42f5c9d2dcede366f3c1e694); (0x7d127ed133c4f8922a145d89fee65c254055e460eb60b817b54fbfc0a1512d2c, 0x3889bd9fa23ce33350641fafeedf9e57bc19a6c5fca1a4b8b6855188efb3c654); (0x37e340f7d1b6b85eee0de8541ad366e0a92b5193bb7861d8272ea6901ddd3e42, 0x12c02cd7e65f983167fa0e9490a8fd6ac0e9ec8716ae7f88d86306f9f2b7a936); (0x1288f5d2d16886ef3e65ba6726ed1044b8b84b47bc7463892340d760407e37d9, 0x274750718788cfcdc762bc44d47af9be6896c4e6bd05f3e879b6dd648b0f5233); (0x26d3a6ad494910c6fa50e4702cbfb72d9f19acae315aa18e4a7fd57650ea30b2, 0x13861dfb62d8de0428ac9d7d4ffc186988fcffeb0d2780b936463cdc93d88072); (0x134ca015b42b6945619ff390ca39e67826ecdc707fbcd308df7aeebb8f19fef5, 0x7a1e31fa50485eca421ea01f440754e7539e2f9c31b320c5b635267540d9c877); (0x78b6988e57940741f7c6b6f73f44341eb57f39024641f2fdac47414881b87c88, 0x770567e4243e1ba071473aa0b3a68429286542a5bbe8aaa940119862f69c3e4); (0x75a6ecfcb3d49dfcf2d99fef96d0a4aad7adb2d61b12e18b332fcbd91899416, 0x787589493bd18604375554805000543652c514d04e7508633d9f04834f3b78b2); (0x7712d25a42042f52366fddc07ec764ea7f410cf526ac3f840be0fbae512fd7aa, 0x63587112ef1527355a57dc83aaf45c186fa198935e5cbb0a5a492419dec39946); (0x6233e6759e1590009959e93ef1cb3e648e4cfe916f099f82f8d8d835440fdcc1, 0x7d2e82d76a134df4ac1938948b2e858dfbfec16d132ebdefd691fe5c4f4ac3ab); (0x7bbde3da988fe6226e3406ae4a054adb1db9ff50f6f838919aad219f7bfc011f, 0x4449a63f991242f924c3d5a6d86470122955eb16d184d9143933983fabb11949); (0x4380903d3fc23be65abfb218db9d5efe164a6d9a8da39608c6f5b86938fd1b1b, 0x419fa44e0cf43f19e6cda2dc4cdddf64622b02a88613c7978ffe2893369556d5); (0x40de669873964b7186b1445c0d14eb6f0a009e90c37b4ea816afbe3a0b672f3b, 0x57a05ea35853c7a2c6afeb4a8b22ec309ba44b4172d3589119909c5aedc8ce25); (0x569e564cf6322133183fc599ba09692d86e3b76668296e2a869a1f7052e31986, 0x14a7a7a2e476c07afa219562330d3fdf09fedee03e52f6be4cffa89a6226f596); (0x146ad52409f4220615242f78cf044676155e5d6a8f6b90661641b5be7dc24279, 0x2b693aad90e78c9df7e3821b359d93342c7581435039f3584113d6707edecf93)]
  [(1%nat, ((0x0, 0x1), (0x0, 0x1), (0x0, 0x1), (0x0, 0x1), (0x0, 0x7e871473d56ac2f938c6758a6915840e0bc6167d42f5c9d2dcede366f3c1e694)));
   (8%nat, ((0x7d127ed133c4f8922a145d89fee65c254055e460eb60b817b54fbfc0a1512d2c, 0x3889bd9fa23ce33350641fafeedf9e57bc19a6c5fca1a4b8b6855188efb3c654), (0x18f91a24b096c354ec09eb01a2d22b85e3a46f635c48d64349470f6e7ec0a791, 0x274750718788cfcdc762bc44d47af9be6896c4e6bd05f3e879b6dd648b0f5233), (0xc0d9cc09f180884ce9ca5633ab9ee6468c96ad7341cf6078d8e1bdcae04f593, 0x787589493bd18604375554805000543652c514d04e7508633d9f04834f3b78b2), (0x715ccd56dd492443c1478834ebe21ca7da909cff98ea1cfe360c21b812fea359, 0x1f1e29f94ce6e58543cc20a07df3bdcc8849288a66867f85e8b070b14e42613f), (0x1d48da4c2ca45de5c58edf73ba3648f9d77ae89c13a4d6726a6493ff53c20a7b, 0xada6457f20d9026d923f1b604c96263f65587fed54d87bc2a0f5e110270808f)));
   (7%nat, ((0xeb944bd80c435b1ba932cdea9439e0865b996f4dbb09db09113aa0ccbf8c41, 0x380e446646081242997f21a236910a90066572a8ed91b052bc0592fd68522994), (0x188c7d7098335dde9b7582f42465e7f9b84210d801f9a3d3177d00c7e441add1, 0x1c67d965ee734b9ac9d83db43b570f653286521f94aaa64a00ef3f0eabf8f2f3), (0x64dc35de99a204c5becc0ab87e5063750ed2835ff2af308006e010f4117ce47, 0x9adbfe7452de8303a4d3e2db995f0199645cc456b6ddf22d2f71f34ae4a280e), (0xbb5ad66297490f429600665c02ccd2c98e6ef3cc6f59b246b7ba1980bfad30, 0x3201a23cffc2f84d93f7a2b7518103a00480fa1d9ff96429cb0480daf3284554), (0x2e7fa17b7dc80c230db05fb5e79e4e8d0f798fc06d9acffcf1c320c4c2325d1, 0x506fab57dd65f68ad1f86ddbdef275b7afc2f3bfe4191ec2dba026ee73cdd833)));
   (4%nat, ((0x328bf799e68070e203832a7ade41f3461cd1c387e7886ccf853d3ca31a2a76c7, 0x6819a15b79a5c8a143bb77c7b7601701a309cb9455e9566cd857f5f3bfffe10e), (0x54a9ab5678d14a2ce51a51989a2a4cce9b1025ef1327c2e2b8dd5d5ffe789141, 0x7a680b0f63ed452eca205d52da8081304d698fc43433c8f1e2d5de0e2a983577), (0x750ea9a7507354781ed927093e1b374a1bbcccaec8d9382d7c58ec30cf7ad2ac, 0x2706630a4855fe697bffc7d1c6954b60be030adf83a738c5c33a321f5cd41695), (0xbe5e4abd9ad17d09d4f62062300bb725dfd7787620147ae5c3427bc54622c6d, 0x2290cfe867bafae42b7803f1577eb204ce871b501c03a75d1625fb9dfc3e7630), (0xa9b61654ce6fb6ae602d08e9d4bfe81cc7e95343ee008b0e591924ae094cb3a, 0x6eb6489359cab67d207a41c4fe824286dd13be4f19ab93978e02a443b7df839e)));
   (1%nat, ((0x5fc25053ce8230c28d8b8f74c0b5279275f4c8ecb1e4142c701f8a636fe73cd4, 0x14c0395da8be8e2588cded2a710d316b68dea8ae50068ad81a040840b0ce32c0), (0x35d3299776b76e7f55011181983b9d3e5b4bf4fd459a35e71d684c930327365, 0x3d45078e33a5da2e0256d74620df1e55fe68e0eabfe8cc822ff620d91e2db0df), (0x1d53f06daefbee63e48569e83b896c98489c160ad652ec1ed7f2c8d87c943200, 0x4478243a8676bf37f9bac3463627394f73d1ffd37fe1eea9b22e01a21534d841), (0x24a0174226db503736b88362fc044b7dd39399af662055cd3b77443d6cbbd2b7, 0x67038ef7787dae21e4ecb0e98eba6559ee6c9fb1d5ed230901624d7cac04c36), (0x65d436f22ae7c0e513f59086b326f578161e2749bb25df44203c10a0042df66, 0x7c89d52c5236afe836832ac8fb5ab4bf4eb8f0fd90e01d0c43c19fe1ae31f10a)));
   (3%nat, ((0x792ba171952f82d9328ac17de550c2e5d76e771c18b94b299937673185077d68, 0x480d06a159eb7433f819068108d7a6fbc42fa837c3fd7a8b2d15c4402fd69e1c), (0x288ea8c8de471260980add1a510ceccdbff682222d0b08252e069477bc58a76a, 0x571f29ecab216a127a792a6d08f4355af0451a6524148175ee1d80ec7ac5acae), (0x3b4c649414ffa399d76653186ba01bf787299cb608a972c8e683072cca1ff874, 0x3cfa85d8319950d8888cb6715fd1aec172f6f3e2d70f1d798c4a96465e1a7c60), (0x1d0cc7ce0ef62ee8e28440cd7c007dbb4fda95c18ad8537d95a9e72aa5f5eece, 0xa3ca411f410bb7fe2a5f70f63eecec051709c5df6fca3bffe229fe0e29ee18a), (0x17fe59ebdeed182ee8058122b29642710e8be598f228bbf249d94c821c4074a, 0x47acb63218d3d0b3b3c3dbed03c561fe4583da0b5957b61b334d32ec19f1c85a)));
   (8%nat, ((0x2822832a3d843efe022b46ba2fbe0fc9d2c7d610341bde9dad6aa45cc2159970, 0xebca699d406464051b7f54a960a87ec1c6bde0d97b45b897ce7a147a5e9e4f4), (0x1b25a7be317e89af33bd8c52732679e1c916917a569c18e8c82dd3587ca79cc, 0x5b0c0f41bc68adee4a91839a11b8400fe47fb857f8efd809bd579f7bd33fc534), (0x40c326d45609b4da671d366d1f538e7cd473e407381cdabf7aabd8b05d984e8d, 0x1bf35eee0da229c5df3856959f670a14b587030dcc732bb271fb4e72b622fa67), (0x61a7ac724038c16f751040eb3dcdf176189bac73e6af832525f35b466749fc4, 0x4e8d15272bcce9c2136d14c35be47c70009ed6c59e0dc0e985368dda1d59dc7d), (0x49ec650a00adbe06cb53aeb13101fcb1865e11f60cacb141fc26af9f945c904f, 0x64b0df5a0785fe87c7648c38302730546320666f10d42b92bc067756d058a9e7)));
   (10%nat, ((0x4f3551646911ffb994b1ad67e9d769bd2bbb3d6b150da10a5d240089c3cc035f, 0x48444a577c96d68b6b2786d9574ce60ad0827d009948de1e748916c503e4499e), (0x28ccf811944b757b0b101c8d84c460f470a18de07da49a7ae8f404c5fbd8f904, 0x4a95f27660fe180ff99945e7698a4c3998a8a56eed434e1a4fe61e3e1c92bc50), (0x2b7610012707a79e66c233698e080899e04dfb9f2bd2de19beff9fb335c65b21, 0x3934b65c12cea6c914e3c23ab94ba953128b591bea986e21ea434958084fd153), (0x1991081f2f5d6c29501ad30a12ea396d114714e143d1ea1b7f4c58df5a5eed2d, 0x1df9d4bff8097d2544613f62d35b853e3dc5bcbf83d9cdc92355e75902d01aa0), (0x1d50de301bc42381c5a2ed047a81335bddca256b585e87850fd23f3ca7639884, 0x313b0e0487b74d63c58f2a717f5805ec4763ba7bef6fb3005f599f3b9fba4e2c)));
   (11%nat, ((0x12ef51fa659e7214df8413ab9d297efb5293c58ca48d7b95f3081c5fcb148925, 0x2c7f44e0e5d8d143093df8ce23e7f26d068963e0a44cbb6fad1202b88ea99daf), (0xf77fde5715da979c94fd281186e8b4773fe06619eef51f46fa02d767938ebc0, 0x640438879f8969ca0c263959c7687172f085c5063d5c67a96bd5f7d5a827e4e1), (0x4e2698778ab7e92dd8e06329b21ee2d152f44d6a71985d61663069a7a6cf2a65, 0x2d57dee838592efce30911a74b4ff25a8b605e8bd12b14fd7ce545d689763a0), (0x1010050dcf7a7707667cd03cc60e41a05c385d2250f008dfd57b6de0ea74de, 0x20bd7c091321efd1dc17e7f90c216a62572edac170d76da8b19af7334acda2ba), (0x1177807b909cec13687106beba0c2f05462c08f87243373781e6c6df39ad0c74, 0x59aed2bc1593980e02a9b262e5c7f4782784b7cbbd80334e8576a7aee93fc326)));
   (10%nat, ((0x3ed60bd3d84e23e491eaf367b5ea603c6bd1ddc8fcaae953861d32bf9e4c8cb0, 0x702e17c2145e43a0a1645326d252ae97af8ce9458ae372b0579b1bded69ef4b4), (0x6250ba2cbb8c7fb1572c0516a40d361972550df89ace39bb151e7cf7576afd8a, 0x627f93b31becceff91973d62f289430cc3985bfcc89723464f8cbf8e5ef5788e), (0x4bcbd952049c65a625f210c0564fb35b9e8426fbfabaf4c11ab6f889316b64c0, 0x3a6a63800c9204df1da183d75c50d7f5ec546444ffb8e6b10ec37ca7c36c1104), (0x1aa8c29924d1b9cd49325a8b960c5312aa3073d6bec53fbc631eaee894dc49fd, 0x6f59cd6e6235a903b5c1ed128f0336b9f2e26389ac2d97793c6a83b75c439b37), (0x6ce628b6395606c298cffe463030ae45a3687dbdb361cb98f2d147672a4b8c7b, 0x1b5841dcfabc08afff4938f1a178b1ae479354b952215d08bc7fff7a156e537e)));
   (12%nat, ((0x5d778a3eb84025cfc0a1b2128b0f6f1c97a7ff572c98e8570a74fd4db8fb173, 0x254b01981f0153d6ab2fc1d31481dcbb0d3ac6c907684f60986f6fac31d90a2d), (0xadd88dfd0362f4c0a815527fcda5a16032d8c4aa0592f348cf2ca82e9b226f2, 0x29a5d32d8c94d921ab18759d6105c9ab8960c49c5a3a13b8b89d0e1c0fae739f), (0xd8d121cfbe606898b52ba3a3150c1776089345c6c696c5fbc0eb8d7ba82dca0, 0x6a342549317c4a1c24cd5918f39e82cc9b717c1fd6514291792015078466a8a1), (0x581e72ff904a8a3133907137b71d9d8bb345dfdc0f85075b0519e7d94fc2035d, 0x6716e3c8242b8a59db6418d9b659c776d74bcab378a72ee8c9f50cd3072dbe88), (0x34da326ec53522746a3390cad9664a9327533d708e08fcff74dc59dc2896b0f4, 0x4a7bd817a9a39f9e4e428e8b5b571a769a69d1c3e3c83fa4ff9698496a5a8ec4)));
   (1%nat, ((0x2b57a9ae166f17ede111e4672b54f07c6e8433f395dc81279c99b45af1d85972, 0x76c953a23159097c278716719479a7d230805acd1e190d8d4c1b247debf8dd46), (0x6e3c6edbeb044aa32780a45d65210a91a6d8ec79d917702d642c9d5783d4ee1e, 0x28a85bddff1bc827c73f6ee3feb416345bfd9f9f05e58a91b80faa451661859e), (0xcea16dc281e2dc6adeb1c01f60967a89c4e282dbe659ef37de467e4ed409424, 0x16a152d7e68ebbb5dff0bc29cb18f442878cfeebfab5a098b54e883024880bb0), (0x4003fccd3ff1b27c1cb49efa059967384896c21fcfcebcb05bc42d3d1fcdd0d, 0x757561c43de8c6aa521720db7457536061bbef7715baaa6e0952b4c3e109c457), (0x741b80ceec7e3bdd4ec627bc9e75f8e20f1a431343bd260e464d4340bb2814ca, 0x63f325250bf6a55a6756d0b5f0eea39b385b4ae2447d5ef0803ef8951533980a)));
   (11%nat, ((0x4e0beb5461f269e72e68c42bc5353b7946673209568cf3695bbd31bf81aea2b7, 0x7b081fcd81c5458531acf064cf64f2867d8b764157027b2bff40e43229eddc19), (0x76419da2f6fe2f12693e967b4972671c899bfd805d4b6bb8a307577cefe7860e, 0x61e604758a32c2726158b8279f6844282e5180734b42be4ae9091cd78bbf49bb), (0x4ae03c1a2c0559b28cc074891058801775fab7052e0c4afaa465badcaad5d488, 0x1bb62563d0a0ae88953a3e51a1cab8e18fe8a4bf7824da3de500d3eeeb10abb1), (0x5ffdaf87ac91504e4dce26952f379e59adb1c22570a45009cd4f39ac523e2f3, 0x37bc2799c660a0db1878d3b2808fe57db007e08ceab01afa322631b567db050a), (0x1dbc06bbfbb43e79f7515f0bdf49180a3644c4c0bdfe384d238a888aa1fe21aa, 0x2edeaa62d01acf6ca1c6097ea95e70ef6488e316663b9f9708cb16db659c8e38)));
   (2%nat, ((0x11298dceef23e724c774d1905b956b57c8a75d6ecf2a96b44afdaf07b6e98531, 0x53e9b37c0afc86dd71f8e0c20b1b1dc33cfe75426b5a69f6b523fae12c88d1c3), (0x3702bf754984e531c16bc0a4ff8295271682f08b434f3fc111207ee0b659019a, 0x44e10cf18b4261a6cc51aad4428f8fe20ec0f9a90903e1f7721451a038e72fb7), (0x2510a97026732f0bf746618a0ec5579fa465a2c0e1a26ec19526781ffde94999, 0x7affd59a9b61e33cd25e43ae20e4063c9dc3ae4221b0c893f3cb5c189d2f890c), (0x7631ae8530aafb11bfca7448cda512b74600cf34418cf72c3a9e72a8748b0b18, 0x6621bd511cc419a4e67858e85e034b6451a28392291fcffb3630fa49edeaa058), (0x2d1caa3d4e4ccd0b0e8a9885e921498f524d5ad58c8afeda24c627e6df1505c5, 0x4def179bc97a8883cdaa99f450bc3f2c26e95d135ee1829e5ebfe64704acbedf)));
   (5%nat, ((0x2f7367019c868bd79a9a917b04c5192fa217ca5312558b5bccf9e05d5a666aae, 0x687cd2c2a5ed7cb289b865385292b813f91e0a7890ab0590f4c42dce0c38196b), (0x554b503601cb3f36c9da48f2b01250b979fd72f6f50685b6ab9c12ccaf1b9f47, 0x78aa4662d443cfb5a0dc9dde4200a2f020aeeace892992d3ef779f4ae6174b1e), (0x71c0267c6b375e0cdb166c0a18aaffa13a78a99752394dc5ac3350600a66586f, 0x3b75c24595c1a9064d2d813ef8ee98185b309ed7fb04c651c52aaf49f58250e1), (0x1b9efb6e741f61a1fb066196bb529517fa198c7baaf728ad0e06752f2b8b27c7, 0x7ecf7d62ba63da8cdd6bd388803d2dbcf65222ceef90dcf09b8e411fbdcd2fa6), (0x1357ab87fa3be6e4fd3644e1fb476d7a0ac5a33ec2cd13e291245d699ebe0cc9, 0xed06f5ce5fae2f9b64fef6119a37bcf4eab24dfefe03b8db07fcf188fead2b7)));
   (6%nat, ((0x1b6ebc6a11db353a2f6ff35a1857a2d3a5317f4d68eca84ddb793aa0d18ccc6, 0x2dbe53c8303f71317d3bd99b5604db53b7d3cd438a977c1b187298166e416ec3), (0x1058ede9b312af97f6377c17259ddffbca31e0b0a35efd77fc73eab7a93d4edc, 0x162ddd8fcee196d72603145c37c7d898fe99f7a02d88f36acd447dae288a235d), (0x3d7d498b7be3a6c8fa36c3f15b110b8f78f94b50489e39fd6bed5604e74d2c9, 0x4531022aa1cd59a4523b3d5f4dc3561d749d7709219748d43658e20cd69d1c94), (0x2566e9199f1ea91f308ea8e04d9524d057d3e9c1a00a08ab9a9e84f71e6e2e91, 0x53742fca0429f9708270c1655ac1cf34029b57ad79708d68773dfc419692133), (0x4f9e6d5d6ce174c43bf68614de79daf1145bbedb699c74ad69d0c6b35a3f3f3, 0x471eb2af843ad3ee584d9b0b471e66b471a77e952a7e41a9f11fd25d6667e5e)));
   (12%nat, ((0x278415977268571f789351d7809ffddf751dc6ff0687820b7aff01178c2fe5, 0x6179af38489f60fe5741c2d2707499495df7cce6b8099d4824360b9bd310b8e3), (0x4a3ae13f8456dba85efd0c50d6197737ec63d755709024349eeb2287796f3a2d, 0x425b3e56ced93524a2d6ebb094b802626d7793b6649ee46c9aa50a41825aa00), (0x22665954471a6ee705a4a7446ffd4620c747f834972e98ea9ba70ef0861b32, 0x2bb49039e1336e523beb46f9cc04eb23ea5221fc19a97dd2f7e50643c51fc076), (0xeec4f9d289a43a55dc8c5f99422ce2a33a49ffb61b1a8247f6746eb6339c1cd, 0x5b760639c003698f2bad523c66068b08a3c3975916d5a8583f19e635c97d83fb), (0x2ee4012c0c659fb516790707dca03454cf5772007126aac946964029b61cc457, 0xdc7c098af2612c814542a48243252bd278dd139ab531dc71637a78d8a77086c)));
   (7%nat, ((0x17bcad9001f19c62caf4d25278b514232ab25f91d65b533356a087d1a60bd58, 0x4e7783fc544e385307bcca36ff596dd6e9602425c2d9aeebb0d49c1c2549e818), (0x301a187378048412329f0df9a2dea77e5a8fb0e4c1bd9e4cbcf9f6c2be63d070, 0x26020a4bb1c93d9dbf3816599a0efce349f9706ba21ef7abebc5783fff8adc90), (0xb49362544c10b6a56dbec8ea56aae515b04836f621f187578a327e2489b95b4, 0x793732eaaf5bbe243125c331174dd5e0dc24dc4e41b83397b9355ebb39f84adc), (0x72ca741189792d9d983e39e22d1bd4822d8e273bd79cf2cd63e5d96475d7bb71, 0xdb73d9e98b28a3b0e1ef7e48fe2ea18c12ece6f775fbd113354792c31061153), (0xcc0ef93c00585e842a5245cc93e276735d54132b98f3b9e550806deaf6cf97, 0x3de33acf9612150a84564a684c4050a1ae8bb24625249556accffffcf1ce3b41)));
   (4%nat, ((0x1dec27708e56f4d91cef9acc21b7da5bcf86ecd790e5e84807da5a0fc87758a6, 0x2b7f1b0cffde1cb29f180e287fab7d721527212ae527566d489d0929db9f7c13), (0xec7e4646f6c754ca291159e8c8b20c211bdc880df58c7f061a0ecab776e5d6c, 0x47a9b8b26ba2873600fe9cd569f9b99fee7843efa41ec805cfd7dd04d37cb6ed), (0x281f29f0b10e7553eefaefcec556d72bddbc6c0d8322c7bd637e5626e09eb44c, 0xd71595f49c303ce40aadc55990fdfef07a4f83ed1f81dd2b2e2369631219b8d), (0x1696a8765a0a29b7692f3f8dc8c74b675c56ea5ac285018d198eab6ed0c0c41, 0x7381ced6c2083eafdddef3d815c28905d690d0536b6c34a7e1a4e4e861e655c), (0x2371e79dbe6b5420b0c097597fbe011120dab3a15898a95fb06b4ec0d265d43, 0x469c1dec2e8657c6ed338eaa35c64f996e313f2c868689e32b1e0b4bd06257ed)));
   (11%nat, ((0x26f37f234993105808657ed2f3a6808c8e6f524d53806338a80198d0fbf1be10, 0x32d162c5687d9d61331bef6e0d03fd902a4424fc0899d50a00d3d5d6ead9da99), (0x142cebaf1282d59e324a9ac00c9114a152435d3bfb5600f39396ef620ccf0bc0, 0x40205706c124a0ef95fd649fc7b63c823e4d8f3a03cc7421221ed293368516b1), (0x20205f327fb06229176da97a6d91f37d928a044933baa940ab5914bea7add16f, 0x4ed3cb7dd6ee3205421537aaa447c13b657fd99d0dc3943819fc547fd5d07abe), (0x308b7e73845487b60aa84c2f88dfd74f38889ae1d6c1679607e7111b0df01f39, 0x84521894b7c4096bf67b7742e9613cfeb6305fa076612013a24e00b3eea401f), (0x4697bfbd3cf6ec7c842d044c4ce947ecc7d96af8f21a1c6fe0fdb918b47f8c7, 0x3a48c4944232f8fa275c17ef43a33e58b8da5bd3a6ea47d74cf322069ac7cbc)));
   (1%nat, ((0x1a8a1b84b0af61701fb23d5f310d1a9ee79c547cc8342d2420c94f6157bccb, 0x33d8062fb9ec7becd754768c0168f0eee40345b7bc7f812e8c74559d6b76c6c1), (0x14ff9182e9887c1cbe468cc7c68da351f087ed8b9bae974dddc6a2558b93870d, 0x656dce54037e54a056902a5c5dc9e0f4d73df9c1533215647291c0e8e7efa6d8), (0x505fa7cf492ff3185ffa8219e68fa237bd9e62c0927520220218187ea858acb9, 0x7f85d92d43bb17d535b305a117e35f1837ffd512e6da35c46815d5eb394fc1db), (0x7f0c26ec94f38dc0bdd5719afac352e33d3c76499af8c65662f41d3c8804e2bf, 0xc8aedfc3bb35627a6273918834d7448090c4b7825e4ed1b118d0398539074a6), (0xc65fecc59b660135ab4cabc0ff06db5d48237a36a732e6cd9af74a71e1a74e1, 0xba11f29f6b25565ce697ca7cdd240e2aa44f6e47f107f9aaba326d61bd73d8b)));
   (10%nat, ((0x10e7c2ba38da08c9aa7d8b2cefc1ee8b77537da09f44288d3c083c300b98702, 0x461a78660d421b77a70825d90904f4c12b3757f03a5ab420bf354d8d366e205f), (0x2664f928f9355b1f1d88744ee5332aee3c49e058cb5bcc0386af50d0e56955d5, 0x5e812789658c9bb2c3aee320ff8e49e85e97464fa287181619ff6d1753937470), (0x45c634638a4d8175c42a042f2be25e4dafb590baf821f352ac24cd4d7658ce18, 0x23a68aa25d2f8582325a2ebe321e2fe37a9b1aeff9a55c03520656a3c83291c8), (0x9edec80f63e9728193db940f1d40935015bc1306a0ec33cb5cc533596c8a2b1, 0x67966b89349cb0d58a9a8ec706e6e02ee73e4da54e71bf9ce3f9839c7767d243), (0x654e88f5bc68175dad8648fe7d8835a30a7261d8428dc2c0701f62a369ddfa4a, 0x4765515951a73ca52ad51cc635664f7f4815623c2aa871f1c7dad9d3850e3fff)));
   (10%nat, ((0x27d2b671ab3dacde5993e763fabdcea87f17e7a612af06e5551d98d219eb2782, 0x60d359ffafb66aa5f9d4bfe98ab5bf04ab2892d66e74214ba963219512837067), (0x493e63fa7dd07c794a485597c48f47e6a829a10f4c13302cbc96557cabf21f53, 0x25fcea5503a655901b53c80073c77de279441b2e761b2adf4e9f0bd7d941ad3a), (0xb462b3581d99637391334fb4b7f5369488798e4f23dce6490214f76bda1b151, 0x55b5fa20b20024f56444823485d878105a3d34719a03ec691400574d22baf907), (0x3964b2eab9a75928f723ffd646b6b5bc5b4aa2ec45376390586a57e742a787c5, 0x6dc7932ebf62dd945d621a632b28a1c7c31ecb71b8ebe93150e9321fb8101630), (0x6b5cc9abfd61db2edba102c5274e7557b2cd45db2a5261d9f8527608152e672b, 0x60f4f317661863646c3077963c69c6e600f7e91dad509460c0bdaecdeb8e37e1)));
   (4%nat, ((0x49714163b004adfd2cb91215ce21dbe7110867bf06b62190984fd09d5e64ea81, 0x49bd2548ae4e2f0329ff73d7b9151a50b4b8a3ccc5409537895628446a7c434), (0x2a7ad6070c501a8ca9bedded0dd3b3395a0e920775430a99be2788dcc8c910, 0x7222d1a440eec2c4566328cee5630d459a9851fe3020bc2d3568774bef7204c0), (0x65c60ee54a4700976afb46b92ebf4019ffcc46480255d46352ac83a1ad1a5106, 0x3ce1ba5bd7e442437577f7d7977d118490947ce54b1fead15c9c6809b459c8b2), (0x1cf52cc8549c29edf88e1d13f013ff98f4e3979e6ca50e6d5e2860de798c1fda, 0x294ff8287863a133b3307770d087e7fbf10f20aaee1b0e17ef1980db42b587b2), (0xcad61ee9a92011dcfb2dc176d6ccd1a598b78516b17b4384759164e8609c99f, 0x783bf7d82b009590b24113ee40eb1246b79c25cac5813ecb1b57851ea101b663)));
   (7%nat, ((0x70f08ccdabce7000a143f627c4729d950adb0839ace89128242043494910f19b, 0x1dbbdaa312171a5f8d3b0b738113df59c34beb12e7de8f7d366ae459e329a86a), (0x6e832c42e1f98d3226a91b8fcdb3642868810676cd2b04e8c88c5cd58d91688, 0x2b87f28fc63cc7479929525aae57b1e28c2f1e04ca3defd0374b58c924116efc), (0xecde75c0c1f452c6a46fafea75dc827663e5e18927b2688a0c147ce0054948e, 0x385aab2b050876912c8d090b7ca60156a65febcf78fe640a4d724e9ceac09ada), (0x18cf95ff3dcb7b8dc1d044a41f9a3481f965c8cfd56e43a262215b4ab3a5b76c, 0x2886591c8c61831a99ecc9bc5b6d3a974e495437d4f1d6bb3eda6b89c7a5bd28), (0x25ae9cfc5c1d4a64b33d133321258cc990764f60ee40493458511d1bed7a887, 0x6975d4b2b68f16b244db46f0444e42e876dc1996a9f247a8a4b07834417defc5)));
   (8%nat, ((0x56e3bd6d6ba97510b462cda56a4e1ef96f804526c29c6b2c1d07286bc949c303, 0x90e5c2c3efa5df6bd3357eb70fda41b8f00ad2f2d82fe571e18ef7f7aa7b172), (0xa40692a4e8a5ce92c459f2912a7b2485d43cacdb84078e4ead95c9ad92921b, 0x57e7459288d0ca2ceb4f7a6e6b335098cc62aba4538e0f07f34879d7a794ee65), (0x3c5e047074b247b0928403a842ee832d28dee4fb3eb443e68c8cd53c9f1b710b, 0x5401da946b9a52878894c80c87bff2c97d8cc59a437649c58447d74535aa294a), (0x37226ee9acce755a05d2a7939786f3ff6f48d3d5ca9d6e9e01ca966dfcb895d1, 0x1d13534aee16b487becbb7a8dc6374dee39b7449cc06afa6ecc139afc2f736c7), (0x1b5cd0efb3751df4179595b6ed3bd4f1d67ef80145fea4d39b4fbc5817cbdb63, 0x49218017a074e086b4f4105afd2db7f5b239bd2ee9418133d6b6a8eebe4c557)));
   (0%nat, ((0x29c83edf7f6351a3a00e66daa280b6d09a852a663331bf28858d84379857cd, 0x7be6389af902e6519472c8e6e8c2a5253e4ba06bdaac36098e8dee5592e7b328), (0x77ee12dd5c88ca941b68f4f59fb0a2e2cdd49b373d113f3f9359d8fb30dd08dc, 0xcec56081fe33fa9ef24e9c462272088a3cb509e2f217b9c1ab89d3693767f14), (0x14e047efdc31d48015eb8d4938aa3fe4499af2a65ad91d86c99dfdf1425b274, 0x2d347d3cbf68d35d4845238c96ddaf7d1198d7e7fa677ae168a4c7680789dac), (0xff6fd94f279fc769feeda69bed7f2a958da88a9650de572d566b3e4606fbc, 0x4a6c52e0c51cee881723032c59f60f1b9f75d27cb0e6b868ac6454f68bad9b04), (0x0, 0x4a6c52e0c51cee881723032c59f60f1b9f75d27cb0e6b868ac6454f68bad9b04)));
   (9%nat, ((0x2b459b7ff4df9be006d3d57b78bccb00b7508016fe5fd1eaf9971427dd892e4c, 0x4c0a6cebfdabfa70dc87d4795323a79e14758016ab7dae1fe7562b53925b6a34), (0x2d2c62319ecbcb6ec8588d2f7653ae3886c01b500aa56c7d032863e8468c8947, 0x171a966d57affc36cf08f44d7443bef2e45910333397d3ef538302c0762670f5), (0x42b939518b7810e339782d4c55b5fce327d5d7ae95ebaab185c25b6053f8851, 0xf79cc88ebf4b261862fc6055c097a1b6b00a3cfa0d655e6735b9ad93fde75c), (0x1deffd6110077032f5d22783588a40c7ef7648f3114c6da2cf35d74bfb318, 0x4e887a38d5ed7605de0c1384b3236529629d8245f7a20badc9cbfa86b9cf68d8), (0x3cf3d1bc164fe80be34e0c49943e631f616276b0f52c09a63572c9effd3f194a, 0x51a9f64f5ff9cd2334b25dcd1b287dc92c8fa099f05dfcc86aa8b2a69b8df44e)));
   (6%nat, ((0x3419fd6ab90ae1632c7823bb94a7b75b6506b8c991ef2357f4fe4581e8ebcb30, 0x12b7f22ce5bfab41b8a30cc8afec172f345202d970ed9023d40765560b4d2654), (0x2bcc474e330acb47b90fcf19dad3c2fabf1d965e7364da1bdafb6e84b69c6f8, 0x147f8690b02adb79d9099d9aa0e39e9f9ee7243f9a6fbf0e01f3e4537a9f28f8), (0x348591acba28e08a8088ad21de1086a8d6d6490f02d52eecf8f178d4a784a38, 0x371763f24a66fc05d66cb61a1ddf6093ad530e9f14e9e059a2ef2a2068952368), (0x17b61e2a710dd35064dfdf953142189ca9cd0a7104d14b1cdc7fd12e401713f8, 0x24130e217e1f495d2d50e4a70d30bba57f690c0de33779637d9eeca6d427cea8), (0x226aac0513501b3830f8880903917fbb21c9f0ab530777ce403b2737406bf30b, 0x43ff018032cf41de3c4f06c625d022618a122755e5c018f42aafeb87d219eb89)));
   (15%nat, ((0x241ef19a2fffebf00851766d130b362824a94a5a7c05701464f097aa02e31a00, 0x302cc247a60b044ca131034b27262d4d1fe8b5f79ec7cb32a4c16f97c9b87d51), (0x1221a15c74abc238de3935e384cacf2ed9d88d9e4a26b9bb79333e3d3fb64cf8, 0x78f205d983cee8093ac0cc5bff0720072314fc58ee1b9a4b53cc34d4b3158309), (0x72479495f5e2c95c4c75f17ae64efb5abc2983f1925ad9744fb1aef7cfee5d67, 0x5a79a323134cd2ed5d6277e891cc1d4c43336f514536d3ff52675fbb223ee716), (0x3ff38100915fe4a0ce37e729e92548bca2f96da133ced7117e3f5748b9ba4233, 0x3a31ed5b2cd16188ec1932181b88d8a8cf12c650693f2796f722c29b7d88344d), (0x13bc9d5edec2a91ecf5513b3b42382d58287c739ebe8158a07a842e26f55c3ad, 0x2ff4cad559855abf3ac732a521bb5454dbf5fab9a615e2054cf91d7f2c2d606e)));
   (14%nat, ((0x11f7991b3c8e01377d13f3b7749d1ce7d2f1b148bc7903ff5a2ae489334c7641, 0x3d52adfdf6206b99599855e16abc38c83bcb613bb0077d06bdff0f34bd93a6f7), (0x1d61033de87cb5487a28833a70666aaebcd13b2c8afc94891ff63179558d9833, 0x2bb1a377fe2879810a4f0f614d9430710fa15fac84f0717095c7f16a444162ba), (0xeea505b8762255e5d2ce230f44d38eb9806dc0f7d9a92051de5a551d95267c2, 0x596c99cb4e7f41460e83812589870de399894fb51687499c5c80e9fe6ad6dc4a), (0x3e796202f906b816f639787b9671a27e4b77330c9634d4efe07ad136fc4e8f9e, 0x3a2f94be3f3521c189662f5e7811e970d0fdcd5840fc124b8b268c58b74f285e), (0x963a585ea39f826df66b4dd86dc3532564b64cc9e2883b2def75d1871e694ee, 0x604ede42ecbc50a1038f82f7111627b7e434d9deba1c334d472d8760cfbe0afe)));
   (10%nat, ((0x48767dfcc69b469ed94cc41e79ebd8209a21f7558a4bd5c087106aaa7f262892, 0x5e2ce05e200a883714955797d67a54a8903ebcdbc04e02c697a7bb931c06469a), (0x4549f946090f34aa80579d3d8d2e3cb36487d040c61f242c2ef2210fec22480b, 0x692f5fb481720c70ca5bd53cf18a1499c9676339ff59d6c3be7105093598df15), (0x566fca8cb47d1adc0cf5f59389d533dab884db6172333248b1dfb0e153c47255, 0x3c48cd3c08ba9d06a3054052dd1de67b80a694b3bf8c68824d76d695fd253668), (0x1c6469d074cb2d44ced12e4da3c73b38554b0a49442b96b8a1474beca871fa33, 0x7d6ae60a6b46eeec9acd165778d480262c62f52d9edd9d0f5a75ace6508b30a9), (0x7aa7f7447ba23e05f92d566193ac6339cb41cdb3f8936a5d00d579b2e4cd07e0, 0x497bb880f45790e8474975a0edd304f309f5c2316ce96eb5f78fbe98b6ebb583)));
   (13%nat, ((0x2a2f9608b87cb9f9b1e47d38953cef0638c8629c609c125be5a5b0041f2cf411, 0x378af9caf81a926d87d4782aed2819fbf94a3b1f229f70bc72b46f4139ee652c), (0x181a058ef256be42335ec47fecd8da86ca4fd47e8d4ccbebdf2d4cbc3e150d50, 0x5d47c51621aa4fa27b7af0f72e151a80a69a213dfe2909722337129a5ff8e280), (0x43fa72a1fceef81c4c35da26e1f83a393ada1fc65315fd681f6318c27bd1bc0c, 0x1a5b6741e03c1c671cff23f82cc85ecb73b08839908928c0086a45bb99bc5f64), (0x56d6337e80f67ca49fa2c6b948aa060064978caa0372f46ff7e66c75ec3cdb2, 0x45880504d58bcc08e9087d378704c3b5bdfa89359137482f77d23c1a18838f06), (0x2f9990d82e10ea802b37d8c7d871ef7b93f8b3486ee29867bdff2c3d4cae3140, 0x616b8188e3491133880f06a37a7a68b69b6afbe5b741a753ed914ca872093f9e)));
   (7%nat, ((0x4a254a9e8c6d38beb1e3fda6afee2b30fb69746e2b6b9359f5fd7c09abdf4dfa, 0x7ea6211e07af3a0f8f17d7c48280d5038ffd5c4f91380ee95b99bbc7e4e1d9d2), (0x7d4fe8d10d966bcf2e9b6df07596954bfa7749d008557fc7ed5796468400e43a, 0x65fcf82ee3b79f8694698fb2f693651164e1e4d44530c0edbf0e9431a8d00352), (0x51432b9d19342e594f616f7c3887f1b4d80ee5afbff3c68c99603883060fe5a8, 0x2bd88d98d057de030343cfad15be5e2c5c779d7c78f79b0059289d5daac2c4bc), (0xf04ed812c5d932909484c9971231f44d8e91c2f66ac563e4f0e134ec0d62157, 0x49bc953ee09a36b67f233180302c5276b9b68ba3c836e3459c9507a0e8697a5), (0x44906ff7762766dc26237ef752c83306fd8fa9a94837b9e1f619d8d2af09ff, 0xd504b408f5ad9cc2df9982360a4a077d915c9d5554e9d315bbdb5ba62e28301)));
   (7%nat, ((0x16281a75a0f6e5c2b327c13c42dbf845f167f7691a43e8bc09178435228e877, 0x23ed2eef734aa52739d748e5d1e2fda704620f0cf08a3590be6599ef5e2636f6), (0xa156d2ad2f99d8ba2312970a48fad6f2edb81435dccf530c321f1259fc6a9d2, 0x3a59c96215bcbd758e856a6a1e3742891878a546a4b42a7fb9e76d3cc31ad6ba), (0x1a999d7c2cef9d98105b6e0d99f8563513690c72c0b4dc2cf427669180b8075a, 0x66c6603806849382e6e14d2949248907172bb9b9c3327e7fbd019a02e38f2992), (0x52855ccb400b978d8e8bc001aace7558e1143357a5fe653f18d0d0e3f6aa2bd5, 0x7d949149d36f4333863a74484bba9b2404d464140e091223a23213b0740eca73), (0x74c56ccdb08e9e648fc8ae0b7049c59db9d636e4b5d798000eab38cf86bb7f0, 0x2e4ae6ab81212ddc46d4626a71d0649c84b5815bcf82bcea7a196c1e79e1003c)));
   (3%nat, ((0x10be019f9ace652e1d559c7082cdd7740bf8346a03897512abb47fcf8e0e8d59, 0x3b3902bcfb61dcec5c915301f06e4c4d3883aee37ab4303f7bbf2188cd12318b), (0x1b66a7eaa81d19b213eadc697b70263f572ddfdc3996bdef22e2a32e058e1025, 0x5217f67f10ab4ec73e5255f9e342fdb6b10d23cbfe1c3045e4e7c1c3e606c98), (0x34a6b84f3db660b5245dc7a1b341c221fdc324653d60f5d9bdaf1979fc678f, 0x6167dfa6d6c7114489fe0564a97edcbdcacaed7c022b7d83ae52ca600cb3aefd), (0x4a1fc34454cf8c5fc85586e9256897a45efe0925cc8c4131184bb5a28b22cc45, 0xc556fb269a957139ffb3c30b2070f64eb82e7a2e185a8eb5074ff25a04e6388), (0x1ce882ece93fb08c3f27b59077462b9856af0af12bf1f908f173aa7bb3c4a8d, 0x3096c9db71d20254c3b55c3adffce18d13c8db7a236a892f13c4265554dfe287)));
   (5%nat, ((0x1271c906ee04efa4789b0b9ce7f462f5551b6ad6e31cc7186be1cd4bbee1a80a, 0x17f36616f50d7450e65fb0b63e7d084f461fa1c82c2f0403277dd9d513b254af), (0x47b478630a7df8e391b847be0f9548d598f33af405a5be1d5d074fb53cfe46f, 0x7fb77bf124be6789914b5a32439eea340d782d12f45d855084da9a52f542ecfe), (0x7f6f20f762721ecf6033752eace2a67f97d7cabdc29ea6d3587b883de02639c9, 0x4f15b745540d8823a699c20f52c4479b70122e3316a4929e4db59ba6f7409dcf), (0x30dcd1e8bce8aa603466f0eade8debdde74dce0c19e68c4d214230135309ac24, 0x240bdb4316bd8a52b51782723d07b518bfbde483fe77cb252b281ae886f7d38d), (0x57f8766fa5f4011b936114792a695e01e938c283cedf9fbbd582572f3703071, 0x1cb74e26925c278fe3e7f680cc3ba18fc768a5c00ac8f18044993692c8cbe80d)));
   (15%nat, ((0x67138b28609decff16e7ee862c47efd1ed0cd51fb2cce81848637de03e8364c, 0x4a5053e08cc65ed798996a242e71416b6f6f884855474e81396be59949ffbacd), (0x2b251364b26c161e6a0ed1e0e09d32277c44e42880d6653ab5af7834db8964da, 0x42e4a968efb17fa94956739dcaee44eeb03eabf67684ee0cd6de6d9d774ff317), (0x22f567309d3c62f5551ab2d5ce91ac76ef034322dc4672838cdb714427a45539, 0x4e121c38c840ed63bc2e862c4f577fa53d00129c82617899ade193170d36892c), (0x2f9e14f52a4064612b5c00fb88a2f20bf084009ec33d730070f63b5c3e2c2f0d, 0x3164edd03b35cd2c122e756f7b54f266ae76b514a060c88e3ca13c78ed6c20e7), (0x10c08353becb51464de92d8d4e52f408ed7f4dfcf9b7c23464dd6db6e7ab1c88, 0x799bc234cbf35ec46f82cb4b7e3e3e9e92868a2e2e560b5fb4b3fead570182bd)));
   (7%nat, ((0x738938b5501e309598898a0f51b963d3ab8782dad6e7f5fee8420b101f0be948, 0x79bb6c1a046e2afc31d86899e9d4cfba9925a09e4e1dbe0665f1303974c8aee1), (0x73c56acf67b127ee1c911627c33e6fc141999ac9360125ba21ef71bd1d572deb, 0x75a50da4a7b2352e55c2a859e34c6c495ba9836febcfad825c9b5180581e1fd2), (0x6c2091c6308666889766a0a68f0643f8c31dcf759118be8ad4df8e7decb39389, 0x24e95149b7659ff7a4a5a90d4be0c61ceef1ca572941e3cafe5d7a00ec3e0b4f), (0xaa4e7039b284e8683556323bb84f5ef2755aaceb73cbb48fa06fca436f13646, 0x6f10c93fa9d385e2ec4b8d207cb5ebbcb10d4ecfcda652c5ca1416889248b6d3), (0x67464be683a9997f0d61ebdddda9c23568ea9b3325111516300263525ef3464, 0x5a66d82cf3abb9a4d3f29d09bde3f675d8ef193efef6223bb7d76a984c0f27d8)));
   (3%nat, ((0x3fd8f2a12b659cec9139cf6569becee09b77416560e26047d0445098902214a2, 0x2b13f482982c509f3f695ab86f3b80c9c10a7b358283672a3e60526df8f58c06), (0xe7f6b6428155cb9b02dd047283a142e4b4a46f0e24c4048c5d39ba8664ca74e, 0x14e6229d9f49e8a0105f6b16537736d1d8e1e74360f73e21c169be5eeab16f2e), (0x3698895b1980906cf762255534c830f1a62d6639389beb7ac008ea5d290624d, 0x64630f6ded190b808372b2fdae3695d213beb47396fbe4b5e3940b61f9b3935b), (0x4ebb14c5a25e06affcb7064667ebc2a9b7b480b76fe919cbe48487c7baeb63be, 0x299e16624cae5cef7b67a61ab2f10f9b6110e68a1be8f2fe13b93bb611afdfb3), (0x618b6dbf05e131edb0c241df0f7ca355a53a1015fce4ace697ece154e634c2e, 0x252c5bd18fda1e5549573ff42839cde6202465fb9358bdd4d133a09f5d19ba6c)));
   (1%nat, ((0xacbb474891a4f20b21fff36988a0c97f7069e09242b60a7a660c5e1d50249ae, 0x36052719919428bf99d83f19f38efea43e6a941cf3bd16b9bea2a87d1b561dba), (0x16cc5932acc5fbc6a50d7e8b130eb69267a62d29b102ea85486e06c3c5f12c96, 0x59960be290d68cb9fc2d1806dd0df758b76cfc81901f597370a3457b2290cd86), (0x3eb3586aed885479704acb75badc1da53442d65ff5059df24a8b9014265c026d, 0x3f259b9acc558de06c897a1e6826842656fab24464bf5e8f58aa43cb7d2e879b), (0x1f27103913cbfb33183febfd0bf1f23429f8d9037ce16081e39524d24d8ae16d, 0x4f152eae889b0773b6c87a5e3a730e1ff2d4bb6740346f65025135638abd2a50), (0x4e2c4eedeabb1aade54f39943d321648a348f935eabaf91e53a01ab111d0e0cd, 0x65567724bc5f7fffdd0289750cdc9a6fd9981a4f544c029a899bc7515a310d7)));
   (12%nat, ((0x503aae6e818a2f2065898a728f9b9f7a302a0323586a6cff7cbef2df588fc8, 0x6f97e1fe1907b4b6c86b4b8ce232831afde8c2aa40ac70e4598e34221cddcf69), (0x614a202d75edb405d5a7c541618f5adb5e13c976a58d4fdddefc2713290058b6, 0x102bf4fe8a8f0a52cfee663031f48be1bd3bcc74d1466f6c70a1f9d0dcd7fdd3), (0x20b0c581295451f78a90d3a76d3cc163bc3c09e0f5ea73a412bec3fe259486f, 0x4bb4d94fac0bedace076a363e48bb1dab41c5b7abdd9cc888e322856ec424546), (0x2cc6ee2dfea23102c519ef791b7f63bcca65049e9e4aa82367cbb0d1e61e8e04, 0x406eefe9aec47a245bf884b72d9e5a2c93c06fcfa62548918c52f95019f27cf0), (0x2108b2581c89d2234dddc27cd9e9a08874268d2b2fc6be02c08a4e9a5a87d72f, 0x40d5e756a6d0039b8d8299af78e02e17e4d62b91a4d4ae2805b5c3ad9ce39d4d)));
   (10%nat, ((0x20d74ccc354e2ca75d24b787afc30302d534d30353f2f0fa45ac225057a5dafb, 0x666f7abc7b195fb2e96fe7387c7f0029f716e7761aa455cb1b2933ff9f7ecd6a), (0x51fa0cb3b8c650b98db02a1597f004729b46a6fb4685ee87c2ea7c1a03c07548, 0x42e0adae5f43bee790c38f44b324bfbdefd061c2b3c1eb0878cefa362fb6033c), (0x22f13d7ca03591095ee404512e2b0b76ead2d684fc674162b951787c4bf0dc5d, 0x6009899b64387e7ecacf126cc57806bb7ceda3940a6e5506219b49b50f987a57), (0x480e4f1f041e34ddf01d448d794863f769af9b8e4cf7d8504982ab3f5f7ad580, 0x5575eb216c1e5a8e21e1f4e76d15e69a1d0ac8d73637bbdaa690ab6889d3b211), (0x5394355ab949ed8ea6c018878568c6b22fe1c6af60ac80115adb8d240ccc5345, 0x7786a8b168323d05a3bd36b438b31f6ded294cbc9e22a28c2bec39b03ecb86da)));
   (14%nat, ((0x6f9cef53ef823a0ca033ee2c1d3ae9c468373d32dd541f0938990340d06932d0, 0x4fb78382b1f991d7c1d56cc27323ea9b89bfb35dcc754c9d4409fa962ac5ad14), (0x31a58d6fe482ff60a91dad785bf120ecd3bbd822bd5b74ffc8480bccede6f7de, 0xbe7432b46ec7381bbd92b6873147645dc72f6c153fd37b0110d44ef5aece14a), (0x11b616003a3fe2c8ba116406c373e27e12722d17c1ddb702a65de91e085fa9e, 0xe43ebf904a899737b9c0674114c656852c6c54420f1d07ff899a5a603d9d5e), (0x196ffa934bc03a11b83ff98b6dad2ea9088fb50f9ff48ad3d6243a3a2a23e, 0x181e571137196c5e9ebddcd6c381798180573c40846d4e98b563629d5d00ff5e), (0x3e454c6901cef1ab07bdaa14a31e6d4860fc507cede418f3734b430f821eff9, 0x2c31bb4cf1c4bc834a8bd61dff71c3f44a1bc385e3d5d512e634675a1712586f)));
   (10%nat, ((0xf4244175f335ce650dcb43e76b0c3ffe5b3b9e2ca8aedcd98b033dececce4a8, 0x69f3e9e04f63a0f3c18f29afc8a5da3ed5d71a295b51978f41d42fcb064e4b99), (0x57b3fc7fad410c73caf9d601fbd32282f9b4bbce8e8a108af427607f4726bdfb, 0x428afc46910c9b2dcd313d0c6f9b2c635dde8a31e5d3c807339d958d0457beb2), (0x2297eb12aef3c53ec389dbfc5dbf6e4d923ab21333b30942749f0a60a9588942, 0xe1aef3eb9a76d7b87fa8d3539fb84f306a8d01f5e9efbd6dae6e5a46e3e6d6a), (0x18dea00a9446801a4403f9d8566101f8c0b80fd6d2b69fe180a5931072c0446, 0x6707ab5883790cc07726c04083c862abcb0ac35173e01281907e46383d81ce56), (0x64c2ed67327d0df09a09cb99a1b451123ad7474fb75e9fb8e23bb41bc93e7627, 0x46b270fff38c8f49d0ac4134e67d113a139830644583b726a5537349f8c08477)));
   (9%nat, ((0x270c245a9e0105ab6fbd28166dd7d206411ca21f325635783c5ae76cdcb4da29, 0x6f97808af1983047251b820a7f777caae29af93970fbb6e3b6007c5493557c3c), (0x61497642c3ec70d064ed70ceb0269a18405be5a48e20b6892f4825a3c8162306, 0x3a1bfb6692ffe9e3349b34d8846df5d926acf8b6755121f39456edcedd5dbcc2), (0x1a6161f2f2428aa32d7c7b00ee9f4f68f218d4f063a84f8c36f4adc093143e5e, 0x7e58a2037ee4f6e96bbd94c319c24ad4071760baf3b644cfb28cf5903ae8463e), (0x7cb6bc5673b21a3b0e982ce29c62b0de4dc3edc44752a0c8c8ddb8476b962962, 0xc61150d43a6e81972e9276fd2a67d6d3e812c010f76c3d3c243d09b0ab1af0a), (0x99ba3f644cd96e11296b2cb48a02904d3281b21dab1aeb2301400d0680f2866, 0xc64677569458346ec137a8cc5cd01f54df544dba0a3ac221742af5c88097f8e)));
   (10%nat, ((0x1332227fed0e6591402d821384be4f372b5cca6d282cc6c9afdde6bfaee4260, 0x6ebb49aa4da93b333c2ac3eae608ced1089119809bb95493e36e50b0dc2833e4), (0x5fcaf8a61d7aeb6489477960d9d74025c7750605d38a413a2c980ccdd5156cd3, 0x31bb51ee729a4e057ec3b86652b6371162dfe5ece926ed81e3a28e4a8b789759), (0x13527cdc28e683d60c48eae9f618c5e941527ad675e50e41a0046387051d07c1, 0x2d3406b71abcbcb7eb7f7c3b1142d3d1728b5dd9f0753eb56c1cc2b93a0d3124), (0xff6a9de33ec9e7ad1f799ddf67aa2bf6c05f39911bb476e9b81961cab74d0b7, 0xb387786ec2a03c2a758b31ccda700f1df3e237f77433ba8d7f1313b62ea72c5), (0xaf9387cf2a82773afffb8ed4364dfcab182597a1da7109226e66ac320cbf4cf, 0x5a849f38393df2550f9a5f74b700980690a8628347b012dc744f24876ba4e114)));
   (5%nat, ((0x400309503a82f3738339eba0b40dfb7591976e3cc5e263e93294bf4ccdb7af34, 0x1ecd242e860c1981a2469e62e505d9529b686e826053405627b9c2daf34d7ec), (0x76971bbbe1547062ab97b7245213c0cf1e95f20b8d2d66905ae9a23121781, 0x2aa7e2fb1f7feb1995ac15a4caa44c8ffada062c13455c59a5011b653f914903), (0xe370928a672d7fb889c51d1e563b77cee6ef16cdf06b1dd236681a01b1ce4a9, 0x50aab42a9d44e2fd30a9cb8abde0ccfc9ab844e5a1b74faee92e2c2c29d13a74), (0x32d644dcd35fc3392235b25f6cb16ad39912757c514f978743daf5d90867f019, 0x25223a7e9161b0982f5e24688c20dc524b50e209ef92211796d4077d19ada44b), (0x5a9fd36b5213290dd22933cd566a47647e912764a7ae197e7e7f1e5d428fa95, 0x3266a85d6bfc75ad7c6102a3a7327b62e3c351590c9426ecaca184bca36b9cd5)));
   (11%nat, ((0x13d885de2eb6d5f1108671f1469356755899b6b88d310f926071dc89a4226e4b, 0x7524d73e63717442e35ed03ec2269b84b71c302f4e1dd3bfb9aada92cb2ce26a), (0x6b3564188ad70cd57304730dcd11d7a434ed00590a64a233a5f40ef0ad165b51, 0x5f241b53836a739969f0bcddff1741fb1132b10f628c491e01099d0494ac39c7), (0x46b7a2bf5be161669d4bd0909abf3615980aa2796ca6dcd72a756f0f4d9ae49a, 0x296d5a410c94558610f7d391aa00b206afb653a051ef65175efa2156a2fbe6df), (0xd686b3da27c0e2aeb5b8992849001f653087014d71efebc51ba6ee35e657d74, 0x44887217601d2e05041fca996c4666bca696c368338e91e6388acbfb52e8eb5d), (0x248feb707d77a8a9cb36041190da0bf80097724e8325ca5f45c998a85c5deca7, 0x780d7545678158536eee970784f5861fe6058862af12947ab6142b702c1dd0a)));
   (7%nat, ((0x70993d4c5f9c92bcc190513f17ce7369b71f74425fe0bff279993c5fd2fb3f, 0x72b33b9f0494f6005b758b0d417cecefeabf660f29e75671a40bdea6b0c60931), (0x66c83d2c1caf849760eea65ed94394ce058a5b7fdb11894c3fd6e276814b1974, 0x7e27ff3cd9d0136b23fe006db8e794b0e673a815b05502c7b4152674859d047d), (0x7c56caff52daf1cd773beb9073ea88c5951a40de663db588dbb3faab41117365, 0x75f981a0e5ffd9c6f0b9a9b3909e3c5d9efd3d9a20d73a02d437ed30163145e8), (0x6cbc0754fdbdab6349f0e1c789bb52c4d7cba98d89eabdc0b5b997a1840d83e7, 0x4c79041a3562fbe2451610239c94cb28e368af141b2e4a30558105d4e9d71e85), (0x471bbc9c352ba5f5af97b3161144d29da0880732f9642dc4adebefba573f19a, 0x47693cdbb27e2f326172d5887a6e20938cd1edc8a995f14bd9c6c8fce84c82a2)));
   (15%nat, ((0x27d71609af6443cd5fb370b3f47bf9f7eb6dba1a1d6c36a5f4c71e2e79872aab, 0x1edcf7e2a64456bdac282f4785d1c03641318ff596471ac61ee87526c4a756d5), (0x77111a83919de96ccc257f76bcc6ddd3e634e6912c41041008a5599fd73bea1, 0x7f239b598626859d51bef855377bd8dda162493de3f64704937e7d24f1fd780c), (0x7e48b22d57b4ddb7a6032d525bbde38490728a994ffe3761a07de1a945d1dbdb, 0x65691540b3ac00a6d6fe56b404aab5b5deab4b43f1c6d5b53a1a2d27ce725971), (0x50582bcefd3992e1756d78712b30d3e11ce56e8a379941f62ff48c5a669b0f1c, 0x672bb0aff65e01b0701c8b6621863920d137a183fd8e41e507c67e014c273b75), (0x22fd7e7dbf04001a2b9505a8ddd42a99d2e264588a68c2b9570b2fd3bc243066, 0x1)))]
  0x9535897a7875a70c992807e90e7af87d1bd1e1a5c29f9d3a9d2311542750470 0x937e29a2f21b0dc4806c597616a2519de6ceeb1f817dcc9dc3e0c6b9e0ce9cb.
Lemma prime_256_470d : prime (Z.of_N 0x800000000000000000000000000000006759213af182e987d3e17714907d470d).
Proof.
  apply (good_prime _ [c0_256_470d]); [vm_cast_no_check (eq_refl true)|].
  intros c H. cbn [In] in H. destruct H as [<- | []].
  - replace (exponent c0_256_470d) with (Z.of_N 0x1874138abac1b256c74b1aa478096fead7735f731caea9a5b7f) by (vm_compute; reflexivity). exact prime_201_5b7f.
Qed.
Definition order191 : N := 0x40000000000000000000000069a779cac1dabc6788f7474f.
Lemma order191_prime : prime (Z.of_N order191).
Proof. exact prime_191_474f. Qed.
Definition order233 : N := 0x1000000000000000000000000000013e974e72f8a6922031d2603cfe0d7.
Lemma order233_prime : prime (Z.of_N order233).
Proof. exact prime_233_e0d7. Qed.
Definition order257 : N := 0x800000000000000000000000000000006759213af182e987d3e17714907d470d.
Lemma order257_prime : prime (Z.of_N order257).
Proof. exact prime_256_470d. Qed.
