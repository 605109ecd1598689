(** The orders of the curves of degree 307, 367 are prime.  The certificates are generated. *)
From Coq Require Import List ZArith Znumtheory.
From Verif Require Import Proof_Prime.
Import ListNotations.
Open Scope N_scope.

Lemma prime_17_4cd1 : prime (Z.of_N 85201). Proof. apply small_prime. vm_compute. reflexivity. Qed.
Definition c0_29_bb07 : cert := CERT 0x1471ac38 [(0x0, 0x1471ac39); (0xff4c3b8, 0x54de2a9); (0x423cc97, 0xe61e80); (0xb39a53, 0x17b3f13b); (0x127fe4ac, 0x19ba756f); (0x1414956f, 0xd728eae); (0xa7ed6c9, 0x1256fa3f); (0xe505330, 0xa28b5b7); (0x7edcbbd, 0x26dc894); (0x1e549c2, 0xa415ea6); (0x8010ad7, 0xf524215); (0xbf53c18, 0x15c9a605); (0x11013adc, 0x8830319)]
  [(1%nat, ((0x0, 0x1), (0x0, 0x1), (0x0, 0x1), (0x0, 0x1), (0x0, 0x1471ac39)));
   (4%nat, ((0xff4c3b8, 0x54de2a9), (0x112f77a, 0x17b3f13b), (0x1572d08e, 0xa28b5b7), (0x3f0a4bc, 0x124673ad), (0x10897ade, 0x518ffcd)));
   (12%nat, ((0xfdf71e, 0x14d75e57), (0x10950ca1, 0x17c80e2a), (0x1597466d, 0x9f712e9), (0x3ca8288, 0xd18ae59), (0xae4abc7, 0x6980e4c)));
   (13%nat, ((0x1a8f09d, 0x179e2345), (0x154b6c98, 0xd8cf071), (0x702840a, 0x5fd279b), (0x15e87d1, 0xcb23622), (0x420261f, 0xcc6ff79)));
   (1%nat, ((0x63b9095, 0x95b7c1e), (0x357bce4, 0x177c5d48), (0x150eb10c, 0x5b6c8ec), (0x13f1757, 0x18d4692f), (0x1361095a, 0x1)))]
  0x4681c5 0x370771.
Lemma prime_29_bb07 : prime (Z.of_N 0x1a31bb07).
Proof.
  apply (good_prime _ [c0_29_bb07]); [vm_cast_no_check (eq_refl true)|].
  intros c H. cbn [In] in H. destruct H as [<- | []].
  - replace (exponent c0_29_bb07) with (Z.of_N 0x14cd1) by (vm_compute; reflexivity). exact prime_17_4cd1.
Qed.
Lemma prime_18_4c37 : prime (Z.of_N 150583). Proof. apply small_prime. vm_compute. reflexivity. Qed.
Definition c0_32_7f5f : cert := CERT 0x4d836fdd [(0x0, 0x4d836fde); (0x2e39643c, 0x173c4e40); (0xddb3313, 0xdaa3a73); (0x8262032, 0x75aacc2c); (0x462b5ce0, 0x525d8b08); (0x311e1b3a, 0x73f3286a); (0x45253065, 0x17caf171); (0xe304276, 0x55ed2b34); (0x333dbe43, 0x25052b3b); (0x16139812, 0x210eb57c); (0x13b6a21a, 0x413717e2); (0x26e3ea4a, 0x236b0c86)]
  [(2%nat, ((0x0, 0x1), (0x0, 0x1), (0x0, 0x1), (0x0, 0x1), (0x0, 0x173c4e40)));
   (4%nat, ((0x42750ac, 0x75aacc2c), (0x6a84cd24, 0x55ed2b34), (0x38cd7e5a, 0x4b63f92a), (0x2bba1776, 0x429a7c1a), (0x3c4b07aa, 0x1262de62)));
   (12%nat, ((0x299cb28, 0x3122e1ac), (0x12931927, 0x62521d17), (0x4a5f12a3, 0x15b27094), (0x39f29a8, 0x39df0838), (0xfc4dce5, 0x595e5955)));
   (3%nat, ((0x3d71dba5, 0xa99d8fe), (0xdd5545, 0x7072bc69), (0x61477e93, 0x79ba7d84), (0x71ffa8eb, 0x3d44e7db), (0x670f145, 0x79a801c6)));
   (7%nat, ((0x71dd0cff, 0x5863d183), (0x3c1b3e33, 0x45d0c71c), (0x257fbde7, 0x5e427957), (0x445ac13f, 0x130e6430), (0x37cf831, 0x1)))]
  0x1c963e25 0x110c2510.
Lemma prime_32_7f5f : prime (Z.of_N 0x81fb7f5f).
Proof.
  apply (good_prime _ [c0_32_7f5f]); [vm_cast_no_check (eq_refl true)|].
  intros c H. cbn [In] in H. destruct H as [<- | []].
  - replace (exponent c0_32_7f5f) with (Z.of_N 0x24c37) by (vm_compute; reflexivity). exact prime_18_4c37.
Qed.
Definition c0_107_a115 : cert := CERT 0x193403ab96a6f8cab2cd1f324 [(0x0, 0x193403ab96a6f8cab2cd1f325); (0x9d90b23a8042d0f235ea0e, 0x1ec87a111caa2a49323b3b64233); (0xc073280b5bdeed7856831273, 0x16603f31bffeb32883c688c23f0); (0x8be3d8f1950d65bf01b0c02c, 0x1ce149a775c4c0f847b980a9214); (0xb48d591aa40f20c99500f264, 0x2214085a0e10ff43ee260752b0); (0xd50ce5ccef81ee8c6ec6724, 0x80e2b41242c95988cc2e81e97c); (0x325c44034bed44672540afe0, 0x105ffba233c2838fcedd879258c); (0x665f6f34fe54122d02186cab, 0x1b94c8b3c7149125b59851fdc35); (0xac6e9a079fa3b023398458dd, 0x152b8a5aab879255ffc30b1db88); (0x8459e086e0727b6e4edc6321, 0xddbd80f1ecfc605d175b04eff3); (0x56a46839fba8eeb23d2ac846, 0x160e37ae11770f650789d52e361)]
  [(1%nat, ((0x0, 0x1), (0x0, 0x1), (0x0, 0x1), (0x0, 0x1), (0x0, 0x193403ab96a6f8cab2cd1f325)));
   (10%nat, ((0x9d90b23a8042d0f235ea0e, 0x1ec87a111caa2a49323b3b64233), (0xeb0ecd4708e8e1344869ff5701, 0x1ce149a775c4c0f847b980a9214), (0xcee48072ac8e7b1fe781c578af, 0x1b94c8b3c7149125b59851fdc35), (0xbcb39b7cc0c512a27997dfc463, 0x2a267bf1c3791591ec6bd59c3da), (0x90e6fa71a727513d06de3539bb, 0x3862a50f143debdd189bcef1697)));
   (3%nat, ((0x314a5494c5df92cc9ff9789ec8d, 0x964e99e6c981662bf693c53880), (0x15e4217bbc5c86595fc1c1740a, 0xe6f667a5acc94e86a20753712e), (0x33b037e2d265b36ca07138cdea, 0x24d534172b40aa43dea3d289612), (0x15086dff8edd313b913055bdb7a, 0x3e843bbed04e7b892da969c5e42), (0x15aff5a6894b8a904060cfa3e16, 0x29c5d208262743217f42f8c7612)));
   (1%nat, ((0x1b0d91b2d0135f3742bda9a02d6, 0x26a0d5c27639557cf5c32c5c7b6), (0x172228537857796052ce83fe14d, 0xbb29298e2fea97fb1755638d13), (0x21f13118d2537dd7be57fb0b3c, 0x12821b42801cc16dd1c40ff477d), (0x54f901edbadd6d5b400eb242dd, 0x320388516b6d827ce88e7da19e8), (0x138ad1c492dfa4ed0b2e69683, 0x105faf34311adcea1b92d283ac9)));
   (11%nat, ((0x4280fd0ead6316503fc358e1e2, 0x15f211fce4028df2dedc7da0847), (0x777746c32936a45f239fbdf757, 0x2a8f3c99f44206aa0de5e2b828e), (0x1c14e8e9c6b9c2b070dd7c31158, 0x1a1c1d7986ed97dff638d8fc28c), (0xa91afd86b9c3d2084d2abef1be, 0x1b7691bfc0ed7c625838fea29fa), (0x96404b7fbb90ff3b1ec7855814, 0x27910f06a232b53dab9be19c816)));
   (11%nat, ((0x1845611cf26838e1955d3b33060, 0x32fdc3fc1ba255e9487f04f0a04), (0x284f9028b81ef227576e738b0d3, 0xfcc86390583f14f7e298d71bc1), (0x3dea8f0ae67f869ba7a5c0cc6d, 0xe6d086ef231b6269b2bd78f590), (0x339f451dcc056498537c272051, 0x11b34f736661bf51aebdbb6595b), (0x60d6d4cc39ed036b69d47646e7, 0x208afc921cc0ea4cbb67d6c7488)));
   (0%nat, ((0x106b396bd5dc8d1c828c634a21d, 0x2c6136869a9196689be678ffedf), (0x1e88fb5368bc50320abd96c022b, 0x1699b3e7abf14d1bffafaae0dba), (0x7eb3992386c2c575958eb76f90, 0x4cf8bf522fdb359ed2977eb454), (0x5bda4437f409ab3df8adb9f75, 0x80fbe5e53dde30a40e22a391f7), (0x0, 0x80fbe5e53dde30a40e22a391f7)));
   (7%nat, ((0x101edfa40767a237f7a9dcd506, 0x1965dd9195a612bf4f66d197cd3), (0xa0026c53c80810ee21dafeaa4a, 0x100f121c0262fb223ce114a93d7), (0x3ff871649872dd0750328388f0, 0x3b12b28e9f9e26f9ff13ea372e1), (0x3619f358b561c102ed21d94780b, 0x9000d3fdce4a0280e6c82c65da), (0x248ed3aed1e9da0eb06d80581b, 0x1)))]
  0x3ebc316a85899ac5cd0f2ffe24 0x1883518e8ef36d72700a4293.
Definition c1_107_a115 : cert := CERT 0x4cff20a69990e309fabf4f959d [(0x0, 0x4cff20a69990e309fabf4f959e); (0x5be97f0d6edf0e2a9da9b9c78, 0x2a447d067753ea658c2b739ffac); (0x327498301bf0c72cb29f724cff, 0x3d8dc2cff2ec6f7ab6a46d0383d); (0x497a4c3bc5a2b0b3b6206741dd, 0x209f1fd01eabb5e6c2451b6d285); (0x26f0dfc0dd40193f1ebb2b6380, 0x3c75395baa94d1b29426445ad96); (0x482b6a8f6be60c353c70894993, 0x2c129c31fb2ee1d1c6b2020f485); (0x349c3c9f65512c78f43af061c0, 0x1fd710d5c75083350c70f018e56); (0x26020f98174036f2e380caa99a, 0x27cfe67eedddc8e603a74e22372); (0x2f863d197b764a77b1c4dc75a3, 0x35ae5168c144ff0cd9cb3c610fd); (0x40146e313611bfc2d6efdf8b26, 0x3d856695164bfb570d4f6076d08); (0x49705167e9a2636ccdc63b488b, 0xeaaff49bc1bd7d3dde00cc9489); (0x118266dafea981dbc66b5dd295, 0x25199615f69777b326db2566e55); (0x2c496cae75a763a98239c636a2, 0x3e769cdf3dd67a499368490342c); (0x4a9041bd5ad259c2fe102d64d3, 0x27f7f8ef6db5f032da2fda5d6d9); (0x2fb612c459efd8ac35079fa6c5, 0x3272f9e05cffba7e0fdae3d53c5)]
  [(8%nat, ((0x0, 0x1), (0x0, 0x1), (0x0, 0x1), (0x0, 0x1), (0x0, 0x27cfe67eedddc8e603a74e22372)));
   (1%nat, ((0x1892b720b6837e1599d8f5e01f2, 0x1ea10fae1482f60d297c74503ea), (0xe8b65b988057d8cd002c7e3ba8, 0x1dda8b60db1284ede50c023c51c), (0xdd13fc2a7091e33faf2a5b570e, 0x2f58b77762fa1128999152a28ea), (0x22c10e2bae329968abe4026f9d2, 0x2180d6b390de6d822b67dc665aa), (0x27fe50229ea36fdaa00fa10b50, 0x3f15cb1ccda47604387ea61735c)));
   (15%nat, ((0x3db3254c7acd844f17e2b36940b, 0x3990df1f9ffb5ed2dc703e4b929), (0x336041d54f19f2712169c54baf4, 0x28d530812e162bafa1f6d957e8d), (0x19d966362265534d66c33e584ee, 0x34ac3ec3b32f072a3f802ff8423), (0x2b03693a60b3d2935e691d862b9, 0x25ababecc35634ffdedc019aa9c), (0x1d76ae358fbb32ac54b082f14f9, 0xb55819a8d05f909e1b54b18c9f)));
   (11%nat, ((0x1fdd7e2b7e20dd933f4bb8606f, 0x38baa64d52bd0e0642f982492a6), (0x31e4a96bc76e60e432ab67e0987, 0x2ce41b205512dea1aafd3db1491), (0x1f3e23897714f0aad06025f1f0a, 0x307906d9e9837d432a9ce1e244f), (0x246d599392ab4da2d28ba824edc, 0xdf78a283c34c254cc93ed97c55), (0x32d1823e5e0d0ba12e3f21a94e, 0xb0212d8d802ccf47dce43fbc17)));
   (7%nat, ((0x1e0f19f467d17dc96e41f61dd6, 0x7a809a4568da842a9fd09bc183), (0xe8a8858c6f34b471a11723d02, 0x3ccac6a4f04a7fe3835464f85df), (0x394bc2d06e34dc1df5f037de4ab, 0x285c30fa7168e18f15e1862b3a), (0x194117082a52002e83be1528d, 0x390214fa8a75fa2d81991881693), (0x1c241e6fd31000e95311053afb7, 0x10ad72703f68dcf688dc84e9e5f)));
   (15%nat, ((0x44fe87eaac5592ac7ebf20bc26, 0x238995fe4d4523a1d347e861223), (0x13945b7a980da4606fcefde215d, 0x198cbd133509fc12c09f042b728), (0xa1edb233684d52607e6e7f2ec6, 0x1040a041cb5909ae2b624bcda02), (0x4185a10ae0159df1431a5bc23f, 0x19a43ee82097c5bbb1b8854d9d9), (0x140e251f21faef25e7ffe07f61c, 0x18b7a2f53a8bb96d1e9102b32b1)));
   (5%nat, ((0x978c8426aa4d0b72b8efcbae88, 0x235985f924be4a440aea296c539), (0x135f8960b0c8a7ce95fe04882b3, 0x1451227a3a6dc56a891652d7b02), (0x666458532d45bc68702dad6ecf, 0x1650ffe62a788c6373a2872a609), (0x7b898c631b86ff907e314be733, 0x32ff5ac45703aeac820efa8a222), (0x2fcce6921f2eadf36f617547172, 0x8c61cad0495c05cb6bee47f992)));
   (15%nat, ((0x13187701dc39acd431062740b7, 0x23e95435e30a52057d6883bf141), (0x13fe69a1c0f88cb832dabedc8e9, 0x22c017c5f46e111cb930fd76e64), (0x12b8c9fbbd8531c397077e7ad43, 0x385a68a1e0ace839d08324fbd91), (0x313bef631cceb8242e2b607d9fe, 0x12caef908d2a04dd4a828fbcc4b), (0xeb2d0a1005d6b0ec93a13d1d5e, 0x1)))]
  0x2a40746329dbcf70ad565310bdc 0x326fc782d908b48ecf51a4e6ff.
Lemma prime_107_a115 : prime (Z.of_N 0x4080676d0be5392f837c1eea115).
Proof.
  apply (good_prime _ [c0_107_a115; c1_107_a115]); [vm_cast_no_check (eq_refl true)|].
  intros c H. cbn [In] in H. destruct H as [<- | [<- | []]].
  - replace (exponent c0_107_a115) with (Z.of_N 0x1a31bb07) by (vm_compute; reflexivity). exact prime_29_bb07.
  - replace (exponent c1_107_a115) with (Z.of_N 0x81fb7f5f) by (vm_compute; reflexivity). exact prime_32_7f5f.
Qed.
Definition c0_114_b5c9 : cert := CERT 0xbd006103bfd9f898a25e51b9a66 [(0x0, 0xbd006103bfd9f898a25e51b9a67); (0x34be648cc877af0e0ce4758648, 0x11b76216d8ec574fad6f55b9abee9); (0x4f1aad22fb9845c5a2ddfefdf76, 0xfb578d7e6cc88dccabed2fd31819); (0x46240aa5d5d824528bca2469227, 0x5a1459f41d36a57a9ca1e036870); (0x192357001aaf6dbfcb15c9a421, 0x20c7a2d8b4449948e9fe9cbec3227); (0x925d01fbbf019375aeef30cebfa, 0x2861acc94bb69c9752ad3e6e99a67); (0xb44e27214aa4c9a6299416ef613, 0x1082a3ab4e41d8af47153e9467186); (0x49b81f45673f55dd18f02a8e8e6, 0x186a0f09c63cba4a702cb4604ce54); (0x6d02c659eace218f8a9fbf78c7c, 0x2360266852088eb871f1a351c9270); (0x9df4171bd09be96a301bbc856f0, 0x171b691d58d0158714b2b653258a0); (0x672c8e8b50bc4fca2d8616ccf24, 0x15e3260ee8d22f92fe5fcb00ad11c); (0x61ba4b4cb8c45d497265e0bbd6a, 0xb25aa82f9e208f7fd756ef9b500a); (0x31c5bd23ad88f5afadfbdb2a871, 0x13525ecc99771e7ca1b9346ca124d); (0x5645c04e51c3bd4eefeaee2572f, 0x9711966ee08609206ce1eafd0014); (0x2a28731743972019d775b07b4cc, 0x217abbb382188e65cccde7a25dfe0)]
  [(4%nat, ((0x0, 0x1), (0x0, 0x1), (0x0, 0x1), (0x0, 0x1), (0x0, 0x5a1459f41d36a57a9ca1e036870)));
   (0%nat, ((0xbfb215fd83491fa7c05a2934c, 0x186a0f09c63cba4a702cb4604ce54), (0xe14dc872499ab4b0e34ca726e250, 0x1c027c624b2ce5daa893ccb910ac0), (0x1288cbc8177c7666f8e3cec95ad2b, 0x1f0588d0c9448544b8a4d2e4c323d), (0x16bc15682e76450a9d51cbf0c2b58, 0x16eb0967150c02327416e748a271), (0x0, 0x16eb0967150c02327416e748a271)));
   (8%nat, ((0xc68911966b085ff161695a3a2b, 0x8f06a66bfa8f616b8e7a01f8231e), (0x1e3453868d0bb473e8f3b95f8a30, 0x26b32e83766d62d23fad6db89c7d4), (0x2361c19f0986635147aec7fb59292, 0x1babb3d1424df1bf767ef2d6ff8ee), (0x1216a3c57bc3e01d1b3f0fea5b95f, 0x22c45518bc3a4c704094c5a7c46ad), (0x140d7756808907f3618d1ce3854f9, 0xbddc52d4f65fcbb75bac6f3aa243)));
   (0%nat, ((0x35396df52271996de33fe24a3069, 0x1a6a7000d7f6ee63f4e313f99e18), (0x107c23f66d1b534e1edb2eb65c9, 0x1594799bd7a683a50290259669a6f), (0xb0073cd49bf92fa5eb35af6f51b1, 0xbe44f208f8894d2b976a51ab7328), (0x3574269673b9058ded9819a49393, 0x288cac24b0c9f2e3766009dd328d5), (0x0, 0x288cac24b0c9f2e3766009dd328d5)));
   (6%nat, ((0x26d83bfffb734e40674bec4367ffb, 0x801bcbad761ba5b71820d7574e26), (0x183b7fd200baa9f24d46bc08bdfd, 0x1fd81c3aa316a21d0a522784920ff), (0x17f4d2d35d4eb7e7c2d5ca588edf9, 0xef803c31061050588edbbf19d880), (0x54b1c498534ec465e3e360caf0f5, 0x1ed4b9e04a77556eb37e66df6d6a3), (0x1d69926350d5e2167eccb666fb55b, 0xa89f1af99db2df38f7f88f77ae22)));
   (7%nat, ((0x29fb785f727d3898a168b0228d99, 0x1603519e0fd4343def20585ee263), (0xb729b01ffc0317804eb9626679, 0x1367d661eb1882276464695dff048), (0x8e57ba0a0129f0ee1931d1d631ae, 0x4fa5d87c110621a5a3a633ac0ca2), (0x95de27278396ea016d9695ae897, 0x460f5ddf29d0a7af3c62693d34f5), (0x1b539d246869cbb8f84bcb15c766, 0xcb3b0f8adb5794ecb017745d3028)));
   (6%nat, ((0x3cfc03ff3a7d448453b9aae405cf, 0x10a786b5ae893734cbd3a6c441bb9), (0x68d7bc559644ca30039d194b73c6, 0x168d554b4d50426c68f78d6d9a73b), (0xc03e8f427219e2fe057372d76ef5, 0x194554d70c11bffa8e35eb23db03c), (0xf163d418634d88178ae8282d9e6f, 0x1ec79255b7d56e622067eecbdade9), (0x1d5d05ca9d3a985304aa8c135f44a, 0x251236d20df4145f1ae8578b102a5)));
   (13%nat, ((0x20775dab8df3114fde1920fca50d3, 0x107dbe0770e0a0e7e51a18d1759ae), (0x66cc3cd9aa66a2eee78301c2d227, 0x1b1f30d45509acfafbf68d2d2dea5), (0x1160c17df1c357a19e7e6a22bf573, 0x23b7052c9ca84adcdcdfd158d900e), (0x1e225b6969c52babb61e60a74da95, 0x1b077c5374544f43340ca4123c8c7), (0xc567fe17ca2d13b1df8eab7bf7a2, 0x15d0b3da924be66c60222a0aa69a9)));
   (0%nat, ((0xb3e325b66d6bf209e0c4019ac104, 0x1b647f274f5f653f6a141a7b2b16d), (0x11ba0346f0a8102897bf9321e8240, 0x1472bf487caefcce769e4a8406429), (0x9e0c8cea009b45a79c0b716a069e, 0x12d6fbe394559f8bf71321c552683), (0x8629ab8167975c8f25ebd8c9a2a8, 0x24cfb4cf5a283b38436a8a40fa921), (0x0, 0x24cfb4cf5a283b38436a8a40fa921)));
   (11%nat, ((0x200347feab8680304c94e3d8b06b6, 0x859c57e9ce9063dad5cc90eda35b), (0x1a5bcf9f05b3ef7ab532319a57f4, 0x251b8ab5162132af16463cb886fc5), (0x2087b6440d91d541c35abf8d223b1, 0x122437be15257d30d10eb171942a0), (0x7c66c74b4e760b4bcbba24bdda97, 0x18e0171f284abeb917e7cffba8071), (0xcdcc5c84a7c6b2965049d150ebfc, 0x21c110a6286cb257a27a266add880)));
   (14%nat, ((0x1aea9102d99e43daee01c19bcde26, 0x6464da67cf8b939bbf04b906f62a), (0xee1bdbfa3622e2b2c62f56d0df6, 0x17c48f417424ac235a213ad27dabe), (0xd587a767e8782cf6ff335819b7a8, 0x1356ed4a2e5e2a38cb7336e592a1c), (0x8d60113a1ebd7f23b944d73c6351, 0x116059dd4eadf06c04ebce59f377), (0x3e03bca14335eb227bf4366de84, 0x15a6da34842ec67e9de2dcda5fba8)));
   (5%nat, ((0xb1338b6f378534f87566031dd677, 0x201c371591471425a866f19c457d1), (0x185bb8d8bbd2be6af292f6dac384f, 0x123de8f0d08016db526b7e4e8a79a), (0x7dc81c65e695753dbd1dd14576f3, 0xde8dea5b102521ce75574fb14d9), (0x4922032c90d9e1216d35ed576e, 0x2935c5226a95e6c71b16bec503493), (0x1fe9c6029e43dbf0f2624cb96703f, 0x2a0bf602592ca685acb4caadf0bee)));
   (3%nat, ((0x29c423a695b5b2eac8f75d2d850a5, 0xd40e63e293578f8397e15db956b7), (0x426564acc205639ac546079c8f20, 0x12df16d7da008ebc00909b29f76b1), (0x869d34de7762dbfeb051913a5dca, 0x279e338d19cd08fd24c29ca0830c7), (0x251497ab71f42d5025311ed1bec1f, 0x18715fd42c14a37afcc91de55eb5a), (0x9123063ddd63ac2ab702b781f301, 0x255ee5f4695eb240aa6c0d031eb01)));
   (9%nat, ((0x20fe39cf5173ab2eaee70a5dd8055, 0x27befa6cdc64558d1bbca50a9fa44), (0x25520becf03918f1ce4c40f11f7d0, 0x1265a65c11e72c4c688befdcf3fc0), (0x7fee79813a6a937276160a5475c3, 0x1b7687699944c2231e266a741bae5), (0x11d1619e7604c59b321808bfebfd6, 0x209fd90b351d9708bcedaaf2ea3d3), (0x1b43db882dc4f25dd2e8e3770c5ab, 0x1a49f9e02f6903d2723670569e80d)));
   (2%nat, ((0x1053b8e28378eed5f18431ed28b48, 0x20ce1cf3e3815ce54758c41304d21), (0x196c8b267896e7997a7b2943565d6, 0x54f35be1f979ff5bbc2ef1c99b3b), (0xaa7ce4517dcb760d526199e62ae, 0x146ef4361483be8a7ccb5eba7fefb), (0x9dd1ef15082252f2898e451d2201, 0x2aa46f94b7c31f59ddb307eda250), (0x11d8f007bdc307d674398841395c, 0x13acfbe5145c5146ca60cd9200594)));
   (15%nat, ((0x92552f0acf2fa973a1cc2b793149, 0x64515decd84c949f1cb6a27dce3f), (0xedbf76253c09e5a091a0957a449, 0x15054de64e9a957b42a4eeb16d930), (0xa705cf93b60ec5786d37cc9b2511, 0x19f33f8a9ad9da50259f62a5449a7), (0xfe8b098879e582cd253020939df4, 0x9272f0aad970c1a00bf30d60225d), (0x73d4bae8e38c23e5e4078a073184, 0x8a45a861c4143f1b4a6b9df1dfbc)));
   (8%nat, ((0x1c3adb5446118e8e26b8b12a993e, 0xa15baa9d538c57fe7d1954a7ea62), (0x26718272062d4061ac6b28856fed, 0x151563f00e092a9d13508f0e6db6f), (0xa805d222d143989200bd35babc83, 0x1b5ea4c2693922d5669107a597846), (0x11b270c4a21352b1ced5ba019d08f, 0xca5c86e1d085e0e0ca57fafcd7dd), (0x74b76bf8bb1441ef351116e6ac82, 0x2195c41aa27cbadb6e814e9574e72)));
   (3%nat, ((0x1aa5af347862c77c5692f393fc33a, 0x1080efc22402b27efca6cfc3603a), (0x66f41357425ad676ffd340fd24, 0x756fe2ba5dbf822e5166dd0257e0), (0x145d08e30a603eab49c2feaf84e8, 0x43d4b7aa521ac0bc2f061e3aa1d8), (0x6cb252a57d0837cc06c66a2a139, 0x24e89deafd2a3290c912a4b72837f), (0xdb27fa4bcebc1391a47eb61326b6, 0x28a67bbdc6c641d085800d301ac81)));
   (7%nat, ((0x2709bf52dda27ca86d0df70f17a87, 0x1c568072c40f529d45195f355f202), (0x12f8a2d2d7cf70e4249808b5954e5, 0x1c247c4ef1f3b19ab9e2743153737), (0x12b5e6127564647f86cda2742cf50, 0x28bb133c03aa9912e6030ae165801), (0x2731562d607f280a69c9d5ca1fd22, 0x166fd584ddfbdbac9eccd05f1e64f), (0x8c05bb009e097172ff97560f10ba, 0x29c22946db32b2828257d240fc850)));
   (12%nat, ((0x293206f972f9cd7b5ea95fa2785c7, 0x242d38cf37ec9238bd0476b905cc1), (0x1eeb1c2dd8f6eb3be70cb84701df8, 0x294f0bae6be1d1d3c2151c64b69c9), (0x28501f837351c2298f4606aafbf66, 0x4c2fac0978efee6c46df91361abb), (0x891fb871d2fda8d2285115c675b, 0x1d8c5cb4d817e72970d6537ab0726), (0x7c807a39d48d38197e5cb0a9f5a7, 0x2406874e8b1b44f91bc535ffc345d)));
   (1%nat, ((0x1ea91c0f0f404ba49442ccef6190e, 0x257b336003d8c95992f20f77f57cb), (0x2130461bae15e79a44c762631abfc, 0x183d46f8f0b89147cfeba1e50661d), (0xde1639716659f77ca483983f30b2, 0x1d4063792422c62f7a1aa2d6e0987), (0x1436d7a1f81422c9e46590f50d2af, 0x1f9050553ed5e63265fb3145c9eca), (0x8ceef0c5e10d8b8927233f0aeb4, 0xbbdf0b29935d62f8027e2d04f7f2)));
   (14%nat, ((0x341d63882716ea0d4d29e83041ce, 0x5f80a39826a8a10783964b2c9006), (0xd778b2c01ac2f5c8f9bb875eae2, 0x19fc808fca99e485cd052ba5d8ab2), (0xff40b4ece5f70a2fa59c57151edf, 0x1a798dfcd945577961f12bac87bad), (0x108f07894919e64deb234ff85e3d7, 0x9bc1b62cc6f0e20af6b4c59cc1a), (0x22be170b71c8160b24ba27a7186, 0xdb5a4c7082d1db5131e7db3911d2)));
   (14%nat, ((0x470b394554f1c3c95b91c0c6c74c, 0x1dd5ee848f0dea1b009e4095a5998), (0x150796db2d1f8861127776df2a352, 0x1d29acd76adc9d287ccaa893dd4de), (0x14177f6e6b187b22b4ff7d8aabd21, 0x267a7d3899054c304f3141c4c9c9b), (0x22fa63a85296976e4b59199860510, 0x1fafb0e958644fcd17ba8b176fc49), (0x7115d84cd68ae2fbb03527b8f86b, 0x226d47db043f0c1e9b5110f9f02b1)));
   (10%nat, ((0x1bfff5cb499bc8b5cd693f7bc3e10, 0xa9375ae70b122fcba6d423a733d1), (0x2a476a8db95ba75edb88447a968c, 0x2868c6af0938e367f534a30cdc0b5), (0x2693943b9cc1c6e4deeb69e8cc8c4, 0x2297e8818edfba971e5b5ff51ca15), (0x1c457788b965dcb35c8325ef1e4ad, 0x1e55e7ed9775ca3e49c6124cf48e4), (0x108f54ebc4e62d2bbe81a76c15177, 0xecdf421aaa79615ed4cc3aa2d511)));
   (1%nat, ((0x52d869846f2eb40b2b1e16a53fbf, 0x20a171e976c2c73c4a7389be1332a), (0x19277df5190fb378de28a5d50ccc6, 0xaa670fdc2444203e9959767efd6e), (0x2adfb62b63efb9b56c4cd8ea41eb, 0x19273819282e737429a47192eb2c1), (0xef25e5302327b1374b847f6085df, 0xe6c2b81781c7d3a9329cec762e6a), (0x4065b1a265ca70c13a928c35760, 0x30868d5f5a7ce752f1781c1ff646)));
   (1%nat, ((0x37a10d0c7e9ceab2e00958694cc, 0x52b5a3444f8b43d7960636138af8), (0xa19c75887a480a4a8196d7e5fd7, 0x17c5a73caf367dab3678fd6c50d71), (0xd59b4e8f81160fca7aa23f6ef306, 0x1e1a13dc53ae8ff1ae9c086189e2b), (0x1568153b9903fb1e7bfeb9bf0f008, 0x12c8c9b87fbc6fe7921baaf1efcf1), (0x53df70b60134096bb3a679f9d0e, 0x501570f35ad324c1cd54905088f9)));
   (5%nat, ((0x978343f2f1328a39d7c958c0778, 0x71a89195f9f04357c9d441f7ccf9), (0x1312f80236f99ecb9e5d8bf9f3bc, 0x1da67ada19b709f5f87ec62ab7f95), (0x14c4e782073a9df214fcd15087f28, 0x1fdfe52bf7f87769204f2a0280e51), (0x18008ad5a71ba366d9700746f5d40, 0xa7089536e53c7784a38bd67e7e61), (0x8159ec592db975ade812b2f5b796, 0x1)))]
  0x59c2e42014357dfadbcb373169ef 0x190c9b6c992c4087b14445491f1.
Lemma prime_114_b5c9 : prime (Z.of_N 0x2a5443df8fce6d872e4974499b5c9).
Proof.
  apply (good_prime _ [c0_114_b5c9]); [vm_cast_no_check (eq_refl true)|].
  intros c H. cbn [In] in H. destruct H as [<- | []].
  - replace (exponent c0_114_b5c9) with (Z.of_N 0x4080676d0be5392f837c1eea115) by (vm_compute; reflexivity). exact prime_107_a115.
Qed.
Definition c0_144_c85d : cert := CERT 0xa5eb38fb933194c711c98d9e36e46b2a0a [(0x0, 0xa5eb38fb933194c711c98d9e36e46b2a0b); (0x71c0383008330b0b0e16047e101b7a6b, 0x55c51006c69a38d2c414dbb342e934cc8b9a); (0x3acd5a24db2502889d6080e797603cc5af, 0x156209d6f317dce2df2bfb095e61434bb0b); (0xea8e6068797b9325cbff236a6ec25925, 0xcd38d0af5855de3002e1ebe16e9c9e5b8d08); (0x8cb2426d8c944c17c83d0287730ba9eca2, 0x6d4d3e39a4f7db7ca3972ff4c113d87cd87e); (0x4aef6af28cd538c1922d9fb07403cd2b53, 0x599b7527aff31a598d226b09574b376c6443); (0x3d6edd230a1c6c54dec31d9d0a9ff077af, 0x97b4899e4a1d667710d6dfe50af601ea1a4e); (0x68019adfe6562ef79892705d99beab93ec, 0xb7eb878eb8edf09c92b1114e71b9e6dcd09e); (0x7e1796b2dec6a95efbd078af8f6aecbe75, 0x841c7b63c7239439580235ea6208d7e24a49); (0x5a92b0e12e88a770a83530624d05274b78, 0xcdb964ae0d414a0a0288ee8685fe3680008b); (0x8d0a6904f9ac30957c5f22e60b66ba58a2, 0x99c0b0a754049cc65c13cbc51aa22f6b111f); (0x6968f4421095e311b695e86546fd8e7779, 0x5ae314eb3ee2b318a0fa8cc702dcd0be360); (0x3e4f7a0d563560ae6577744988dc33472, 0x9ee21213f9e923079befe43e1773859967b6); (0x6ced62217de30b53898649782870f47202, 0x46d3405d00044db723d08e31e83562ba5618); (0x308e7289c785d1e907a8e96726f72ced38, 0x81fb04212b80619d543f8766c7506753b5b0)]
  [(2%nat, ((0x0, 0x1), (0x0, 0x1), (0x0, 0x1), (0x0, 0x1), (0x0, 0x55c51006c69a38d2c414dbb342e934cc8b9a)));
   (10%nat, ((0x1e65a6e0817a2f8761924eed685b20aed04c, 0xcd38d0af5855de3002e1ebe16e9c9e5b8d08), (0xae06513717c5e8553aa8c2415e95b4fb1c0a, 0xb7eb878eb8edf09c92b1114e71b9e6dcd09e), (0x8bc5baff7cc55a97d259c5fb75e4032bf67c, 0x145738d92f02cf95f22caa03effbc32fb678), (0x1b5a89d2a27a35536a19f2788a45d6e4159, 0x2f7f585ea892e82df9f0d4e1d196440992eb), (0x2860269a85eec1904c20b517ee147d944c8a, 0xda34cf6d8e466fac7ea5d08f2573bba32777)));
   (5%nat, ((0xc4be096ee8e85d75415ecbbf9fa2ce3a40fa, 0x7aacef3e37d03c10159e5257a2a2cee8e7f), (0x3e2f1f2614be90abcb24db5dbf8bfb0e40, 0xaf80d1d5218987c2c2a29878743d3f9ef5c1), (0x7f45ab6c1aa739c2a6233ad513e7dbfcd028, 0x8dce01ee4eb2e5dadb5330d3016ca1201cf9), (0x5316d68f200719442e6d766406e9f44d044f, 0x3edc1d20c7fb8089f33910f1aa31f599217e), (0x1c63ceb86ed0f4774905b723a9b241e2acb1, 0x7006e159ade0deaed40335774a6cc0fbc7b7)));
   (4%nat, ((0x33db670d50acbef75593e2b912897c220ffc, 0xea6e635dca44a566fcb6391edd0169f35645), (0xe31684d6398902d158cee65864f720c4ce92, 0xd499a4d367f2d3bf556026de8affa7b538f), (0xbac34a6b3559b2d459d11f9ede979c21ed, 0xaf39d2ab377221a52d02ad94e4e49ab48ec8), (0x7edec791346a9c149b978464a98c9b2e97fa, 0xdb708476ebda1d50830e60ca0ef98575f66e), (0xba14b8e70cfee2d61c3986939873c8e95a85, 0xea6f5bb30f7c32f274d37ce9b3d0ca547f1f)));
   (4%nat, ((0xe31865f3116d010afbe552572b67b0edd4b3, 0x84400c57f72ab35e9af8cf8a2faf9a67a8ba), (0x484507033e6cf37b5c0c56cc708631625b9c, 0x3716510773f0b6900bd89cf7a301d27b7f78), (0xc89fe7cd04499c6bb6bfa030500e2e34d07, 0x6c77887f62135823878956570e16d641d4b5), (0x309d161f303958e7e8c4bdbbe7437e78349c, 0xbe13d3ba1fce05f42ce7b8d358e019c94b4d), (0xa12eb2a8dd562f2c102db28e5245818df2a1, 0x34245787477f2c7a77fb0c7d59a87639d6eb)));
   (3%nat, ((0xb3bed7ccca4b3ea707e50fadaa58bda033c, 0xee90317392c39fce6b9d138cfb352e01aeed), (0xeb29ebc7f4bd31f5d383172df4584cf2ab4a, 0x59bbe64680fba2ec9aa65a215f1aa182fd87), (0x2145990e806116df7de493a74b515b92dd0e, 0x1e1cc96cb6d06aa912ea4223e9ed9b96df1b), (0x3bf2b685b5383b94b840260249c01ba0ed4, 0xd78826a2bcaa04076a6e0c13f605ed9f09d5), (0x130b16d16fdf24de86a71e263e0bb72c1b9, 0x138223b1a8f4c6273cf86f31227517851af2)));
   (13%nat, ((0x19292b015c5c87c82632bb6a79f82e8d967, 0x5d1b4d568c8f8b973ca2fcf46ea894549a59), (0x23d1e69c788489012c819cbb2da28df61079, 0xb4781d1af9c0c141f414dec3b3741efaaefc), (0x869399cb0f249fae1fd2195cce522dc45feb, 0xd25f0bdcff3a381025fd6001167c4bd717b1), (0xb6de0a5333a3737631594d88d22c86425d79, 0x9fc09022c4df54dbad66ea8bbe4dc122cb6c), (0x68e0fa7ce658c2983a815fe30070261dc1b3, 0x25bd10db0888fb260e3b2cae8d943b7fdcc1)));
   (15%nat, ((0x5e283c9930da0671b5b6127f4543c5f744e, 0x69f1584113c8957a1d7f7a78ae380844192b), (0x2e609908b11be347da5cad626877f44e0da5, 0x11b8806f585231ba728a854ee5893b5b9048), (0x14c2c8312a209c8ac57d181fb5dd7229189, 0xd29fd088b531d2d3f4b758455fdab7652d7b), (0xb74eb57cea9f72a37de2940122ff99e83f50, 0x5ab53be31c03eb3bd58081e8a648492cf909), (0x30b7bc3dc59d21cf56c3fa1139ad00e5cfa2, 0xe57d0f60b4cb55bac901c1b431a82ce29556)));
   (8%nat, ((0xd99cf96c5f7fc52aff1a504b7abb4189e36f, 0x74a385ba4e9f55058f3b037dea7a3058e191), (0x3836ef84aaf39c93fa25892c172a798fe038, 0x4eb251859f68245b31acf1b6df1ecbcfffc9), (0x19971b713b24a9287d71810c323cd49f52a1, 0xde71da9659f38f4f01dceb4ae9286b673f54), (0xcc75aa4d856d4882cf055a0100e47356b0d6, 0xa50202d8d9ba6abf0a040a212f6cc94105d2), (0x7d665b4c1123fdc8ffe7fb36126f82881f54, 0xa1666d80d23c3c0808a91a7780e101f3618)));
   (15%nat, ((0x6ba3aa2ab163abf39428d3061403be65b9, 0xd1708fa9528d9a4e1a57cf67d47e73e0a60b), (0xb54058dac8eca9f7f2742ec6c88af3a681aa, 0x736d752641109a9604e4204c64c0e28459b7), (0x370d9cf340eb20cdc246a01abcc0178b2865, 0xdabc002832f39ea15f9390402d5ff49a2c20), (0xc5b21dcdd962e236b7fc9a54d38bba082b2d, 0x238178dfdde854d0599410ed34c521262ca7), (0x1311cd95c5bba28867678baa3680c22a8fb8, 0x1559b9c4f8665c500298397835633007cff8)));
   (12%nat, ((0x1e230dc5e32f83a92154ff3aea7c710fc6a, 0x3a3ec9161741cf4e35360b17e84be1007dbe), (0xe0498238fee620b0a6f975b8e56430db413, 0xd71a18b6031f45610629428fa480d6dbd61d), (0xbf2f25eadf23cdb7e7277705f295dc9b3f58, 0xcc9a078708be33328791085333fbf15fbc51), (0xacf96dd20b710fab6fcd50896df6f8969b6f, 0xf3b0bc728672a5d52033426205dcea9e24e), (0x5b8473712701a54eec5aaa13f4e041f101, 0x3ffabced650ba73fb99793a9b488abf2b1e3)));
   (14%nat, ((0x10e9f6895f018833f694882a5ea2873c80a5, 0x6f0c5a6b817e22040043bf37e7e7905a0b58), (0x32f47a8107ebb83a7e7b589f31cabe926b6f, 0x70c40fcdbd7b9b991e8b0b26c80f316aeeed), (0x348b1fad41606971696a2003c41e155927c1, 0x4ef73f70c33e9f2fcdf3777180dec54e4c), (0x19c403259f871eff00d7e5fc5426472d, 0x71c7cfda2aca32f027b6ea5f1b61d1256337), (0x214c4df8e6b870b4f18d5093ce50e0e31aef, 0xe289f0e0bbedf07ca43996a6c29e6a6a4655)));
   (6%nat, ((0xd40e16fdb62d8514d2d60edb3f131321eae2, 0x2b1f68938a6da701110a705ee300250fb41f), (0x7af0c402fa7cb691ab303fc1e2f0e06220f, 0x36a42a33f5dfdac2caed03cd9f1c1171844e), (0xc563cd40471ea922b739725e5b58e2eb95b, 0xc688d71bb7d7eb47d085169f31f21a6619b5), (0xa2de2c3c2ceafa0436b1ea6488fd2e8c5b19, 0x30cb00311309ab411df8077b3f1ed72e39e4), (0x1210ea14bdad880d18d2a4471c756adb6c60, 0x5e748e1f39649e29fe17b75f37091dc4d7cc)));
   (13%nat, ((0x24dd79d00a0d19cb053ddf2f3e225b2b000a, 0x7c1397a61dcc9718187fd9daacff223d76ee), (0x3f9ccdea1b2b11c3b2b4bfbdf85544be1ecd, 0x3f68a4bce86da245ff838602a494108eccb), (0x109d1022d9135f3d0377626f90605eee99, 0x684a24c50c594a6243cf3b9f12453258b364), (0x2cf0f80710e0a969ff790910e799505e5949, 0x95564c28d1801f9e57694ac0b0a51913878b), (0x620a8cd07f2f69aa942ce3dd71adaee1a8bb, 0x47a697186b06b89f060a90c8502bdfe3e5e3)));
   (8%nat, ((0x15368f7357c317396216b1323b3b02e9ef4c, 0x2d38fc27151689e8ab8b9e5f9796281a98ad), (0x873499e988d54733966a21e72c098f1fc39, 0x1fcd7c24648d6b31411fea525d111a82bc34), (0x42dde705377c47fc237d390fb3d953531a0, 0x2a6b8fc4b61ce016877967e9c30bbd46370), (0x76f7a6a16531339556b6ae4f69e9bc146, 0xbf16ebfd6b49f1c446968027f14c7acfea92), (0x91388f71723304761a585690a67658a89c5f, 0xb3dc69bac13db34c046249ae690901c05f99)));
   (7%nat, ((0x85abc7634f7bfdaf4f96739b1d41b8a86b4d, 0x6b397d0e437aceaf95d120e9623a7aadc678), (0x2f81a1964197050fe1e9f48b75c049c75f02, 0xf1f3d6bff6e37fa3c7fcdfba07f0f152c486), (0xf1e4a2b610c1c43f6c7a7ac34c5f8477b4da, 0x4d0fd357fe6c4c42a9c51e02520d266a72f2), (0x1889c4194a13537ab0b2d55ed05a71b6dccf, 0x628b8cd19dc5c1b471e2af9e2dd1c87e7d91), (0x3dc5e58eed341beaf101abe5eb0ef6e83f4f, 0x6096744d6cc8f251ec6810c82ef2c26a447b)));
   (2%nat, ((0x268c67eb834c18723ca6739350395fb4ff16, 0x982ff9cb6544be57bcc9a58b18420647b81b), (0x5fb3b1da1e970593d3a7597969294a261886, 0x68b64e739742ed5c66b9acbf3e477c253a2b), (0x2d4e60de83afe218bd6770d1128555d6a85f, 0x3f35dd0dabd49f57b6c38eab39aa9fea20b6), (0x10827ec78a0da0faa0d1a28158f69ead3c2f, 0xd32703d6754324afe51aa4a49e00379c6c51), (0x4ad54452070287fd8524c67ebdde5a1f026d, 0x9aec58c15490eb05a12fb0488a2c218a1a21)));
   (14%nat, ((0x632c7554ee14b7a68f3083c30ed5423d04e5, 0xbc3143df0a2d64b058395f3096d490cf0910), (0x92576f87137a6964ab6beebde2ea0f100ce7, 0x655c478da4f5413d35e7f6f707b470c2f915), (0x2a73c53442148d9290d7789194601862f79a, 0x9d19a5c11bf93775098f74020b17afc598c7), (0x65fafafbd1929b0103ab6fe13157006d7a8f, 0xaaada654d651868010d8665f70c18ed7acbe), (0x31f305b0b2270dc0f9f50c9302b38ffe15c6, 0xe8a97b05c4469c41770df50bd804093f6ce2)));
   (4%nat, ((0xdfac6354bebc541e4b7f7662738d9d1850bf, 0x225a370b01010c7d3036f895a101d1aaea21), (0x4e04bb353363b6838d7bd57a3c352788806, 0xa9f09d57c66e3a060a5c2f77bf44b8aa3e13), (0x7754c971b5b0d7d8038a004a26d7e032e703, 0x4bdc9a0af703c53cd2d9ce53bc41d1b2f152), (0x17c7a2d5045f77de6c68fc7f927c8f817d66, 0x26cd6150874463fecb8ad3bcb466f8854036), (0x20e755f7510d1a2fca68e9ac614e228d275e, 0xd4e34f0019b2b854b795b9a65037c305028a)));
   (9%nat, ((0xbb44cd84ed3dc07d615b2026b099a06f2684, 0xafffb257137a60cc01c6f68e852373ca5470), (0x7ffdf2a3c9c4a3282f18257262e757056d33, 0xee28f9affcb28a49eb15f46c317b04d32d79), (0xea5e9958cfc5aa801f83d6003284130d75f2, 0x7f2d8aba8b0c793b6a952adf52ab410cda47), (0x42d5133c5793124b02c0dc77de984a51f630, 0x167e5f980db33910f3c71d7a5c1180c91041), (0xc476c7caf886a19d9c156245be8172e1360, 0x5c7286fba502c78f858c9fd4ae7bebca62a9)));
   (7%nat, ((0x23507fac929cfba0cf55aaf048ac86384ac6, 0xcec07d399cacf280410d8f84f950931ff9a3), (0xb0a10f1abc5cbf819c5b03cb2788bbe4f220, 0x18d2348a775c94527edc59e64eb5f6538829), (0x28bb275a67b6f0390f6e756494c75da1dee, 0x4b85b1ef0a257d27cdc222ce9c108516c71b), (0x17914621abc8feacc5560045045a2f7c69aa, 0x79fcaff42633c56cf90c0a294f8df91bca17), (0x4c77b6145141a3c6373dd9a3d77f6c88e371, 0x5ce495709983c84f33794cc263e9ceaf00f5)));
   (4%nat, ((0x23a7d8c3e43a69a369513e6a7a31a9a5be4a, 0x7f5fe88ddcfb35711f85691789146932f997), (0x430a0d32786769e84611684beb5022ceab94, 0xbd4a6e5ffcc92face0a7bab97d3ab76b224d), (0x940dfd8656c24178cfd70ad9f9abd35f459e, 0x87ed44ae9041dfde4ebd00aa381987cad0c3), (0x4c5801ea91c1c7ca6638927244b3b2c8ecb6, 0x4afa7d09e97672e3b86c13f6d892c1f1466b), (0x3f9498bd055b03008ecb610d6b6bf5f83575, 0x1d4317d15fb80c69a729ca3d12682f5b4ed7)));
   (4%nat, ((0x389c2dc1d30106f0356f8a5315971a54955, 0x5e51ec43fc43b8dff65e7a311d0c64f9acb0), (0x24c27639552a3917ea6c7700c5fca5a236d0, 0x8f71f983b8579027624a62f0a53e6ffc8f70), (0x5505d63eca2953bb621465909c4ee341f4b3, 0x7045faebce9370f5eb0fae1369f4963e93f9), (0x3415e26c1e132d16788c69604277ba47e805, 0xb8d862318aec414968230938f537220eb660), (0x9cbedf7042fc71a01e3165e661e30d49fc1f, 0xf43512f7a0cda60cc4d4b1f85397579c3bd)));
   (9%nat, ((0xf66c3365dce35619aa689f35009a4854d7, 0x37d8a36936a3f81056d1ad6cd802d5deaf6e), (0xce3113c1cb68a970a2278e3ebc121ea6248, 0x9836837c0133c567c230cf17c78a5d419f1c), (0x5fbbeb00fb383575325cdf89e7490ba6b9e7, 0xbfa554bc6c94fc0e529ec089fe5e93c7ca25), (0x97c2faadc4f4ae254ccc7d9af5aa3be62a88, 0x220f4460c489ed0d671efd7e74c9e1fcb5f1), (0x1297bd0d222cac567bfd90a0d46a07d400fe, 0x98d3f813ecc2c27770eb9288eff01b2bf73)));
   (9%nat, ((0x6082617ab229543e044da7ffcd244f3084, 0x30053ea733ff1c413bbdd30898447b450db5), (0x9874015becf3968f8cd8bb68d1e3cdd5817, 0x8a4f59534c1638faa1b997b56eab8cace99e), (0x4f0b52a907f3725746573effd4504c700250, 0x4f04d4fa3b1cf6b9956fbf19c6f30be1a674), (0x19cce145f919075ac2696ff02b1fe73f043d, 0x3417c14ab2abb783e69f8b24ab46b60c7267), (0x1c6fd24187c7bde3e49ecb461ac24f1b58fc, 0x23af95bae241714df487e2fb89dff04031d3)));
   (11%nat, ((0x5431694319f058823ab3df875ad7cf7d7eb, 0xa316a54b9b254442be89d077def2e7cb6b8a), (0x6de72e46b8f4f30c1d908d0096fefcdd06c4, 0xb441d5a4c80cfca7d48d6a09c94b96cc1130), (0x8642b22b6ee1d07780205e48c749a82bbc09, 0x67ea063445d58a5ff6a1a94e442e460311bb), (0x2c9e46e73836f4d0f7fea4c7b1b815be23d3, 0x94507f5679a0e17edf02f3828bc4adce82f2), (0x5e39c8cdc6bce8349503adbcf3228f1f750e, 0x5454b24ca8d5f69298c5ab0a0462c06d7738)));
   (5%nat, ((0x1d62bde9390b79e98ec92c3d8df73120d526, 0x48239f808214e9b6356da0f64d62d745fd72), (0x1580d90ce9ff77d36d6be2f02c12ea69ef81, 0x852e17b98c9b9fd55cff6c479f374f3bbce7), (0x494a1b3534b0b95a892edb2d9e4f608f9ad5, 0x5634838c226cd8c1f4016bd204b2b3ea7110), (0x1eb4d98604f66b78d93f3bd511439f6644c5, 0x7520ba6550a124b56c4eb70c3faaa31c3d6f), (0x34e63ce1e3792886433866d4c73e2a4b59ab, 0x7ccacf922f9946c444d49ad10ca4b3e4b983)));
   (12%nat, ((0x405936c10cee3f088b0858b6f2a590adf0f6, 0x36b456d838803f1e8f340a4c3ba451b9dfab), (0xc5d8ba6b8127fe5295434cded63037bbbc3, 0xd17696663bb70ca599ce697a741fd8cfce62), (0xb54ac73566841ea194ab038bd137b1f5fab3, 0x138d634d26184013962d7e92253c9227f27d), (0x1946374a6bdb580e6f716e693177c798a7d, 0xd88f5bcb749be1d5af48540fec1c80b99a0), (0x5154212f3055ed2b89c984109295e4d464, 0xcf5a88424b61c0f29854c00056e54f7b33ac)));
   (9%nat, ((0xb1a8a43a1e068ecf779266f799bd14cd18d6, 0xe921be65a150379be477dc8836d42c70c5d2), (0xe093daf830a520b3827eae79f3524b13b226, 0x795dcdbe1461800f7c248d75654aecb7876), (0x3cdd2dfe65cb6252963e3bd4780813ae61, 0xbdfdb6618799dd2f21f7118f93ce9c26b527), (0x9526f5e3eed6cf12fe23ec817245b7d67a71, 0x5310b8ea7e7f90be499af18a9084b64768e4), (0x2d58252169433ca7a73d61a783611b96e8df, 0x1)))]
  0x8c6e89efe1e6eac26a06dc86618f1b350aad 0x604704a39f86e2e4f827bea50fc34c7fb5.
Lemma prime_144_c85d : prime (Z.of_N 0xf2030bbe7b93e35bc387fb868dabc08ac85d).
Proof.
  apply (good_prime _ [c0_144_c85d]); [vm_cast_no_check (eq_refl true)|].
  intros c H. cbn [In] in H. destruct H as [<- | []].
  - replace (exponent c0_144_c85d) with (Z.of_N 0x2a5443df8fce6d872e4974499b5c9) by (vm_compute; reflexivity). exact prime_114_b5c9.
Qed.
Definition c0_171_ff4d : cert := CERT 0x51c857bc764e9b9eab41fe30d4877dcb2368f57e1d [(0x0, 0x51c857bc764e9b9eab41fe30d4877dcb2368f57e1e); (0x41de1c592eb0658344021c6fe3e6f60d8b9552532, 0x478487aa58ebd09774627186b4920b60e3c53268d7a); (0x3999ac3c6ebd0da62831d7f2c9164a963731b4f420, 0x60b7ebb8df80920c360cf77f085e57a4aa9c86f52ac); (0x4de59dee4ee053085f437a0a51f97bec2cdbf89a8c, 0xad405b03f71e4c6c515cb0eec0f310bc88ae8c680c); (0x8b89586e1e966c00a90a62b913d83efd6c484f2cf, 0x1f661e0cfb65341571c5bb5252d56090bd090d3e025); (0x1949e46613dc9410612b1a4bd566d0949d86aa446d, 0x5d87f9aae483ec55859a97fdaeafc5209b7c3c5528d); (0x4b547485435a0f7d113b1c5cd20135868d42773876, 0x1572129da1d37d60ff12c1b6ef60c85077b4c3e8d08); (0x1145b30c1c2c2b85262b92c2d4cb833da764a8db9d, 0xceecc28092b898403d036b0452f5c7ac41af2005b7); (0xa6a835fdaaaab4a71da4a38355ff96176f89e5d52, 0x2b10dd7cc9a0431afb792a4f81fdf79ca3c217efdc8); (0x22af6a8259f85b8aa3cd53131a7e8dec6959cd896d, 0x17efcdc2fd0bc97f09144c68b68f46097810f1144a7); (0x134753cf54ccdd21f14773cb1767ba106f08cdf017, 0x1704f0b1a94566c43d54f6ed09e81b91313249a1da7); (0x128a2b230d4b93d4394fef7f7ba658e20918c78200, 0x37f3f0ac4cdae58070e533e1676d904a89540fa9192); (0x2d107ce7914b178f37c46a4d3f0f036d8810b9b210, 0x61a949ebb6a3bfe9b39aa5182b60a99aec230146c4c); (0x4ea803b2dfbe6bff3afbf0ff43dcd073ef0817b7f9, 0x5576ac98d3ecb268fa8da5c69d801f1674bcc8bbc03); (0x44d5104a079f417b7b2efa0b27a0c8f5b87f50618c, 0x3b6fb008147ee6bf2066f2f2f5e9f527e2dfc5cb73e)]
  [(15%nat, ((0x0, 0x1), (0x0, 0x1), (0x0, 0x1), (0x0, 0x1), (0x0, 0x3b6fb008147ee6bf2066f2f2f5e9f527e2dfc5cb73e)));
   (2%nat, ((0x22ca38921284b1a111da985623bc4df392287225f1c, 0x12f4ddab0baf45dd18b234b149223d607273ea23398), (0x389f49d67317f4ff707441f69707b054e23d98fc0f, 0x6c976652e3c7f4793cd327eb8fcf2dc966a77628bd), (0x74210e9d8f7fe2006c7109f0e8b5501d8a242ae14, 0x25ec96811800cb2f963198ca26a3bdaab55e2f75385), (0xe29f487f52a6d1907d0ed9c50374d17d6d2a03f532, 0x348a888a577e730195a4f3f7afbaa7530cdb3b9f50f), (0x250157e8542773e876af78ab83fe83f71de0a7aca3a, 0x478d0cee211e6417a7134e2e61d4106c30f32fd72b4)));
   (0%nat, ((0x326ae2238631c9cb8f0bdcccc22220cf6de7a1c2814, 0x393e42b3447367e77a2cb9c959a58baa7ab307cd48c), (0x20451ac1e81085b1bee3dffdbb2a6e8b4e5c2513f5d, 0x3287877ccff0068a5f9dae98b4e2fe02619008f7a97), (0x1924edc44cd964691779f414d97b2dc83fc83ddc1f5, 0xcdd414aafec29e6572bf0d4e6e642db860abdce360), (0x1a137509008624792bde9721abd8769e0bea990f39, 0x3e53def9dd54df70b1f59a6ffff53f9ef6c398108db), (0x0, 0x3e53def9dd54df70b1f59a6ffff53f9ef6c398108db)));
   (3%nat, ((0x2641cd624b31ed8663dc2e4accbcdc2529dccd545bb, 0x2c454d7abbee5b20632aa5ffb456101dee553c2d1a), (0x134d18851c4e033f1c05b108c0d95afa33a305726, 0x1b59c47813f84b8eed0eb0b20f0d993a8d5839f1636), (0x75dee2fca5c53c4e4faf6050a87f850502af2a300b, 0x509d5629d7baf01fa9c79c4ef4574b2d60b1f18eb15), (0x3fffe95874aef2056fc1f321037b96a423bf99db916, 0x9ab5f25fe71bac8b55c9c2769cca3e52e9a247fa1b), (0x935c3138dca3269f5cf33e3ef42725ba7656cc994d, 0x413521199366a94487db17e63e7426b8a85ce64e0fb)));
   (0%nat, ((0x29dfc74ee1f183ee7f1379e9087c2e78436137397d6, 0x29ecb532d730f60a14a6df171dda6d47993f4d360bb), (0x114f46f1e850772ccac966033acb9b756619b34c990, 0x35a4b0e4da7570416bd697c6876a446c5015f37b849), (0x1c56bc5693e73ecc79ee24b51cefa0394ceeb61f24d, 0x5784c07a2d3a3219b8e71fd7695bc56ca4f7cab70a8), (0x4b6e5e8053a71826040fdfb05d44defb0cbb47504bb, 0x4433de596230c2c6260474de5fdd1392b5680edbd01), (0x0, 0x4433de596230c2c6260474de5fdd1392b5680edbd01)));
   (11%nat, ((0x2dcf24bb171483f5a2ff93306f87ef0015b209cbcfc, 0x4cdb4b58cba85d4dc865927a82b7ef03b487ddc9e35), (0x3a2bfdc7a8fd33a70394f2fea5886fa7d422f5522af, 0x5f6843a28479d5b2f80b8371aad1cbce238131cb756), (0x59a4721e138e5ff7a5273e3e77d248e22e39ab0b328, 0x237076ee40898a19b0e24e0b3a2ee38050c0ae955dc), (0xc5e5d39a29c0b4a729e5e4c9819d21402e3acfe63c, 0x51518a2b93f95e5af7bc2f64690faeda0166181d104), (0x126f3c8700b6cbfc5b72d12754a13859dbc079ec5a4, 0x37b945b46ab96a5988cd82af03e2a2d2114ece8ff48)));
   (11%nat, ((0x1e945a80fe90b434ce9de4980939eb6d922ee0dea55, 0x1f11cf75f0c641e7c04ed14e18d0a2c6e8398335daf), (0x981aa32a8225d53cc0d16d5f796ff0f83c821f746d, 0x59f8ba64a05899e2d01c991c73de6b806ea902905d8), (0x4fb8076669c22c39cbe644ae681f011537a00c49aba, 0x51f1aa90213bc1c2d5fa20307e3d4af75d45c1a564e), (0x4220bd85047fde7b3a00856570a223f0f88d507e30e, 0x23aff168f89f5114618f65346209d0c649ca264428e), (0x8171310a257a2d368441b67f807bfd288c86468df7, 0x4aad25dea7039c332b9b116bfb3cd4e60cf13aac457)));
   (14%nat, ((0x36eb112718c307e23b8e384ef6cda53033fbce67a8f, 0xb159a5581f821f556b99c0a093ee8798534c01078e), (0x135c0676dd12cd20771e466ccd985d40540c995efa, 0x59720bfd646bae6f298ac909f3884a04d4ab3e27b92), (0x4eca0f36eed91c86b6909f8a76cf4da48d935effab5, 0x565be29bc6000ccaa5f750ddedea595b107aaa1ebd3), (0x49720739c03678eaab5be88fe9dafeec45e4fe11477, 0x31c94448f85bbe397b2df467b405cef68d406fc5f1e), (0x29e70c52bcd2e955f4947c93d99c92b5940b742a20b, 0x3042fe6dc49625a5d504067093138fd7234f348730b)));
   (7%nat, ((0x16f02042c8b0ca522a6e9d93a65cca735ff4ac59926, 0x4c1dee694d7ccb000084f4905df286ebb3a07bcf80b), (0x390eb7b5112d7209a9212591369b5fa8a408d30f2c5, 0x2b2244dfd3c896ecb7db0ed5875bc2f449a8e9f1038), (0x1252959651ec4570c141cf2e75784153b4e911a5e66, 0x4a434078691b57e5538013c15e106189f0e09b70d92), (0x364fbe2fc34dace5c8bc32269877d78aa9abd3259fe, 0x3a8c3e36a4fa3071add25821d1385905fab0a1913de), (0xc5d7a0987a743a6dfb1dd175921681ad948376788c, 0x56395de8de68bbc2ab6174832200671d9d8cdb42ed4)));
   (11%nat, ((0x49375c5129ffd06dd9c1bfa6221e3474b11158f72fc, 0x46d517b7717301aaf4ef57e3d2260d6d4dbdede45c4), (0x3168f0196b728aebfd79472d999469951bf3756674d, 0x270790194209492a4d5f9592c9dc594ac6d218578e7), (0xf0067f68263618863beb49b6fa6c5f5d9b8d00eed6, 0x38ffa1ad70ee97b431ce5302903fab62da4d3f66013), (0x1ffea4aa8645d74d19b76a89bbcbd36f2b9cb55f642, 0x26ee7d0833efbb28598d921b1e4c06dc9ab253d718f), (0x8d35ae9ec4880200c594c3d75d76b66b9201d9bd76, 0x8087c4e312c87b482ecf7c10d8055b5bb25a67c0cb)));
   (9%nat, ((0xa2b0b6cc7b5113cd180f665bdb321dacfdb8466fb, 0x1f0f4d79b52c22010ee5acdd3186b5304a8d137227a), (0x9802165b49d241f22a9ca08546f3da2d7c6106237a, 0x14a54f772b2cf694d0940b4a24224a21f7369ab7072), (0x4329c6cfd9c49754f439f4ba921df3c8e5fec10434, 0x3e2d418c2bcf284c36077e2ba4db677a14f3b45e320), (0x2612749b4e024e2f59379263f4ae1331b2dc308e5f6, 0xe7fdb7fd94a4541550fc6c96cc9dd89224de2a8f02), (0x62641160c486b16e3902315dd16247b3b2280698dd, 0x5c3e1cd3f723174029b2c9cc972a74c9a71b7d59617)));
   (3%nat, ((0x53cb4c12ab88e5cfb7e642f174211c9080255a94eeb, 0x523ac3eb663322f4ed7fc518fcb6bec2c3e283f2462), (0x4296ed13fe2f4337ab74afa2fcfbfa1b53a09a3ce04, 0x47c5b6f43ef405c29ae29218cb0be9d180db210c250), (0x32badcbd7e5ec3cf165fe5193454924a9cf223a46de, 0x331f8165bd54196b54c2f4c46ba473828f38face63a), (0x19bd11a56d1a1eccb6ce6e326718b82f81594401b50, 0x30eef0073f202beef1d9055cdf6c4cfe75b084f5e14), (0x2e9bc23f24b8efc1a9d181f472abaa9167b98c1e97e, 0x5f9413621a257c990619b67af5efebc806dec27e08a)));
   (14%nat, ((0x59f6d91c341f86a0846e741eb28118d0a38a35c3f85, 0x4d8009af951014ed0e2fd486c671ee9964689663463), (0x3b266b8cdb283c681771e2f1a59e35c722fb4fc757c, 0x830740e62fbb23c084b4f8c93c77efa52a210283fd), (0xa913548abded2cfb0ab25a3938663e4bfeaa68325, 0x2285a263e170ad478d4c416bdc6605819e446569ae8), (0xbbc91f8d1a13681ac8cca15c03160943e9191e5aa5, 0x49ade23365a40d442ab0d68d3e51643aceb63bd539f), (0x3e031894ef4ca051d31f3f67fbdbb6148f6f2a9bf76, 0x6223de859b8b565f53072d6a45b02e1179eeed69e5f)));
   (3%nat, ((0x5ed9f026e3d0e961ae0a5c754cd3f7e770b2ea890cc, 0x48179593b2455f05734970c9cb136913dd3a80aa5e5), (0x332eda96cea680bf19d55707d9418e8c1e30fee948b, 0x1fa880a39ff8ac9ea354fbacffab28001f7e0cedc0a), (0x9dec11c4c45c2de08992a2ea4723549ada81343108, 0x4e81a7192aba2a2ad7c26b1ccb202dc8820eaf778fc), (0x3cb235a62be559362bdccad51039c4130a8fbee4de0, 0x35a772bae4318c08b7ad95893fba079d08ebe15abb0), (0x331ad9c5d8686e803d33af975ac79212d13b5e14136, 0x309c4e245b7cec77adfd47e324976cf4f47d58e5302)));
   (5%nat, ((0x1745544f66d462a3581e1d0cc3ecefe7cd9cfce733d, 0x34b85deeca975fa6ce1bed279e0a8f6b531c324dfab), (0x1b5f314c6aa753657b5b4d000b0e2bd8d27983e3e19, 0x45977a097fa2ad333e07cb302a3ebc524cf990c7b4), (0x2fb1b4a6637a709103345409c4dae31e7a65a923e, 0x4e55a0fe60e518b8957e228f142b32ccbaa060d97ea), (0x3c6e3619483ced512d62e924d755aed15bbe4e6ff20, 0x3606d976e6d9e5066a2a63e9791514b425ebe6e4544), (0x10b4bf13cae2a72a31d5e979c6b370ea4df83036f92, 0x61521973340233a5f6a45c2a765a5b402e6a90e85ea)));
   (11%nat, ((0x5d462687e4f7c37edadb4fae98fa8ca6ba40bf9c315, 0x34d78d74582767ea4029dce2dd950202b808b06193), (0x1b7f9cd25fd67b6694283ae32fc301158bab47204, 0x56658048e4f3fe41ccf312fe6759456d9d929c7335), (0x498263490cf94df9f29b422188dc32a747ae9d829, 0x60dce37c3e69c58e709e930540ec4ed191686facda4), (0x5c66013e4fd985b0bb9a8f21d2be99a103ff19b00b0, 0x6292e7aaae9d0d7400af560b9036280471062618c20), (0x1658a1c768fc188cf53369b92b52790ea02ae49f98e, 0x21ea487baaa158971de74e96c4cbef5ada7f06b872a)));
   (12%nat, ((0xb53de231fcc0083888687531141fbbf77978a52b55, 0x11109e18280c8ba9d9b479f6c10f78006f6db5e9f53), (0x2de2c4382409c2ac24f664599e118413e513773679, 0x5ec1538204e04063d53345bf8e9bbeebb0045ff4b84), (0x586bd0e92c5477fa1b17202963b1f51726366ca7d84, 0x3dbc444a1a2de6c4211cfc4fb5080bae6f791f45f5c), (0x2588934cc5d56f627a841949db2d7289a6e0b472f3f, 0x3fc05f56a4d5f2f49e5c3fc89a1769c73cd11e3721d), (0x2320f6d10ed2d04892ace2416f01670604a24536c8f, 0x6343322b9bd3e53794158cdb2c8463514fc20b86987)));
   (3%nat, ((0x61088298198b65d24074d5fcc78ad3c1ce9da48f6a4, 0x44e051c6088c06e2c167730350c057a33682b479dd), (0x2eb7f1f77cc1d72efef67b91106ddd7e518e60b66, 0x4093365556f202390ac91ad38050315fc0feb54a11b), (0x2910d4dbad306d03675f10116aab53f88ac42d35630, 0xc7a147441b40d9f84e3bb5bf68b0d8983d30603c69), (0x18877409d69a7fa72e52bb57a8f0d74f359c2e74d5, 0x603f335db2c1f549d6d4b0f46ca2238e59258e51400), (0x5bac8b82bd34b150757620b608cb3169ba30d000bff, 0x205feb683a543ef42085530d9a8e4848e381f91d34d)));
   (8%nat, ((0xa526ac01b7b1e45fbfb5b6d206d65a4d87eb543f60, 0x4a62c25b362bd23b76a366ae1145d48a6f6a08a5549), (0x367dddd19903e8373cc926c5472a0dc1ecd352e80ee, 0x39abd1796b11a4821fb5914e2b01ff5cd332e91b53b), (0x20c116cd1e365e6c5f34fe81c12ef1f6f58d4bf4149, 0x3ec30692af749a8c9b4983360adc82eadef08e521a4), (0x26cabb779d757e4f735949dbaccf06b263cb3477d90, 0x42ff0dcbbdc814cae96f7607fddf308e3ec37507cc0), (0x88868687fe6cd36b69f4f302c1ba42dfc67f692a7d, 0x64cade37678be45601d0fadd1c0aabddefb6629a2a7)));
   (7%nat, ((0x640c29cc0ddac1996911a20018ed8bdfb9b4dbf87c7, 0x29887ccd3f0baa7867b30148f73c9e549079039b916), (0x10fce80a5ae83e15a394eb2b844a8a50521d0930eb4, 0x57e3d1390bc477006bcbc7ab7b20cd9bf63691015c0), (0x4c12968fe0d9202078340645629bf110808cfeb894e, 0x13580ca546124f05360046b57f5e03de534b67a118a), (0x3af5db46bee0538549e0273f2b77ab2fb010a9eca9, 0x61c9633963453451fa35aa74e61f801c550a094188f), (0x14a6fbfa435ec726df8de603a5767072982782f769e, 0x2b9e33c4d7e1179332ae522b5788f6a7db2976977f2)));
   (15%nat, ((0x12bc77080bea4e669d5e664775dc60d9ecc0256c651, 0x3a41af337cb009e2862864b1811db14c752d7ab8b67), (0x216c2f811afa9df8d50010639428bae2e27b220e3e4, 0x2a6da4d6fbabcc20d12a21b3f2d98bb821af4a25bdd), (0x11ba62c9a4a5518b9b5d2043be4d314a041d2435647, 0x48e3db3e4eb5cee9635492fead9ca232df12438306e), (0x345283104d877a5afdeb9d6783968823032c13c29af, 0x183c926382695674a2c720290f22702d156aa1294a1), (0xe2fbb315d006afa51df847a99aedb403352e75b97e, 0x46e4a6e7c4f403e87366f4c415e0e55ae250b5bc918)));
   (11%nat, ((0x317ea7847faf7f2e424dd2133475d4d55a2bb7a3426, 0x2901da65e1122bd8a9669631ecff92e4aeac72928d2), (0x108f779cb2fc680a192c0df300712b92ba3e71b5c81, 0x5a8f7db7c5d2f4fc2afa0c890e72172f2620faffa77), (0x50c4119d55a8b0581fb78918b6636fccc524ee88ca9, 0x628ed11b8ee6319194000e2693f1adf0c088b60fd7c), (0x5fa91afc0a049011e0002ef20dc5f997571c5488936, 0x301f2c912fcec7209de4632102d7db3ab2701e644d2), (0xae8b29c26b8d84518c3c6a17fc77429d9e0b46d7ed, 0x3d2c34ebf8854c0455f1ab92840577209f2ae07a9b5)));
   (8%nat, ((0x24da3452a11f882f518f5948fa78709f55a3fa9a6a2, 0x3e97a508bb85f69b718f97c7e8258f9f85d095fd3f), (0x26952dbe29aab001a6b985cadb1a13c10955ad451, 0x277dd5d4752ff041c60ca943f6c6b7df068a0a60a24), (0xf5bdd1d9063b87cbf96889d43e8612eef9b57fb0b9, 0x4cd738bee601c6a8e4cf12c9685aea3696f14e7666b), (0x3a25d3adcff8711b6428931aff078d9168e40b78844, 0x142d9215a5d5e27734ff380810f23f63afe1f87b845), (0x291e6eae9e4c4d7decc5a1149a21858d39342035b9, 0x1e9859a24516890e3f5580cd8b167c72668c44ba2ae)));
   (6%nat, ((0x937e7a200c57ebc36cb103e6fb263082a143e46d41, 0x20ca0e4ca8e8f2443e2517cab61e1b0ae5b59d512b7), (0xa96875865703be5eb95d23b2d062b3b31ad26fba89, 0x1999d73a05739866ca2189bc5e14b3f3111c80bac9c), (0x674599eb016938fe11aa78bb699911179724a44f5e, 0x248243bdacc4db9ca7453e7d7b9daef211e501d7dca), (0xd205d6c8b49bb1ce37cf03724cc106ff54166abcc4, 0x122c91c5b505587ca59892d93a52d2367ad5754e070), (0x10bd7abd0202ea2a96da76317d723ef46295923d6c0, 0x520fcd15fb35e7d3e3ba2367fb4b202320529e2a5f0)));
   (8%nat, ((0x425169875c84324167581f347a27136cc35bcf63909, 0x3ff4c874059a4d2dad2471f7e064808ff05fb81224b), (0x28484b6bdf636abbd48921100e514e2b1efbb3a9051, 0x57d3b9751fc626a3786da97e33373374cfa7c68ea9c), (0x4bf6bd6f1122fab2cdd0411dc0b26dc7710ddec4b26, 0xd471ffdc98c631567573a3bb4a874df27fc5aa1aa2), (0x1bc78df5dae84eba8f9c263c84a86eae85a83b753c, 0x2a9932372343b5b4d5a9a1e8a989b09c130ba604778), (0x56cead6536d610d1770d5e410c196633961a132f70, 0x59fb8fc86eb3520428ea1e2f88c165e56260e229a18)));
   (13%nat, ((0x4fbd0cef596b5b1666c0c725c0112561cbd384b2cb4, 0x2aea9076739309ff5f57b37465e80ae48819851241c), (0x122360f17a182d7bd785f9e6195232b64533e4bf3e4, 0x457000f58366fc1f0b046f42a934a1b56bd0c0b6b7c), (0x2f7ba91cdf8cb9e5d9cddd7cfcb117a3c96dd4ea77a, 0x5f66bfb7e0317ece5adacd4f0a64a1eb3f67117fe5e), (0x59a1992fa52750846fa9d670d7ad6f080165494bdd4, 0x603a24852fdfc95ea668a6c1e605d6c7189234365c0), (0x5c8c75a3601e62dbd74134fa4dc1804817e5c80c325, 0x44bf171c51cc5f234c524cc729a1077d72d2ddfa7df)));
   (10%nat, ((0x2e8ae8c1c1db7430144ff3bd668362ec751196dd12f, 0x58ae83b4096321486b06ff291ecad44d012d217f81e), (0x4d730e328f776834540960fe5acf88ab638c847e0f6, 0x3435c27b5c967c3d2bb7c78dfb5c56bc87f66506f86), (0x1ad83a84587cd139707e35df894e2086d38b2004169, 0x2648f22f1cb2e70822f8496cb195570bcc9218b368f), (0xe6f4560d2d181220d4d84e0b4276a0d5596eeefe51, 0x248b2e2db474d800b075ddbf55925aaae51964e7684), (0x89d4c53b9f60d7fa8b465d9dfa342e3b445d6bb0c1, 0x1c811e5bbbbd8582516fd9e4b73614ba3b6c582f70f)));
   (11%nat, ((0x800646561bace7dbfe96c620143e87786822dfdbc3, 0x62eab5623642a560111062ed0724e1ed1fa19889c3a), (0x605bcf9b202b0b51b023b08fb56d99a48eb18cb441c, 0x4ececc5dadc6a8ec503e4bd299818ed5cd868f75cb8), (0x3d29b9fb02efed26afb98d7fd284052684a6a2ceaa3, 0x10d515c502e782bc0d212cc10063d63f85d9064d439), (0x2ca4cb4ee5e58169b74f29b777e39452af9b4deb84, 0x243d307d802a89430e3e90ed9d21a8c88f8271221fd), (0x8371827b2cfceafc45204c6390785b95396fdd2192, 0x5919382f2cbbe9ebd01b38e003be54ec85e8c8e4e21)));
   (12%nat, ((0x4e2ddf93edaf5614005c07981984a3799bafa7f79da, 0x3fd3149951ef89877b256dad9b191e8514ce7e653af), (0x281de23528b2cc08d33121f23987ffd724b25913727, 0x6515df3ceb2cf88f5edc34ce4b514a948f611d081e6), (0x64a1476b0ba36ff0e0da90bb97c047770f5fe3913f5, 0x5f654462e0e706c9b2abf6cc8dee5e185a6fdfa8ef3), (0x599ed06dfd1b2513c87a6c006b9ad0497a407001c84, 0x3a16d23cb880f47047c211eeb9db0f5dfadf0a26af5), (0x200238f21b7df488ef3931c8258e7e28ac111bd3fcd, 0x3ff074a5f0c0f06d2eb4f2dc3be449bc0b566f36111)));
   (0%nat, ((0x2842d81e23d5e4fe8ba921190319adf992d9a762b83, 0x64d2cb8fc37107d36eeeaeeda80fbc598b7cd0c4fba), (0x641be71bef6fdeb2705bccffdc4b84b4be8751ae73a, 0x1f282ad670e5510e0e5efdd6f8b0112a5538f6400b2), (0x98f5d8997f495d3637477769533a19eb0265bcf043, 0xfc76209572703ac25b74246336f7f28493d5847a9d), (0x273aed81fe43ba06b1d59f60346196d6805de3d20c, 0x5b512ee35f1c4163c8a95741d663101a4af0a4de2ad), (0x0, 0x5b512ee35f1c4163c8a95741d663101a4af0a4de2ad)));
   (8%nat, ((0x521eff9a229782cba82e9ac4a43df33657fef450118, 0x3f5f8e974aadd3b0537ae1d7d339503c3ea88c7acb1), (0x278d2c50c483b1621aae4e5d26171ef6c03620dc877, 0x30dda8c57e9ee4d17f54a6bb65bba78a235a7477d96), (0x178410ec794b8c31c3b57f9ba073a306d51fb35cae1, 0x508d0650acbb8db85fa3cbbe2f5a2f852313e34af37), (0x3fe605950f1b7fe84ff234297eb518c096cc920232a, 0x192dabe65bdcd6ace42c5bf601ef011b04c268cd42f), (0x334f07a76ee9533046f71c9cb7c1e248938cfcc79c, 0x3c641a1054ca548695af19ccb717038b4a28502aad)));
   (10%nat, ((0x23eaa54bb123dbc5ce9f6e951d1221c34ac64b793, 0x3a05153d5ae714b0c89b36de0986b8ed3945f8194b2), (0x2126ca86abc7e70b2241e15d0f1b97f36a1b187bda0, 0x365e4eb2b10134f9d1657a9f13f6457b359b4abe2a4), (0x1d1c2d410fdad3ee06411b7147e3a6939de989b5386, 0x442beee07e86c5ee05160f152925d15403b53095fc2), (0x2dc47c6c2825f22102258d07585dc12d4eb7fca6a6f, 0x4f55a1da12a8ad582681d38a036f14071c7bfb5faa1), (0x12b397c31412a827484435ba588d1e2a4aaaf4f0535, 0x29b985f3428668203c0a89b45b4004cfc7c20a2e716)));
   (12%nat, ((0x11251cb676b08d4a55c1eda129e2e53679677c48064, 0x615f367c35f67ec340df9092af8d5bc1ac428f67bd0), (0x5d5f4b1e3aefb2981e10bbeca6032ca70d1590b2a05, 0x26d0c61adaf47c89847abf9d12064cf750fd757ea7f), (0xed667536188bfb119abe3f230e1c1ddcd7dc2aa632, 0x3ee36b187db006c17e05e8db26a0fdc00e8fe009ff7), (0x26f2d0b61bddf18ba9a6b19c3102b6918e49bb128fb, 0x5a41b9acf2d6477b4db82223f8dd8722553d7ec67d2), (0x31bbe044effe02ce94d4ec2feb67928da21d1e640da, 0x5997e9c974afe6bc6594bd09ca318c5ec6b0f048032)));
   (8%nat, ((0x4f0cd32a124c77265bc3f7d21df7aaabbdbef56f457, 0x32546da0db572dff29a4c74874e1b2aa7db3686e299), (0x18f22bfe47e15d6762c2f0db2d8b57e614dffb80925, 0x46f7d44282e6f3cbd5e627b43827ddaa7ab054e450), (0x3199722a20204b963fe8d704162b3ba1cecf025a9, 0x2e355c6d839837e86e6cf8ee5ee6be5eddfdd10ee2b), (0x15071af3991c8353907431556ace85fdf00001790ce, 0x3efb1569d325e0f074b009f2939e5599f2f685e3b43), (0x8057b8a5f5d6fd62b1ff0aea4c4e93890f80919df5, 0x3b178799e611f1235d185d9058283687969b61e1e34)));
   (5%nat, ((0x226351151052ae6a1939ea92af2a21cd06da194fa8e, 0x28a6ed8a84e348559f8b4652506649a2db2d7db6bda), (0x104658b707f2622e7e5c1311d6eb74d5b919b9d7aab, 0x4f1133be4147abdce1aa60e941a4fe3dc6ee420bb35), (0x3d90f7f2eea71a41735bcf7bb6e3b98a836046161ca, 0x64c953386f9428f7f8dd2a0254cd7bc687f160dd937), (0x640919aad3867bd9512783aa0d8b06714efe6600bb0, 0x50e6aca9a20f428692a47bea8bf8b371bc1628c75e1), (0x19041c8c49939ce59c4bb69face568de0970746f799, 0x2209937f65cbc17f9bec2d94192ec061499b90c0980)));
   (13%nat, ((0xb68cf1c7d1bcb9b37884e1e5d1bbb203536cd23d20, 0xa6efb1ba60b7e4006d027a9a5ccb1b97cd5c5afd60), (0x112715c25804c7d9e2fec170ff83f85eea7959aa98, 0x5da10b41bcfc32418c96bf18a8d1abe9d077ab92c48), (0x5654fd61520cdaad87f66910c35c44ba2ef3ff1174f, 0x5ec6fa74fb32f72ae391cebcb125d73386d8604207d), (0x58765dad6fbae09e50be9555795565f4577e9b87c8b, 0x2cc9d03e8799af6bd8eed5ed97ee631a0eb5b9e923a), (0x2b138340c0413bf1f59e62fe2ed6458a1fff0a16893, 0x1)))]
  0x497dc6c67ea91af0e8498131887d600a06938752dc 0x3b30990e1fd4594c45ae111f078ad3a4e87ac2717.
Lemma prime_171_ff4d : prime (Z.of_N 0x658afe2567b4d3ec5884a4ac633d2fe7c0fe237ff4d).
Proof.
  apply (good_prime _ [c0_171_ff4d]); [vm_cast_no_check (eq_refl true)|].
  intros c H. cbn [In] in H. destruct H as [<- | []].
  - replace (exponent c0_171_ff4d) with (Z.of_N 0xf2030bbe7b93e35bc387fb868dabc08ac85d) by (vm_compute; reflexivity). exact prime_144_c85d.
Qed.
Definition c0_306_b7b7 : cert := CERT 0x34bd9d6ce2c1714fb488b6a9f46efe233a9b48ec9fa62048d53d8119cd2b56609b2b408ca0e7c [(0x0, 0x34bd9d6ce2c1714fb488b6a9f46efe233a9b48ec9fa62048d53d8119cd2b56609b2b408ca0e7d); (0x2b7651983ed0906c485663fe32f69cc437ec6ca0e57f8ff25dbac3375e9a6fd72432e45528223, 0x2ff388b4b4b430c1a1b47ee92fea7734cf0041805b9f9c28230c071f4ccca9ce5bbeb1c6ddd04); (0x2783f03588aef2045b2de01a8622928e07683ee91a49e5a1d53770428faa67cc21c95ca776e0c, 0xf34117f5c1865fd726ce3b19eaa37582e3caf63ebc465bc03414040b4e6354ec3314b040e460); (0xc875960bf97917bc0217fc0114b5d5c860ba7ba09845818bb90ea6325f60ffc9495a57b5b9ad, 0x2826d21e3cfdece24fb97e9d5e77802911ebeb7971ac5289a37bb8a310b0212af82df4c505d35); (0x211680209e11a12039715f710df9734b7e474a395f439ad54a0fb14f1d259255f5221c3a601aa, 0x1bf87dd72bb8a442115fb1b5fbffc79d639e49ed911e60b82951bcc94525b656c7d969cb8b25b); (0x170cc4df9e155c565ed60e8adb3053f4a2fc30d2b728c132c2f9dd82740e4454cfa71a1c9645a, 0x1cbc4b96533ff33d36b0146904e8e7a3ee6a201524f3695248901e1e025ea66a06af0c216fe19); (0x17ae2028288de600700fc1165ef264109004377ac7a44312300e2fe954246ee7e6ba794021484, 0x1765bbc7a44c9c3ced6f7799783d0875a54e62de770921e3e272ab659dde4e3755d554b2a69d9); (0x1347fa8e1e4808701abf3dfc5755aa414955c8a76b4f4a8989afca5bd59f2094d2e0200888ba5, 0x37973c7f76be9002cb3ae7ef933a06af8804615d3a0ee5b17e98c8ee89b5e1325a5608960c702); (0x2dcf9483cd7a5a48363cbe0efb9c1cbf8f8c90fe87b779b1eda9a0df409ad30fff6d1cb9c3b1a, 0x226ae130113ed56185c013146abb616a9f1e4809bc6e8e861bbe5d0525b7579dc91d7e2557264); (0x1c5ccf40cead58c9029d32daf35ac47150c04b0537f2ca4f5b0cd5b50d7ccca5f2758d1e589a2, 0x38e5f769325f8be31095e489b4ae96a8296998e15d1d8b6d650f94fc8956e5db197ebaae62206); (0x2ee36c190c2e00cf74bc9c03b4a3782a382f81f5520be6c01a92531645b5edb8e50b75d477232, 0x24bd5b6daaef34145dbd156873f2832aae6824daa15f28bc4f91e30fbe9632ef8f2bea59e9130); (0x1e46b3da20be2c08a8d9feeb340d5e461d48c343dea762a01a8e4c38fb27476f866ea4c4943e2, 0x184fae59e6b21d13269ab7a27db48a951fd59a47b8a5b0b386d74742492c51e7df0152e536fe2); (0x1408c4c4c13b9a41dc5664480dc40b11321cc03bb87a8d3f0c5dc82c360ff65c600c08ec27235, 0x24c2ff53d925bf195065041f525495b9a8c630981183b449194c2a378fa558531e12a0f827677); (0x1e4b59bb09b42fac136e5e8bfe82d5cebd39e8459a378ff240d720517aad81de7d8d0a3394599, 0x14ba32e23c5cf6016e38f5a0490f3bf9260a85a45e325416288ebb9e3f866a6feaa7fca113abc); (0x1114b2321d9ece2477aef167d814d1c274ac98b7682f1b0c8b298459d2825fded794d02ef91e2, 0x5ef31272649b6eda51ea7d21d78dc93d13e4d0c0b3a2bb325a3916e91793ba3e54e0996a1f3e)]
  [(6%nat, ((0x0, 0x1), (0x0, 0x1), (0x0, 0x1), (0x0, 0x1), (0x0, 0x1cbc4b96533ff33d36b0146904e8e7a3ee6a201524f3695248901e1e025ea66a06af0c216fe19)));
   (5%nat, ((0xce6ec1ff546c0bf21a1223e194fe4375338c27acea16e108c10ebdbe8c236e11b1932438cfe9, 0x184fae59e6b21d13269ab7a27db48a951fd59a47b8a5b0b386d74742492c51e7df0152e536fe2), (0x93c25f7b5f072378146778749742a4de0a171b4f4746e44d0f4f9415876da81e294065961080, 0x1993ba9409e6e064b1857011f1be9de59ab8b10d2544fd3b7462dc94163215b9e7ac5e0607804), (0xa38bec2dfb7abe13edf0611b444fed009da08d861dfbc3a29decd81b7caa8d4b2cb31a994621, 0x11a350b6c4640d8c5d492e4a1ac30fd464601f619dd9057dfb1e1b0b8063d263f063a162f0779), (0x4dc63a0a11879c10a1b744ac0827456429f6106fe18e264a112fbbb60b19b2af91a7c895cb86, 0x1bff27dcc9ff0a27e691b3940ddc624e476840c0e614a980b2639a5d0c3bf942dbc668b489067), (0xc3c589816ebad0293db952a69e8240f1a69a5b41fc07f18e799ac85765ab9767b3387ca71d59, 0x173555356c2c968025727a222e79cd491dff42c5b5fe7f5edbcc2aed964839926f767cdf858fe)));
   (8%nat, ((0x86a81aff7ad49f3af9c9019c4892312d9dc486e5be77314757093864a88f135403788123db0c, 0x3df530d3ad21b0732539f373f27de78b0049c7b0cb5ddc6cea04fdbce215af7a59e5c4d407270), (0x3bfb106d7bee021863b5de83b7bd917001b8a87fb3afa2ac8f6b281b327fc0a080af9f19cba1a, 0x39b9cd710e41dff906d296bb023b3f209421b14ef9b6c3659e9de7aa8511fed5f3a16d3a2526a), (0x3411115baa78ced6ca75ded4a701e7db0870c2823dafc86cad6690d6798ff40a85f82e4f950cd, 0x39931915ed5bc79b602496b83ae270d18ca3fd020d214e0fe6889c739e9c4ab4b868f427ac659), (0x33cb56c6555b021c9d7b77950568cb7decd606875f6f5e0a70a92ff5684f8d60a32f5f01029a9, 0x2f7be732ef02bea40290f372318156d6c293d4d5c4ea8b69c04e0c76c0411f87a903b98ba3422), (0x293eafe7fc4aa468bc13d7c78b301f383e3229edfa421f6d541999fc3b9054097221d4299a8a7, 0x29b0ab4892e6dc33b6196c69b1ed0cc72a33717ac3529e7426660fc9f17850788bbf11525e5e3)));
   (10%nat, ((0x1b284324d5c7e32adf0e759addf78fd50293827556c14626c24497242c3dd0ccf54c3e8389b18, 0x202c06667a36089c0b6fd930a088c9da69bf0533637e5530f6e627c2c28656fd90a636f88e121), (0x102c24af47c1ede8793674f624b92724ef9f5b9786ca779567fcc458c68ebd32070f79556d516, 0x7ffb1c1a1a10bd2ea1ea638c81ed712ae080e89f322a5de0c2b3a3a24a8d201f4825f6b9f987), (0xffec70c81085c390d6206339c9643fc9cd9b80fb95fc1a55596b63023806c9953d75f4c0842, 0x34be4503ff5cd497ba2548fc0a9a008b13e06164735b0c686451a49b5472e3338b4b1fa50d003), (0x2b7765d0911faf84e9613053cc56637813a73b03b6055482830cea102d1d949c77db0978f9a90, 0x32432f4b759693931f618db2530a4f883b95a6748f80b48c6ca077b11193d123078a400a07319), (0x2caf64152934d8103861e515966822e778d13cd9560079fda7a8005ad09afff931211f482abbf, 0x3a7da6c16e8c4b6bc82236338f354331956b20bfeb870cf4988e8429582121fa6ec93f5b60d)));
   (15%nat, ((0x3574b4efae73d2d13c1d3eee84dcd2468f6de9181f6512a074877bbffa7c6ec26a8d74d23, 0x23078e7c8f2d798c7c8a52d744ece1742b778e5af14dc428f2ef1a6227db3663a038b4ba653a4), (0x132c44bca512bcaa1ad849619b081e71f2ce7be8086851ba49adaac679c5c89ff1a7548b258ab, 0x32ae6c78fa5d9f2ab7075c3b2ae40d8a25d94e0ff64ae97ea4369e36111a59c12b261b06e21d3), (0x282264db90dcd76ee1efb67afd84e3b5219dd0fe5a473c9f7b798c25a2f54a12600d9e57882fd, 0x306150d87d3722d581e9402a6233d570401142c3ef4cdf7f337a72def9160c99b0f5c6169960e), (0x24928d3e322e58b9da4c20d010068eb93cbc706288eb1d54bf3174a9ca9ee9b0e08ee0d51a0eb, 0x7b41777df25f5974a0c9b309b57b8c120debffa7bc9c0a88aa28ad107d331b6afe700cd863c7), (0xb6dc4799662a34aca7d8cd9edac95662f7ca138798633cc4af42564554bf4e2231199704336, 0x1cefb3ba4f9e1691bc6d0d182d384a36e8207be23babdfa6f1de0f28f874621356bd2336b9d98)));
   (14%nat, ((0xd153f0755e544338d84ed3f6ff366ff546c39273466422136cd955df12b12b9b80163bef9b40, 0xcba9877f740632f2ff91a1d6d1f5ec40afdb231f4602db743dcf4f205e52467c2207ef510f80), (0x2881934a14002c33e0a7b67a8bbc09fc62e119f1c25ffea37a78c03ee15dc082bafbe58d3aaf, 0x2da44fb819626baa33bc0b549667c85862bc2b665a0dc28f863713e8f04d5a0c8d96537ca33e7), (0x208cb5f3d681100c1ad251822106f9acaa6b6696b0f775b26df66591772b9614dbe352fb6096c, 0x1eb37f98c58c7f78d5822d9714b4d8cc8ec083322aa1cd0c127b8a0b51ebdc4a94620b8dcea3d), (0xeba3f0df6287e1cab1f8d6e08c17c5e375aa8ea16045501f979e60d52665bb8b41b22e6e476b, 0x22121859ff380e2fcd41b243d30a2c5408cfe2997591dad0819d7c1d928f3b33cc46add13080c), (0xb08c749785e0056e54ba886a9a16a70b979ef57a6a4df0c7e5adfa8de2cad729f5f9a14b9ea7, 0x27685603289c71fd880b478d234b15ddf74afd69ae12f357ee866ec57ced2ed96b70d7cf2d66f)));
   (2%nat, ((0x1843d2ebd75b24abd090fe29081cbff07bc7a1ef999cc3283d95d5cddc9a3bb7cf69c3cdec37a, 0x3fb4e77127895f839e0555c15f53a19f9be8a0f4ec32eb739e6f4d50abe4df97c89f46e4bd1eb), (0x3f6a26ffe74a763bc27757997be66ac2c56f6806f87f9706ef5bbba7383eb5673c32b68937e34, 0x260beccadf3af31c083190f163175f9d7e160491b9baeb9206f9d84e08d9d9c33a65ac452a8d), (0x169e2b69baed6e5bcb0a0f0155de2e8a39b5740cebd49056d191ac6bfa8286f05b0f0405328, 0x3a9a5cb490132a2d6aa22631904fadadcc246d2324f3dc3d895b4ef9fb369025ba190aa578811), (0x35a93c55f0613450153d27252898f844d892caf3a08c10e13f886d50146a0558e69772ae30398, 0x13b882aca3258bec60820a043054b1d3a98e1190fa04a0e2cc05fc805351a757393dfedd6d779), (0xec68aa6b397db069bf187dc488bd85eff12f32080856bb617d142c2dcddd236e260b46172503, 0x1394fe92c325f4b7cc07dea443eb0a98af317a097e4afc90c2c71e11a4e49d3cbdc52d97d38bf)));
   (5%nat, ((0x5fdd2047f435662e9df1c6b3abcb74ef392aa6ca8f2e2621dfa0f172eee5ae570ab5a3b67f5e, 0x229667f9c7d4512fd892b4e851f6236316a3c8ec066413eb03b21ce13253daba8b09c5e1ce04f), (0x12b12ff17016138c27bbe68812b98fd8bcc975f6b816373451b0dc5d9013178e8ba9da60cd59a, 0x24ad6cdf2a83376401e068e465edda1dcdc3c247f55c3bf6f046d7b95ae27dc2c3b041b80914b), (0x1504f06c5f85ad5b305f6834af1f2ac688b11e1c9ee4b9e60e24b54117dbad006bf5a4e7165ba, 0x1ee185fb1763269bc4fa0460c6391fe332fe7ed00d8543fac279a40564d0736ee31b049fa5e03), (0xee6884e8be4d7a912a57fe52c536c29ea3d29a63c0676328b8d11d43e91156c85ba025259c61, 0x1331539f48489395ea497f6610f22125b2b2b668b030fe43ad241ec7c98ad93c8e01a00d413b2), (0x863542819db3f055cb03dca51d031bd75e543d8d4d418e22421416b122def57e042a247305f8, 0x38bbb5119d9f89666350cac6d467aa4cf022a8e984f60da12bc16d8935dcf19ccb6994e9737fe)));
   (6%nat, ((0x324aa366f30ff525be422af0de7bdc2b2601885f927a2e2cc191362b144bc815b7409f7097f6b, 0x2d9a37b33187e1ea29cb45b067dfac9895cbbd80e7161ddc9d9bcb67ed33cfcf9ef18d3cd8d87), (0x207e51f03c7f667b44665c5d5d30d755c7c8c121d90b81da8f0a365dd574f7f22e986d5b92ff9, 0x204c2e776b374400e9fd8a130de29a6ae853c226a69970b88fb3fe6c4553141f7e587bab5b332), (0x104c8925e8927035470c7319d0b4521e2af785b11a2b957ba916513ace349b9300c2da306ecde, 0x34eab9718a82a7fa663996299f4085087dec284622e35b7d1699f20b3399f29539a8b1760f112), (0x2bc0ca36a8ae5e94e16e6377959a7e534c5ac0e0991f34c7f0ee7f5a53bafe5c72c38b65f8ab1, 0x4ab5ec8f4e8a80e65eb67007b937b90bb64933cc884d881031748204e8e6284a28ed969039bd), (0x218b6622441c44fabc2baddd881c71d2d57cfd0f2a75e1f5a296cc9f9b055ecb185ccf0ac083, 0x1edc3b51609ff4f4117a66835fd69b757481bf21155c0aa7b5255a5aaf06ab5e0bae5fbe9e6d0)));
   (7%nat, ((0xee16d745108b2f8f0c26246d6907e2b3e9a09114b781ab3d796b2176fc553a4f546428ce9b79, 0x9c52eca7eb52c52e7c68066eaaa09c16d7d39b2b3fb6c40cf1b3f6ac5aff8b52ffe13d3c681), (0x17dd4ad247496a571cd0a0d1d71f2f9dbab9eb31296d1305e64e0533315b3c22fb5000d38e, 0x2db7a99304b3b98ed43511896b284f4fc18b223ed5bab75c8d02016ae68a277c3fa8d97e4107f), (0x20a8558640ad634cc92758e28c6c6fdd5ae4813fc094fb428ad0ef3e5e8bedce9e03a0428baad, 0x2ffd007284cdcd69229bdc87805098be07fa2a73f5de0d4a7981ef46ca27cf50e4b2313bf0256), (0x23fb80cfbc790dbca2cdd7d60a9556dfad87e01f7a6775a67934e34857d4ebae34e7c0562d462, 0xd1fd6ce5d84376759c1a0ae574974f7dd6fd59cbd4ae5e9e7e97fe045c6bd21cf4e70bdd94d6), (0x4cc4df31f9b47c3ab2c7e85122d08fd5e840ead2249862d2961e4e6d6de23ef48ae2a5600ee5, 0x11b3e8df5a9e642df702e977b46ae41692eeb0158afab41c9b265e17a5b271245e122f14096b3)));
   (11%nat, ((0x4e58d7498dd67b122bda5388cdc693db45e2ae6739e8dea2e31f8a4ca405d4fb3d6d212d6c84, 0x1cd17103aeff583d55b7f912adeb451b2d598a06c077d0df519fd35c0eb5bd795a9311ea352cd), (0xcf9f04a20bf6319f1a21a85ef7b67da6043172b6a32517918d2d63442284d90ddaa398ce45c8, 0x360bcbf4923371aba6765114a1d7e71a606c13386ac32c84db8fe48d9e6a600a1270fa3f01e31), (0x2da3ea595cc037932b3f664ba3aa26e806ecc1ffcc83c1174962c9909b3c865ab5259139354f8, 0x318fb8d85ce0c8463fbb73152563437b98c7b5b73a12d982cf9890dac77661287e8ee6c708019), (0x266155cb6af630aa7f28f3cd0471df138c9cebdb719739af100a8c2627909409790ef4f0cfdaa, 0x3895ca909375af5e2994b110e6bd7400cf2df94764114ffdc90b95e8bc34201e9488971c727eb), (0x207bad2178299991851be01f23adc67456ee56ef81181a09886211a093c71f9de52874d7edb92, 0x1e5d535c287c48852fc2420a744aa27fb8d852d6b1ecabdcb5ca660d64f0342f5d7aa7ef543b2)));
   (4%nat, ((0xe68063d165dbae67adf2942b72990dc9e08051008797fe277e00934c04e860b4e2d822133f4a, 0x3cbd613a0a27af5c2922c11093384b420877c2a1184023db8831a5201ed028d7c3b08d6c683de), (0x39a546afa58a869b3a8dd267abd0c242b06e74c1a4a000ca8705cf3ea2631baa496ab32b63954, 0x2714caa0295993f71dfb4d1fd28b71907fecf25836264213338b97983ac89853ba09d46eeed78), (0x17dd5db458039a25f7a006dcb7a4536136a60848a7d2a6cdb0dc5d2cbf4f6979a41e5434d5316, 0xfa6cff028ac0bccf27137059a1779f30e1fb7ba65f18c7c37bcef4351e9695b92ac21bd04986), (0x3d3e441e47cae4f5955dbbe5924eab0ea32449e59f3611de9d44cf720a5550f43d825bb8a2a3, 0xdf5f7b89d4089f1d8d4eedf3530113b81f22674aa3f97b9905cfefcd3478c82e8802ebf8ea9f), (0x8c232b42555934f42a9cd3584be6a314069ced7b0c65abf86adc73d8500ac4fa23b176eecb8e, 0x6a6a4a5c9800d6812c251807cd78d68692d76243aea565e249a45937c71807e2e8a8c625169)));
   (13%nat, ((0xb0f0c6d960a0eecac9947ed68551168dc45df48f1b05233a3c64c9cf2a74ff7a65e56473c, 0xab6dffc86c332fd912ea2d402dcf66d63128c3fe589041386c4202a565a38880badfb3b6cd2d), (0x1cb308be64325a7e7d49d95566d2cc826e0fc0b2c88812fa61fa8d394fd450d58f0b9c87e370, 0x1eec3226206768d6e050d8b717dc714f00df16531e8906f3f3da77f2ee5799e62a2c110d474d9), (0xef0d6b5bedb9646c2066cff9efe1a1912ad795b22edbdffae76749ec18caa342a48f7d00257b, 0x6d94bebf0ec14be181c1d0a5dc068fb3471bafd0fb87017665b8d6f531f955754fadac81a804), (0xbba0036f36674a6edca30487e31127221f36a79eb3030e47e9f0ea7a561f94133fdbe0e975b, 0x2211587530dc37ac20a26ec20351877dd60de9a02025c4201dd8056513ff751b079b1fd970103), (0x13918e3fcd4089301a82fbbe54076effe9c082b0275fbe2059b3599807c2b55a7f7ff40ace001, 0x8dacefe39535dc149b0b9aa558d5bd7306f494a6a37dcae1df192ed642218153a7d35c5802ae)));
   (3%nat, ((0x1399fd44fb3e23eebcf968e05b65bbfe3d9a212fea1c158ceea14fb6c80650fdea726bbbeb25, 0xae792c614437b346229c0f9dd82e696db2e350158ea00d51ead6ca81bb5356a050961450a3d1), (0x1dba3c6bcd17f230ae571dca3f321e8594349711708d13568b9ec9a1ad45d0c630e54b01e051, 0x3cb6f89791a771179ce18944158fe23a1146205ceb14e4b93a4e742715a879d6aceb073008fba), (0x39991d35d4be6c25c28439e285a7e497ef4170706385eb1e2ecbeb77dc6b8f9ff434a2bef99fa, 0x237a200d75eaff29c455d7e0846af895e09f5a8d3482c7a7c9c0c32ffe29de830d762ca248b6e), (0x13aa7c18fc580fc23dde6c80c424902de3a0e776ca36db260365b1e65d0d6bc76c6424b14a72c, 0xb27ca4eccbea3acd164f8ec9e08910214ae8d3d187c04ff979ac3512b68a7947d56077c4aed0), (0x2a666cb9cc2df8687a54785ee72a1f2b5bd6f765128cd7bf84f9aba849c984a6576be331299c, 0x31035c3b6b509dffe6350765a945f6a75d91950af457a8205ad67dea040cb3114517cb5d78b7c)));
   (14%nat, ((0x2589256826d08d30ff53c3d17355404cf02bccd781089f11f0526207c990a961a3811f175079b, 0x2515e1ed2c918cec75e061727b15f0ec2a03a2f197ac861132a33bd599c34f284a6d8e899a743), (0x157d54b59cb89ac37f5c8ccfec49625bde4787bdc756b31cf84b18284ee03a171ac4f07df5931, 0x727ff70b21ee774fc426a7ee89b165dcca0fbf464a943d84104625f2d1395186cfd6971b282), (0xccd8dff3d6aa234e144248b494b52548c88eccd45a30cb5b323896212f00762cc9213e59e, 0x2fa2bfff3453b3e808d627711b8d024833eedbebeafc6103afd26635adfc31d01cbed12e3f412), (0x2374a7dd10cf11f453424dac1cf42536e3b277a17cf58b935523004c5f6239c0bebdef706d947, 0xee255ff2fa75313c2e35cbf69b0c53dd692c7d7715df55ade8f7a38217b9d9f683ce31f93e83), (0x4d2087f1cffa1cbc95418569af0e3bdc6da795a5b6672372ab33e013cc7c77972e84a224d25d, 0x197bb091535e4b9471989c7967b05583ba99c1b1da11de92e074f8a34c17ac142cb8944d9bab9)));
   (12%nat, ((0xa2590fe1edab2034ae3e539c7bbd9b1ad37e24a75775cce4c009389aa6ca6845ebd87a90978a, 0x27e6561b85f08855f1eb935cc75673ca32d7d4c02033811ba90fc7026a67d2d14c42ec3cf600b), (0x18dff5ece4e9dac9323b2a1e5517035d663b3e0bc487391e359021117d52db7a6e9abb68e86c8, 0x4bb4dac9072510ec7cca0b0a713b9b96aac634ebf00620b716ae34e32a7bcff81b61ef06ef81), (0x598ddfd8bf730846dba10b1a25a34536f9dce1f3190122946ba78802300da4379109259f31d, 0x1fbf492d7a55f1942cb7f4e276df933effaadded41ed4c8ce3b1d75dafdab6edd2a14832d9a46), (0xfbf8a9d29a15266798afa09c02880db57179e1125412859b327201cad120034491e46d787599, 0xcfc019d28eb834554791116ef3d3941b2f7e50f4c0aa296c76aa93461d982f8bda20215dbc5), (0x4eeab0c4efa225499319a802d1d63db834dc3429ee4474c7452baa23177c51ac3737843e38d, 0x143506492669fd1f33444f9c006cb5c23608a6ca4244988bad857cc90733f2fadac5eff89fa1f)));
   (5%nat, ((0x6614fdc21c7e88e54056fcaa1c394d4268c1a910bb5b9b0b8743742ed66deb5ffd70aa0ab332, 0x13ebd01d5b1a89e4d9a14bbb6fecffe94edfbe07d16f9c5ef85700dcf4681c02bef5beb2bb903), (0x63368706a6baa681be1fe9d17501e426a7ad71a53f76be51509f9ddf57b1ca3d02ac5b4d0fc3, 0xa7c5d97d0bb0d17a3b158e56f7bc05fbe55dcf6c8ba887b55ab47ce0b42096cb877efc76aca4), (0x1b7ceeaa661e7a958362e122fefebbb3d30a6c6f1d559be45fd8b3443bf4522cf7ec450835fa, 0x240d887274c844c073b300e3c1aaf32e602302b4bd562b775f42c57c515e6435f26c298f47d5a), (0x144f3c5d54c7fbb87317a6f527f95c12041e8ef9b8036f7304d8382fa1abdef3257982710fc75, 0x14bbef2c3db733011fa3129d88cefd9d481f681903c8e76a6eb6d9326ca2903c891d237cae901), (0x90fc9ea3a1c66cb95ba6221591ea1d5dbd37755431beb45538b137dea1d5074ff11af41b87ff, 0x3410daaaab2617a5153db049c6ee184faf1331386259cec1929371dcac7521958abe302180512)));
   (8%nat, ((0x2a5b67c5968fee8a9a30c00b671cb215f55200cd9a107ce3771c969bda49e992aab354a6ada96, 0x1f0ba676bb8f9836692cd9a852a26e9f200f6c8330bd0b805307c13a628f78d6b27e01eea3a0a), (0xf0f4b61ef7c5e0fb55f882df42c468f000ff20144148f71a0abb83984538166f3b34f01bab04, 0x1371097e99884ddf6c0da9a1d024cf9c37616dedbd0080ffd874a5193156afba7eeff5de16c88), (0x5e7e548b39fad2bf407f9b3f56b8204fc9108fc4ab2d310cb10d2863bb5a033c91a20ffa4467, 0x2ef02323229947863a26fc37c08563a6061be4f2de4acd6ed3258569e1374289e0f0e9c98819f), (0x226cb78a1c8a558af2e18476ece2e021dba953c0fdc074594b5b902a9092401b464b3cf1027ff, 0x3db2cbee4f46dd9c68e93fd5b394c85a35a6fc067dee89ca2a36f1d0ce768eeb0cce5556fc078), (0x3597736c72d9667ed192db2e54f3ded49eb04904e6a5dcc6b1977b4e097b4f22b254fc09ca591, 0x3c2e6103e288f3ea1a179a13e1cff1d50bb024ce98296ba83dd4434aa9d197089a4d806e5c749)));
   (8%nat, ((0x3897178351663521137e9f925e0bd9a3e944bb61eac7cbaa3d5180c4148c8a5317971570e283d, 0x7487becfb684bcc8d99d0e82bcd5f70bc71da22f9455fedae1842b4be3a43c5edcb49dc03436), (0xd42d339c2acf1a2b58412786993fc451fa7ca572edb47360478bd67c39cc6120ff966ac37e2, 0x1d03ea007916b717f7b8f423a2afac97b052fb6f0eb879fa15cb8faf1ae2dc6d80b032a937ad6), (0xd278c4db55b6585e2b806723505ce785bb609542382c2b3baa87b44a6513cc171e59d06e6910, 0xd105cbd85b3a0823daaa72a2b5f763902c3e20bd98797812ce12201cb7c4640d2927a48d2074), (0x2aaa9dbe376e4a45bdf27084a9b7c43420389ab6c1df53b9e5c9c20cf1f57ecacd3a1b97ea15, 0x178257d765b08763e78396a8d53a827e1e08ff2951dd9228666351885c3b3dae1be3bb2ddc8d), (0x146b913d6036316ccb3776671d2bd0bfa36b3c226a0f580e82aa7cc5d3e45c0a982043109d77, 0x1f86673c6c010be2d2756b198ee5479781f1a99e200484062f524fbd07215591e192ecb6eb309)));
   (4%nat, ((0xf874e437c2bfc94182ef247b1ef8aaf85e3034b84779f955f191aa2bf3cfaabdad2de80a65d3, 0x281823dee862c2a75008406d6885981700c94fb2d523e48a9c1ec7221b48cbeb5e6640ab2f77c), (0x191e35f19dc493ee9f605aa0c914fa9ca9f9519c541ec03ee39fe53d9faafde9548dfb197b15d, 0x36337c2e2f31c6792a7361431670f18658184963fe8326ab286b3dfdd41b52638981a961d3f95), (0x2de70af8ca324e75a42e70e89eeb368f8ef888ee501aecdd945a99b699bff401ed807ac329b29, 0x37c310a7503ed0b767eb343886206338fd45a0198f2b4a054abc7ad21aaac9dc91a6f303736a), (0x3095972911d25309ad07bb94dc5d5545034caddcfffd95f84315a763b5e6b4d165d40044cfd, 0x2cc53a99de59320e7eda7e0db81e87cc7d4646b9f3a95781574decd18d6329d5b281d4ce8409), (0x1c166cb745baa6452efd095b0f8dcfb5836ffbd79d64fc1784b30393fb6a3d89f802b0511192, 0x1a8bc7de6967bfc3997430c286fdc6f535cea15a61a4c7757c7db91bac6ddd71220e430a1ad7f)));
   (10%nat, ((0xb02c3af53ec4ae10434ccfe4ba58cb76ec8914a934089a84dfdb0528f0db02be1d86b5d38f8e, 0x3b65720de58f0237ab55219563ebbd9a6058ab5ba5b5355cd3816e7c9dd1a2a72f2e0889cc47f), (0x371fab16665dbc4794fd9b069cea663039da87ca5d771fba0d63fff0564da98c7c8d15a837e42, 0x174242f7195dbdd7a5d3ceb71bc1e09dfe31c54911a52b891ac6337a95efcef1fcfe4099647d3), (0x873e4bbfdf11023b92225993241c30997d5083a41e10b1d4e5bb6a2c95d75fe31c3c35da5461, 0x159f57a41ad84f0f842909007cc6a0ad845fa62f7b2439cbaa80054512b6a7107251c0f250f92), (0x74e1e3ba1072470ba9d93f494dd887136e2247bc3ee35d971ba8fca06d16e50fae905abbd819, 0x3ce06b8c2997e4e6a05f88a8b7da7f96f5a848fb49c9bd2b655ffaa9352b10bf53eba86131665), (0x361f1c71a5155477d40c013db45b75b1c3f519c49606047e01d82d42e9a55e0d0c069a87e1983, 0x31d26ea3daccabfd11d50c586b956a9f1753d914991021bfceef152012f9015527ab024630eb9)));
   (4%nat, ((0x26c8ed51b99a2a252dda219ddda2f6497b4d41db4b1a1af46ef63467760fed1ccdaeb83884cce, 0x19d6396a9dd6231772840755d5cff07f92af0b3cd21024b11bdb451fed02d1baccae9433c986f), (0xa6e29eb77d16e36c75c62f8695cc87057ca3bd866463877053660915faf499d7dd38b77ad7d5, 0x1015235268d50905a786be441d1b890b0eeb00d1c425c8dbb58930256af4802de5556056873de), (0x40a98a475fddd170ef5bfba040187d5c83afb6bc6b78ab4361538d0b90d9c8abfc288d478c98, 0x3d73ff1bb17ce6e3717cf00cc43ae222e84d38f26c7e5369e25fba8e12577835b06ab34fb0bdc), (0x3b01f0898ebcab564f3513b65c4a750ea7b9da39301bd49fcaec2e2083ffe8315dc0f39cf3872, 0x2f80bc54790ad7268a8bd74140828e6a59ab4662da1ef49385ea11298d13f10e2db522e55cd92), (0x1dcd4619796142f6842ac2015b18ebeca18ececbff4c593770a13e0a6a7d7a90771ffe7b7c84c, 0x14f1a08d1b13201abb813817edf6f271f72e1a452d07beaef7727b8d4c7f9d21f3b4fba6b16e6)));
   (10%nat, ((0x6da9496ea629a9576c4305b60f875559e8bcafbb8032dcae5672604df8e25355fe6c7d17096b, 0x9e7f310cc1f7090a511096ebca65cbb09cd7e6bb2351c9d48cade1cdd78deccaff837ae71e27), (0x18884fef5cded149c1f887b12fe4836d1a07301c079663869bcddb7f21538f48ba745a387d0a, 0x2e04084469247c1fe752b6d30957d3562ad85ae713e6fb1a9646569bdb1fa2ed3eb209ed7a1cb), (0x2115cc2360c2fa6699cf5adbb8f002ca1c92131a896cc30643689db4500538dda02c9303037ea, 0x14bd1e2792f11e8177c316d5a6a9c065453178416b80894ae4a9ec0b8c32633d702b1e5b6b8b3), (0x6b861aee3c7c5678b5b7c2dc139071b360ed901fe42976724ce8396b9cc72d7d8529ce662788, 0x2706fce8eafdc9db97d1071a3f178499b14b2a89fff2bb2d795933aacac4dd4fb2280906d52f1), (0x22b2592bdd4877066f7fee1bf1bca26452908120d1eb41e2c2aab3cb639c5c2ff73771aaed088, 0x1e14a0f3f098175de08bf9519ba8f9000ca4edf2d647b35306ebd3b67fa325aa8c728ba01aa6e)));
   (12%nat, ((0xe235d8adecc49b99d6c7d8475016aeb2cf08c4ce7d4d3b708deea014acd5cbf01e4d16e56e76, 0x2cb6d357072fb6f924c24208ec6c516eb98321ca04c6471f14f62ea51b96c3a8a633b12adf6ea), (0x1f3d6cdc62bcc8b1648efef9f4793dea495743731865b12323f2c87d26e8105c776de601442e1, 0x349b24f85458c1946fcac06819a95fc9f6dcc6ff01b62a2cb373f2a3a8533f22d8d5e423de80d), (0x2b3d942ab143eaecd573aa1fe4e40cdc9eeacae63ca8b6cc11a05690012ec1da97a7d0de54591, 0x1d15d05ff56f9f2bceb25af42b80f0c35bd1c16d035f79487e6441b8aae42b0616d9fcba82f02), (0xd37cc465bd684b60349ee62fab2d281ca5a972ad23306b5f5ab19b5fc4d19c23261755cc9ddf, 0x2ccbd30398f8b86ff55ca10e06ebc113acf768f199cdb85166b2692067e7e59a2ec3e9584789b), (0x110434c2e46a7aa4286b5abcf7ec7b767f04993f4630094929c4198491aacb97e0fc306b84621, 0x2cc55e1e5f2fdda674d40727f8257651cd2b1cabf2e0c53ef402b2920f96dea5de9d14b40f53f)));
   (6%nat, ((0x1f51c211b8451577ceedc43216039c27ee59bff8c863ad2b402fb00faf8f97b4e8042e60a49fe, 0x2cf7223ce60cc62393f481c5942382a35328259e146f84f2d2ea43520e204bd1d85ab54762eef), (0x1f97896014b2316a73735c4ef7469d413ba9a3730d853ca2577e44c77f2eddb0cb3d4f8d98a5c, 0x20e0e56422b380a6f090f6b272b12dc8ac6e746bb96306b5cb60cef29eed1368181895f4d175d), (0x10e3fbad15d79e2c959250d4864d1f2c65907976381dd68965da8bc5c6a1d0c0f9ccc65e0935e, 0x2b9dfa7c81b552ede0e264435b378850f643a4327c7d4a96fd4501ef32888da350f3ca6b64d97), (0x1db9ce8c1585b09ec2ac4c2ef9228e6850d6b915828c40061b1b62de1b74391887cc216e393a4, 0x2dde79ae01c23827262065517d73f8a8529c887a90fa499558f44c914bcba5ba7f57c973768d5), (0x149848ee0399981bd37fd58ff9c5786e3fdb793e6447ba15e95fe938edc1e5d8e04ae2fb4ad38, 0xdb93bcad37d0ea8f0f5e61ea0f9d103e4b255eb47e2fd24d2349a43ed22402df5a2ce74fb7c5)));
   (3%nat, ((0x2f158684a5df1a9b5e686d47f1b8893bdb2b0184bb67edbe0e7599f055995c83e4dcf70b057e, 0x1e856cb33dcb68dfb0f7da58a537ce3e060e93695d9ffaf0ce5e0fe6e184dab381f8cc0f73e87), (0xe8e2c108b866e49ff0fc1c966e8b84aab2cf4ce91f29b45883100dd838e29ef21d43e58beeaa, 0x3823adc3786f8039124d19f2d3014b84c387158608a084e06397b2f911b0b5540ad9be69089ab), (0x313e83f9f855f275b5bfbb8d78750ae15f7a3b3edeeb7f9d864e935ccd2c8ff83d0681f7d95df, 0x2dcd7569013ec6a9c14d93cbe8452c7e0af7613a585763f139eecdb7f66ac00aaff557de1ecd0), (0x20c780b0a9d4da5d03b22c601b74d1453ae7a21707ca989fc61d8eacd982771ce4d3e1c2ddb04, 0x3ec059fe2d39ae4d1fb7e7f5c8107ccf124b9a8e72246ccebc29b6cc0c88e5a46c6e23dd0bd24), (0xee82288a904c99bf1c961c0eaf63f66b595fc8704b74f666ddf864de30867551ed3cc18f07fb, 0x29f8b0d2af527d6411fdbfae18dd72a0c81799407200ccddefede18b5b8e490b4a703b471dc13)));
   (3%nat, ((0x1b8668ea39f9e9ca1ddd57dbcd112b963b020e4cd230ae335b4989dfe88213441c58fbd869acd, 0xedeb5ccb8fbf53d9b97919f53df64665c22317c65c4be5b8b80a2aa4e9ebad69a4e13adb75de), (0x3747688d19e146ecf863e16b1950094708c8c4134e5206ac29eeffbc05fa882332eb0f1dd0ca, 0x105f5e8dcda12a905092fd213bd1a431a94e99fe08a2d5073755b8d722808f37956091eb4061e), (0x4303d64277cd1f894923a09ae611af20baec39bd3676a571349df08a84dc22fec3aef94fcb97, 0x109ae947768001586dda747a165b8f35940d94155e38d0181caea28a8467ef180dbb895b3f193), (0x44eeb99b576ef5281b5c69b6a58f6da05815d73e71b050cbc1fb45b5bf0bb869054f87eb4ca4, 0x1ce6db26ea60bccd2274d75d71611baf2249ef9f607e0e8661e860b8b05a70749a7144ac3152d), (0x6dd9ed6047531fd2a7f9bc754f4c559bb8916de75adeda65f06c30a39fe861e6106bae9919b1, 0x351728ee9414c491dd098e0277d3de4e1ebf29b1539bb787576aea2106b2981f8c41f18f32059)));
   (13%nat, ((0x2c0a642caaea86f785bb1719e6055dac78f921cd27446a9add7b02d9b841a4e656c7d10864be4, 0x1f2c3313c6d7e844f93f7e552a38a72ce66bf74c4d8a03f3080e4e2b65e51cf279bff388422f5), (0xf2ef0018c961ce6c476d56c05a3875e4002aa0da4ca442e92de04e45707afec86747460b7e7e, 0x2c99c170b05e3343a318f6bffdcd5c1b80271a53b002e053f9e4bbd3d94d164a2aa29ab0e8067), (0x1f14db5e1df93705709023a7eb4de91cc30793467decc086a4c0e0bb36c4c12f1c6390a34f8af, 0x362f9ff049472486d10d56321a245b9235c116cef6aff091797667844241fea680d72f4ca4b58), (0x2de08155f44520608dbff94dfae232fc8f9b6c49f3d0c7f8774750ed6993e72906ca12823b664, 0x30e4a97b43cb45fc288351f7a61e4bc69f1769fd3c8365839fe25920573c5bd7ff71e4adbd0c4), (0x1c159786357eea597f459dbfdbf2a29e1fa69f6c1c05b91af5e20c8f7096ebe20c57c6c4108fb, 0x8577034ebbc0c2481a0a4f2879b5c6e1e2dcba20964c17b921032bd3f84fedde4443ccb18aaf)));
   (2%nat, ((0x11653830f894f1ec40738b56c5f7ac830c06b6225baa978ec56ea05a32db87203c19a59fe913, 0x1bce74620bfc6ecb39e2062e01ddf80d3ce1521b0f51da7616268f1d900c105e697658facf20c), (0xc14cc30c4ee282c7e0dfe325073a43f31efc1cdc97b85916233e8f2546b8e38e70a1fdd730ae, 0x28cf4d011366c5a352eb5eb7b94762161aa447c651cf35fde649c19f79b6dc071a4764d3e822e), (0x1a05bfb7d3dc8e8e8ccf6ff4a37bf1ae779eefc5da26fe5876b1c442edfc711e336a1b84185f6, 0x29d3920cd14353a2f62313b9de1aac1ec6cdd6acb0540616a113c1a9b0e42571f25382435236a), (0x1b55ce88bdec946c98f6c9c06f5ed71754167acd947bc84289e44896063d68abd3e57697bea0c, 0x214538aef3e8f7ae9662c1cf83f1f69a5ebfe39368b13760218ddd9e1358902ca61016d4f4550), (0x18ed6f84bc78bc41bc3e758006dae211975115c852ced75f1f40b57dba443ef935d13e696493b, 0x23404c1b86182c391f20fd135802c90813f5c9b07ab9da3f09b9f20d7b68a6aeabeb4a9859f13)));
   (15%nat, ((0x136a93d6ac380b0692ac93386796c51372b8a3f31e4d4fe568ddbf9ed858af50319f6eeb618c9, 0x2804e18a0c61d3a17cb6c9779a795cc899f6a515f2a3661d6ea4a69fe586c232d8a93680134ba), (0x19061a4bdb8ba599906174e288f5c88310dc8691811a72e89078c147ebe51d347cd9ceaef585d, 0xd63fa33ff7b2d300fe6b6718de15982dc2a268095127f8b8c3b10697d5e236a7b8968eb371a9), (0x2cd39d302ced5a0cc58e9df2957be0f36691d2edaed67f723e302ebdec3bf35262c19e6ce4e8, 0x4fc599354bfd26e82b45593565b078d27d31430725da34a1f14a4f60660e00407693228327b9), (0x636e34503277c63947a5531c19d0624e455415475335beec947c937be39cbb6b026f0baa967, 0x33e9cdbc93a7a634eda2d1d2927486cdadb50f9bdc35c75e68ae455db068d7860c850d4a2a10), (0x4d0490dcaccdc3b6d33aee1259761e06e58cb23ed488ff898425a4967ec7f795fdf564c42fc, 0x1a3fd3714c0ecbad6d75634849eda3a856affa9f4d846430149ecb784dcb6ee1b81f713d019bc)));
   (14%nat, ((0xac41b730f6998b06400cd164796930b42fe4e126e29daddaa1b0a6c4b65ab91fd702bfd8551a, 0x1938aca6905ddbb17f7be1562a16e44feef7de7aacf1b0f23c844a5ba12a68e7f01e72627d67a), (0x9f079121606f159cb9c7d1901283e6bf19fdb5da5b4b6b3df59fe9387906144e20dddb869a97, 0x1fd2290658f713d7b3e63582f2950af2507ccbf63a8943cb0829e8d27b0cbe6e5f45fd713bf33), (0xfd249db7a235348e93ee1f513e6b9f3882828e37b06eb381b420657eb9f2e9e38d8a9eac3933, 0x22cba5104ce968e03e29e4805f8e45650d98ad0664214e2d91dfb6ebeff32fd1936b6b798cbb4), (0x12eae75e1ad7f8d9e67d3985eb51809d265fe10cdad2311c07ca3fb6776b9197b0cea4becc9fc, 0x17b50027a02a05f2f71663ff3b67fbfa4e74bc34cb7c30454a90fe80529c1d6c9f42981b76f6c), (0x7ad88ee0ada3c813fbe0f314410601ef6d8f6644a08b19705c8fee3de3c380442228a2f9e6b8, 0x3377fbef71491d862cb56047adbd258beb58e5c1d9d6f761446d4696e7efde2189420a71ed5c8)));
   (7%nat, ((0x29641a765eb76f5c0466c88612e208e851a297e35d03e07104ad0c79e724d369b6935eec2c385, 0x3237a663a231d9b4cf2835783e99fc8fa6ed425090455cbf8ef82d600dd3010ba50c79ebe952d), (0x2767245f59421e56b112dfa0dc6a43e62e9ff830af802e29506af1af6f8f9cd7d9249f1a08308, 0x1cb5973b472af0231cd02525f17b209b3eb115378c8ca3e75ca9f00662d39d1d7705273410731), (0xce0e790aaec0bb72344ec233c0435641aaa56422de23c9af8226e45732342fd7e1a049ff53df, 0x291a3240ff9391996f5e54f6763d5996bbe4c4f19c5f167d4a62938a85e9ffc1351635efe59f8), (0x1a659b1c43ba8bcc9a9b8ee3c4b5b12d3a1b48ed6d0ac22751523e0d9099106c4492818554dcf, 0x333a66316fe51aad21ecbf2c90124585ea8ce7db7c942187f57d16217c7e6c24f2f2252a6c847), (0x12ba6b3179ec1814cf112ebd5b2195c9bd99c244e8e90ebf8f95ea5f41d6f342b891a00014883, 0x372557f783eb49a10d7b554da76bb423be752dd84c5eca40fab6d540ddadd5a2d2797d304688a)));
   (12%nat, ((0x2f8444fb99d59a80f19c576bd41123b05b610559884b31c125f1552a91d93c395ad903341034f, 0x16ba4627dc7dfd25a8252446c3520ba3768b9b4ee88b78aa0506d6d35930c1862c3649dab93eb), (0x8122e637c2f8580996ceaf1569cb06f8bd84f5ca8cfdaa5aa1c0e078c77c7a2694d06c30491c, 0x21c13248932352563d7ce51cf6a8702b35d24b4f458d55da2488e1e0993450c350e809eea72b5), (0x11cd830e44f5922519f1fd63d6c48d0068f5e934aca21b44d7093f1f63a2f17cefb98061f2b21, 0x1fa789f4f6c20acd1044130f9cafc2b03c2cd0d409db5a61c2dd46eaf9dcab81f1bf4afcb4862), (0xfa8043a6ed4292b03251e53fc00bd130912d6bd0b8d79f2759a0d393e9b5739f173ac69c3065, 0x1cefdc392d2d9ac8476272021382591bc6421f099ba6ca81a8aeb9e3d042314225f7c8e3a7a51), (0xafdf97e0c1d185c4c0dfc57ec1100800ffa02948bfffaf5f60f2e84a782f965428531073abd6, 0x25d7472eb63225019210351369873772fae7cf52edaf9edd63cc80ad97bdce35ee805bfa4a88)));
   (0%nat, ((0x165fbe7093ade209a44e225bd016f2c325c89eb4bec3dedc8bfc8084b8179ded6b40d051040, 0x185f166e3382600528066881ba45545d735fccad9c7b3882b7781aacd759e53ef06f241968a80), (0x947de1945a7343bc8f611446781b42d67b95cf011726ebc531551ded6f54d2dfec29d0d928ec, 0xb964a72764431a03caf6835cdc251b5c65238ccb5bc6dd92bb55053d424c188f1f19a2194b4c), (0x2190a84a7cb4eeb9437d8e14791a993f8ad55971fa559ae8488aaf1f30faf37790a54370919c, 0x1811aab3cf0b6f50399c528e85ade3479b0e5b46a7a6d3338ba081afc556d1b5fb570f6b7040c), (0x90d44e7521bc6a8d2f2ade172d6126ac934633d1a5f818664727088204c27983cd7215420e96, 0x1307a33990ca72fb1c2ae407305b1e407dbc262ea8947c704d8a718b6b86c247350b2fea6b956), (0x0, 0x1307a33990ca72fb1c2ae407305b1e407dbc262ea8947c704d8a718b6b86c247350b2fea6b956)));
   (15%nat, ((0x5a889d382d94ddca9850d5b6aa8b77cbd50bb689560ec0a78455cac203a9c73a4e650560f243, 0x3158c2277dcdba6cafd0a37cdcb572f5eb89ee52aace77ba9deeedabcbbbd11353653775455ff), (0x260c6464b23c7e449c534bf8e4d6caf4ca7dd1e766668dfcc443f62ae4cc130d81c0cdee78d15, 0xf737d731eb584f1762dcef05f14d255911850f8407c7edf83f77a76fd6fc7a61d0a4c41176fe), (0x3baf335c201f1ae6d87567b6a191442b98b60f7e38269666c2b6a51ef8af24413a0525dca3bf, 0x20e19ddf67f8c32d4ff5d2e07e13e75e04e58a429d2179d8854e1f341286e6540939abe68d7b), (0x10e4b93af83af23f5a9efa8b5000898cc811df31dee3c23c7ec0345f05aa5f36af6d88f248b, 0x15bae4baf7903018f16abaeb9bda5deb9f344d44356d3cf4f5a13e6b869d4c4962fe21d4c3cbc), (0x203d07d278e48c6e38d38e1fcad09578b6a29d4bf6d55a2f927ff998e79b18e6833548c31bac, 0x10a1e4ee64f58e0fff3e6e6958ba884063ffef58d8a8a17997afc752780b1f82d5d3dac90bd94)));
   (14%nat, ((0x4528bfe34ccc1cfd5e104fe44dbc5fde11a74881008e4ca9e88b23baec799337e8996680446a, 0x160b71b1d8e3598462e0e1e2e6bfeed23e0873315c15ed5f590fce6be124a7bc4a54b26372fca), (0x797e0362438cfcb2620fde3c9ee98e49fad995518b19b15566c79034e406b9e7a57c1c8e507f, 0x24b18277c8166a391b98958267ee8fb492317f18242e2c855df429c9c273f2af313a8f393779b), (0x15099f1d719b70855f5b7066d1130216205f32d47beb820c33c88e8edb26b0f83602cda071107, 0x23ce2d317a82801404adf85ba853860e9249bbcf91c742eebb02cef91fed240b88fb5eabc4ad8), (0x140819a12c6d1eb66c6f3f34814683f756d3d90e5c807d79908dbf478a1b5899009648167871d, 0x3134e992c5ee614a40f9ce821560520e2b2397e9e0d0d208733a212c07747501c99002eb04585), (0xfefb1e3f826484cf9cf0514b0c2629c473d202dd544fb2cbe682b440b270fdced3e4376dc98f, 0x15e11c4618aed914221e524421aa59561bbc1050f9c54c4ec3edb1ef6d0629f8cf9e52979e173)));
   (2%nat, ((0x77ad258d98dee3a91e54592a6d0e328c92db7960c68b8cf1987dc6ed23c559cbc6df4fabead6, 0x2ffbdbd28d575807ccef959e131fc410aaf51f77788cc128992c9bef59b72bb15ae9b321180af), (0x23f9ca006e249a6479fbc3cc757ea486ce3bf86c927e6cd10004cecb98b37ec2713cbcda56133, 0x13b58fcc68a1a5917df9cce1bf289021cc1e806681e4ba3f4e86f71bcfc765475614bd173872c), (0x611d073fd67cd0cef2d7b6bd42d675f886418ca092908c5b06d88a47ff0a99b1c17d7b08ef75, 0x3b0bb57944335b521a2310a81ed5c9ed11db375e096c61427da63bee7f02136191c0d2ccd9fed), (0x367998bbfa00f18f6bd0a0516224bed6e24f8feea802bc29e74d5c567cef191622d535c4b353e, 0x3f8a0fcd8e916006a0caaccc401f198490eb13200ccda3106aa7be79475faad0a0e17ae6be017), (0x2f9b2b87be7484b9b801ac8d8b323257dfd1065e5752686c00a2ef2c890b34152ec1e2a888e67, 0x2fe883a2718141048adb8fc4fad7465e0b71e52a2066e5492fbe3fa63fe7d6937662b18d6eebb)));
   (3%nat, ((0x23dcce11ff2b5d8e96b2650fd751535b2122c4fccb73b1ebe68f166c3b447d9fd671f5074d01b, 0x7e5d5a371b003c9b7e98e2da67ea998c0a749b29bd7a893e2e5e7aaccf23e95d478a76a2c4c), (0xf9801b63a9a292b784a39c0244ebf09d3338fcc2be4b8314ae243a5c6d3d8bc4167d5ceed, 0x3914ddef796a4cf88e681987f1676d9b74a973b5ca53c0b981cb3c70083df3342aa18125de025), (0x32e93220478e9a20b4dc8a0bd32c174d6dd1115a90716dd561d91faba5d73a1861583e356a305, 0x9a6d69df1a085404ace2a688244c459c1c05df7ca13c32510eabd349830c79f6b7f47b01a9c6), (0x1749f488efc5bd7d9783f42ac284194c63e8fa9294856fd6ec46708e42d59b2624e1311157df, 0x250d7dd5919070235a7bddb47f1491d7fa8797d9804f8c773f699edf48bdffffb7da4234ecbbb), (0x8cd4e959d281318d5d63ade9793537dc1ce16dce702852a2a72449b06c22ae344ff2d34172db, 0x3eef03c39677f99474655bd79bd796c4764b9726804e89dc2b3cd39202de0609e33e1bc54a93)));
   (7%nat, ((0x3de293eb108cef753a8bc556497e00449fd3c5732a5a342b1232896e358ec6e5f5a3476cf72, 0x5e27308557aa305cc24a9fa334927df2b5305b0bccf32055e57ae1afd8319c19839a619a87eb), (0x8a833686f8cfdecb87c09ce6b0816a054f9c7a7fd01989edf82d6959beaef55277da464c43d, 0x17a13e0c453197c20bbd224557957b2bc6591e05ebad3e9adb18c6019d2bf678b545e087bcf1e), (0x8b97ad53b9f8f01542af5614f730b8b470799888d7ee8c3dfdb1a92e009f6b41a0cdced6d9be, 0x18f51cc9d8cd3943720cb16f043835c5506b86ca4342da3b8b4acea679eb384f882a7b1ed0eb2), (0x9bb8057d8f0e87d3b813e4b8542d4eb98abafb8c3da2faab081631762f4f1f75dcce86c1be97, 0x1153d44a446956077e2aaabd5573261fbb1c5431e09f75bd768726458d2ea29d44a1a76a0c4d3), (0x655ab6cb33675ce2fe3a67557866ecc3250ad9a666dc20addacf3338081ec033653c3efba830, 0x3a146ce00364f9ad029bf2983f8d6f4fa509c6e74004e2f2ab18b988bfa9355bfb3a0591fd78b)));
   (15%nat, ((0x34b50bdacb603f322e8603c46baae8741740265699799c366c2373059d850e84d145b6ad01a3b, 0x13ea9474c474a50bdad79728268c398a953d9386f7519c027b48934735dd5ec11288e35cbd84c), (0x632a3f442deb89bedd8b0e0261db556fbea8fc94c79e506635353c19bfc1b7ee4cff7da461bb, 0x2020b7fc1839f39b4cc11ba600be3e2ebe3aa80cbfc62bf2b9ae89dacd484a87ac6592a13cce3), (0x1020c8b6253bb91922b80ddc7308605b085d4e3e6e24e49f4e412bfcdcfad3463756b63b58a50, 0xab262c2671fee735eb8fb619fd18047ce922a4620ff3f7cc80aa8fa0a4535fa2a7dd1e678219), (0x1c9b012b1fd4676115a787b655b7b89028c72a520054ae2144f5f5a38aa31c537ef69cec716c, 0x2b5c6c17cd7ba9a801ad47e6c130c7578d2156348c93ae740ca65cdc6d0b6cc4db0c88bca1e3d), (0x40546e2cdf5ec6bd772a259a4b042e13b47f942a71192cb2a6568c597168ce80ce8af41d80dd, 0x1300aa8bc18de114dbefcd4635e923faecb3c0312027b9d62d5bac44d36b7bf723ca594f9ccb)));
   (15%nat, ((0x5a46544c163e31527fbd4f3a6292ca82fee5821ba30291e88b67496960a8fd0f8506f66f3b, 0x52694ddcb5f5248e1f0e748449d2610e952b4fc7a8b17a7191dbd1b0249ba4201b67a1cf58cc), (0x6a1e84c96d334906fc8e7f916fa55a640eadd7af8a16169016f2ead1785ded3572d01fc261f, 0x381d83950917fef0c3863f3186ebc58cb2e626ea3cd2bce9d9c1036b9e72ff0652f8cd6177967), (0x3133b3e11d81b42cf50b9a6ed85cc24c5e723e46fecca3feeb8c9b2fd395ce0cb037bd856e31b, 0xb091d7d27fde92080db4861eddd7c8375889fade94f3a7e3266e9060244a076cdc289209e224), (0x1e7236f5e88e88b29891dc62eb147dc3d4d96f65bf2b8627cb336f03d4fb83f19b7fc962eb36, 0x38b25f06bdb531b2297081aa2910d11a78a0a9a897a3c35d3ce3c385d8d95e5b2ea135545d776), (0x541d512a35cdfcffe644876a636104a6555f4f290325e1411dcf232abca0ff4f4d6837c378c2, 0x348f9bb726e0ee2424c8435b382ada991fe34b0ab44d8628f9e587b332d15b5dc47afb70b77e6)));
   (4%nat, ((0x2b2a9f46f4807096dcb8ee8ef937dc4134a1ae2889a5513f5b878d84df184a8a29f15d5dc3b64, 0x109b819ba3b8a43d2880922baa31d84bcbb0b9d227e8f4c5f662b1bab38c47926064d27c0b228), (0x44f3aa6a2363ef91bc124a5e00ecd0a0834e20ab5982472c6db4ce83e936c9757b877bea4fde, 0x20dc8cd060e5d17fe54e3ef6ca70e5d699d224a1d14c3faacca34bef93ec8611d579fb8e8dc8e), (0x10df84d9af524be411acb1321425ade7cd59f6931e902716f5e06c4e2c326663f41ae796862c6, 0xe8b98a07de99477c649a4530fe0a20791497eb964092ef4eb87a44c6b7065a1325ef98de393a), (0x34e43429c35081d57dc8cf59b95b0b2d841a6fd13fb1c95112cca969569dfefa24680812b8fc, 0x2374553b071ead4a2762fbb872ae42da4fd808d32c3315cd5011ac9a15ee4269c0fc9744c8100), (0x163e36bdf77ac48fd8e7b2243fdee444ad7f88084dcf073b0cd8edb65ce6887ad877ea8cfdaea, 0x2a1c136775dc6eef7e4ba29efd534302d67c5d0d9996580405fad015f3840853338dc598cf1ba)));
   (13%nat, ((0x1bb4e5c8cb1a87b67fc1fa5178305be2c03194d74c49ce36c226a30ca3766a88cb2e48ec8a0c6, 0x159b7233cd4715b8db2059fba97be96f08125d8076f68f19effa187676618995d80d2450b439a), (0x74b7c7ff569abcd804b7d1df3a30c3b1ba89cd9d05e67a4264ed6ed6172d1dcb9fd55cd62903, 0x15924418d440f5f394be0f5e3777cc5376dcf4af7134cb710fda76c912bc67e5d78e33e47827f), (0x7454af74507d675fc400f5cb33c99001d61ccc1ac0323553d98070efdd76d0d5a700cb633cdc, 0x186edd493ed86af33e3affb33cc6b4ed123478d5fc7fc3df34fc43214f53f68086c8ebf4d75bd), (0x953e6029808860050dc364cb76ad7a82e8d25936348e38b11423ff614b7f83dfb1310fca07dd, 0x156292d95c0df0a5a67bf5cba4e6885765f6e87d7496d479592efc7df6bcd3e5474c40f73b38e), (0xc489ab82c26350a1615fc4fd88e94a571108b7ebf0fbe52cf95710fbc1e6788247f4f8604307, 0x1)))]
  0x32ee5ca3c96766b5eef8df97c14aa03709e891f35785bb22f5591e7715cd77d6ea353052671ed 0x29f8907609448f62b07ac697590ece592d96fd2b133ffd0f6442b3fdfdc3f38b8582a45f8b38d.
Lemma prime_306_b7b7 : prime (Z.of_N 0x3ffffffffffffffffffffffffffffffffffffffc079c2f3825da70d390fbba588d4604022b7b7).
Proof.
  apply (good_prime _ [c0_306_b7b7]); [vm_cast_no_check (eq_refl true)|].
  intros c H. cbn [In] in H. destruct H as [<- | []].
  - replace (exponent c0_306_b7b7) with (Z.of_N 0x658afe2567b4d3ec5884a4ac633d2fe7c0fe237ff4d) by (vm_compute; reflexivity). exact prime_171_ff4d.
Qed.
Lemma prime_9_0139 : prime (Z.of_N 313). Proof. apply small_prime. vm_compute. reflexivity. Qed.
Lemma prime_15_77c5 : prime (Z.of_N 30661). Proof. apply small_prime. vm_compute. reflexivity. Qed.
Definition c0_30_4d35 : cert := CERT 0x19c713b4 [(0x0, 0x19c713b5); (0xbdf131b, 0xeb94a62); (0x6c7df52, 0x3365f750); (0x17aba43b, 0x6510c59); (0x2e8b31b, 0x2b182256); (0x13d8a1b0, 0xcb3f5e); (0x5d9a04, 0x30e1b0a2); (0x1682eed1, 0x34629a45); (0x181ffd01, 0x191b8394); (0xb90108e, 0x3157e03e); (0x16b95c71, 0x20e10571); (0xf244b00, 0x3644b4e5)]
  [(7%nat, ((0x0, 0x1), (0x0, 0x1), (0x0, 0x1), (0x0, 0x1), (0x0, 0x30e1b0a2)));
   (7%nat, ((0x2ab020ac, 0x2b0ca6e8), (0x211bf907, 0x51108cd), (0x756714, 0x36c41905), (0x359590e5, 0x37d119b0), (0x30be951c, 0x3120f694)));
   (12%nat, ((0x2b1eeb54, 0xf9dc92c), (0x45b5b79, 0x2cefca83), (0x24136d22, 0x4e22cff), (0x6d12ad, 0x37acbf30), (0x35fa7c00, 0xc8d19f0)));
   (5%nat, ((0x2d07bae, 0x1c65cffa), (0xe68423f, 0x24709619), (0x17b90c0b, 0x103f812a), (0x4b76b63, 0x36465865), (0x29c942d9, 0x1)))]
  0x200fee2c 0xec40013.
Lemma prime_30_4d35 : prime (Z.of_N 0x37f94d35).
Proof.
  apply (good_prime _ [c0_30_4d35]); [vm_cast_no_check (eq_refl true)|].
  intros c H. cbn [In] in H. destruct H as [<- | []].
  - replace (exponent c0_30_4d35) with (Z.of_N 0x77c5) by (vm_compute; reflexivity). exact prime_15_77c5.
Qed.
Definition c0_76_9a6f : cert := CERT 0x565ccfcd535171974ac [(0x0, 0x565ccfcd535171974ad); (0x2eae0d31bc00e2a7cb3, 0x3c629917e4932117d4c); (0x20a38a09203b9b86699, 0x43c7206dc4b16f59605); (0x24a278ac6aee2e2f83c, 0x396ba23cfb585f7eb5d); (0x1f094f915db96033e5d, 0x2bb6d86e1c3c5af3586); (0x17a0c5d8296a62d5376, 0x397195f5f2d5fd5b764); (0x1f0c872804953cc998a, 0x1c3fe94c315d942a7be); (0xf44ed1a361e63cf703, 0x1c2bc0ccd95ed7e8b19); (0xf3a07cc3b9765f5623, 0x61c96379e0fad7eecb8)]
  [(1%nat, ((0x0, 0x1), (0x0, 0x1), (0x0, 0x1), (0x0, 0x1), (0x0, 0x565ccfcd535171974ad)));
   (3%nat, ((0x2eae0d31bc00e2a7cb3, 0x3c629917e4932117d4c), (0x16d23cb781a858b357d, 0x396ba23cfb585f7eb5d), (0x14a2a6eab9963f70e50, 0x1c2bc0ccd95ed7e8b19), (0x4f7833bbfcf425a9f9, 0x9a78e1e96617d79ab7a), (0x4186c8c9c62465bc1dc, 0xeef586149d5a3c6efe)));
   (9%nat, ((0x165606316752061429, 0x4ccd42db5c890e9dc3d), (0x24eaa69f670e96eec86, 0xd2649692f3c7f5bc6f), (0x1150a07bc17a8959b6, 0x9613c58164ae117d637), (0x8cf6d02ad177b1348e4, 0x102bde57fe1f5643cf5), (0x9e5a43a0c1afef7cd9, 0x1)))]
  0x2af11200f7455a141cc 0x1735df8d54a2aae6f61.
Definition c1_76_9a6f : cert := CERT 0x5663f689487480dfdb1 [(0x0, 0x5663f689487480dfdb2); (0x2eb5c893dc1351575a6, 0x4faa9d7276deefd70ca); (0x2b13134b5268477f569, 0x695b93ac93eb14b7bed); (0x38f724e6b8bad7c6487, 0x2e1cfa1a5b9b0b79741); (0x18eec80dd7539633d17, 0x794954d350f8aa1539); (0x4193ed6ba110eb84d4, 0x14b885c20c805b2f6b6); (0xb34144089ae7211dd4, 0x28626ee76d4f6c9f1a0); (0x15d5d7a2a203c684fde, 0x1158464bb2249b2f3fe); (0x960caed736623044b9, 0x3db43e727ed778e9665); (0x215ccd5b6023ff435e9, 0x3683b2e23d23693d933); (0x1d79a555ed0ee0995c0, 0x2d77eccf984964dfe36); (0x18958a4e590a8458e50, 0x42a40465fb51dcf4adc); (0x24081b30ece75bd5bba, 0x77529a9e42d5caccf52); (0x40841c2608e9b5bcb79, 0x2e03900bfbefe02d8d); (0x18e10a52ae2f4d3b07, 0x631b9e686d49d303701)]
  [(3%nat, ((0x0, 0x1), (0x0, 0x1), (0x0, 0x1), (0x0, 0x1), (0x0, 0x695b93ac93eb14b7bed)));
   (7%nat, ((0x4578e8bd614a7c7adfd, 0x14b885c20c805b2f6b6), (0x2afe8efe2be68e4df8, 0x42a40465fb51dcf4adc), (0x1bcb6076aff973aa8fa, 0x875951ad0fa39c244aa), (0x72a75ed50a157857d4c, 0x5dc57fe20f0cf9b4f0), (0x17b36ceb93824cf751, 0x7814b20372e345f0fe1)));
   (15%nat, ((0x5a3ee4616bda9d45214, 0xb67b007f60cfa28515), (0xd0681fe1bf2d1c37a, 0x67bf572202b5c63add3), (0x435d692be730d7bf038, 0x21dbbf617dfa90a03a1), (0x72cc18e9a76a55346a, 0x44c2c9aaca9b273ad4b), (0x2aa6a437a88dee91373, 0x39a63602f596c062d6e)));
   (9%nat, ((0x14ccd68b980c74a76a0, 0x674dc90d161a9522be4), (0x42ca4285de8af929814, 0x504f8e305a12ba26a64), (0x285df38e5906d9fd20e, 0xa54cc86353526276fe), (0xab02d74a74acd2f2c, 0xd24d4cff2f13d737f0), (0x513708a8ea96bea5a7, 0x7e268400d9dfc616847)));
   (4%nat, ((0x63996fda9de0d79ff36, 0xbeb5177be7034f9f47), (0xe39f32c64be10974e, 0x451db0312452478bedf), (0x1de5c6854a917b647b9, 0x33b1b3f3908588f630a), (0x10b98e9d2408d5d9e4c, 0x848e2fd972191d36170), (0x26419502db7aae551b5, 0x3c21fce9aa6d2c57df5)));
   (13%nat, ((0x16a180d922a876528d8, 0x18fdabcfe5ff6c86d1), (0x3e8a6c11709e2e0c, 0x3c1e4ad4c6638b6476d), (0x169eb8d22cc44d835f3, 0x235197da4fb2ac0120c), (0x7ce9d2776526b0f6f5, 0x6c7da38f43724a13a55), (0x51053d2c45aeb884b9d, 0x1bd6c8da4d3d12c2f27)));
   (3%nat, ((0x4d9ba32264c4b184ef, 0x38c06756f9613f8ee50), (0x14284c41c91eabd070b, 0x3c63a1303a102002d3b), (0x16d3045760b1eb54236, 0x57eb0173eb84a059a2f), (0x3060625ac4aa2d8621f, 0x1c2ff41e352874b6330), (0x129628f7a015a876d99, 0x20ed03894ccda7a5419)));
   (5%nat, ((0x6c8f883833fddcff58, 0x8f4ec71c00bafd6c349), (0x8088b6a76faec63c5c9, 0x2507d82aa8236049eaa), (0x8950eae902bf255402, 0x58f7e69829f1e89a806), (0x318a1192205dbaadef3, 0x598d938a242e38906c7), (0x43fa7e6f7f22ba5e92, 0x1)))]
  0x3473c26b6468aed18a7 0x1c5c3256fa319f463ea.
Lemma prime_76_9a6f : prime (Z.of_N 0x9fc78d5785c19b29a6f).
Proof.
  apply (good_prime _ [c0_76_9a6f; c1_76_9a6f]); [vm_cast_no_check (eq_refl true)|].
  intros c H. cbn [In] in H. destruct H as [<- | [<- | []]].
  - replace (exponent c0_76_9a6f) with (Z.of_N 0x139) by (vm_compute; reflexivity). exact prime_9_0139.
  - replace (exponent c1_76_9a6f) with (Z.of_N 0x37f94d35) by (vm_compute; reflexivity). exact prime_30_4d35.
Qed.
Definition c0_92_591b : cert := CERT 0x8081221ae4b76662fb9ede4 [(0x0, 0x8081221ae4b76662fb9ede5); (0x57bf524ca39f0e0e7639881, 0xbab5fb349f6272aacf4e03e); (0x7f7e253d298a5120b8ebfc0, 0x6f825121dc719704fc0436); (0x4c246e4b7f69abc7fed154, 0xa2d6eb04dd0a71369217a72); (0x6f314bd44d0513f709d3096, 0x1d680ee915d4e665141cc28); (0x14146c6211eb3c11c8bfa3b, 0xa59fcca6032f1d5af17c08f); (0x711813a3cc51988420f4b2d, 0x133e3bb6b24a3a1881e102c); (0xd23ce3c8d0b6c10921d2fa, 0x94012bd111b11b6522508fe); (0x65100f93a729ddbc535ca14, 0xb87cb01976d1c3afec0ed1a); (0x7df969716f583fecb4831ca, 0x89567ae12c204010588aff4); (0x5dc772df95b08abcda7be0b, 0x35f6b8e36293091e0006b1b); (0x24d92dd3313f0880738dba7, 0x81d36789e9f2d4fc97948a); (0x58a64e13e99ea9d511ab99, 0x81e317f98f8135f3827574f); (0x58b104a450e4276165f0a2d, 0x51fe1bdab10f0fff58f84ec); (0x37fcc92674a172c34daa2fe, 0x47b2a5dc1855e846764e452)]
  [(9%nat, ((0x0, 0x1), (0x0, 0x1), (0x0, 0x1), (0x0, 0x1), (0x0, 0xb87cb01976d1c3afec0ed1a)));
   (15%nat, ((0xb4dac9d1b408ad8f0f592be, 0x253eab44df351a338109e9a), (0x75efce536f380d8d97d56d, 0x6d902263504eafaba0f0d25), (0x3fc93c0064c29d2018f5ff2, 0x23c2cbd6ecd3d8377686d3), (0x6cb9f94a49d4acf350f5, 0x8e02da09fbbfe6df771db12), (0x361a86ee2932393577f2a4f, 0x5315fd2dbeadfc3be3e466f)));
   (12%nat, ((0x24ae945c0f512ec09421a82, 0x27263727a100e8bd752e66b), (0x824e6877cd9256e9c425ff, 0x9c45b23cce43ef63a1bc7d4), (0x81c425459ee0c912b0fc03e, 0x1c5b0fe2a94942830167306), (0x445c086dc3d9347a6cd677, 0x269ebd2f035421bc5c56697), (0x1aa46eab99402322e3df8f, 0x3196bb7c5580d0de6894e51)));
   (7%nat, ((0xd11116f36fdd322c6a863f, 0x6837a380277c4e7879065fc), (0x39b6ab32bdb877d258f9073, 0xaf50456c1dd92988c2198ef), (0xa350e818adea8ff0d78d65c, 0x2cce857452a48c7329a176d), (0xaab03fcd8fd93f1192b221, 0x157f5d957f8b1eb43b181ee), (0x232bb4144162f26045cc51, 0x190ea3c3c84b68d04bf7f5d)));
   (8%nat, ((0x356166b0861a43d6a03519, 0x29549719a8edfdd1d1f1d26), (0x913afe8fa63ad4c8a44223, 0x5d682cb96c486a4ce17cf3), (0x2e5c8144b50bf74e955b7, 0x449d44caf3519fece92a55c), (0x19043cec3b477ceaf304be1, 0x49f0149a68891c5b6557f55), (0x3a260d6bfc737ebe9cef73f, 0xb6bc1e9a4fc9e1e12003b1)));
   (13%nat, ((0xb16f7dff4c08f0a33e809, 0x4655709d93133837b90066e), (0x1a493abe851230370b39fa2, 0x6e96a843511e3423ab62f2e), (0x40fc56de38509fb732e394b, 0x4e66d7033233abd3f53ce5b), (0x20a9977b81d94388badaa27, 0x30abdcd814ba66c5249133c), (0x21979389c80c630efb071e2, 0x961217aeedd0499304beae)));
   (5%nat, ((0x77abd10e9f3f175459f29, 0x258816bf2d36a6c810b3f1), (0x77c291789d9000ec49b6, 0x7670e014f98ab3a6f8dcaf), (0x4a8ac43488ac3d5c63adf, 0x34544b2ed14b62fb91e831c), (0xe8d01fe6cc00343843a73d, 0xb79fe89f22993fd7f61d2a1), (0x1cb1567290f7561520f149a, 0x5c3e9d84c8dc1bad5077eea)));
   (7%nat, ((0x2d36f68e6c4f08836727c6f, 0x5cc3311c8f15fd1e802772f), (0x2db94bae78fd48d4c97006d, 0x532e746d5e2cf0db2e8ca22), (0x24c431eaedc52d15ff5fd34, 0x45d288b8661cfc474cce408), (0x19e7bcca61c9d6aef14dc63, 0x165990dccf8d056e47996cf), (0x2490afdcb96cb58f9d4eb8, 0xbb2ea3f0f301140ca67962c)));
   (8%nat, ((0xba2d67a811096c3b337be81, 0x69568e06b430741bdd2a6f5), (0x3af62797ce338b8b471c323, 0xa59bae2b8cd2d14d5ace6c8), (0x91bbec8beb003d44e41d7ad, 0x7265d64579d90388e621801), (0x458a2da670f2048bfe6df43, 0x58e9eaf8488e360119958f0), (0x45ed2fcb65c583f7a55ad24, 0x9d867d3a7c2fe439ffef754)));
   (5%nat, ((0x83db0b8f2400a718d78105a, 0x4a1f3a3aeda08afe4503012), (0x1d31a26563e9878b6838f33, 0x86aebf558745b96bc3aebe3), (0x606335489b3a56316179a4a, 0x2c5bc4f2292f6cf1e2b8b7b), (0xa74a5750cfd6434493439e, 0xa5aed1019dd4d4415c8bd6f), (0x19e3a1f43aa5909d117923e, 0x23706c83ae4c6fcc70f12ce)));
   (12%nat, ((0x6ac7579859be02b6318107, 0x7088d06ecfa56db55fa9307), (0x434af59bbdc40cbe4db9d92, 0x288d7d1f5ad5cd89a79a9cb), (0x8bd0eb66fdc753bdcd5963, 0x8958c07a6eb84a5d34ce88), (0x643d0901733087746cb7f, 0xb1ba02d5ff5b3859c398adb), (0x7a9b1a9c05e8d9d7cc596c, 0x86c8e5dbb9a7506b4a87baa)));
   (1%nat, ((0x6088a6fb2d4d6c355c17ad2, 0x92037fd18e6dcb9cdcfd6be), (0x7149ca9965f8b356c189ee9, 0xa219583014992bd19157171), (0x8b9f9d8549a26b0d549b30b, 0x49a0e63280e0c09ee0f3eb8), (0x1cce742192a37ff2486b3d8, 0xba477b6678627fee0da9478), (0x7f32b15434cbdb9f6de2c01, 0x87f9ed7342f1dcf2be5ea3d)));
   (9%nat, ((0x623f83287680e653fdf7869, 0x1b436fe75ac2cb6ce0e5e76), (0x3f31c505482b0793afbd9a, 0x92bb11ee9da92a7ee155526), (0x726758b540123cda25419ea, 0xa549693f590b59c8a232bf6), (0x912b458f5ac160a7969ea1f, 0xd26308000a09712b31181f), (0xce3e95be69f5ff51778c45, 0x5c2b29b2bb3bef2389c5ddf)));
   (11%nat, ((0x2d23e6bd54063179a8a9959, 0x8cfa2088fb6ac55745caade), (0x699b847f9bd9854ef298285, 0x7e9ccbb32a542366005977d), (0x552ebec569db6eeb57f4261, 0x99d3bd697800301a695f9ce), (0x7dbcb55fa82628e69cca05f, 0x71dadea479fa6ed45e970bf), (0x20a5cca35eff1b13ed92c80, 0x9f383e03e6a18207bde87a5)));
   (2%nat, ((0x86b51755b2e87c6ceb116af, 0x6aa713287c7926d9bdc34e4), (0x3c713ae8bf367e4fc8426d4, 0x34bd06be2f92306a7499eb4), (0xec77adca46f6174cd1d73b, 0x228cb161f8083fde32a7857), (0x657c4097af32d1889d8785, 0x87da80078da9561138e258a), (0x86c8b3751beb22bb41e9575, 0x26c4854ec46e3357fd96715)));
   (9%nat, ((0x7fc73c09a521ebb1c4bb6a, 0xb9f7694265bf1f68c2a498b), (0xb7c44c69ac49c1bff7790a9, 0xb0adbb03b819393359c8ea6), (0xa5de87a8de9e345072e37e7, 0x565904ec758190997265f47), (0x279e5ff957cbae36569a274, 0x8c288cc0199d5f8dd374f75), (0x8966164c6ab41310464df48, 0x5375507028e2ed3a5e1ce4a)));
   (10%nat, ((0x2502f072334cce74e2c0043, 0xcd1e3a73030b330020db53), (0xdf90e3ea9766a9e169708, 0x6c70b0fcb874e5c6a3b6711), (0x3e7c423dc868f6703aef265, 0x5399dc6b74751811e7017a), (0x252361cb13f6cefe87c29, 0xa77e5422c59201e13c5d4d1), (0x7a3b755b66ba2aca5beae6a, 0x729149ff72592b140487706)));
   (6%nat, ((0x45bf0b643348ef618e3ecb8, 0xe60eec22c6039ced28a4bc), (0x1193cdce4a2c3be69c4a79, 0x27321b889f40c3907587e4d), (0x829d9e989cd6f2ab65c8c4, 0x3fa6066a91eecf871b3927d), (0x1586ccb88ca439c3f36de1c, 0x6ba84c5d2bc37c876c3a815), (0x5ebf3d829f7a6534461840e, 0x758fea6b53df3be5e1dd841)));
   (15%nat, ((0x4970a7c71b4bdde62903204, 0x6645ba934006a52cc8b1615), (0x3794595043a041862adca22, 0x96866641ef2dda5eed97a23), (0x78659755935d6295c4cbac3, 0x268ee2ad073e41f4a2e338), (0x7e66a040a46f2594aecc, 0x806929e4f516ff8358d00bc), (0x30ec1176f72c54a092ae715, 0x1)))]
  0x7a0a5501396530b846f055f 0x53555d6d067e8b91182cf81.
Lemma prime_92_591b : prime (Z.of_N 0xbc3143a3e414a6c7311591b).
Proof.
  apply (good_prime _ [c0_92_591b]); [vm_cast_no_check (eq_refl true)|].
  intros c H. cbn [In] in H. destruct H as [<- | []].
  - replace (exponent c0_92_591b) with (Z.of_N 0x9fc78d5785c19b29a6f) by (vm_compute; reflexivity). exact prime_76_9a6f.
Qed.
Definition c0_138_dffd : cert := CERT 0x17b461b0dc44ed16863cf0e078e5479c62c [(0x0, 0x17b461b0dc44ed16863cf0e078e5479c62d); (0x105b3fc6dc78bdf390aef435bcee686e739, 0x11bdb2e533418fe5eb2dc1b0c8549767994); (0xc3dd249e9e9c5302ab136d58c21803f98e, 0x1d4dbb44b13907cacbcfac49df00fff83ae); (0x143846af6c374ab5ec7b686c0dbb722ae3b, 0x76894d016a100c9fb1173cc753ceb52447); (0x51ca96319aee3a41986fcbf750c9290085, 0x1f3b194858fe545004dd5bdac5a4fbbec0a); (0x158cb471edaae0e420fd4f3b7fe1c23c3ff, 0x1ed6c7ebd274d350748036d769a13fe65bf); (0x15477c06efaa8b4a3139e773e3a246b50bc, 0x264d3440a1364dace9b004cb66974e0ec7); (0x1a6db27af8dbfdf47badb63ae3dacd1228, 0x1e9c2c9203bb53c287846fe9e3e7ab9b973); (0x151f0b8d639daae076829ccd0668371d571, 0x1bd59f58d2716f102866b7a6a4471422b8a); (0x1334c1bc333f0bb58ba5f96f46b97478c77, 0xdd7ff5ac0d3be193643066c020c136e8a7); (0x98d658e24890cd12d06a24f138804082d1, 0xc0b72afafd146b2285a070a20e3e11b7ce); (0x84f9cd0bb40bfd12b551ad108e6874883c, 0x215dcb635801371a38996039c1b3ecdbbea); (0x1705ee4bba1edd9b177d6edf5e9eaee825e, 0xe4d99bbb5ace4195d6921d8d72d5544b3c); (0x9de8b487aace849ecd14cdb10bd3084056, 0xcc06c4153add749e866ccee89263ab228e)]
  [(11%nat, ((0x0, 0x1), (0x0, 0x1), (0x0, 0x1), (0x0, 0x1), (0x0, 0xc0b72afafd146b2285a070a20e3e11b7ce)));
   (12%nat, ((0x439137f2cd519191bf493841f532197e7d, 0x15c8a3d821802d35554c4145ace1e33453b), (0xdd021596ec0ca5261784cbed045dd5014c, 0x43df096d91856a5efbf39ec12fff975f7d), (0x8616e4b92cdd8714c2bdc23afd398d82e, 0x10f28f05d5d784ebc8cf49bf51c24364b93), (0x85c4bf604dc29d740056e5c9c336d60422, 0x1b2380d6b9ed3ffd4f1181f55b84db7c2cf), (0x1a5bc7ac1a52a2ca0bbb9d142799848d0a6, 0x108e99cf2f64e855cc19b92b6acded17828)));
   (3%nat, ((0x7facf794160781b504d40530f8419c2404, 0xba6d68ef6083949e5fcf4ca0d89806724c), (0x3f3ada0494508bc170376b21a492bc0df1, 0x49172f29d9a04c075f82a1a2c100d91063), (0x9b8165471f6645da51507b3904ceb063b, 0x1acee0c0a45db5545a98b3beb2a46eff8fa), (0x14eb71fc07dea7f008cee225cb8f1903452, 0x21424b390fc9ca633696d55d430bc5a311a), (0x1c5e9e237e122956dfb33db728051f2e8b3, 0xf863cb0292c94a9bfc7da39c2904fc7c5)));
   (1%nat, ((0x703ef50ea863d3c9e365c4e65935bcf0, 0x108d59a67030b8e8cd9cf4ff0d129c91469), (0x7f99aea4c2e81817d3b347f250fa362197, 0x1def23c29805585aec742bd1e6c6d80d7d6), (0x1a153b9982a307e698d3a1371fe5ae6901d, 0x9e3eb2c201fd78208cba411d29e3d3773b), (0x2d8eca9ca561c037384527347c4adf7977, 0x90970aabec4132972ad4131b549ee033fe), (0x63c4c7be4594172f5e88485c2201ae6dd7, 0xd877407a5c0dd9e28aa07b6a6c615cc12b)));
   (4%nat, ((0x553f5ce76473e93266f0cd11cb9253893f, 0x1b74c42e9827c13f2b352cc518f434d58f6), (0x15f179ec8f414bbe6a1529ad1caa0f4eb6b, 0x7b9ff12c95b98996f7b3c1a52464872ea5), (0x1bcdef4b5bac61823cd82c92c004dfd418, 0x91c082ef9c2e4e4e837a2d3a204d9032a1), (0x26a600a3b21c3e983f3db25a5c19531ee4, 0x11a912a2b2f4772746265d437ae8b1525ed), (0x3cefb0c27002d26b3a003556de27ac156c, 0x164950192582952475c8e828e80a0998ff)));
   (3%nat, ((0xe7531ebcbf90243253422cd57c8aaf13, 0x86e6994e59951b98630f170281088d3b3a), (0x211ba0bf94b3fa0d3f7abd081cf8f9f498, 0x1a2f74b54466d3e84ccaee895d43680a6ec), (0x13f5867455d27f93df7050ff8370b860d5f, 0x1ae1229e0c685918edd96d565a0ad75f1ad), (0x1507fa2fa0e859296c1584483df40d0a098, 0x20e2f4260d30253e200a7aaab4aea3610b1), (0x1c0d4b1e7a54c23742de8af6c94d34a7ee7, 0x148ffa0e1ff1db82f2bcc6e6a79c52e4803)));
   (10%nat, ((0xc4eba76a2bf54f07eb7b72268fc4a2947c, 0xc41b505acefddddb288a53fd4f1650ed7d), (0x45f75458eb58ac36507fcc6c90cd6db857, 0x205165ac07a0ec2dda08681f1dc892db80e), (0x1e6711338929a456a9bebaf0dba808e7921, 0xc1fec1f02cff35ac29ca50fb80bf2eac27), (0x4477b0f103c2686c7ce54b3bf9e14999f8, 0x2e59a18d393050f321b5c06722eeec3bd9), (0x12ad88ca9df3d193162e09c84606f54f67, 0x1512c8e8442705b876a748c6a9a5a4380c4)));
   (3%nat, ((0xced435416015f028c260fe54275138b0f0, 0x8fe3d19cea0a50e3224f8184e6c34a8e0), (0x25aacfeade381b2a36cde779333a1394, 0xcdc3f830775304bd862b69adf1fff37ebc), (0x4d0725a80a5b9a265742fded090042b67a, 0x1b95973c1d329fe38995407dc0a342fd7e), (0x162610eecad08989f171daf1276c1199d, 0x222bc2682edec5dbe27fa8803d9bb1436db), (0x1d25c3055131014c7881d818c84d122e12f, 0xbd5013d4b2b01e8f434802b0b4e913dd67)));
   (14%nat, ((0x4133caa1d9a7fd30fa08af1c1bebdd0970, 0x1709abda7aa94e0e844bd616b39321a1bc1), (0xf72fa9456b439037a326e91559676bbc08, 0xabf7dcae2b3a03b64340684a814df27b99), (0x35cd5788df1f5f51fafa65268b4fbb86b0, 0x11d01f560713a630a4e07b698e25848f581), (0x93c7b6c9e8ef96d1051d0ade263b316491, 0x157999f1800c855185108007bff1bd578b4), (0x7f89f621aeca1888806b0c87469c44a634, 0x1db2c6a64f1f6c516e06af673d2df0d4e74)));
   (4%nat, ((0x19ac73b4fb9e01d13ab08f225b2acb656d5, 0x3ccf6289a0cdc8772231a39d3f493b890f), (0x6ba3e28800a4a95db78b7263725592680, 0x844241f643a05ae0e21bd84b7712a68261), (0x1fd2e5cfdefb8a94762ebbfa552f6ffd85, 0x14c964c65e9407ac058d27b4178bfee4150), (0xc93d61fca9e78c2a4c253f6df845953e15, 0x89d6daae03c0408f8ffac6a93b1317133f), (0x1db9b2c75b945e0144eb98ec1f35edcf13, 0x12371dd17a0d464a6de051100fb46feffb2)));
   (1%nat, ((0x9a87eec682c3e222e173f891edd4a5c206, 0x1f059ddb065d93db5bb8a72d329ae481dd6), (0x1c035964f8f28f1dee064f51deea0a90767, 0xe73a526f8f295650d680921b3d6f1b2519), (0x61455d6cef51ad6709560185cda8796fd9, 0x16e08c4340023db9f396ed20f49ce74abfc), (0xf3c04332b3d337802dad76510e6f544b9a, 0x1e1a838855fbffc60d59a4c3cff9640c2de), (0x14c593ff06067960d1dbba899cb798d7e0e, 0x9a876f28c6176ca7a715980aeae0e42f30)));
   (4%nat, ((0x2b717ee0bb776ec2f47a12616e43ce5c32, 0x22a8c89838c21036e6e32c24239171fd96), (0x22f7a4e8b84d829cad5a5f39ea517cbae, 0x1b1a745b6d5891a43481dd859305a2cf6ee), (0x15620c0bc846bc5a355989728175a1dda3b, 0xd7ba6673109a4c1f4cacc84e22542433f5), (0x54aadeff36aeb5380710be41a55ca5d8c5, 0x1bd8d0e61326c343ef6a262ab83eaf8b2c8), (0x60158d4fb530a05fff400c46ad82b72f07, 0x971e75b6d889c641ead95f08d8a245228d)));
   (10%nat, ((0x298c10f0be81ec4b49fb0f50ac05d4db01, 0x1d28067bbae0e6a548a5e4e999bd4c972ac), (0x18bebf1d4623d15666e612c6942fe4457e4, 0x2239b802de806282d0e040b7784b45b2b3c), (0x2218f16573615d769722dddd9d28b34856a, 0x5571c422bc978cfe415143e7988f56064e), (0xd483ea9637b35b6b2903e54e42d11432a, 0x179ae3dee8412ffe97c8ae8a32c7b7ec942), (0x9831fd2ada61c81e5ce75763c441ee8abc, 0x16acebf990930c8fa6efe0c330e3f6c3a42)));
   (6%nat, ((0xef78fb15de35b83d239cf227e4619d47a9, 0x19963c03325821225da2782984bdb55efff), (0x130e9df0939150a620c3698bc16bcd2e439, 0x5d1b59fc8c998d3decb5aad856a15aecac), (0xfc570dc2740c5bddd180352c533228802, 0x188ad66f123be3dc5c9d133f47d52a36b96), (0x11886ebe43018f970d90fa4661f731bddbb, 0x1fe04edd30f39c7ba8e038fde55a4ab515), (0x1c9d5f2ed1eee3453d3cd8630fb7671663, 0x161abba1862dca89c5735520e5bda6306d4)));
   (12%nat, ((0xe39019c894b4519fb53e94254a7a54c9aa, 0x1a9c31fa218a81986f9dcd33b4ae5303c8e), (0x149ca307ee39344a0f2222dddd2b315a716, 0xa3ac42227974c24c83651374d758209406), (0x30bc9b146e4b3e824dc92e99f845e54b73, 0x9de132105ede11dfda5f0ca4266182327d), (0x2d59040d17d114b73edbc59eb20653f316, 0x176c1f0a754874b99d64241f0bb0ab1aa4b), (0x16bfbf6f85126e90f7a17cf5f291fd02563, 0x32f943237b0762977615139b49eb5341b7)));
   (7%nat, ((0x4ba236127f146ce522090db43e8e8739e, 0x2173bba18ecde09c0d4c1c8081ed0978bab), (0x2092e8d9ef898299a7b597c249c99ab7849, 0x10c18652db07c9a6bc0c5c7d268bfefad14), (0x82c30f57f98dbc0b84d68b372181df2d45, 0xe280f645d783b125cc0f83ddb5599d315f), (0x5d5645aa70af23931de0551416080f4bb2, 0x7c425462626415e2019a09fde07c7da457), (0x8a89a4b2c8875dabec41f18792adcffbd, 0x3145dfa9e8c2f63a31590fa6eb1a3b20d8)));
   (3%nat, ((0x46abb9baadf1bec53b69f271d444ac95e, 0x19ef8955c6e6449a02fec96156827f4d25a), (0x13948c51ee61e910b8cfe8d9fd69ca74e9a, 0x853fc7024ccce652a56c9e31997016f372), (0x204d5b6dfe97124bbaa119b3fda20e6450, 0x22154a47d616377625347feb4c1017ecbb4), (0x21d08255c74f84655c40ba2b7326d2d2445, 0x1ce2f6125a9b7cc269954f8cbebba52035f), (0x18a3d63be56968d46bd70140d7b81a9cc56, 0xa6ff545741147d0819c79603f5abcb0c94)));
   (1%nat, ((0x32bc9948dbd438f23d67cbc118e81c326a, 0x76d4503cc7adab449584fd2f6cb60e0cce), (0x19b06eed7ff7e766d3540283fd3ea751a3, 0x140363fb3cda07af8893441f32dca734aad), (0xba8ae67de4bc31ce7a04360f853bc496ab, 0x15cd8673fc0608da6f093225975996e9cea), (0xdd6540ef43a9344b493e421ae59ae9fb6c, 0x18e197b4136fe22be5709afc5595057828), (0x112b168597794684d0bed896b2d8164130, 0xde5c0b789ba52595c1e7c31a179305d298)));
   (1%nat, ((0x59f3e964f82f499f9ea998ba15efcf9beb, 0x192f27dd7ccf73abae60abbc0b126eeee01), (0x1276476c49e6c9d8528564d6dea32f4e913, 0x1170d1a6df5511aeea17b5ed0be62cff73a), (0x8daaec9041a191cacaeda2bea8c81d8142, 0x1b135c3053ed2885b128fdee8f5d24bbcea), (0x1556dbcdaee8e5e6a4803bf454e3bc1687e, 0x20d7407850d12a9f2a17c446e6e67da7f5e), (0x16a9184f0a320ffcdd074289310ae4711e8, 0x13c9b67be68fb145bd9252bb230b0834d3e)));
   (5%nat, ((0xb65dbac24220100e555858c523f755a81c, 0xa3b2bbcb884a203455c7e95cd0f6aad358), (0x30c0765b40618f638c65002adaf8b1ea9b, 0xdface7fe92fa9fc35977429464d0e84e11), (0x5b0543a86996781669c4832f581d3731c7, 0x100b0aba96679cd66f33fc35b215a75d276), (0x77df7bf5fad8fda10ece31024c9f3a90b3, 0x1c2ff6ae699c645dd664067b0a2eb4e07d), (0x199ff5cc23002a74c7b8cb0d28fdadd093, 0x1272fc8b5289970aa5c06cc1b91459bd29b)));
   (9%nat, ((0x9e864743da910e960dc2ba624996b95a0d, 0xa49d3d7e54a0f959da3f3f8cd87d955800), (0x314c884d3831e0763d7d1b70af1067159b, 0x83b0c7a32053aad8d1a12ef460614da0d1), (0x1f8d09fc8fd7be150c7a2af9ba9d94d538, 0xda85cfb60491ab13c490942aea0ed6a49), (0x56e01146ed01798585f46492fabd0ab9, 0x1257f07b1cbaa5229700206715cc65fc8fc), (0xedcc4ee01c3f3d336908f8c9c730a24383, 0xf9b06eee5257d53b2cb3165e3f08f0d661)));
   (1%nat, ((0x716c614d2645711a92877c4de768ea2432, 0x21e9e850a6129a79234f05644d754f8fd57), (0x217aa448a333288be6b048042df544efb85, 0x1684e6edd4d105bae9521ebcffd7f5da620), (0xec2e9bf6451675c87bc96081fd3234d522, 0x187bde30817f049ecae4e1d00da17ae4366), (0x117311c9b4c7466c127b07491f3fc277292, 0x1a6dbd5fe84735e4dc3a738e5b40d1d245a), (0x123c6f0e123d55fba9e2896184865094081, 0x17c4d37bc136dfb15508d10a677efb1e155)));
   (11%nat, ((0x1071f940e3eff4163100da60ac77e7d12d4, 0x1e88ddb8a909c2a52dace3db0ec9bde3eb5), (0x1b23d1301ab673cdeafa9909ed985ce8109, 0xf5aaec4b10bd32979e6e0971ca9c0bcf14), (0x6dcc95da574f7ac23a6af1958bcc79c6b6, 0x1973946479240a9882ad794045a34476db2), (0x12db21b9f4fd963c3d1ce6c208dc67b2bee, 0x11519d5593c8f70580a44ed65c5ec3e538e), (0x61273f8c9774fdbaefd818ec380697cb3f, 0x1)))]
  0xc605689b92fe5ac6f75af17d793eb76d20 0x88a30075c129ead451a9c6ba6b92080a2b.
Lemma prime_138_dffd : prime (Z.of_N 0x225a9e21b01608dde5e3e48f1c8d5c0dffd).
Proof.
  apply (good_prime _ [c0_138_dffd]); [vm_cast_no_check (eq_refl true)|].
  intros c H. cbn [In] in H. destruct H as [<- | []].
  - replace (exponent c0_138_dffd) with (Z.of_N 0xbc3143a3e414a6c7311591b) by (vm_compute; reflexivity). exact prime_92_591b.
Qed.
Definition c0_203_e821 : cert := CERT 0x588c27a0cf77798953ca011fc6aeaeabe525869c0208dd4105f [(0x0, 0x588c27a0cf77798953ca011fc6aeaeabe525869c0208dd41060); (0x529e318d4f07f73fc17265ce900a396a362a0b9e15c122cb02c, 0x4500a5cce22f613bf7827aad1c3529ae4dad984c90e963d8e54); (0x4061be621860e6f60abd45ee349e671bbf7d29adf35855ca831, 0x4e25f4beeab501e9679af51be47a1bdb3e73f7a3176bfb1892f); (0x48ea447f016b72048d9b7876f15955dd1e2be9d01e067303d38, 0x8c55c3f819a23e7dc0a33196b41746c50e85d55ee8bdf7bd68); (0x82f003e6d5acd100ee7c8b4acaa070be8b2c1ea296fed80cd8, 0x2329c0febd272cb42de5d0d457810d6b45070b3fe837181f28); (0x20cef4c341bd15dff2793c519cd7ff10cb2e566de9ae245c7d, 0x5832ba1f97f426feaca0c8fabed9bfc7a8388a790f1855dfae3); (0x524ac119524a5381fa7cce3214698dfe5c1d52787a6b5d3d2fc, 0x533ba27bf57637f7314f32912b03377c065dc3ece5f8711b2a4); (0x4da8c7ad88cdfbdb1b20a19bd3eeeb1139a0714f97e94d6bb24, 0x3c5d1ba9bc50877f99b7735fbae823b8fbb853f835144a7ddc); (0x38524c76d6078383141e814c25c86487667a6aa4462788d016, 0x53bcd52691d84db6275dcb7e9abf42c440dd1a2762fb3942faa); (0x4e2153843461a3a0f9b1363a5e380dd22445aba016e7d2a931f, 0x2fa070bce8295bc2ee7c1e2d79dbd201cec9b1a159adb8e70c1); (0x2c6ffadcded4eef5ec4ca118e46bbeebffdc6f4333be48e2c61, 0x44c15fcc5acf2d8f2d7c4609149439a7f31e283bee4b233b7df); (0x4026b5126a058bea96632310eed212700ddffffbc4c1f36fdc0, 0x450d6ccb8b3ef8cb6da8390ebd00bde92689f68e8f93b422de0); (0x406daa566544798af83ac1659800af415e55f9c166debba37d0, 0x30783b71d6d082f8f63d728adf429026b1ae7eb91147fa98230); (0x2d39524533b6bac817395b4e077404c3cceef67e62a65da4bc6, 0x56fc324ae5ce3b29234e7b969c1e8e1faa1e05af60fede29d7a); (0x512904aa48a837633889487ffaed5172f24c2478085cd82875a, 0x2f16c0836bf243813d439c4dc863661e83e39d3600e46bfab26)]
  [(2%nat, ((0x0, 0x1), (0x0, 0x1), (0x0, 0x1), (0x0, 0x1), (0x0, 0x4500a5cce22f613bf7827aad1c3529ae4dad984c90e963d8e54)));
   (2%nat, ((0x322bc0ec72780d524b3984e4d7b6bb3bb6602339733f7282928, 0x8c55c3f819a23e7dc0a33196b41746c50e85d55ee8bdf7bd68), (0xcf84675ac813995976bc3e0f0eda3edf54a3dd1f0a5219fe4, 0x3c5d1ba9bc50877f99b7735fbae823b8fbb853f835144a7ddc), (0x2665193b27be89e8b3f5d973e3bd597f779b0ea0b67d021e9, 0x159d52164a0f7b78b6f60e1f8e532fc5459099bf62af81e0e07), (0x4ec3dc1143bc48c7c88168e1a66f3d985d2c6b2b1aa005a9a8, 0x3e8abcddf0ebaadf1f6d6324e6b08566781e59711daceb5a589), (0x2d79372de4386334ba210015b681990525c1154a973dc438cbb, 0x97fd503450acc22d739daa94d3b04c9c39977140c12aa9b2d9)));
   (5%nat, ((0xf36a80e59f953ac0aad5cdf0395a9764d23a3a8fa3aded369, 0x319d305806eaed10c687dafe2a786608705e88d22ddb4411368), (0x19f00a774d9aa022877a9294dfcf933d17f060b1d2a2101213b, 0x30e75fc7f0509887cb1265540ada9aae3017e5ac2c73d5cd9a5), (0x19334cd2ba89cfb6ce302e0cb3d551d59f7cd6f30e072a4fb4b, 0x64970be9877b3e623ac66e878393b0580973bf2f1f0247c7ae), (0x6a9e49cc5b0f0582790baee6e4a808efd19d4a403bd3ed3c1, 0x472869f68fd27ebdbd2d1a364946897e5d8d8defc9d6398c663), (0x1a5d81b1e1b77ab65d344a263f2bb4c9dc464846a38400c2f6, 0x342eb362d0cf34a88948dbe3f52bea7231bb1b255c15492eac2)));
   (10%nat, ((0x1cb150bd348a1399e4881923ab0ba068f34931bd9f38bc593a5, 0x4ed88b529b0d5c62001b6072ab7a87d77421b08ac3c5852aabf), (0x41817de71a69421d25b43a353f38102bd8917f6c1b6444590a0, 0x2eef71dc995c25860f95f85dbd533b11fe8153299c2595595e1), (0x173665cc2bfc00416f1b3069a7190922301ad1db290b9b05585, 0x393c16d4749d3f9f16761f5579122303db8d8500d348957219c), (0x228484550e675ee2ff076ed9a64c74c911ff0bf04264f2bb39d, 0x5085a841d726adcd699d1daa9ca850a1c63123fb5f9066a27d3), (0x2868eef21c1595de6fbef1ecc3cb1a9e793efe088673d689ffc, 0x15b17bf43134240a3f12c2932a4f57a3d0a59750874b5b15697)));
   (9%nat, ((0x4f57151dfac2bc8e3ca75a5c046765fb368a9f85ab90396a1e, 0x3c77cfb81e8835ae0b8b6246311d62532c6f664a5199dfbef33), (0x268719061965c0b032cbb142f02dbdf54b0e40f00e3891388b7, 0x28467b72adcf1d4d4cfc4f800d363bf16088ece0688b39acc92), (0x11179fa83cdbb5ed4c7065e98522e0d7b1ead3da089e031a2ea, 0x5146513e8889289d591cbb34d2b1b94fcc40e9597b9dd48f31a), (0x459a8dae62261f9b16fca726f7ee940ab1570d3b670274759dd, 0x407ca882cca1c0830d656a4cb3793bafd88b838480554788127), (0x38e679068eeefe3dcc9cb736f7b4e69e2d1724bdb95bd2c1d34, 0x515167630358f2994af80fe435838b1021014e6ff43e5650932)));
   (14%nat, ((0x45ad8c27330f0f572d422591581748883674726dfdcd6a2abdd, 0x364f8e16da505fbb94feb6b4258cad5d4e75c2048dbddb11e47), (0x1f14b6b058939871af9482c791c3dc072ea8044dc79e6d50290, 0x2dc90f1470f040b601c57117cccfd32984c582d2ad7d9cae321), (0x1616c7a620ca3cf86b3cf5c92a991ad5e7bfb8f18228107495f, 0x5df4e6fd9dd56e0cf1d7eb9540d44b3e45e71081db9a073fd02), (0x5d052847e6a5e237fc737a64077e8049e3abddf9338377ade50, 0x44e16affe020144883743d3d1ade80c4b9de417b7b59e19cbb4), (0x3f225081861aa59aa2d9dbd01e632d498224bb5b67b1ae1ba3e, 0x53fb6b53bdbbf824a6ea7e73279f38693c9989ee4237b5545ca)));
   (2%nat, ((0x4a51791ad9d92809bdeef5d1905e6b6e356f4b97b9629f56ef5, 0x1847efa6519aa927647ef7059237b6a62bdfbd02130c5922dcf), (0x6365bd4e9ce274057a047ad10e4f6a0f3f63a196fce96d8a1a, 0x3e384f3009320997930ce22cf9ff88c6e03ac4fc92a712a1007), (0x28cae7effa0a89f5211b4d662607a2efc4e124310c0ba64a213, 0x3e0e07bd1a51985b5ac8c96c35dcda8b407c04b9092581c3be), (0x28938aa669f18aa66467f2479f1d716c589aed312e206225c, 0x28d6384be96ca9cc8f422d5e5e2004f3dcd884a67afa8c53328), (0x1db1235455e02e7fb5f296af754242b5339a89b7ca644b3b4e7, 0xbeaaaee245c48df212cbc9ebffc282eccd922ff278bf44f59)));
   (1%nat, ((0x17f107db6c9ddfb0c91945ad5228033dd6fbb6978054f608, 0x5ed3b597957b8726d441cf24dc8a1cd1b969880141c0fd15e9), (0x5ec05f863d7e3b3d1c9d2a8734bcaa44436ee9e0c428432d8, 0x2020c926bd820c7fdd93c8dbeba0cfb1ea903aee19c8f03c039), (0xae065b144b1e34e7d57182d982e5235073b9c28fdfe8160aec, 0x1a95bb4dfc0f0746d36fbd625e675431b86d071f87f7a4a4445), (0x7727a3388f2b54624dd627e18ef0b4518006a2d5179ba92241, 0x86d22a198596a58d7597052964d64e580f7ff450c8c9156838), (0x7dcaf0fa6d2d3f5be6736c5475a54bf6dd9de6fa8080c6f8f5, 0x2cef42d13b91a016d759666ca236dd813ca61f5c46b5f3f756b)));
   (11%nat, ((0x154694b28522ad1b33875094503ba667d7a1f0d803f1faba5e7, 0x470475cc88da23d310f7dc9c922eb8fc043902282feb7e3ff2), (0x3524c97dc2c61d0fae856bb28b324fe14df032ec084fe4ed0, 0x2b951d5c2ca4e05074eb9efccbfdf7282bd364c8498010c57f4), (0x1403b991555f3c9122ced5d9325493c19671c31f9c7d45cb105, 0x202010089fa2ecca82a2a40d51d003e3d822f38d5f29ba166eb), (0xadfe85c07710049fab73a2486e9c3b1178bd2cc877ce4b69ca, 0x2d0c0f23dea23028b8706d269b4ddc7dcea89f815186ff068af), (0x20a2c9c6ca51b78cb47ea4aab35b3b6d456ab795d64dc85b7c9, 0x5e4bf4b21503acec43c46d63bcbfc694204ada04235bd4f7088)));
   (0%nat, ((0x5db1d7488108f522ffc6d94a5402ccb98d5ba86af1439308d15, 0xf6b0c2e5b7c82ec4ce856405de2d1fedb304ac5f561283108b), (0x2813fc15ac70b316e7e67e1c7dc31df2c2fc391440b3174907, 0x33f4315f6a4b3e6fc609b92b8b69c7389c572cbf814c137e992), (0x1c711d6996c7a177c0797462c98da922dc6e6af49d993818557, 0x4422c62f641a2d4e212ca816a637736ad0346e7001671f10f0d), (0x30eb230122bb36a5900e105c5c37f8bb7aedf568cff9ea960e4, 0x41824fbc6c3b0dccaeaca13ec4db5dd87a01063a5226e6c6945), (0x0, 0x41824fbc6c3b0dccaeaca13ec4db5dd87a01063a5226e6c6945)));
   (1%nat, ((0x2d382735a2fd671182d95a2303d9bf0fb1ed7e5d749efb542e3, 0x42741a072f2bae2ff1f93d1c01f608369bb07de66eb15a55556), (0x2e885d1e37a98ffec74c9c8b9c0b2ab6d6d738a242be8699115, 0x1cca653fd0451ca68a354a65bb4ea0828f0858001c3e8707d2f), (0x8bbf52f430038e05e4e0df3dfe8d7d07742def0edc7d106518, 0x2c2e00f28e0ae40608afd99a8b3f35b7d5ade508b371a942689), (0x14911c523f15671948f357d0a61e94c42010e7d0c51f76f824b, 0x25fb146630800d765dc443dc3695899cec540e04bfd8b6831a6), (0x236ffa8ba9851866d481cbd3ee97f515d6e0135dbf9ee02cb15, 0x4cdca767738f5207ef812b5f01956ad205bb2bc47c03176c88b)));
   (6%nat, ((0x3e4030a95f44dea293fd315a178ed875c036ce916391f4a87b3, 0x516e8643dc207d28ca0f39df6864d6af6c4b71ebb8e93d6c566), (0x45df7c9fea2940aa170b779b12613662b0197b1dde2c6aa3733, 0x17d0e8d634bea5ef71b96a4abb5c0bab741b67d4757fe75cf11), (0x5fa091658e0e6a42e24883bd28ae7ba9f2c484c731bd73f6ec, 0x1e79b5598b6516b1f5f842b3a2306a6144580964ce920a9cab5), (0x9c94f4dfcf37c00f68c513e801668bbb8a27115c29eba21130, 0x4aa107999367aaab928acfdf0ba319f78d9e2ad2dfd4f46cc9), (0x455b58f75fc20723a7ba39840664ac76885d961eb6af86916a, 0x5c73920266e23447543c1a266d923c9425dbe2e7043058ef191)));
   (0%nat, ((0x5a1049589605c1bedc7744379e7df25f2e04b2ad5ae0725bf38, 0x4bec0ec033d348b8a11d4d4ba8b736675730748184a5d3dede9), (0x3cbcda69dbd5c35fd56e82e819d5f0b8ee066b28b0ae625f949, 0x4e218718cd648f80a4c0b797c983dd15d953fea920185d0f3a8), (0x4052c4629247a4471f1831e272269510dd25949597caf6f3289, 0xd5d503bf529cef5176e986a21080a875f4bedf765d2a83b297), (0x1e1cd108a3e1a623bbdefbe9b0afa55f2f6d4634e6664faffe, 0x3066456e96d4bebe6019b2fc9d4ad73e333a72130b190327553), (0x0, 0x3066456e96d4bebe6019b2fc9d4ad73e333a72130b190327553)));
   (8%nat, ((0x18aeee68f63269ccb195a9c7f0e9f72555e289ab4b04a5b7061, 0x52388c6f1e05d5475376782e44c1f2e75be6c307020a2049468), (0x473bdcdc8139abce539e4bc40f1e73da0ba61f6d532419bb1fe, 0x2c28b6c72596749940714452992ea7c39915999a9895dbe4882), (0x148c2fcfbd108aefca84df31d6ba412d102099e6b6e9c318ad4, 0x189e8b942cc6ad27b8836018db6ebd0b3143cdef6abeab25cb0), (0x662fc54775293eea1723db8241339a41b1183c9571e8676bfc, 0x12339e159500cae810b279afb78f5749f24e48ebdb764c9ad84), (0xb93cb71b2f9046e7d7802fb13ecfcb131b1e8fa191344c868, 0x2a57dd80cce79cb24784144313505487f19955f3a0c9a3e7c08)));
   (13%nat, ((0x12e47bf4c6e1c7e009c2a97ef6f8e5e1c613b9cf40cf3943c32, 0x144cfc159d7a92d000eaced27313914ca609f0538161268adce), (0x457b16aa77a2078d40c205163c35ec8b23bf15f355fa6303c3, 0x309a5acd295734226353c7f721ed7313ba5b8c205e27cb2dda1), (0x18e42acce6023c5576189e2d2d3669c4308cafb7871671bbef1, 0x4b6b15401a623bb2f3ddfce97ce2455d8a32ae6d434916a5a30), (0x3bef2dab051c0672006ff6a3330848a2a44f7ded198a6444bf4, 0x40521cc755632b9c7c7286d4ceab969be2d438eb4486ce6de8c), (0x20d9bf8d4d47039ab00e9b4e66d7bdde5a5a8411c998adea9e3, 0x62c7df1d38e05ebe865f593ad914fe09ce381cd926402e33fd)));
   (13%nat, ((0x66d140c6cf162ced5168468a821adc0496ea360e0206b2e87, 0x3b53c7011a4ac4dd2c3a5278483827eddd7ab58c48731270a2), (0x251676c75295f07c5e849f92fc9c492cec99a46c2c4ef5aef, 0x26d16106e566c1309a400996f2ef2ae15923acce7de12dd5b5), (0xfe0ac88936e5488a232d8caa127626273d3ed6696c5ae2cb, 0x7dfefbf3237bd91e4b43015cb267a6f2f650f0676369f07dce), (0xa746dc44660e8c6261b85bf435be4b27bc1ecf3c2b7f24ea7, 0x45f165fdac0e11b0678eb018896d539c3f2cd0c140c6ac2563d), (0x23b8d5f141b466e5fb575bfa39844b4f2998270492c1ac9aaab, 0xca1462aee2699ee17c76a0a50f7484374d56c26887655d2d65)));
   (14%nat, ((0x1ae4bb5f307ed7712631c9a589029c0c6618cb7933363728fc, 0x8fa3488a5d550f59a2115e092ed3ae11fe8413c57309da015d), (0xd96668ebf71c672e1047e42c93595dc19db28cb1ccab0aeec, 0x1184acfb7679cf039fca32f0fea05b490521705f9beb0756f5d), (0x33bd5e98b334befb6fec7e34f826342c3bfcc2378ccc5de073, 0x3d56171eb388dd5d601198c787f9ff75e9f4c6c5e78cbe0a0f6), (0x27a462a4ccd28d521776c46b5ddf7d9ce239c097cac10b1e107, 0x321c75bd6b1d5587b1c2b4d5b04da35efa882e51d5acaeb127d), (0x2dee3841ea122bb923d005c4e1566ab30d81f0653ed001db75e, 0x4d2876a80f0c862de5d918b9ae30dab906bbc7ae8bf8b6ba574)));
   (5%nat, ((0x3ebb39389989064cf1d4e31b814c28e46af9b476ad357884296, 0x4ccd8274dc7f2a86cd46eb200be1d9116f16d4ae42b304c373a), (0x3e27ab2bf6730886e9389b0579130a6cde627ef5bca0f71d2a4, 0x1556df8b45f15abb5ec6b0ba1859c70340ada85caeb773d3200), (0x4cc5b228eff6b5fd763ac5c3ea78cb10742a6ddd4e7b43e985, 0x43aaffb9ccca561f1c03fcc724c8f5e349e9fcb58b787cb5ddb), (0x303fbd9ac720c8ccfabba6278c11ee66df1c56f7c8dcd5512bd, 0x58dc27ceacba1f6bc2efe2c4a47f6cb5d0d7c842f4623c926fc), (0x20ec9908e79c60c8da225de80311d56adb4e64979aa791f601, 0x3eb0a895013db45251fd7089eef79640236a2cadae32f99fd3f)));
   (14%nat, ((0x29694f05066097c6b41e73c8358b31fccffe3dccee20abfd5d3, 0x544c7a2d01bd7138afb25cde379f563346a1a77068fe220cd4e), (0x4ae1346b6aacd6d31963f201749ef10e79b83d3bf3d72211fa1, 0x3b39f801f38f08fe6d407cc52fded34eaac5d22988860ec0803), (0x24f63938b6820f61a59a727b8c744ed63352522fd8a79a00f42, 0x1a955d356c35c2044552ae90a7bb74d872a6e101ee131bc6887), (0x772457c20e4a241281a393a07cfbc467ec0414b65a2a6d104e, 0x1795578eaa1605b7186ccb4f6ec5ca8c6949e35fbda37862d23), (0x159daa2195fa4a8e6784740619a0264115b722c823f1571aeca, 0x10508b5a7a0a1f02d85c3ee2c9cc72a430bb7208b498f0961a4)));
   (3%nat, ((0x2cdfc82f1931b8ef2216ecb0d274c3499805f2e3dd7b015791, 0x306a7c86c85e565b6a7f18ad716c7288d144aef5601f2a2ff5f), (0x18b33b4146925097ff60bf6af44d2cd8ca217c45dce0bb1ff43, 0x2f0dbc955b6b5228f4d420ebc97e90a2f7959437dc2b8b2c59e), (0x175465de0fdfd205cca8220897793171352d4dc52b46fc12ce9, 0x23cb004e9fd4a0c4f0e2f1a701d5b2d45f9601834ee0e479b7b), (0xd7fdeeaaafc3eb3bd352c7d6a8522da0988b630a7d2a07dcf7, 0x350aef196580d9fe6c5249995f22610cbc5c8f3e28ae627d942), (0x2badada5f9aa3a4895eaf4d8829cd376072e1c0e4d5bd7ee1bc, 0x352b75f275eee25d2c8d09d9ddd1bcf0c94726ef2e2b5b5bbe2)));
   (14%nat, ((0x1dc9e810340eeb7a4ef32b182378911465a4dc3db0df754d40a, 0x226454f69af1866db4b93fd1b56d0af12b8de1acc17d1318e3a), (0xc769e386eec59cd0006686a1d68716b289c3ea4e33fa020b0e, 0x1d23b732838cd9dc3a80f95dc03359055f922b9d468ba164856), (0x8f27af0fb76e4acf6932d8d2274b5dc9a510fab4fb84c280fb, 0x5683abbc577f0c46651ecac710873407959ba76450e7c596489), (0x4ede1586e56daaa184fa0daeca2eb83daba66eb47894dfe5824, 0x2841e22fdc7e3bcfe55004abbe8e2d11f5af67c5054720754ad), (0x24e6182ad8319a656d81d15f751dbc329b66c2fe2cd27125740, 0x56e96c971ea8979cd75b41d918c5d2459b037c91c6c9ff73432)));
   (4%nat, ((0x4f980786b299ddd204f9e192a3ae8ce095bf301f41f65139f0a, 0x1b480aaea677bcade296efd49558795fad5572cdd33fe49c97a), (0x7d7af757ae1b661f91ad51812c715c1a780014fdedf6004fd7, 0x4673e15e600d51a43fd00c426f2eddd9462e2e7b9287ce2ab6d), (0x344d4387660773cb1481baea003727438e2201a70e50b16fe0b, 0x5292296cfd68a021ee497742f23d5ea31d551d70584d07514fe), (0x47d77852b8d36426962373b88db9505a58f9047b0058c95b43c, 0x4e13c53ab312cc5c7ac9d7ccf325b5736117e292bf8422e1048), (0x7374754b70aba40d863790fdda6263904be5152232dd9b6046, 0x36388d0398d78bfcb723fca8ac15116fadeca314f4efcaaec3a)));
   (8%nat, ((0x1efa67e0400a0e11fbf7df3707b284ecda73087913f10c0cba9, 0x60dffcba3bb8b29cc873968c80c1d2eb262973564989f4945b), (0x62e3684b2b997ffe89c3e2fd7e0387f2316fcc70d0805b6f7, 0x151bc3b68c0f9cd0c344196e026bd8c3d692e8d26fc95a7ea82), (0x4b1eb0156f2a00c89f148e4b2e1d7b170d7d412f0a935b567e, 0x498ab6ecf3b75a57b52a9d628679663b34fe616babfec9b93c6), (0x38fd2fcd4176658b07e7c6803c43a4b952e5c7b74c62ec71787, 0x5b7d5c0abae9becbd648470bb10b96be5197dd3e1fb08a79cbd), (0x3a3161bff1902f0e20db25479a9b49d60ba3d3122e79311cc1, 0x3a56e70155206e166a41db6d59856e6d6fc07804c2c58265e8b)));
   (15%nat, ((0x23dceea7c4696eec81d20d0d3545e62cd60f0881ad6771fc01c, 0x4892d47efb9315ebe1512342832aa50e573164e0b2447493bdd), (0x377f88ef3663d23a3fc364ed55f6e0be2ce6b159e1b4ddea981, 0x4dc267f9dbc5ad89d085b5dd98341033acd098c00303fcddb28), (0x3fb6845d7a91481dc8cc887b756f947afd4ea7e573e40caed15, 0x159fb37a4fb85366a35f0d1d89071cba8024250ec4804e2de8b), (0x4ed5365be80dbd694e662cfb415b730b5715284e0c747b6b23, 0x1b8bd6fc91cd66ed7ed6dd550d788377838be9c60584e3fd7f6), (0xdaafd7cd2feb1d2e12277c7045886fd775aa9a3a29e525fb50, 0x42070d0519cc74db30b97d5c03cb9f767350e742e89e72f7b34)));
   (1%nat, ((0x2df021d6e57c582386cda223b75007ea0f1fa775bbd849f58e7, 0x3cb4c44107f99d2169419b6dffdeed22594cc2d793422ba34c9), (0x26d4ed4ec0c6aa9b45df2b2b55d79d0a903911c228d929af6b9, 0x1546429076aee0f2aa227bca4582719af9b34059510b211cff8), (0x4c4e56ee39d966f4f43f50218ee3215aa11477b651c0f0157d, 0x48e3b750ae4020dd7394e231148e2dc90fd2f1604254e37f323), (0x37fb838f5297b3d9bacf558e95f2ae1fbb8ea678d77f42ae8c5, 0x245788c5e55f8aecac39d8933163b9ae2c0d6f7e10ac123ed64), (0x21e88725c64baccbd4f75483502bae3a2feb1859c958f457733, 0x25f7f4ed80a10d333a9076ab2f91cfd7b80315a44ad44d3afed)));
   (12%nat, ((0xf30c17c0ee54a45b186a5c7c06109f9fc56cabc226544eaf0e, 0x5bb4515e2f1a222d608d6c16b67131a2c2fbd0231f201f0a09b), (0x589d2a9637eef2c1fbbce098b60d2e8b3ec50474d76fbc20e1f, 0x48e528e237e0e50faa649fd0c8ecebe40b38357a6eae19d33da), (0x37fdbb45d55dd41d848aa175852b38b4b521aac616a4a0fc2e8, 0x27dbf53139d9543fbb5cd5b440423eb13e7b38952862c4235bc), (0x10bdad002b2887a84f97622409b3f9aa906ed6c676223dc71ef, 0x26841255f85e608899d7a0b771c285138e0196dbad1f6a71a41), (0x1c065356dbf7d696f7a30c17b7d2d0949809a32d98cbe04ec8d, 0x74291d759729947ff9c0ac59222d75679a20ff31d3f1a51fb3)));
   (8%nat, ((0x8e2e2e32559b23f3aa50a05713a82e5541f299ef10ba5470f, 0x1306e1969454f6fb3af826980385863f1ab1766bf7a06b2163a), (0x3d08e4ba25be015360d1915049dc850bab50f36be5efd595e7, 0x4883a02a0f5d4ca4a4ec0b3e8b1e0bd545b8033c724fca75a5d), (0x37684a4f9daaa846722d35ee79c1383a2d7048234392302a966, 0x296e293e6406f94528107f3e7ba86559edba8e4edffbabd3fa3), (0x12162fa3f8917e4c7548a3e7ec13ad51e7b752b368a3dcd14cb, 0x4c261ea542c37d20f01f78c60bf67ff12071af31620eb5efb9e), (0x306f6c4ba908f89e5adc3cbdd03c1e2c2240d9aea5f742c006, 0xac0f2f319deb53bcc0e53df6292e905fb935a1a9d7f2063102)));
   (13%nat, ((0x137f1fa6d2eb032c938964b0c37b5faa1a47087ce3aafb310c, 0x38766bd30b3dd15ec7fe766d5f3c021cb8a580e5a1d9ea19178), (0x2197b3cab6e2582af9f4528ac4127154307d1160f5a2c3f2614, 0x2c307ef9133758d641139ccff3cd1168a106b9dbedd62971fac), (0x14936e6c37d35ef9c87e3c5c35d3b7c4f463dbd263ce803cd8b, 0x3b537b9121b8daf402439c3bd5f37b38dddb0f693c758f6a4a5), (0x251618763ea24548a0276f7558154074f3cf14a4eb3037f704d, 0xc6873779642f803de2db338ef551153c8f9e581eaa399d906c), (0x6564f96f1429ab60626b40c2ad7408158775d2480ba9cef627, 0x2f44925f7d813cafa742814442ab7672eb9f6fde19ce31fd939)));
   (5%nat, ((0x178ae5b508ae02f98510852649b5a5df01bdb5a8b468c535e54, 0x4ab4c8ca883525d4a9e60aec0d731a50e7bd8aebe3928c865dd), (0x3acecdc5d51d2ad78cf87eb3367be5b42270a72569dd6d9c689, 0x341990735757e6916e3d4a9fb339b53fa420e618ab79c966120), (0x1c9a170371f43353c6d4bc1ebc55dbb1aeb292f7c7a9a05aaf8, 0x2b1a8d48ac79f9e37096f8e5746591ba3ef5db5db2e63057a08), (0x1393c5f07169b7caaf93401e5a6ca80126d15d33053053370e7, 0x5c26f7cec83bbc05bd521ee3fbb7f5cc44c2febdb742ffbba79), (0x2224dff7aab60d9f408080843c380047949ca2559ad8fc1830, 0x3123abaed25d122d200b788de5578636443b5e18316aac72bb8)));
   (12%nat, ((0x197197898ddee437f2efbabca9babde4e51b29feea5e9348f3e, 0x1145b02a2f645d5e24c355a28d3184b9a7d196289338706ad42), (0x324beb0c9858736d216dd551b84ecd25ec364248321a3ea304, 0x27435f3802eca7186b2c3e613c3a318d4eae980927c77dfa180), (0x103e762b5776208453b5a81ec6ecbca2caf95711efcdf7a29b7, 0x36e9fc8d157f017e471ff37d472b28295e5db6da0ec8ad80769), (0x1fc6737aea16a9d4a3168969f453b5c3c13d7cc22ca03ffe9d5, 0x1f3e7ac83342c35957d30b6bcb114ed8e298b6b61bc7d79bc9c), (0x16bbce250d01e44c0e353b1a4a68c8baff34b4bc5f8f2b4bd53, 0x4def674dcae6d2de5465ef772be219423dea592fd23a53d4cd)));
   (0%nat, ((0x400056a875904ac94f02b440fda6853ffde125ee5b4543590, 0x48941728e447268486dbcaa94d2752f64bdf93b15a1df3cc499), (0x378176718e7c3a437a8247f0a5ea7f82c086ae4e7ca45101386, 0x2c16c23f7d8baafcfeba9427d40ee80279ebe7c2aea82ecaf2b), (0x147b7d9800392ed8f1523b352c5b0963c6edb6aa9f2cbda2a02, 0x153479639ec683763130906a251cfea3f905555c269d71c96f7), (0x4bcef61def15c2b250982330aa71ec0adf5e604c0025b30be9, 0x451b7e2babdaeca729621850e8b205c5589fc21ed8bebcbb148), (0x0, 0x451b7e2babdaeca729621850e8b205c5589fc21ed8bebcbb148)));
   (13%nat, ((0x3252d227497dc456a9dce0ba2e5a1b5e300d9deb2ff89edff79, 0x1f3dad186a90dfc4de673794afd4afecefa891f6de1982e0da7), (0xa48c005b669622470e6200ad4f9787ec52577ac96971a3c6fa, 0x3e43b2347c5e629e2b41a78ac1628af4f0256d077d423d12cb7), (0x28d9d7962a6179ddac2e30b01ccc65a2333fed523a14694d5e5, 0x2cb06516ffb0d72592d04f2e9c7fcd6c145e5078013e6df504c), (0x150b362da92e355f07281147c947c95c356ae878f48f50e4288, 0x2ff56b9b04477aefabdaa07dc50168328984cbd36d65b9dc308), (0x187e746fdf53673011c03e0a77d595143da075e9f01f331628b, 0x42acea7ebe520bdd6a7e7cf13ab7a417076b189e0f64421f595)));
   (15%nat, ((0x2ed8100a4aa65c978a23dcb0abce5f6bd565bed7b7f9d316391, 0x140956d2976acbc9524319ad7568ae991d350a7311a24cc4b08), (0x43af0ec27b7507ea36d16a812eb3a65bfcc74c685573224232, 0x460815f42dfee2bc8d1bbf3fc0fdc6c9b3457bf4428646fd7ce), (0x33adb20cf9c3096f034d57360bc82ae5aec76ac682691594cd5, 0x12478e710c8cd2975aa0bd71bbe9ce0e1a312744e38f764ba4f), (0x385587e6b3aa790765d3c504e1bfbcd4b213652cbaec41141c, 0x595c9b3517b2dca8a8dc8c091a7ed932aca9161949ba0fdecc5), (0x2c56f1055ffcba8b088309fae61a28d143ebbb4c7dcd8c3248c, 0x3655e777ea7efa34f868f7a245f54ea621b2bf5a19da7092632)));
   (15%nat, ((0x1f1bfb745f475614022482e08ce9049bb4577ecff960486f013, 0x3e15026962a9eb52a2a7323bcdd487cc75a68a7fb1e664fb751), (0x289cabb2feb081276bad2211564572c93b39d933f00336ee301, 0x4cc9cf734c9e41e71c96724c47a74e7325fd095c60556d3bc80), (0x3e21ae878e9f6e77403001a4daf429a804217d1565d204ac9cf, 0x42ed67cd433dcdc66a5da85fae7d8c112a932804e0e17bfa451), (0x2f32d9a9712dd65811e79731a22d42efd21bee07e73c54d68e7, 0x3c73d2a2cae8a268b44998d98eb74fd47f7c4f173a235bd03da), (0x1dfecfdfe5e9490ad9ae51585263be10613d19a1c2df7b7aa73, 0x5d56594cd4eb539468c6d2e1abb7862b084e4af26374410ff89)));
   (13%nat, ((0x5bcc3ef1314baeff0583e085634356157e9c6c9cf4581cf4861, 0x4289f432b9089bf3bb1990836be1d4e6cc1fd5a6ca28656fad0), (0x2ea6fc8c3fc4f5f338a3e43cc55d444ea03516ceb5ad6404c91, 0xf05df9db5847a7a9e97658349dda5ec49513da2db5b932a24f), (0x260cbd9aa5e58a414494d50df76b9de22e88fa5f8a66826edb, 0x57c5686311bbedc461ee5315603a4a41cadea5fad6b06f45226), (0x512cf17e75fe4a7318cadee940e1eb58fce58738b886326beae, 0x29cab2b31659d6f4ecb680743e13684c7958e39cbf55b461936), (0x155827296bf2c197f88810e99669b13da6747a48f752e71463f, 0x1)))]
  0x46b9945e1f93dead81d4c2e3d7dd9e4cff0aa76b2a4386e5aab 0x41fd261885122c81c91ad9d8467b7274cee9c48204c5fa656f4.
Lemma prime_203_e821 : prime (Z.of_N 0x5ee70f9b1a27d9691299d0b911d9a222ca64f69c6cddc6be821).
Proof.
  apply (good_prime _ [c0_203_e821]); [vm_cast_no_check (eq_refl true)|].
  intros c H. cbn [In] in H. destruct H as [<- | []].
  - replace (exponent c0_203_e821) with (Z.of_N 0x225a9e21b01608dde5e3e48f1c8d5c0dffd) by (vm_compute; reflexivity). exact prime_138_dffd.
Qed.
Definition c0_231_8065 : cert := CERT 0x552b123a9da080f42fa4411da75da211c0b2a4a25365e4852a4d7e5366 [(0x0, 0x552b123a9da080f42fa4411da75da211c0b2a4a25365e4852a4d7e5367); (0x40a6be72239f79e379953ad241d05ec9953f9f514d92cfe70985dba6b9, 0x239c4033964fc44566b7084f97396405475cf329dbcf2a02a53809ac74); (0x1b0828db183cae1052d9a659b78fcc5f0fd4db3899ba1ed3c764185486, 0x4f253fc80262f0f5fd537a2ab0e4fbdf95a612b4d2ffcebb9c1153a5ce); (0x3c145831129f16c46562b47ecb7acc0757549433aaaddad853b3970f98, 0x4618dc44d910d18c41fe7471c2ef93e0516f354f589fed6eb7321058ea); (0x3535f8698aa1eba963b42a14d24dc6b3ad3916d5ccf871c64b2ba00a4e, 0x12396505f81ec7f53a52dedb1d298112329589886356ec9261a48a9360); (0xdd5820e25d52751a7cf06ff9c07b5456b93d58703ba6e6e774fb2fef5, 0x1ae3a4c6a0700a91e0649979d106d68d3d1efcc1be374aaf329c1354f7); (0x14696259e174e59176696b62ccd4e9bd6242e494ce1af52473fe9ff3d0, 0x12bd7727128276dbd08e7e19f2aa0b86ecbc706f7b3da46f5a3b921351); (0xe39c35ffbfeb4b750f3519004b587edc35595a7a319cdb32e312a9b8a, 0x46db440a04b870fd3c7a8a9c4fd9ce5d8240e6dfb5ad6fb9771978ab25); (0x35c98b3373d9191c68c85a9cc5c75b9e9eeab025b7cfe60bc1c095cd80, 0x3896c51bd1b325475d36a0f03d93d18e214e6471bc16d7f78920e5c763); (0x2af4edc077d0f81fbf35049b8bb12835987ec008cd9c9e19e84e57c71c, 0x379ca336bd44a582a24815f6bca2ffc9edd87cf2ef4fd208a5a6c3c9); (0x2a370d86cdf09dda6098f745542a198b15c6bf20259db067467af02c, 0x6478d4e8feb729951e2273284e6f391f2515e31cab0f404db2ed5e2f83); (0x4c44b8c520efb1ce1469eda7df12ad76951ed95a91f4ec887d77a09db0, 0x2a0768b8f7dbb56359102cfa346c7ccadb488133ecb75508a237606045); (0x1fe77bc6d19546f3153f16cbc8909a3fa685c1ac4dac07cf0544e42147, 0x50cbfade82d05821d7314e4ab5b0414ba5cc7af5914caa460bb2cf79c0); (0x3d553d7687612ac9d413adcc3e57179a335cbdddb0ac69fec1926f111a, 0x6f970ee9a4672ed215e98c6c7583e125e6fa71839a73820d1fdc2a7cfe); (0x54b54bee14cc7393a19b3ec54c87ba03936e4bbee98a91625f72cc3b9c, 0x4da151c11fc9ea00d501dfcf7828efcedb9c41c1360e60faf11c51fa6)]
  [(5%nat, ((0x0, 0x1), (0x0, 0x1), (0x0, 0x1), (0x0, 0x1), (0x0, 0x12396505f81ec7f53a52dedb1d298112329589886356ec9261a48a9360)));
   (14%nat, ((0x2f5cebd35d08c81b23356d168efe4bb455a92b56d10109e565369be6b, 0x379ca336bd44a582a24815f6bca2ffc9edd87cf2ef4fd208a5a6c3c9), (0x1b909ff6c4f1826ad18b973507a9e7ffc3d3e557be7a26ca7ef468, 0x65a567bf0e87d05d8b506003a8cb5e4b6894b6013bee02a1cb2a7566c9), (0x5c1690564100d136a00e4677586db8330154f98961b987b706bc28d4fd, 0x6e1ae8211b9524120562012bf9d61791b982662c1ab60997238e7f4200), (0x6c0d94eeb2d048c8425a668dd3629886ed7fdb7f0717d98bc40eae397c, 0x1deca96da47cc65c91432617d415e54c0718275a5816c8229b4c2d5214), (0x1dc347e8d56164ebef965f9b609ce039a30b124173293cf2b2c85bb7b8, 0x4d169980af77864684cdd1566cc43b53a7660b37faff8acf7eea7da440)));
   (14%nat, ((0x34f75921e2b271ceffdcd3d7e3ae2fd70fa275c66c04ed28ed1138b5f5, 0xab8c8954fc14fe083c72d4a2bbf4c4091ace9636ab57906ee3ceac657), (0x1064ccff88d840441974067273cdce761d02fea1631e06adaa54f320c, 0x577af84515c789835dc333f13cbf957361a8791e4897aaacb3e105f2d5), (0x443590563b4d6f5b731d7342dddc66b7b2b05915f02ce843d1fc931a16, 0x72ecedfad396c54ef1041013e85a991ac242e92d600338a87bccf1a8b), (0x75b8a60e3aeb3c4a651292bd6711850a03b09bb1021b8aaf18741295, 0x2d4f434d43d2c56b80502fe105dddeb3eb144b81c6bf7e1b55da37b2b0), (0x2d109b4d7a0f6d69a5c2f0fd747c9c353b84644448637a38272d4fae16, 0x25b679fd61b1101653b20c30f5ba1f7388a052022c7a835998466fdbf2)));
   (7%nat, ((0xcad2fb1b957c1788519395879f14ca0dc2e9fd9cc5f51786fec1909ed, 0x6e1cb9caab7b06304a75e74df744e476102b6dfde26cdd0b4d1da78643), (0x6c1126ede85c62bc306c6924ce5314f3a44a526b4a68d1aa50df68895f, 0x976b4a707951aedd7dbd88cc33506d6ee31194488708cd843cd8f830e), (0xcc5aaa51180b886d147f5197d3beb38436f884e95338afe37a6bc9f9, 0x4df7d935194df6dad7379726f3b466758d1a5218617cb7af089a772587), (0x362ea5166ad1e4cfc72a8c88f6b43a2f214b99abcbfca88fc9514557c6, 0xcbb7348bebd73ded842396e78b6d34d81d79bbc62eb3fdd2600cdac13), (0x2206ce857ef5f54be63e4748412debf3a2ff31f1baf686a19587f24a5, 0x1ac1eb0a53470f66ad19b003cd2ea4022bbdac2ebad89c828ab65e5ea)));
   (0%nat, ((0x661a08adebf8f6e4ed8a3b2edfe01bc6e37d717a599063b7f95e4e9, 0x2fb19c7a8224068e7c6557ccf8e98a7021ba70e2aab9de2c67fd57a9f7), (0x1446388f70f0857e96bb4e8956a23724260d3ceb0e62ebf1012c13d722, 0x57bff31d21991f3d1bf3637631cccc143605e27fc519312262d7232be7), (0x44a14c45c6e40ef431f4b7dd94b23673d2ec824d0807fafd4ab37aca8c, 0x1ddc686666830062ad8c51ed07cffb7ff1e5790ddc8f95ce75b30d8135), (0x7f28e99a9ce80b768ba148ea29336a8e1d6f0f3c5c4c0b79eb2ca0e0a, 0x6fd949cc757b1988500be97250464c8d6cf48a2be44ef296b90181eb07), (0x0, 0x6fd949cc757b1988500be97250464c8d6cf48a2be44ef296b90181eb07)));
   (15%nat, ((0x6f80a4c12706ae65d7e4e2006bbbcc6f76918fc4bc0780669bda04ff8c, 0x3b1289e942f4f725a896cb8ef372e421317bbfee3267b5cefd3f2907f5), (0x1f1a2c29ee5768ebdd08b9b5f33b2c0e4be280139e2f59620086f7d1c9, 0x4580855df67c68bd53cd96dd6c481fc6183cf4d2c9a82e511676fe0c2c), (0x2b0deacfe9c80bbf61c87677ae5e53f8198ef8e31e2b12997732c18a7c, 0x6c5bcde4588de9c950c65374907fca84f01071229b0c2763a5b9ee84a4), (0x68a70086d61e18f3233e2249267dfdecaccd5c4cf68a45a0c09554d78a, 0x40d994598411cfdc2b75d08658baa210473d8541a4d84ddd4b15917f9e), (0x2cdee0aafcd48abfcc6015583ae915dbd806b3e47d14a8a96bd940b33, 0x7029edc447aa7132b2f0d582d7b375344c65fbf6522ff9c1b56695f755)));
   (9%nat, ((0x7021a6d431bb86ea5bda6a202945c74dddb9daa0ee5dec245f9038ea78, 0x5ef130345aad2f84d1ce7782e9a9ee528618e3c5832f182153d1fea0e1), (0x50576f99210ce72cdb83c8977743a62e745e6a7db5bddd882e72b529cf, 0x23396e3bd33e8c88d916c4e60ba5856c0844665f1b94342c8351ee0716), (0xb0f0d37dfd1d9ea61e0f743aff5789644911f95a02603ad22a6c81aa6, 0x38b41b80926307c4e6e1b0f7651c49438505ae390b95d1e3442cfeb266), (0x1ca8645100b971535a88f6d2caa403076fac1db254071b34cfb0598290, 0x2642f70c76ad5c87352b2975ec6755861aab1f7cb340982273117dd4), (0x134c566c5690d48bffd6f99d7450d071c2ceedd1f020c2aa816846a8, 0x248ffcfa99407bed2f3ca060302baa046101e221c9a9faee0841d794b4)));
   (11%nat, ((0xbea3b3775bd857391843a57a664535f9e96e23f55d5ca3fe81293f748, 0x19d2c9e5e536f9e6a5951e022a8f87a24613f61f9ef1d4bf2d6b2c0f28), (0x5f18f090194d49b90a3d96e769a7db2f898a5eb00537d7e344a05ceee, 0x44fbb759b0858bf323d7ba43b033c8c5f8a71bb6e290ddad10a86125a), (0x2a69fe917d2b787469d85aade3b4551723f24a12a0f8ff62cd668678, 0x2f3d409615cb74a2de0a5374325a4be9c3ffab23e94953559e10a1ba4c), (0x13e3c3fbfc551e5edad0fb01f10799293dc90a3fbb3cb896d08e6446f8, 0x1fed729319e06081e3181c005d23d5a63203c39957f9af6e0be36686b8), (0x1c97595dd5d42ea5d321fb0275ed606ee037864b98c8f9382d84eca121, 0x2dd17fbaeca0d170d13c7b70d386331584972f6d9f1bb7c11ea8ada623)));
   (1%nat, ((0x12b60fc1f143cc0c49de0f874e50a3a47b3ec27b1b8967f6587321717a, 0x54243571ece038dcbc8cd52e09171a5b823824c1cb193bb30786e6a3a7), (0x3f1a12323b26841aa3f8a963146996113802976afa2ff3288f5b85a16b, 0x2cd41d452215170e8b074d13be52cd3b2de1b112cd1f57b3e79a80e7ba), (0x11e95804ceff0769c8668553588439891d251e58fa5ce1534b50928039, 0x166d1dd3f6b824b17d18cdb8e2123f199792fd7ee7364ec4e0d4d71ca7), (0x47b8f0461df8ecc41ece1e95edb02f669c72e5479b4fa01a965482cd1, 0xd5d0538ca44ff90d020e23659573bfab7438b0fd0603e1973a17bc67c), (0xa24e6d5810ee5842681f4403e0c9ff64b156f8682d1ceb902cb8ff00f, 0x3e22741c5146f5bca1717273ff76325323fc29f8e1b7b34d7839d6d9f9)));
   (10%nat, ((0x22690bdfa1ee3a0b0fe0269805908b4000c9185e0cffd4f38ac356afb9, 0x37595b051173e2a9263cc262bdc58ec9e5082e0fc719d98837fe534034), (0x1b4e156603371660d6033df086d64286b1374724647f0fbb30a6c5f341, 0x6c800e908a028b25205fe26211a18991534ef627317e63c22943cf91eb), (0x68ed12b8678103c97ea97472dc1acb47db18f4f06fdf9c1ead97532248, 0x65d3def71806b6acd704af5ccee1c46578e388496825e48174bdbd8751), (0x5c6ad4f57e3624d231a3d17dd5bb3aff5df293065bd9acae9282e967d3, 0x40718ceee26cb7d9610c3330da5b266156941dc98ae34246f21db61162), (0x1ff148a4b71b5cfc031b87a1635f3ade1a8f3793b0ca0a9c28a13a47, 0x367203a6021762335330a8f5778e97910a29da36c76b9ce28c347ecdef)));
   (2%nat, ((0x1a6bb1c8fa5d90a747addde6cf9516e4c5e66658ca5f530b89dcb785cd, 0x14246d3be592f55fd0baff4f14a02dcc25c0aa8f1a22606b849a695b40), (0x39db87104806082b138c88c04417625a31429fb593006600950f66bfe, 0x193413ed85ef1c8e654a39f336ab9157d9afbc572b299b96c41de0f4ca), (0x5a960841711984ab035515760c4a97b2031a2c5b536e3d1ce44a5677b, 0x5052e3445d3e7f83440cdf21f87b6f69cab47760eeb53a0c70da3f5bdd), (0x3981716b7510ecbd5a0937caa177e42bd1a3134141c07031068f89d156, 0x69f0ea72ed5217713055498c48e32fbe93a4a65c4d2c73914923ac45db), (0x21a002afc2e60680d1ef70bfda5a2e5a88e2516dfd83ed460e22d5f649, 0x459d76dc07695816d6cff740c521b4389555d36a6633932b014092206f)));
   (7%nat, ((0x2b31ce2ea294961d09a55e4a06e948b9473c848ec16eb93f8b21b7b41f, 0x5955fed04d89416e749627178a673b909a5101de399e1180c631175fe6), (0x47222f0554db03375a737b51235575296a5454dc5bcfa5750bc4b54919, 0x518dca917f232ffa8f2436777138e05204e6e3b8fcf3be2017064d2bc7), (0x3b47c9f42db9feeb49ed47f88771cb5c5a48c0079c2cd399fbfcbcdbfc, 0x153b9f2844464771b8ac399bcf4c38dfd86f2b32d6fd73805bfcd5aa45), (0x404ae470987f34a2f822fb220de2224be9ea9e33917fb7188ddcf1fea, 0x61091230e37a08a87fd301e090d9c6d0bd42769d75a826ddf3602b1f47), (0x1035332410338f80f6054e245ca41476ad0a5de31cecf4b2ff20f6f258, 0x1c1c6fff4f18496470bd870a1065bd4b1b791499d335992a100cc38dbf)));
   (13%nat, ((0x70b16ea63da036e890c5899168f0173c4500a5a3b8eaf071041cdadf3, 0x11d748c936e9f5375e3cfcb903052253b3de98e88874312d8e4bcbd3a2), (0x2d64530ab5c7868cd6d630b6260bf75f683f1a2b756db2a1cc4961b94, 0x5037cf93c78fc3a7a3ece17b25961f8f56e4d3b1bcb9f4d4554ca99120), (0x395ab2d7ca28c79fc4949e460022eb4f9093627b2479bc3cf6f8c30c13, 0xafde743377c4f6cba2f684e42373ceaca85a9363c4016d74285dd0081), (0x113ad4fcaa518ee4f0e81712502d8e74599c98800507d67506bb98f42, 0x50f69e22e774f4fa8444c8b0304718fd179fd4dc0c99871d59c191bbf7), (0x3a4e0b464d7dd38ef7810cccf13a25bdddf88e75e201e1dcc34794b165, 0x61a96b915ca22ecded951f3f01679582960c16e2b3b431d211ff43b67)));
   (9%nat, ((0x5502a33df37d35c6a393eb3832a758fa90e4bd3fb252e9d332d5fb9c, 0x1aab22c7ed5a1f275713abca22e8e8c2062ded5c83a2f0b0f8a36a5ee5), (0x656c7507494ce45a552d2e7584d16ed26b5ffe03291811609debc01fc, 0x490f8eeb2e34658fc93ef7d68e3272b669c0490e979f3dafef8fca306d), (0x2f938886c6ebcbed421b3c27ebadc91957c8b77f8e1c18408b78a18752, 0x36ee9bac167a483fa2af2a173e58fa841f48710c683deda39d97e7ab0f), (0x1ae5287cc43da2b211331228a364fe2aa380c6733435c8988347960c1f, 0x16cd8d343be84e9b53d4642d32bf9369d7fa5420ceedbeeb05305c2a6), (0xb8050fafd7ef70e93703afb8c87e0d48286a8536d73a4e23d1c736f2, 0x5976cc0e075870f99f5de5e03688e076ce4c298282169511bbc073a2b8)));
   (6%nat, ((0x4756752e2fdf5b020f51a3a4e63d0f7415dd8f02a8849c87207e250b62, 0x37ed72ab8ebfb6838f739d5b09e4f3d7ad82734658963f9aebb1fce696), (0x1be0f654023b58847a038f785a3d80e12e5d3bb57ae06159b2504e74ce, 0x2e9c17119163a92bb1de9db212ecc17baea4f47041dfce495b5468ca9e), (0x135cf532b912978b179e617aafd87c12203b3c98d7399d5c6b4755736f, 0x2904abb5dc76f0eb03f2ba8a34ad17a25102270dc19ada58aebe68aeb9), (0xefefbcc44d2c02aade30174292f8b2a67d9ba8144889f22bb90faea5b, 0x53292b704731fafe488b40f30d20ffba342e6e1421dfb14607bb310bca), (0x13ee389bc7fe247ddf4dceb22747d747a5b4fb48823e25d42efd377312, 0x120e5c9733bb1c8098c3cc581e510b5ba241bf563a9591cee13a2341cc)));
   (9%nat, ((0x2e7e4691ae0f729bec0353e409e053b548480f4664445cdc8418e3cb6, 0x5ee1a9131ca54a9284b5ba9cac04e8302ce3a71129da0bb678ed246c2), (0x503d2a1c7eef2cfa459fba63e3370284594dff0c1c367dae22babe60, 0x344163191c055c8e2c7118e28383647eb51de64d18fb97ea937d998f24), (0x185686d64656c6bb1baa97b94f8fedc88b1d469547bd0ab2b0cbff5e72, 0xe7f06bcd81e6e2174190465b105e0661b2a5c955cc99d29c72e15fa16), (0x1df7aced94b107f4cc08c956cf43036891e927b9a8488df1608bbfeac, 0x6d41c4250fe63b7e8dda8b317a4686ed36d1035775f374bf4c1a5d8008), (0x371b41bf309a9ad2bac6edd28447485663a1cd111fa7e612fa71b504f1, 0x55f8e71ee6f1a24d2ee6eeab35f9c751d6a47915468cce003a017a4803)));
   (1%nat, ((0x41e0b69061141fb0a47d2361855c04a1c9016283accdd948b3b3724d30, 0x22ad40b71791352b445f3c4ecc982c11422c04c60f6eee0ce803bd3c19), (0xab7b79b2b7908439a7d0e3291b03f8bcb095362eea8dffd91be2aa3c2, 0x278aca00fc9c7ee7030c0591d98e106d5988cba716e51fc206f0801ee7), (0xdefa70b96885775b917b95f7b55c8f33498edbf8a50ee552749566d61, 0x38d22d2dff2896f2cdceb6468cab56c98b7c9e59fa42e0180161884d2c), (0x1cc6d122b7fc189a8975f72300b4270867906f2e26447125aa4004b1e5, 0x2cc80d64dfb7a357143ffc1c370024c1aae3142f240aa893043b29d037), (0x21fe611631a229c540334a9730fce3f3874823856dc8de05ceaa054373, 0x5300c5fa2b308a7d008a42420ebe7296bb40c387aa513caec4dc8e7ec2)));
   (2%nat, ((0x3d67e78879e1efb11ae0a593c77eb7acc5fc0bb4a5be46a585bcb7c262, 0x65cdb6f20e387bfe8cd387760707a0cf8312c1585087f8b449ecd8da5a), (0x5c5fa88ce133a6f50dc33a83efae977b0d2c4a859998526043de4c4cd1, 0x2d717addee31cc54b2244b8cc7b6d71685c83855a54d6794a01941992f), (0x1267f565a06cf4ab91b471acfbc5a7e99b3ecddeedaf632dcacf9f6d72, 0x27a623eb7c19daf20ae0213712cf874f7a3e04b4b7fa47a62af3e608a7), (0xe02f530fba99a99bbbbc5d7afbde69f1ecc7443e5b863933a4476fe4e, 0xae2fb02c27f83527bb0c9fa167c8d9444f1fd151b94e05364c987882b), (0x37492013945985abdee57b06f3219e80449a73e51259c509f5aa3fc1c, 0x22d6b0ef87b57441de54a591f411ab13ec6e20978d6e542966c0ad2070)));
   (9%nat, ((0xad16455d7d13f1efd7c339e696d2fd3d7d93a06989dc27806df5f2b81, 0x3803858320ad513fa5c76822f5ded30bb7c9787fe23f195e1592a6871b), (0x1bf6fc55c70e7c24b2edf073e537f5f8d1b9bd28a9bb2818a54a467b93, 0x13178bd7873cca34ee50b1b48a71ab7e2fadc071e2bbf88bb1958e3bda), (0x33fb1d7ef783af57eb0486ae4c4e601791d0714c2ea6e498410fed736, 0x2b88ca50e1cdc65cdcb37ce7c393a59418a2d925da0f26b3a034ca4d56), (0x10e466b27946ba6121c36658a1538b66617e8f57617992efd381a7d59e, 0x3cdb760f71ae865cd03f047e3c2e2c0578c4df9f72d9428073b480918e), (0x1eb1e4e1e66b9f606e8f99a2e0e8e8459bdad1b97fef10bfef5f2fbbd1, 0x148feb878c270650f15852eb9072eb4e88fffcb248893ba6e631cd1275)));
   (9%nat, ((0x3c4b802f9051b2961e651cd58d0067b9dcda978f693071826000e643d, 0x292de798192e3323c1b52b8fb5a8c0fb4f7f3e3e7eba71debd7dc59d68), (0xf1d314a535721ea3fb9ef9247d05f3cfc40f158283b84f6a89902375e, 0x33352590f9cee31305ba89dd5b54e2894fc65c66e744e14cfdbcfbe22a), (0x175f2a648896cf7d217fff7f648f9f9d6e74bcf6a9106cc2e213942e70, 0x8a0de503ff86878b4f7df26bdcafa4fed8e8927805823883eb38bdcb4), (0xa9df3cfce478fafdcf3b1dac8c12cb8cec50dae368c5eac9592d350d, 0x3fa45281b630426142b706077ed5ddcb875269dd524e47e8cf6bec706f), (0x2019718c99027a6c7a61ca035d91f8ab261363f525ec0b6798d40b8f7b, 0x339cf17528b37439350f0ceaf64b4f6634129397bc67eaf121b680a866)));
   (13%nat, ((0x17be49da5d74b0cc1d023dfc042212147eab54f27ed8a99580eadfd72d, 0x577b67174b99d1df733621b762f71cda4008f40bd4e57a5f23474aa3e3), (0x44363d27afc8dce5de03153172ee2b45c83af1df30ae933e69e27c729e, 0x6cfd05232c46f1d8786a6de692ed059fd4143d5910fce2dbf0ac30a2f3), (0x69df4f6ab3b8e1159a03a029ea4c795922e6f1726e8b6ed8ae749f2b9f, 0x4e60631d1c1e4389bdc0908d4712bb712e6819fc262a9e28b294a5bcee), (0x36c051a7471b4388ae8cdd60b6d898af28128feb6accd71c5263ed4dac, 0x21cd54373fc727db8af1da8c5d7bc7d8c2273a776295cc3f0413b8c868), (0x18579954fab170b08642a41e7f8e13fd24c9af63823c79566eb7e9ee50, 0x3c4ef49caf3bf94c3472660b783fd1af04c7c99caac983823926247070)));
   (0%nat, ((0x206ada0a3f229606112d4fceab2d7baf035332063ac32c32ecb9f63134, 0x217654f770fc9394f61ed50a9ef5dcdc959cde5e328a7c47a9a352c77c), (0x9fae37ac50b0cbf9b3660f95572b982a657f794437a54fa5d3ab8611f, 0xf264e75370da3bfa18f8b47e0b1de9bafafa934be54ffe72b47d32d5), (0x20bae36ee4e2870bf1411c49cda2fc32f046b754f86ddf5db82ab28, 0x4005805bad8f5155b04780c627e8ab88c240bad42bac7709289905e71), (0x2488327c9da6b9595942cef851d0e6dc481ab7df895edc524f665c15, 0x6d02bd0e4d441cb42d1a894abaf5faddc2f22b0046c8aeed4c2ecd5998), (0x0, 0x6d02bd0e4d441cb42d1a894abaf5faddc2f22b0046c8aeed4c2ecd5998)));
   (11%nat, ((0x69ea6bd616ac46054485430cc30fa06b2fbf5ede2defbd6b8bd79723b8, 0x5f6e144f69176f9d34709fc66d8b736181f447f4e38817b34e72d5f2a8), (0x512b593a0583b5c8880f71656916328dee558e7e024f70a8c4fe37140a, 0x1fec48390a4320d026dbfb575316895b7a8f73e4c312adfb425978264e), (0x9153eeedaa07cec06dae960f0c156bddda6bc5dae17edd57484ad2f9a, 0x2b680fb979e5c5a473c3d06f0bda6a89adfb993a7df3a489fbf0507802), (0x10cb0a1f7d68f1e16345f23f48c0d368397112c30198a4cb4c54517f43, 0x5218115fad06c39f87014d1fe3ca8a744313c7b987205c0de01b5e2a95), (0x4983f52ae4215e417914ee630fcb7b83cd5da17196881a18b6f8744422, 0x2093dae4694fcb828ad0db72456686cf36d2f004f1177b197adb9543d5)));
   (9%nat, ((0x97594fd3c5ae5df2e69ea4d938722067d8d5681d1890bd9b698f283b9, 0xab274a5f97b77e420aeeabf766f2960917926317b829bdcd0c7dfb73c), (0x105178ea79b182d75b199a4b7e0698bb1e1e963230b2141557a23cf57, 0xec908b1f24a64113e5240cbc4f992d871d046e6f1d9e98a5866d388bd), (0x1f2cb6a4da1ce8e78f99deb35a0ce783d1dcb27280ef959d3d59a4ae6, 0x3bbf31d55d3a1add86bb8edc1a07b972094e0491f6fbe6193d5d2ececb), (0x1fd1054a0ebad61db13d6bfd5d6cc265b8b5b58a7896aaf6cbced3ada4, 0x4e6b85629a2f66129032c4b22ced535757f623bd910bccb898dee5d345), (0x278d9860fbfc3967209c6e2af2b70759554f48cf148ca641388fc787d8, 0x2b2c6aa68bfc3d103bb202dd802a3e3b65303aaab63aa2b6e3ea97be77)));
   (1%nat, ((0x109d0337c98613ebac747c02b090551c0dd1fd07f588b48d668f6887e5, 0x414ed1f863369e3b893bf3438fd15b8665c825ca8f7a50721ad3d9bdf8), (0x2603ce3f4bcc4124cc21483f50f1cdec2a52216bb5ccd4bc9b24b91994, 0x533376ebafcd358c1daf0c6a842557341faa534b9ab3f6ddfb1f6308dc), (0x3db2ff326a73df7cbc705b1fcbe7236bf596ee4ce94279376e24673656, 0x574716ea9531ce3864d4a2d3916c261bf6c668b348619aa4b78f8d0d22), (0x43e4c123c9eed0be96a7a145ae006bf8a4cc85af402c80b9b01df888c6, 0x20891cb5d919ee12b421dab8f3233ccf20e1d878e6c719c4cb0bb98266), (0x18b2a437dd4a52dcd9a8526f9bc7288b2ff4d0d37c537134e3b9ef3769, 0x22c13dd71afbfc2ca9ac8bdebc0ac177e9358500f2d1c8d4d8cc582c9d)));
   (1%nat, ((0xac4164ba3398e300f20c7bd6089305510726c6b0146c26a04877bff41, 0x1b440fd5df06f75a67ed103848172b26bd4af82f69266072e333e123a4), (0x6a04ada975707ae1b22e9ce29623791abe8b6692e5039ffc63a2fef4e, 0xc2d9adefd80dab3d1c055de38ed39c639b1098a286ecf5e1352efd74a), (0x15265336034facd97bc20a63473ff466d9751d6e3fa669a81d87df52e, 0x4cbc10205d689722680e27cbc81d26cb4aead021051c3fec81c52a63e), (0x347b3888ac279cd4365f5557a9b89b18e6f72fbf4bddfd0624d9bd74, 0x425181ec223dca944b9e3495096aaca1d30c7951e67563c056df6b840), (0x3257a6bcacc0473dfdf69591c2003e6b77eb77897a39caf58b9bf7d95, 0x6c8bdcf0f72eed15eb0da62dfce207812c59de89a2cddb8e11d2ecd5f7)));
   (13%nat, ((0x6903e997d023bda1050ea5b10235675990fc5b4e2c19fd22953f236096, 0x30fc79770c33c522c65cff6952c349aeaea7cf84bc8f6eedf2fdb6d923), (0x156353de6bb08aae895c00367cf39b374753188ee08ca5bfae66c6c1dc, 0x4eb966b4b2ad31698eda948111960320a347853a5146bad3eb71dbdefd), (0x373cf59873c329eda2ef9b96b84e47e2c064887ef323198c457fc441a4, 0x53e873800b105316ea298620b7940034c0dfb4e2b1edc52f0bd15e055), (0x3ec090a6125ab1418b7ccbb18e35e6ab237deb357cbd9933c6d14792, 0x2630db38ec2f57bc6211d15acbafa2e78e6023e562eadda1ba360a9f9f), (0x1b80b1da38dc80ea346752149f4f3cf0303eba49bc6dba5e1db473dee1, 0x3e34ca584e8d20739ca6b86137ef4b0ccff04369f2d21f1b490aea6f7b)));
   (9%nat, ((0x227d5e3c3f146d2c61c277919163ed99c48b974eae2fbba872ce6b78b1, 0x9ed741d6d3bb45f5950169af5f05baa842262539f7b162951136fc744), (0xe0e0b5d1ec875a9786af43d388ff03e0dd3be2c322e7dda3912eef74, 0x2b1fc516cb2fb8bda3ac0b9d92f69dfb303826757f873e941859c0514c), (0x109348fdb8ff86b9bc824679ff11d3f0dd49e58924772dc81fa2d92049, 0x299e2afa2d97d6a2a39014f8119870f6450375c844fbe3ffd54e71f1c3), (0xf700a09918ac90053426fe2948a8a9c2f9785ad4bfc266111c949e106, 0x554b2f6471ca5e3d29bb25149d0b197873ee1fd51eaae853dba097f32b), (0x2b05204d8977d51f78f34ec521f40f0ef8d6d55c7dc65e1aa43dbfdf15, 0x41da1fc3cca11044526c0afac2f4fbdfeb5510514583c7c43c9345f358)));
   (10%nat, ((0x26a6a7bb9f9e6cd43c3039b88b83b7b707137437dc28b1c09981c4278a, 0x490f73a8946352e89781a2acfa54dcca64a0b3179c41d8c2a08cbd94ce), (0x2f9365060a4ad582a9dd2fa83f100ccfa554e0705873930f55598fd4f1, 0x529cc802d8aae0f1ef97bfb824c8931689a6452b053096629ac6fa52af), (0x3cd44dbfb0ddab7639fc7f46560adae80dcfe36ed1f76b60e15c58cf43, 0x8e2e232b4e63fcc5700666abe7f74d93bc5f99b1f9ebf565bcb7a4e32), (0xb42d6fd8388804e9e7736aaabc5c6170e212a6dab1638ca729026a00, 0x107e37108b0abab4501ce2b6c5d26a32ab53e9c3809af06ae5ce96afc4), (0x82ccf8cd00133852e8fac78ef7d57c90a0c176db6e0c241129d6833, 0x4193a62c89424a9c969a89d69c4d127f6ecbcdc1cf97b76a55e24bb0c5)));
   (2%nat, ((0x2654197334486852edf2072acec8bf5570fad80d8b01ec8392b8ca3cc0, 0x3513b5a4497a422089f0d1ae92271ff7f04deece265f5cee6e78937fd9), (0x191bfb817de05b12c0a01e5f475601a03a62009e955a6d0407bfb43b0d, 0x411a52d2a7f66879ae5d1e4c12b158e5c27ca1ee2094868602a0f839d0), (0x25c6c94ee0b74a7b843ba177ab09cef26bcc2664b7c160ff866250eee4, 0x60710e07e2e1171df441157e2f0aee2d20da738422984641909caa090c), (0x52e63bed340e003a6d359f1718f6c0a28ffe48b808d3b05b8cb7a8b38c, 0x4ef794fbad095204d20c4fc0564aa5cb3841d8921f32f4cf3a81010254), (0x19104ce3e4772804f33af7f6b0578b5d1233dc7d33b1215cdfdba6b263, 0x3df10179388db38409029664a714c85fef13baff6d3a773a38e889d01)));
   (2%nat, ((0x22325ce06d4b990c9555812a7c11ef153d1ab7da954ff0d42efc3a74, 0x3b57ef425b63509ce7c712ac894734d7a44ebb2dbe416b44029c892a3d), (0x1f636a5d4e03a43c8a6faf93acbb2c582f327249e434f748209475fa20, 0x498028aeb872b9b334b003e8f38a64f11d2d1a330798812aa1d98663e9), (0x30269f8496c580e683fe0ed048a5b43595bc2fa970848b0016874c675c, 0xe9a4ae695c518cfb0ca57ffa181e5c69cc4883c59fae2690f95db42c5), (0x1e68d2a53e348df3484c985717ccf3471049898b464998ada3a47680d, 0x4a1fbe9ba890abd3478fe812649c6242e7d97d8eb492fe0a5a36d09e78), (0x1786c89d3f6c10896df9bb048b583627fb5e578b7f8c946f8fc19440d4, 0x3c26538ea99355aecfef1a8f3aa09059cc46981bc4e2c21cd9efdcdabc)));
   (2%nat, ((0x203f3b0ff6bb4ed7692f2702122650e642d3b29cb2aa485c8f2af52689, 0x25595a746a1fccd7b219a900762b5382ffb44c27a5c705f75072370603), (0xc6ee27cb25643e5c0a7517b90f18d214715167cab986be9eb70d6f17c, 0x809c72e19797627c1489a9ca1e98e122234abe76d924aad3a7286de1d), (0x936d80ea243f332cac1fc710352985cd20dd824ddc296ff1b3040ad2, 0x896b9aba73f3107fce9c073de624502d764d3620766d9aded0daf0a6f), (0xa850c496f51d815b7357cbe7392a8cbb0428b4f58d1f2c884d8fa8b2, 0x5d9dc6170d062ca2f103f7e863455cfb404ec2a508051e7b1c87e64de7), (0x1db69685ee57295001358b554af8a0a6830a1f9957efacfaf264b53a44, 0x280e445d5c4d90a53899ed646dc24bdf409fb5804d7d88a29c44cb83d8)));
   (12%nat, ((0xe4cee11cc53c0d513654d550850657841c7918f0fe193775f598720b6, 0x176090fbecf64369dc419dc4fbb7c0f91435f961c5a5fb3b144165de72), (0x4def219eff9c8095a28941ae676cb2b2c77f2af6c84bb14c9ebd9f3b1, 0x39336e126dceae552cb5852accb7fc6fd45eca615250730c53782f45ef), (0x1d29a72d310676044905973069f4c2e8b6a3ad1597cd7f7ea23e5ba939, 0x6b99ce13540800a24843b0a577225cee4e58633b00ef85fb3f7c1571a4), (0x673195b4b769e3f51ff828aa2783601287378576ae62674bdf28bc31f9, 0x6618e6ebb4511ab647a5a4f160d6e8d65468ec16de476c6137975cf9d3), (0x263ef2733c8bec71bf149d6698a441d00431cb855419d3548bfae46a4f, 0x41d6ec8c3485f130b804cb8fc4a4a15f8664052842af2df5cbdad204b4)));
   (10%nat, ((0x26a2e62aa63f78444d933031efac9ccccf7637b0e7a6358649ad2d5af7, 0x5574fadb76282c9ad60b8222b8a8515e4f2fe2c7519e0d63fbf756bb1d), (0x4117247cc0f8e30bc3e056aa52e2cca945d89872768c1cfee35d5e233d, 0x1dcad70cf12ab596b7904021d128be839df804a035586649bf257fa38), (0x7e9376a15b335b29a10105ae9f1655531063e0bc2df9de36c62983b, 0x2e9df8a01318ea7ecbfebbb5633b107970afe5b134459f7645748adcf9), (0x135e85562ce3cac910ded3272e37c869d5e6f6a1a8957368a232510331, 0x6149ec1a750922b6f251b7ce4060da45d6110addbbf018f6a98fe927dc), (0x3039084418b2445a5d7cdb9f4323eb06057bcc57d1a1d64a3b5a53a6, 0x5d7ca86bd18f41ba35f749a6a2d835d2526e87b3e88f7587694c8df3e)));
   (6%nat, ((0x4de5c9112744d052326e2dbd653dd67bb60d2160840c6fccdcc00094, 0x12424d8c3fdaca24624219a59970d949a805dae1335c65bfd9ca4ed8a0), (0x2f8b44e12b22ae69daa82c57983becf08641119213e735d533b1bd7e3, 0x10576b9ac94b0ec09735991688558fbb73a5850fd43927cf7022e5b771), (0x26151d41239e570bca468d0dfa72e85d9d1e2594413f56337c14ae3a7, 0x2c08859d6586d8192519cd2312dbfc20cf3cc3cbc2770f3cd3555e6efe), (0x11481813c3d05e643a13a89a401482d14505e23732e57dc75a2de3c93f, 0x190bf7bcfef0b9fe477728eef5262273db93e6474a2e77167b16f25e29), (0x600b5ba22e95bb3d163d781f02b863d55693e866abfeaa1daf3318400, 0x298ff98b29945cb52f3bd6a808ff163f3391c774d93114f8464b40398f)));
   (4%nat, ((0xf658445f2f9954e64ed253ecdd5dd82abdad458e0ec7a393d1a0441de, 0x1ae027d3ab610e2eba03ac70fde00907f1ef4ce67006f556575f06014b), (0x67014dea3a52e5cd157377d5aba75ece70901c702e0175bba1d98902e, 0x4981760ce57160977372c603b21573dacf4cf65d7ac6481967b89fc9d3), (0x30285451346e55567635564d0e69302047a707d7843575181d52ec71b0, 0x498254911ef4ddebb34a7d86ed6c667708ee1b12e1b0e3b1b323e62979), (0x302977e39303185bb008592a75069171867a1c26d8bc7a1bd7e95b131c, 0x208ce94b8f43d8312c4f75967916ad45497218b7c8a13499f327ab7125), (0x14562d951364cf33709fee34a56260686326b1586fbe33cb2e498bbdb0, 0x5c4d99c7e630c896f1aaf3fcaa2f9d3a2c315bb71ebf77c7575fc04d62)));
   (15%nat, ((0x4beff0db20f10862a7e3c1df13e0701e1f2cce1b0d6071527f5c71b768, 0x21751e349fefc752171136491b5c5f5244ec2539ff44e8c761a72abd7c), (0x9fa2a200daf537a6791e646a79997994268fc4d90b9f7321afa9c255f, 0x93c65da33e5d24dd66edbb6232eb39f11d162c676410c6761a94f1595), (0xc2a2d45b17eda85792bfff83fe77c5b1e145ce42fda2a5716c682028, 0x100decd04ef6441a279fef37439c968e38e8a4f7fd2899b9345f3718f1), (0x24c192ef72cba5b51f97657007fc7bee2d639ed92f7cebae69cbee8eb, 0x3955d461501a02ae0a3e9424698bf805ee34eae3b4ac8f0b0f82f1ae2a), (0x27abce842bf19abc3ce125eab1797ecb739da7089b5bfff2de4901cc4, 0x1c7489beb9f90e908632c38fc92e589df477401c6c93f087152feabe8)));
   (6%nat, ((0x73781eabd95c39597d0d31d7ecdae1bb5b2aca34681a90f910f4d9d, 0x2a4f1b56949bc0b95d6220d8667cf6c78a82fd7cbd20f5f4e5872a34f), (0xff465643f7af58f2684226224f5e31a97a219ec9ea0716d5baeaad0, 0x32ff4a5aef50f175e2899064e9063aeaaa4c5f9940c4d4d7c0b7e84e51), (0x172e1af5f74bda70172c6519b4ed7af0a42b6d0516ae777f2def73bcb4, 0x681d0e4ee50a83baf050d26ad1bdea27b376ea21bca13e29dd236e029d), (0x609cf730325efd50f912a3431e6d731c6b2153c058dd1cefe02ab4ff63, 0x3eb768b4ae9b9797fa7c5fe253e42ca43bbe402cc83d8c31de185d923a), (0xf07e2341b7fa9846f65f34098978ca59beda026f1323ef25f86abb2c4, 0x156db53d23a39059c688b45f4276b478964b3a74fd2fdb5fe1b88d96a2)));
   (9%nat, ((0x417b9be99047e7573cc067b6b237d031ba5d9d9c6b7e02e7783840463, 0x2908b9c4c75eb7259d75c98b0a64e8d45688e8c16e4f96654f59540375), (0xf01f2f5e31ecd328b737c06dc418bed65a4586a75afba609011f0c8c7, 0x107555f5846bd1b932ca41f1289b18cefa6aeac223c8f81a9f0a723cf6), (0x26a10b32e886d2beffac6c828b529efac1eee649a6f4f8c0085ae82ce, 0x572fd32607faff109f483111f76211dccacfa2592926ea13111f1da11e), (0x43c093f218a965292d5d7e474cd4b1da6a46dd31ae6e04e9c298ab3c2a, 0x5efc45f00224d643459c0dba0eaee52a7a063026133ac4e5ff651502f2), (0x2fe88687c6fe55691d78b2f488546f5dc5da033075c13898377a5c752d, 0x4b1e4a5d1e3bf6d82226ef8ff3fff265de4266d9ebcbb614d0403e86d5)));
   (12%nat, ((0x324b324670e18f489808de97612337afccc892d682d6d6014adc9bba7a, 0x500a68b3bcf28f86a3904e7ab18067b3ddf84b8f76de4b567b63381b17), (0x3919d8f6b7c1219b157e9a90763506339f600cf6db63689d5ea6da866d, 0x3379e08108d0f7827683d24e6180293f746c09f50fe4787c26a6ab5310), (0x179e118f8b4ff19a67957ed96654cafbe3e1b7102e3f3b89b44ec5c9d5, 0x10d7dedfce2d6eb171c3951f605b73adb5799f55ab59f6ed3e19e33ff7), (0x2874fdab519970d39c191eee100fc337d1377ea2d8e7814c48178a5d8, 0x3940d7e44327e3eb721e902dc9d30dfc751536f184dc30f5df39e81219), (0x15727d39733928583274bea3f016bdac6f6b02255a5b69826fae3b9691, 0x3748a6cb6f2b60512f6054057549bc37b01ea3bf3de4e35b6d3bd25988)));
   (6%nat, ((0x1b3d9cc194fe55e542370d5f871ba61d2e89f044501cea937edb215047, 0x6656a5a7a734e38dedd3acf27b3522562b80fa7f8a2dc4bc4636a8ac3d), (0x5d58cef6fab5fa42c8bbfb43b5e78e817f4e3d84b03c645ddcd8c01d9d, 0x5ebb6577f1d547793637b39bb5d5ab90fbd1c7a82bfba3bb2f63d2d798), (0x4ffc7f5ba3e65cd94e1188ba91383c77667e02920a59441d96c6ef04a0, 0x45b786d0180c66c14dd7163b4bdabb3645153e09a021062617f2b3d720), (0x2b522bd22db3d5bce6dd93ea1a5cd5cb16125dc326df6ed292d05cc3f2, 0x83df3759421224bcd54979e5d15dd8575adadb831ec1f22992b727586), (0x1f9ad3adeb1dc47e725246b8161282bf05c6f7df57776b729dd472205, 0x230391dbcf6043c269186dae587e4e80f80c692b0b7b878f8013b17051)));
   (12%nat, ((0xaed5543aeb224120d41d12cc1b4dd663438ec14c113ad881f1d7e9296, 0x1a5eca2d0115a6aae010f649b192a00a927224149505436dbc01c82473), (0x632aff0f8aa70839025d719d50ff56d905b5b75d1fc29509a4917d257, 0x3781f74cc1cf0efacc7c8decf21d926cfe9dccd181b197ea4d7d400f56), (0x1b7635913f8283f25807a39be83e02486f7a79f63daafa7af220302004, 0x5f23a3792b49644d390d636861135a52a1adcfc5b3188d09e398c88f50), (0x50ace87e92693a2d6176e0a917112e2ee2dc07d2205262be2299986dea, 0x2b770fcc7f408a202961b33be9b54f081518ae8cfa761ffc8e81e81bae), (0x104839710561441fdd419b60726fcbd3e53061abc51998a1ab2b4a3700, 0x30dbaf160bb4169dfc25dd00b7bcc7e4fe6c64c781da3a3692b26902e6)));
   (13%nat, ((0x1546bb456699ea88d7396470a07f95ada8f896a380f5d70c9ff17694cc, 0x4952dbf027e3763d618aab3ac19a0bca0227c63770f2adafafab59b228), (0x2feb578f361897e18f5eb6e3a1fdf554a58a05d26d643e65d2a4b4846f, 0x2198f20767b4d9ca5e331024ac7e88b488de7957b960580192a174e675), (0xa0f93bd9dcf448a6206051b0a09d78b828ad8012c014814a667160a5a, 0x61b3a2fd82ecaeb289cd4ec5e85f9125b3b7424df64c7c6999e7755bf7), (0x55146d649876636789570f9100a9ce48f07e096caf3203c869a84e95b2, 0x38e48a94540806e52c166c66943510d0257ea4d28574fba72d57b37917), (0x28f87e368503e56c8266be9894da853eafd8487e7ca42d6033928d586a, 0x20582cc070caa9af916fd07ffa4707622592353112cd11de065abcce6e)));
   (13%nat, ((0x9530c55669b812953401f7bf846510580399663d2ce96146241131072, 0x64a35caa7801344d94914c4046aa666c20fa96061661285d328144ba4a), (0x5a4552f9c3a2fb279b9c42e73bcc7fb49ef416b9d5a4c4afbf2c1424b5, 0x1591cc989d06f746646f0dad21c5ca6d30fc98da4a3d32c06e0b35a1fb), (0x4258ea36f6c389bbc7f3d0e98b15fc3f2cc215c868960bb329f3d433b, 0x2d1f8e8550ab1147de7bee701101454aaf3eb3fb132b7c1ce2f8fa5d2), (0x1225d42d055bf5adfbce74663dd3da54d73a1262362ad218f5e370cc, 0x3e68b31e0cc447dc0fac4185da8c68b849a80f5606ccb6717551b6dfc8), (0x2cf17175ea546729c92611bc017fc297fd096622eab12979ff1303f685, 0x562c83c96fcb6a53171382153ce2b1427bc87dddd685e706d85e259b87)));
   (12%nat, ((0x422fe72fe3963a9d206ab1c279f36ef23e0be4dd951ee00bf8e7f96570, 0x626fb57401d7baf5dc82c63e9a17638a3b23a3cd86f68dbe24de75bc01), (0x565d35aa9d921062581e810a23eb53808169b25907c2074e5edd75557c, 0x19af2400072daded7316009840b93232b99c6af6fa706fc6f4bf96be15), (0x5e131796165188d0a790ae105b47340b868ee0337b0fc2859d775a1f6, 0x583beb4f97a5f011988a83aa8c504aae9b8d402243ab5cdc928db547ab), (0x4563bfb26163a1ec60f50ccfef879590b7e573ce1d106661f52c76f48b, 0x29bd5928cbafaeaaac70f55b3814a2b57dc924b914fda98e82b2c75162), (0xfa2c1e87abada36bd59251074d4bdc65fa0484af8c2be0edb2fdd28d5, 0x65c13ddd0c86c954639a5767a802ef688c915a0f2ef5e23256f3d51361)));
   (6%nat, ((0x5c490750357f104618486ce49ed3ff48d61ce5b3d0fbe866ad7085f3cc, 0x2822cff51dc6eb03fd1bd2551fbc3d14c4978ad32781f8f691b1f65b45), (0xe5b9d5778e8555536c6ce02eb7d4cafd3188e94795e5f12a036a9f250, 0x3491a8ddb345c074f37af4a6961e91921462af15029de0913d74218709), (0x18a186679cfbacf88f74ebc0474e0783fef655ca1b1ce4bce291851e74, 0x255ada553166e6f2a12e8bcd244f2266ad98fc3f73ae23252938b97a8d), (0xc6fe215ff36d03048a5c8eb7ee3c50212baea63560f16f2e92e9a90df, 0x38a28ce99ad5961a2e59eea9fb45db94ce33b35635c91dd58f323309ae), (0xd92c3390a05b567e1ed4cc72c72768d5895dd3c04608eff24734f2f84, 0x3ee483c6df37d5333d99db156529aea3a9f843a7c488fc368780b1afce)));
   (11%nat, ((0x23414d0f25a7ad8a08814ef9a46a6e34479aa27408996247139cd90e9d, 0x695cf77dfed36e7284758ccbd5878eba56e3431e37c3901a0a682105d3), (0x62f241f6aa19cc03cdecc6f7b93d6fea0b9f3404c80a35276ae9128e1a, 0x6531831b16bfdd38012381434f9b9193330b27f243238b30ef983edba7), (0x5b450a5d0cded6d6f1ee0af276b3f772d676cc9f95e25ee7f80c5ae128, 0x5ffbaf8b7227edc7b38edc0f4d42270223292a17e4ac47640a7e845229), (0x521ceff345b03112ff02180f7f63128c6dcdbfb945c11e1bc3b49e841c, 0x1fdade2b5ead8da2b3dfb92e7a19aad94856bb4d933c80f78dd3122b85), (0x1c86b5fd769b2990015a49b8e72920b61fce98d3ed55496fc209f0bfd1, 0x543ddb28e88ade0d8e074c634a104e046cdb7f4e1c0c9e3cf5eee2829a)));
   (14%nat, ((0x3f408ff82df4b40621ece96f72d512f1b78f415ab96320e84640ddb898, 0x6faa2d49f0af5ff2f9cf8e716453d8945516468c2ad24b8ce8b96af0ac), (0x6f22ca313be5d42db8646066d6a4e6cc558c925c459cd6a1b6c90b6de2, 0x325c04c78f30a306e3b88ac79baf6f9cd37dfbfa7cc1c768bd2d4d9966), (0x169a9b84481710eec2368081c50700356db19589122afdfcc3720fd8df, 0x35112abaa19ad32baefcfafc7a7edfed723b09d4f1de7e0465ddc004a9), (0x191993b4613168ebaaf27be6fdea96e7a33a7b27296cabc3a027439ad7, 0x4c30d664e34d2d8ae1e285bb2e9041801641fbd13f135459424def20be), (0x4bc77a330cf1c709bf0651588e8b9d8e926e86b3925bc634d7772d13f3, 0xc3bb2527e66fb15eec0564154aa05636c3981e0ed62d41fe89afd25a5)));
   (8%nat, ((0x1557619ad708ea36ef40e9f605faac7c1665b45e3f8076abe75b3e39c, 0x2aba4ef9ff6192e4f17e1d2115e3f5d0a9d711ed34cf6d52aedb684fcd), (0x1045a5bda18b9f70a804189bf643ef0e3a519085814f278f0133ad9f8e, 0x38e930f20cbca489034ad6879481c891aad319dfa0ea810b1cc42b3723), (0x1cde258cca127b2be3438b4655610f66c4bef2d6cac6d8f3d062d47283, 0x354885731670af6c1d6c51324628de2af7d596e9d185eb207ccaf4611a), (0x194e0c15af8a461e8c6311686d9872848f38dc4aa3c52b5becb3f13e3a, 0x2cdef272c2e602f11ceb626913703dc46839b46b7f851711d1fb1029c2), (0x1c567bc644940a11c44d00e37427d53ea98d6419e6637307fe0472c737, 0x68fef6ecf729fe938f2309bf9910c514d6036a750eea1499797578657)));
   (2%nat, ((0x624202c09261b68f3a592f9ce6dff84a8c76b1a9832bab08fd52802b, 0x43b9cd842b19a970f56974653fd4b5f50ec520ce95da251f282b7c209a), (0x28e1bf98b1bdc8ed25b629f6cf5db9de9c735a2205b7e48e43b51e61d8, 0x454e566cd1ec5366267bcd7941ba51c61bc235bca70c7c345bf6d6426c), (0x2acfd4b0d43f23505f9b8bbb0c2dc0b077692b8dd0b9dc5d028207548d, 0x227abc2ca7ec3e1f8d3b80ede8f544daf689c4f3075a74f3952eac01ef), (0xa989428e214f423c6dee152dc36462ca7610e9cba634f81325529e5de, 0x5480e1297899e11f6936327fde68fda06ec8d709b9f3436b1551e70c8b), (0x1ad2244dddf28f2f57d99a21dd51d69179bcd2b6536b467eb8b4087ab2, 0x2dc4df282bfc8fccee3ae52aea810cade26fd28f1832b14c62f70eaac2)));
   (1%nat, ((0x12abc0f59c57dc9d48d4246d914d811dbcad1bb83be489d358f5bf5f05, 0xc147e826c4fb216a99edd86e099617f442cd7f7541efcece4c8ee3e0b), (0x14cf74f10c9db328974ebbffade14d01f90a198b3977888acd2ed571b, 0xc6dd956b9003470e90c767e17b7596a06c5e4379cea5d8368ff5976d2), (0x1607c4bfb3ba044f2808cef4b6d314b1667bbbbe6133814285c0e13f9, 0x5bfe3d629135d03940dc185616af15bf70f4eddb44c4fd2d15eedee307), (0x4b6d949eb217515ac34288c81d90b7cdc8c6a4dffc75dd30126cb631f3, 0x27b26cd52c84286e5fc4e39a0bab925d0b85f01d73bd089730de133552), (0x1e224fe5aa6f1e50e856d350a93f3714343ca5dc727542c4bb8ce6adb9, 0x1)))]
  0x13e5769e57426d8d92c7dccf727a17d248d89a5061015b59365fac0a57 0xf1a74a4f1c6ad40c65798fa2d4ea4e6fbc28859384499f9285c53f7f5.
Lemma prime_231_8065 : prime (Z.of_N 0x70323550c6f96f6d1eb150bd921150fb58ff4e1b7ed3c1bc8a8b098065).
Proof.
  apply (good_prime _ [c0_231_8065]); [vm_cast_no_check (eq_refl true)|].
  intros c H. cbn [In] in H. destruct H as [<- | []].
  - replace (exponent c0_231_8065) with (Z.of_N 0x5ee70f9b1a27d9691299d0b911d9a222ca64f69c6cddc6be821) by (vm_compute; reflexivity). exact prime_203_e821.
Qed.
Definition c0_367_2d49 : cert := CERT 0x3c1015d807c180dcbb7a3aa7c101afb814d9fea7d497cce3bf42d9c8ad2ba0d5cfdf3f14928ed5bf473176d9b5a3 [(0x0, 0x3c1015d807c180dcbb7a3aa7c101afb814d9fea7d497cce3bf42d9c8ad2ba0d5cfdf3f14928ed5bf473176d9b5a4); (0x385e2d00020350a9a58a35500d110a8b57f3f8dbb3954a2cb4cec52654dc25a1d75d609f8ef1d25eeb58b2f0bb44, 0x1fdbb9a1b3b098b5d85b78989b1889a586b98256eb822bdd6a4489e6950b30d857ecbc9408d215f3e4e2d72cf6ac); (0x1de5ffd5a33a6713dd987791af46da46748bf9da0dddec42beb2fa316f90dde533f1e7b768d0c0dcb29a2692184c, 0xcf94afd5d2b351d912ef4f22f41ee58947508caaf999a7421f4f8ba78f2305ee2d05966bbef44a5fb6e6f0f5884); (0xc2cf90dde3a845ecdeca866f449b5fc0139ff5f373f026f00d69a40a8c560ac6cb4f4457ce663dbd0a4a301bd97, 0x12e87b35167624f5bcaaa8a9c763912c6e828945d68cc66729cb6542a0d39ffe3a5fb3765868a7206d9def0e6d81); (0x11beb414adac3759b8ae4848248d79bed9a08dbf2a3c39e117b1ed1387376fb48082f672c219133164e5d5a5aad2, 0x3a35e6a90a88559e7a2cec68ccb1d2575670e89d69e19e325a4fafdeaaf3ef73587e5ad9338150515dbde098bbc2); (0x36a1299650ca494ce66bf083e0b059e7592bfc89d4ffa69739c235889b63582e9a8af867b6d23d06b07a625c30c4, 0x2f7f599649cbc33603ddc888f2496e7bb30fc6276a4bfeb1be9dd909a4aaff169e961ce1d25019850ebf9a821664); (0x2c93540967b6aedc7a3d9f19f0b5703098225e7be190a1d2ca24d8d96b1751218440accdd60b7266d0a7bd29cf49, 0x1c11f7ca8561e330eb6ceb1215d7d8d37f3acacbbc466d8a0241f95a4eaf92cef4633e8229ff4f347cb118601b3f); (0x1a57e6607506b28b16bfa8ecb9c11af83f76abfeb88f431f5d3b20ab04d42f23dfb164e43398d704391303b58770, 0x3d6cf578d05b59dcb19970751a918786e9cb209bb09c3d9c9cdd4b4c9ed2dbecba349e4852ce7e6f80eafad9b06c); (0x39a59655b9437a4dc803617662bfff9c7b12d4b5fc5316ae1b13dac4d6708cfefe967a8dbad52dd9569ebc3f759b, 0x28fdbff395ee799407ce30d2a100c0069016f0b58305f9f56e52b3c8a4de10d46bffb95f30be8fe1e79f7a1f98fd); (0x26783161f9d081a3d0471741dfcd7030369d874799c86bb09e94926cfee6f9f13dd1f515d5ae2d4219d311251447, 0x2821e6fc107ead773d9184bf1af10923204841b97a947dafe1f279b9bb123680bf8ec23d2b1300d4936914bd9fd5); (0x25a9deb8a58e36babdfdd43ad3efd14deb467166de6552bce8dbc3ad4c4a4b8a2af4d325e152295756deabb8ea13, 0x2585224d6ef24d7966743c39c431a1a4a754ad19591214d8a7f546a046e256d819f43eb665792c21b1d086a7e709); (0x23363e3f808013bab7666880ab0236034c0fb65f131c9d7f05bd43f0aa954c122c90717ef352befe0a688065a5c9, 0x122b2aaf40d7a9c58d6515580ee5eee448f8ae4ebc0cef90909c4c8bf525b91096286cc544a0b48f3e6ff6b6c373); (0x110d0902767f9d4224151b1e3de2f712a093b32d3e29933b9947fa270ba1d320114facf8bfb3f982f23177d220f8, 0x106fc20bc44cd575cd625dc748d28d9eae708109041e6772c724bad67bf75a1e38ba80b14e337e59f56602e185f4); (0xf6ce777b1d1caca30b784a96aa2234eb6ed1a85a27551cc088ab05c61317d0f6d821ad7c3c86f8c054ccb1d3aa9, 0x23cf24f35a8b0a53d160a35019f28cebc5204e7b677c1bd20f80c0c9ec4308b838bedeef5a984fb03be5190ae51f); (0x219b32a6394c78483484ea8afccde108649e5eee4fb7cadde3effabadbc956ce665864b0da8a8d455fa611526c8e, 0x112c2d691e9f91030abe7be32465bafa024be90604502665847bfb82bc06657d45676d2d495aebd16787e0b0c85e)]
  [(7%nat, ((0x0, 0x1), (0x0, 0x1), (0x0, 0x1), (0x0, 0x1), (0x0, 0x1c11f7ca8561e330eb6ceb1215d7d8d37f3acacbbc466d8a0241f95a4eaf92cef4633e8229ff4f347cb118601b3f)));
   (0%nat, ((0xc4fbddc97ae393221838b86affd71c516610f04b6119fa8d1f4829fe959faba915689b922dd97ffa8a639de5b52, 0x23cf24f35a8b0a53d160a35019f28cebc5204e7b677c1bd20f80c0c9ec4308b838bedeef5a984fb03be5190ae51f), (0x14092edd468f29e6f6c10ee752bb4ee1fcbd1950fb48b13eb10565892c6699b7e075696f4f67b8396f5439032ff0, 0x2457308f0e52d5a726782e1b75df3bf63f158ee1245a34cd01b852fdacc01bf378feff427988be0e6a3529d69e51), (0x14a28d6919e3f6d12f91eff3d3e04aa49b1fccfc0e8e3d6568400f1fd7f7d2c3be56827182234bda03035ba75185, 0x1860cba24ea578a280ae170265282ee3b1803471f365fcecb2fb5799fc48c3f9d02a19e9e2609d1bb33307c275b4), (0x9492b1f29d3496c03a33461a94c22743a59ad34fe068691ee8db969edb0cc8706118f16b47a43cd9197b2a30f23, 0x39913e1f154a5973efbd182aee9eb8d97f6293ce1a5a4411297c12e4941fc2a579146296fa393d8e3df322948e95), (0x0, 0x39913e1f154a5973efbd182aee9eb8d97f6293ce1a5a4411297c12e4941fc2a579146296fa393d8e3df322948e95)));
   (3%nat, ((0x33c80045171130948ccb8dc4080c5252c109fcf7deae4f2df88135af3af3b5e64917f65744a26089417cd35f9d27, 0x37163b3cc968f555ffa5df3026e4f83996609b391e4986f332afa2f2702bab9d5076946d985071c93e7de830f79a), (0x2f6a3d896acb2aea1d7f5b62903727e58c669fdf5798302e9f83d94a9103e61dc0970bf0afe18ec3f331f9c982bb, 0x384cf580b6de9b82d226beebb25711c7c224b07d48a78cfd6dcdff5d84a10eb176555e59b3e252695aa72f906251), (0x31870a2bff765bcc220ba92389452a18f045e45550584acae8e42d686a6f274c9d87967e31b367ebf60190895c3b, 0x36e347b15c19e3f1a054ab1ba60f3383d0c38cbff934d00f31ac0f4884827058dcc2c6741692bd8ee5145ec771ce), (0x2f12b01c2de0782c1e179f6711e5b3cef5de52bddfb56ff4eee861d58d19f5cb60e18d5960e20ddf5bb4701ea5b9, 0x2238d814ed947cde0a901872bd1c74f1d29e427cdfc545c92cf47beecd6f04d22acb6e66c7c9feda6fb2d1f9bb03), (0x6eff5c5d2584724cadb00031c5060faef59933f6353ae476db587d5c526dc57980bfc0d26e52afbd23b17fd1280, 0x23b142f685053b4b27dd1fa1b755b8ca7bf93a346c69cbd617aca1e64d0ffff40f38d3ca2137a03cb7ced84faf0c)));
   (2%nat, ((0x13e7cc344b1da5b4a24aec883480b95c145e3b8428f97e043b1362a60c7ef6071000599f158d777ca0cfa06b5fc0, 0x25ebd02bb8880a005cfdbbbef9e1bb60ae36dfaae05e580762a40c2f7351d05f0d40f39214101037979829665ad0), (0x16780d91f38cbfec2a0f700a6683fe32baf8187d4c2109af3026ee796f18faded1442db6e45e12e3273f456f3684, 0x27b75aa6724f37bff720c89d4c8491863eee1312623c975147a832f5899169540bbd461f92f564aa5a83b2bf295c), (0x18a583c5c39413595ae4eb82d9f952d861109382cf458427b6a7e939bed8f41a8d1fe4f62bcb95d6083d3246611e, 0x150eaefbda80250b6ea54dc56e0d77bcd8abb266617f35f085427023dae3cb0e26a9abd006701ff2f507b3a8a182), (0x6eda633b401039146279b9c7306787ac302629942e93ca64525cec13684c8d19124098c8be8e41ae719428ec2e2, 0x26dd00291a913f3d1b883bb949a01549688d23a1c6906aa2633b3b56efa0f4bc3e49420a6a4b53d149a192b77992), (0x135879097b0dd4c762beb81016879b2907b03e8dfb0af9a918142b8c7f452c0e8bd9f55c191d2d9935210ad94fee, 0xafe4fd4a01db80ecbd30d313426b51d81e0d5eff006a3efda8794cfb6a0271e09b704237b378c7f0bb1fd11593a)));
   (3%nat, ((0x1e36b7c7d53e31949005ea64f7ffb331d08f954cdad4e6a84fd3ac1ae91fda61dab3093c56228b5bec03e98e7e4, 0x200101a088bd32c9d5a7534b0e6a09a553377fc6425fc89b9d0cbd96d0a81362dfd7a2b316a62a14bb26eb642d20), (0x100101a495cc0fa62bb0878914682d4e31d737de9959431fff6f97a939db6e28857a3b7efad35714e5b2b8ef6053, 0x38abf06e973796edbce91a85fc85f24c1c47a9219da6b8b380c6bcd93441989a925602e790b0aac983969a823555), (0x322eb2added78668b159c6987e1664bc6c1fa3175891559752f53280929f18d148fdbc217fddf84c5a500974eeae, 0xac126e109fce8cc2bffcb46cfe7e55f5b0e13547a95b2f0aacd397dd951d7e0da55cca93c560cdb2fc4fdc9a89b), (0x1cea314e80199426d6fa703470500fa41470e793cded40cb2831f7e9ae6c385644f9ec2841ce694d312835bba6d, 0x2ea5ce2a5f1b94c1bf5f085e8f0c34008338249c1d9e90cd00bbab0e008a4d78ed77c952a29a64e59cae67857bc4), (0x974ca66706b9e5de510cff0f1598be6c45bc9122f0aba28f5f0576654db8569ebf1d2697ff901f611e02174f707, 0x112fd6a6710df5033aa3899e2ddb57cfcc9d127f0a4cb17f918f3f3abd192819c2d4a2b0f0c436464de2b8d78511)));
   (5%nat, ((0x49d8dca80703b922a86e6729bb9a18c5fe05744772841aef3861b3b904618b66ca7ffca17b9bda0eba50e3f83f5, 0x39ad04fd7aad20a6803b3aff9623034d37ae907fad8c78f693da55dd8f52c7495a414da2945babc414924412f944), (0x33fa04a27d4735659093968ad28bb5359b37ab441a73df0395f9c2767485cb642ea6a5dc975915b537df29abd861, 0x17a8c6e4ec1cac816be1b19327a5cde118f06f77a113d9dd87ad13c9dc4ef94d762f3dd4a1ad25bfeb3c82809967), (0x8bf0c0b25a7da4dcbc2033e69b69cec6a397ff66279ab8c71e7178fe33f612cec8deb92684d766fef38722ba07c, 0x19081161410b13adeaff444714f60f3b2dfce012f859268873aadc791291720a1fcce30312c9425f87a80a31b815), (0x9ca4e9857d9287c1934bb149b5e9a998b239fc599f1aeb65ee4681e0ba17cc1c5e4bd19a46694bc3ea536fdb103, 0x38140abbef8c53927788db483a8bc0261a76e981a5d8f2015832a50408b643c0be90a173a8dfb25cb1a8212230de), (0x3301646f5973e0607416b3281f0052e3011f690dd3188d98f666ab6ca61baeb52e1e51f40b3700946591657cd48f, 0x1af82d7ebee724618d80f03be86736296b83219af0b5fbfc0f1d4c291bfde1916624cf0ac0e36423e06288e07275)));
   (5%nat, ((0xb5d6757b1ba846029b9845ee7b487a6bd3e81d7fc82f6d2a7493b3762be3a949b270cc2535146b0163fcebe9603, 0x295e0eb4275cb19e5dcfa2fb17c43e7acb1f340129efce6f35e08f368b0d7f318c1e1e386b694fd942e67b641b9e), (0x1abd0d1207033032b8b77d5495e021ab3738f8c036ec40efdb492eb999d15498e46231edf3b6b6d37c52d0aaa643, 0x3066ade37614605384023f8998915c8da88e648ec735f65c9564f48936330cef20d412f1ff9f9248b69433f68569), (0x249aa9914e9bd038f36222463ed8b7c4f1377dc40575cef854a55bc08861646247928a641e1a1b5f88dcc882864e, 0x266972d768c04d41154249aca13591a61db062fe63df9d2b3a0658316886e98be9a2be0aeb8cdd26ede7d94442d3), (0x170de61d6d464cec517e9ee5228e6d66f1cf68867632dd8399a82223decfd7c319074cf0ed518dfff1b7e5707af3, 0x6b9bfa3885ddf28dd61694e0b28c9b239df933d01831b341a85082c4a2b738752828e2d1a9346649eefd7b8b39e), (0x61dffbc334f17876b114ca1f65d7e4d77677d099eb559ddd9a43f5a18c395e7a83ee27e7ab97756d182f153cf32, 0x200edb4f7d1327bfbfb203607731978e6a49a0c60b162e70fce76df05c62651bd061e097fc609f4e71ca8364a87a)));
   (0%nat, ((0x100edec25f5e42d5f757238e2f53622493eb99c76874d122aa7e7a972a9596a301c781746928ae52409aeaea4ed9, 0x1c5e3e8f8fff15bc7de53bee537f41d53be08713fc1e3409d9e89fc44a14685871ec73f478d2c4bfab539c20b943), (0xc930185a0dd995bc1dc9de2e1abae814904e10c7dce1614eded34be5c55dba6578133b746721301e59ee2f643f3, 0x2d51c23fe5faa38ad71088e22b05b223517704454e3352f2b00b725aac6fdd766ca0d294bc450e9f37f8c85d03e), (0x2017619bdaba3a74b534cb6d110c74723d34bc6e575f163f74050242c8b3b1c66f386bd2a83d9e51bc7b161cb2, 0x1832ced9a278d3ee98c17f287a7cba3daa741384cd06b441d5b2c3ae37e791f346f438c9089c07e6d6b9b5b15642), (0x92643790a7465bb4b818413efb4efa9fafe1bc56a83374a07e463f29c6dee3aed7c6f7e8fc5d387e9547873b6bb, 0x27763d049a50208da650783f3f50e9a339a5c9bc88780bb81288933cead8c635efa349943f2f4789045c78fd6eb1), (0x0, 0x27763d049a50208da650783f3f50e9a339a5c9bc88780bb81288933cead8c635efa349943f2f4789045c78fd6eb1)));
   (12%nat, ((0x1854f4ced73775a2292b7301d0bd9b669979952006f840d4aade96c73bfc632766e7cd1e078d33b40d0b847a053b, 0x230a75b1c27701e0b5fedf492ed1f0cae2cffa9e1120e42e089eb98d36ccde602a7c09f78733ef5d54ad9946b98e), (0x132f72700caecbfb6d49f8e5a746f119b1b9cad33e3323071dd37b9c76d96d5c0e79890fd2e53b18b87716b8d7f6, 0x213e83954409bf2d75f9df714a902dbec3a581d21d3c6a5d9fd424cb18953cba5ff12ba549d2a95861ab2988b79e), (0x1144b4c1ede64ab2461740ee9924f8d48acede6052cee45bc5de2a87837efd0a2effb6111f5581478d1121eff174, 0x237be95888ac0e64eef55757a268a78eafc3268011dc3e444f59cf44757535f4fbb1be4af17f55a225315b7a0770), (0x13ac77211492a2b37f2663c57274e2b43ae62a09a9249d14741c0bdc13e5ccda5ac05179d7fa8b3be31000c9e41b, 0xb09496d71258d631a544b483fb2e34ee05e02c80dcee5adb13eeb5471e0fc38d1882155cf6f7cbf36a777f3864d), (0x3220e406e1da867991f995ef3f7dd5d32970a1ae70a0a3ac50381dec8f7e409eaa82556e5ce96aa87b122e47b72, 0x22dda4a71008006009cdbcff7bd0af0643b05d78514dc73cd58549c8724af2a77847d388ffffc40a89fa378fbe15)));
   (6%nat, ((0x12fe7e884a691de951607652673665177dbf1d999fdf9444652845dc9d44e0197f6bc55847c2fc13d2af52c6da9b, 0xadce2d20fe24ffe9c7e3a2b871d90c137828f2bc42ff3d6838b8cc323c8c99045206646105e9c12e9de979e9886), (0x1d8013c2d022e8c1d6fb3e0b0343e6995029aa027bed31fd25ee561194d80e2a2f9e10687332d318f44fc26227d, 0x1c4d0af16de0d72b27bf3d3038df0771c415c2f70f669916c77d845861124c6fb65453677ac6df4dd3c343a8977f), (0xc83c65196f4226207d5e5f48a0f975e6f61cc839e68c9f78da2ebbfdab7efcbd6fc917af2218d8f5913672e3c03, 0x286c0f6a4c9ff0b672882c988b2dd05a50684632bb846f20f787c66329c27d9d778a743eb23680d71467bbca6d26), (0x1987c9b8ea410d299d4d10c54cb11b3bf92a8b0d9612270e5f56caada9758569d736361b36c6b3272062b593a5e6, 0x32685cb47ac8baf0f9920e1e2fe5a2f41acdd3e246f654f2bd3de4b7046895864828e7e025c129fb7ff42cfba50e), (0x2568f1bbfff2d7df45f5db03d043c18b072a259dcfbaa8b224c4219d4c0b717ebc910ce1d1c0cfa3f7fc666c8f2a, 0x5580aef1fddc153bf9fbc1a124fabd6a1bfd3d570e4b77ae9278d6004b9cb11778afa020fe178c311abcf0a787e)));
   (15%nat, ((0x723ad370707f7018c3d5b10a5f851ac099065f013de10d73436f9af8d502f24bd450b57437123506348eea66f7, 0x17add059068754597ed326f0b642c6a705ff0e085a447ba5788665ab1d7df13d1d0aa4394c63e1287d5d3e109695), (0x8c2c5cd043fb686245038c5d13c52205eb9a154a418b430f918923b9e3c67c54d4de0f5d9b01357c5e3fb107c34, 0x20ef5c80c7bd04db4aa875bfe02455ea31887fa13551636292a138a083faf6d524917bc697c18997a464d62e63e5), (0x10f2dbb82f4411f861e59832ad6bf125ecde580e173cd24587526b640ef74f297e75be19f23c6b79f7a780df9624, 0x2919bc27e7a963f951c9bc624428bae80976848d854034d9b52fef00ded5548621458642e4148a90f69f6454c695), (0x1a65036c49288e5253e9815a5403b116e1333d6561ae3acf0763c468fa532a85bd2e9ec1dfc4b127272f721ff79b, 0x3b8b831647174f6fcdb0bf0c58fa8b95a3a12e61f66ac2fac07c506ffa007aeb0b88de33388368e8c950d355f886), (0xffa28fbefbfa6a05bcc7b7e5d8c513013acefa84ba7054621d53ffa4d7db2ee9b3e3bf8009fa7d2b1509ea35dba, 0x2f6a8ab396a676576c37da1f450109b89fa245dd8ad12cb7ed1d1b6413b487af20ff5c1630665265ac5a442c852a)));
   (9%nat, ((0x23212d1464bff6d65ca578c7359b18dcce9588a031786ffa6dad69338313b82925683155a9619529da8a7a6bc019, 0x6426889fe66926ec3302139fef037db8a520c4a28e0abf43ea8888c88df62993bc0472b155039baeb20cf137ec3), (0x9cb882271193593f554cc2b6dbe227a978eb3a67e822f931f141f2c895cd48573833cd67106dff7148a5fb296f, 0xb480f5f452c753caf812e5ce07ed3525f045057abdaad3f9560108e45cb487469971bedb531c6d01a231c9a34e2), (0x1fd166b59d422932293c4b2b803dbc8fe5961b2c71769d61eeccab2be2553c3f36fa4996e435dc36b0f562ce2d4, 0x3b04e0b7db6b5381173953f4fd6d60e3d48ff977228ce5e75cd7d9bac54b3dc0d332604a834472592fb2fdcca510), (0x366cfeb228925f7d7984fe3b68f63e3ad7002e40d5a76a36825b5d0b720d0552e4596c52f791d2fe37e616ee3a6b, 0x3ba82673d8e93d76bfcbdb2a852b53f126a9c44d5eb4b7047b77a5939869a64906bf7d3d2c43564a24e1a6f1297d), (0x26359fad4a7cbfcd72f18d84125f802bf024a5fe005c262a849a8a1a56b08df3f5bc24c6fa589b67dfbd47e2e918, 0x3b2de6ad88a73efc13e19b21d0b5695ffa99003464ff0e02de5dbb2972d245cc214134822875f11babb9e0e588b1)));
   (6%nat, ((0x36b8c23b976da40b57ccbdb5cd1090606206783c98f2e0c6cfe1de29cb2fc5d21a90c6fc5e72d9548940b3eb6ab5, 0x3086b2b70f16a0f913d78d5fd03282218427ee78a7a02813f9668ba9e5b724b0bb0a846342b63b1c0f79762c4bc4), (0x24cb2790e83d6fbfdd271ced3604e3c51108afe32fda5b137aa26243897250e6409645ff7e05411b51f7f96a4321, 0xc66c11135742456b3d4552aab97be4e214238a088ecc026fe87e3c75b15a3018db41f3d761b3a262e15dbb77ca7), (0x2672d602151bed965503e5b0b980329cc87e4403fd83114d1e8bcf59a1da5658a502e7f5a48b2b4a06301ac1240, 0xaf62b8764f8846feb102bc28cf0e751ed3c9536ccbc5c40d33e3992185a1ed39a4bc7af661587637a30676dc0b1), (0x1e0a0790e00edf99f8598e3ceab81cebf42dc548db37dbae10c2b450fcf230c4ada5a3a66ac3c2a0ee5105147c6, 0x12ad6a6930865a35ab2a56649e3b618e980734956f4dab57bd8d77ad75dbb929bc2bf33563543fae25e9816b4eb), (0xddc84696c53e744a1331b414a2cb4b838adc05b2c1b1d388fe81d6953baa1c6eeb7554bdcd3ffbc2cb4829be0c, 0x358a16a3723abd939b32285237a1294c4fb81a5f6d3e809e51a320eb5596f0bab3d1154744dd0deaf8a26e2d9060)));
   (15%nat, ((0x2cc9df705e0fe7410f04f6eeb7e1d80f46886d3be242175eb107b890facd84f01b6a8adf7446f3ab864e5df4a117, 0x2b7541a16ffd508ebafa0f63d1f258714cd9cdfcf993b634d48da1c1fd462ed57ce461ebeac59a4dde13e32c2971), (0x1d826705280b5d2117317aef76e535c5184c706c5d484d4bdb1ced6d7c91473e6a831ff56113374fa3a3c3b149dd, 0x7d8ffb1b30931486541cc0063a4f56a65833e0ad7db70c3c4a1360d3f58f9a960a52c64b4c0d1b1d59687347adc), (0xf657b0cc3078e9ff3acd1476b7dfee4295850f9b01f1aa449eb651d12af9daf89d19813c2278e2f5573b5a88f3, 0x2babcfa25c8c3a4365f7d78d35960c6841cb816ef254a099775bb679170cc7c8c7536f358b9699593569e51a8c5), (0x1dccac3e599ade320dcd399decb5bfd0a9555bd8c106a9ef0b12f1cbecfc4309dffab97caac2da2c424f3bc6fa, 0x3a92f77d435cd177b916fb5eec69e5a6aa5d9da63bec3ef257298b92b3fd5b2fffa7f1787e852883192fec89784f), (0xfb77856f72c022ceb40c0c476424bf50f7148c09536354bf104dedc09ed12494b36403e490b6a445b4d09c39e40, 0xffe753356049e479a6e2459ba07fb9e36ff8d3168535b83572cefb2335d745f67624e83f74727d67e3c1a6e84c2)));
   (6%nat, ((0x3ff3aa32e6cca88566be3c12b47868ea9fb032f909d4c1e52f568a07a2840ce77b7ad98f023b788137c38a3898a, 0x2836c91957b3ad268a82705954e11698726d7061a8c532263bf21c7ac4fddb64af7392a393102432396a6f3328aa), (0x1944aa458047d08df2549bdbf50f5a22fe93c6d57ea1ca987748dbadd1d6c8f962d6325e46a9db0119ff94af282a, 0x28a1a9792981dad634dda1939b756152e826440aced7b0cd9135460cc857259b2f1926e8ef06f3e2cd6a7cc1baea), (0x19cbac31de3fef77a1792e1363de8cf115f00b3ef0958bff299c2e78e2a9d66a529cbae029de5999dbaf401ac85c, 0x75235529866247c87efe2a0e6083c93ded1766bf73a1cd3bf17002ddced0167a517427da4a37a2d026f50bd8fa8), (0xd66542e16a14b9d9ea60dd7c20480313dc021ba415815d1d6e30dbc4988be7a321c5c8a324a65f43513b3ab9ba, 0x5f72357cb728f6355a039f39f124d2d4ea8c82e0e66238f4908473570ea85426ebc44695ba52becfd65dcaa7636), (0x46d5cb84ae1a7b7e6ff5705759066b1883796fbed601292046baec249affb29e17647b50b1e36b16ff965242b9a, 0x1bb3d31444dcebbab806963e0cdd0f9d1dfdccc26ccb1787101675ccb7b77fae93fcb82a79e5ced68f555af2502e)));
   (13%nat, ((0xbfdb35c8ba547282e3de54007ba0a126e00b11765e897d1fc83b0722827d1585641e0e89087771bbce84614210d, 0x2ffb5cdfb79ad59772c7101fb138593823dcf57b8159470cc8fbaf6d9c8231ea01714a45d2b76c268c924ba9128f), (0x23f90ba59739ce14804f7689f8848bf588b2b73303d11c3ea16275398c808e8ad852f18964269cac34595ad8e636, 0x2279a5e49b44144e570136a2cf0313db7aaf2b5fe3ae565ccaae897abce277bfaf1388e22339970a7bee0923487b), (0x1292277bdb65602acb1cf0346046e5a51ca43a579353938f47414072636461a04a3c7ce06336cf65845addb2f66b, 0x2936586822ec2f7cfed5dbb737ea684fa2bff008860a5d46cf9ded764072904a0b7a14be1c8886105f2700055796), (0x1a89cf6b169894e35eb0778103ebcb810858cc1b557526b1fa99ae221433fa8e67e8214d73f65dca42581d7decb8, 0x9d0364d3da9d362f94fee33f3f939fe6a886fbbb85b0cab1cbe1d8903be10c7dfa4a0b7856a78311fafcae6736c), (0x28530726fde4ddccd5c6586ff328f3cb2d9388806e6633bc730a02a4241da4f8039139fea5bf29e658118c42d93, 0xe33b51272137cf7c9344bffe18e77c379747a11367d569b3d53440d61567f76cba1dba5763cf05cf7bcf7944905)));
   (1%nat, ((0x326c8fea79ab04ac414d52bf1b593fff869d470e291c67555919d4b8a4c340953376792904f9552503e5ce10267, 0x3001592840a734a9d8fbba8283065c016cc476665983eba109b1b27473c15be1e7e9e28d2ae4e52afb660ea90fba), (0x240205c3a670e15a8792b597a5b35bd6ba5db076ec106721b5353aef100dd2b3177ab6ad162bb0d37b8f997c07fb, 0xc84868ce03be314bf18b2ea96db4896d88a7e009de81d0dc37b348e9a25f4a4e9c5f1b3046e6d0365c3c9cced91), (0x272c4e0f4128d435bc95190872a0a131e82efdf39baa0bf5903b57f379e45f46e82a2b05849f67864be74db332e, 0x27b4180feba01cc557808395e5f02918edab5f6a498925ac803c351edd839276e54bbfe00f0eca89d9689e331e03), (0x18a1781ac9c47c6044cfb53d649489abcd50b89f5f229ddf4b86e65c4ae2ef6739bf7de2a4303e351e534a9c00cf, 0x8162ffe4dabe0627f21f895d83bd03fb23d1fb97cac3f707086f5c720e68423b5a55a0b6c886533d5f40c11602), (0x796d54cfc00d987c8d821fcdc6ac5d9b59e25c4d36288fe219fe8c4ca3d80c5779308a328327525d2ea645d1dc, 0x372e80d8bce5e37b2cb216f6ee2a1e20eeee24c42e594c1f2e31463c051b27d1c99d3a458324e462a67b63f2ff8c)));
   (14%nat, ((0x2f940f3ebfa07b0781185be632e24f424bc66bb6007b8e4085be4f1282e9e6c1124ea3bd35c231c694aaf6a5c0b3, 0x3c941f342af0455a3abc448f55a07f312372bd2304cc87d214969e728ecf561c3fc006ee26e09ad34cd07b43ca85), (0x3957115230ffcd6895dfa3de88c9e480b46384016016e578215ce292180c4f72da3c36f2ea266f159e617c36ac7a, 0xa71feffe875dc5d387a1dd24511f33ebe2aa576dcd4801cfa4da78c74e4dc9654bb91afae19059a33d9120d884f), (0x1b46abc6854f97a8784e65ee2f96dfcd21acc0972f6ff435ba8e6093282d2fb4e766e3eda7ed08a5c4e53bd5f6a, 0x3026197034c583c6e1c73ca9d15e42244ba6a60716a4e33e833afbdcfa49b0f262391deaf02459356973a4a63127), (0x24393cd68e835e29fc9ae7c423054c84916f9b75c5682736e2a2311d5ab276b0be368d79bbeab32a083ce49c3a10, 0x196de8ce53295d0c06b8c370988e503565605acbbe37bfe2a5d0039f6b5a032cb510dea19bc75ec93c9bb1929561), (0xe3a697c550d6508cb21192f34813c637351ff58421949ec164437ebfea6d486fcdcf8bdc993a3026c2f32757919, 0x20e995e1cf2b9c8101f503bb7f5ba03ec0080951dc88585b242441eebdff6d9945f03fb8ec7a232ccdcb2f3dee9e)));
   (11%nat, ((0x10ecea6a825a9b66e7469a0b996fb9b7e1156dbd214c635cb064dd548713b473b79c7151502b42ebd2ad6d27880e, 0x34b7668b24aa66c210269bcce37641e5e7f1c15e7b24b2bb35ae5618957877fe2eb6a45681212320ccc1ee0be786), (0x2b6c14312b9b48d980c581b603c4eab29e88cd7b1085b4e1cfe00806091677a299d40dc0349548cd44bd030c345f, 0x1c4936b2d79a181195017a2dc5207f1c412cfee0ca8160a68dc544dc1e61385db765d196fc3beff25436a9b2780d), (0xc80639d73626c2c729188401a17352f2ccbe85119690dc4c3b74f24a4dd7d5cd71b6f0393bdb9828b625ac5b965, 0x303396f8f8757d9ca5698a15cab45be29834f14eca4e2abec52cf3697bdcba2570ca3abd8cfe879eacf6dc4091dc), (0x244d8c0b759f0cdb39b119e3a93605eccdfe578def5c215ce34d313f2bcdd8512c7e9c219d84289bb186fd9aa492, 0x3938366ebf4386db90fbe6387f25bda086581d0202c54d6a567519e04bf94dc5f4393633484d9c8a7bcf4ae5d6e), (0x218b86f43c76148583dac2dd03b076d62b8453f7e7620adc333652cfc1583267f059e50cdb82479bc6942f3c869, 0x18d7f7e80e72dea9575a615b4a7397e9ad7c148f6c440e0ddb9ab9110573c69b769c80c8ebd67e6e6a0b89dfefed)));
   (1%nat, ((0x9a4d2b76a3db3b66e0325d3dc14b1c384853f8e5b1f35e58ba22f34cd2212df321d2cdebafe02c0b4cafb6c38d6, 0x3350d4b1d0747fdffd62eb62a409b7095fbe29279e305139d3357122ee5f719e26a45463d4f036d04ab810568e63), (0x29253911e39ec21826546f5309169280f4ed3c6daece98b485568eb4465dd21e381480b89d81ad49651b05231cc5, 0x19ba7710c573e7d3be94fe867e7fdf0dd15ebe55a858ae3597d95e8d38679ebf12248f970126a83c0cbb375d251c), (0xa57cc4a0940a17d0ce5dc91d39001df2ab6dfb5c9dca592527c920e840bb6c5be5d0d3a08a344fc547763f82970, 0x178e14bfe2cf4ee48a8c7623f726c0ed465c20b29e49e28e76c0bb6809cce02b73dcd4d678217e36f2790bdc9a20), (0x8ab5a56053da5b4d4343b99a394b892fe37163300262dc4af28efd3d27f1b27446fe6cec759260a1909bc559129, 0xb88c5a6c80411a71e2a49ebbe36b24560e462ca3fbb66cf6919e1fb1ffe9325c38099e818aa658fd7bebd0cea4f), (0xad31f6d9511736115a7de24a5f0fee740bc3e053596504d046dabd68eab83fb962fb073e83083f6e9f054a284e0, 0x2f50d7b26c158285e1baa5c60a1fdac84f103d5b126a7f8de105593823d6a5f4fc1633315253abf1df8a9d93b1bc)));
   (5%nat, ((0x22fb22ec23c285156560a32d81dfd9a839867d98dc77c38515e0430d3bfb1ab9929e7250c33e369308639f57a477, 0x1db86284e3db25b520be3f1841982f6ca12af72512a0c0fabafec2fa491156da344c0e3cfadf0cbc1b3ce959b121), (0xdcd2c7f8244d4032dd870697efeb708e4c7d04c5654de6f4655ab46d2ef0da955b39cc286bf58069532d25ccf03, 0x17d25eba437738ad8b03b73d82fb775dbe3cc5159f4c67bdc57f03025a1f0d428cea57d97f4847b14ba105d51766), (0x8dde794130db3675160a9ebfc4c5dac2de95327f336061a1d2de43360719af5b7b465b1ea599572f3b7608acf36, 0x230f822626d9dc6bcfb9a9a774548d35faa69628dc005058ee62c7e988826feafb680129c5829ee267b2b22be83e), (0x1334fa1bc50b93c8877dc7dd5457c7bdd49d957f3b322898c94a91777353524e45f832be3b57a521400875c653ae, 0xd2580f3fffbdfd96a89833af7c5f690f6de45ccdaa298e4a005538b3569cc8bdc2f2a8baeac3b031cfd3ae6fc66), (0xbf50f4d6aab81220d9bbe835c19cac77c56d6728a91b0122e488a2075e3c901c68467b8144b29352ced1d6d18d8, 0x232947d9d17fae832e2e60f31cf003d2a6aac09e2bf075080607f2d79706126e7bf62421e3f8dc73289f7db7b9b4)));
   (0%nat, ((0x135141369ce2409db56748016ad8f9c60879aad0cdd9bf23793d7ea03cbee7e1f0121a24aaf53aaa165a489368fa, 0x3451dd81725b772d6e59dd127c57e3337ec19883960928b1f8fc01df0a0c8eff0d2145771daf11f016ffbb32c546), (0x2ac570aa08211cc8fa71e740ba2372aba606b6b8839b06bb5ee02c9e1c75b6954bb1a33e6f8f03910c212d878145, 0x31609061c5fc2756f4d389a62acb2c7e7f8ae76fe0d1d1462b161afb73a7b0754a45498abf89659e84dec538d177), (0x26186ec82234a10065992656a8d937b593bb61e4e20a780136343aa90699b921c0bf358d751e83c3e437ed6e3c79, 0x3e01c4620a15ea58bc01a6e937f3a4836fcf1ebb2366a263f1030c0415bfa98a911c688c54c0497c16dddf2001d0), (0x3c136c8a7133dab05f1d2377d62aae5d2270a3d02e7e3a06a81baaf4a42d8f2bb551ec903a9f03e94de859554f97, 0xe8c28ce57a183659321ace6800d5e3069acc3000c8ca1f99ea269a7853c04b445c42744db6712951051cf450bf1), (0x0, 0xe8c28ce57a183659321ace6800d5e3069acc3000c8ca1f99ea269a7853c04b445c42744db6712951051cf450bf1)));
   (11%nat, ((0x34e84cce71a92e9c8bbf99cd63382a2720577f0c5504bc91f43144abe74a21ac8ad6659065e8be186ae490f20bb, 0x1577c1ec7d1f5898e7b7e06215c7cb2874891fc6ee215100ecee854e63da8b1567780ea274ad40e9a08ef32e648e), (0x733775aa5279b369ad47db4505f2c35cb3828fd3df059d309f3d4795214fd2d776d4f4a4a2f86e826bef7ceecbd, 0x11610204b9b37df957b706be4e653aa5be5b0862c80b28e4ab45a0efe1d4b3510ea30a8c357c1337efa18a7983df), (0x4b81c1ca10a8ef6db8e1ab717a2b78dd456531f0c2bd6413f657fd1973f55b838391b1eb22bc790388879a0a500, 0x3f0e9b0356dbe49954df900445ac57f3ed01e0dfe66274ab4e432299ee8792d6e8de204c5f87bf7c653485ebef41), (0x3e20c483dbeb172797f350b1ff8f93903f92121926aef2f43ebad588dd484a49e42ea36c1409fe9f4bcd028e4bac, 0x2ac1a6bf4af70e1a84fb8440b1092376915ba6b5cd04adb8c990104e596a79cfc8259d569c6b24f162836beb9e75), (0x1910e5bfb88f9223781498f2f89c0db24099687fc55e3d27155b2f7586c27ba8f58a009eac96e59fde083ba2e0d6, 0x7a3f53847075acea14495169afd3db76805f08f2125837f00ddb0b5a28f24dbb8e7b0eb21523a4c7fe7e70d6a17)));
   (13%nat, ((0xe981ad11c67aa0aabdb4967e620c2000abd59e7e5baeae373fa2e0c9c139da6423a8e5ef965b1f9590544d3829, 0x2093761a81dc2ce930e882eb8790f8eae0020aeaa992b1bba7011d6678d011b0a56c2df9bfc419ab072c3295d560), (0x1094c9dde592822df0201b570114215896c50bbe6fdc119bdd278de4397f6d23662eeb25207e22490a006071439a, 0x3de08ea19d2834f4bfeb9cda4b90472ca15e9ee185ac0bbb8b86d97348c6942d7b12474b429eb764a871d42c8b16), (0x3bd323cbbcbf7fe3de4a746864ef13274c50da48bc642392744d82e84daf41a0e2bc1076c85ca10bfe4855d73b57, 0x29d032fef8ef854eba473d86454f9d3281b27c2184ea5b2b23fa60cf8df93a2867e5c1b669da29a2eb76f1a5af15), (0x1b5166a250e7547154270364b47da4ed6b8f7be8ac907f03e3b04299f7f666354ec70974d477475412de4393021e, 0x382a766da83f6791c6510683c5f5ce6d57c046095cf78d09794e526d97a39fef250134f3588e64d318f7d65ad72b), (0xe6cb18bdacde12658bda7e923a056758e1e1d71e4d0a4cb8e97838e1c7dd8b5c4e5ce09852cd75f84d6895fbaa6, 0x10e06f17828f7c883572737a932bfc7e879d9302e0fa959c6987ecbd00846d4036b3afac6cbdc2afbaf1588c04a6)));
   (9%nat, ((0x4734a9626af40306da181cbda911e55e924f760165bf286b976aac08645bace6eb2485f3e633c7e01c4a62379ff, 0xf3a8e358ccbd9053dd5fd50c60c9afee76a072c095d733dfe74d9e4b3a1c39e01e0392dd8eeb502d7ecbfb0feed), (0x39fa83c170c8ccac8e1746b856ee1a1bd028cb653fa1217631ac6398ec72a50f4d85b5a12c7538b09767c8e082e, 0x34720485bc6ff13a71748b7739f00802e619aaf1117136076c8212a44d5903885e9fcb2236af90036ab701f0bc4b), (0x2afa12796ef705cdb2cde7ec5f399e5c6f8956dd9d306a8379c45627463ec53e5362ea6abd4d75f9bfa5d935f34e, 0x19bfc3160e280b402a0ad2dfa0348987c43ac24c88626b7e78e6779d93848726f64ab9d75668bfa9776b38bd26bb), (0xa5c0efbf95e35ab0b0bbfa25cf48f96953b1a6462a13a21992df87c625430c803f0263be2b0dce05a605b2115ed, 0x66ab5677ee795936514c68d0e1107e1ccd1eece64bb8c2cedfd25e6fc54528893265c1768b060d60a333e312304), (0x41c2274ae046400865ef86de8f515691affe9e9bd1f665d4f3d3c42cf32d31f9821a0cf9e2eecda88f660082a53, 0x5abb0ff89b1f6be6478a50ffd75af6cc791f504765b2cfecceee36a103ff8ce87d5502e40081ff171e70ad05249)));
   (2%nat, ((0x80a03fac8d0f2d8098fb805cd2327f87a8235b5e330590526240f40dd4088b795c4be8ac5cbaf872c838e417df, 0x84355c298dc948dcb7d7c2b99bd048a7d2de748e25c99019b5a99d675c7a6767ff4c8ca88f04f6169e343d0d73a), (0x1111c48a89268b48cb967ce0a89d1668b7587fe88e8b73557b6f07009251ffdead7d863f8c65c66165c47af4da7, 0x23a3f0f74418e7f607dd9ffb1b5a0aaa380d9421c1f2932d0314a4843b882319e1446b75291d76baf941ed71f985), (0x13d8f3816940569f5a3b1c8885788a70d96131f14bef970b73136d9193ec5ed65007f1aa4a936f1b50ea9b5d42e5, 0x29e34fde695f454da1b1c1bbf223efa99e87d946c573af47b1fdf0758d90906fa9ecf583a7816c5643bbb59caacc), (0x1b6a65afec69a5adfb6460287706cddfcdcc820ad925a285c4c95fb3dda2344f6ababaf588243cc03342f1d56bdf, 0x3e7d28cbb8e5f9ab630391080ceb95c4f5e6d1df5e8fb9935c1cba1f5e6405aa4b33b69e37b3578d3aafccbc9cf9), (0x1f1b2949f2e6163c0a22a737dc7edbe13964f79f70b899538e86e3f5a3bbfd320396ee265d2d0facd0b2e1656629, 0x188e84e632325a94f7c95b3af5d0969652618aa69d780f2fc12202d0a09568de38cd52892fe5e6f5e06a4faa669b)));
   (1%nat, ((0x96c210b771d4e6a55d2f3eb69b4491ef0a79c091016f90c29af477e0879debb832556eb20cc3db08120431e47f6, 0x2e3e88cf89b5890f3e8ce238870a3d98f18f041b99c03ec441f41956119fb57fa4bfb74e4783b600734f38c11eb3), (0x216a21c48c846f02f492505097f634c68d27f5aebd6e728c4ba4c73cd15a3adbf24e9402b30aa003022821aa8ac9, 0x131f021666149c4adf068ee54b839c721122ae7a9afc7d22f6988a04e522ac60c0e7e67add90bf3f9769ddda88d8), (0x5b6784352608efbf7b5cd6e23c5812a5dec8c774ec2d177f009acd363769ea51390da322a19db7fb30af29acfed, 0x295696f1de2a063e1897991fa01ef14a3ed279932910ff8528a3b72e9e10c37fbb33759d810319d9544e4bd542ab), (0x1ab3668cf2ac3c65835a1172da5b4b2f085646da8547a919b0b705846ddc1f2032e678f3841b13d262aff406822b, 0x26ab88551e97938b01eb21b444feeb43d6cc8f708d9a7209a8ea22ca78b2e9c8e3b56e432fe2d889da74fd24f0f6), (0x244a87e4b24d7b9510273ff2e95237a0d2ab5a195d056705638e88fda333dd9d4e9cd0b14bfca13347d8d6f0e308, 0xca93936787dd8c9b15ff122758295bfc570bea1845daa2a740fd735e6ee52a059a4536c6526560f5641b61d2650)));
   (1%nat, ((0x28134e6c800bee8ed12b9d6acd26d347f167d1f05d36ee0b606f38d3ac52308687056ade762b19719f98dc77310, 0x2f78e3c7c6fca3638b50b59b2bf972bb2699623c600aad60412288de1deb67e0fc0315b45c1ffacaee870c123970), (0x233672e6c41cde8aeeba48f413b58c99afb81a1f653cf162515aa6b0c498774ed5ca6ca9044b598db5b9553b80ff, 0xda109b5d0b70fdd17d09ce92d7cc0c221c60e5ef2f067a08a6078850b2ae68573307942436ad0794732c6997549), (0x2e70126b9059eb0529c6d5166db718c5697dcb373681456a6c9fd222f3521d9ac478921444280e18db7e8f3d423, 0x23c4b39fbf890024a51322e5006b56feadf219c3198a468d241cbd86f12f2572b38355e3cf13609b6d4c0bfb29d6), (0x13fd8104e416256d3bbc92f6cb8b5bfd885b83905876dd1a798d9e30104932e4eb1d7edf8ea2c3db4d34eeaf9c04, 0x1a0441d61e2cab940ee35f05dd3361e9d237a9e94eac859c5d06d897ade81b4e523dd264e5494130dd32ff8e0dc0), (0x186a87aa68f100fe658d18aff5c92e604f757931703667467d3212bc56db6116e816711ade7b3dfa53d5456cd718, 0x2ad82defcfcc7707e81b073b9704eb22e29fbd3cfe80c42c60fb1951983f61216ef43330b596a8741333c5190128)));
   (5%nat, ((0x1cae9680f46fbf2bff2f809569b39275f3ae58bcc2c19617187e2a489dc2d9d418c263e61256604a615f38a5cbb0, 0xf28faddc7f7da8950161135e98cf49f270fbd946bc9689161695c3b9ebb68c79082341d040f4ca114bb6a2c5110), (0x3974fd5624dcf0d5d099087efde0d5c424c729bf8bea5bbdd5f16bbd84989da2aff163f5a39548363344dbe69c7, 0xb047695a85c9e53099ab8fec9b55f4f2c36818378a67525a6cfdf5c85a43247f0286d44941d3bd03ecb6bc9fc41), (0x1e58913204e1ccb87a88e3aa09acccd80b6efb4a7ae443c4d44f530b2276c6177d8824fea9276451da66f585854, 0x39e3e9a7b500efab447df5088fc827f14c0e015365e85bd035e9f10b18a9350b707040dec52e63879f1b5a0e148d), (0x345d23d38d207ef2a6d156204342fa705c4ff4e3f316564340092ff786c3c3c4da94a9ae4a4b3c97f16c5693ba6f, 0x313134fe521dc84175431da443121030b0d57442c8b112b0a0770b60a0120d0b81266bd0033693f69f031ff7a902), (0x2cbe061121815f7889d20cc1899029fa5abf1f17a8f8e33a7b1f45ea6b5fb2393d5a62803a8e321a4c0380dc14fd, 0xf101dcfc93afc833607a0546c3008ab48f992606c9aa34366b54ed80a18f765116b53cfd4d2278171b123b1145f)));
   (0%nat, ((0x38b92085c1b34d5660da929e50a6b9e4a6ca2187a9c911227858d782db581c2ea32a17d4883369a39931d61ce47, 0x1d6503b9997777572a398bd763b577b1c1949f98d67f315f9dd7ad68f731a2dc41d813b08046323e430293d9ae02), (0xd802acff51825d7873b99d7808c96271addaa5138206b060ef4dc1567ee9e76cb0faa24756492dbf2771e450a31, 0x2f4c6a8c03f05648ac730a2298126f5a99d45923899300019ba4c862e3b2a0b31a8ef06329e9b1d88ab30d85330b), (0x22f497bb63b358e5036acfe8cfeef8262b15b5ae08be7d3a7a0f8c714e2add82397558202abd017d2c68b7041c68, 0x25df7f75e8ce5cbe01208a9316c226acdaf8b7c28010db9eac9ba994e4a07e1ced8ec83db595fd2c7448757900d1), (0x166977dd90b5c67f7ed55ff41e01274dd8a5d0a90247a3689ccad0f3dab1ca9665e79d250ad15eb155649e33e3d1, 0x3fec21a602c61b118525efbd41d500053d6b9540f05353f45789805bb8e4b9a54d5230f5706e40c76c82602ff708), (0x0, 0x3fec21a602c61b118525efbd41d500053d6b9540f05353f45789805bb8e4b9a54d5230f5706e40c76c82602ff708)));
   (15%nat, ((0x3fd849770f7b5bcccf0deadf2194b36eab1bbeb89bfdf73db93a3630ba76deb32ab46a4c595f633b9687a2fe9aee, 0x37f4dbe47ed58ec491c4ddb84da88c392af4dddaf0e253b1c96f6625f1ee0ac73e41c940b21cf72ede42e1606c62), (0x30ec82c05bc91d90ab68031ad3b6fcd384899b740791c8aaecada2825e893dd8de313313bc05f6abaf72e5eddaf2, 0x2b68875216a7526f7cc5dcc3d721561811429ce3f8041517d134e55b7d7e852195372a0d5787728f3e78028cdc82), (0x1d71208f37592f6db28db5e661b983c3974a1cbbed41d029c6ac19f1f8b36832994ccde02bab01daa18b7090a57c, 0x19673a0ffaf7614e9eb4323ec759b9fe66bf8c03fc23f405c48e7c5c4b17d0b65a2e4cf81fcbc9dc7c2d4bb5b5a8), (0xa154bdb942e0b247d801c2da80491f26160d9ceef214932d772ab0e622ffe73eb6424e3832baf05adfba6606e1d, 0x298406e1187fd4f677ca8d5b327db38b14a3cb6c7b20245a205854e3c8cd3d3de4079f6d7295d69a2caa4c0d7efb), (0xb23ba0d8a91c045a82e224069f70b6cb8e4f661c30534b0e7b917f9d4707fc4594fa929f480e0b8c65dacecaee1, 0x1802b41c9294924add9600e157143d79f2da990bfee4c6364edf352d48f0d7886dba17ebcd08887f8cc914424d01)));
   (11%nat, ((0x9020732aa995c46937aae52333c12b556dd735b7d171351a9d144f7bd73a4c7f56f74e87f08a81c15fea278695c, 0xe3fe840015d4913314d920d54374662210b662bdcfc4ea567517b1719e0db458f1eae97b8447133479d3a1e62c5), (0x32c356c896bc9874fbfbeb3a9dc3d11ef10ff81f081f2bd0ad8fcf925b63193d93688e45acf8aaa016ccb084637, 0x17fa787e1e298dfae72676482c979427aecb0e6a297758b4c5998bcbfa173b10204b2cf23e8796659d90d746baea), (0x8fbdad8e1d36c5434948054b40f5067cadec2e03eb8dac7ec61a22bf1957af03365314e54815f7d36d7f331576a, 0x11910fb36c7c90b8851aa21865f63d1ce37e1ff9a7ea94faa74ff793381322b9d52cd00e35923b52610631d34eaa), (0x4d259227a7fd32fbf56a839512d11bec7dbf5108db7cf4d3f134a73183508f374b3eb9777f972660aaeed38dc73, 0x7e3e1e995050a3ce8c162b1fc08512a847b297c76242fa9af1066f6e4217150efb843bc44c3b59dda7feecff519), (0x4a028671f6e081b4b45f9f078b14fbfac282efaac41f35ddb32132a73aee4d371be6e4243ffab655e755db8e34f, 0x147927c0330d64679a69065e59fe5c3b6c71d636efd3db39ba767bab13d5ab6bc42c492508870d2adad4ee45785a)));
   (5%nat, ((0x68c9e328759e8cf33b38dbc089efe4b7b4a6b496cf53036bdbdf96cfd64175c65fd20fa6e904f3c58d8f3250a9a, 0x5960058b3ebc3307a6ff4fe8736151761d93f0cb8df3358b8107fb878dac646e12aef3cd23a961c0096c56d67ba), (0x7ccf9f7be8b293488660bbce4cf4341a4037448ee2b3ef9962cac860384d489699cf0022b923625b5b1407a678, 0x39842bcb2c93e5563c409557bfa3cffeebd7c62ce2c031946beb76ca0a54409f8d6c4586260a3acc8fc40951a2ec), (0x33b07ef6ab76db79447b018ca67ec5caebf37815638604dd7d1b4919c085f3dce7ee05fb60c4aa78baed4841df69, 0x1e7e07f4fcca7aca7e797d9e7f922dccf5cea8ee052e173e23b12cffbbef21927db5258dd4027f07cf3c01665f9f), (0xe871fa5029e71790d257f64d7597e00df04a4419de804ea54194437f195496664be907903753135ce03d08e8f5c, 0x260fd3b2ff2e472218f9db88feed9b0a0486d3469c78913f7bdb168b89f8048f997b824950e090b30679cfdd5785), (0x229e6622f0571a230dd83af533e368b114e5ab6789568492c31872ef9278c65a95d046fbabb79e6ad7d5c8f922df, 0x392aba429a134e05e748ee2217479d7d95a55136c9f003e79c2b9e6cb402fb987a64cd6cc9da0411c16dd8715533)));
   (8%nat, ((0x3310384d37f001305bf9a1b950761dc54e733b1f2d40aaf534e2ddda4c5446f2161adf65c0f1c39359fe56f2d827, 0x2a7cc6125c61b56498b9ef59844876a4343f43193d31779db45e498cbc7e56ed45440621bf926fbd42cb6c856a0a), (0x1c34b73a0567d993fcf1d2e66c335b174eb526a95f55c63f4650dc87847054cd90131d6b5abe11a5561ac21781a4, 0x1bfd427abff3ee604811ff9bdff294bd1f9a26e2d5f884e2dc8fb454a8b5c717664c41a788b374097b4a41867ca0), (0xc3d9a497181890b1363fa38a252a2c7762439161c32c7d874c04dda4edf5b95900f0d2a77e308f3580f9459d281, 0x1206e1cd424278577fe038353e8919f59a1507e43e83e540513f6b99b1a15d22400c0190ed0ebc0f1fa6472b037), (0x513dfc0e86b9c57e4e9a291cb4616a6dc3b155a08e1490ba52e87bc37ca2e581f2115300854dd52fb94bf89c5, 0x203173fcec92b2ba7c3878b16b86d81c80bbbe0077779d091b8c09c074365d6abb8174539779abc01221ce2ac1a4), (0x1ee5f17ae1d76a3f3575faf585288cdd5fe3a1d88834da3c7eb5c1584e23ed307dcb6b5b60b8ecaaca8a06c77830, 0x2df8676194e83e8912762737974716e9f93e578c09614086de475712df694f510fd9e99de0e94e636d4d271cbb80)));
   (15%nat, ((0x2105158314a74be9ac0169c1f43535ef66e25669392a1bfd04f4e7bf97cd7f24912b8d930271f88baafd3aa08658, 0x209a6bdd0d27fd8b1134db5d6bd61a07f44ed5328c876fc8d277126db99b854914c1e9d30f29cb06712be6a878e8), (0x109be074dac16d7bd5240bb21ce38debd68312808edbbf546528247db9a95012f13b1a78a95b0acea111101278bf, 0x12cc4d956a9cf7aae1c6b66ddfa640b5d1a3a47c8777fbf58f0ad2f2ecf33f60c7a3d231d5041a3f90dd7750c9), (0x58577d3028cd959d0ccf1bb61d4c601df95294d0bb65362cf18503efc7dd134dcb8214f28f111122ed8fdf7, 0x95e8ef3f77cae1e4a3d0ecef2a2f1d3c74420488903ee90c9084f726f33bd172eaec9c4f7f95c9d28d61d4a6762), (0x15f23e9c9904b705a5331d6c1a113c837432d7ec1a35dd9de9e7b05d8f5dc1ca3b1331b36063ae5d794ea335625, 0x12a26fa61a9621ecdbfe59cc5715ce4550907e81d3207804652409d6233f2a0e319e7ccf4fa827f6bb009738eff7), (0x500028db32cb98b9043d6a8361b469ef1b780e965ac07d059508118843ee5185eea36cace2f12ec71fab867f1eb, 0xb80ee2890a28223c66fbf8da50ee64a7277a33437e6d3fda795878cfd3c8de8992d2a2768f67cb254ae1bbdc9af)));
   (15%nat, ((0x211559a0a3834339539cfb2ee63254c74105ca0b142eb068bd0db7531e41186a05335e8160bff80d520da82ee8e, 0x18b40270e650d6aaddfb6cbdc10916c88ed25eec9267754dfbf6a5df8f97c16eadec8ebb6153c570c1a25a0b4923), (0x988fc2267e3fd460ccca8c2399f9f3e2b2845994d9f0282146a13082bb4ed3fdc1ddbe034fbd2f8614d131c8c15, 0x2b8461b5c25dd77624af00a8dcfa390d0751d25d7583436f109adeecc66ef987578a403f2ddc0f025d45d6c57cc), (0x1d96f51fe01cd5fdaed4c20cdc798ef6090d3fcd2c393d1e3c6f56970f33c2a72655b2537a6b6618d36544c0fb, 0x27804bd81407126e5a7e09bffd5ac3a724a03a320f3f8aa373fa7a7c60cdae31474f71e4fee675480f1eafbc23fd), (0x18615d9f129a033800e70d503c593615c7774a24244469f84a39862295330f637f5f620cef69ef7dba1773397c8b, 0x77620139475812bba5e5352287689a5101d4dd1d93bf27b2abe15a37820790ad30b9a98b6378b125273c353566), (0x200870690d1a50374de49a590eaed08f294387364ea411b447fd6f4cd81f320e03ed4ae608d111ae2f58ff4b6a, 0xa907a8ba889e7baefb709d044bd310da89c4c204cc156f1de3be7fc7567b47900e5fe6babbfa809957c1125283a)));
   (4%nat, ((0x1be6c7403c7284cca745a65210be90a781de05791e120dbbdbcdc045ca809c1ace10f2f09356270f64638ba1939, 0xbc30cc8b809dcace66ca23588e9a205e0f7e676d0f8d3ad428d007d7a48fe989b7086196a6d81ccb3b74e12f6e3), (0x2295ed6e8f29a782e6e432ef78c77dabd224f9b98706a18db8ff2dbe36e2cb30ecb9a14b8c530074a160a8f2f26, 0x2215895e9f63d64285991af4d135a9393a940db4ef6153c0e2bec2492efd630668dcac4ac2d2120e58b9a7e4ed73), (0x1226e933d64c5374792134d5ef04d00881c24fcbdc8de3544557c9ff770bf05fdf9c0446279f88a094952579da5f, 0x313e8a0fa37ede6e05360b63c71408c61f846bd8b8665bafc8356c806cf66c34c22d651ee1caf32ada2f0c6f2992), (0x25e400849a7a7f4cd182ccb19d67d5a607804194855068c8bdd71e3df7a2751f4f16d5c033ff5fa81c9161f82aa6, 0x252efd140b1409feffab24eae3f14f150ed57a97c3047efaabd5014a6dafd718aeaf44a5a6790e225414c996bfee), (0xafc4918321eb07258b1dee166ad3a587a8d84767e8cf28ed07a257a1f3c62e1c46684d07a5ff49ef8c2876d9422, 0x2eff291c166331a8d3336d691e3eab9a3fce9c7111b68325e825fa982c717b4cb0835b396ec2bcd618ba5bd3d53c)));
   (14%nat, ((0x2282c464126906d91f2d7d4b845a87e0fc1888d5a691fd8d201f22717728c6348e5a4848e5c681e15fbe5556bbd9, 0x23f11f54498782274fa1031f8f5849afd270b3108290200719e11da8f34db65ce974e9f555df387b1eb42561302f), (0x142f46b4328c1123d56dcc32d855f141c99d242b2e0a225aaaad73ea4217c3ed9b793d0753dc4bc7a2fd8d5f019c, 0x10ed48823d01db55d7b1e3edd905664f973a1983e32a9ada9522285f2eda848106939111c18f7a7ed0c7b5dbc725), (0x47a13fe753ad5b79ed22bacf720e90d11b334ba468f755ca615e30ee68f2f8133cdc30d4ed82a2a3e9381590147, 0x2a9f6d54458598b11f81127bbddfc35f119d900ea24a7b5bbd7436a2409b33d218bf7f4e3a52ce8f253d3ca0b31a), (0x1c62cca290bc43fd03bf3df69237a3fb314eb95e74f20f51863a6618e77c942fc9e5cad10480e162b34f2897961c, 0x39f98c84d1d32dd135572dbfdf41df37bdecf3e9bdb74e609dfecbc96330e903b1e0b55211d86e9495f3023ca4a8), (0x20701d73f0e7435cf435fc97ef99cb83e5d433fc77e5c247ae7940b6b9b6b5a545a21b4a3bffec96d9d64bb2b11f, 0xe57d85577aec4cc01696c6b0167b7cf55ba1c4b5d8de90d16467be87aac2da0dfc31dfdb483e71d278ca2564381)));
   (1%nat, ((0x336e73867fb333ec3ad8690070f437870a623146335f52ecac938790e4e8d07b746f9d88b1a6ef913f53ca9cdb7, 0x1e398488c83766cee31c827e6eaeff4a32860b288633159b49da2b77d4c955e9fcfee82b0bdd9aa3c15e2116f2d2), (0xe461ff161cdf14afb540fbc309bf23f1ad4066a7726e73c7a3788c037fdd0ed6847f0b31ea7e2bcaf5091b5a630, 0xd28fce1718d24bbc74bfd1f581a3a7a704e19aa079fa0da966871a1a3eb01225006add31151aa8b6f5ec56e094), (0x2b4c0fb9721bfb4e6d8a895e2db468f6a43aa085079660f409caa652590b0f9f14179539104fc145331e748f9, 0x49d7a5d589fd4582701dc8d95bc694af449cbcbf08ad785b84fda72e6a711967aefa4afed94fc47e0492e8c18f), (0x5532c8ef0334bc3a29e8b481726384609c74a864fb1e6af8bf85a27683213365c7e3946c9ad1b545da550501, 0x17d4ef9a9a584250cb5ca94e3c100e8a9468cf2fed5ec787375afb0ce727cc6ded63ed37a888fa305fc041ce5398), (0x165d9dff278410fdba93aab03c64486b01f7cded9a413274b9063da52874e39ee3c25e4d339f74c63860e2f60812, 0x2b699104994c7c53f55f0503558b1ce01ac2ef499349a0e17dabc5decd3dc6c7ecaa461d73a994b0fed0d2a68e3e)));
   (11%nat, ((0x1d7288ff4daea0fff152d6b3ce9631e517131a7c1a1ff9bbab93e0f879d5ed35c03079c68289c886db26183661b6, 0x35d2c6d083c04ab63707605b7e5441b412704208cb191b0f56c7ec331efa19a17c6b64961e01e25b4990078ffc1e), (0x2d43cf747c33f0375653e07dc398cae2d0af6419fda1c6c9884449a4fc995766ea8b8773bbc3a9294f4aa9e8fa3f, 0x32fc685de1e98bc64e24706d01becc35632fe420b63899c60177e4903c42b0ce457496d05b12b43f64a85e3da48d), (0x289e46893e81a181463477f2770dd9c7f0cb350a550866fd2ac0c19e303956866608b807542f5785db30f1d02a61, 0x299ec7156f28ecbf8bc211f343cbd848807a57d55c3ff068ca51567d0e617842fd0ca6fc0233696fded1a86cd300), (0x1b10f8fcdb8a9bda91074f6eaef745b1d88e42a3908dcefdf4eb936eadfbfd35d6a16aa2b11de4332c9125fc2da2, 0x21eb9d2e06bcec9f12eed9dfdeb6ce453832c74ae22fa9a68b65e186c56c07a7ae9443fd1446804c02b363e482ce), (0x13e2c6af75522a7d6d02796dc85ac23c512d85be086a7b52ba3b57e7c3f4721bead78bbb475e8db9f5949c32c144, 0x1af1afc07548fe02633285cfb1ecd0014234c2382f53ac4a22639634189a372248c74b88c52712391cb552d46ada)));
   (7%nat, ((0xb57ef7de3616042ac9472002fe1fa16768ff93a49c65b6f05dc913f271eedeed1480882dcce7f7660ed3b7be41a, 0x2a20c4b9ff2a5b7eebd1f3b965d6c68bf3116ab8b64a27b69fbf597289b7deb5f28a0b1e7dc5fd6465628c7ea43a), (0x1bbb12fb359c19e0ab0f61245a3ccf04c04f89a19c29e5374111ec96e6aa267f284dff516a0bd16ef8399827aec4, 0x2f71e01a13a58e302f8fef40be8ea7ab343917ca1979beccb09a3645d05004ebbfe43eebd954b7e833b044bd1340), (0x232c0bc4b9a71d9bbfe0287124d2b4133ac50a27bb6615e156159b8080fb90be44097388e405631630bfe182c0ad, 0x244fa4ecb8523456a9b1fa1132d4880617d0eed5250460750acc18224acf927c7214804d5450c3440e62c70c35ab), (0x1499fca720c4220972326410ee70781d79566ea73a2de43430fe8fc310247d9db5cbd42bb2c965697cabd28da39d, 0x35d479c4e8a36a0f856e0f873d6f4a9b93511688271e4b64621a32d5850ab3d7c87faea1ceb39cd24aea7912ff74), (0x179c1220dad973506ec3f844316aa90c6f1695f41555abbf06f7d95a5030e73bac6000b17c4eff8949958f19f197, 0x2fabba64c40b56b305af76ad1c4489b1d253d537f39c2cd138d42074574a79a5993477bc3969275ab15a77d3aa7d)));
   (14%nat, ((0x2382068e2942961720e50d78da8489042746d635d81a126967daa0c38958d3fa1db0c57d8e812d16f3d880a3808c, 0xb6858185fa9c1ecee7f629184302d883b846334be64042299302e40985cc136cdd034ba8d3827e14fdc409bfd1d), (0x2088867295c52bad79da37167ea6dd5b039e0e9af8b487da5bcd96ce429c50b4771266edf9058a211d94714b767, 0x6029159d450f3708a9f731e805b817514ad7080f1ac06459c0aed30b91872e966c94d93e04fd919c83a6addedea), (0x907b5b3787fad8619a47dec4c9dc4cb76f38da62b98422fc0ba6e52b4923bd3532fe23f5bfdc5b90f764fed7a4, 0x5a180c12e46d3a6d693ab716f362840dcf122ce1791780431370aec069635570a0e3fe64c4b50709eeab23fc820), (0x7ed3aafe32e5a17c2ca8eeb1db3307c06ed6f3ac160c0d60e629696519ce955af2101a0ff50c7e08110929d1d5, 0x2b18105153ecc96e8e0a57203b54d8025922a885e8672dedd16c0026f1f0f1e6a47b5c6a3c4ff83060b456bbd43), (0x181ca3a2a6741a2dd100d838a08c2b7d543a99c09c29617cacbc9bea05b936bbbb1c92fc28a285e375af073f3dd, 0x1722a2d7401e08c758eff49e41130fef9b016cbe1dcc7acb3cd99bdd5509c42aecd6547d156afe19852baa397718)));
   (13%nat, ((0x85cf7c9591e3ec3b2334408e77715c6423918c2488d8af6d9c6788a5b739deb4ce873c721971ea50f62683cba9d, 0x288f1f38310e3a138a00cdc7c65bb0cce7b45e3c6c9ca915f57416e78150486bd3bcc56875e15466d5c48e9827b), (0x19b42715cfa7a107ba9410cb1e03b80ea733b7480d2037c363f6e16eda07b8a6dc1e0de8f3bb8ea27038bb411a, 0xdda8fd18c07a23cbb015384d8774e55ac380ad8ace69c9ed5d8c65d5edcbfc25041e592f16e5264d1860bd204af), (0x2ffb4d2279c25c3caeee9fd0988a99a5ab4ad32536bbd5d45dcf6af65ebd2790e3013910c9394668e6893c6b4b5, 0x60e0e8a6c817375526b66ce0a63a0276fc31b8dbdcb12f46e7e626eeb26c58cda14f78faff65a98d0e46a2d9704), (0x92a5d054357925cb835bc83fa5e9e767dbc5f913bfa40051ed2af347440510bd342a10cc040c9fdd897dc80391, 0x1c1c24333704dff66a5c5f7830c1e9dd4b6e7755e7585db8a628a76d4875828ca0a4803be8522f1d57504d0936b7), (0x7381f160f5e0a0f81233d7b394b7d12edf314883ff11d133f2334148acf9615f8891b36f66cef28b62b5db41d08, 0x376c7a4e861786b9d450ea99ab5e54728ac7b5d1f314c98e726c338d7814c51e9a1ac95e978edcb55b87a5bd8a24)));
   (3%nat, ((0x2fff2a14a938be87bc070f8a0311e89c5f9496c8283e244510740e7b9b9df0850e3dc77671b266e3ed17b7bf1c2e, 0x9f1b14d603c619f284522589221f5b9fda59d959c2038bea5eb523a3b886b995fe5b7020526edf3b7f0e665b5f2), (0x18b8a9afcfe1c0e17f355dff89d90d246669fa7e028e8b3545044ce76411c1ee51e2f00e126b885405e6fd99121, 0x1b00da5d5378557396914a0d30d93994e744e1bd6585b632ab77e13f60828e77956f320553b0e4319dbd63bbe95b), (0xb64b841a779d8d44fc3600b3205ad4fc3f1f8c999f99ed1fea64682ac47e8152797af94f349c58152396a0ab3e5, 0x2174535ef1a4e5c5b5a59d9edffc538a7d0c7587bbfaab8a83305a52a9b75b3d72d7b4460a67881d91a78355390c), (0x117cc9688df8d251e8c092282c72bb07e118c0f250647710ff8890d8929a51f7035d43945127f3079eabc61c22db, 0x238d10c4234b577511663d8a839db0f4c1b27e7460e87fee6e7b0468aa167ee0f6a2541e399c0fb3ceda3feee91d), (0x734eda1da817e565f34db786ded5c7fcff1c5aa4337b66b214a43b3223aa09c4adac0b0e3412c1c67a6950e68d8, 0x3c75ee98f0a3a40da307b51f45e277262b1416e154964a4e508a7743c043098ed987ab00745266cccc9b6eb34d5c)));
   (12%nat, ((0x391df8ae9be5952509c825e825cb33d7fc50979b4f9b8cf31cf7525fee09373c765ab2cb6c64315f9fd8580c1084, 0x2288d4fcc986b4d3ebecb2299ea87f15fa078f90a5ac00dcf4559613bf2e40747e9b2712b4dfebfa26ad0bc48f6c), (0x12a286d88d463a339cb5667dc601910f1b5654ac99e6eabac6daba3ab07b7265392ff775f313d8d30119fb06734b, 0x176ff966ab6a5093fb959c9cb8bb845a0637e73a2f84679744c44c13199317bd17e738cfeb31ef23c60d8435c62d), (0x8953f2ab33a8d394f215c1013fa6a319e6837cb9b1aae5d3a13efce77524b0556cac40fe5c470552aa7c2326594, 0x290dbfb7e7f5a323e33f606dd7a3bcdd6527573c575430f96baea7dc44dae9ad2f53008542adf8190fd90335a8b5), (0x1a55a097c238b5c834ed8f5b7df8b6c0a03ccbf5bbaf74ea90b2904fc0e9771c420c950681ac34d62d17fb551026, 0x2e609515f2df5fee9dcee31b6451d5de00fe42ac63d63507ef3236c12e5413b54bdbf450855066c52e2f8a05c723), (0xd2a71c0b7f8ed073c7d4a7907e7263bb84f6fe93bfeae6509dba788beecb89c744e32d3cfb30dcacf0d1c1a2f3f, 0x122599bc769292b58a8b1efaed28b2ce1d42121ba8e4c5f936b126d238b8e2231a433aebb7d0ced25220673f91c2)));
   (1%nat, ((0x5253c9135e6cde6061627ec307643c8c4544bc7ffb83f6e1a1b8ad543311d37769963ab01b9e0282b92b97ecda7, 0x1e0978207b46039beab76a2e96352827f515dbb92dedde433bc54257b5ccf85125149c4acf2a21a6e3c7dd0d5765), (0xe18e2051e2e2dd5f0e3adb342fb81ab1b3247a104a29e8de5d14a313579b436c6b4da3edd36b5bdb71d9f3a3ddf, 0x15c1afa7079c13d02bc4462a0281a61e56e0033be0631d10e6d5e21180a3f5bbb214e85543f2fb8aa8b5c996f642), (0x765656ee67b77e1600a3c86ad92a73049c781c57cfe9451181ee2c6e7a5d84a9429e3703b0b449142ae6e403376, 0x3dfb676130d6869ce38782d077be55367ee1592148ad93bf21825870ff5d479e352ef35451fcc933fce96c6e7e5e), (0x3c0718a0ce6d6c15a128a13600e0f0873795dc549d554c066b29acc8beae0192ab939311477f5cffad882615a164, 0x131e398f416093bfc704555fb11dbf084678fecbba4284a2595b496384c27d3522be79bcff474d7c76b936131100), (0x11f1240b24514388b3204f9660fa42ae67b01ea9d4e21fdfca82862a1c5dd03edd69299f9eb7b5796ce464eb21b9, 0x34258b66d7d847816b59d31b0f76db42272922f8bb96646b6933cf08cc52ad2bf804cf582d0a64873cfb1d3ec13f)));
   (11%nat, ((0x2a7d188d7d4c651b4c08290cee75c3ba20813822fe077baa5150f66ddb0f518c5c043dbe21de4d264b4ef28c65b9, 0x23106e1b881d154f6af6008698ed0d06a02b703a34b80da2648cd130539612081858c35319cfc28e9dd21f7686c0), (0x1335fca5e8128d9577f92e0c3995cdf05d9f9ecb32faab6f9c92afc0957ae5f43e55e8cb753ebbc9f74fe47b2802, 0x232b90acf1e853a0894633cdaf7d4abd33c98118293f528df0f0cb2321f9ba42516ec136db2fbefe2bd7f190cd6e), (0x1353c3e4d8073f95414e28cc19cacb38b158639c4ed372f076285cfb38a76e3696e6e1d13e4aeedbcf07b0619886, 0x177d1d08402bc1fef28864a6852ea28f147a2ed38fa7fad79c242184a72b3258fd8058143a80208aa530f7d34f0e), (0x89ee17363859994fd4c9a91f7322448ff7e31e583a73d820be3d17848aefa3a00e43a8552394267454102da1f4d, 0x3e7c0d78111c4fca7aad61df0c51d967421ca50bfd7a339afea70c9a2c8cbbcc9f16c31bdc1ee6359f2c1e2b2ecf), (0x24a1b312e821b25f92553690a4ca9067b6e55345f620ecbdad1f0124d453fdbba83fbac7b085ffe0dcc0f28a835e, 0x2a9149a896dda4c6b5903f6f4276053cb643e5c4cb0f48f4838d9bafad283c3248c1a3658aa596e84f1765497279)));
   (12%nat, ((0x1c4ffa7f5eb4d8da81dc5e46d509c669e6851857111269d684919e97d3bd8be19fd20f6237813c153c7668225072, 0x65bbdf5ad08646c4a07031609c6556e3774a96a65501d1da29a4a80a272e83c6670dcc8c8a21f49d8c1bf3f02af), (0xa1b72076e857be0f05a6d841464f7ddc2ecf2cfaa4d20bd521609d4477589187a25464d4aa3a582e5f0c9f4158, 0x2ede820137603d4e2b90be734d5c0c29cb3f986a816fcadc0383cf02b401e84fbb9f801218a2224de3cebfb1989), (0x2252e078b01f74c690e7c372e1743a0892c9b421b9f1b3aecc7b7d4da4d972d383987553da90f478fa059ea3fe, 0x32d19646433dc11f90713809e2be6d1d13d70a075fb46eb3373361e4c61efa2abb0abfd6c1fa8ae68606db57a1e3), (0x285a2928a4d1516b7ed83d14a28e3696482fadcc06f78c4ebb54b06a9095d360e9cc66fb80559f19bd2f5668c819, 0x3814a8325d63e3f66ccfab1cb6d9af6d52dae67db7580b3f6af0dd46610093bd586ccaa0ba952c6b90b83678db28), (0xfeba2964bc97096711effe8aad1ac83d9ea56671fb6ee9f0559d1bbdb5123991ac3eac1b59fb69478b414a3f5a8, 0x6e6e4e7fb4f66464f4679fc4d5c95e08e2278244f6f62d6853f5c5c43d9fc4badb6a23d760f1699ac63b4025610)));
   (8%nat, ((0xbe8bebf535555000e96e871ca88ed00fbc7d6c499e669ff4a47bbfaa2f5a5d3a9f48080581cc23d68e1541dfa5, 0x24811605ee4c082a9a5cf913486be677f2b1b327e1afe1e229591a43d8848172be8a665aa40a8118d7f6542ef9f3), (0x14d23d237b924011d22b46da13465f4fc8eaf3055c1325a23c5f1d7a3a7993dbb3818e83bfe4bc98fe0183a4ff80, 0x38dab9c72aec5f45bbfebc1a66ea946e950b8c84b6c6306bb5adefe00c908540ec66dde424ee34410c3301e84129), (0x3281b0a04337ecf8a593c71c266e28a690cd625ed5a2abd27fae03dcc7e82f1676b42aad7676ca5404efa4467d9b, 0x3bad1b86b24a73aab7db52afc3823ec95540b28b80d197d12134f9cc4eff565bdb708ea3e9cb323a4687c7dec85e), (0x37a4fef934c3e9af6ff93a2ff5681c1f2079b13d52697a3371fb399d33d8b18297eb71890e0f06622990eb5708f7, 0x388abdb9e21417a3dfd1db1b92216210ae137c047b807c759f4f5c56d7eaa7027bc309c744ce4266b06291e90915), (0x36447fd32fab97b2b2c2118c3b2d51f8ef5b90a2b3ffee83f409fd64a1c49a77d5763df6f2f044c49b7184268611, 0xe898c5e59e095d048c26b11656f6d76e1d1d06a8c3b232417546a6ba2d8298e268ffea0b913071fdbf614830d03)));
   (10%nat, ((0x34d55076f205f5b94eb961fa96c272a7ed8e3f42cadcd4f12163aad5478996024831a8ebf1da673647dbdb89955, 0x30b579915dff51c562346ae87306f1dd47fec435ed82cfd53c42f06998f4f20737417da06e90dbc47f012aca3cc), (0x251238ee92259c6a7becfaca3be1540cc4421506bdc153f0a2442d125d3b22635c8bfe5971b9f1cc81f914d9c5, 0x743736d5e2ad7d5ad69b7b511d6b14e033f6c10ed8e540564a31e273d317d3d5127a5370973351cf1c1936cb063), (0xd3085669c44e39e9774344a90d5e18066ea157c9f10ed74823926ca4b4642dd4ee5d8f0b4044a4eee10d8743c0, 0x93c20dde6322411e018aad6cceb016e8ba94a9494c3b3e1f5c61d33afb86ba3bae459b0c5197c1d217a57553489), (0x15521bc19ae9fb7d2dea461fc888cf8ad705106febc6caa1ad8806934095a6005b64d3084c96782ad0477670aac, 0x21c478720629edb37d89b7a9816230c154b15aecc1e15d50cab23dba12cd48daf5c985dffaf6fea5fa23bc5baa45), (0x152cae746dcd5dbd53bea04f2100b3c6780a038f93331a6d2b272946df44cdf29dd85827320b496a91dd3976e27a, 0x1d9f9c7c10ae920423641bf239fd1e8687b06db33f9e205802382f0830c09455cb5f650ee6a8624bcfe36f627f9f)));
   (8%nat, ((0xdb633df762ed98cf545b47ce19c0aba92c0d8711197fbc345ab6cd2fd7d903e0d20d57c4457ddb60e36ce69d825, 0x96a83bbce2bad53d784146c40bea2452899fb68e3b283be5ab9d5fbed4a96cfcabb44f860ad05fec057edc70134), (0x162a6523f3e348bef4c7114b1b426afefce1483529fe1e2bac9055ae2fe43b1ca44b9a8c99f852dd1eb5c39ba2a, 0x2d7bf4e43341b7c0fad2d2dfb1e70c9b05feb4efc8f4229225f8441cfc1bc01621f00a107a1b72bd41ed553bfa96), (0x20534075de48a38424e64abea35c3cc30a70f69d1e3129b2e4e04301524cbf0e26bb3a598dd802aaabce1ced40a8, 0x1a3fda55221aea13418a031e5b25b10e8bb8560dc2891ebd21f04100922fbecb6ec7da1e94a90f63920c58b057fc), (0xac42119ec256cc27f76bfe7170de02275d9ae8bae9e2154d4497edbe5376d3ff9b494086eb1afc2d3e0eda4d96a, 0x26548c36e9d014a74e462ebdb6f52049732496e6895ae0f20dcdaffe4c0a5aab93f17ce0ca02497c444f4f559ed6), (0x24c9d754f7977e94dc1af67a7f17adfe64b5162a7e26ade7301f573774efeb78aa05141188b3e8a70ac36f37b48d, 0xf827dd50c74db34da355acc1050703a8258959e069deb1149b09644bb8f00d1adebbf4ae6e7199b2a04edb9dd13)));
   (11%nat, ((0x3c2350c06c05f5ab185af0ec2b25de27687b09664da141536a686d4df6e4c5ac79af9b180acd93c2c61c6a02e7e, 0x1441f335b0dd82f54b267b4c01ee73c25421ce89b4e55489d7cec710ad36d72609bc25c1dbc933ef37e4883c677b), (0x6697bf72fd597e843559b1d3af92e98249b4fdeea36f392a1df3d461a0d96be2ced2b2f32aaf83cb7aef2f80a30, 0x2abc77055ad095fc6ba502aa87ecddfe9775a037e7371c559f71ebb45be7c06586bad64a71fe7f90c69b8de6dd69), (0x1c89873323ff3876d7786a5426f307ee24bbce8c07d1ed1b57b772f9e5587df10b09516212cc4ff6bda2d3a56ad9, 0x86999d3e6caf1d348c85e3cae5b0dc19569688660062a2ea1e18d08d4497afa3baaf7804e25b8124324bed3d830), (0x11b14b32abbeb71ae22d3d3010bebc6d09b9d0969eacc0475d66d668a3cb15a71d99b9f4f115fcdcae8cd561f65, 0x150dbac527b00aad23f61f6b2f2930a8027057d75dc78f3f6b60fc89e1fc8acc614226862936b4d0fbc40e765433), (0xc57bbcae0e500b51824ebeaad721b8f29ec515fb018f704c4cd0d1d08b61061818b98bc550f6329d2fdcbc8dd30, 0x394c35ba94c1cbfbd9ac0a44d04e98d8a9dff827a0c1e9b5482ccea9f882ffd5eab5cd463082fc44f0a0d02f781b)));
   (0%nat, ((0x334c1a742135a5f00beccd8abf5274f3bc8710ec93ef6e9a3c1b10bb0f2cd48268b2d3b0cff96a5b36ec88e26e62, 0xf4e0fedbdd53ff309d8f1d86d3645aec7eb82097e7373bbed2c75cec9e8bdd7e5e5a7ac4add068c755bfef49ee7), (0x3a8f6ae487191e5e973870aeea139d0050db1e9aa9216017fe8b122272ec83da4606548ce666280cd17abc527a2, 0x20b994df07bee6013635d390d466c5e0d59cabbf384a48a862fca3842209f51b4af888b0188e4fe5f45484b42d3f), (0x10bbaf010b6e3aafd03fa9a3d0f14334eb70a33848bb356d2026939708b8c042621f1a12a3a699a2172eb428f9e4, 0xe4933dc28c839fc9440146160e02ccc10e37c1273ac6512481a957ba71d0388a492c0ee094ad5f84f8d2feedf7d), (0x3305a6aca1a787a60042ac0ca06d9bad38f86063563e2e540101911ac560a908d87c01a2a26efd2c3e8a15fada5, 0x113bb0f214a97f7b5c31a8becc4ce7ed3f52213435a376b20bb680c2ca06d69da2bdb53efd0db051ca79a8d17dfc), (0x0, 0x113bb0f214a97f7b5c31a8becc4ce7ed3f52213435a376b20bb680c2ca06d69da2bdb53efd0db051ca79a8d17dfc)));
   (9%nat, ((0x4a3edacc287298d1a129dc22f0382f810fefa7fd988a1e8b0eaf004ca5a53668bd1ba958c2f89ef63afa3c09b13, 0x30dc655420ee936c043e9508fa461c8049370db2e4152a9bc57d3ffb3648c09373b8b9a8deb4b3e7060cf5c880a5), (0x254d8ef774363bdf117d03848b006a8ddef578a6b660f901f61e915f7d9f173cabf2ec117780766b9eedba50cf53, 0x1dca284ad8e89a1f0233b31b288d604512882d5b9e4953c605788b2747b1dcc2ae75127bcda1cdb571fbebb7b4ae), (0xdddb3124669eea4376d48d11272769592d140d76291b3a3980ec3691cd226a58cd84089a276ba9438d4259810e8, 0x26f79c9284e68bfc17eb7a425668abc21eb381a8e70219ab2729832804da917722d3141c1a211cd4faaef47b8c1c), (0x17b9c7ec07cf31173886257ec5cea5806d5487b9603078ac7262bb57e58ce6f4c18c70c4b1d60324e98b68b32873, 0x1cafaace4d00f3a8ce2cf17d79925894aa586752d520d72a3913901bdb4bd5511fd87d0a5299867c7df5acc2e345), (0x125f873997991291e211484b7f16c6c66342a0d723b76f775799c317e3f7c977a3e64678794be7cdb3f9305e8d80, 0x1b7d8d57d89ef0610bf4db31baf62a220384d1199cdb62c385a4ecef1ae4d03b25d112cfcbbb3a05981dc490b9b1)));
   (8%nat, ((0xbcee58f7613d2bcfda8d3370e415180deb034272ae693553f17f9e9813d6e592a738dc7b23b141cddf0b1d900a2, 0x73fee627e1b365f421f18b40ded8b83250b5dce3a8295c558c08db1a500c5ba1601b48d39c1f97d1beeafbda42f), (0xd23c02556b5af572372bcaef69ba0f987a85e76924ce40ec73a1695c7805cc6b1a80733b2cd831e3a23b034754, 0x5791b70938f858f56bb5581f7bc525a1785050692a9b6ac1ef6bb0bcd76c58536120e7c78a41c4c704c315d25ad), (0x77d175648026164eca2ff9a7a844553dda0763a796eab1a45e80d2fc47729e9e572c6f13085232ffd753fa6ac8, 0x21767caa07e723af324cd1d1c4077467b6e5559e58d8cae8a1750c6991929a28ee35f64b8251f431e374e0f7dbe1), (0x117f0bebfdf82379e916fbdeec6b749243fd368f42ca0ae71b4e3c761450c301afe7b401e1a3b38a57b2181be604, 0x5a0a17b3710cc2ec60e8ad1a904fe87523b30326801b8535a6dff09f297f0bcbd8c8a0a7677eb17cd19ad39709d), (0x566ae8f7a1579e587570ad64ee3a7207f8cd29a21883b1cc125b0a747c6034aa80ab5bf4deaef3cadfd300c9da0, 0x7f13e997c1eeb2c94ed2effdad0020cc33d305364b6cca1f6e46d04697791b5a3e88f2095dc2b4ae3d97d8e5f9c)));
   (0%nat, ((0xfc530d44505cdf3488288222ec177ae2ed70b9974e36b3f21ab8ca8036e12413d93ee7d5139af779962682277d, 0xf683eef06bca04d6ddaf0a0c3e3c5e94bb28b5807ce7ec7705ee1ff4b084c8fe12ee14a8b46a11b7cced407eb6b), (0x3b5874cd1e0e9f10f3c797bf0be0ba08a14f4dc8adc04e1e66ab0779c3fe30eb3f063615a51155f6790f87440dd, 0x27052c156b236ba0fb52b161eca787282168cc2ba6110d22e6c6bf256948ef9d3d5ed39efac4a3ebd53dedfb46b4), (0x17ca4e251c496330ba0a8bce6753756a1ab337c522b85d5e361264868366963420623a680a09334ec396de7891cc, 0x1cef3a1ddc0743292cbb3b13778adcc5b18758feeadf2cf2aca9c89c03975419673eb470f22b235062bce7f87f64), (0xd14d110644fddbd276b570431c277de1acf9a117df7ba963121549ce647375a86dedbdac3ea86cc20a74652f4e6, 0xcd1c2aad9c138722e490441bfee64331505dad6b2298afe5271d8e05b6224cbbe514dd369315c38b3c8072e1b7a), (0x0, 0xcd1c2aad9c138722e490441bfee64331505dad6b2298afe5271d8e05b6224cbbe514dd369315c38b3c8072e1b7a)));
   (6%nat, ((0x291587dcda43b5e98ae53cbef6b1566ce8f2ff0e04d3d98151077320ca87dbd02cdf87c4d309b11bd41cac9f56a, 0x39b8c8025e56366b0753d8d018a8e81b34ccdba93bae60e12df6dd7942cedd335b98182696e6d06179c0fbe258ea), (0x340f39c4b6b6ce58d10584caac3c1d5c3e7a635e19671a2ad6e31e81dc8c79763bc874ffcbd0b5f62149fd542597, 0x179cf239723d157184961c360ed0b6345d0979fc449709c498ed7c4891b66eb78b8f8c6b21ae4cc0e35d20272d5), (0x8b64ef9b6eb74b05b94c3a512d417c4caec5ec3d14abe77c75d2ecb63e2bd56492f8d5d720e2872cb71654bea, 0x164f59340d77a4867c54a339d1ae23ccea7b014aacb942fd68a17084518290852ecc3caddd7f41cf7ffeafed9d7f), (0x7c6efb47e1870454854000043fa8080265244fab1218af735c0af7b222fb9df2a5c1ba333be8bed0e76dabb3875, 0x253aec3962eab5561364c30e4738fb25bc20db0d37411e0e6116313564853931470a004e9eceb392a93c54e45aa4), (0x1ba15a84440bd8def5e0983544e34e90242a7871953c8a47acb9f119aaa9c249697c8ee59ed93f251dfa7d8b8f78, 0x3fa340167d5218584d13a0c603b25319419b33d7f74e666a732a5b63a1a8d59a6185099680fa123c739865997ed8)));
   (5%nat, ((0x3f470696f974fca5280dafc45f91596cb7d752f5c9673b518c28b3f1bf479e23b20ac00ce8587bcbc41826c34a5c, 0x18866db6f068984507f4ffd748ff7ea4328358c71717d1015aebebccedd10cb1d136a9b069c270e9d7147592f604), (0x965eca55e72560087a75e7e9b754141f1a2937fb5a2cbd096fee64efebe63c8c9d69d10ecdb5bba38b259ccd807, 0x16a962411506e4c253b09bc65599a32341af04aad983edaef0a5cea510cd1ab6990bdcf068028008cff5ab5bdb11), (0x80633d83d035c41954fb9b3831ffe3fb26cefdb8927f04700c4e7be042819496eb671fa9b074bc1643005dd4823, 0x149fa0804563233405a37feadc0f037889f888875c5228bed26bb30b9729b81046fa5dfd26cd6f5ec90764935e26), (0x6a552733b39169cf5cd7e17968bd29a09c28e2f7807f2fc1add15c073798efa6ff98d173e9df45f4441930efa77, 0xf2bf5b5fd9909dd416b90475ac570beb96873492081b8c7d497eab50388b886b2bb42a73b2705456452deea96b5), (0xdcc9dc27622bfb6d84266af19c046131f8621033436b9d89f0c010083d530f79ef22e813d5d09a881261e2fa7e1, 0x1)))]
  0x21e7352d1be5379a221c2657447a4782415ac7cdc3007e9fead902b8dbfe158685e39edb2eca422f58de0bfa17b1 0x1fd14739e34fee2465e3a9ba2e83d1316613680b3114607a61657c4fade9b850f7b307eefa0b3bfa7a0f055b7f22.
Lemma prime_367_2d49 : prime (Z.of_N 0x40000000000000000000000000000000000000000000009c300b75a3fa824f22428fd28ce8812245ef44049b2d49).
Proof.
  apply (good_prime _ [c0_367_2d49]); [vm_cast_no_check (eq_refl true)|].
  intros c H. cbn [In] in H. destruct H as [<- | []].
  - replace (exponent c0_367_2d49) with (Z.of_N 0x70323550c6f96f6d1eb150bd921150fb58ff4e1b7ed3c1bc8a8b098065) by (vm_compute; reflexivity). exact prime_231_8065.
Qed.
Definition order307 : N := 0x3ffffffffffffffffffffffffffffffffffffffc079c2f3825da70d390fbba588d4604022b7b7.
Lemma order307_prime : prime (Z.of_N order307).
Proof. exact prime_306_b7b7. Qed.
Definition order367 : N := 0x40000000000000000000000000000000000000000000009c300b75a3fa824f22428fd28ce8812245ef44049b2d49.
Lemma order367_prime : prime (Z.of_N order367).
Proof. exact prime_367_2d49. Qed.
