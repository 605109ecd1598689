(** The orders of the curves of degree 163, 167, 173, 179 are prime.  The certificates are generated. *)
From Coq Require Import List ZArith Znumtheory.
From Verif Require Import Proof_Prime.
Import ListNotations.
Open Scope N_scope.

Lemma prime_11_049d : prime (Z.of_N 1181). Proof. apply small_prime. vm_compute. reflexivity. Qed.
Lemma prime_4_000b : prime (Z.of_N 11). Proof. apply small_prime. vm_compute. reflexivity. Qed.
Lemma prime_5_0013 : prime (Z.of_N 19). Proof. apply small_prime. vm_compute. reflexivity. Qed.
Lemma prime_12_0c91 : prime (Z.of_N 3217). Proof. apply small_prime. vm_compute. reflexivity. Qed.
Definition c0_39_5c15 : cert := CERT 0x2670bf841d [(0x0, 0x2670bf841e); (0x133d11925c, 0x44d258e1f8); (0x2271941aa3, 0x484e8997b1); (0x2430196b39, 0x2412ebc311); (0x120dddb510, 0x519e305ae); (0x28d90fe80, 0x47d5ff81e4); (0x23f3c5a7bd, 0x452fbc1a37); (0x22a0511e76, 0x20945686c4); (0x104e25d662, 0x19fdbf0cee); (0xd020c1f52, 0x288228322a); (0x14460690ff, 0x1)]
  [(11%nat, ((0x0, 0x1), (0x0, 0x1), (0x0, 0x1), (0x0, 0x1), (0x0, 0x1)))]
  0x4c82b066a6 0x264ab03fd9.
Definition c1_39_5c15 : cert := CERT 0x17db18fce7 [(0x0, 0x17db18fce8); (0x768d189f1, 0x21339aa57b); (0xa4fe9ba5d, 0x377c2155d7)]
  [(1%nat, ((0x0, 0x1), (0x0, 0x1), (0x0, 0x1), (0x0, 0x1), (0x0, 0x17db18fce8)));
   (3%nat, ((0x768d189f1, 0x21339aa57b), (0xe5a1ef72e, 0x3375ccfa53), (0x227a4a749d, 0x1b03be3a08), (0x98064a03e, 0x3b1da8332a), (0x2ab4607171, 0x1)))]
  0x69f5db674 0x20e9163bf.
Definition c2_39_5c15 : cert := CERT 0x55541c97 [(0x0, 0x55541c98); (0x5ecb7d, 0x5983dfcff); (0x637226e, 0x3abb78c062); (0x413f8034, 0x2c046cbdec); (0x30e68a0b, 0x1f1c2d4d39); (0x228fb832, 0x4f65801be); (0x5834673, 0x20a53fb561); (0x2444660e, 0x809ece672); (0x8ee3b15, 0x2aa312e6f7); (0x2f5dfcd9, 0x18b9986cdb); (0x1b77cc53, 0x39280eff39); (0x3f7f554d, 0x2185e01a87)]
  [(12%nat, ((0x0, 0x1), (0x0, 0x1), (0x0, 0x1), (0x0, 0x1), (0x0, 0x2185e01a87)));
   (9%nat, ((0xea1978c11, 0x3a72bf19cc), (0x2c7a326c3d, 0x44792cad8f), (0x3d0b1f1553, 0x33c4a80212), (0x22e4458eae, 0x27c2e10cfe), (0x1612720c9a, 0x2a2fb15c70)));
   (1%nat, ((0x172bb21842, 0x109174fb96), (0x392ed2c44, 0x215fe26a50), (0xe8080b626, 0x81d79bfe2), (0xdb7f2504, 0x340dcb8a30), (0x39d42743, 0x1)))]
  0x3347c8a734 0x38f82cbf.
Lemma prime_39_5c15 : prime (Z.of_N 0x4ccebc5c15).
Proof.
  apply (good_prime _ [c0_39_5c15; c1_39_5c15; c2_39_5c15]); [vm_cast_no_check (eq_refl true)|].
  intros c H. cbn [In] in H. destruct H as [<- | [<- | [<- | []]]].
  - replace (exponent c0_39_5c15) with (Z.of_N 0xb) by (vm_compute; reflexivity). exact prime_4_000b.
  - replace (exponent c1_39_5c15) with (Z.of_N 0x13) by (vm_compute; reflexivity). exact prime_5_0013.
  - replace (exponent c2_39_5c15) with (Z.of_N 0xc91) by (vm_compute; reflexivity). exact prime_12_0c91.
Qed.
Definition c0_94_cb01 : cert := CERT 0x670badd26559570deea614b [(0x0, 0x670badd26559570deea614c); (0x13fc0dee468079411fda665, 0x8114d989e8a399d03acf12b); (0x1908b144617e7de1c4d8f8b, 0x5a0938ffa2b2f4697941b39); (0x117625f75e1b7ab926ec798, 0x9e31144e367cbfd799e5e54); (0x1eadf8d85bd09503aac9b89, 0x139a7ea6fb4606d61aa19667); (0x3cd48705403f6bd27c8f5fe, 0x489f20b8ac31d6f3bae4d96); (0xe158c82467f49b92586b89, 0x1cfdf55d39fb0ae139bccfff); (0x59f68aa38214765fe451f91, 0x1560c5ea3bf06aae7f104423); (0x42562a6cb467af20e034031, 0x14bbc43810606a081e636233); (0x405625473b597111cafaaf3, 0x167c733d062902a4c3d41e31); (0x45c66c645087f36d3048c54, 0x16a4880ab449ad4909305f38); (0x4642cbf29675d24a8d2a4a9, 0x1f6b507112eb5c3dd095d4f7); (0x617ea0299f0adcfa89d2ff7, 0x168290d9d98a9e6c4c32c35d)]
  [(4%nat, ((0x0, 0x1), (0x0, 0x1), (0x0, 0x1), (0x0, 0x1), (0x0, 0x9e31144e367cbfd799e5e54)));
   (9%nat, ((0x2f191e77a43a3c7f805186d, 0x1560c5ea3bf06aae7f104423), (0xdc32625498bee0405c35a8a, 0x1d1dee22947297d7c4d7d43f), (0x19879ea195a86eda347ccc3b, 0x423d8227f2de08face8d246), (0x84212fe7c71c874c37dfdb, 0xc64775ebe3d506c0aaa6249), (0x7bcba7e5e8afb21fd727bcb, 0x17ab4fe365eee4e4a95e11c0)));
   (13%nat, ((0x10decbf71cd261242384c026, 0x1bf870262da9ebe43e542dda), (0x178f1545f7415075243151a9, 0xd56085bc07afb0ed3ae08fb), (0x55b0b52a7861b6558d87cf0, 0x13754107dd21c22238f9d929), (0xb66ba296ee0732bacc018ef, 0x8b8b0331a8e942cd108eaa2), (0x5e96c191b6c8bd6f1c38fd9, 0x1)))]
  0xede2661a17d5469f937bb7c 0x2e22968ca9894bc17ea1853.
Definition c1_94_cb01 : cert := CERT 0x1f2e3d075ff38a6271d55002 [(0x0, 0x1f2e3d075ff38a6271d55003); (0x1d46e4f1c06cac9fe9438e11, 0x114c7bd1d7f6502777ed6f8); (0x103e1be5984051e134cec59, 0x1657a40fb28cc11e2684858f); (0x14fa6fb94cdad6ed62e860ec, 0x1046ff3e0ea2d7660ab9bbc1); (0xf489647babd5d8cc6ed3bda, 0x15450d2b28a734b76a0f6969); (0x13f89c95aa72a28bd3284df1, 0x1108995e5c3be61328afa34a); (0xffe5e764a8f1e79608c2125, 0x95596e5e33e40dc650591b9); (0x8c3b24dd26afcac25f4a742, 0x5f22903b6cd4f00320587e9); (0x5953a16db6ca271d892708e, 0xe20740ec9639889c9f5d2d); (0xd43a7ef46ae1622159b930, 0x7cffcde9f4503a2cf1a5e57); (0x755e1a32e612acfa2c34bba, 0x19be8f837aba4611b321814b); (0x182c2ef3a6a5720abd564f65, 0x524e886be85af2bd0998d7c); (0x4d481a1161e302f89ffd577, 0xc3e33b1929dcda19cd035fd); (0xb7ed9056f769f381587ed09, 0x9a24793f03915a5776ca1ee)]
  [(4%nat, ((0x0, 0x1), (0x0, 0x1), (0x0, 0x1), (0x0, 0x1), (0x0, 0x1046ff3e0ea2d7660ab9bbc1)));
   (12%nat, ((0x7fa8088d19589b841ba7798, 0x5f22903b6cd4f00320587e9), (0x1108b4d190d65e0d7015d6b, 0x1182ffe50d5b0a155c9a5ba6), (0x93c086e9224076134d3bd95, 0xec45d22f4c8663838f08b0f), (0x6910f76efd0f8f3b0cc0539, 0x2feb5ef51770e86fab312a8), (0x76c4de8e8cadd8c0134fe6, 0x1b1cad231a65b64aef78df7a)));
   (12%nat, ((0x16229014cf52a44e0670ef1b, 0x1801be1801a37ff48fb86e09), (0x115ae1fc06770fc516dfa1d5, 0x182eb9f71e6a039af91a337c), (0x119c290980f6143b13065e92, 0x24ca389d5e90b5d50ba7f7e), (0x28c212d3093403736a002f, 0x1f795ed14829b503311cfcd5), (0x4e02514fd8e72c508195c8b, 0x7d48164decb66c64cb32a1)));
   (14%nat, ((0x1d8a3e077d3b5b2379c73, 0x10238912db09794be3d07bce), (0x7d7e2dcc44fcee376a8325e, 0x18bffda41001fea23c32dd66), (0x1272357cf8c042ddd2732e01, 0x20e2ecfa5760b4e3d52d4ba3), (0x209160b300dd13d4ea253203, 0x127b8c4b088b2564e83756c6), (0x55ca7ea7a26e3db0d93f0c8, 0x609c1e8fdfe7facdedaa94c)));
   (11%nat, ((0x1190f531779efd9edd62fae, 0x10b726db491a4ae0950c44e2), (0x869edfb570daf7d6aca6ead, 0x1d007229241aaa1d80ad39d7), (0x195404a75b8c0c196f809aa1, 0xf3abb59a2c2d7e297932cf0), (0x6fbfb168c8a734cfd47c913, 0x145b242d52dcf6c5c1c786ed), (0xfc7e81c4287f63cc16cc6f4, 0x1d41ea40db73d860a956b17b)));
   (12%nat, ((0x19c6e0077e45af5b88c32448, 0x162f7af232385836e1f714d1), (0xed2507c440d63c1e5c596e4, 0xcd1141cb132660cfe7aefbd), (0x4f2565655c66cacc5302333, 0xdf0862b27436c4b20cadd56), (0x5d9efbbf99c934187fe9fd8, 0x1e83f4738bd9ad7b72c6b10c), (0x4ba20d300a7418c0c2fa52b, 0xd28f17bd2c8aeacceb29fa5)));
   (5%nat, ((0x5371184d9b10c60cd7c3678, 0x16225323bd953b9bf70501e1), (0xec0c1cebdecbf687db98326, 0x7b55acd7a80d897a210e29b), (0x1ca10751557fa40a943c22f, 0x156d28f6316e709a67cd02aa), (0xdd31d8c56317098f56320a9, 0xe3f61d957877767325bf53b), (0x920248f8e65a59423598427, 0x69778329a8abe027663570c)));
   (12%nat, ((0x14ef4c87bcea57621569cd2, 0x1c4f80b35a3385eec8e405be), (0x1822a3dfd0ea5d25026b6571, 0x19235a0c4fa5d219cedef893), (0x13077a40723dcff4415e9d20, 0x2117e13d154289f9f79a2749), (0x20fa970b044e60775c993683, 0x1fe7a9849baec9a3bf663b4e), (0x4f13ad74a0af37454a8a930, 0x127d24c97916947a32daf698)));
   (1%nat, ((0xa4b362ff0296765ef18b9b6, 0x94516a9936c9cbc95a86e8a), (0x2966fa573b9355630a112d2, 0xed1510cbbe8c5f032014992), (0x69c9992623bd4b8b118b3cb, 0x14013304c05b974c1dcbea79), (0xc0d07d6826c02f385104e1e, 0x6865a0f802bc2c6a3515513), (0x6205ef18d921d306575e411, 0xf31aa7c6575b04b89739028)));
   (5%nat, ((0x6f3acd6fad3f95b7bf35538, 0x1b4373ff577f04f68ac64908), (0x16620e7eb7599c449aa9a4d1, 0x13916ee7a18ba02e4ec4306f), (0xb87d7e6a43a81ffb6c1f62c, 0x82b76d73bb037e0ece2f5f5), (0x2028997701579494fae4795, 0x1151fc5578ea49aceb036de4), (0xb17f60d83790be30645b583, 0x1)))]
  0x381f035cfad5d81a9680b62 0x34b1db172b3564be38515c3.
Lemma prime_94_cb01 : prime (Z.of_N 0x2135457297507ee05a36cb01).
Proof.
  apply (good_prime _ [c0_94_cb01; c1_94_cb01]); [vm_cast_no_check (eq_refl true)|].
  intros c H. cbn [In] in H. destruct H as [<- | [<- | []]].
  - replace (exponent c0_94_cb01) with (Z.of_N 0x49d) by (vm_compute; reflexivity). exact prime_11_049d.
  - replace (exponent c1_94_cb01) with (Z.of_N 0x4ccebc5c15) by (vm_compute; reflexivity). exact prime_39_5c15.
Qed.
Definition c0_96_2c05 : cert := CERT 0xf [(0x0, 0x10); (0x0, 0x100); (0x0, 0x1000); (0x0, 0x10000); (0x0, 0x100000); (0x0, 0x1000000); (0x0, 0x10000000); (0x0, 0x100000000); (0x0, 0x1000000000); (0x0, 0x10000000000); (0x0, 0x100000000000); (0x0, 0x1000000000000); (0x0, 0x10000000000000); (0x0, 0x100000000000000)]
  [(2%nat, ((0x0, 0x1), (0x0, 0x1), (0x0, 0x1), (0x0, 0x1), (0x0, 0x100)));
   (1%nat, ((0x0, 0x10000), (0x0, 0x100000000), (0x0, 0x10000000000000000), (0x1ed5fad60, 0x64ad6642e4573e819a351d20), (0xc, 0x10d95eb1e65c1e08b90bc1c4)));
   (3%nat, ((0x22320f623ba0f10e52cd1df, 0x2816e4a25062f2631c9b0b5), (0xc196392157181b4c48641, 0x81c02b16ab706143afae94b4), (0x7ebd8dea133130167fdcb53c, 0x6bab12f99092637eba46c464), (0x5745744ca83bbba2376c3bec, 0x24512fb52c3f0fd47b0b8b74), (0x45f, 0x739113364d92ed0762b1d625)));
   (5%nat, ((0x648b94e83544d7bba26bd3b1, 0x29ce0f4211b96d80716352e4), (0xd282549b47c58513e9cdffb, 0x303679d460baefb0bbe65729), (0x117fd24d83a030a745ae42f3, 0x5489fefc77e8a0ff538ed1d2), (0x35cdb457886f4420ac5c66ab, 0x714ef64ca53317e811342aed), (0xda5f6, 0x4db53846946ca9316c937a32)));
   (4%nat, ((0x2d75ad4c3af79db6216d31ec, 0x8437a5cf70ceac48bf252828), (0x839af06e294685d8f1a0f7b5, 0x3a649949d6e284817f4d93b7), (0x19ab634ebb59c4343e44e6e5, 0x4aa022666636b3a32662ce58), (0x29ecbf0b0f0d1e9109079d7f, 0x51b31a277e821593f1d4d6c5), (0x9d74, 0x3b3c839e5c6f9de2e975fcbc)));
   (5%nat, ((0x1a6a97580fb26b84781245ed, 0x78a4ef42023e32ae9f3b906f), (0x6d931324430f6d9b0651e28d, 0x42e25107e2aee0e97d7e6760), (0x21ad77951ded04e9d43259a3, 0x6f53c1841fa99b73f9699fd1), (0x5d4db96b1ab55423cd4e2e8b, 0x4ec7c47eed01626d53c77bea), (0x97d42, 0x393e1b0f0c778533257335b6)));
   (7%nat, ((0x18ab05478f1eb70d0c7923ba, 0x53ac83a8facdf19eb82932c2), (0x34b53add918198eea2b30ffa, 0x2c5ee404a2d11c9fd181322), (0xed2448b5490bae14bea2d, 0x3e79482a3d508258bc93c1a3), (0x1d61f7152ad5cdc18c7a6501, 0x69f36a4dece2f694c40e08c4), (0xcc315cc, 0x74b31773ed8db2cff2ed8304)));
   (2%nat, ((0x6686b1ee046df0d3140bb86e, 0x675c9776a54eaa948a6d95ea), (0x506df2828c4d3c19acf405dc, 0x7e8377035a01de094144c98), (0x787ecb7709157e5d50b0b1, 0x2710d834d7cea0aa0e4dbacb), (0xb7d3bbf8ee0e126f506036b, 0x730bd6f3c6b8a650e42c27e2), (0xdd, 0x5fe3241436b0322ca6f2e1af)));
   (9%nat, ((0x4537c3ec0776a848ab51d241, 0x605b7bb74242923ebb79ce5c), (0x45e5eef7a359d25d40a3ae4f, 0x15c6bb27a2b8d96b86933585), (0x391e9414f5e3d870b7d5ff9, 0x2202d928d09cfb87b5f9ab3c), (0x8b55960a368080d2a2fa9e2, 0x7df923b1accd30bb3cca0ca6), (0xf2c7de826, 0x16bdce1ef7dabb437521ef42)));
   (7%nat, ((0x3e4b7515e5e09e982f1a6a9, 0x2840b43f7b87f1590afffb7), (0xc32ad884a12048ea97d5c, 0x46cc49c56d5a96cff310d205), (0x25bc0543dc8752767b76546f, 0x15d47b9362b164e7582479ee), (0x3966cf100f3422a34d8e145, 0x6ecc91c3652b0cd0180796eb), (0xd5895da, 0x4ee2f1be291ecea072059abe)));
   (5%nat, ((0x2ed96048f61998afa732baa8, 0x47ca19a046329c63b72a9fbc), (0x26cc78e38b18359192b3c7bb, 0x7614684da76c0aa5fc8b0769), (0x68f72cf8fbd2bd49662133e3, 0x745703a61459e196757ae1a2), (0x65e527d83ab0a409c9296f20, 0x2f88855c707a8d96cbfd7ee4), (0x5b9ba, 0x694222f27f3472c38019675e)));
   (0%nat, ((0x536885377e719d4ec62613df, 0x6074423f799d5b7a582b0f29), (0x4609e56811be2cfb859edff7, 0x1ad1f313b9363c806dc600be), (0x56a4ce671e9b67d972d1d95, 0x79f5d0431c3936a5667a5d1b), (0x6ffa595bc8c862d651425c0b, 0x698b4f92e453bda13011f0a2), (0x0, 0x698b4f92e453bda13011f0a2)));
   (7%nat, ((0x53dca58d52de6c295f16f8ea, 0x20c40c4fc0f2d86bc94b11f2), (0x815154d7a7de4b8901f98d8, 0x320bbbcaf1033a25c962ec8c), (0x12daf0b9c88529d539e5cab1, 0x5e70e799564c46eae0040b1b), (0x4325461a65c8e90d58dfbcf4, 0x61edefbb290fed34a3beb415), (0xbcbbd04, 0x54ac77af1f65e221be1c9eec)));
   (14%nat, ((0x35f99df710ee09e6206a217d, 0x3dcd65f625f0217e2885061f), (0x1cc1273d2a80d2c31f2c45f6, 0x1de28c67db5f1a200b05d1f3), (0x6b93d4836fd3bc1e042b83a, 0x417e5b56c4c63472bf171b87), (0x204ab9d8da3b7cc057601906, 0x3486b9884e1b133955e83c13), (0x653b14dd3db575, 0x3fa3d839156cc61a4f8458b7)));
   (14%nat, ((0x1e7d6d3fbda7d71a78957bf3, 0x251d4f5173c8b36bc05c2312), (0xa5ebf29ddf38dd5971c0334, 0x19b8882f910718339828ed40), (0x4fafcd25850f5ee30f15cce, 0xc34769a04fbfba7afb57fa), (0x11f152a423c63e70fb119, 0x3a02deb776fd45460c561ea7), (0x6fcd3541d3c849, 0x629e3e860d9dfd5251fd8a93)));
   (0%nat, ((0x493774f87af4511c5310babd, 0x327c4f9a0bb109ba3075aeb8), (0x13302466c02f604e4356b372, 0x7ae1afa3268acf60215f8b06), (0x71ad1e59fb73efa8f14d527d, 0xf5acf84f8b70f94ac546bb3), (0x1c66197ce49ba963656b093, 0x19fdd8146eeec849a6fb684a), (0x0, 0x19fdd8146eeec849a6fb684a)));
   (5%nat, ((0x515f89f40ae9e940b1e7e24, 0x588bec3d4dd4cf13a5858eb0), (0x3b0686ab3de1ffb0d58c9448, 0x282870d4d33becc03947398), (0xc23fd6bbffa030510045f, 0x278188a779f414c43c9c8065), (0xbbfe3eb623c29c737c95f52, 0x383088e8136419b98506333f), (0x6c4a7, 0x4012e04c5bf5b58cf72474bd)));
   (10%nat, ((0x1ee82e054700b71bfaad2940, 0x30a6c57344169867ce2b0549), (0x11d1b5b14f5893eb990151a8, 0x20b9dc70243c879ef0da7689), (0x8100f8373c81639a9804533, 0x825c29765427d2fdb22f7752), (0x7fef04e7275e5d9ad0d516e9, 0x73687b072460c4e21a4cd7b7), (0xde6b56dba2, 0x421af7c15491d90b45f7ddd6)));
   (3%nat, ((0x20e5e1fa4e7fbf7246ccb013, 0x270da5c85e66f55b46ab7a85), (0xb7b5a6e4b30b94b47100c20, 0x46e0e0dfa8bf8bf51f8b4c79), (0x25d1fb5233dd149aa2a3d386, 0x35320f6c28ed2a57b70de793), (0x154da462948b8c14784847e1, 0x78c43f44b34e2c42d5298b04), (0xe8b, 0x7d10653aa42f8a52ad471349)));
   (6%nat, ((0x75c0022f6061aef69e888ec2, 0x6dfd8ff1ab0425ecdcc7c907), (0x5b1394b6dd99747df0fe5789, 0x3a371d77dca6d0473887bc84), (0x198375a8ff3521e9915e0dd1, 0x112e1e016a8f7aba6308f2fb), (0x238d6e841410c736cb58b3b, 0x8482e4d658086670d15ca5f2), (0xff6199, 0x12970652e2e91426259cc03)));
   (12%nat, ((0x29a06ff3b0275e01318b4, 0x376a0f258f47c759de105c85), (0x171e106b37fb8eba2e11b1e6, 0x1760f52e2571f21fcd61db9b), (0x41d5d154dd1ee1ed22cc384, 0x252b118ed9f43ab1b7720e45), (0xa6670e04cf9963ff486be3f, 0x77c751799afec60d1506135e), (0xe6d79bfd6333, 0x3e56e04417f60f36d25f4c01)));
   (11%nat, ((0x1d41a2ed4cbca04d931cefe0, 0x81a96ed97de618b615e368a1), (0x7e912762ec547edfb24a4623, 0x46b2cc8042ccc66aaad6d292), (0x25a0de6159eec8c856ba376d, 0x4f69830d33ad3d463be30a23), (0x2f79be215d47bc86005a0a68, 0x53877c0be6bedad479f4acc1), (0xa0fb21bc14b, 0x51f1d38403bc9704ed135589)));
   (0%nat, ((0x328d46aae6679c8abef78e2c, 0x68266ee84ac378e0b200ec75), (0x51a94411072a64eef32e5b79, 0x5453d11db42822526e44581c), (0x3588d3ec6466d27561f6996b, 0x51262208e2f3291fa7adff9), (0x31932da7c084a7f8ed8eeb, 0x825abd3d134edbba250a919a), (0x0, 0x825abd3d134edbba250a919a)));
   (1%nat, ((0x7fec3a077924b19f300b4710, 0x5d14b50719501c5c0bb8ad54), (0x4139b785b9f8108e4fc426f9, 0x6a2aeba87292dce6119014b3), (0x54db0977bfdc315d58874208, 0x2135457297507ee05a36cb01), (0x84d515ca5d41fb8168db2c0, 0x18e7f415f17c5f2843a91841), (0x3, 0x1)))]
  0x731f12e295170d2be3689d9e 0xd.
Lemma prime_96_2c05 : prime (Z.of_N 0x84d515ca5d41fb8168db2c05).
Proof.
  apply (good_prime _ [c0_96_2c05]); [vm_cast_no_check (eq_refl true)|].
  intros c H. cbn [In] in H. destruct H as [<- | []].
  - replace (exponent c0_96_2c05) with (Z.of_N 0x2135457297507ee05a36cb01) by (vm_compute; reflexivity). exact prime_94_cb01.
Qed.
Definition c0_163_f14d : cert := CERT 0x2c29c115352dbb75613d7bf1c620b93993b47c1f7 [(0x0, 0x2c29c115352dbb75613d7bf1c620b93993b47c1f8); (0x1e7984bad2cef41c78e7e2f3ff14107f6a0b0a11f, 0x8686eb47c32684b965ecca456849fd77a3f53aed); (0x5cd4860b81b4f7b67c4d1f5c48c25971a2c9daea, 0x1f2a26e82a3f1f3755364b20cc5687434d213a036); (0x15814fc5fad4869e313240654c811c02c7d93d7bd, 0x3a270c598530f66d92b0579daa02923c1b8691977); (0x2820c8f27b4ae3d41f4fc7db225c9ef1f22108b50, 0x13d10982953bf2d4a79fbf79913144f2b6e242b38); (0xdaca43ccffcff2176df81e6f570cb130de4451df, 0x5338c9a2a900dea4200586ff91991306e9c3872d); (0x396d5613d43c0b5094959c6a471f9ca2d8c74dd3, 0x2f05d47f7b26bd0085f0382b611282d5ec4a4d521); (0x2072afb0f0221dc4edb419a5aab447e8dcbc728ec, 0x1c93f6b940f315e8f903575f9a55f7b4619c5ddfc); (0x13b85ea117a74b80352287de77f9c32f9166c173a, 0x150e42928f29dd0ff09b8b52a01d558364ff571ae); (0xe878a6d633f29724230be469d8839478cfb89897, 0x18cadfd9ed7e1121b3ca13c30e864ba3131ac4225); (0x111ba6a93d1b2ce05abdfc57259488dcada06ab03, 0x38ac52bb3ecabb296e2b1bfee6989ff78bfcdb5f1); (0x271b72402c3e9d0507bc788d9dcf31ba539cd704c, 0x266aee4907ccf64cd5d80d476d2862e40b8f79f9c); (0x1a82943a0dbc552a2e252d482d529c47cd7e11c1a, 0x22ea9e302c140a1fdddb63de818cddaebd0394d4e); (0x181814658c326ec3f896fa7d87df7348c15ed143b, 0x1b7634ec7a01be84c77e4f72e9d80ebfe8ebe10d1); (0x12f32ef60c935cff6d15fd8ece295848130fb65f0, 0xcbf6514870287e459aa605c5dcd9053db4f04248)]
  [(8%nat, ((0x0, 0x1), (0x0, 0x1), (0x0, 0x1), (0x0, 0x1), (0x0, 0x1c93f6b940f315e8f903575f9a55f7b4619c5ddfc)));
   (4%nat, ((0xcc2cdf732f94b60f7ca3750b76bd1833c517d43e, 0x303377296fa781968b0f489ead82839553bd3db6a), (0x244d5c20ef63676313d5124e6366f6ebf0197bcae, 0x1e005d8995f3d915c7d9b21a5d5d02bdfa7bef98e), (0xe1057b185499f187593cb46ee244af391a242289, 0x30f38ec6c54f1e0839bcf52af156c155ae7102e8f), (0x2570f50b9be572beb42b8ec0beed7482bb854dd98, 0x5dcc153c86bd133fd412519a4862c2880294f529), (0x553a2db541fa347323372406b745784f018c4058, 0x2f1dfed64b6f9030544bf8ee584f6ad6c9dc497)));
   (13%nat, ((0x22b01c59a7b7fd300319ff62d91bfdd983dc6, 0xdb1f69ea3b00dceea7f92ab407f90f81b3d39683), (0x2ee3b0c464dfefbb1d666327355ccf00d314bc13, 0x199a39800a6b7e7ec7772abde724e10fb4b315252), (0xa3df090f3ff32dcf6f31a585a86798214e175c0e, 0xa79820dea65b92bbb603c0e3c4b5b0e376e4c40e), (0x1b6df552626a5c5abf7f433bed08de9e4cb91b1c, 0x51738e4bf7718373c08d4e92506f2b423c52ed58), (0x2c6ffb6b37443b8b3d95b9448b13b4e78dd24fc7, 0x2cff9b4afbef3bd94a2d8201be700c91020bf72f5)));
   (5%nat, ((0x1fa3726210c018d8f460792b6a8f8b7ce6d353fae, 0x3c684a8c5eaef0c500b11539c6f75d2c581762923), (0x390435b9d0918ad337c6d1201f5b38c90f3320960, 0x1e98365aad8e78efe116f15c4df0a89cb58008e9), (0xea01cf75f977b79b9e30eb1a70eda6bfb3b279, 0x3f384322225f0a2b4f65394fb738f63018d62ccac), (0x3e72f5a0f5d2cc82a4d5134e2715b994ea14a78f4, 0x287ec7c3c854eb057120a9ee66c54f7ee08de7e2c), (0xc89e756eeddd089e1298c55a6e4757109b22dc54, 0xb31161a887ba125b5b80fafe5c1d20fcf975a45c)));
   (1%nat, ((0x1f5053eff2dc588be80bd28180e46d6dd03d0cd0, 0x3a22c19f30c80fd4e8150b9374ea2b499c9715680), (0x34cf11d08b541b6fdd95e1dc0eab3c4b8608b9502, 0xb430be5c23be7ebc4da46985580b5aa1297f8c66), (0x1fb5253e60978bf833750e8008be5351a5600f78, 0x3170cada3c88d23d9b9813645c90f207e059f198c), (0x26317d66ab79e71a7a6030571db7bc82c36442958, 0x1d6b9c1ac8c257c0ee975ec0ad17f8f92c4685d18), (0x144d2d04adb05a251ea89000dc1ac2aa3dc41eb0b, 0x2a88b08733223b114f2b7a847492837aeefc439f1)));
   (5%nat, ((0x1c448ba1989ef5d9e79c7b17e96fbaec003679e5b, 0x3001b9dadba4276c3f39ae4b92e7b0ee5a412e882), (0x240296d434054a7bde37d85361a16275e50ad9924, 0x170173893caaa6db66526d055b5ba0a4e9a1ee30), (0x8450b131076e5902426fe2c267c48e962d1c45, 0x2b6a569e6cb2a75d0dae19079271c72b01322d33f), (0x1d73951444136cf8fb2085e4f33065b443454c88a, 0x2cd957010045651fa0b7a082322b0ec4976aadff), (0xde3023e7da25bcb4e1e09861407fde4f749c792, 0xce02a524e24cc1ced877be7085079a162d226bde)));
   (12%nat, ((0x2972107396d3e888d2c49a40866310edaced652e, 0xcaf500f5dffb3bc4a799bc4c0da77278d4fb97ae), (0x2839e3ffb70607564e6fc2853fcc8a1f49a00eed, 0x3e238a12c668fa5729ec596ac2cab535b6ad51ffb), (0x3c54ef408ed565016a4e8d58a307daa8f9cee6f2c, 0x39eac0a5aa6cc4c1bdaa93b8fb220c5d6fcfce3dd), (0x3469843a16e3a53905c6299a96f7e818ffd9768e8, 0x1efc49f4cb76c84f4f7397014fa879988fb3cb701), (0x1299912164d1070618da1f970d34a7dc6de3a35dc, 0x207134595a07f74420990888747894871ead9d470)));
   (10%nat, ((0x1071fc96605f92711fc8ec861cdfa72dfe2d94a73, 0x415578bf269e4d9239147b0416f4095384440969), (0x42b20f69e5ff2dcb4b69e4ffee555a7805b3d0e, 0x3bd13e12ae2d8eba8f7b7d6c6ae9be198d3ed01db), (0x37e8768c1759cfa043363ee1014e57a73c00a4ef6, 0x24c64b36405e7f2dc3e48e139493318c376a1b5b), (0x15217afec07beca0c1d491c109a3f3692d1e67a, 0x3bfd5bfd84b49c9fb2659fb35358bf3b9959525a7), (0x173d2bfc7c1e3a484f3380c90a5028000301066ed, 0x632af72b3702d5f7e0922e478f0ac3d714976cda)));
   (5%nat, ((0x99a90985d57aa77bb2c447f6103577ca88ae533, 0x3e148e3924ad000415e4bb65bd9f6ba968774b64d), (0x3c37da28d6d3e1ed06374ccd4689d81eb624f5542, 0x145d4b90070744ca1b01bbe658a0983855e01cc4f), (0x67ad739f82fccb6e6f462acc19b3a08b0ad1bbae, 0x2bbc1957b172b4d6eae7a2458e05d0bbfb1fbf0b), (0x1de2eae2c3ad9fb1336e1412b8a069139f41569, 0x2ad308821865a77311dc306ff1904beb148d20e4), (0xd42860b75ccda33d338c9f0420de7165a46c1c7, 0x20626d7aa9fc278b870548f0dc1bf4e5a6a9cde05)));
   (13%nat, ((0x106304daaceb79e15dd8580e6d71a370de3f6e533, 0x30faff64228c0b0709700f99e08558e66cf28b8c2), (0x257c57756d428698b54a408117ec17b48be608db5, 0x3b2a14464389140f30937ca7d6c04ae7b77996e93), (0x36b1b10c2f299840052911101396beedede0dea4f, 0x381a663a604d89f2ab7610b900fcd58a978b0cfa6), (0x312e3dc9db40389f06625199148dfd5292a7cbbf7, 0x1620eeb6c445df1c0a7bcf2d56464f9b58fd1cf59), (0xc129debd9c68d86c14fc350e1c1c975f79a9b325, 0x1f0496cf70f167e351e4e5c86a32ca32423f3afd)));
   (4%nat, ((0xf08726d32b6fc9c2ba2016f248eb9850da83ab, 0x2349f998aa845abe16c8eb18f3a432915bddc089a), (0x13753e802c2f1c3087a60a2158e9183b8660aee57, 0x371f7eef2f5f99cefcd75c50e3841fa2bca6c6579), (0x2f7a31ab0ce37d6725cbb4edb30131f9d130712e5, 0x2b308b30ddba7ae0c669868c19ccb6ade7b3a6f50), (0x1d255fdba1f79547f96e0614f5801ef00cb0c909a, 0x39e8148cb7e3efbf0dd9ba73f50b8b02b1ea600ae), (0x349da7388f802e10bd8f4ddc9cb93c5d18de4c640, 0x30559c47b349158b1efe45a3e859405c8e9276da2)));
   (1%nat, ((0x2480dcf028ffb4c9f172ca8d573d60e66e0a86513, 0x31078fef786b3c9071314d9b504a82dd0eb8e10cd), (0x258f954b707c2e59e710cf45e7f3a367582c7204d, 0x1c1b8e6494821e25587c7bec5cd9a036359ad1000), (0xc582875639e193cf1ee4e52c6e1aa8a02028ddff, 0x253c8e0fe3ff3679c9f8553d38ddf1c6aad742b4d), (0x15aa3d8df8c11d31837a22cb3155bfe3c6438ad2c, 0x112f3b136c82488c8d9dfe87d4b296793deb872ed), (0xbdbaeb752f86f66bd840153e78904f0ba62f03a9, 0x1b8e3de14a9006a889f482b64f492e572c05ccfc3)));
   (15%nat, ((0xbdd4058ea78f3eee888deb13fd93e637422edc8c, 0x1a7f1525d5ee06e059be8d4bbf33a66e8543ccc6d), (0xaf83d86b2f75903ee21f8dc5bcb112d52e79e59e, 0x31cafbe53a616f9ae14dd1cd78951e4dd747a17e3), (0x26bd5580f7d2f0e7ec9bfc1f69b6ff66a6f09dd75, 0x1a977d2e55503eb440a133643e98f1c242037d218), (0xb0c7c494ccce466e117b5953352334ec91c6dd83, 0xa9d7fd15149e018eeda7d210526fffaa0c2e6ed9), (0x21d46c4a93f5d431385b30ec85ce84400d843584, 0x35a3c02ac522570fb165f7f451a3005f1acfdc254)));
   (11%nat, ((0x2cf4d93ff15dc2809c684a9b8e79943eefb569c72, 0x3e9db51a32b6c0910a4c1e7fac2a70da257f0b46), (0x3d4313814b431f4cd96e4554fc57369d7b435f4, 0x28b1804ad98e669dd24e536cc53ced460f0c428c0), (0x19dfcca82f2119b0772492a977ac9b3208f036f86, 0x3e218e2cc6ef87b0718be25b1358b2260700edeb2), (0x3c51150e9b741004a7cb17f4157595291659dcc04, 0x2c9ee62dfc8e23a3e9f7a177f491a63d108bb1290), (0x27832e20fb8dde237b2f52d4c134270818ff257d3, 0x1d08e1266c6b396f55994a9a2bd8f3a03df063c19)));
   (8%nat, ((0xd2c0d4633ee883ea43de473aa5b318d2d358236c, 0x5bab89ceb17be3e1d9af172a9b639277d31c66f5), (0x834d9ba959f84176e348ed93c243ccd600ad1af, 0x191743756f28697ab19b4ecbf138f990f86d555d6), (0x9d63528825a2fab749bca4c6ea886f9020cd940d, 0x11c21a55901f72658fcfc507f91e4d443f62209fb), (0x4ed6aad26206ae921262dc08215d42b9fa8ed6e4, 0x2af9b3fa46d1e3c71a03f8a81c190cd73a25c5585), (0x133099f31309ac31c3743a0f0d2e66f146eb62bae, 0x2f502a7b63cecbcb4e1c1a56660c84b4cb75f0e96)));
   (1%nat, ((0x22fa22cf8b442133c0fd039837d415e90fb1742ed, 0x10ecfe45b6175c9c9aa4a23b1f4652494f11c819b), (0x479ecba0f643be167d670a196829cebc2343f210, 0x36728f38a6c0c4c0796e7be95b97e3058b74b509), (0x2e521ebf13b8b614ada99ba8c192b3045f70ade, 0xe73f43d856a9b3bd1c3d2ff287eb4ae6509c778b), (0x3438cf04b8b6f7853bf5211ce999c5f297b179a8, 0x2bef62d03bde398b8c420206971be2c6355f1c5f1), (0x1e513dd6eb9925a08d5f16271b1a9db9b7cc1846c, 0x3985852264423c3a52fd54bacc9c1b0effa1af1fc)));
   (6%nat, ((0x33b2ebb3ae79b1c0a3fdb001c5357ce36d8715a3a, 0x24f3873c9826cdf8476300fffefd2a7353f4bb29e), (0x155596cc3d12e9a5cd1772dd6a4b96a1c48f30d75, 0x3dfd7fe6cfafe2022babae3dd56907a7b3981e853), (0x3c0b27e8345c96106f810e8ee01d46d96c27bfcc6, 0x2024a0144b7f3e80e90398765ae5e528ffcd31d5b), (0x1024b509f2b9ad92fb24868bb5aaa6a56b73a9b2d, 0x358602709ba227b0b213164ff6045387b4c9db4d0), (0x4599490d1494e7d28e447634e38fd25743f2b9be, 0x344c5a39427b9cc01481e1d7c71924e6d061cbc6a)));
   (8%nat, ((0x2abc6db3d3380282c39ef800c602eb4298aa56e4f, 0x19abdc1609b68bcb44af07c422c1c555eb03d4f21), (0xa4c117042320f0f83eeb241a2808257f155accd4, 0x26d53c86d9c0bb420a32a64e60ec417d6a75c327d), (0x178ffe573d6c3da8f6bd285b9540e90c5874f0e6c, 0x30e9b4ca0f7a001daaf01d01e18cb4103a7220e8d), (0x2561e499752ac57d4ef26b9a669eae5e800e567bd, 0x1af57a50f27d5b806505a97e720adce6754d298d0), (0xc09b945f31c659d2de4fb02142e9aa771623a919, 0xc04bf81733a6eff2bee78118d1afede83b03973b)));
   (13%nat, ((0x241c82ab86dfe87a9e7a0687c4245cd37882bc9b, 0x5ab1443c22af32f3b6ef9f826853b63bf0401fa), (0x80847ae6d6ec9a94ae1ee947f200cb1070102, 0x3be8cc444727e8f09ad01d19e54031e2e154db88a), (0x381487695e29054a5ebb73eed3a33210c6666a744, 0x2d6d648fa10f72daae8513624c5e356c0c1c356f0), (0x203e906521bc6fc85793e29deafdef86f0067385c, 0x3d21ed370969b6de6a365eb736cb5d9447b9154), (0x215a212a5366d38a857534bfdcb2a03d103cd2c, 0x4da2842767831871d71f55db1a522c5fb975695c)));
   (11%nat, ((0x5e2caaace9721dbd41fa99ee71b9392ebba500b, 0x1d8441b323eb783925f73ef108cb4bab8e9fc2ac1), (0xd9cecd99ef366a703aa26374a61c234161586541, 0x1010af5a8648f87bf513a8a1b6598227631773ff4), (0x4085c06d0db2f240e66ffff659ba95a8b3a280e9, 0xabfae9def6430f820c054f3e0aef751e5d79e17b), (0x1ce24a975e878c0a085f356fb9507210f25618bf, 0x2e3d430b62e941501fbd4542ac10ef522a66a30a6), (0x28f21b13eb6a398d12d31c5950223ca686e0e0e13, 0x3bee9003e46035d03415ec6c318897a9ca6dd0b8f)));
   (2%nat, ((0x381f52c78e1572b5a6a7ae666b625cb403422ea41, 0x1012f2d8f401b3b2d62875dedaa7955845ba7f354), (0x4097f08ad85af8e0c6f13e338bc55ce337de1768, 0x322f9486645d9e3a9269b186c3291ac45dcaaa148), (0x275a7b717ae45b21cc06a773b55cf215467929326, 0x226bd9c39ca52a3476d6fb87e7b98b7c4afb69bd2), (0x12834d1ee178193cf1c58af878ab1f14503f24380, 0x1651cb5a269ba065a606c9877e98dc1f0b6062ac4), (0x2eea4f13e311f1e3b49b64c44c06fba7922e341d, 0x2b6dacede2d1c0984a34c827cbe633ead71b905bb)));
   (12%nat, ((0x1d781c5286588ca31afca2ead8078b96366aecfb3, 0x88849e1a1f95d5edd989266b89b76fdf87d6dac2), (0x12334b2bcb8901de2db422a8d33a470244faad42, 0x5c47d9776b8eab441fc25b6d3b027123684dbc2a), (0x850ee1e0b91f8124032a0a2dbff66732f5353d5, 0xf1c9028fe336c9baf9c799baa5ffde793029fad3), (0x39170529fbf1a111d37afb9b86e310cba2abe440, 0x1d83ef0757fb6cef9879b37f0afa6b7b5cec2e2a9), (0x11b7a6548f5fe8ef4a56bf71b5a2f11920aec5c3a, 0x829d6a4b117cfb7614a875478cf39e2c215be8a)));
   (0%nat, ((0x10a9102ff27e28cbc71ecdad8d0b685260f2f6, 0x40a43db1e94c7cb1206e9cda2f29e3d2b9ea7866), (0x414a20e03dddb4acdbd7e4aaa48cfee5128fd4d, 0x22c9fdf472e1f2855f16a48f1f45f8ffc95c21b7b), (0x12e91b56d135fee03945068359f32e8b0b79029cb, 0x21d5c246b30e47c7e08fa9bb832f94f810596800a), (0x11e33a4c5cfb7cb4215f825c7876cdf592faa2f3e, 0x1e5abb5aefb6f1eed040404c6a27ee476a3906cbe), (0x0, 0x1e5abb5aefb6f1eed040404c6a27ee476a3906cbe)));
   (5%nat, ((0xe65904654f59f631d16519f836721de3f1d7d484, 0x2827d7b214b1ef9bdd95794f11ea6badb1605ad50), (0x1931e66c51da0eed814604bf50be34bbd1c4d2e7c, 0x1d782cbd2b71d04f11880838cdf6b65700f6b81b4), (0xd91ca3354085a760485c1ad61c43976974e44a1c, 0x117d0309452c78e2f2724fa96f99e9f030b304024), (0x4c75dccc91ab5c4b1eb0fb0fc584b6dc765f01e0, 0x1b68ba424ea8f9b3b9156fa337dae3223e9ba94b0), (0x87c9d5e96b831dd7b728acd6fa0fad2ed8af80fb, 0x1)))]
  0x2138603335f6cfbb3031a91459eedd81fa858294a 0x16ec6e79da1cad1377cacbd080922091df6d15f79.
Lemma prime_163_f14d : prime (Z.of_N 0x400000000000000000002bec12be2262d39bcf14d).
Proof.
  apply (good_prime _ [c0_163_f14d]); [vm_cast_no_check (eq_refl true)|].
  intros c H. cbn [In] in H. destruct H as [<- | []].
  - replace (exponent c0_163_f14d) with (Z.of_N 0x84d515ca5d41fb8168db2c05) by (vm_compute; reflexivity). exact prime_96_2c05.
Qed.
Lemma prime_5_0011 : prime (Z.of_N 17). Proof. apply small_prime. vm_compute. reflexivity. Qed.
Lemma prime_8_00ad : prime (Z.of_N 173). Proof. apply small_prime. vm_compute. reflexivity. Qed.
Definition c0_22_2537 : cert := CERT 0x2cdde6 [(0x0, 0x2cdde7)]
  [(1%nat, ((0x0, 0x1), (0x0, 0x1), (0x0, 0x1), (0x0, 0x1), (0x0, 0x2cdde7)));
   (1%nat, ((0x2c9707, 0x1d30f0), (0x12e007, 0x10bc7f), (0x63459, 0x1faae2), (0x1636a0, 0x21324), (0x20fdd, 0x1)))]
  0x1f5fe 0x1f2e5.
Definition c1_22_2537 : cert := CERT 0x185285 [(0x0, 0x185286); (0xd1a94, 0xe0458); (0x78d3e, 0xb27be); (0x6028c, 0x1ce160); (0xf8f3a, 0x1190ca); (0x976ac, 0x1722c8); (0xc76ef, 0x1f2c57); (0x10cb75, 0x187467); (0xd2cd4, 0x2aa65e); (0x16fa57, 0x3d583); (0x210cb, 0x1fc5f5); (0x111e38, 0x1e8236); (0x106fcd, 0x3ce39)]
  [(10%nat, ((0x0, 0x1), (0x0, 0x1), (0x0, 0x1), (0x0, 0x1), (0x0, 0x3d583)));
   (13%nat, ((0x535b, 0x8317c), (0x17caa, 0x18598a), (0xd2224, 0x1bb4a8), (0x1100c2, 0xf7a92), (0x14e07, 0x1)))]
  0x17de2f 0xcdbe6.
Lemma prime_22_2537 : prime (Z.of_N 0x2d2537).
Proof.
  apply (good_prime _ [c0_22_2537; c1_22_2537]); [vm_cast_no_check (eq_refl true)|].
  intros c H. cbn [In] in H. destruct H as [<- | [<- | []]].
  - replace (exponent c0_22_2537) with (Z.of_N 0x11) by (vm_compute; reflexivity). exact prime_5_0011.
  - replace (exponent c1_22_2537) with (Z.of_N 0xad) by (vm_compute; reflexivity). exact prime_8_00ad.
Qed.
Definition c0_29_5113 : cert := CERT 0x67b2bed [(0x0, 0x67b2bee); (0x1e3f2ba, 0xdd5f376); (0x4091e4e, 0x62b3bea); (0x1cca1c5, 0x1238aaed); (0x55097d1, 0x128751d3); (0x56788c7, 0x86f6565); (0x275da9b, 0x64cf665); (0x1d67848, 0xabd538e); (0x321ecd7, 0x1c9ed0f); (0x859171, 0x11a5c8f); (0x525c00, 0x118a3df2); (0x51db769, 0x8fe6731); (0x29f90f9, 0x7359f13)]
  [(2%nat, ((0x0, 0x1), (0x0, 0x1), (0x0, 0x1), (0x0, 0x1), (0x0, 0xdd5f376)));
   (13%nat, ((0x89d788d, 0x1238aaed), (0xef13b19, 0xabd538e), (0x530d404, 0x45c6278), (0xdb19cd, 0x5db5109), (0x1e67734, 0x11464dcf)));
   (2%nat, ((0xd6e0f45, 0xbc23642), (0x638faef, 0x79faa47), (0x29d9e19, 0xb43bad6), (0x5b5ed0a, 0x5aee926), (0x389ee57, 0xbde520f)));
   (5%nat, ((0x656de69, 0x1487e216), (0x12f852e3, 0xc8ee00b), (0x718f4ca, 0x3c92b7b), (0xa5204f, 0x9c6283c), (0x82679a0, 0xe5b7e94)));
   (3%nat, ((0x946e9d3, 0x366e7e7), (0x8556e6, 0x772795f), (0x27ef769, 0x37a5b76), (0x8b5cb6, 0x2a7a2e2), (0xbcaf92, 0x23cbebe)));
   (7%nat, ((0x39ab25, 0xda82c45), (0x864d475, 0x15eb00ea), (0x159ebdc2, 0xe5a5e7e), (0x9457596, 0x144c95e2), (0x5c18753, 0x1)))]
  0x3b4ca76 0x114be6f.
Lemma prime_29_5113 : prime (Z.of_N 0x16385113).
Proof.
  apply (good_prime _ [c0_29_5113]); [vm_cast_no_check (eq_refl true)|].
  intros c H. cbn [In] in H. destruct H as [<- | []].
  - replace (exponent c0_29_5113) with (Z.of_N 0x2d2537) by (vm_compute; reflexivity). exact prime_22_2537.
Qed.
Definition c0_45_f329 : cert := CERT 0x3df7e466190 [(0x0, 0x3df7e466191); (0xd795c78c65, 0x11bab830d8f4); (0x3dae01235e5, 0xf6713f35587); (0x3595cb35504, 0x8a2cc62ed3); (0x1e0b45138f, 0x10f337fc999c); (0x3af7f332c1c, 0xba4f43278e0); (0x28829b572e8, 0x112e6a39b7b8); (0x3bc5e41ff35, 0x10908f2b98bb)]
  [(1%nat, ((0x0, 0x1), (0x0, 0x1), (0x0, 0x1), (0x0, 0x1), (0x0, 0x3df7e466191)));
   (6%nat, ((0xd795c78c65, 0x11bab830d8f4), (0x11a594769875, 0x8a2cc62ed3), (0x42fdbc37e, 0x10908f2b98bb), (0xf678856f2b8, 0x2a447c71121), (0x1ba19c7cf9b, 0x1d550a9140d)));
   (3%nat, ((0x304d663508, 0x70de61ef261), (0x2cb32940fea, 0xed79ea3de47), (0xc5e0fe0b20b, 0x58fabcd42ee), (0x1bc7c861ec1, 0x60bed02755b), (0x53a84f643e4, 0x110b846dce79)));
   (8%nat, ((0x104f8a084ce3, 0xb8cb42a2bd6), (0x77d24ecfccd, 0xc640df5830f), (0x89e957b7838, 0x7704292f1e9), (0x31b3a5f8fbd, 0x707c69519cc), (0x689b639cefc, 0xb2252b79da8)));
   (5%nat, ((0x6f5ab9b1332, 0x1554b4ef53e), (0x198b626e74, 0x1dd9977ee70), (0x3205cda581, 0x758636e7c57), (0x3076a480b84, 0x1abe63c416d), (0x1972f7eadd8, 0x6ad235823d4)));
   (1%nat, ((0x2809c0faf14, 0x279e14ca15c), (0x581d9f64a6, 0xec907b6287a), (0xc45cb832725, 0x96b6ce3f637), (0x4fb399713e4, 0x66b67f0244d), (0x1655563b167, 0x4b888ec8e1e)));
   (1%nat, ((0x1404ce91157, 0x2ee44b0ef95), (0x7b71d6a288, 0x8209b086cf1), (0x3b5554ece6b, 0x595c55e9abe), (0x1c04db1056b, 0xedc4213b5e1), (0x33b2d8847dc, 0x8dd0c24ef35)));
   (3%nat, ((0x469158ae40d, 0x7200c9c23e4), (0x2d9a568d2aa, 0x9ae40a507d6), (0x542e25db2d4, 0x2bc67d486f0), (0x6b94e9a427, 0xda1d418d1c1), (0xbc9b7b93256, 0x1)))]
  0x6f1c6f06d84 0x1828ced5b27.
Lemma prime_45_f329 : prime (Z.of_N 0x11cff53df329).
Proof.
  apply (good_prime _ [c0_45_f329]); [vm_cast_no_check (eq_refl true)|].
  intros c H. cbn [In] in H. destruct H as [<- | []].
  - replace (exponent c0_45_f329) with (Z.of_N 0x16385113) by (vm_compute; reflexivity). exact prime_29_5113.
Qed.
Definition c0_77_e8bd : cert := CERT 0x12c2485f4768d685d04a [(0x0, 0x12c2485f4768d685d04b); (0x106784a6d44c942dc0bc, 0x1229127673c0332a4b2d); (0xfe189bab562c366a41e, 0x7efd9ebc0ccf4b13c09); (0x6f0d22646a155ec3ccc, 0x71fa8fc37ff21432407); (0x63ac2d8743d9960a845, 0x7b706ba015b43087b1c); (0x6bf20dd511896d9a949, 0xe1502877643504dae4f); (0xc5085c58c2be75d812c, 0x76aec8130a60dd903a9); (0x67c93fa642de9f42b1a, 0x1469ae88beb08a550051); (0x11d9c6162bcd0f6f579a, 0xc54c1db53256c74ab09); (0xac8886cbe551d01b94f, 0xc2b5ab19b25a90a0450); (0xaa453a108d1fb417611, 0xb091b549349a25fb0e3); (0x9a6828ba1b3dfe26a1b, 0xf5387b02372cc307492); (0xd671030963e90e5f48b, 0x69190d75e53e1804427); (0x5be807fb6be8f02a0ab, 0x3672d8589e53c2c112e); (0x2f9d4b21f4caabb531e, 0x5b0fbda62cec27edb54)]
  [(1%nat, ((0x0, 0x1), (0x0, 0x1), (0x0, 0x1), (0x0, 0x1), (0x0, 0x12c2485f4768d685d04b)));
   (1%nat, ((0x106784a6d44c942dc0bc, 0x1229127673c0332a4b2d), (0xf5fd511ca41cb92bc8a, 0x71fa8fc37ff21432407), (0x25d9bb8d80e52740560, 0x1469ae88beb08a550051), (0x136cac64e9c1e1f35eed, 0x5d9f7a7078a555d3ca8), (0x51df2b922ec9946b515, 0xd2508165766b2518cb7)));
   (12%nat, ((0x80df848090a01f92784, 0xacec07aa74198f0de5d), (0x571f0f0417ec74951d8, 0x28163647a2675c04151), (0x4ae93c1d378fb5efbd, 0xafa95ba2881ce4bf518), (0x59e7573fad43f9a21bc, 0x4d1dce834f1ba8daa74), (0x3718d4ce3764a36d46b, 0x3b38c9d1518248cfb29)));
   (15%nat, ((0xa37f05fc787c9f24ea, 0x33f07ec762a3a0d1bcf), (0x7dc241599f7cd1b905, 0x12c945aa8066781830b0), (0x1073c0588495d5839feb, 0xa705bbd713485697081), (0x51473028bdc3be2733b, 0x2938663b9876ed79672), (0xaefb0aa090a7f77174, 0xed0030f5597a66900c4)));
   (15%nat, ((0xa3a71db085c12292110, 0x42b057124693da4ad40), (0xcf5303e95c53b82574, 0x837e1068d6d04b6c95c), (0x32604fcc5a685e5838f, 0x763633db6a1e2b2e07d), (0x28b6d11a031577c1104, 0x873ae3431a1a1b6cd15), (0x23e0d86f386c4d0978a, 0x13224eb4e753be0b5102)));
   (5%nat, ((0x11112432f220c1e801c6, 0x8318fb905c2383b84d6), (0x3212fa26deb15a5ac13, 0xb3658e2cbbe770920dd), (0x5dc482e9d194381c2de, 0x461413135d38bf5f0e3), (0xe4ef68180e34aeb304, 0x7df450dc98726fe9f55), (0x2d4c9567f4f3454d87a, 0x12eaf92b617321aae23a)));
   (3%nat, ((0x10aefc79f611b921e1f2, 0xdbdfc2917b16301557a), (0x8cdadba9dcef3b688be, 0x4c8ab118776dd0919de), (0x1111cb1f9dc97a9934d, 0xdb1dba12d5891f094ab), (0x8be2af556767b526a8d, 0x2aae437c2770db4b820), (0xfcaa9e2090c94bf189, 0x12c27fc66358f8c77efb)));
   (13%nat, ((0x1067e58d2f6005f82eb6, 0x148f4ffc6ced0fc89dbb), (0x13b48c7a5406ca9c5256, 0x7ca739951c0035a2d1b), (0x2d45aaf3448a6f32882, 0x5950bfd09542339c8df), (0x173dffda06fe689bbbe, 0x49fd6e0fee315166fb), (0x16a8090f2f2ed15659, 0x10939eef8e97befef488)));
   (15%nat, ((0xccf451a2a893c3418cb, 0x788c2dc02be1f664261), (0x2a56caee1f28367a47e, 0x90767c919840a6587bb), (0x3ccdf8e936286b925b5, 0x970ba1a16217746e3f8), (0x4278d9a6d06ffef77d9, 0x8f1d2fffeae7d449d0b), (0x25f853addc8457705a7, 0x1568970fff3791bc6c51)));
   (3%nat, ((0x155da3935cde4ae31b3d, 0x50f5f2460af63a90d98), (0x1318eb13bbdabb8bf1a, 0x149f974148220722240e), (0x13d3ccf3ef5e1f7b2432, 0x426fdf8311ec1aae7da), (0xcdc2f01b6302fef4a8, 0xa09430f953ed988459c), (0x3b69d3ef90e720ad99b, 0x10ab5d17625d3b10e30d)));
   (2%nat, ((0xcf4113469e8e87a7413, 0xf5437111cee5c2024a2), (0xaf43443de212569994b, 0x5ee26c071ea4e3cd225), (0x1a3b2037184803b7250, 0xe91af3eeb549d4cd449), (0x9e51375d88dd44b58b2, 0x1514fe744f13da753167), (0x11d902e64c6acb6d73b7, 0x1356518c54ebc6f19600)));
   (9%nat, ((0x116e6b2c55d6800bfb0c, 0x690b545c56bbaacc824), (0x20262a73c73ddb9662a, 0xc29953845ad8bdfc80e), (0x6e5536b8dd9065818e6, 0x1c4daba04a3a2d10ef6), (0x2558127824196293d4, 0xe1c55ad8f83144890e0), (0x81c81880b49e7a372cb, 0x1)))]
  0xe3596adf817a491e4b9 0xc6d0318ffe264aa796d.
Lemma prime_77_e8bd : prime (Z.of_N 0x1573902991feec7de8bd).
Proof.
  apply (good_prime _ [c0_77_e8bd]); [vm_cast_no_check (eq_refl true)|].
  intros c H. cbn [In] in H. destruct H as [<- | []].
  - replace (exponent c0_77_e8bd) with (Z.of_N 0x11cff53df329) by (vm_compute; reflexivity). exact prime_45_f329.
Qed.
Definition c0_94_8ceb : cert := CERT 0x260c90aeeea99aaee7e54bde [(0x0, 0x260c90aeeea99aaee7e54bdf); (0x22444ce47a96054cf752685e, 0x19a3f4eda74f22ddcd2f35f7); (0x171776c7a67f00d9e042ab14, 0x1819681c74c5edef544463cd); (0x15b4226324f27030d18abc8a, 0x9a310a0f9c9673a434c73e5); (0x8add34b6c623d8703190b97, 0x4def262548a29f8fb54d3de); (0x462fe5a17c5cfc90d3884ae, 0x202a5754d1bd5ec2321a4a8); (0x1cf7cd9a65bc114b6598b82, 0x10cb8fa064332188373f7e02); (0xf2029544849fc8e50484b9f, 0x18918879e05996a4df35fac9); (0x162051cd0c70d34e039c89c7, 0xb30f241eff5839fca730a6a); (0xa1427b98789ae79544bf37f, 0x252776b9cf1336a167e26c1); (0x2175f90ec28a08354e580a2, 0x688564201727af68967a069); (0x5e218fd63a5360016f94cd3, 0xb4248f58280ee501c0294c6); (0xa23c531fd4fc931238c6440, 0x2244d24f11ff6db27f8093ba); (0x1edcc172db0fa9b7752d09af, 0x1081574ac8bd44b48a419561); (0xedd51bb10e8b3cd769ed227, 0x66930613f79ff08ab044cb2)]
  [(1%nat, ((0x0, 0x1), (0x0, 0x1), (0x0, 0x1), (0x0, 0x1), (0x0, 0x260c90aeeea99aaee7e54bdf)));
   (5%nat, ((0x22444ce47a96054cf752685e, 0x19a3f4eda74f22ddcd2f35f7), (0xf8f9ba9e37b0ef7a9407644, 0x9a310a0f9c9673a434c73e5), (0x232bcf6a01328cd01d46c30, 0x18918879e05996a4df35fac9), (0xe497af53952a0853fdb51c6, 0x246d6ebdbf244020a7d8d90f), (0x43321fcd5aa28d4f1a66d90, 0x27d5e3cbe36de0bc5dfe44d2)));
   (7%nat, ((0x258f5da75d4881e66cb8dd63, 0x2936b16c740407f3ccf1de63), (0x28342cc712de103c6e10b600, 0x26dc8cbd77e9e52dc0b6c849), (0x23beeb637491a558f6c2e068, 0x29ceaec51581f2dc8a694559), (0x295ed77fea1c9797056a5eb0, 0x1052dad733f6eb0c4fcded61), (0x67d37c43655b91df26a6dfc, 0x24bf3695f072d7ec91a3d26e)));
   (3%nat, ((0x1ff6250c29da38fd7524d3b0, 0x11fd165674c0dad557ea14b4), (0x7a8be7aac9c80e34565459c, 0x234a3be0f2f0124f200685c), (0x1d7a311c6f63329217df61, 0x20dbb028b34ad117fc8cc705), (0x198e03b8a5bc76a7e8f476b1, 0x1e2b1e6651aa73a50684059e), (0x11355bdefb126df824307634, 0x1c03ea4bc93c78dd7f7fa7ca)));
   (9%nat, ((0x1293b612312a6570ba19cfd4, 0xdc5f1d2fa36a068abef73c8), (0x47d7750427b0050109742ce, 0x8b6d348017a21142b105126), (0x1cc20214b29d595035c022d, 0xedee62349a3b045b8237655), (0x53bf2a3fe9c6cf228c33fab, 0x8ff8b793b12547c0d4a8240), (0x2622e36509ef17adcd512d2, 0x146533cdab8739a77e474fba)));
   (0%nat, ((0x9d87f4d21b25a0f11055e94, 0x1313f939a94bd5072fd9148), (0x89d6c23929963f341d661, 0x28b82ab0a43f995a7b2acd35), (0x273ecd894ccbac6ad443f7ad, 0x964f3faf17ceeed51dbf52a), (0x216c26499c4835a4a9fd3d5, 0xa2651a177aa7708182e7a5d), (0x0, 0xa2651a177aa7708182e7a5d)));
   (2%nat, ((0x2703585aa6bd3fa586ea5b0, 0x1653588e2bd89742312a6d39), (0xbcc29717d5086d54be7e248, 0x10c32efe6cde292da997e99), (0x6a68c4a609368b4d60419, 0x1ef152939c13dd9518f6887e), (0x16a980f64734560fafce72bf, 0x14849a96751dcc3e863554af), (0xc73c26a659cb2e1694d1355, 0x6c6ec457d75e441863b4d2)));
   (9%nat, ((0x1164b8b93e2fd414c8344, 0x13aefe73223f052d12324cd8), (0x92ba5b65be2785c7cb24830, 0x2f219d0e7d82b5e63e7230), (0x3493f7966fecbb8081b1, 0xf1bde88e9dc14a812efef85), (0x5673647538880a83b9ef477, 0x1781b72e2eb2ad4bed771ddc), (0x63a04b48ea58e1cf31f2d56, 0x179c77dd7272f50fc2b54f26)));
   (9%nat, ((0xd3203735cf0189d1cb8f9f9, 0x20701776e19b14505b3fd611), (0x18e7b91ebf36ebc3838973e6, 0x247ebe84e7b27821276d40ff), (0x1f8661d2e58c9ae694d40907, 0xf35504b0021daa9e1856094), (0x5797873781c61b2bf630765, 0x29d2f05ac9ab7533d72d4fd9), (0xb1422b78d9c1084940da7d4, 0xe9c3ca4d11cb08d98ef8a3e)));
   (1%nat, ((0x50d6e70224644e0145303b3, 0x220e13d18c761a2c773f9db3), (0x1b73450c9f42394acfdd8e3b, 0xd0c1ad2a7352253804c3700), (0x4077da58961fb1a5c7ac87f, 0x217125a3cd1938d6bec07f6b), (0x1a788e9407dedb29c298e280, 0x2093f9b5ef7edadc5a356b39), (0x1d56efd2e7f094ee44e00ea9, 0x13994dc52b8497de503a3884)));
   (15%nat, ((0x9177ae7b1d13d77129ce509, 0x28c1945c89269e0e04dfd8cd), (0x2750f4831013099e5274897e, 0x28fde63374352f3085ab757f), (0x27c5ab2c2e9aa317098890b1, 0x7464e61d7949af685beb686), (0x140a971b65768abeaaabe61, 0x1f39e141ae1c62331945ff19), (0x4bd006c7a9acbf9d8cc8bd3, 0x1e1811dd8acd8696733e0cb1)));
   (14%nat, ((0x156fa3c9c2a05cb7782a493c, 0x3a0367a159d901472eb084d), (0x4fa8f594700acab031515e, 0x142dcc4200d6ebf9fa53cddf), (0x9a349f3b43c4a57167ac7f9, 0x91dd3a00ae49159d3a42aae), (0x1f7989b3b6f40bcd9f6cbab, 0x6c99e7ee4727c92f686144b), (0x2a6d4ae741c3171431a3104, 0x787819a97201478f5a328bf)));
   (14%nat, ((0x157820838a0ee534b3ab5ec, 0x17b46f26d80ee2bf7b302edd), (0xd4cda950830f6a69f5aee68, 0x63fb127bd2ee0179a227151), (0xec9a0b9b015d79e3eb9402, 0x27ff8297ccae5b022fe4a5cb), (0x25de03004678b20d6f2e54af, 0x24805733f1ddfd726c5ade54), (0xe4286ff6106e409d334915e, 0x66265c3e57f25fe2ade488a)));
   (12%nat, ((0xf6fab3f4c67c5a0598229a, 0x246714378c1101ee9233ef06), (0x1f5d8c9a02adcb1a8803bd8b, 0x1c709905ce494a15f940318b), (0x1324f042b66a77ef5e402157, 0xfeb3f28061517800fff529c), (0x5ff82de751cbbd816b836ce, 0x16a1a784d5e8b9c06b0357f6), (0x607f485bc199c5731fbf90a, 0x1e5f862a759177b06def2c16)));
   (7%nat, ((0x15d5e7fea508910ed6018999, 0xab7b811516d7f1febaf9671), (0x2b8063d31a109a3128ae34e, 0x2367ca9721c91b30c83f4d47), (0x1daba69076eacf3ec092170a, 0x285bba7f787f9fd06ca32b83), (0x268d68bb1418a34030a651ae, 0x28d9b73145035cd259e5224f), (0x103d3ff644dddca2c9b5b9f7, 0x18898ac9e13172384bc5ce1)));
   (13%nat, ((0xe4031424051656606c608, 0xb20c56e452f19aa9f4e5469), (0x2ee580650a3ef749c05f1db, 0x184e778d9ede4c59516f4b08), (0xdfbe552f933f9e84cf086e6, 0x1bd3d697e6a2c8d7e7fa131e), (0x12542a41879f6e6fb9c5f441, 0x162d0c87a8ff63fe702fb3d9), (0x11fcc2de238d0aab87b46140, 0xf38c19831759631a4ea00ea)));
   (14%nat, ((0x57bf33697f373e60ec5ebe1, 0x247f07c9e9251b7d1af4259), (0x1f86e06879fd143250a15e, 0x22a75b4638f1053c3f1279a7), (0x1c6c8ba506ecdace4befdd2d, 0xc7222ad13ad779b1877a6a2), (0x3aa95c87c603f06f2185f59, 0x5231c68c621167748fb4bd1), (0x201c54d7d1b873ff91b0ec6, 0x14ebc137ab6d690eb97c876f)));
   (8%nat, ((0xa5c145ca9292c081328c047, 0x14dd2b7103b9938e9351ecf4), (0xa4da7974d5d936c170f2812, 0x15e4978db2230b7886a1280a), (0xb583e9c6ff7ae3b285bc5be, 0xab29661969d18f474cab2fa), (0x2b56c5a405455641d93b4f0, 0x11aa296ccf1d717437ce43d4), (0xa45b8987062dca3cd88b6cc, 0x25a2f83149654c3939d8ec30)));
   (11%nat, ((0x2187222f6c6464380c1b9095, 0x279b3df88a71ac3a7a625439), (0x252116a786eb39e5e5ca38e0, 0xb31a22813272b0f89fcbf11), (0x2f740bcd624aefd1b4c0560, 0x2a1ad86ae7a49e584538f001), (0x29f61c9a0fca6c200038a18b, 0xbebf2a4d7a162c15fe49168), (0x1d7e550291a37dcb6e60ae3, 0x205084fb0849a3400d578147)));
   (13%nat, ((0x18b7558f61b2a59060c5f483, 0x125354f419da2cc5243a8970), (0x7f2dfb464fa451a367cee13, 0x590d8d460ec25799a97218f), (0xbbb51f1eada5aa6ff693ce, 0x20b65143aa2ffa4f568fd7c7), (0x195403df5bfa914116c2b57c, 0x1be571dd7df1bccb78e173dd), (0x16a08f6a79f887e0019f5873, 0x1)))]
  0x2922fcd9112717bd0e5177f4 0x250c268e63094e5970ca0305.
Lemma prime_94_8ceb : prime (Z.of_N 0x2a3fb463ff8c656212cb8ceb).
Proof.
  apply (good_prime _ [c0_94_8ceb]); [vm_cast_no_check (eq_refl true)|].
  intros c H. cbn [In] in H. destruct H as [<- | []].
  - replace (exponent c0_94_8ceb) with (Z.of_N 0x1573902991feec7de8bd) by (vm_compute; reflexivity). exact prime_77_e8bd.
Qed.
Definition c0_101_a92d : cert := CERT 0x100fbfb2344e60c85f81279b74 [(0x0, 0x100fbfb2344e60c85f81279b75); (0xbd78c23db43154c5d78bd0b94, 0xfaf87ad6f12e5ed86d71d2675); (0xb909b38e025a91cc94d5367a3, 0x1392961e0ead91129b48fe97d2); (0xe6e402363d9c9c519d4d40fc8, 0x12ee6165b439c45e1782f3bad2); (0xdf52eeca06055c3f4e025fc3d, 0x73ffb8468462efd0bdf29ec41); (0x55865453058faf87d8450dd7f, 0xb77a587cfc1b7fb670d9f8e62); (0x8746b8d87a81ac4bb9976e98b, 0xf33acf4053a96eda457f985b); (0xb354a3381c4fef8a24a06f3d, 0x1407977f2d3b2e2369c5a5e7de); (0xec4846fec4a936f26a698ed9d, 0x11cbaf507c139cecb051a5f8dd); (0xd1edb492dbe7c2aefce3d92a3, 0xd2148eae88c09f975b372a5a); (0x9ae3d10f44e3b67a06419653, 0xd33be1513f738c71827b0a18b); (0x9bbd8e0e4d7e639e76b8a60e0, 0x8f3837a9e337b80ec25ef1627); (0x6998205f327a39372dd8f6a03, 0x11eaf298281ef6763965921f4c); (0xd35e80441cbd4f586619ab28c, 0x6168ea496b77d366a3fcf8320); (0x47d1b6fc164a90490f5ad4731, 0x10dfbc1c7f146aa33cc9f27103)]
  [(2%nat, ((0x0, 0x1), (0x0, 0x1), (0x0, 0x1), (0x0, 0x1), (0x0, 0xfaf87ad6f12e5ed86d71d2675)));
   (10%nat, ((0xb4b534977b60f1f16bea4dba3, 0x12ee6165b439c45e1782f3bad2), (0x107397625299dcf774ba6ff1be, 0x1407977f2d3b2e2369c5a5e7de), (0x126a86d6ab9b67a165c9b68936, 0x74b17e9791a69dd88850ba006), (0x27117515d02dfac5ddb4c5f31, 0x44bf24b146af35deafe936b87), (0x296f60da74d711fcc49f7189, 0x137b112002ad4a1f0c8dea8d61)));
   (3%nat, ((0x116ba892791c25ceceaa4c3f79, 0x50ca29e8168f16722a8c5f57c), (0x12b9d6059de4e9d29f62aa4e5, 0xc7967b1360f5b1e9c75a06acf), (0x7249a278165552ed8a096d61e, 0x2209f51d2eb463a6062daa21b), (0x352fc429b51db2f4dbf0d768, 0xa76281667077a2d4bb1f8a991), (0x96638e4aac8a30ee5b91b773d, 0x95b269aa4050161fc6e2e6539)));
   (15%nat, ((0x404ac0b29c82b9e295fa0872c, 0x138effb6998f962a5ba61e37f5), (0x118f60bc1bf36d8ae9c169b741, 0xbd3dcd060b3a40bfac224110c), (0x66bee4819814cf1d35eb3994c, 0xfe4b5895454719e106a4d7a34), (0xb986a0946c50219cbe71d8544, 0x15a2d3c1853837eb75eba3499c), (0x10c248e3a6344709d6ac6acf14, 0x13a393962941be600df7551e50)));
   (11%nat, ((0x11b4675d302f69a75359f4801e, 0xc814975f4d28766c58f9085ba), (0x72da3d415ba567e740af61df9, 0xf88280f239dfd42655aba255f), (0xb12e7142a2840259f615e0f86, 0xa63486549b4402712fe0068b3), (0x4f40fb40bacb05ddf5ca77b83, 0x1369eaec9f421ae2c2bbfbbc22), (0xbc3ec91e02b5e0352306b969e, 0x81c8e5940a0d2c6e03070c0b0)));
   (4%nat, ((0x305363f37e9f13abbd70b9fcf, 0xae9859ed1f71986be1031ba9d), (0x577508f5b6420092913ee159d, 0x4d9f2c245c13e09f2616012b0), (0x1149410e9a180ae835ff28475, 0x972fde57574f30d0cbec6b36f), (0x41940a1f9ef069554031a060b, 0x13ce452344c11da7f9c56c1732), (0x113627c9c8ccd2dee4abe90a30, 0x425947c42df56e5361e8ae094)));
   (6%nat, ((0xca13b03c552682bc41bf13cf, 0x56a601383f53e41eeb09d332d), (0x158a54b394334bd08afc61d25, 0x11bd7abb60661a352ec9186968), (0xe72550995da0d3d23512d073d, 0x3891aed6cd60a1dfb6a10ef87), (0x92e551dce0fe82b6c3b84244, 0xbcba69c186c23552da90acf3d), (0x6358a7a194f3d07fa38126944, 0x7970dd6c3230dc2976d6fc666)));
   (3%nat, ((0x2a4fceeb07d33a542c5b19e29, 0x5ae861aa87f198d959180126f), (0x17b5c774bbd17a259ac4ec33c, 0xed9da09b3f111f55f9068de95), (0xa1fccea902b5fe1a7ae50def1, 0x200b3bb6a98ba428b057e795c), (0x2f228022afd51a02510c54a0, 0xde6a6ecc9f98ae6a93c8f98f0), (0xc7d5065bd9479785db66e1f40, 0x1bc7dc793941b2cc0122446a0)));
   (15%nat, ((0x236d6226d7bd8fc5d31a33f1, 0x4df8b7b3cf19fa6bfd6e2a9a3), (0x11713a161900384ec76edc574, 0x9dc8fa287b494685ea67f5465), (0x476d562ecb4d6717eeae5cb45, 0xd1d2af83ddd5fcfb8a8af27b8), (0x7e4f54b013759883299d2027f, 0x11205227ec25db8a37751d4ced), (0xd4405ea7f4ce2bcc8d4047c13, 0xd33063b37e6459628e882970)));
   (15%nat, ((0x7ff5bba21c8be3fe14e6029, 0x8d40ffcc2068d05241e5f18cb), (0x393e8942617860688d97ec7e2, 0x8887960a0345a5d542c6b5c3f), (0x357aadff9dfe706e5ac6eb0b6, 0x10878d738dfcc140cbf6522183), (0xc8ac7f2c2a4b5fd5d16e5110e, 0x10c45413d782f2d00d2070cb93), (0xcfcc4694c9c9cc331f59c9300, 0x3fe2af1d921b6792b61936eb9)));
   (8%nat, ((0xbb59ce70251311893331cb0c, 0x114a1ceba92a212a32e41de495), (0xdb8d28e5a5910bef49f01f1a3, 0x119d3d1ba2dc0b0f9562a3aa12), (0xe3e022776a3cbb73e2d7bc91c, 0x938f43c216ba584bc26b21358), (0x3e7820d56935b24423afe589c, 0x1585053152d1e97a930bf19ed4), (0x13c93a7560ea2e4e1e3c1b6805, 0x879cfb1a3a2ea2bda73c71f7)));
   (12%nat, ((0x34c3813e58e2106cac4168a, 0x73cc5f6407cb4f1106da2ec0f), (0x2678a0eaa920f91c7a2dc8e35, 0xc3372010e4c2293f82d7dac90), (0x6d55bfec528121a8c3a31d987, 0x3144eb60c352f09c450e87545), (0x6f6e1a95b987ebcb48dadfda, 0x15c0de370a95e91365abfe147), (0x8f03c1903f5b317addfb8363, 0x2d2d915d1bdeaa2f68b91f86a)));
   (6%nat, ((0x5db14c838f1f03588a65fa30, 0x10a4430f277ab08665594ae174), (0xcb67f20d220c32cbebd1d6c2b, 0x10d4ebf85ccf0d330e720cb601), (0xd0143f843e239577439e3a008, 0x6bbb376fa4a9e07aefc350299), (0x214c3a7dafeb8675e49c0e6dd, 0xd5121b8f9c96c80f016c4598), (0x70290317c3c5029972b97782, 0xc7d6f9c05518d7931a90e2056)));
   (5%nat, ((0x72938b086bc1c725cf6f9da64, 0x523ac445eb526a415d7163550), (0x13663b945c1b81363300a41cd, 0xce01136097ccf8152b63852f7), (0x79c1084c08a902c43ecf2617b, 0xb008e72be4ca6448678c1d4b2), (0x58e7c8670a82b50bb23602b6e, 0xf3b27b220dcce466e8bb00b6e), (0x511a4e39b148aa843f57a32b1, 0x132c976dd7e61b2f2596348cd1)));
   (6%nat, ((0x10e0690e5599593bc2a17a9125, 0x2063b675bace393d75abc5220), (0x3028337b12498f4ef5fe9983, 0x10d9ebc4f496460f5987640cf9), (0xd08fec6f15a7c0f8319f27249, 0x162acfd58c9ee7ebe068c025c), (0x168e7f31ce16ec420a296f8d, 0x9eb982529d666e3e17e54e047), (0x538d6f6b54714a18b5f82cc6c, 0x55fec32abb91d42231e1d0232)));
   (2%nat, ((0x15377e3f18853b9d30bc762f3, 0x67aaafcbca26168e5255e020d), (0x1ed525260be7bcc22ed2d3a15, 0xc75dbbce0095ceb9eb4121f8), (0x7208ae8ba9ea7cff1db71f5, 0xaa6b5a524b06129e225201b2f), (0x5352e39718e03902d32141ceb, 0x9aaef8cd30fcf8b53006ba52), (0x6f60ad640ac5fb8726e11c3c, 0xf57d864fc4bb370b9519fc0ee)));
   (1%nat, ((0xace6e87d91b8518988893fa1a, 0xb8ca1f6efad49e113e223bcb2), (0x61f7e87c36264e07548b7dc54, 0x739e93b520f62a8a882ecbd00), (0x265a391c6e6bef353d5216960, 0xee628f577d4df31c70e991a20), (0xa309bf7322d155f3ec5cec423, 0x12f4fd748edcbc6fcf76baeed9), (0xdfa0e75cf43e1f0f54b4dbde8, 0xed06df18c3aa8a72c1df30265)));
   (2%nat, ((0xa12f83e32dd925fd9eae263df, 0xe48b51a6fd2e2c8d32f7df6a6), (0x95daeadc38ef1d2a78cb8a1e6, 0xb66910c73b53b2a47b1322836), (0x5f764474a664493b7ce16b259, 0x1464a8a69df7b8ba5e04dad0bf), (0x13173829796127d46cbde6d7e8, 0x13739b0626edd4da7a1846d2b9), (0xe017e88109b57e9d4bca48824, 0x3cf36a5c04fd15c80907f1239)));
   (12%nat, ((0xaa88aa548b2f363fba267d73, 0x2ec7e334beaf1666a72a9187a), (0x64755fe981f0c931155dd2b1, 0x903f3d1e24162742c9223807), (0x3bb22a62b7ea1375e7424ed, 0xc93a1951401649c083701d88), (0x742c2b862c74599bc772281, 0x14bea14cdec7eb78bb0bbde93), (0x8862019b0b7bf4289674f67b, 0xd379326ed6e5b087bf57a03c6)));
   (11%nat, ((0x804e0556d50e9fd8ac8f9551d, 0x1215581cad0bda79fc981e220b), (0xf02d22e5bba2c9a73cd0b2a2d, 0x6619224f9210d51c98268cd90), (0x1de817a2805d9686e5005a9e3, 0x1074f5618d6810e3d11f8e3919), (0xc6ea035676ab16e2c128d2ca0, 0xde2eaf44efa2717ce74b1ac51), (0x86a63ec956154811c331aa9c6, 0x10e6ebed25a4458782620bf32d)));
   (8%nat, ((0xd1d2377d99f26de9c0fa2c1bc, 0x3d46880d4fe897ee2282b4bdd), (0xac5b00cd9870d8b2b91cf3ac, 0xb7df80123f83f96127bd5db8d), (0x60ffbfcb4fa645b6ea301bc2b, 0x75322e605cee94e05dd6a151a), (0x2767cf56b5032de681c55f2f4, 0xbf3af9b57caedbf3f56367dc0), (0xafd34b2ae2ba73e55240633c9, 0x7500684d2ec4c453fc29e812b)));
   (12%nat, ((0x27465dc2c24f19e9772de0456, 0x100aaccdb331c6c51da64d41b), (0xbd01200d0fdb05b5b7a2089, 0x9abe1d9263e6b88397a4e91c4), (0x44b2f9bcb3f83a72787546ff0, 0xb35e807212cc099aabdf280e0), (0x5c4e28cbdc1cea33ab712949a, 0x49af16fe3d9d6e23bb33afaee), (0x1e46cc970918dab9ea5ab1090, 0x684b88f9f1a079bfc337db4f2)));
   (14%nat, ((0x1f351d3cd5e08732eddae2b49, 0xc4ee393849796ea913c7467ef), (0x6f43c3e4ac64c729942159b4b, 0x3d7d3fc98bfa0cdfcedfd61f2), (0xad8f5c06fda218c8b7045274, 0x1525dd45c2af2ad9f8750c3660), (0x1487a4e848f60c42886f6342c5, 0xe3bc0601015bb68acb541da5f), (0x3fa50fad2190d188811d9a262, 0xc1a89df3f2d8d246259eeaba6)));
   (11%nat, ((0x6b99243cab049af7c0f841ac7, 0x5219d4060a1ddfcdec22d1ba9), (0x1356b4122d90000aa96d775fd, 0x13f9d07d0246e572a2ba7f5318), (0x125139c9a53f6eb612af10d436, 0x156b791dd217a131227439ec2), (0x150fa972bbf083f9c0646207, 0x14f44985fe88e3e59142f830c9), (0xcb2ec9beac89ca2a2810b2fea, 0x1)))]
  0x15a554fc35be505effb4ae52e4 0xff5903e27b356f5ecdfdeebeb.
Lemma prime_101_a92d : prime (Z.of_N 0x15c8d9038fc4644691b0f4a92d).
Proof.
  apply (good_prime _ [c0_101_a92d]); [vm_cast_no_check (eq_refl true)|].
  intros c H. cbn [In] in H. destruct H as [<- | []].
  - replace (exponent c0_101_a92d) with (Z.of_N 0x2a3fb463ff8c656212cb8ceb) by (vm_compute; reflexivity). exact prime_94_8ceb.
Qed.
Definition c0_166_701f : cert := CERT 0x12e5d4ce432faef86bd2e21a36739b297272e07705 [(0x0, 0x12e5d4ce432faef86bd2e21a36739b297272e07706); (0x594810dad74b5848f165fc1ddea743cb4fce4ba3f, 0x9c3d447538dedb17d64ef209080ea0ab054df7683); (0x2e224dfc676b5c85ed017ab9c3721ef8c7a593409, 0x3b5e78cb7e2bd7cf74040a04dc57e214cb42b36efb); (0x1187c569ba25cca6eaf388c3e0df7bddbc466f4901, 0x25e99ea8512ab248db514824119778b5b19409ffc3); (0xb31da9b16677adc237304d588a36fc0372b78778c, 0xb670c43d58f9d65ae896c3bb6491c26ee7ac7e99e); (0x35dee150f11179759cf983f7796bbf9ca01ced854, 0x30b2d6b1044f0381aa2398693cf09ead62f8caf988); (0xe612e3754868cfad6fe2063e7e36a6edd9093bec9, 0x2069cdd366728e1f32d8e339dc4f4c461e057506d9); (0x992283edd9c7774741ee9445df79a740da6ae68b2, 0x1b44c3b90a0334b267baf395caae56a82d18227a88); (0x80d43c40733f4ffd34d5a4b5594647446d11603a6, 0x1de4f1482b12645295561915782e986317cc570616); (0x8d3be7259e0eb70f89a5b2aa20d07ef147aeab963, 0x18095c7e8833474ce14e38d1e0264c7bbd6e119b87); (0x718f36f04ce5364236f50dd5e41878b9951caac6a, 0x16ec4bdc6b32f6ff850aaa52aa2b8f333334962554); (0x6c4c70e0ac4ac0364885dfca9eb176d57eaf6bed2, 0x2585a054b8afebfc7d92b9c4e545e38a812663f08a); (0xb1453fd13aedcdffb30ffb27cf23fc5f7f6b6b8e9, 0x38e21214746134cba84e969f111071208557127505); (0x10cbdb22a130c278e5af2bfcc8f5712c7fcf7c69a2, 0x2d64750335c26cb332bd40c79c5f97620c259e6680); (0xd67434aa5354b0703d8f11da2504ef187ad3e5f53, 0x21ed7d82251b515385649357ab7af39f269050bf3)]
  [(1%nat, ((0x0, 0x1), (0x0, 0x1), (0x0, 0x1), (0x0, 0x1), (0x0, 0x12e5d4ce432faef86bd2e21a36739b297272e07706)));
   (5%nat, ((0x594810dad74b5848f165fc1ddea743cb4fce4ba3f, 0x9c3d447538dedb17d64ef209080ea0ab054df7683), (0x17d6ae8623decc4738d1e223b0f53d54865d157fa, 0x25e99ea8512ab248db514824119778b5b19409ffc3), (0x1675743b60b92873b772cc7fbde40d7a0e9a7ff7df, 0x1b44c3b90a0334b267baf395caae56a82d18227a88), (0xb9e4f066035a747efdafafe19f04df1dd6614f09a, 0x103a371196097b777c7a95949caabfa1bdf663659a), (0x2e42243c3823448409f051fc77149b2b3e43c8322, 0x3ec378fd5118c41e370110d4a74fb547be27071dee)));
   (12%nat, ((0x3d8d0f70f98005a814b3d68f2b99b205b18facdde2, 0x3cb095fc8b7bc9eb363c584dac659eb1ffb0740ae6), (0x398d0073d2071173965f67169594a03dc10f00361f, 0xf56e849e52fb29bd757765a9a9e04c7b9bf49a8e3), (0x3ad32e6351e5ed4e8368101f10e82a7161b5cc9a5, 0x130a68668f6ecff71691c1ebef747be0e689391e4e), (0x5aa2fae2f84949e492b76df02afbeed3dfca17ccb, 0x1d2fe07bcf17f2abf8dbb54089e348c916434e732f), (0x111c9e64694a3e381f5aacc6643886393412ace6f9, 0x29c65a773c776ef4c8132032fb768bbe14f0373f2f)));
   (8%nat, ((0x1b448aa9071f615d284457a449cd6358b03754ae62, 0x34816426d4e1dde273f369f5690ff64e8977b02cc3), (0x2b1348577332a7e7db059c04ba3d8cac650591c590, 0x346fd60260d5447026bbfaa0d07784516b5cedb019), (0x2af67f31013a5aa47d7cb18f6932668ea3c5e257c8, 0x1541eedf71ea05c7e3563322997cbe58c798a44139), (0x70f88af5431e28217cf089cc30882350cfe4916c9, 0x30e42080eb6050885417a2c54449e7daf4b9e54c5a), (0x14d4c59d5a6392283b0eac756dc4ab285d45f788b3, 0x1e0f981a4045a826355a179f526f501e2ec5aa9623)));
   (13%nat, ((0xe1ea265520c2a59fbc73105d3bfaafc2de9141a19, 0x2e7f5586375d1d4b55a399c994188b7c8ce28fefc2), (0x21c80848ce8b302fe9b667499043f85323955c3f7d, 0x3f4cf2d27d911fa2ebbbe1ab47c1a4972eecba6ee1), (0x3e9bda92b46a78d66105a35df5068d41a3ab398ad6, 0xf7f00719f85e3ecf1bee67d77568f13495fcab1d7), (0x3c0843b05b8a7f0841c2303a8977105416df8067a, 0x8cc7bd316cd56ee3a2538e5659ce26867db42d9cb), (0x7d200ea48163f28b656a3e0c23425e3b4c3a2b848, 0x31929ab560d2e07eefd8bd0fcbaed5036bbc52373f)));
   (9%nat, ((0x2665ccb90dc78de1b60e371ee5666ffc49b635cc22, 0x163defddea025b0837ef889db1ca70f9bc4ba78963), (0x7bad0d952e8204c3dea9adbf9728fdd9ce8170885, 0x3ae11dd5eecc8ecbde034916e470147ec4890de42e), (0x362b1de996f27ca3e9da2de2b241b6c7e5e2748e68, 0xd241df1f6d6f94066406473581ec7ec48cb4b39ac), (0x2b2c08c0a7fe1981eec29255bae1ca2e878ed25a2, 0x2d6cc9dd325fab1fa8897c96bec5a1ecf04d499cf2), (0x1537ca483ff0fe52e2038690ff209963f41c2fceac, 0x1e6f9e86e88cb2810a89f6e62dffe8fe4ffc15e1f8)));
   (0%nat, ((0xe796749e6a5c7fbf503c9f5d47894b38cdfd4adbc, 0x15e767374747f243627b6a88ece50b1fff8efe967c), (0x77f206a0447e38775e524114370f7334b2aa7e220, 0xcd8e82821fe26d0607fb4e954044816b7dc632a30), (0x294363165c7d1b14be08b4163d30098a39ca820b3, 0xe145fdc406663059061c11da53c344675e7b48353), (0x318f06cd569e07b4953b653ac6bf2724aa3106f43, 0x15db9a712b7f2fd7bb2fd85bdc2c8a3779d3c643cc), (0x0, 0x15db9a712b7f2fd7bb2fd85bdc2c8a3779d3c643cc)));
   (3%nat, ((0x7770ee0afbe8f46cc2f81255853cbd6b393f34a39, 0x53c80a1539aad35392812c9658847b7f5da967da9), (0x6dad4b6613d228d8fc6d90867881fbc0223a477f, 0x294172fd6e264017168c5c5b2eb3b5c706d2db4130), (0x1a981e43168383c3a41a2d9b354131f9b6eff18a13, 0x1943434f01f21af704006b5c247646d91698bc60b3), (0x9f8d346edbb059526879bb37ea1f39c1e3126cad0, 0x21762a19c7e31bc73c00ddc4f2d82e4808f0512df9), (0x1f0a53858dd862d8c78315682eb8e1e1734a031cad, 0x3e75ecc081fea2efa819103cd85f9fdb65679ce830)));
   (8%nat, ((0x3cf553fe0786a8770372b702ccde2b32c3a59622c0, 0x3960283f58688e9f378f0eb4b87e371dcee974d3c0), (0x336fd829acd2e4ecb2dd818c2f61ea2a593349ea8d, 0x3af92cfb307eae16cdcd84e385011f773da789f8ed), (0x36576ba96a1431d2ac39c60bba7c96419d47cbebfe, 0x36f0c5dcf7e477e3fe64a1bdf7c0902d2f38b357a7), (0x2f29d7b33f4c0cd6703446771c41f27e46312c46ff, 0x3f8e5297aceb50111321d503716585a16c8d17c610), (0x1b14546d23194d01767297eb5441c77272ae68c61a, 0x3f04d9af762aab41c45150596d3845488bd8b37b5a)));
   (15%nat, ((0x3e0d8cef8afe80db4f949f8c9facad9f1e688eb2fa, 0x1d6c5523df8774286145dc8d942ec7b6208e808f5e), (0xd86e4884ce88847f5d6fa6d8e0cbea27ec91e66c0, 0x3a057f83888bf101a2f89f4adb67c0ea1deb67b544), (0x3499f797521a0ef0245927949a4c33beb76602e3a2, 0x6bb362512d58c66a28843e9a5d37d281057d2c972), (0xb53dc789fcbf81dfa1c980e66d958654ab032bd9, 0x1a82fb100be2d27b4ad04b3e7df677c73b6b9bf77d), (0xe0dea7bb9555261bb7cb36c50ac632357fa02ede, 0x3e2aa5b35cf95d23897477a1e00656a9e950067dc5)));
   (12%nat, ((0x3c62bd76ac8ff9d17b2703d9dfe2b9f76aa88779b8, 0x168990aeaaf4421ea1e25231c676942279dcd5bc51), (0x7efbb28c867b12ea4c74c01be0d5afa0e948cc301, 0x267edff0bb11527446d28c5468fbdcff0ec9fe0482), (0x1727a572b19a473c993ed7ef6ff7655d60e800226f, 0x322066e56ae939dce95d3b0ef02386f1aac4de9693), (0x2742b12e01e5cecc3999280739155a56858884e0fa, 0x2b234862cc6bfe95e9e267dbee5319912c95c9fa23), (0x194a773cdb4143fbbc2eea147fedbde3c288446104, 0x1ef3af344d4ea883d5c35e1f3814d12c2685552762)));
   (4%nat, ((0xef814195d46fccf684ae14bf08fc182dd82ce41a3, 0x39cb14c02369beb6875451859c3ad0f56e5c2cbec7), (0x3430415de8af597d9c3b636bbb6e9ec78a35ede702, 0xc374b6ec7559a55770d3124961f588fb86cc62573), (0x254ec0f8a0f17f1945d30301a5df13028e14d3dae, 0x3d0f541f943a9a00216063a6102d3995705325d997), (0x3a413c080ff025b7340429118ac88bc8fa8cf77f9e, 0x1dec125b484e5b7eb9a5c63a51948ab661eb57c2ef), (0x11b9b43d1914d1cbd2d7b38389a9224adf56db14ec, 0x33756babc980f575b76919be1b56e599869409c479)));
   (6%nat, ((0x295ffb082a627d978b066d7882f2704e364f79d25c, 0x217fab7eef137c25c9a853db0b933ae9b548bec80d), (0x1188a78951dc36aca7263a2ab16ec84effa107b742, 0x1223154e3cd0b97c5a42eb207e2383300730d63fab), (0x523cf3756dfa42e43101c529f774c05b9d6d8b10f, 0x3a842fab52eb7769ea77bec6d59441cccfa98c9b68), (0x3580a76b4c824025eaf8aaab4494e19f35f7350ea7, 0x3dd650f2813b85cf017a5d332abe4f8dc0a6204407), (0x2f0d8836aaf08db2407790114341e823c7f050a2fd, 0x225bc76f181c37e1018677c66746047d6c52a78615)));
   (4%nat, ((0x127207839b022a651ff182117b5247fd014e7a0bc5, 0x3006faadaa370e1ea0c3cd266d3ad415750d9f60de), (0x240a78c755c1188cb38c208a50c33d9665d7bafc76, 0x2ebdca165913625ec0f9693539cdf6bb8236790e3a), (0x22230550322711fd4b4dfb3d8b857a4ebbd9f844c0, 0x3124cd000abc019961531c1c43253a034d533a11e4), (0x25bc6f1141203ab915a040ff1f4beea7c7e5be383b, 0x2e61240581942b58dc6c07e5f9edf385fb040073eb), (0x1b7975741db37160b2e9cc977d82ecfcd0523d84c9, 0x305092b95708ca070d8ac4a0629a3825a89a985caa)));
   (4%nat, ((0x2479418622467ad760de0f10a795aacc00642eceba, 0x358f37dc7af00104d05a0e91a2288230071bd8385e), (0x2cd27502fda4cd0f268609e6b5114bd760b5b7b1ff, 0x3b11a5d49f772e118565dc1f0468836b9881e224a3), (0x36848e9dcca78ce14fb342f8bf609fc782f8317654, 0x2d56cef389bee846279d48a084314e672ff23c2b9d), (0x201e88c5456a0d2b05aea4a0928f14cd5df079375c, 0x259b26b021cff3ebe53b806b074c1d4b5b985c2a25), (0x1646f8709b4127752cc90c9fe7769626143fdb8f14, 0x2bc3e98657a559a1d63e2954ffcf3e13b87900e1c3)));
   (6%nat, ((0x1ded9982e48390371b25ff0358dd22ac0f394ac7d2, 0x2af7d4f840a441ba62648a7ff413edd50c3c00481b), (0x1cd9073875baf9556585c75307151678d6f30a4e3c, 0x406edc34124956ecb78a57dbfe70ce7b80bf17995), (0x40de78700d37b20a2ecddf072a810504cefd53b7, 0x54c19dedea78b5863613fec87f102b8dc9e69fd90), (0x703e884e9021bf5743091c53f5b8ee6c72042318, 0x3dd9310d4a13841860d93fb608e2c096e259433118), (0x2f0fb853b15eb058a9a29a74694620d9ad42ecb4a8, 0x14f6b994d960da0e3e898b055320d53c2c73970c68)));
   (9%nat, ((0x6ddeb21ca4583bd637eecf693692ed6698c0dd8e4, 0x32ec4c1aae3ea7390597722d27ab36af5d2ebce6a4), (0x28849f5b4f865c4e97ba15ba7d260f5e9306d9a540, 0x2e2e1497e5667ff9f55394f37207abb28043441650), (0x21525ec7fabd733109e3133caaf968ce5ad9408a7d, 0x2a07e3a747a4b6710121d81c74989df149ef6f63dd), (0x1b9a5bc4846834eedc3185a86108cc35138e20c398, 0x102ca03108079366716d828ccbc71336a3bb687d61), (0x78e148b2e9f84b5b054277ad7cc2a420247dc2903, 0x3c9a806aebe7c630b8aa8506f17da8e9280162c4f9)));
   (1%nat, ((0x396325c37e8e414512c931348d3b35b4ee939adfde, 0x322bd5342eff1f7c1c8dd26b34d7b8c4a8d54dfe4f), (0x27549b26cdcd4b62e60bf58a76f2de86e8a20726ec, 0x1c88a0a618fe64cfb0894151a5301bbe688c8de5cd), (0xcb8b03dab08fd6bd6a2876b588e59865e3e3fca84, 0x3ea57df9ab25a79454992f6b771d9a08cd566b202d), (0x3d52500242ea815c1605b459054ee06520c902f02b, 0x177e45479d22bcf2dce8793e73b416fcf416be62b4), (0x6efe16a0505edf19327ec9bf87ce52dddc4a8ab4a, 0x1bded26b85fe7515e5128375c1bda4b404b814de42)));
   (11%nat, ((0xc23095136d29c11c4ed8a3ef77a3ee505cd17c7fa, 0x1aabeb45aeb0a9d8229a22cd020c92d659e5b1f1be), (0xb1d7cf93b3110cb20221f53e902c1b701a5c1397b, 0x233205a2252d5884e911f97eae8181f2aa2ca831f), (0x135add422682a0470f9548d197a30311d2d3fef5, 0x16f913ad94ae3eecf0b1247df479566e6dfb7aae16), (0x83f06e47af19e2d25f348d15eb73b6482639d8248, 0x7e6256114624db4df7e88aef592c62a9322cfa32c), (0x2d446e01d264795a7c8a7c77ab261e9928bc46938, 0x27a0a04a8d648491b5aa56930ba9185831d2a5a8a8)));
   (0%nat, ((0x1889567de28a91f7359e909b7a3c198d3515381d5d, 0x2e2f38f1a8b75ffd49503c6e58a9edc135414daffd), (0x215404b33821df0e5f31f6183c4630b41a40d3ef03, 0x351b2c8ebf494269b194189bc0faeef464c60d9eac), (0x2c110d5624484136e36cbf5f44dfbe959c08a6990e, 0x3fe2d15551f93123e429e6c2382bc743d4422c1ade), (0x3fc5aff910a739cb668966b7bcb3dd06d67fba76dd, 0x14bf9fb7dfee9522f0d781750c26cc8a2b951c3c1), (0x0, 0x14bf9fb7dfee9522f0d781750c26cc8a2b951c3c1)));
   (15%nat, ((0x6ba0191cc0d66312004cc704c56ee1449ca5b5e, 0x26479488ddbf783d993c97f71e2a28b0b766a5671f), (0x16e550716fb985e2e8d070c24ead09d39509083f56, 0x1578f66a511fcf5e748ddaec58ec1b84c591d0aa57), (0x734465588af17a1490bc944233a09dce9638601f6, 0x302e612f3cae2add9e91047f5603d35b147047ccc7), (0x2445b363227fcd7757b49fe359524e39d226053d83, 0x1700e29cd08ead02a69a7d8cbb257f543bbe3effd4), (0xc31d13c89facc09be12087bbc753d44f5248d90c, 0x7a5da92ac3a62b0b3009a5b2416f6d068899369c8)));
   (4%nat, ((0xe9f59e046d5814e0732e3efedb514d2201034544, 0x125a8a33b3e1a301f5f8355d3422d33e9619168904), (0x5436dd2f107f7cd4808eb52256ca9c6bfd3eb1caa, 0x28a34040fd5db7ba43692a4753ff228e22d9fc6f7a), (0x19cdb0bcc841f7c2c6f84dd61bfee225fafe5b7e82, 0x328958f62dc5a68bd83d99a7dae4cd76e5dadfd466), (0x27e7c1c201217b3b12c34254a818da6296ea978fc3, 0x24b473c12bd3917faddb1116671841e328e8886007), (0x15be4edf1e9b7cccfce0d7f12434c16d7380fd51ba, 0x2080d538b3d80b2c4f0113591ceb3e188390e2d8cf)));
   (10%nat, ((0x1081d8905d050aabbe0eeaef8739e26742b1a28a11, 0x315baad07e0403a94a18deacaed6fddf56009ccf52), (0x2610e0dac9c2c5af088bc09151911e0aa984fe0c8f, 0x203560b2119f9f7450be86daab544cff56249aa0f3), (0x10358d36caa4f4255482868e563f641585a754463f, 0x1dae3b320a72eb77c15d7c892a0fee90b57d39508), (0xdc3bff7705160a919d194d49498b43ba67f8dd9, 0x2946b1c939e7de97503cac8f14a7c5bc7bd71232f9), (0xf808c43b099ab98a5b9fb5c6fe5d4129bd3bf6f23, 0x2d8fa76a2d7eee0b7cb3e7ba1228afaa24736bdf12)));
   (9%nat, ((0x206f45df28649b8d29ca354e01f510d97b3104d027, 0x170899e5a363ec26b93923322f5013b2c64e25188b), (0x84a2fc4f8e9d7e3841c113d03e4260588273ae4a6, 0xed03e6b343481b77dc3d77295b980a9f094340b5f), (0x36dc0e4dc8ab6c3e531e654b9023f74f7810bca49, 0x14e38c717deb9dcabeabeec8623fce28672abcde6a), (0x6d160d067f9d22e7f8002d94aeab35f95cba03046, 0x3c3f9594617c535187e87df229724a1fae69dd8b6a), (0x1c24556f7c1eaf8274a5cba250187f1979c20f8d96, 0x3cf7191a978fb12f65a6d0a898d1bec6fe0fc6b1f2)));
   (2%nat, ((0x3a130917ab481acd5289b3c0818c0de6e6edce641a, 0x39314844663403d84aa3f068faa52340664729099e), (0x331beeacd063558e028b19993747c97e4c33c5c346, 0x2d867e0acdec9c93515ffb507956cca7ad0c0d380a), (0x20623bdff70d97a56c5befc4c79bdf94f92cc6631a, 0x12c4cf66181cbc3c8f4934c0704f080a25b1d1003e), (0x58111e25efce8b9c9dc2814b1d6b174c4bd5feb04, 0x25f9a1971f1d0da1372a8e5acdcca48feafef0d988), (0x5cb4d46d29ab1b8accf69afbb86cbb23992cd7c6e, 0x10ce96b71107dd34423e205ea48cabe3b78987cf46)));
   (13%nat, ((0x469e63725edbcb467efa7fe5139fcc5e4f85a106b, 0x3ebd912aab05f95bcb28447afdb8b1095969527a2f), (0x3d817ac158a321cff28910e8e3964faedc3bfe5ee8, 0x1f1f4ff7343b266f6dd61776b8a9d90fe0d741d689), (0xf2264c955fdea52886de694bec42c2ddbf189cf89, 0x1ce5feb43a30019846ba276e8cc4e77b5ae4b043ba), (0xd0c79646252f2553735d794d0eb0556a3dede368a, 0x1e49951880fd97f6fd8e995585ccc21cb4f7bfe86e), (0x1aeb5eda4f663f26ed2768ffbc2fa14abfd21de73b, 0x1)))]
  0x7689fddc6e8fcd8824f60665c3b44baaf02431dd3 0x23007f4d79581f4667760672bf80c001a995f7a22.
Lemma prime_166_701f : prime (Z.of_N 0x3fffffffffffffffffffffb12ebcc7d7f29ff7701f).
Proof.
  apply (good_prime _ [c0_166_701f]); [vm_cast_no_check (eq_refl true)|].
  intros c H. cbn [In] in H. destruct H as [<- | []].
  - replace (exponent c0_166_701f) with (Z.of_N 0x15c8d9038fc4644691b0f4a92d) by (vm_compute; reflexivity). exact prime_101_a92d.
Qed.
Lemma prime_3_0007 : prime (Z.of_N 7). Proof. apply small_prime. vm_compute. reflexivity. Qed.
Lemma prime_11_04cf : prime (Z.of_N 1231). Proof. apply small_prime. vm_compute. reflexivity. Qed.
Definition c0_26_e53b : cert := CERT 0x25876c7 [(0x0, 0x25876c8); (0x220bbed, 0x5aba1); (0x524e6, 0x1d30cc6); (0x1a7b3cc, 0x19d52ac); (0x176f63c, 0x89728c); (0x7cb0d5, 0x169bb49); (0x14828a5, 0x1)]
  [(7%nat, ((0x0, 0x1), (0x0, 0x1), (0x0, 0x1), (0x0, 0x1), (0x0, 0x1)))]
  0xaf87aa 0x9f3d1f.
Definition c1_26_e53b : cert := CERT 0x6e7f4c [(0x0, 0x6e7f4d); (0x12724d, 0x29446a); (0x6e3a1, 0xfbaec7); (0x2a041e, 0x1681f1); (0x3c1e7, 0x55140); (0xe33f, 0x14175bb); (0x35aa2b, 0x1d47f56); (0x4e3615, 0x269b707); (0x671f2a, 0x283c56d); (0x6b78ba, 0x1643feb); (0x3b78f9, 0x1fe304c); (0x552bd6, 0xacb28a); (0x1cd489, 0x14fa0ef); (0x3807b2, 0x215f8dd); (0x592444, 0x774dcd)]
  [(4%nat, ((0x0, 0x1), (0x0, 0x1), (0x0, 0x1), (0x0, 0x1), (0x0, 0x1681f1)));
   (12%nat, ((0xc3ee, 0x269b707), (0x2407bc3, 0x880d40), (0x1bf71b, 0x17b75c7), (0xd98ab5, 0xd99ffa), (0x38c800, 0x285f8c4)));
   (15%nat, ((0x2766e5f, 0x12eb2b), (0x8a6e, 0x19abdf), (0xfee3, 0x96def0), (0x22639e, 0x165d596), (0x407f87, 0x1)))]
  0x5201d3 0xdb0b9.
Lemma prime_26_e53b : prime (Z.of_N 0x295e53b).
Proof.
  apply (good_prime _ [c0_26_e53b; c1_26_e53b]); [vm_cast_no_check (eq_refl true)|].
  intros c H. cbn [In] in H. destruct H as [<- | [<- | []]].
  - replace (exponent c0_26_e53b) with (Z.of_N 0x7) by (vm_compute; reflexivity). exact prime_3_0007.
  - replace (exponent c1_26_e53b) with (Z.of_N 0x4cf) by (vm_compute; reflexivity). exact prime_11_04cf.
Qed.
Definition c0_33_ec41 : cert := CERT 0x4f288b61 [(0x0, 0x4f288b62); (0xc9f57d8, 0x5cb23ac); (0xec7f96, 0xf5a55ec2); (0x272b92d2, 0x24e1bcf2); (0x5e18f75, 0x1cf6571ef); (0x49e4691c, 0x8571e262); (0x1547627f, 0x17d1c945); (0x3cc5732, 0x11b3547b8); (0x2d28e832, 0x3abf4fbe); (0x95e235a, 0x251cbee2); (0x5eaf839, 0x14a5360b); (0x34ac4df, 0x155a01897); (0x36799255, 0x63efe339); (0xfef8e07, 0xca6e6b0b)]
  [(2%nat, ((0x0, 0x1), (0x0, 0x1), (0x0, 0x1), (0x0, 0x1), (0x0, 0x5cb23ac)));
   (9%nat, ((0x114f1e, 0x24e1bcf2), (0x2bd7a0c, 0x11b3547b8), (0xa191ecac, 0xde27ec94), (0x636b05b5, 0xa5a2e69b), (0x139a06aa, 0x3e6792e0)));
   (5%nat, ((0x7d8455f, 0x197f212e1), (0x14f3d0cec, 0x13ba91d5), (0xc8b841, 0x1aa9946b8), (0x16e98bd67, 0x15e091919), (0x146bfb2a1, 0xa3cbb076)));
   (14%nat, ((0x360b79dc, 0x11c91b588), (0xa3206fcb, 0x188a511b5), (0x1369001fe, 0x192fae07b), (0x147207f2b, 0x59e8d2e), (0x24a9d33, 0x96685d07)));
   (5%nat, ((0x2d923245, 0xe030b6ac), (0x653f4741, 0x13fed000f), (0xce2e3ce1, 0x21de1fc0), (0x24f81d5, 0xbf08bceb), (0xb2534402, 0x16b96fde3)));
   (3%nat, ((0x10a4d0cf4, 0x74513d55), (0x1b412736, 0x1e738e183), (0x1de317b2c, 0x11676b2dd), (0x9c33b272, 0x1956cabd7), (0xc89e19fb, 0xcc052e33)));
   (11%nat, ((0x53d93e38, 0x10d67f1f1), (0x9234a1ed, 0x8be30bb4), (0x276b36a6, 0xe9c50e6a), (0x6e159e9a, 0x97e286ca), (0x6510f6d, 0x1)))]
  0x9ed79f40 0x1954237f.
Lemma prime_33_ec41 : prime (Z.of_N 0x1f06bec41).
Proof.
  apply (good_prime _ [c0_33_ec41]); [vm_cast_no_check (eq_refl true)|].
  intros c H. cbn [In] in H. destruct H as [<- | []].
  - replace (exponent c0_33_ec41) with (Z.of_N 0x295e53b) by (vm_compute; reflexivity). exact prime_26_e53b.
Qed.
Lemma prime_7_0059 : prime (Z.of_N 89). Proof. apply small_prime. vm_compute. reflexivity. Qed.
Lemma prime_7_0061 : prime (Z.of_N 97). Proof. apply small_prime. vm_compute. reflexivity. Qed.
Definition c0_22_e545 : cert := CERT 0x11205f [(0x0, 0x112060); (0x64131, 0x9bccb); (0x38e60, 0x29ec40); (0xf4f76, 0x179f32); (0x8a076, 0x324f2); (0x125f8, 0x806e8); (0x2ee75, 0x28a877); (0xed937, 0x44dcd); (0x19261, 0x2893bb)]
  [(5%nat, ((0x0, 0x1), (0x0, 0x1), (0x0, 0x1), (0x0, 0x1), (0x0, 0x324f2)));
   (9%nat, ((0x35f8, 0x1b90ec), (0x103430, 0x2558a0), (0x1dbdc9, 0x76fd3), (0x12de9, 0x21db1c), (0x1d4b57, 0x1)))]
  0x29ba40 0xf3d33.
Definition c1_22_e545 : cert := CERT 0x242126 [(0x0, 0x242127); (0x1bd5c5, 0x233cd8); (0x1b25e0, 0x238788); (0x1b5f6b, 0xcbee1); (0x9d1cd, 0x82806); (0x648aa, 0x13718)]
  [(6%nat, ((0x0, 0x1), (0x0, 0x1), (0x0, 0x1), (0x0, 0x1), (0x0, 0x13718)));
   (1%nat, ((0x80f, 0x21bb35), (0x18432c, 0x8021d), (0x15e17, 0x298816), (0x24c7f8, 0x8a40c), (0x6a837, 0x1)))]
  0x29eee4 0x204e6b.
Lemma prime_22_e545 : prime (Z.of_N 0x2ee545).
Proof.
  apply (good_prime _ [c0_22_e545; c1_22_e545]); [vm_cast_no_check (eq_refl true)|].
  intros c H. cbn [In] in H. destruct H as [<- | [<- | []]].
  - replace (exponent c0_22_e545) with (Z.of_N 0x59) by (vm_compute; reflexivity). exact prime_7_0059.
  - replace (exponent c1_22_e545) with (Z.of_N 0x61) by (vm_compute; reflexivity). exact prime_7_0061.
Qed.
Definition c0_35_1ef7 : cert := CERT 0x4a64436b3 [(0x0, 0x4a64436b4); (0x44adf419e, 0x169dd9b1e); (0x14e14724a, 0x4980473b2); (0x43db79653, 0xa8582113); (0x9b6b0076, 0x4ccffd82); (0x46ea1846, 0x2d9380bde); (0x2a139db84, 0x13ac8e7bc); (0x1229d35ba, 0x3c06bf5ba); (0x376ad0a0d, 0x1149cca3d); (0xff5f71cb, 0x3578d7c07); (0x315dbf707, 0x11f7d852b); (0x1096a598a, 0x40a8c2416); (0x3bb1c2361, 0x1544f82e1); (0x13a2e0eba, 0x3ca6f7abe)]
  [(2%nat, ((0x0, 0x1), (0x0, 0x1), (0x0, 0x1), (0x0, 0x1), (0x0, 0x169dd9b1e)));
   (14%nat, ((0x659133d7, 0xa8582113), (0x15fb3d09, 0x3c06bf5ba), (0x2cb74a355, 0x2a06cfe21), (0x15eb59c6d, 0x3907cd16), (0x2aed5bda, 0x2643b86fe)));
   (14%nat, ((0x122bb2c1d, 0xede8ee09), (0x2be6e592, 0x355c02073), (0x2355ab29b, 0x1c19b761c), (0x9ccae420, 0x9187f830), (0x6d8acb48, 0x9b6c8128)));
   (5%nat, ((0x12bc9b0f, 0x460d6f8c7), (0x3ce6b4a5a, 0x1c2ace1db), (0x9d89d1a7, 0x44d4ad738), (0x3acba5385, 0x2caeff0ed), (0x2a985055, 0x464f71957)));
   (4%nat, ((0x3d59afd90, 0x317295a1), (0x1e57ff4, 0x2728fc2d5), (0x1307fd032, 0xed6fc8fb), (0x2bba3b2a, 0x2abd72493), (0x594ab681, 0x451fa7572)));
   (5%nat, ((0x3b4c01f5b, 0x6bad7bf7), (0x8fe3caf, 0x3c0a73978), (0x2cbccf21a, 0x3198c052a), (0x1e86e904c, 0x132908990), (0x1243c319, 0x1)))]
  0x4588b92f 0x4031e604.
Lemma prime_35_1ef7 : prime (Z.of_N 0x509431ef7).
Proof.
  apply (good_prime _ [c0_35_1ef7]); [vm_cast_no_check (eq_refl true)|].
  intros c H. cbn [In] in H. destruct H as [<- | []].
  - replace (exponent c0_35_1ef7) with (Z.of_N 0x2ee545) by (vm_compute; reflexivity). exact prime_22_e545.
Qed.
Definition c0_68_4211 : cert := CERT 0xe18fcb033f5e36bba [(0x0, 0xe18fcb033f5e36bbb); (0xd32d6aaa75a7242c8, 0x250878278a351db51); (0x22abe40e7f1da39cf, 0x21bab554c95c6da6c); (0x1f941096b220164db, 0x84f12b668e7378859); (0x7c76d7931df661017, 0xa6d512eb60f16cc7c); (0x9c3179cf83721d5f5, 0x98b927210113bd34f); (0x8efbe3f0b4516cbfe, 0x4a8d7b9b3619d57d7); (0x45cc622ebd97c321a, 0x30c0647caa1b2ff53); (0x2da4818e624d24833, 0x32f4e9a23f4413e); (0x2fb506b52c61fc3, 0x2e0a0ce134c193057); (0x2b1a71565460b2664, 0x7ef3f2b0090b057e9); (0x76db654246733a426, 0x2651f24641517e7ad); (0x23e05b583ca4b648b, 0x10974538726b40724); (0xf886afdfea36a765, 0x4c971dcf679e11b97); (0x47b4c0875cd937194, 0x32ed48623f6cd9179)]
  [(5%nat, ((0x0, 0x1), (0x0, 0x1), (0x0, 0x1), (0x0, 0x1), (0x0, 0xa6d512eb60f16cc7c)));
   (0%nat, ((0x73867ad638a3ea729, 0x2e0a0ce134c193057), (0x8cc3bbda08add87a, 0xc29bb617c4b35e977), (0x9d31f7fdd3f236e91, 0x15b0c1bae08511bb0), (0x1f3e9a1ca92bc1e6, 0x20ca76cea88e76cba), (0x0, 0x20ca76cea88e76cba)));
   (9%nat, ((0x476846908e0ff9d1, 0x6fe62d27c349efe43), (0x33f8dac09c8202dc5, 0x378e7fe37d96e3174), (0xccfa8a73d2cd005c, 0xad8f77cc52db4de74), (0x7d07f84c4681f30a3, 0xec25361afe3f823bd), (0x31f214062c1851a, 0xa422fb17321b71a0c)));
   (4%nat, ((0x6fd278f3074b8551b, 0x911a31936e2ded3c5), (0x576408573d61cf137, 0xec2f4c12f86e922f2), (0xe7897c0711b51de61, 0xc10241b87df116653), (0x9a9f362484bf052a7, 0xcaea10cf3fa82b3d2), (0x6ff7acabdcd55308b, 0x6855741bb89d904c7)));
   (3%nat, ((0x2d2ea11081dffd090, 0x50d14eb7bb702d921), (0x1b1c25d12cc71b9c2, 0x9c3dd51b401559c5f), (0x6552ca56f108fb44e, 0x438ddc59f3348d613), (0x12f11866ff7567dde, 0xd6fe2251f31882dab), (0x1e194690e9070a581, 0x670256c0db59fa293)));
   (1%nat, ((0x2c0ac8afa3422dd4f, 0x891579376a8dc502a), (0x4dffc490b88c54670, 0x3d77488e709b7b974), (0xfae72f21ee2310bb, 0x167e3b2d4d3eb8a25), (0x219983fbd87d526b, 0xb8164efbf5936da3e), (0xac5904eb575441005, 0x2c90ecaed62fdfaf5)));
   (14%nat, ((0x83e683213cf96568, 0xeb2864c9fd0d8e291), (0xe587252abf2b0630b, 0xe5a1dd43dc263ec66), (0xdade4209930e64f34, 0xd9be1dee2379d8e30), (0xc4ca53241a392eb10, 0xa2c97268c124d8cf0), (0x33bffd2cc1f86c2db, 0xd743f906eee5b0b05)));
   (15%nat, ((0xc05699059f6e5411a, 0xd11f1cba52497675f), (0xb584071ff84a831c1, 0xcf7ac8d5c913d8570), (0xb2ad35e4a616b378c, 0x442f74e0ca218c8b4), (0x134c23c3e290d0b0a, 0x4a78bce6a52256ee6), (0xfbde77e20ea91042, 0x3f043c11e5ade9854)));
   (7%nat, ((0x107b8c206793edafc, 0x5b49184cc2efe58d4), (0x22966dfcf23177998, 0xe67af30424d522c78), (0xdc7cd71163ad8aa0c, 0x928688e53527b1574), (0x591d0c532e94f7069, 0x4fdfa99c5c6f7b397), (0x18b760321ddc707d0, 0x1)))]
  0x81902c51936cd19b7 0x794d01df6595f27a5.
Lemma prime_68_4211 : prime (Z.of_N 0xf0ecfe47735534211).
Proof.
  apply (good_prime _ [c0_68_4211]); [vm_cast_no_check (eq_refl true)|].
  intros c H. cbn [In] in H. destruct H as [<- | []].
  - replace (exponent c0_68_4211) with (Z.of_N 0x509431ef7) by (vm_compute; reflexivity). exact prime_35_1ef7.
Qed.
Definition c0_76_638b : cert := CERT 0x1dc7ae3c72b61303e09 [(0x0, 0x1dc7ae3c72b61303e0a); (0x406eec336053bd9618, 0xac6243284100f5d115c); (0x174fa21508c43884cfc, 0xbc04340f66b06b7b4c4); (0x196cce6cbde92c873b7, 0x240ed8ff1f61f87ee4b); (0x4e04421c956c9583b4, 0x715cf36e19980b05a32); (0xf546f9aaa28d89fd2c, 0x9b05bffef9c02cf2710); (0x14f69cadb7204b4ad07, 0x959b8a46e178d3bed3); (0x143b2877f7fda36afb, 0x5120f509596a97466f5); (0xaf889b7cb1330ffff6, 0x249d703faf775c33f00); (0x4f38c61d7fa792c493, 0x24100246a7de33ee12f); (0x4e06c5517487a626ea, 0xd19dfaee19d9ac68ec8); (0x1c5895d3630f18c1461, 0x7f308c8ee044d0b7025); (0x1133166dba7e0d2d672, 0x9998ad4bd76d48ed18c); (0x14c53e79a2877e3ff2b, 0x3a7c12a9e9e21bcea1f); (0x7e8a383e6638cc469f, 0xd864d037f44b284d1e1)]
  [(15%nat, ((0x0, 0x1), (0x0, 0x1), (0x0, 0x1), (0x0, 0x1), (0x0, 0xd864d037f44b284d1e1)));
   (0%nat, ((0xd4a2076b233dedbcd67, 0x39fbccc7335afdbcbd4), (0xf44542eda4cb10182a, 0xbc563aac63b1ba88ac2), (0xa1119c6e292630f114d, 0x487a95dc57fd1248f35), (0x17daa7d0f35dd5d759c, 0xc970ca33c1910f21145), (0x0, 0xc970ca33c1910f21145)));
   (14%nat, ((0xb842f7f6bf369e75dff, 0xb8885f6271b7fbe9624), (0x9aa0b782c5b51bcee23, 0x19fc9f58cb152435f0f), (0x31107df26148f5bb1c, 0xc197b6414991385b6ad), (0xaa2f14ac9c213ca9d29, 0x9ab212d8b18822840a6), (0x2915372cdb22ca1a19a, 0xba1818e77f1fafa437c)));
   (12%nat, ((0x9d417190805e20914ed, 0x43aa0e46420cbe22061), (0x14ca4e2473868ee43f2, 0x9d4de1399f56522ea5b), (0x705cd08e58e2c0f5e7b, 0x5ace6c8c2c024569e90), (0x25717741ad10e4689c8, 0x8039f995642f510e968), (0x4a0ec657327d7a80143, 0x4e4c9387d093583a3a7)));
   (15%nat, ((0x1bd6cd3c1c366424cae, 0xa81c16238b4f4352a77), (0x805459e91928c9f7b1c, 0x8c5ace851e82445971d), (0x5973f77772ca44d0fe7, 0xbd2b657598e46141dc), (0xa27f06752b6939c18, 0xd26f3f5a116f7b66c08), (0xcec6fa229fc479203ed, 0x6ef947a879449c8b259)));
   (14%nat, ((0x37ebfd440df69d8f9ef, 0xd7b3a96a785c392c12c), (0xd34670b13986d399426, 0x4cba071c7d01d893cee), (0x1abb6cfa03662e572f3, 0x859bd445a39bc850a53), (0x510f8abaac425b18d96, 0x9354fe52cedcc43b477), (0x272097226a8d9e69d97, 0x34401054d80eb0caa6c)));
   (4%nat, ((0xc65a3ae8fdbc3904dd, 0xd06eba9e42eef4a8291), (0xc54661e496a3de77a06, 0x5b77345271f82f002df), (0x25fd2954b9832da6c16, 0xc5025c605187b870c4f), (0xb03e6d7d32519743867, 0x1ab364f1d40f5890b74), (0x45f321f9e50ae9a663, 0xd00bb8d987dc5b4923b)));
   (7%nat, ((0xc48b246fc09605d4405, 0xbf4711d49ecc20b7be2), (0xa6235901ef1d6920777, 0xc9795c87cf35b1be0e7), (0xb852a6afc16878d1671, 0x26a24e25d3e218c2e16), (0x6c7154d16cb70bbb77, 0x35b3a6101cdd3681b47), (0x247b7bfe8d49a48374, 0x113b7d4de9c39a0f189)));
   (7%nat, ((0x159335389f060848ae, 0xcb6e34b1c0bd0dc7ad7), (0xbbeb845717316049c86, 0xc8662657792a5d4d1cf), (0xb65c6d9489253355ebe, 0xcc9b2b4598b8be1ba37), (0xbe19280324c808a0cfb, 0xc360adc9ee1cca9da88), (0x84bae694fd31197e34, 0xcd3faf50c48b05a6bdc)));
   (3%nat, ((0xbf4b566a676c5e8b0e4, 0x7101c0fd6f4e3396d44), (0x39fd592a207edb555d1, 0x89259138e1b680b8e95), (0x55691ec054c7e5dd1d2, 0x268a36d4f588fce7fb3), (0x6bea409db19f7366ed, 0x91055dc4a562f3e8d7a), (0x7bd0370a10bff0adad7, 0x4072999bcf5ac3821ab)));
   (5%nat, ((0x12dc4f3c803ca9d18e7, 0x6384eab9b06c9d9adcc), (0x2cf929bd0b444f1b6af, 0xae48e5d2bb192b7c8b), (0x89ee284f1b59879f4, 0x638340cffd92d8d5ffd), (0x2cf7a8ce5ea9ab7ec51, 0xbf6fe50d09c92351d0e), (0x628bc131f43cb1b7366, 0xc8db3aafa95e2527e5a)));
   (5%nat, ((0xb731c0dfe8d567a8b5e, 0x3751b793f0ad409b19a), (0xde5667d1e90c7301c7, 0x83f874480f8ebb26497), (0x4f15ca40b8fe46513c1, 0x85b35c4f2b5ea62f446), (0x512c1ad68e6ba258744, 0x4d47d8e92fc1c15c538), (0x27c81d7e9cbd4559457, 0xf53efd2dfbb46b04b3)));
   (3%nat, ((0x1111d56b9d55e93dcf, 0x1d33d0ee339e42678c4), (0x3df546a196fb4b7f9f, 0x117926ceed796a98dbb), (0x162eb08911fe6b6f8d, 0x389656fb22e8926e0a), (0xe8a5be310fe91f65, 0x6eb8f6e208e1ba7d8d), (0x5e87d827056af716be, 0x61f235145d80b9970ca)));
   (4%nat, ((0x2b9010f3c1dabd5589c, 0x70255f885a2c931eeb0), (0x391c084adf2165221a7, 0x20303297c6e5f59de53), (0x4b46a3fefacb80eb14, 0xd4ee2860c39ded9af0d), (0xcde17b73d02f8745bdd, 0x31418476f86966eaa), (0x8109fbc011fafb10, 0x6fd1b3d9b72089cf61e)));
   (2%nat, ((0x38c6f07543f1861de90, 0xb00899e562730582354), (0x8cb6583c8c41e726f58, 0x3986576a01a667e96c8), (0xf06b87b2f765ed7d41, 0x88ac8791915ffb1d6f5), (0x54d29f8513d87039e03, 0x6d4e80d43d40de891d8), (0x5590072a81bd2630f96, 0xb484131816da0af492e)));
   (1%nat, ((0x93f829dd3dfcb642005, 0x2d8e052c9c2838df28d), (0x96c65399c90b9b6a2b, 0x71750c8351849519b50), (0x3a73e9664b7c664203d, 0x68054c02d5f49d2e0e1), (0x312240ae576c1660f5b, 0xbdafb2eed797515fe58), (0x19a69d9709d41c48b06, 0xcc8ca6408a6a4de712e)));
   (1%nat, ((0xbdfe2e0cdeb659479b1, 0x1dc91138b5f212a1e29), (0x4074ec76b4d6b59c03, 0xcb2189768cb98c2c3f0), (0xbb5df983fae0ad7be58, 0x76d1d57b80a97071f38), (0x401bd90dcef921e8ea2, 0xcfab570ff2de8aa844a), (0x1c1527c267cc817a509, 0x1)))]
  0x4306b0bacdf77536a98 0x91054771cb072e0ce5.
Lemma prime_76_638b : prime (Z.of_N 0xdc38a06d4f6be1a638b).
Proof.
  apply (good_prime _ [c0_76_638b]); [vm_cast_no_check (eq_refl true)|].
  intros c H. cbn [In] in H. destruct H as [<- | []].
  - replace (exponent c0_76_638b) with (Z.of_N 0xf0ecfe47735534211) by (vm_compute; reflexivity). exact prime_68_4211.
Qed.
Definition c0_172_2831 : cert := CERT 0xd35ef0cd0da788c2b73a5e2cba375be348d9d21aa8 [(0x0, 0xd35ef0cd0da788c2b73a5e2cba375be348d9d21aa9); (0x15d0b484f7b32a0a4d102a9e0f139f6fc80ae802a6, 0x45d2ab85004f8179b52efe319c3551f8387fdf651cb); (0x734d10ce10a2264a9f30dda14e2aa6945656baf1e7, 0x13ac71f828e28cba77033784e4a1dd457ecf11f37cc); (0x207cdb859f9c920a085bfa41b736afc7115d827f63, 0x305d02a26e1c5cdf18a9426a24f67478fdc646bb3b9); (0x4fdd31a18fdb23cfd2264f786d0370198a9009896d, 0x2c1f4c1e11cdc70755648740da2ccb095b747311944); (0x48dc5176d4fb807355673c694bf949b9b093d5e55c, 0x18a747ebf707f2652c85b144c20b689219fcbc74f48); (0x28b609c8efe564665d1a374710ce65369aa742fa0b, 0x4938946b912ce01abf1080467e50a71c6ee1dc4126d); (0x78e993f5b3058ffb62040f7e6e95bfc4d9af2b6c54, 0x7e699782df0b8b10897aecc92fd65c43f8b7d205fe1); (0xd0bfd31d7e770bbdb560c85707e937801ddffde60c, 0xecb151badeebe410ef6204490364dfb1d8f15f3d3d); (0x186dbdc39b72fa4fccb5108a95bbf05db6047c7252, 0x19af394744b78d6c54c3227a592b2b79a044b8ced93); (0x2a69e56b3c61d0c7dd94971c5d88c4e0c7404714b5, 0x2c09067d0ef7a269636df24c862bb000625fbb18566); (0x48b78a2a61d4a16b06b65749f4f2ebcd21a3575dd0, 0x778bcc1361feedfb6863440fefa0ad5772f9217f786); (0xc5691df773100d24c048d66e6424a8f5a82b0b6de5, 0x2c73ddf74002c5cac1b57265be8335c472a1d3f32a1); (0x4967f89d0b969d4ca3af23e1b2834a98fa3d775d12, 0x5ffe4e3e987f5e3da70192e4c7ea0ac31baba6525d7); (0x9e8468533f96195e8e661ba4c66e6e2a7c9d67480b, 0x33b0edae492d6ddd508c8cef499bd26ba0220ec4ed4)]
  [(1%nat, ((0x0, 0x1), (0x0, 0x1), (0x0, 0x1), (0x0, 0x1), (0x0, 0xd35ef0cd0da788c2b73a5e2cba375be348d9d21aa9)));
   (15%nat, ((0x15d0b484f7b32a0a4d102a9e0f139f6fc80ae802a6, 0x45d2ab85004f8179b52efe319c3551f8387fdf651cb), (0x26167ba71694a37f21db9e32d25e6a4e71031a70740, 0x305d02a26e1c5cdf18a9426a24f67478fdc646bb3b9), (0x1246058fa6ab286e40199aeff7097644beae65b74d0, 0x7e699782df0b8b10897aecc92fd65c43f8b7d205fe1), (0x7cd83964ed2bf4c6860345e5f540f588736ec27807c, 0x430516f2445777be70facef0212395d6e19aff1cc05), (0x1b10aa96c211463fd42346497f4524ffa80a2432a30, 0x632a3436f1e5f4128c75f6de11a65c584b1c67fe6f4)));
   (0%nat, ((0x4cd356af578b309596ed3056906380c88d2c147779b, 0x5eef5717d39faa3b05bb49b379facaab0a077dc3be5), (0x46694772770f3262db7f10334e0ebb3ca616c166cfc, 0x33d21fffdafd719bd4c5eaa119478d9f49aac351e9d), (0x14faca70ea0873a3b86144e3a8edff65fbad3151a0c, 0x717e9620a40104464cbc2e663edadeed8132cb4ffd), (0x64a1fe41e1e93641be8cd527f965587d5a0ec8a44, 0x4f74885868089db6be5b2dcf6b30252870331af0905), (0x0, 0x4f74885868089db6be5b2dcf6b30252870331af0905)));
   (6%nat, ((0x31524264d1e34c6d1dbcc1dc4934679bdae58a49f36, 0x30d3146c904bafc2f2ef0c15ab0d7aed5f3745270c3), (0x129fab66c566c685763c320f02bda88421bba06e8cd, 0x4bd0fb0889e940e74d9c39eab58301d7f05c8259d4c), (0x2ce83b5fc9b10b929af988591ad35b2c3032d2b52d8, 0x3824f4fc84baf37f764c0b76fab4ca054bc7299b338), (0x18a061089712ea6c694c74aae3d943c7d94521ce32b, 0x6a89bc32fb2182ac9d68c4fd7edcd31b09633f82905), (0x14850ed9e67a2191c9ac93f90d84f7696ee93447401, 0x2da6792e6e044fb9beb2b34f510307fe1284861b837)));
   (11%nat, ((0x1047e5b768823c14fc40289a1f68c3951309f6b600b, 0x299ad4113443b62b7d7d896cc624a4a842c04a501b6), (0xd85eb22ae3a231277cdfd04ffb5915fa6f0ace9b52, 0x448f872c7ffaab7848e2ec864eb1f1798b93be862b2), (0x24b9208fde2837b42c30e98066893a0628f44fdfabe, 0x6e30cccabcba439a425eb059823b9cd1d2d92181566), (0x5edbf29754152a924f69cd0b618e6004fba591043f2, 0x4e816dec96b16d048fe56c9a3f146087a4f2a691352), (0x1b0206ddd32a0f732776ff4822528cacf71ac748c95, 0x6ae853a22572a18c8dbe9a17cfd0de8dc44cc7c1c27)));
   (14%nat, ((0x594a7033f072b111e6e560bb2c451db48b39cac9c50, 0x205a5c44157bc262506f5e3412e543e14b7bcfa22a1), (0x82d6dec0cfe1a5340ffbb23e7eb7c9d280c1b29801, 0x62cb01d3503e8830c221253257ea22f9ce3f678e910), (0x4c401cc35d28f0fe5e828dbe865a377972d203b08da, 0x621f2c7b8b3b7499e816e7f2774d80bbfa2b5415f46), (0x4b37c3b4c87fe24f33d0a1923c439770420936b78a0, 0x432258f9e77947608ed74df059568624dcd41b5f084), (0x3258df3bcc8a50e7edfde7df5820bd9200f88a98ca2, 0x3f1923156f93d1a43b1c89ab27ed781de607ce0d7da)));
   (12%nat, ((0x1f1ac378d7d2d4b762c0d2cf49c6bc62fb65cfbca06, 0x5c63875f3598c9276164e08dae30f71dc370f5b4a7e), (0x42af5ffcd37da55fb2768ee2da9132655fc69779d10, 0x1b1c3d4c4d445e6f151eb0676c5495df00ee42185f4), (0x5bdf0171f558ce1475899f3bb596f5af28dd973680, 0x6ecd40ca89ed80e9411b964fb8fa353e7150a0210), (0x5fea107dc69dccbb3e343783bf708a5e44a4742, 0x75ddd9c16086675affa3a51a08e7713b92fe4b44d5e), (0x6e14fb47abf328fa4c6238f3eb88630ce362058e11d, 0x3fae2bf9e6c153f9918bc148a920a315018871992a7)));
   (4%nat, ((0x1fae60499dad7b35465f946412379509081464a43be, 0x3f7b7a9dab768e4dbbe0d60078f987c75361a0a4193), (0x1f7c03d151438cff861edd3f13bcfd78a837198714c, 0x4d352cdb9b7f74e9475d478756867759d7bbde26add), (0x2e92100f6caa91e3f076f01e88ccaf08da9f2ec57bf, 0x6fd86a4ecb4551e7822febb81b2540a51d20c581f3a), (0x61bac647cac4f52dc213c47d1e9e09073c6db4a16ce, 0x68fbf4e1ea11f131877b3ba23a26a83af9cf0768bb6), (0x27aac50dccf00acc2108604c377a35afe93e59d7481, 0x43e37d67c68cefc7aa00044a6014c94f2d1d9dac3d5)));
   (1%nat, ((0x2401bb97eacccad581477a7bf0763ee1ff8a04d0706, 0x5a9b3210f2ffac11bf8a58123641ba5c1807f58e713), (0x4022fa932a594d43fc001189340c0f7267d4c45148b, 0x2e6beef7d84c5376510db955abf3a30680aaba4ce), (0x10d5eec567f807da9e85413224d8a511906c659, 0x4f50caab494be041c3d9a48ef3717a7f9d113ffb6bb), (0x3125ed2a057acc36fc78f13a8d8b53634f15c2a680a, 0x552abca50944a9d958ec2bb0f38fa88bd16974af2af), (0x8ca39e9327b7600474046d23aec6f67df38c557866, 0x1)))]
  0x724c24c7fb753e9832d9a08f9d09f6b021ab44a5203 0xbcbe4b928a7b24407d48e41ad872e36f6a673568a7.
Definition c1_172_2831 : cert := CERT 0x749bcfb5f9d93458289dece0728ee336fc608bec53f [(0x0, 0x749bcfb5f9d93458289dece0728ee336fc608bec540); (0x6a3b262432a25fbb96664775f69ac0f18d4909c37b0, 0x44dd148d2bb1ebaad33e1dfa692f2e81d8c2ed16750); (0x3ebc2e1640d27040698750b94a41fe8a97ff07e895e, 0x1148996f6100303b2d6ce84494f8ac74fae4ae16902); (0xfbed502b74f46edb0572a6e2843508b7c4b9db4d53, 0x2629cbe3c899949c8d36d306b289fd7cc19dbf5059d); (0x22c455512cf2d841e51fb41f0e22526a7219490add1, 0x65cfd47cac34d0c03e3df28b41abb12c00565944b3f); (0x5cc0477323478b3f3d57913bd5fa5f1c0d70c471304, 0x1ee25314fb2e4321bd5d4901c93dc061109673d06fc); (0x1c22b37989b82eacbfcba2f0f1fa4efe2ca751b7196, 0x5705b553139d70ccfd18b96f93d4309d6e37a177d4a); (0x4f471a73cf8bf611fad8fc58a1bc00d171278535244, 0x11a9b5dbb02f9d4bbd945404b7fa3a2a870edbbe57c); (0x10174cfae0410c7e089152408a3be722b2526e5cd2c, 0x727483a3f0201329db833f1b5b1e4c71b60a36aa594); (0x6844ea1f1f2ffcc4cee9c0d365622916568bd6f5135, 0x6c03e625f9463a8f58cfee5106f5ec1496ace3675db); (0x62670492fa6f3b6ce7d3f5dbfca7504df74f1680b5d, 0x1868aee6ab8f5d06587dcbb9209f5b489c8923948f3); (0x163c94e0d55317396a9b7b494cf767382b98d6adac2, 0x1311012c1800d50cdaab8828e8f4c4debafc6770c9e); (0x115e9e97fc4e3828bb1e2b242d36ebd0355e85b173e, 0x757feb91dcd95ba8f67c05e885c455ca69e2619aa2); (0x6b0af50f5df9a4dbed671e8c5eafa078e02534cd59, 0x3bfa89b62da5cb36fb9e82ed04871cfdcd04c6d1c77); (0x36a40f844c080785868f821e93076381ff49aee6751, 0x49646880ce2df0898f5feaef1cfc596def8d58f423f)]
  [(13%nat, ((0x0, 0x1), (0x0, 0x1), (0x0, 0x1), (0x0, 0x1), (0x0, 0x757feb91dcd95ba8f67c05e885c455ca69e2619aa2)));
   (12%nat, ((0x6bdc5a7dceb9d808bbf487a8bb76d1d3a31064870, 0x45211a87bf5acaf04a3b92f1e39b2519ac51cd5f114), (0x2555b92a0dcc434f57f567c242b4ee6dc9d21d91b81, 0x487b8a81c474dda990071558c29373444294b393ddf), (0x290b730ec4495d23eaf37f02c2e8202373b6dc1cce2, 0x7884068babe11b5322bedc0d1f25664e857a91080ff), (0x7178147362ae44098ae1a9970482f48ce2dc6642a05, 0x71c023530b25de4af508ddd4aae82ca4e9b047c2b0c), (0x10f1a1cdb456a89d804b2172747da7938c5ad5a2b4c, 0x2c5e6727c5b3f76aba4eddc8d3ebb9cd6dffb0f7dc)));
   (3%nat, ((0xf612c8b2d7828f6120f579d59caa9ef59de76207, 0x574eec5009bd373dd5891a29e5c7feb670f07c269b9), (0x3b8d79e683106ba94a9962201335cd53cec54949dfe, 0x22e272e20cbf473216b6f4b624974e6e9b1fe615a13), (0x981dda62c1ed72fc07b0479c7c3a303fd3c87a97c5, 0x4b82f530eba4bf96e14973ae45569b42698390288b4), (0x2c8bfd5135310fef1548bb5a690760ffb44e9d57f81, 0x3ca67316afdcf61cad20a48135e31180d52adcb2edf), (0x830819d7bfd6aee85988bca943233dad2a6c3f1884, 0x637dc0361a90803e30919741cbe3b232015c97a837a)));
   (8%nat, ((0x4d5500de3b65cf2a9cc22ecf6860f056e7a91770da6, 0x7f99556e703af4bb53477ce067276e19baabfa0895e), (0x7f32fd359bbe56ec5dd9a52e1afb2ed37d530aa7354, 0x6f04dd62bdef09483d0b4c78415beffb587ee348b70), (0x604a7026967db7133a4cb763a84f266fe85a1693543, 0xe298d96528ffa0c2dfb931bdd143ea082c450c272d), (0x191247632fa415dc372797fc0b001fba51064b0118, 0x3595b60bb62b05bc118400b2fa2475b8579c327c851), (0x764edf994fc0c555982a3e4cb19c8d8b487ddfeea1, 0x252d3f9ed1c734c975b6d86f923299112abc3dfa76b)));
   (10%nat, ((0xacc38c6ac91c624e942d9322dbb4cba32b8b9bb7ad, 0x6479b93ce781a401cd0774570e0cc17281ae206969c), (0x4edea5306cf26b8a4e18ac8b0c91b53013a854b0f9b, 0x200239a12a497e43cf84ec02c5f41a75dc1cce3fa65), (0x8011cda7c206603bd2f5e8792ff6e56c131147e96e, 0x52a24ce302bec0a9e4b1e91db2be9ed0db307708dcb), (0x3558c04da8527f8f9c7b00d4dfaa8d19ebe7d4c99d3, 0x70ff8059c61b40a5a586abb92d370b931bdaa55d596), (0x5f5b057561cd1436aa107ac1f3f18d31dc1673c40c6, 0x27160e3b6afe660715d7358f7a670402a599865ef6c)));
   (0%nat, ((0xbef74791b34e89c0605946151923205725252b566c, 0x6ffd6185cc06a5654c49f6666578fbbe84e6b726ae4), (0x61fb6ab7dd136636da74483c21e8f5f273f2e722c6a, 0x5f3c16ba82da2ba7a98acc6281f47a2281279788ac6), (0x46db4df22d1fb2159bae16bda7ca3c591a2019ba641, 0x59efb0271808e9cb8d75d00acc6b28b6795199a16b3), (0x3f3111cb21d5b47151bdaddaf80fa3d32b153e0b818, 0x1d8a772905629c2e05c1073e2eda9072d7e2b104491), (0x0, 0x1d8a772905629c2e05c1073e2eda9072d7e2b104491)));
   (6%nat, ((0x6d153c7f5d29e8e6ba37fc4e9969638acc2f5c3563, 0x4195eec7b86633f91b644b0da5fe0525497932eaa2e), (0x219af6227db10816787bc0c676e8d520a317286383f, 0x255a843b165bf914585ecd38e5b7ab276e658298435), (0xae69474a49e96ba5a1e888e001f7c98bf7ed29ec44, 0x11ef3087ab4f6e6fa05d8d9b0c5538641b3b1a3d9f5), (0x28347db568b263de31acf0ba4c011a37219072ce98, 0x17543665b9204acc51ea514558a28a7c9ea9a45f961), (0x5a0fc94513475a711c631f56b7182bf09dcc37b976, 0x2a3a432612bdb303f74cb3e43e2073f2b89a0ffd1e6)));
   (13%nat, ((0xdee5695fa07605690ab5821d7a63b9c064a52fd007, 0x39d65dc0eeec0c029e93de5274dd74c0e964588714d), (0x1a22528196949df8018d466114a547cea35391c93a1, 0x12f2fb0cbfa924bd3d5f460b194b731907d94d0a758), (0x2ce23daca804ad88f9b9540522e70b1e5dec9a3d15, 0x236fda42fc4e5ab3794ee6e0d942bae587511fbf53b), (0x9cf8d1aa254bff87cb31e608c20692729bef051f3f, 0x37b9fd8c3779ab4305da74beecce5ce9b3f27ba288a), (0x3327b2dab42b34f408d79fa728587546222e504a84, 0x496fad57747ad247ed76bdd01017b25edb7650bc810)));
   (4%nat, ((0x2a21c3274f48bf7b80faa499477aec3a723aabef15d, 0x58342872a7e284278e00e70a6be0c214e1129874633), (0x3cc7ccde90c7ed633dab5e97061ec420015fbcb82e1, 0x118258632592f2499463e4c6333f266e8655547b918), (0x26524361c67fb4de85b8645eba23611e8b1d3c07a7, 0x3254157e62a7a6cf8aea1f6945ca85c36436d772349), (0x13c9e806f6906b869dc350c8d5b4db976f316a3bae5, 0x552a63f3b8f05410e1d627bfdca8299b3ee73e97cfc), (0x196464e92822cb3087772414d8e727eed5d3a56540a, 0x5ca845711b52ebd14e87d9e8da62585ed2259d8eca2)));
   (15%nat, ((0x4312c10905db420f90cca479b1586baa5ca564a0551, 0x752eed74c04ff4ba1b3cc1e9178c6de4f9c23f06a03), (0x6b47db4dd3ff2781e7ab732e1be13949531448e3839, 0x69f6e79b283f8e2af4bd044af168463fecc1ce1d120), (0x57b8f03e6d7dbae1da5a045200bea859f229048ac0c, 0x4555b10efb1f8f94fd8591543a6c1056b33e38675b4), (0x258e9c42438efcfb77e1fa41a8911d9b564aa6ba807, 0x1efcb0d0d97a27b0dc6cb2a513fffa9d6ba7594c539), (0x11c46b8dbd75df3ffa6900a0982cad25fb932d5b099, 0x6b79d42250f5642a850f252066e06d63723a70a85be)));
   (6%nat, ((0x5a3e229dcfcd08c88837849e8d736b8704f0224c3bb, 0xab762cbef607670d4ab25d267679da0d5e747f4a39), (0xe5ae2ca8c915cb06d9cdce551f309047c1777c193, 0x24f1ba0743a541852e7170a037a8425b1628886fb8e), (0xaa9c123a7c4cc2773e0c1e2ab999060b9d5b337e15, 0x31b06d557730d3a22573cae1feb5aa52d5e8cf258bf), (0x134a06e277acf05e06d9bccc286eb114e6a8505289e, 0x3d11890a9a641b70603a30e3588378df1610a206843), (0xebc16b7d458ce03238fc33b8ddc104cacba3422641, 0x43162ed7e4ab9f2b5f73c6f052234fab33b9b30b983)));
   (11%nat, ((0x23293ce22ebede1f424c331a44155136c0146941e9c, 0x6e7322911fc81f422169abc16a2dc0b2e482a785d2d), (0x5f4e4af994bacebe2e27c3897e172f810b9c2c85e58, 0x18c181b68bed2fdc673113de71233cb613d06b9eb11), (0x4c9b52e2269df979348cd9ef8f6c48999acedec84d, 0x50f7d4e042f42c44a0339c2f298f35258a8893ad864), (0x3337a9f1473c0463ed5eac1774d35196fe68324fd08, 0x16eb0f25685275d28b7c9ee10d5721f6e6dedc33888), (0x45ed12427a1fb9d929558720ad9280737377785353, 0x647e9db628d792a98cb4e5c53caf7e0455036cefe35)));
   (14%nat, ((0x4ee653abe0c31cfeaf80d04314197f0b367430404d6, 0x212dfce453f9c6f77e77c7b5d020d76690d8ae0da03), (0x899c6eb7f7c782a6395d8342c211528c9d5ab5400a, 0x2ac46abcdd7f8ecd9d46cc1ff75b30a87b592e84a1f), (0xe4a13732cc3f1e3af6b1f516d126222dd92eb02ba5, 0x6cc9fb1aed4b3d45245ed8f0dd0041b90339894cd2c), (0x5c761675fd9bd7fe4d4b20b41a8baf8674a71aa0750, 0x1b7831be9b089785e0450e21a428a804ee5e52f9940), (0xcdf2b3cc1ad559cd70c7243d5f9faf5da00fc6e1ba, 0x6219172de50ae1d292a64d06243a9ad8d0120eef826)));
   (1%nat, ((0x4b2e706958d8b0cf357753b56bb00e9bc03f163c322, 0x61262598e9102d69d0c6f9b7613f182c46b98c5fc22), (0x49bbdc5a1f1203d7e04b771ef0da4edd79ce1f041b1, 0x3aa614c966a7981f5c06eadbddce7a88fe70a1bb9a3), (0x1adf5a5472ca518814f47b9693f4989cc358c1bb980, 0x6f8dd893ccab409b5296b89e9a4e457e97744347c49), (0x6138a0d0eb0b6ac31416b9a2ffebc14d2bc1b96803c, 0x268490570d2c88c44e04f2ae2d37fde3be5e52e155), (0x231705d6d16a6f8c97c654ff334cc2ef1e9b48acdd, 0x179fe7331feee762a852ad6108f92de6eff6da1ff3)));
   (10%nat, ((0x45c3ed86417cc5c1317d3caa14619be867cc8a7d, 0x60418228a1e7dbf74aaa06310ff4936af8263bfb6bc), (0x486264c3a87acf334ba990a8c69bcd20bf97fbc38e6, 0x76d2b3efe095cfe51e87380c07d6a0f6619ed0b060a), (0x6e4dd699ae1fcc8dd30badac3eb0708127c66af1d8e, 0x55d2f9c96b0f8be33e7897781c3ea39c980e823a036), (0x398b8f7d068ad247e33c98ac366dd713aa6d52b1f49, 0x3ad4168fc735db43f243dde8ae3abfe261c2190266b), (0x31a4bdc863ddd692d7b3da1ac7a62ee4ca50a3c64b5, 0x2b29c70f761700ffbe6ef861a326e1a7c93adef35e4)));
   (6%nat, ((0xe8e1f611ed13076193a6bd784951266313aa3275cf, 0x46872f34dbb012f6d835fe4e1c1b65693ad63ca4e71), (0x26dc6a677530e34f433542027bf13d2a7a02d8590d5, 0x3df85ed3fd75bdfe87d8321684011ea03681e940d1c), (0x1e009c51c94b1cb358e88f314b76967cd6720061c73, 0x45749cb4c6cca30d29988fad8471ad4fff83c6d710d), (0x25b0232fadd69694da70e8f9aede2cb5653e38dad9f, 0x5bc6d7f26723529d9a7e9331dfdf142c9fd0f9a673a), (0x1624e144135c65890b00ed61029498e076cbbb19514, 0x5662549d9426f7bedafbf31e70f5865b30e73565044)));
   (3%nat, ((0x3a4c6d3d884ecd0512be482c11bfc15564171b63a7f, 0x6854f3c90778d2e919476fd75d358e20802cc1087c1), (0x550a4488744ca967d3b85ba820c614f2fde683513c8, 0x5c8808e747b2013138fcd0d17e2a2e790353fc51639), (0x42e41d5f6326c6d4794f6a425a5b0738fc418675eb5, 0x2165bd624be7e7fb4e23ec15d6326d3822219db700c), (0x8b6c684a677f13cee1299e636aae8bae4b1e03cd1d, 0x645dcfe931d248d2bf2e0802c0bd175a455e19cb603), (0xd8d62b163b83b1bcfebb9ccbe438bc31d1f6464167, 0x711db5c9e0314a24903440603beed2ac79f199c0a4f)));
   (8%nat, ((0x63f67bddd17ec9ad305671472f2fde1b952cfefef5e, 0xff372a42d7c22681656435af02b30bbd7e44b4c363), (0x1fcdde428b30efcc3fc5a61b807b47c454de219a11, 0x1c7d1b3b9f599c8d42a61028c9cb6f314682c6bd308), (0x65736314bf5b2830c179d58cc9ef8057a762c1909d, 0x457009c92d869987cc6fc69e6b0af50d0595d51fa33), (0x25ab2c9e05e44fab0e90be05f30b8435426cf965967, 0x1f46c3f8bfaeb4518fa588a38637c26275aebd17172), (0x450dde58720432333b6c1fd21322c05b0a7f9f0d20, 0x4d0d7dfb61a06f129757c096cd6650c18d97e556a18)));
   (11%nat, ((0x2e623cfe8483c29772762ee90f1f587cb71e032667c, 0x162de29e6e9c727d98848e3bfe1035d110aadaae484), (0x3d7d6595ea3c80d92d89ab0c3986e72189702465d3, 0x55fa428faf7a1000229a71f1e224d7fcaf4ac49eead), (0x39c049b2f8f0604f944866142eabfd2b08eaf9ddd50, 0x25299134616bc5638b71dcb2b02c70a724cf3f44499), (0xaca1571f299794f9d4ec31ed74fae58b34afc1754f, 0x6442748f64c1d82d96c1f945446fea1ce0c51f8d752), (0x131e74d89ba3a77bc968acdc143a72247da1af1afe5, 0x1)))]
  0x2aec5bc5da15c97130c91d2389b50171e37b48c8d5 0x271a7309b1a6322e2eeba1df5e8f31bfd0b9f29b8a.
Lemma prime_172_2831 : prime (Z.of_N 0x800000000000000000000189b4e67606e3825bb2831).
Proof.
  apply (good_prime _ [c0_172_2831; c1_172_2831]); [vm_cast_no_check (eq_refl true)|].
  intros c H. cbn [In] in H. destruct H as [<- | [<- | []]].
  - replace (exponent c0_172_2831) with (Z.of_N 0x1f06bec41) by (vm_compute; reflexivity). exact prime_33_ec41.
  - replace (exponent c1_172_2831) with (Z.of_N 0xdc38a06d4f6be1a638b) by (vm_compute; reflexivity). exact prime_76_638b.
Qed.
Lemma prime_8_00df : prime (Z.of_N 223). Proof. apply small_prime. vm_compute. reflexivity. Qed.
Lemma prime_9_01cd : prime (Z.of_N 461). Proof. apply small_prime. vm_compute. reflexivity. Qed.
Definition c0_34_2337 : cert := CERT 0x39385eb5 [(0x0, 0x39385eb6); (0x654b0b0, 0x12f602394); (0x2190bb3c, 0x1a28c3554); (0x2e4ed67c, 0x18f93b914); (0x2c3584a2, 0x1f63f476a); (0x3791855d, 0x6e8d5361); (0xc3b3f85, 0xd5841063); (0x179f91b1, 0xf53f805b); (0x1b2257db, 0x1c44bd9a5); (0x320ab97f, 0x72f21a05); (0xcb7b163, 0x75a5b049); (0xd0435b8, 0xe2e66f5e); (0x191aa959, 0x1abc123b5); (0x2f539b9a, 0x12db55c98); (0x2161834e, 0x11492c44e)]
  [(13%nat, ((0x0, 0x1), (0x0, 0x1), (0x0, 0x1), (0x0, 0x1), (0x0, 0x1abc123b5)));
   (15%nat, ((0x161cb4291, 0x54a2ddd2), (0xdd9cb82, 0x13d84c156), (0xc2f07d0f, 0xe54bddab), (0x65a94aed, 0xc6dc304e), (0x6a5875d5, 0x1)))]
  0xda87640d 0x182d8e50.
Definition c1_34_2337 : cert := CERT 0x1e9046f7c [(0x0, 0x1e9046f7d); (0x1ce643acf, 0x1c97fb390); (0x1b096d18f, 0x70458a97); (0x6a28a265, 0xb0b87208); (0xa7193696, 0x17461e9ae); (0x1601b6e53, 0x1e3487f21); (0x1c8f8376e, 0x16dcb6f7b); (0x159e0c739, 0x560b2bd0); (0x515bd862, 0x1de28b182); (0x1c41fd67b, 0x9f15250d); (0x966bc279, 0x1a895675a); (0x191774ff3, 0x42e416bd); (0x3f3fb94d, 0x18e9fb6be)]
  [(1%nat, ((0x0, 0x1), (0x0, 0x1), (0x0, 0x1), (0x0, 0x1), (0x0, 0x1e9046f7d)));
   (12%nat, ((0x1ce643acf, 0x1c97fb390), (0x194b524c8, 0xb0b87208), (0x3c62c710, 0x560b2bd0), (0xe50b420, 0x25c87620), (0x4e30652, 0xc6986402)));
   (13%nat, ((0x4c42aaee, 0x1cfea4ce2), (0x1a023a36b, 0x108703a87), (0x8735e2b4, 0x1eb4b2285), (0x1d2b4bd66, 0x28edf62f), (0x1f8c18a7, 0x1)))]
  0x5c51c7a1 0x574afa5d.
Lemma prime_34_2337 : prime (Z.of_N 0x2052d2337).
Proof.
  apply (good_prime _ [c0_34_2337; c1_34_2337]); [vm_cast_no_check (eq_refl true)|].
  intros c H. cbn [In] in H. destruct H as [<- | [<- | []]].
  - replace (exponent c0_34_2337) with (Z.of_N 0xdf) by (vm_compute; reflexivity). exact prime_8_00df.
  - replace (exponent c1_34_2337) with (Z.of_N 0x1cd) by (vm_compute; reflexivity). exact prime_9_01cd.
Qed.
Definition c0_46_d157 : cert := CERT 0x6a69d3b3830 [(0x0, 0x6a69d3b3831); (0x156cb8bada3, 0x1be3e3de63fc); (0x59d81b8e8c9, 0x145295480ded); (0x41775b8f832, 0x135c5ca6575f); (0x3e5e313154e, 0x209a62c995ad); (0x6906a8195c6, 0x17d1d1bbf1d3); (0x4cbb3abd021, 0x1ecc1a00c52c); (0x633579c0ac0, 0x29b0dcf62c); (0x864d0fbcf, 0x1746b2f02c13); (0x4afb12e7022, 0xc093e67ba15); (0x26c5c63e25d, 0x41d8795b6a); (0xd41ca7f71, 0xbe2864a1ee3); (0x26490bd14e3, 0x294e2e0254e)]
  [(2%nat, ((0x0, 0x1), (0x0, 0x1), (0x0, 0x1), (0x0, 0x1), (0x0, 0x1be3e3de63fc)));
   (0%nat, ((0x178c2a5d8937, 0x135c5ca6575f), (0xb58e12bd373, 0x29b0dcf62c), (0x349de361, 0x17829d2099), (0x10bb76a1, 0x18e1a390d9ba), (0x0, 0x18e1a390d9ba)));
   (5%nat, ((0x12bdaf632b3b, 0x3664a82ff17), (0x599042e365, 0x358ed7517be), (0x56d58801c5, 0x5fb95204211), (0x115628cf729, 0x189a1de34d32), (0x184800ff5509, 0xa50a0005bb)));
   (2%nat, ((0x3388c1bdc, 0x3373828c2d5), (0x502314c75e, 0xc574ec60647), (0x49c48517776, 0x197b5cee7897), (0x13a80d8ff86b, 0x12afc8ba21b4), (0xfc6eb6b55ae, 0x18509d5e9d0e)));
   (13%nat, ((0x11e5b450fb3b, 0xbea0316a0b7), (0x44c08219672, 0x15aa198a1013), (0xe35493f5920, 0x89f0413f789), (0x23ffccbc16f, 0x6cbf264b98), (0x87fa0f2e6, 0x74fdc51ae26)));
   (2%nat, ((0x19e5526a289, 0x1788f0979815), (0x10c478ff85d0, 0x207d4539a809), (0x1ff43263b4ad, 0x1674c26d2c86), (0xf43f666b3f4, 0x1f7d30d4fa38), (0x1a960393df54, 0x1aec7dd17d94)));
   (3%nat, ((0x15f1a61931b5, 0xd0a8c18340d), (0x526015cbccf, 0x19fb29d1f50), (0x146f26ea3e, 0x1014da603fee), (0x7d4297d121b, 0x288a562cf17), (0x18f0d2cd1c9, 0x1191fe9c7efc)));
   (3%nat, ((0x9586f1a9244, 0x20c55827cef4), (0x208295569910, 0x26598318420), (0x2c8561178e, 0x16bab7c914be), (0xfa3a7d8ee77, 0x102700bb0b93), (0x9efe1c72820, 0x5cb80876b37)));
   (7%nat, ((0x1043e1c52f9, 0x1d1bff028a32), (0x19a6b3e2328d, 0x1d8f92e0a6d9), (0x1a73f9f3553c, 0x5c5393a308d), (0x1020b623d78, 0x1a36cb8f51e1), (0x18707466f3cd, 0x1)))]
  0x1efa80fdd525 0x63caf42b829.
Lemma prime_46_d157 : prime (Z.of_N 0x2108a411d157).
Proof.
  apply (good_prime _ [c0_46_d157]); [vm_cast_no_check (eq_refl true)|].
  intros c H. cbn [In] in H. destruct H as [<- | []].
  - replace (exponent c0_46_d157) with (Z.of_N 0x2052d2337) by (vm_compute; reflexivity). exact prime_34_2337.
Qed.
Definition c0_54_da27 : cert := CERT 0x238753ac383e73 [(0x0, 0x238753ac383e74); (0x1da4a7726e8022, 0xab0365d3beb62); (0x8eaf2fe8ca569, 0x1b63fd4500c769); (0x16da6dc1955027, 0x79f4073fc5da3); (0x65c0523d6b62c, 0xd91df364af28); (0xb5269b1b5d04, 0x8c480378e7a84); (0x750b100d438d9, 0x10f4c0aaff08c1); (0xe25b1155a264b, 0x2589b7f4320207); (0x1f51d5c400c0a1, 0x194b0b4f312aa5); (0x151a6e304c4282, 0x83034870472f6); (0x6d4f621becc9c, 0xacf1cded9a7b4); (0x904bb18f9d628, 0x2273007197e578); (0x1cbe1a6b4a5737, 0x84c7535fdeaff)]
  [(2%nat, ((0x0, 0x1), (0x0, 0x1), (0x0, 0x1), (0x0, 0x1), (0x0, 0xab0365d3beb62)));
   (1%nat, ((0x2aecbc4956eb7, 0x79f4073fc5da3), (0x15d43c6aa916e, 0x2589b7f4320207), (0x211749dde31c05, 0x17b2d67077956e), (0xd306464ba5a2c, 0x10f13fd1dc0690), (0xe22c4cd1f737c, 0x16562d1403a95c)));
   (0%nat, ((0xbb775f515ef71, 0x19c1b81fede4d9), (0xf944faab51245, 0x21b8cb4aa5b56e), (0x1ab474402df8e8, 0x6fba8b3923fec), (0x12527b6448ad7, 0x755911708c4cf), (0x0, 0x755911708c4cf)));
   (8%nat, ((0x14362608002e6, 0x1b919c605b5257), (0x11d93c505fc41b, 0x11dc1e98b2fb74), (0x77d9f8cf97d56, 0x2546733955876), (0x20a11ad51a88, 0x1fbeab03a67bac), (0x1bfbee0ab2cbf0, 0x969f9b6a54824)));
   (10%nat, ((0x214c964d8b467, 0xd0dcc9ab8135f), (0x400720a6ecd8f, 0x16632e7d212678), (0xbc51ecde44f81, 0x16c9e923c4e199), (0xc321b38e7b898, 0x14ddcb25efbe49), (0x4032f939a5f44, 0x11f4f45b00f0ca)));
   (4%nat, ((0x7928322ac6d38, 0x22e5f8702d0bdc), (0x1c99c9c6757e1e, 0x4c046efa6e27e), (0x87b4447727ba, 0x1750e3015944ae), (0xcc43f1e8515f1, 0x5807b6aec548d), (0xfc1c8fe89bb9, 0x22bd073272cb98)));
   (1%nat, ((0x1c56d572ff5bb1, 0x166d29c687b849), (0xbcf9ffc1e4467, 0x21861ed69e320), (0x1a646e58e3c9, 0x1873f5234ee661), (0xe0ac4b5f12c47, 0x2ffe0f67b3bf0), (0x280ad4cdc650f, 0x1cc7619dc01d77)));
   (1%nat, ((0x1373241e81da8b, 0x1d27abe48424), (0x13f624f107, 0x5c99ac7b376ff), (0xc95e7bc537dd, 0x1c35d299115d56), (0x12b0564db9ebf4, 0x275d9f68c6deb8), (0x20d83aac07f2d5, 0x13d5a9e0cb1aed)));
   (13%nat, ((0x93d22a0eac914, 0xb3ea22967555d), (0x2f8271a7f3c8a, 0x174cedf3726c3), (0xcbfea18db77, 0x217e62412ab368), (0x1a58414058b16a, 0x1fbeba7dfd4f1a), (0x62fc505734b0f, 0x1b39a2c85d599d)));
   (1%nat, ((0x11680839fce95a, 0x1bc0f3e55c5993), (0x1216bdc6ae4ada, 0x23bba4a5e7f33), (0x1dfc347c7358, 0x9e488919121c1), (0x24c5a8f35b5dc, 0x271a6b95c546fd), (0x20a028b8b4f387, 0x148c7f83ba6113)));
   (5%nat, ((0x9ea870a7aa465, 0x26ea584a4b5a06), (0x2390662310d63a, 0x75e506b38314e), (0x146678f28e04e, 0x8e51c62205be2), (0x1dba8eb9bf16e, 0x7cc2d5bfeffc2), (0x27c1f7602a79, 0x3d6e4a1e511e1)));
   (7%nat, ((0x589f30217fa4, 0xe7044c18dc5), (0x4e54ce6ce, 0x16470f39880437), (0xba79f78d0fde4, 0xfaba2697aee15), (0x5c44981907cfc, 0x111009cd96b55), (0x6cb520a5e4cc, 0x1)))]
  0x1d9c46cd24e895 0x18b493c3374262.
Lemma prime_54_da27 : prime (Z.of_N 0x2a95237ef7da27).
Proof.
  apply (good_prime _ [c0_54_da27]); [vm_cast_no_check (eq_refl true)|].
  intros c H. cbn [In] in H. destruct H as [<- | []].
  - replace (exponent c0_54_da27) with (Z.of_N 0x2108a411d157) by (vm_compute; reflexivity). exact prime_46_d157.
Qed.
Definition c0_94_9337 : cert := CERT 0x61ddbfea30bb32ed0d225b1 [(0x0, 0x61ddbfea30bb32ed0d225b2); (0x103763818d104e4fc22f587, 0x242de88fe9464482e692aac3); (0x5feb1142cedcc651e0d2b67, 0x14eef293235a7819c1fb7275); (0x377f94d9c5b233f94f6b208, 0x24b71372a43f0203a7f7a6a2); (0x6156b9735b782df4ed44fa2, 0x7b845a04cd5a272c26a24d6); (0x147778536329145ec4f332a, 0x196b3012ff08210410356ec6); (0x4363c874811f36b10d68ce3, 0x1d1d67635bcebda722c805e7); (0x4d3061635d9baf61f7fc57d, 0x9aa5d67dcc3f9eadd8148c3); (0x19a0021ed642521381e120c, 0x1a147b377408004b34d00202); (0x45249cb39fb34c06028f3dd, 0x1c94bb0a28760590eca63e9); (0x4bc608ac2d8fe437cedd46, 0x18aa9cddfe7de56a34ad68f8); (0x41653af3c823417dc264f1c, 0x14cb518044caef35a17ac16c); (0x37211f29a7e095b7970284d, 0x100add7d206adb97ca89398d); (0x2a8813240d9d4d25719d7b8, 0xeb9f03848362127d3616482); (0x270ad171f0506c138c38d2e, 0x1562ba18f267af4bc427ed82)]
  [(2%nat, ((0x0, 0x1), (0x0, 0x1), (0x0, 0x1), (0x0, 0x1), (0x0, 0x242de88fe9464482e692aac3)));
   (10%nat, ((0x23758e098b468189153816d1, 0x24b71372a43f0203a7f7a6a2), (0x24846b9d95fff3be9d516ac7, 0x9aa5d67dcc3f9eadd8148c3), (0x287e197f067e017735123f9, 0x163a8ba8cbd47f4602208f0a), (0xd62b277130a644c6199fa72, 0x13a38c40f845f67d9d0de7e6), (0xf349cd91b395ca87bc70cb, 0xb63b3c9f0350ead2a3a35b9)));
   (9%nat, ((0x3839c28b47b901f903c1e87, 0xdaae87c070f9527af250bb0), (0x50f7c9f9835df0b45ad6a97, 0x1fe04b94cde0c6a9511efd8f), (0x1b8699c1b954349090d174d3, 0x1e830834be0e41507513b38c), (0x193850cd42ff9e31b9a8bbc4, 0x23459aead67b0802a24f3174), (0x18eb773c447a0a3b65b25068, 0xa82f53d66bd792924be4c90)));
   (5%nat, ((0x2fe4515612f1cde1c4da390, 0x1386d0e70ff9d84af3bfd10), (0xa543f8b49d06a47bd5e1d, 0x23249363b23f14d82a9dc1c5), (0x2174e6e504c8d8a6094c90c6, 0x15d1fe67386af16d2719d50f), (0xce5efeb05153e0b4b407ac3, 0x238a6e299e107af404b89dfc), (0x76ebf4ad86ae31d01adcdd2, 0x190f19b43bcccae8da02b28a)));
   (2%nat, ((0x1102ddc850e3d59ba27c2342, 0x163264e39b7e31a1bd37b936), (0xd58e3119098f05a12f1e3e1, 0x62247e9490e562fcbdbef0d), (0x104eddd433442effc86a1b3, 0x17f1e4d6aad3b1ce2d1c034), (0xf884058010819edc593bc, 0x10d4d4aa7770dd71e1c2592c), (0x107f10ccd28072572e353d7a, 0x182eb2effcc6431adef9e14e)));
   (3%nat, ((0xfd786e35ec2af8d4e170880, 0xcb17023755e038a1cb1e044), (0x45d567077a655b4c71006f7, 0x79d60a229b71ec48c5abdff), (0x1921fb2b7d862046f520e84, 0x56f863ffd93f8c05a4399a5), (0xcce751e203487ed14a8425, 0xf0d44f1e44fdf363e580166), (0x88920a48cf3388bcf93decc, 0xc53bcbad983720d8eaa0dca)));
   (7%nat, ((0x41dd3df50a9be8570fcb8af, 0x158efe7a7a0b89ed3762f8cb), (0xc97342c3398c68b492b346f, 0x1538818468f6a64c6fc6f020), (0xc32f946735dcccb80526a63, 0x2e5ef917a98935d61a14fbb), (0x3a4028e95b21412d47b55b, 0x1d3af2f8486d77b4ae58bb0c), (0x170df29e47807631c422917d, 0x1d4ad8bc3bdb528af0efaf9)));
   (14%nat, ((0x173e8be937c0285fcfa51f, 0x17367eeae035837f4c5eff88), (0xe98d99fd4cd6885c7796525, 0xc47d6bc4aa0b9f7846e3e4d), (0x415e558ed0a568305971fd2, 0x22ecc355273009c4e53df70b), (0x210af64ea310ff1f47800f78, 0x1c80114f801294ef55e6ffb1), (0xb5ea829c814628f33ebf6a3, 0x17530daa14430426e85f65dd)));
   (15%nat, ((0xebcda39e1bb2666f611adbc, 0x22d6c324d3d992abc1d2d965), (0x20e1620ee185c0ecb25126f7, 0x1f5775212b34752be5ce2dc8), (0x1a9c41d1c81d2f6fb4e2d840, 0x17921fa907031d7525e6b680), (0xf0cf9e906b5349b9d9f9a5b, 0x1e41e98488c6011a5206d573), (0x11877bfd6814a4675fea7b69, 0x2fdf051b1a094bf312e0cd7)));
   (7%nat, ((0x3e14a30545d218aa9772bb, 0xbe038a953c656f1ed76d564), (0x3d216c0573a0457971d49a6, 0x17ead9698de7c2cf4c7c6a66), (0xf7f1e0c09e9fac3ad327733, 0x1586cfd899476153b85fbbaf), (0xc8da75f09a8db24828adfcf, 0x13c5fbfc36664b1ba6362f28), (0xf987c52f895e15769a99257, 0xc74ec2fa7182a263c06ef67)));
   (13%nat, ((0x4341ba7a933e677cc9043e5, 0x3958b992e9f2e9e12a1663e), (0x5916b9729f0cbb7ca14ff2, 0xcfa5b3e6e9a61167d475406), (0x4900c0ef9b8f35f3820efa9, 0xd2fececd405b300b2c967d5), (0x4b6047c8819971c463d6ee5, 0x104f6b3f5606e7b2519dc506), (0x71696eff2cf918d48e6c2ca, 0xf4d2bcf8dcb56d3865a02e8)));
   (10%nat, ((0x657ba1adcc759c48cf96b85, 0xd6a22a43c0587f3aa9bf9ad), (0x4dff745cffd9e1ece02b56c, 0x127e95ca3a51d4d0d5a200b5), (0x94417e3e964b2b0c965a03d, 0x1544bb9bfaa1b1983a6b0bde), (0xc410c1ac13ffbeb856ad044, 0x1f85caec1e46de89dac309e8), (0x186817556fd8c8f95b1c549, 0x22e3252e7dc1fd0d84616e79)));
   (2%nat, ((0x20f8c5df52bdcd60711004e0, 0x17e398cea3828176fdc08911), (0xf75b99baec953d17dbca1fe, 0xa2e7d6ea5e3e2fa06a18b8f), (0x2ceeb4af7c1def59208da68, 0xacbef3495ee5fe7e399f589), (0x3286500f4dd165123463262, 0x3fe80e9089956966c146a43), (0x3ea26b10569384a9b98f0d6, 0x2c645d75efa681c873ecf0f)));
   (7%nat, ((0x356287bfcd51e6d8abb0b4, 0x1859ef0b6df86583c75ef035), (0x10105ef5c42c7ed9b07f3053, 0x23c993c333301512923d6024), (0x22b1f39ef2b8d2d9d7b835ec, 0x229c5dcd518b39e0ea9ceb5c), (0x2073848b6ede04bbb003cf7c, 0x571bbaa3276563e72a0416c), (0x44b43b100a8e0f4130ccea5, 0x1)))]
  0x19c53286d72b627025bcd1f5 0x44526a588a0d075088dc1bc.
Lemma prime_94_9337 : prime (Z.of_N 0x24ea018c4349d56aa4259337).
Proof.
  apply (good_prime _ [c0_94_9337]); [vm_cast_no_check (eq_refl true)|].
  intros c H. cbn [In] in H. destruct H as [<- | []].
  - replace (exponent c0_94_9337) with (Z.of_N 0x2a95237ef7da27) by (vm_compute; reflexivity). exact prime_54_da27.
Qed.
Definition c0_164_bfc7 : cert := CERT 0xaa2af183e3c60ad9389c53246a76a5cecbf0ba5d6 [(0x0, 0xaa2af183e3c60ad9389c53246a76a5cecbf0ba5d7); (0x893548c5f3650e0043e55fc80b3961366c5b0f011, 0x749572c2b513f511bc2cbc7b8fb69897fcbf48e5a); (0x5e00b7423623cda2eb23d517b55dbeb43a94d2e28, 0x5e66f3cc63b645cb8a1e0d0fc41368cece40ad67e); (0x4c1e14e4a88ab4f41c462b3cf8c11219c2efa1398, 0x16d9a7b8ee676f6437806546c456bc02e2087b6aa); (0x126ca44e14c202d74719219bfcd448b6107ee6c88, 0xc8fa6957608636edcce51c0a058f39d191e4c250e); (0xa20d0987a5c1eef0a596297bb6d6727dfa6b237fe, 0xce126c4c4587783e90cbfb7ac332277fc00191c50); (0xa62879e7fd44e689bff292c294e103bcf4de086da, 0x922915d3df670302161e9de360a0550e812eddba); (0x75d9cf8a08bb97839d510b6dc6a7670d3f3db6f3, 0x8d6051801303289aeac4abe4162d8ad8599239551); (0x71fe447f399a9ecd7240550b33cf0db733b3b411f, 0x53a0037c571e32b54dfed180df8bd5e9c42d1dbee); (0x436d84cbc003525faa6c407aa81e192b18ef941e7, 0x4e8acebd9d11d3c0f851c97d1838beb3536818751); (0x3f545785833b6b51ed857a9ed02e8b8bcea9c1fd0, 0x2bfe9cf83b07d31d7bc2f6e5a93fb31ebfed1ef57); (0x23792b7c37ba7f830964393c7750ed2a24541bf59, 0x62ab6cd989afaca1d0b35c1bbfb99e65096fbefe2); (0x4f8ef4601409183883b09b3cd744938a7bd614926, 0x30457953968240fec84318d72a3a3d8b5c27ea44); (0x26ebf7dea74486105135641fd0f3ce109e3f7b79, 0x2f0b76105b2f85203e2bdc36178639c4667e2510d)]
  [(2%nat, ((0x0, 0x1), (0x0, 0x1), (0x0, 0x1), (0x0, 0x1), (0x0, 0x749572c2b513f511bc2cbc7b8fb69897fcbf48e5a)));
   (4%nat, ((0x4066ffe86eeaa242730f431b2be755bf400b1cb36, 0x16d9a7b8ee676f6437806546c456bc02e2087b6aa), (0x2795a69223ccad96dcda162e2a46d3c6ee27e5d5, 0x8d6051801303289aeac4abe4162d8ad8599239551), (0x5eb4c75229e307ba014ee22b51178caaa88e4e2db, 0x8a4e5e5a533fe59e66790781dc72db1551b20a664), (0x5aa3375b278cc937ae0921cda4abcc1243a25b401, 0x92a8e5f49fceebd33a5f5ce89af156b32ba0d2b49), (0xfe10e87180d1353a1986630b6a0f7f304f92f96f, 0x58eeee5749c069ba5d49a85243545218d5876ee31)));
   (14%nat, ((0x2579e1f0fa1a8783f450aceea22dcb4f5037a11ca, 0x290f53b31d6e5ac5c8261a69e29acc9087ff9b5b), (0x7fd08abc04fe82eaccce9c97091740ff442fce, 0xc824340e0eb26b41277ce61b5586a248b664f7737), (0xbdcd26412e61aeb2c46a80b634c86f2b903dd7b7d, 0x61f7702892c1955695a9c5226a148523c911feca6), (0x2d79d2e1880e98232ccdf803a7ec5d5cca0019502, 0x4ef17bcde3c1f52207fcae28aae82df3d91952916), (0x1198f8716a4b83f759c904aca8b4961ed83f77aa2, 0x505ae614494a2b688daf51bfde5b161e60705da30)));
   (10%nat, ((0x1e9858f6dd2feb43180960d203f4e1c98e0fa7d58, 0x4e500c8e94a062824c3023a1ab371981f75a1b198), (0x1d0f422af4d86e859eedac1e3520ccfaf3b073caa, 0x741fa64534f01d0b539eac5302621af30007e8c1a), (0x3fe51c036fc92c3f634b48818f9af19788a3a0337, 0x6fab7e72655bf009cca991ce84dce967ae2eae9e3), (0x3b167848f23c334ddf990116ad51595b647f55069, 0xd2fab0de37745968cc35ba1efa3569829c0b626aa), (0x4e8490b323c63c7cbe91d5f03ea5cb03443ad2e73, 0xa112992ab55dbd401aad685092f0d52780241f965)));
   (0%nat, ((0x7aeee27c25e8f6733b3f79be0c0214c77e575e3cb, 0x80442bfa7f36a357cfba6f3f67599476c50881a0c), (0x4df4c77e0be900e822033725a5e7566fbc1ad08f8, 0x48d5a148cab5b8d7f9ee1c7acb63e679771b6fc8), (0x1922ddd1dd7cc7f8eef95291f5f02a4caa74edb, 0x397409d0b93258e5a6f866a0b6ae3876aea2c5b03), (0xfa40203a33b78e121fe3906cd99e2bd06e76b23e, 0x76d441f64230b411410d97ffe02b21ce143dc51d7), (0x0, 0x76d441f64230b411410d97ffe02b21ce143dc51d7)));
   (1%nat, ((0x42e82dd0bc8cb235a942d66cbc34cf292869fcf1f, 0x493e38d7fe6225082d303207ccb922e8233cca078), (0x196b42e42b7413856546b6165a327dc3589e0662f, 0x4f5aa83d436fcbdec6539905041272f49bf36b8b7), (0x1dd66f77ddffe8b948024bff449ccd0001ba1806a, 0xa2f61860b74daa8bcb283497c728eb5b9735faa6b), (0x7dd53c7b229f64633d657158fe09edf07bc8c1ca0, 0x6783a94499893261a43438ad5ddc27435ba76a859), (0x5376f87b92a11e26c318867c5b16a0f4f39a3bbbe, 0x972cf45f048368b754396d6cbf07185aee7dc0d0d)));
   (8%nat, ((0x6c4a44cf176e64d02400861bd4194887fcd07cccb, 0x8ea963444142dce1f4bea1597f679d9d26507abdc), (0x606fa96acf03a4221cdbb4b8dfece5287b2b2f45d, 0x23bbc33c954fe90eaf940c2b342c944f270914dc5), (0x60cdeec5002f9ff4924e553662a961e74a39d732, 0x443a1edf96fb8541579a7c4f2492ab5096edb83bb), (0x160e7ca53cdd71db0c9f3f8a870cbfe9fe64fd651, 0x814a02bf7d2f567946876d498ab80e92d137e2a2), (0x569bf0dc31c824dfe14296a41e94ac9e2143e169, 0x4981d0877f7d39a73e0f3638c977fd040bc866fa3)));
   (12%nat, ((0x199a43058b028afd1042bf4fa0cf404215cf29036, 0x42e833921dd2fd3085501e7ce8770ac86f6ce5dcf), (0x15361d2904cb176ac8e93d2e6afa241e3b37bb13f, 0x2630c97270c0daf85d39f5311773aef13f5c4468), (0x6e934045c2804fb0290be995d794045e69d9cd, 0x44e7ec3298e58623537bfa90a9ebf10af142628e5), (0x167f6b94e05b851f0a81e63f81f218dd6a917bbc7, 0x7e576de12ed02da77ac1bf33f8d5648da75ccec28), (0x3b11809e6225d51394b06bbe075186fab7789f56c, 0x304cba8bef71e1c297e5641fe90ac3c36e284785c)));
   (4%nat, ((0xb0dcae491d50f7b60a46234ded07e8ddb370ce26, 0x19eed4fb1ce067321435af40d23ec43583c69c786), (0x32fc59e665e69b196539cdd71494c097f0c0453d, 0xc629501c5b5897754da82fa7f8a8df656ad8644b9), (0xba108001251b386a9258614e2ffe05a280b06c213, 0x3776eb7fede98ca12eaacf24d119bd0678fcac3ec), (0xe939bb10b41f2e8997b39eb92fe2bef0d57013d5, 0x36b6f88991c15b9c627047f06f9e4034844750bfd), (0x5ec8fa2cd7548efc456633111a1782524dba538e, 0x4c5e533f479eebd78be76c9a99a29abe71626eea0)));
   (3%nat, ((0x1ba27623e8d32e95c878b1b158cb30789e5a6b678, 0x9a7fec200efaeb85f4fa0e38fb91d5aaf869a84b8), (0x711acd7886f30621f054d3ed09e98c9b19209f205, 0x62cc99db81407bb85c44219d1ccf1e24aa270675d), (0x2e409077cca561d3a6e530c44d851be59b341ec9e, 0x1a45719e028fa764091d3cdaaf24507ed522d26f7), (0x345324267db7163f8dfa9ff08baf2aa89aed2459, 0x2cc66c11797d6e6546f5f350f65f6773e3ed99a22), (0x14073d99c247888b51c476005b9b8b5f024609c4f, 0x51708b293776b84a056d9d5e85b9ff9e57efad653)));
   (4%nat, ((0x1f6d334559f6c17bd904c7020c8dbabcc804ae841, 0xa5469000f37eec866786be3e4e9f705e5524ad562), (0x816eb2a36617cf0651e96417d3653666cdac56f2a, 0xa394d96c069a342281ecf05d0fc6284134d9879de), (0x7ecadf0d35df1e91a52aa4c8739403d52e8bbc406, 0x4c7bae9adb41dd7a4d110dd40a8f43a3dc97fc1da), (0x1bb7b9394ca7a3e5519a3452b5e761cad460eb042, 0x7e95b2aaa9ec0b9ea3c8f411755daf108edf02c56), (0xdb4a038764d5879c210e3e4e5ed0148e53bf9758, 0x59d2fe1846efdbe99b448b70c16695e9c808b47b4)));
   (9%nat, ((0x263b0db20f413479c053da0388b87708274f508fe, 0x3d3429a5501fe25b94365694c6abcd9082557d71e), (0x11bfd319d80b5768da381a67aa84a100ed560e0be, 0x1c114e5cfe82a87ad0882353bcac659428864f1d2), (0x3bb998029fe9cb42ca9d6011b9c33676d6c21947, 0x69adcdab48726b9c800ac1d4b85c3809931147113), (0x34eaf7912bb3650ecdd096bb128272239aefb7f27, 0x122bd6400b9a655ccff00ea236b14d62efd80d718), (0x73342338a2c1c3a5de32233aed866ddd3903b1b9, 0x4a0d74acaf4cfc90f49498fe300778f3d7b945281)));
   (13%nat, ((0x19fbe5a3d9e3a376e935140318822aa25964fd738, 0xb11ded0e482a9e2ba87a4bdfa24e27ce8c5c3d079), (0x94a4b031709ac7e5296b07add3545bb7b066ac2f0, 0xae71201e240209ff2abeee1f148b92729487c40a1), (0x902ff23c0e6e4d94450059679a5d4289962cbc2c2, 0xbe43236313a43db3a2444358e950e99df7cdbc273), (0xab86ba80cb2e25d6001ba6d9dc7cdaeb3011444bc, 0x5406163e42a29e7f9314dd6e83634092f4e9ecd85), (0x1337e952843192c4c6b5d3a6471829ab08c9cee2, 0x405b1de874d0beff543b64ad598f5b03ca6b8b9a6)));
   (5%nat, ((0x139feaa674bd5ef4e450df6d55eb6d1b1ab51f344, 0x1fec0f8538c8fdfb08479376b45b830136bd981c8), (0x4d415ef28f7d7b5b8af906fca4052dacfcc3bead, 0x24aa99dc4a70451aa013c8c19a994eac372f5e0c5), (0x65ece2c94e0d97f89809e554c5241907c6f3e94a, 0x73caf528f2d7e2482310b5b2c726569c2c2a0c913), (0x3f880ab5f49b88a6c68a14b73e7468d25c2fa16a8, 0x4cc859e6c48cfd0b1b2be3c890ca58680fa57e2d1), (0x491ec39a820375bbeede9d4d1d7c1d0fde60abae0, 0x1c312cf4cc8ea45befe7290ae839c62eb657e384e)));
   (6%nat, ((0x3c41864ed2d2e14bd0ebb66c7e8b8d7b10c7323c, 0xc92d7ec5d83d7b2812cb451ce52df5b1cfc8b6720), (0xbfc59fb765f74c6f9946d2a6a0b77ff5ef4e9c10f, 0x7a888e8f50b531edd619250efe8e3dad1a3388057), (0x4724b4eb26e8a85443e266ce7caef0f3197417cb5, 0x1c632e29ca7d0a00cfb17a6aa76dddff32a1321de), (0x3d1804d2583590d1891143f3fda59d8ad00be616, 0x81048f003f4daac6edcd8981b1afe26a754c6b76a), (0x7dfa4fc0ab047b1e4ee1e22fd9d9d2e602859f772, 0xba7a2a3d539f8cfd42304eee50cddafb71f4b8182)));
   (10%nat, ((0xa4c4ffa9cec4fbe53fde77811223321dc4b70b06d, 0xa4a42225946027a2b0501fa0c4d323fb2e03cce49), (0x8070c799342bc7b01029d15da4c92ebd57c280eb3, 0xe313485b8ab4897743bc47c90d2ff53326ef96ac), (0xf452d1a5782a0d4383099e3a9368023a4aa2615, 0x2bcf05ad848124d867b914bc5e4da70edc0e7be3d), (0x91803b922a3cce7b8555c49c437cb87383514447, 0x3c863a2b8e172fef94857223adc1ccc8bacac8e58), (0x168650f6717dc10768e6daefb97a11071a814353a, 0x6aa8b4662af8cf134c52bd5cfb69ddf00af43cbc2)));
   (10%nat, ((0x35e767dc13b937dd43372486dbf0cab82a6ccd528, 0xb6a52b9c97eba4ebf80e8792baedf192864eeb4ec), (0x9e11372788a9f6f9acc8dc80aa84485f73707af4a, 0x3c0a8a6437ec80cfe4efe1ad9a4f1bc1808c9410a), (0x1114d754bebccc3d98229f5df9638a2d46984212b, 0x930343ade01b7dba3eb5490413d233c06f7c636f7), (0x666889fda2121cf018f9056de5eeb177994a44ab6, 0xc71557e4e1dc5255a89b3c7e1410868123d8f44d7), (0x4a17363232a9b9877fdd29dee92f24ef543f8baac, 0x67bf1f9c08fa469a94c39b354f83084b44a5db953)));
   (4%nat, ((0x3300152a50e4bf967e1409e602aa9e0722e1e506a, 0x60547140ef85c3957c50036fed470d8ab09257883), (0x2bf8144a023539d0ef13a58ffd94458089fa72ec4, 0x4356e56856e1092fb586fb3bcf71e1e7700b7cad), (0x157c86fa43516d346b31f4f75133c59a60299c8, 0x376b9c8fe2b9e24ba202286fd7e86a5e5702c4a71), (0xe8daaaa18a7af21f82179a64d1279467c15c5186, 0x13e7be7277385975014e0a9222ddc99af92792cb7), (0x227b9ccb37078fa0f8ad338c2551835678a0d628, 0x522fc01baf86bd9cec9c6b82d5cfadfd5f86c7a6e)));
   (2%nat, ((0x2001721d86ce3d4b3e9c51969c347a35d1c911fe8, 0x796147405c15e3e00246c3b57a734e20e877721ec), (0x45cf70d52c74a50762d82eba7e22f300dc8e26b80, 0x45bb74fafdb48cb5e96a77f63fb06113de230a110), (0x170a6148dd56b97570ca72458d8d641843551eb26, 0x62dab37b3565a5bd957e67d3c6793f0b36ca7fc76), (0x2e4dc50d9df09b9b6ff5d70bf5436cc20f7dcdffa, 0x4d809c937572f8ae31d11665575516604120ce50e), (0x2ad033d6ae9985ea26b6a7e0512bb1bf677b8daaf, 0x9fc6b57cd51a99cea0e18ba1488d242fe71a0bbe3)));
   (5%nat, ((0x78f6513867a1f79ac5bf6144b92130c710d82abdc, 0xa16f15372b12be2e5debf8c4318719eb7ca6caf45), (0x7b7c36de5b3f4382044ee513eb84075ff9f92a584, 0x5d6beb1d396458cb481db2e3363504ded504742fd), (0x295aac8eb0c2cd20b20a6cf7bbd828ce557b8489a, 0x59b7b690a56abd7c7bd7a1ff61458beeff4401853), (0x2623d89b80d8068a8bd4d6c684c1221ffec5dda13, 0x19c4386495e63386d60a9be2dcb1adacb07dff924), (0x1889966b4040e2039bfa45a6b07ca33d63b8e3f21, 0xb944dffcc077039b391c878469f57e92e52282251)));
   (9%nat, ((0xa2a432994984340b2ce3ae822c3093796f4597803, 0x12a950475df87100bdb376fe259579367d85c164c), (0x1a66d9f5238478cb312c92f2436ba2fe9cabe41b, 0xbe32c8cb1e7e999db741ac8f8e2cc16297093b093), (0xab693f20dd5ec7369b7a1c452cbead8583d889f99, 0xd0b008baf69ab9cdc02a50b55d8f834c916a03d7a), (0xce5b57fa4833fc34413df031c58a6ebfbda2e4c7d, 0x5e1de4ce6c35a0a42250eccf39b0fbcaedf2ba5f9), (0x254b0a72be1c203ea77dbfd2f4525ebb80688af0e, 0xa0b6dcf1ca7611dcbcb8caa898792067baf27ca9c)));
   (3%nat, ((0x7a630350860b2f57fce0c97fd7876debd177e39e4, 0x43e49462238b735832fd8545608dc1f02873e72d4), (0x15d75087cc4682ecdd19203b6a41b2a4087e3e93c, 0x3a092ea0ba0503b281a42744a6c2e487e02b76dec), (0xff59f89dfed36978f62dedcd69ab3a5e699a8cc6, 0xbd40fec1ecb0a4fe2d0f5d0565307d4d067c1a9a6), (0xa9b6844b530bab1057cfb7e07de96a1da213da507, 0xaf4981287f93d9ab77fe21eb4d187675741421633), (0x4e684e938df1fe2184387c0fba366de9cf263a311, 0xcd9dc5ea849012731ab827b1adadab0e17ba91de3)));
   (3%nat, ((0xc853d3d9f0e18713666aa909de3749b8eeb6a788f, 0x8cead0f0cde500bdd6a62087700739930d7a9cf20), (0x5e179b90b51a6f2a1a9439ef28f4040b2b7205aec, 0xc4b482840ac146d23d65cf86f628236f6449c028c), (0xb756fb7df20d1fdaaf31f1f6553832b2bf4b74b9c, 0x61da372223f95322db12b335331c4945fb95524c), (0x2d5eb59306a43e47745c1ff0c1cbdc95c55193d, 0xb8c2dcfe9362378f6ffe3d11e68bc6d4a5628a525), (0x52a530de4c0d7e208d3aa09dc09731b82760d835c, 0x2a728900cba53aba359ecb02adb79422fb41175b2)));
   (7%nat, ((0x889959f9644419ddf9e947036dc4d56e805035a8, 0x82361d5ce9a041b60afc0002772921a15ce56222c), (0x5056a2df849f00b2212dcfeb81d73b1f4020931bb, 0x43af3c33cd033669f59e214ac01e0cf4562908a33), (0x15b50ba7bf06eed7639950385e203d2449ea83ae3, 0x5fb2f53e68743538dba5510a296daaceff86ee2b4), (0x2b652528b25d5f27083eb7dafd159e24ee5518f49, 0x318a0dede207817e6fc99ea3cf35259bf4e7f75d1), (0x224f0add5d1009a551512084f75a8fdd539c445f, 0x1)))]
  0x847330eb7675d1716722951aea6ec10924c580ca8 0x6acbbe7e4d02ac7627f8847591838717b0097ce19.
Lemma prime_164_bfc7 : prime (Z.of_N 0xd30b76d76ca3bec514e4aa7d5c52f53fc2a7dbfc7).
Proof.
  apply (good_prime _ [c0_164_bfc7]); [vm_cast_no_check (eq_refl true)|].
  intros c H. cbn [In] in H. destruct H as [<- | []].
  - replace (exponent c0_164_bfc7) with (Z.of_N 0x24ea018c4349d56aa4259337) by (vm_compute; reflexivity). exact prime_94_9337.
Qed.
Definition c0_178_36ef : cert := CERT 0x14f28774eb58925a98ca3283c5bda91afe8c70eb379c7 [(0x0, 0x14f28774eb58925a98ca3283c5bda91afe8c70eb379c8); (0x6db2bba95fd3fc19891830cd4e40f0c7bfbd85a75d6f, 0x193ee8d15566987e53069593525c3ffb48b5b520b079f); (0x843541094307643507f1d5d5ac4381d55c2dbde161c8, 0x2818cf3c81022f31d3580c60151a2555951281fcaa180); (0xd1fb3701aa6538cee39c2bc7c178b174b0002a695ffd, 0x1e9433fe3d2d811e77e1a184c0f08046240ef1949b0cd); (0xa02315c873292e305bf00e40f2197c78c3b922f05caf, 0x963a40ab4a6d748e5a1eebb7429e4e5ec8b3ca6893c7); (0x312b7e6f615ff6da6b94dfdf9759ea1ed858317cf8e8, 0x65dda3277a596485852ffed7e9eaefaa5c8319b431e0); (0x215748a6dff85bd73f26a2281c5d1cc3ff8c984430b5, 0x51d45eca70365697900439d96bdbb22283399603005); (0x1ac875d726512756c3de5de62fb720922f782b250c6, 0x1a21b1130c899bb1f5617f6b0022c4566fceceac7b40e); (0x88d8e0a529f6a3c995d74719130b8c8784ac91b9c958, 0x3eedb74d6e81fdea4fe98e53f679e7954c99c44dbfc8); (0x1498c155b43e00279118b03e81bfc8832b89f772d204, 0x38be55d80c6ec8442ffc8bc91fa44435a62eaebb47284); (0x129282a1438a5df8a5bbf4b5ec4ed247dfccd5f1321e1, 0x2e6a22089f312f7a35e3943f4ae75646509133b61c411); (0xf310e300d2f2148465473bb9393815e2b5fad384da02, 0x3ea4de1faa4d9cc7a7955ad046f802bb673a88068426a); (0x1480e96802adaca613aee147f6f6df9f310aa465ae9e9, 0xa69eefeb83c94c3493e95c962e9f3c1a83cf04ac7649); (0x3689149c72970e592af8220b520c8cd1331674c5d3e7, 0x3dea9dff9df26a6b7b48a90ad6fb98fabc14942be5b5f); (0x1443f391521dbab45269eaed5a9c946a50914a77d26ee, 0x2b0452d5886fdc2977912a40cf0869dd9038031eabd06)]
  [(13%nat, ((0x0, 0x1), (0x0, 0x1), (0x0, 0x1), (0x0, 0x1), (0x0, 0xa69eefeb83c94c3493e95c962e9f3c1a83cf04ac7649)));
   (3%nat, ((0x1b1ca0749d9e5502d51b3bc917c000581573cdacd909, 0x881022c706761b5de5a2e74fabd5ab113f699c46db6a), (0x1214497df51df11266b1c1b99dfdc7a5bade4ff1b507, 0xc0f8dbbd531cf7f6f379e21c5581b443416a5610c5b), (0x245d8ee19e067d128fec40a87d66e0549dd8497cf7, 0x295d7be53f5f44d1d9df46fee5a29f22d08bf6ce8e3c0), (0x1abc4f4abb4a9dccd2127c5dded6ecb7ff29d0caf8b88, 0x2ab16b020712e76093e21b5dcd5117f227af70e3c1c08), (0x1abf6fa797ac6931dc7375750f3d3855af0cb45baf8ae, 0x135b12b9faecd0d54a9dcdb7437bd561da0e6a7202d8e)));
   (0%nat, ((0x5da94b7b358e7083936b9bf81cc4a0ded8d8d86adf07, 0x3bc5b12fef91fbe34ab90bfd8957f032e09f79efb893b), (0x37d2e1591b5d4c28997bfabd3b58e715dac4b3c495e3d, 0x38c50ee266b4121fbec4798c20aa399fe5614cb285aa6), (0x325b38cbd8f9921be5c416595fd3ca0c6d47bc42854ae, 0x267a162c3d840d479a120cb45b467bfce955d8b996132), (0x1721e3391965e01741c51a0fbd0898d843e7e6d8c74b0, 0x2c8ae819276c8a0c50fb4953d89d68375fb96828cdd74), (0x0, 0x2c8ae819276c8a0c50fb4953d89d68375fb96828cdd74)));
   (11%nat, ((0x1f002c9ecc65a99a1264e590d3bf3ae09bc63cab19286, 0x342d5c924b83d1101bba1edcfdc6ab1bb75620b356d76), (0x2a89d6946e564c9c07479a9750975add3a2dfb6970cdc, 0x1b4e4c22d771e9d0165eb0d71c4da6201ca1999364900), (0xba6700755481597c7af33ed156f1b26b8a9f9b88a407, 0x1c83a97b91df23aa6efbc24c0d1b7bbe740a695d86377), (0xcb44327b251f1a79559f57beb00a686bb15c3f7e658a, 0x20d391e08b9f40ecff49cf231b6a3cd3335364b75597b), (0x17ce80b7d1da156b8747596fbfb25c4491907f5e70e7d, 0x3b27e0e488822cd513ab503325a69259ae07a31e93878)));
   (7%nat, ((0x36ad9f7e88794cec7c7113d6fa009f1982db23207f1ea, 0x1901175b02d21845c7b9455b53c3d0abaea3eaa1e82ca), (0x9c4da43dd9224fa4d3dfd2b00cb0671ce8c406010dbb, 0xeaf38a792ca07d830497a2e52be8ccdad922e21283cf), (0x35e888356ca1bee6827bd91242594623c38f828b0e36, 0x218f08dbe1a916b5f156e531df9c97df3b398063bd8f7), (0x1198c0ce5888b6e2dc7ba899816fbb49bb6c73f495d8d, 0x5ba31033d212dbc8d7f2f8348b135a73fd1d6227a9ae), (0x752a74609caa26a974fe94a73f373d113425fd33cf, 0x11d8b20ccc06137cbb2c2fd7a6dc8e18f7e579427e825)));
   (6%nat, ((0x4f9fc4a921b94cea672c068a93cce46cafc9e1d59b86, 0x2ee799d3b160f709cc56e94d803960d6bf5ed14029f3f), (0x2260333c30debb648498adb7df5c452b62cfec0551102, 0x1022320109920d7a3dd43456e53eba9b6146d688604a3), (0x4112b45ccf4d0e3f3d99928b8fdb039d655cedc95b17, 0x368e48414d65732990563b54b8af78c070c0efc989b50), (0x2e81563f25f5d54b02ca31e4f5907252174c6a1533614, 0x350ae6b61486dbbbe826a16a48351130bc317f9fa4454), (0x546ce4f480c6e5f2e6e71571f1660abd5ec7b10dee29, 0x21927bc52f1730d85c1f0831c2489b27a165a184fdf39)));
   (13%nat, ((0x119c5ee8fb9310b5274ebc3d585f3d8be89fccc6eb9ec, 0xa53777791200fbfb36ddb445b8061a66bb064a62ff5d), (0x1aa82301a7bf324f42c850663cced27de147846f2a7b, 0x2d4e4d3f8e8ecc6b1d5f9404ae48e051baa77c979ccf4), (0x20127c6e08a179ae68f51c6a60a51ac69ede4c94e700d, 0x2fa54b333c7f61b558367e37b33312adac91fed866e6d), (0x2378715b5967472159d376dfc0776f3a6a6467316c0dc, 0x10ad48d8794fcc56398b34353beac577211153c196505), (0x2b6adf41cbb97c12e436d1b34be8b9678e419bc10255, 0x3b786a1b4ec706a12505f5f86c607053e8008a3910112)));
   (7%nat, ((0x3742e630ef90df2c1768c1913a286a87838b8e0d31070, 0x29658be23eda46d991a978b61ae78bf52b1edb012cb4), (0x1ac6bc58945bec86a86424958d34b97bf75c9e11be2, 0xbd9a4c403599e56138a2c6bb804e2da33dd087e7aa92), (0x231b4c65a8c6fa71efbd7f43351a6226b7d87342f12a, 0x2c635efa5b9038be4ad286c08bfdd76a1d9ed7df0390e), (0x1ec93ce2a164d488b402a56b6ab5b482f6b451d3cd2d5, 0x28b422b7d771d9bcc706c77e608d18ee8e2e9c9cb79e9), (0x340b0ced008f2534dbc251a063b6f480c4ab31c7d3f, 0x1330e6c4504bd0ffc6745ded39305251f09edc1f2d9bc)));
   (6%nat, ((0x5c12e61f63ad11e80cb2ba6012bee7bc6b0159a2435c, 0x3841664ff540ebf2fa2039444d0d44df4d38a2a35f72c), (0x3172b5e0632b0a6c8f76c3270df7ea505a8517534160e, 0x1689d4aaaedf73e1aaa45ba0cde29e7428d1daafa647e), (0x7efeb0a95a2da0e84144a4a385bb6e908a39811fabc2, 0xb8a9b4ce8a4cf4ccd2bc74f887859327398556ba67e6), (0x214d191a47cd14a82f0b8d83084aab3da22dd9e39816, 0x3d0565dacbe8ef4af43eb5d9ada758278cb386527421a), (0x611fd6f064ae902891fd3346d85d309fb8b710394f38, 0xcf2a1bd4eaade6cf202ff85f2434061555f591a20b78)));
   (12%nat, ((0x29e947fbde1a35ba39f71ed7afbe552895b70054aa38, 0x1421822aa54031db6fa40da7e4eec302e8ccd9700cdf8), (0x65502e5ebffe51be98dd0bbc7f940b373933d30a0f7d, 0x16a235253c14c9d8f595c59d007620af5b4b833d44c8d), (0x8011fa6d1f0352f21f1f8e85d58aa5ff52a1d457baa8, 0x37d26581a8387aa86c76f6dddc4977ae6e4fdbfd552d1), (0x30b052219cff47148caf081d42a5e7ee3bbec0888fce6, 0x19683b8488242b320871fedee60331a970d4f340befe7), (0x18de6cef080c20b38885ccc442605944f9c6dd825d3e0, 0x25e4b2e31813eafc33a1b4aceafa45cdae54f0e0d586)));
   (10%nat, ((0x166fa01319e4f15b82179bc2967da87b7437fa85ce1, 0x37ee00fdb180c0e6d0a10190aeaab3f9ec84602d01615), (0x30e086cb67f166c8b986b713b947fa3ff893154af22cc, 0x387b1ec20256b6c9146275ff71a72e27e547136971945), (0x31d862adcc98eb7df1b93009be7555f5bdf6240de5204, 0x3af9ea6badf9b8ff80cf0dd9ba8d3d1d5d3507c0122dd), (0x3658c8ca9bda7bd44a56670ddafc23326865bed24f9fb, 0x1f20bf781306b4d3c59403500d00cde6904904b831f74), (0x1b993a820ffc0e3e5acb2177e5717cc144fb40cc04be3, 0x38b2ec6174e6e4e7458be46902887d97aef03831f24e3)));
   (3%nat, ((0x323b11e0d3bda77c09bf669b136f0131e2d5bfa378b22, 0x13a37f9910785cd7e416e63b541fc52b3605ea52908b), (0x606b571d3d843a98f51379673e5cbb7bce182b87de, 0x6bf19292f0f0ab207c29fda09a1176d80fee6c1fff37), (0xb60f51f087fb0d664db50b8aa26a4a150b9366871c6, 0x17fb131ab167fff8278f11f263900bc39d5ca4932a1f7), (0x8fc4eb50e962c31ef24590d335e42b9015668d236267, 0x30f8f1da2c56e9b1c8db80c287b3590239860b59c0428), (0x1eae931687dec9f9afa8b199b260aadc2c1f11f037783, 0x11254992c02090a1552324ef702e102aa21dd6af706b3)));
   (11%nat, ((0x497e4cf5c5389460f0c7ae8bcffcf4b6c6756a8f7bf4, 0x150a14f381b22e1c7da3c65f9b4f473003f9fc94b05d), (0x6ea9f566011457e600eee311f8748d2c99934da5f4, 0x2c6650e23ad81383deec99223ea974277ae4255a09afd), (0x1ecd52c9483d5e5f83c9e241fc176599640019a15bb34, 0x28e2389871ec89ea6c70a60d4b4fdb79352970e6a07d), (0x1a1de65e7518756eeedeb3ad7af8dea50b2fcfae751, 0x1c7b5c68b553928c50eb1994d9ea46c046427d14d726a), (0x14a7e5e1af1bee528082cd2d87921161111d952d9b177, 0xec8aca05f3eff52a3984e07a119070026afa5a8df8f1)));
   (14%nat, ((0x36a40bee59e6b3f51292a8fdfa863207aed2e16b7294, 0x15b905d4457495c2b3b272c39ad551c7798dbbfeaa2b5), (0x75f82b9014df7303ab2c83ece3f85f57e4baa4b584f0, 0xf11aebc7332067214ff430f876dfeae2fed8faebd7e9), (0x38c4ecb072f82de7ebcedb68cedc92b5ecafd8ec53c4, 0x9b8c3b5f23287698fbd103517ab508ab44d8e109a615), (0x17a0c72d8c999c5baef249c5c96683ffcf0e1e253274, 0x16d49bb3b8a4d219e390e7d53db3776ab0cf68bf2ab6d), (0x1616561d52817bc0f981cbd4139689872c4144327c635, 0x3a9e3dfd2fac8c57277919998068ed94ebfbda94822f8)));
   (12%nat, ((0x35b0579d348eaed0e11d57fac941c18e0132308c3a9d5, 0x1879645d381217bb94c0e1cbe4ea5bedf5b0f74de5465), (0x95bf18607ed6d361cb9fb581469ba4101b96baefb0ff, 0x1321a5cf7260358572f7daf518de0ea138cfa022467c8), (0x5b80c23d76b59272c9b58f5934d3920b65fdff6d64e9, 0x2075eaaf779215459f799055980608a44f58e45d630b9), (0x1076c3f0e5b43ed267dea4438125788b39e5646a18ec4, 0x3600cc9967475519e86d259fbd57171a291350d1844b5), (0x34dbe3ae62f09680aecc5be5ae4f2ea445ab85b32e38b, 0x1f78e849b65e9e649efa965e695c0ce91783abaf35c2d)));
   (5%nat, ((0xf7a0571c82e4b577f347442ee75ec6c321e01468f6fc, 0x2a98bfce1c7987cc910e1dabd6c311475d9ed7b8ea2a5), (0x1c59e84fd73b953e47a5fe4c16509b366f931de0044ea, 0xc190032cecc64746e803d539ff141efc418ef3438be3), (0x24969d7353e5dafdff9b48aa142eaa5db2b60d370cd5, 0x276c3ff93244403279ce286909e5d1c5a2044c73e626e), (0x1848a50fde3f39d7d7c02eb3483b8914860cdc3f65315, 0x2e352775997464f006d1885609ccc5a6d5f46953868a9), (0x6c76a35835736206bdacb230aa655e1d585d8d51f6b8, 0xa9785587aa70ed8e0e4f9a19e09b8515b2d99c9a4097)));
   (1%nat, ((0x1c0c065f5ab310a61d99e4b0ecfeddd514b984e23546, 0x168d981216626b1237032052b2fe04d6b199f877f58b7), (0x7f291cfe86c3ab469db8c82bf8a037cd215780e8e944, 0x2225d86adecd5c97c30bc7361eba2c60e9e8f30223455), (0x12384c52a41de2338f9c69e13b5483000f00bec122a6c, 0x4df77ba0fe14aa2c6e3c4015a3b5fe7c36adf864165), (0x5efb3e7a94db4e9636558e94d1aef990bd4bebb28, 0x1017a0704daefc130e98fe784702f69f2e2c3f2954781), (0x5445d88fd59223eaace31030b305a8561a34f625858f, 0x3ea4e56cdb8a115632d3203ccd5cd455d700b508cfb47)));
   (4%nat, ((0x3d51255dedb0616bcb5ef7a259a076da9d9202ce2176f, 0x27b956c84745070b21db33a4adf4d789ff64f9fa90310), (0x18a7fa7e4264d9ed8b5644d98f4a13c17488c50f91aa3, 0x112fd18bb4813a9283fd8a07d0d1a651da0b806f520d3), (0x49d8b0cab2b68cdf24bd69cf144ad7f19c582d22c677, 0x2da4ac4059fd7419b060ae96ee09b754093d47e110ad0), (0x208d39ef17f3c29ded2b030fddfac9859b91e8db15197, 0x1a6560bcaa3587d038c331642bca389bf320f1d65e307), (0xc9ca539c8bc5c9697a193a52b987835a526dc3b16adb, 0xc3206661416290436c6f21f84bb71863f69ea507a826)));
   (14%nat, ((0x252e98047ab7895dfc19aa922ef2af0f370ed0b01b42, 0x2626848bf1f5bb6c3bde5fbffcedfdfc3dd0daf588706), (0x16bdd494a8059a7752e619e8d671e872a2e459cb7426e, 0x2affdb57d520dca52174d240656da60bf28a203e11b72), (0x1ce3cebe1b63129a1cecba572c7424b5656eaf60a4dd8, 0x17f4c07618e081e81553e9c01eeeb7fa243ac6b9b021c), (0x8f79252a9247c6c29f1ec9b9d611d893416282cf50b5, 0x2b67e7718e75c4d3ba8c54059efaefdf78a399eafec15), (0x29fe27a6b3d924f0ab8704b43139e871dd43ba41b9f78, 0x13c3e9b5b1d39f4d87dc5ba9d64ce7168443b976ce1c3)));
   (4%nat, ((0x61aaa7b623a42c96c2195e592ce80fa06ec226f02426, 0x3dcf71fe0ba0f2c1f6e5243ecde6d8617c013f602970f), (0x3bb211b2748f1160be3aa3033d1aa513fb04bd938b54d, 0x8c012670fe2cd1e28553e2f7f2b23aedb5a4b5531fe), (0x132450833a2a2fcf85df2a430804331c692a43a074, 0x185224761332610f563e1893cd36b730692da818bf3b8), (0x93e04c611bca953b4b4cc6bae875835a0b46ecac5964, 0x2e3c93946813b0b35ddaf93235587078d9f3a8e4c47e4), (0x161776d2ca307cd2c5bfcb830de163df0d1ee26fee0fe, 0x24b96bc8a1a1f72a3535988e7b04155484fd367a0b072)));
   (10%nat, ((0x1512b2758b41f7d5c6d250a31d2e1f88c8a7d23405557, 0x2a546b0a0d923bde07cf49bc3f94d81d014a96e9eec8b), (0x1bff3bd6df392d65c9d666ddae865f079e1f39d2d3387, 0x1b6388dc03f678e545485f46accddfe7ff01fc144fe70), (0xbb8964630ae3dba384fc782dee2c76f2ff838c1e5f0e, 0x37c20569ad9b5940f4f612e4f48e571a367aa5a5ebeee), (0x3093c57e7384b0d481705b559e480973d9871a922f5dd, 0x32a7cb3978688e6fe1d2227861e86d541621d54b3fdf1), (0x2ce977e776064dec647cc7da788115747933c1144b55c, 0xdbb97818a0547dda694ff0b5a39331755815d5398960)));
   (10%nat, ((0x2f25b6763b8fd887d00644140c5eed11c1654e38b737, 0x9356ecd5131d4dbb1fcabfb0fe210905f0fde2b13da7), (0x15333c602b8d82e2fdef7b524631f9b3b1ff53f923fc, 0x3bdfc12e6d0a3f027f6cb7a2e2911cae3ea28c99f42ad), (0x38039a761baee6e6f8e0fc9b34b12bee2e6460fcc7a83, 0x3bab996666c7ab1d0c8d9fc687570f0ff533af4bfa69c), (0x37a22eedf8639dbade03645f50636f4636d94ce6e0823, 0x2430a2e57fba1c2c90466e59879095a95d1d67fbfb463), (0x20162f772c9c60be72576e0001770fc85b995dbacddab, 0x1ca9f33d67cc46ae2be38f9aa56beb2f54dd7ae8e1467)));
   (7%nat, ((0xcd67821f39573cf6cb85045d1aa2fe05fbd937d8effa, 0x2cf115e685c337e11db6054f509aa2d8cb19827497b0b), (0x1f8f0a45ef8a592cffa11b64902e0b5dfd87826b2baca, 0x283edd2104f5698acfbe08cf24651b959396b291293e3), (0x194ed228b2347ab1fefde7527c72ad51ef96b294a30fc, 0x3360806d029a49b28c2645b64aec85971902cdbc99805), (0x293e5e3004e27867ab71c343233d5b226cebdd1758c53, 0xed4822a5920b107f4d8302b5c5d164011bec18626c9c), (0x12f62aa3ccfe20126ccea672a2a453c4644854c03f5, 0x37753b9a7751534075b073d913c1b3cc3da7336d1ff51)));
   (13%nat, ((0x300e552fa15a493c3547e86a8e720185279cafe005e68, 0x143e0a0298c05038b349d0194361639b5f4e18fd26489), (0x66702650610f695ef93fb94bde99bb7ef8e5d0b75a40, 0x2fc7e377390c5366b7d4913eb4f37ff125d88d9888f91), (0x23ac0664d1a779ed4d182c33fbdc52ee711e03eda7896, 0x31b25f3b399b533bcd1608102f7426524f3e62e811817), (0x269712f4f75a51461803ab3dee901170203f4a28cf870, 0x35a2f2d9f1bcb2b84530be0c5703f8d05b510628ec181), (0x8ba3d93eb8ba111dd6b10786aa7523d3c64d0684e936, 0x3403fd7d7ccac36151758cf9b29916dbfe034b5f865f)));
   (5%nat, ((0x2a467c2b9a92492ff9977fca3edf3cfe8f63e4e88aa, 0xc03b3b1e211d37f180ae626ea580432fba65d710248b), (0x241639985fcd7f8c5250776f736089afb630504e6612, 0x7166ec6e545a33d547751e0d130cadf778ed713a4cab), (0xc8f0186aa2f9d2d9ffadbad2f7c853671a2ff30b675, 0x3bc5d229abab938627066d8648a5de240a92b0d50f4fe), (0x37d31ef1572ec1fb424425d068e9be85929086a347053, 0x324533f3b864eda6a68bae6ddc71c1fb865ffa728cc87), (0x75fff3460c5c2d8717794b8afd04ae9845ae69fd4525, 0x25597f23cd63ca2d38c2bba2520c52a126b6b796d2666)));
   (12%nat, ((0x15cbf827fda0ca79da138413a652e5036af35fdce109c, 0x105346fd67b0e60463d614a38719b4db0356189840700), (0x42a0fdb23dba4023b117803aafd940b4e07fde33ac8a, 0x192d1c9fad303bfffff7d4de700772dbbb6d547f9cf2a), (0x9e75e290ca680a0f0cc9b84b89d68482003e0b658aa4, 0x2e0636723117c298ff142a0908a8d252111d78e05ebc8), (0x2118eede8a4cdac78e0caa825872ce5bbff615c7e79e2, 0x10f0fa681e986d867aed98537a87149305d86ceeb5642), (0x109516e2ced929d48fff231061e71a71ec78657675bdd, 0x3c8aef9adc2b936cc658ab2c47bfce0a444b430a55a01)));
   (5%nat, ((0x3945aedf29b14373b53337713161873355e6662f2a325, 0xf8c157477e405c3292c970045a5f878db7f398749676), (0x3c6dcac7cf0aaedd015222e594984179ced56bfcbd4f, 0x2107f96fd8e53769e5dc6d59e24ca10a6c3cba1d17a3), (0x110c3a39b44ee678258c3fe9de57852ace0dc11a9b8, 0x3bc17ea10a7ab9b331a022ecdc3de13d88bcf79626f01), (0x37cb0a79a125290e5aa1b4917e9c6adab6441f73e202b, 0x3619aba86b3e8e8585cc3b2a74ca2f55f66a85406c3dc), (0x7efd6840c32514b1275d966a840e3a9e34c810debd5f, 0x3f410ba761c8f6f773fec04392bd8790bbd6d44b6be53)));
   (2%nat, ((0x3e84510d36a185ccce16b6ee26b051413d346a85ac52a, 0x3f6f65531137b6146081e0d81a220e202256c405a60b3), (0x3ee0115fa27401e03880d3dfbffa0318d5d4927d0e2a9, 0x16b8d0ea36b9011fe551e2ab03277160bfd2ed0fd7b62), (0x8112554f24f955f4400b72ef32e55e133292cf5010c9, 0x227d136c7e1b2caf0026be8b18cf103c30cacb20f3fdd), (0x1295d9132bae9c6b327b83ffc89777695c718be71bac4, 0x1fb597dd3800fe6349058c87faf5ae789916897b9cfcd), (0xc821a978604806d6c6145437fec2f303822b802cf719, 0x39ff724b325a20eeeeff45357eaa2204efed34859b4fc)));
   (15%nat, ((0x348eff298506049b49e4eb49fd662063ac6c73dd17f0a, 0x5d2c180ccbe63391538c71eddfe57c23ebc05335a1ba), (0x87a444464b36fde0e93ef48eb275b3f0f362d243715, 0xff90e2b47cdf4e38ef50225eb0cc5566ae200f57a089), (0x3fc87d68d9252131e2769ef6dad70ac597c62da2507f, 0x291a957f1879938cbf17564352f8b5cfac9b0ad8798c0), (0x1a661a95abd46e2f7a162f760836d9cde8f408c1f5246, 0x273cf73c4e78fd22891133099cd67a58bf4478efffca6), (0x1a5f9cb4ffd06cfb26d415cc48e9d9d70e8178c56634b, 0x256736092da5a61741da5c375e93d7e72f7c7e453f4df)));
   (5%nat, ((0x15dbfcecb7f1f391fe6d05742566a95465a6de1c905d8, 0x30ea88d455bc879a525435fe1556e56839446a73bd599), (0x256328b835d6eae0c82588a18ce4a9d74322ea79d0ab3, 0x2823709c416811d766a6e7f3a32521962ec6624b93654), (0x192c606342ce028c2089d7541d166a103fae8ddd29264, 0x28a146e68a0bd0ac68236b49f451295fad680d8afc834), (0x19cb2f093300dcb49cc02961e211791799a9d12f073d1, 0x27e882cf08c5facf78bbf7cfdcec85ea6da193add1471), (0x5dad459f1aa5991f56b3289e9a0010535892d5d64241, 0x7bb181b7f2dfb642e06e8de91882ac90dfc0cbc3628)));
   (3%nat, ((0xef1036ed95eee5c390591c906b50c612c86dcf2eb, 0xd9696ff37a0966efec6d8db323d969b956e7201a8adb), (0x2e28facdf2e4c5e78fbb0746e48c542f865fbb590304, 0x9f0673dc41303ac990212056e9ddef0b1f4cf2082e9d), (0x18b241054eef25d6a4b2e4278df238231ab154de2c63, 0x1cec3178557f9ff9fe12357a3c34df55d2e82d9fe79dc), (0xd1212f648835e630fc86b0b699a0ca5b9b6f9e2cd213, 0x1653b0d323cece3798d1b6f9b12e9ac0e38d537839353), (0xdfcf63210f0cfb07ba88fd57146438e36a69a446a22c, 0xca01ec05c2a05aa81afc6edba94a0036a8e672702d6c)));
   (15%nat, ((0x27d9c21f3232ccd2b551dfc84cdf49885894ec0e592b, 0x27af862d835074a9878592371bc2ebf4b48a2ff44d46b), (0x189bccea5a3ee46b3b5fa54ce047e5e2e1f7c7e2f432e, 0x1ed93d508b3351390b9096466f23fc0882d24e6f1f8c7), (0xede8adf876dfedb4790d7fc4808d9e78dde610570b49, 0x2251342d9ee493ddc651a2cdfeb17dcce6e577ff93b8a), (0x1266ae78b6d7526a5848d839aca94ecce822d5c0ae094, 0x2021dba11ec17e0d91ea456c61f9903f5ef41749e0438), (0x1598eb4491516c63c5da5418a8e1330f54af08e2b37bf, 0x309aa22bc9455ca8cc7bc5f8786ebca215961f6a81bff)));
   (12%nat, ((0x24e968dfbb8e71af3254c3d5f20234a23a07073f6ea28, 0x15d4573918a57f6a4b2e5d5d669097a4e15cdae86bca9), (0x77219bfc94f51fbc43a3db203dba8b8b0f70e2bcbcfe, 0x921000f6ba642ea64945536630c335defd80fc66a26f), (0x14d5908662dc9fe19026e798e9cc9d79f04ca2b34217, 0x31a4a53927c460bf8fd23a2887fbaa4c01ac9464b1ea8), (0x2681c48ff45b6aacab58c1c18fc4cb123f15d50199e94, 0x3097d648d0f35770137d7a60a9000b407f43b90958a14), (0x2f9045525f29cb3edb8dc4597ec007f859168d0d9ea16, 0x6e1dcf0d99e41d861d0bea2e4cb080d5d59b932625be)));
   (2%nat, ((0xbd7685a1032f9a975b14ac74f053419785e031c722e, 0x1e6744cc10d4bb6921c3f38f3cd213f52b20062782c12), (0xe7177210a91cadd28e3a9d7318898dbccec984d3d11f, 0x3b9deaab8d113e2209dc8041ea752fc0b95d17c9b6b53), (0x3788ae53023c2a8cba9bdabef46b94bb2a4dce50030a2, 0x439a6c77185cb9dd2cd3cdc5f47c0c5145be004ce9ab), (0x4768c7b40ffa333d23a6e9b18e6d7242cb51953cacb, 0x3896b58e2d1c6903862747aea8326d8bf5f60a67992b4), (0x16527ec6d529f485391705828f0bd3fe00717f99173cb, 0x312bba5971558a6bf477ae9dda76c95124e90d4b31d47)));
   (10%nat, ((0x25c713397c53a6a88296c09099a69bde92d4355d4bf02, 0x17e1f7256a359ec8fb5622aa7619e07b5605ee0366ad3), (0x8e987745dce34d249add5d89f0da85bc49b25889e4e1, 0x34f631b6e9da0f1bdbdaf92c2f3e69f69fbe9c69145da), (0x2bd3c3d790c635bcb1413459d9f5aff0fcdfc67cb233f, 0x2cbde98f60c8518b60fb8c3af1900b1c40d33cbb00bd3), (0x1f4754aff0404928e7d557289aa433e88563eaee5eaa0, 0x2252924ecc702047e805ecf6d3e11edc74a24df480489), (0x1e6e5330d47a5f567e3ca0ae3abeeef6e5b8fe1e90e02, 0x20a49ce905820c44fb3b8b049aae7261aacbe0c6ed8c6)));
   (7%nat, ((0x10a6444eb0719209f3f6156268cdce1f6480e337e11c9, 0x14f94b9ca0329a7c55e0fe2865528a1ac904b6b71b87d), (0x6df9a529832c114eeea916de3e26e6aae6f3b3832dd6, 0x3d4f05707bc2d126fc79a3f04e9bde79ffaf4a8fefe3f), (0x3abb03efda1340af336471ae07d04a908343acf788ff1, 0x3d9b81db4353a7fcb0a6a336a854d320a48f89f77db82), (0x3b4de963fde06c09a94134d60f5dc5632c47a68b3f215, 0xecd141d6a1022f77594612846d8d0c8d686a3e9a3e69), (0x12ecaab3e271e6968d6e366601eb8cdf4a1c7c28f58, 0x30862d11c783ef838b3b4a7f6423e97926bb13f8684e5)));
   (13%nat, ((0x24ca5ce7857665423c91bb2cf9023468469a4e6a82d0f, 0x215e262100760305ab5247298d3c455bc847d0257b9d8), (0x1165a1d220224f57569ecdfa9cb46953c91d147ba2cc1, 0xd3920b4aa879c15db71378b023bd73865eb93bb76811), (0x2bb6847b7cd817f855a432b43b784c1ac4ad3cc51dc9, 0x1b9123dee1d10cbfb672073342f26756c14b9e47a9c7a), (0xbdfbf6aac926d31e3a198ce62743cf57c96dec2ab2a6, 0x2d6e5e56d49cebd50c545419415a49432dbf643951d2a), (0x7647177974ef5db7e56a917971c16d4573e12ff182dd, 0x2799460a87531378cc286553e4a6e6f3e05a2b220e2a7)));
   (11%nat, ((0x18803c7003eb4eb1751296f8b662d99b65a90576034b5, 0x2f679dc1ceed1620a788d41e8ddb8f80a17ad8bd1e5f6), (0x231cd775f49b6dc106b38f9def76e5e93755c197634a2, 0xf18a399d4599d1cea30d7aa5d20bc902c91afc04b926), (0x38f962c711e4841e8cb333c67e245eae6132be0036c3, 0x32541cdfd3d645d2c49315fd5f82c70264452f111af97), (0x2793dba99391c7b713e47f0be9edec60f42c0ed2d894f, 0x1d9bbbc954cf1e0ecb8a4946df1934029d1487fa5f050), (0x157908a673496a97e933af786ccc89f2dc1d0ec8a8a3c, 0x2e79cc7f5fc2cd5ed0156f6ba5425b8500ab5aa5a7f4c)));
   (15%nat, ((0x21bffdc2e8b71fcb5345c2adf654443b0c73a45b876bb, 0xd97c1f480ecaf049fe467f56e23de6c092b5224433fb), (0x2e30ea4d9ead39f4ec7d70256a21770d00d248949767, 0x25ff9c795dadf628615ef35d707dbc0e9171ef6aee4f0), (0x168f89d0ba0435b7154cc5a7d1c356b720777847e5c69, 0xcd06f2136b9a5c1bfb06f5a5bd9decd188017073f4f9), (0x290d07f8d609beea876878a741594b6ab656550418b6, 0x22570f006fb4c83558517c6494eea25bb9bade32c2447), (0x1714cff7593ff364367bb66f949abf5a40c7a439c20cb, 0xd3f621f9ce37d0197b4f16a587b2a99c493ed5b3d525)));
   (12%nat, ((0x2bdfea29c6a2abcec925277434bd87fdab9e984883dc, 0xc4847961c9678feff965e1841d78b41af5f776f914f5), (0x25b6c79ac8b2f73c82973a7da201f3e3ae918b081734, 0x1db893facffeb981206fcb2e54bfe9f6fee602d7690ed), (0xdcd5a6f84d2d32d6a09f69005a775821131d3627164b, 0x1df0999aef1771d0a7a4ddf63e24c1baa41a05fffd964), (0xe0193b5e358ad34eb0b3e00e11e7ba8231aa4251abeb, 0x3f7b9d5773f31f911843e9e4326bed5025c347cb99cab), (0x3e2349841b018c51e5e4f66b7c6137205117026cc5aa5, 0x2b53fece2835553f05379777a76015b5803d2a44586c3)));
   (7%nat, ((0x1d554ca1e336ec1c0fb411d6eccd9bbb3ac5c44e4eb53, 0x1ac0de0f78352796530c93202cd134aaed94b7b4d840c), (0xb2ef9a3f0f7c4c5a6c172353607db9e580cbd14b2c73, 0x3c6a7416ec92bb3adb701043f9a8218deed8cc31f9f33), (0x39084abc5a15e6e4847a8ae0cd032b7f7d11c7ed18805, 0x3017ec52fe528f1d7b46407c01b2e4ee611626bc1597e), (0x2423eb6dc1c721439bc1de66d6416ba483d6cd8b0a52d, 0x27ecb98989c3d1e260a38f1011ccd3adcfa313fe92701), (0x330c161aa39ff52e1152d1cbefa6e48c8d08f801d3c, 0x1)))]
  0x2118bb1979f79000248e459b54009b4648cecdfc0b77e 0xad526080fa4053de3e93cd82561924cdb0991a7a161f.
Lemma prime_178_36ef : prime (Z.of_N 0x3ffffffffffffffffffffffb981960435fe5ab64236ef).
Proof.
  apply (good_prime _ [c0_178_36ef]); [vm_cast_no_check (eq_refl true)|].
  intros c H. cbn [In] in H. destruct H as [<- | []].
  - replace (exponent c0_178_36ef) with (Z.of_N 0xd30b76d76ca3bec514e4aa7d5c52f53fc2a7dbfc7) by (vm_compute; reflexivity). exact prime_164_bfc7.
Qed.
Definition order163 : N := 0x400000000000000000002bec12be2262d39bcf14d.
Lemma order163_prime : prime (Z.of_N order163).
Proof. exact prime_163_f14d. Qed.
Definition order167 : N := 0x3fffffffffffffffffffffb12ebcc7d7f29ff7701f.
Lemma order167_prime : prime (Z.of_N order167).
Proof. exact prime_166_701f. Qed.
Definition order173 : N := 0x800000000000000000000189b4e67606e3825bb2831.
Lemma order173_prime : prime (Z.of_N order173).
Proof. exact prime_172_2831. Qed.
Definition order179 : N := 0x3ffffffffffffffffffffffb981960435fe5ab64236ef.
Lemma order179_prime : prime (Z.of_N order179).
Proof. exact prime_178_36ef. Qed.
