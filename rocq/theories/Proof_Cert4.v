(** Generated: slopes for the multiples of the base points; checked by [order_check]. *)
From Verif Require Import Base Proof_Hex Proof_Order.
Definition cert431 : list cstep :=
 [Dbl 0x3818a83b86188175d36a36d75f4314d3f6846335ac35214ce076a20da33d2ef143fa6a63781de9d30fbb8274f5f2bd21147d0cdd3bd8;
  Dbl 0x3155c418260781596da18f2accb87e879f92f308afc80aba268e5e87a333f10b98fe34594830e16dd9c02687442f731e223cc750fcf2;
  Dbl 0x101cf95356093e767c1b4c4c8fe5d1c7dece7f7c0a2dfd430d873eafa651fa57d0d3b37ae019dd2a074939da336add09135ed0adaeac;
  Dbl 0x7d62a76481ce25c54f3ec800749888aa0b31a2a48ba9a641853333f160c1e066eb1c52e0a100e5cee706edba0a9f0c18ef6f135346b0;
  Dbl 0x372d9d4f2323019e5bd960e6dada2f051d11ba26359caf9293b3beb7ccdf322f95c9beea639c2e40fe60e3d11fb9600ca21f62dc5346;
  Dbl 0xa97c8aad8e7fd7555b2a6af936338f031a1654463114717575c72886b2dfe2f608cd68540070f2c9e23946dd14d13e6b6f282e1c2e6;
  Dbl 0x1a1d3b7c017e3674b11430af8870151a55c31d39e42f03885ef5c42e82a800afbc9ce17d5104019ff462364f00f14f5fb1eaf77a6b1a;
  Dbl 0x4c777bd0b63294242a2374ad932ad2bcf509437e99c12978fbdde333f5849990a173fe5fd8c4476ba1eb8b3443c75081275eaa656f51;
  Dbl 0x65ef33ef6523992df96600a8c8f19812c251f535468aea7649027b465f1a71e844fdf79b3c27c578e92f37790ab72783e04ccf245c9a;
  Dbl 0x212d6488394bf8911b7509dfc11e7e837b69e584aef9f89491f3a06dccb4fe461be10baaef5a90c54492863f1c08b30488243b935008;
  Dbl 0x187288e8bfe8fab898a4d22c62b019c31929e1ef52ff61ffa71ffdef48ad3a6562b92208ab68588f20a028b67615b5fe400c1b3c305c;
  Dbl 0x802979e3bd7f0953929513c414b966e824cbe05c4da5ecbda112a17f9c0077d4c4af13f9d69b274e5675edf7882fc656addb983f71e;
  Dbl 0x6ae17d8a7017cfd866022c3d1b7513b78f1ce9e035437ce3699bc57a9915ef4dbdc26cd6bc3fe4100131804f3a0f30583313eb86f260;
  Dbl 0x6694226a1c114a93f8c9e7a779417393a384a828b9d06fd74635cbd49fbdbb9b446718065880985066bf3077c4a364b67847220fda2;
  Dbl 0x244783e72443c50dd8da8f26147fa6ef7ef4377544091cf8c68cec6ce69ab09fc2260006d4769961b67a26cec1798d8b3623d604d1ef;
  Dbl 0x517815aea34559a94b245c2c53d2c0fc2e6e39bf4e06d3e8fa96d6516b807b6e41d3c48e9efa121704ab005af37ccc3b59895d03636c;
  Dbl 0x5fd38b3319be628c114d0f3b999e568199dac8a7ebbf7aa8181253d8013293bb516463c38b385d8287dcf654e25fd8b7cbf65015e9de;
  Dbl 0x7f8e19651b5a1323f2d16f0e87f549a90970965021455feae9033ff423e25ac5edc711c7ba44d4841638aa8f8cd667558f30e7513ae;
  Dbl 0x2ce9e06eae7c4ae993b172f6db97c6a59eaf7821fc189c0a0d0b9a6d2e4f8aef640e04326d3083881c21bad490e76956f73f39d1f8b5;
  Dbl 0x7a17db57546362e31fc9230486097d63b22868a62bce7811350222f477c4a8c6fa4cc842388ee97f1413b90ac5ecccc431ac60b9ae8d;
  Dbl 0x69d95b6e33b8be9c34371e95ee2ac6b1de7f56f399dbd5ac84cba4ffcd4f883f62131e76891a2225b084257ddda22b5f3a77c8e6e9c1;
  Dbl 0x3c177d5a4cfef981a52d3d26636c4755f04864589dfe5f8bcbb2ca8c13f5a326306d005a20c4461e2d5e52229db2e2ca6be3bc7bb7d6;
  Dbl 0x3185da7a535a9bd5555edcd3184609af075cace099bc07e3b3bfcd5ac61fa09c5bb5efd7a69b373d6c6d63e39b3a0b58429a4db20070;
  Dbl 0x6aaa54e21f9791f11e6474613e7d3e3e7642b386308bddeac990f804e799ef17753080a924a231d00b4e7a7f72854fa916b50dbefe25;
  Dbl 0xc0758021b947a6acd7d4c30f39ff01d7e08f9fb503e81a3dfdbd7a45eb0581ba28f9bd800bec19f44c2f9e7552ea170afa820a3672e;
  Dbl 0x3f6cdff4fe27429332c22dcff5b393fbdb431f6c8bed2e0c4d343229b557a733bc50012d862020e559ccb9acae2b8a8e0ee924532623;
  Dbl 0x11e0d2a1826bf996b5b989f4a7c432222d01e60bc59b1b92e039c4c080748c20b5a30db8d5ef2418de9c5a3aca7ba802cb896a541183;
  Dbl 0x52767e5c6ed1991f7e8af19dcb6578e79a99d5724ed5f27d9538cceb3fd0fce1d6387c77121ff7f86623b82bde63f1fe8620afa013a5;
  Dbl 0x7c478ce7e69bc89a84b3b468675a89a972f02825bb175c5f23c5c7aaebb99c4b5c492b073cee1c42a9bc21aefe9ee66e2bcf050326f3;
  Dbl 0x5bfe3a8ffc489a2e3689e7202520e555db3f712c99df004b960ee9d3d452080dfc46f879289e41bb621490df5ffe802e5511a92e9bd5;
  Dbl 0x354104373e310866e1d3aa6ef43a07b33e55e55cefeb0945648abac627752de5decbbf96413ab7ae5b91e6ed04130588ca4453ffbf73;
  Dbl 0x3644ca5e016ace5d7c388cc9656ad9d317ea65fd4ae0b346c15512476d1b99cb7a4f6114b1285d2e8fe127425c5e1987a7cb8c502889;
  Dbl 0x7d06006b6b0c5369d4cbc0329fdeb23f99f38200404df6083d5b7a629e3e4df5acb768d87a771203cdcf9b1ca0b34fcc371d8b2206d4;
  Dbl 0x1f7dc12f6173fc6e4f702e8f6fc31009ce333ec000d50e4a3604c5bf7042b132475f64c03e888e80996e428a4e6f595bfb2cb2b91504;
  Dbl 0x51213ac855d87213a568c2f351a9b25f439215d474b09121a8c07bc83d23f0d6fe47599433cbac54bb1df13bb722e87af376c037c735;
  Dbl 0x24cece20eae8af845a093b10b52b97f32c807576718aae2f3fbc5524ca6f1f8fd1f77394d3999b731f009482213e1905201b3ccd6e5d;
  Dbl 0x3bd6354769543da72d7bb8876bff7fb33489131b78ee315de2660e2aa5c317cc39d3021ed562cbf3361b55589103bd53d15b0fec15b3;
  Dbl 0x4f9c1449cac5ad2ed74afc21cef5803a45db9473daaf1e40eacf5b9c67363327ede38ca36b892d0efdd58e7770abeb21cb79fe6175b6;
  Dbl 0x5692623f34cfdc95cca0a9f58151100eefe8625b3cd6755e3bd82d4328fbbd556bc17c08565340d9893b328bf89d88ccfe1fe79bdaee;
  Dbl 0x5ec098486596e6a7fe3921ba045c51e4b8060e01c50d1d12419efc683ff1f8efb1669ec6543eedc38e1fa56bcba83bd2eb8fa1e5e92b;
  Dbl 0x7c4559a10fae9c74848836e094b3e3cc1e19964118fe7ee3d100b39b3b31d340f47321cba7855ffb19a40a597dc614efc7d9b2a5d142;
  Dbl 0xd521fe136810b15e0c4793cf4dc6719fb1718a9b191d39b3e4b57868a3af56de29ecc277b721f161b7d79d278a21c4abb2b4c6b9376;
  Dbl 0x1c54699ee30e6043ad53d5b649f4482572f2c700ae1ef634d0f3288535273b5e9a603a5abbefc3866609d019a10d41aba41da0679c32;
  Dbl 0x1dcd3a555765199675d36a5862981abd05c85d70a6a03482bbb197f6f90cb59d3487223b18a84c89cc80d0aa5a2976a4615269643b02;
  Dbl 0x772bd0936aa2a54acad94a54bbb24d072a917d61e0ab300969e143f9a300c3842967e464758972ddae2123a333a699ccff1f0879961a;
  Dbl 0xbc6e76dbd22fd240953f7d1d22d2284f5a2f37cce4861990acfe083a6423799ccaabcc663c0aa7ea67daa165cf3fca6e6fa85762c12;
  Dbl 0x44cda8a32baa75499ca6f4d00f362e4338782df2b48927bb1fd272a080b962c229e97f8f9ed94e2de2e730d896e829bce17ecadf992c;
  Dbl 0x16cc6de371dbff3ec3d23b452369cbf145e7684059fc9e5b6fd74039c083964041ec76ca217342afc52298aed0bab355ee4e9f9c9607;
  Dbl 0xabe069f1333b9c301dd37caf19ed3a1a6a7afb454bea866df090771b210f68b230d2bae71c6ae9e53fd810954f440cd3f70a15d8b34;
  Dbl 0x63d5a2ea0c49e7d29bf27d80ff940f8e96b4333f8c1e9433df86bde50a6a5a60d2befa5de9e908737b485f2990322efd289119751527;
  Dbl 0x878115fcc15164b19acf8f2635bd4dab88035481aaf2c6c603f5084bbeac7c0d864e4814f9d3fdd7524ba3a6bc95d26c1e2be9e6e8;
  Dbl 0xd1732dfedb436f8f5aedd63b56dd32fa7e556b276a8ae4bee1a3becd5db0e8195a0a7e10e03cef4ae0e37df05ccc38de7d2b086f21a;
  Dbl 0x46daba92e937dd3cc618de6caa56e635edd3f6b30b0e588117759d6278edc6570258b43efb6a4dfffe6e8f1d477ea7cce320ab210db7;
  Dbl 0x1e5dd3d846d3b32eecaa3d975fccf730a1cb3a6ad0d142b860a2c5958b589c67e7c0a217b13a232bfcc36a9909b37a71edf2dfb645fe;
  Dbl 0x6a881fc85a3703f868bc6f4eb586e8ea39819eeea96420d32a9ff631921c3fe929d597399f6e8a173a87ea790b43a97cf85d6b3db6d8;
  Dbl 0x31f159e03d70834293b4909ef2191f586cb28cad8c70e89e3c3f5bec2e2b9d2e7861e3119d90455dcab84f3015fbe6742bb4cdd281cb;
  Dbl 0x5a6fa8233064b0e3ebccc08d2015d55b9a28073bf5756d21f2e98e115c7a9fe9966a4c9aa43d657d10f965ee7bf8011e4925cdc78bdf;
  Dbl 0x73bad644fcef5b3d857ddde86d2a948da35212a551f6786bf0a621554c666590882aa831d9b1536f20048904c6d7e709e6263d0aa7f5;
  Dbl 0x1a40c9fbec54a2d462735c6e3b8dbafedf976cbb99b4ed79ae66956db06eb9f6ad2834ba703e3ef2bcb3c2f5423de634acb41c2727b5;
  Dbl 0x4e2ca65a84516ed51a5a000fa532dec83b690d7635988c3f54f377d2489637fc273a63717749c76e671faa9c45d088f45ddce79edf43;
  Dbl 0x7410608574c9e81db876ca20b4bd0a79991577585c66d591aea7122b582ec6d6976b0cfeee87ffc47f888ced738a80fe6fa6b2f5b04;
  Dbl 0x78e91f8bc886b944a1a78464832a85595ef0a977656c34c841cd9661302d0bc90257f8da9ee1a99f5564adad5541daf6cb9243a2ef66;
  Dbl 0x20553effc4dd4ff3d66e398d73474ffdb40cd151e94e34e1980daa4c8465e5bc9a046ae41385f9e3ae9c440ccec5e73b60a3e37107d1;
  Dbl 0x2fc52eda95b025883d0dc3766dbc55c11eb7b9329e5454ad2cabaee21316629169cc4da449f61a0f9ab41b106de121e8d5d0683f0fd7;
  Dbl 0x1968d8668f2bd8f3bc4bc55e130d3829fe0b3cf81774da1aee7dfa4fc4bdc67e2534089c80d7545fdc06357e36a6504a50a63a906f11;
  Dbl 0x411aa7e0885f7dd5f82579fcab449ddc531f9f3f500f41d9101802c4f15eed5b92680cba563b25f5283431e7f34824e00c7f824452aa;
  Dbl 0x692db8edc1176213cf4d460cbee4c7815d9b6b100553f08b705f8c23155178a352f1ee818bfb4086d33e513b7468d8bb16cd3834f636;
  Dbl 0x2620bea32d1b6daefd2c149113b0f18b923f0ba453fe00dd7874653d3f7e8fdff0bdfa57094dd1bb679a629c8e4d4f0d2cb7b02409aa;
  Dbl 0x55e188027fde251dcbb01cd7baaca392f5ffa1a47f90b750b3d8d8de06858a5ba0ffa66595e6ab2ab6adf4a7835dd3980c8b8545a084;
  Dbl 0x4748487358c4dedd09208e8e0d4d96f5b1c726f72c5edd2970f3225b8f29710571ba79d4ff43f167251b963c501aaafa0134ad995e93;
  Dbl 0x4526494af07731500dceb1987aaa7db156746c22d23f3e3f4df308265dc065246824b9043fdcc41fe7705d6b0091df1f4bd5694c52ed;
  Dbl 0x6509ef0426d44224118a3d086ad10d05c667aaca5c29fc985f7df23b48a3b9608f6acd2e859edd22d865402c466ad51457e031a54722;
  Dbl 0x7fec977ef3d158e63004b11c0747e1a3af2ae0b3e9d0656969f74a23fde01dca74d2ee73d582ede7dc6054e05fc54dbb7001cb286d9f;
  Dbl 0x4e7b33a6e2e7a720eca4fe1f6152488d59dde9d238884dc382963e68793240821d2b85782a1b8ee1e44838b0d6e342aab30263278ee9;
  Dbl 0x47c569f37f6e9f478381ddc60d852fc2908e42160a0139175332cd75c65d2f6ed56667cb3762a146e149dd4ae4816dbfd478af58a53c;
  Dbl 0x5d79032e827a4d97b1e816eb5f571b1e721854e85473037cd9b9c25119af42309b76ea9f880e5ea5fb066b78e305b667a0b6af17732b;
  Dbl 0x1fa1077229bb4143801da98a235a0620f61a04735bf76610ac7d2f1b9edc89d5a3195f8fc1f4b10991a46a8bd157df98140bdf29e05a;
  Dbl 0x3a6a4da77386f56e86f0b344fe2357857b5541ba30df85523195b6357815b816848b3542875962a7ee3f449146de8bd96e124fb7f838;
  Dbl 0x6f914db0824c6d41a56b0288486439aa71cb3227bb641b2478f61399b37e1f4a675c5d58914139129184311f6e71d1f130a68517e8b3;
  Dbl 0x7f6f472014cf6336ce1ed9838aff401846a9d20be9d6515a268517a55f948dd20f592834077bafb1fa390711f1fc4943d6c679da1d87;
  Dbl 0xd28e4389a6a652be1567917612da2a8afc5e9a71c0a25b8c6b6fd1888bd335b86015e9ae4237c914f1536e93e85a5f10bcb0d8dcf18;
  Dbl 0x527094636e888a18daec3e46a5431806aeb484593529b127a493334c8c864255a427a7a4ec0ae9befeb3317ec168b66e473195ab5cd8;
  Dbl 0x3a31ce2b6951970d9fcf7aa8805d4a7ddafd7076e1639a6a31fe7c570e62e0010aa66a10ccc6fa1fc4fa8b2b7acbe7202c4d70f86d69;
  Dbl 0x11265fe5743d6e9fc022686b2d17bd6be8ffcf51d60fd8baf38cb87623507360d8b91b7eb0f6521e22569296a0bf645b03dc39c6e75c;
  Dbl 0x6ee284f96fd6789e6a6db1f7c615b8c7c7be6e59b8801bd79e499c88276c5aacdf997eac2cb88189bcf07c4b19c2ab41cf8f00c9db0d;
  Dbl 0x268bed72a9d650261891728adb66e13e7f39d08336546dd3ecc12cacaa43fb738acfbdc03a4b4a7ec4e71d163489be111e765e999267;
  Dbl 0x5423672019828606622d29909eebb72ed39fbf61697f279559009e1cb687c799577848530616e6c4cbe09e6c9401979c5894ab84dab5;
  Dbl 0x2ebaec066683be9367524fee82a6b1321f6c00db45f9373b202aafcdb47a89bebca33346cdbfddf1aca29282f3a8bc6f515713718471;
  Dbl 0x7419b5950c0158c2df93f40d40f3b70beff7a94eba446a46d65a4539129ce5b4138a55086750afc3a3e38f5c0876ca4c89eaaa24a338;
  Dbl 0x3fb9ae312611a0ef6faa92d322592b465b81e2d1a0ca1dcfe2b81e1b340c0733da94de1f7c78d47f0fcb54e0748cbcfc5b0710993332;
  Dbl 0x3bcc7dcb1ed93da4fcea93a91f006c78f50251cd238ac2e6b5d0f0244356d3fad97907926004c524527baf1aafdfec9aa1448e785a4;
  Dbl 0x5e09eec92e780df974e6902111b539fc3b9007d6276e4a2adeccb79f5ecf66e52e580869dde657742c3abeace16c416e409347714168;
  Dbl 0x2529c4e638489adad403183b40f0a380c9c4c45a3c1d4137c25161b09778c50418746cb84170dd5c5997afe739a8325e2e8f83994677;
  Dbl 0x429859fb0dc19edb2e9a061e810e007e15d860d5179b8cdbb360c2a479320d7d2304b01006c18e39743f4f2a602c27d6308baf01dda9;
  Dbl 0x2d4b548b95cfa94496c411443f49ff8b682c577e876de8d82a21b1b257c06b54dfc62c03eeae8a6fa18d6dbec067e175917001d8531f;
  Dbl 0x5cc48738f476c8dfd6bb025e0bbde978e02d334a760e07d47040acfea01a401005afec920f81d7eb016182819fd7862ed0029e00b66c;
  Dbl 0x180e819b8fce1fa11d83bfaf814b725eb2205bc9da06a5870114b749820f2b832553facf891c0ef26895fdb4cd6194d242de7aa73b6e;
  Dbl 0x6508c44a1e0842302211196aba2392ea71afec44446c28ba910d96e446b8f4a877fd9d85b7e44807d71ebbafce9f296d45fc57f07c1a;
  Dbl 0x462b8620ea62ee9b67215f0c266eb4254f43231fa99ecfd20b1ad1d9e9226b784e2121e07a0afa0197686ce8375c5e5f6b522469578;
  Dbl 0x3118f5360e86858ba473dbacd8c09a1b822b0a2c834bd38149168d8e90d5ea2d2e7ce3cbd027057785cb25c5f31985b125003d7511f0;
  Dbl 0x691fc6eb1476ac76e94804788522049df998ec4f507c84e40184c9d5564f1f98fab30a666de38acf2ab697e15038e5fe0c55d98289be;
  Dbl 0x4c107ce62e48736d0c379e18a1883489cdcdcd8245f688684dbb9249def2d1504936f0c903a80219bcb7ebc6a570d258684523b4c9ed;
  Dbl 0x6ee6d2d92b22e6a7391aa52be4e60c2a9ad0fd68e6abc7a443e9d76badbd874c4d1f8d18066b8bbed8f8ac7793dc9d2b1a9b18d63c1c;
  Dbl 0x6533a90cb59a404bce89609eb269261c78e4d2c7acd7def8cf0eb7c7cc2c10a8bf76c41e77776f711c5f984570e81aa9e5da6455b052;
  Dbl 0x54ea65ae3d8e85de78708b95bd53e2d70ab11db3c43840500e052145b3d968c0f44c164a595acd0bcfae11bd5d15479dd41a8dbe639b;
  Dbl 0x510815cd51ff9a58f1985d3d7ea64cf5b41dac82ff3f898564901d7339551c3f7d47c490705039705b260b8040122f65d9a3e357208c;
  Dbl 0x38b169e02c08775471e3901f9a7c5bf0c05b626d14959a24dbf5f760c4438893023e69c0ef334136fd47ca25e1be921b9a135b100d3c;
  Dbl 0x48270dd59ad8a4a5cd5174930e4e23eeed9b44015239ae0dbd589c7f164b8f26a1c37256b22f585043206d6ea180b3029316032c14bc;
  Dbl 0x4f1fb60a33dcb7c6d13d64fe5bf9295dedbdb9c013b6893b4e6b39fc96ed1910cb68f8cd3042d2a7ea304f40574d30a2315b5f27400f;
  Dbl 0x3a54e8957b12e42c5a9201e332717376fbf3c10102084f5bca5646e95554c1f2cfa31ea73aa0c5def73ddbfaf06cfe75ba7c65e143a7;
  Dbl 0x37c0727bc8f1c2510e4bd7d283d93eda5d88ae1288045083e889ba86d94a63adf395e3524a9b2dfb0cc4a95f196570e818e49d2097f6;
  Dbl 0x636de2a74c97799a01cfa97e8fdde3842d0911a698707790e1479b8fbe1c89a8d7ebbde4d48b017bd10e0197bf727f6338cc2bd4cc53;
  Dbl 0xf0a93645b16ae925b6c6fc3dfc1a52999d63da77ed28ae99794a23ff0477b1760d64316af1fa98f7cb2a249f8bab48ae1b6748f95ae;
  Dbl 0x4707693ba0d0e252cfe18fbb212bb30905cdb1dc9142aaab97cdcdd074599d3fa5139a952e646219aa8bf98ddc475cf4edc1c8d1c587;
  Dbl 0x45b2ec4df77d72174177c4460e481c55f3d16bcfb164f4152ce38a7632e35c695fbb27667fa4c8091283ef4d2818ce9277a2ff059574;
  Dbl 0x78441908975c5eaba977d8daf67d5846d385825672fbb5c75e24451c7ba723d51a4484059a23cc59a33f317f2d1fce5db975d4b4a487;
  Dbl 0x4a219ac93a1d29595c89fbd16e0152b4c5c6cbff60f549f47b10e33436c26a445dddf04880ce7e784a04ca488e82904a46b53e3e5c2f;
  Dbl 0x3b1458ac39784103f08d016d7066419e5d1e2f1858e62e1502d4dc7bc67af6bda08deb6d6885774baa00a475830aa3a2fb94f45ebc0a;
  Dbl 0x66e1c74054aa164233877d980b6b14149c8c831030147dd5f8bf1183f2a3873183bce3a47c4ec837e2fef3d89ea84a1672d0f00ae50f;
  Dbl 0x2cd405c86d755cde70731bf560a0acd3f3da368fee78374365e9ef5d16fc434b05dff1cb0cf55e077bae59cadc2f6a6f366266f2e2de;
  Dbl 0x49547d7e8da8083f92529ed97769dd6f0e4756d45783688641dbc8bbd061d9a9c3c895f9e27d47770016ecd36567343bc6c5ea70c644;
  Dbl 0x6bea6d8f18869a23547d80f6b85bf636a3d382d2fd99c3914b6a8712b5d56fed88d4f62629abd3a5707257063d7768f633f5fee6723d;
  Dbl 0x41d91290e4ee6c2d04b78e5fda15afc47d5e7c2b65dd432eed1a105cf4a98c2c49f51fd28422a2206f8616e7a47d8850cd45b3083afd;
  Dbl 0x39419e9a574351eabea55a6cd816555db189fcfc784f66e2bebb6b40472a383aaa7c6f15f128b37ec2746dd31ac974d416d4866e8660;
  Dbl 0x73581393d117cd445a002dd72e2e04d2ce79c80468d8228fb35b83ffa70c28f2b53ef58b32ed63b1435e1abdf3b30aa7b80d3a68e1ea;
  Dbl 0x3667c39b327d4096e646a5a68ddf9b7ecc17438e0fc4564fa705ea158c76bd1bc70af3f1a43c88d9757094adb2f3aaab35acee9d0fa1;
  Dbl 0x4c04fc2794b8c38e9cc420baee146b84a9327639afbd871b34a60bb5660aa29460248fdb3d69c027bcf7180a1a554aec8dcb239fa129;
  Dbl 0x41b941cad7dfc4707db122b43c3fa5935d10d24b866a29499efeb61439f16c6f9abf374cea055e9985c7f3562d0fab543bd1a4e7cee7;
  Dbl 0x3b2c2e4753e3ab9794098d715ac01ea69c0e5757857f52b30c056370e5592da2175f7ca59c60183f2f1efb2dcb1d787739ca338820e7;
  Dbl 0x780a2310bc3dcfad720bc92146d5497381c7c5a0c59f3ae488420e050f5867f741f7243dc86b5a8e7331b5fa42702834142f9582867f;
  Dbl 0x60e303221ccb336fbd293ba1ec032ab89794ea6c4964856b3cbb388e54b567a23fad65274ad70c4e8dbf2733db87b238207810e94454;
  Dbl 0xb59df0449bb14528e67e4359e3de03df843fed15dc6beefe195e5a698d2a72ec5049d8bbd199c9b4927f19d0c6c3d8dd712d35e8943;
  Dbl 0x585dc111440dc17ee2de16ebaa3f2961f6cb9f7356d4df124cf38ea51723a5dce61e90f53dfedc48f1f3d6311096fbc0ee0b09d2a594;
  Dbl 0x60aa94126785859004d6158d16c0ae125361775a38f40eecbfe363601e83c30ca72e5413d93454df984c07026b9ade9446ec7847309b;
  Dbl 0x574d73c10ed3e182eed561841768fbf39afd631adc48a71c897413b9947a2056cca0ff281d2477e9929982047f539fbefea215f7099e;
  Dbl 0x7b69a4cc1e048aac68c2d5c0b5f6fa6d43cc6298971925e0c7a496a0cf959fb6d2c49019b7040ccf4f8987a3e6c7268f56b5e510f695;
  Dbl 0x117b3f8e1d6a1fb7dd9c18cd0bb7ee96e83cb2860a92f654172238cc19d08630fa8e26e66759100c3326724002b14589902eaca7f540;
  Dbl 0x6e81f371624a0cdd6c6572d0ef79d7735d9b1d4e3d1167a7e6b867389c73ea0436f13dfc754ab9616a12a63254af49590becb0cead60;
  Dbl 0x4c551cdd8273543c2b797bdce842f5438f257977b5db82e1ad0fff2eb0124ba906f1e843214e706230e01b441a192c5599ebe9689814;
  Dbl 0x6be681c68787af0cf95135d28afb526de74493181216afc8864d52e7f4eccdec516ac1c315ffb7a22c0d449c69f56befe18958a02d26;
  Dbl 0x430a8f2e0709cb5a64075c23bdf5349d6633141e78a60e882f5e6627528c003376fb2882c77602dc9c8a5e791f7e60e10d0cb46b5ee5;
  Dbl 0x2f06f8120d30d38fa41a50e0ed107bafe534e268df9e80a050fc32dd38d9addf03648f14d22c88a886118fbaddbfd1f2ca09a6022fb3;
  Dbl 0x76d4efffc7ab3313a523aede38881cd6c4bbddfb318c7af11c56094546ae032ac745d33f52b46e0c4b7abaddd9bc496dbc1515b37b9b;
  Dbl 0x4efda739decbebe779e5b541d47c4686fd1263e04866e7f9144d4b469397ee32e2b03d1a4957c0f394e21c637e07ca6c04969eb6ab70;
  Dbl 0x5f848ab638c8037736cc167a2f1edc92374a669536a89ab1dac9475f37b5a0f16edbf3b1e79cbe32a302681f80f19bf6e7f177897615;
  Dbl 0x4442caa7dee1383bcf599f9c86e9f3ee93b2fbe8cb5ce9f38c3645d59c08677be3edec2af07b676c528fb0a9722f64e4f8155803ea9c;
  Dbl 0x787b0dd0ec8a755dbd2fb8213b9dd0ecc0e58a419bb2d680f09e108bc82b027e3b66475763afe7551ae079912457b0954dc5ecb55636;
  Dbl 0x5dcd76fb7953490538120f16186e4ef49166803d2ccfeb98052b4107c7895e06ad178055e28756b61d32411e9c6dc8cf2ef5670ff596;
  Dbl 0x6ae38da6451ea2983a0ebd6a8a22f94e13611d74a12ca2522784df9c095ed4c5c1e6367a16bc6ef6ea6f9ed73d62a36272699f2c2592;
  Dbl 0x1b1dc0aaca81c57bdba9ea9b1e774a68ca5b27d0842f7c0982551a5d3988dfc8bee45e04bc4c5fbedfbb10928f3bd29765554a134237;
  Dbl 0x2b2f82dabcb0740360f36f55b1ca8c191f4af40a55983332209ed8c550cabb6ba78e7edf964dcc884f336194493e0610cababd228a64;
  Dbl 0x5f33145116a21726c0235708347b7775131bedc1319e02b6c4669fe9f235599b3f7aae437acf2187dded8ffed7e4b858214ce57eaa1f;
  Dbl 0x4c42d4662bc5b0079703d20946bb78f135169ca77ff0b1b65008a5df514b0e0d249dba088bdcd573e8ea65461ab2ae84a983ab84bc4f;
  Dbl 0x5655c142750cdc4047a6db395c5c0ee42685eae2a1946b7708ec5deccc9357f05524a4f08ffce84acbfae9ff41b51298bab478c108a4;
  Dbl 0x6c9f4512c11fb6fc6807dae2b501e9937c58e2f9a4b057307847520f01744e6709a1d3a345530ac874b17110afdd49833be59c3b4d20;
  Dbl 0x4d3e175013abc6456a9aac4e508a521512a9b84c81f9797d57bdb27809fdbaaeaef116824e4f63b56bc9e509d7b796a9de10626c9afe;
  Dbl 0x28d91a98c22b3b12e1372e3d576dbdb4c4412430258b51b46b6112a137f96ad344ac1d1405ecc2be243cae7b347381f14d650bd520c3;
  Dbl 0x43568d9afade26eeb1bbc9de4248f37d08360bcee9fff78c3d3fd0c0cb7b96a3942da409973f9e8b4b0924f437e1d3d036e88dbf13b;
  Dbl 0x661b7d71218045cc7fc49abfbd3a38794da56137c3cbfecf7f8586d3a137f2a9672db2bd17500877fadff64c4b46c5a6e5c3eb9e67e2;
  Dbl 0x51cdda71ee7558620e6ddb8ccf1f5a6605f6a0033f7e4bf690366cea884ce8ef5638fe4205f584c2634ff53c8019b71dc8e7278ec24;
  Dbl 0x460fe9c4418779678a0f37c044698cba8c76082bb64d242e3eb7d8be83cb5570eaace6add54e3761ee4827077abf13f30ac29a13437;
  Dbl 0x1e39f6f66b94f1f1468a4456ac5563cfde69313befc523fb84732e577fdb3fe21aac73ee7f70d3a017cb016ed8505cbbcf192953157a;
  Dbl 0x27c61d1ccda53e24e7def8bf084f8839ea7193bb9adc9ea676d2f2848842755fb15bb5698b4de9dadc26bcb8401961298bffcc19f595;
  Dbl 0x40e32e56f2d523038a65b48decf6200a793d8d813f1bf0a2b3a81ee731db61b51ee16f5f2e36b26b2777ad1b181dd63adf1105429374;
  Dbl 0x576390bf15a44306f1b9bf1b925f3c9754f2004f9ff72ee1be28dc42881fffcf3e5678dff193af5ee8fdd9594c73eae72295903ad982;
  Dbl 0x25654bd7105a0e6b398707f85b086c26b5465f2551e71d82e32efcab7e83392fe0dcf037334bbf2cde46e87b813a712d810b088323a6;
  Dbl 0x69a3fadb5cd7bf6d6cfee9f306ca6cb74997d0e6ae06f0977554df7c7a44e86689651bc760a7f14bacc9ed28b96a04a42d76202ce659;
  Dbl 0x3c663e440b4afe7b470b9e5a269ab6696ae0ebac0623728243a2a60d80cc1b385ef0cf790738bd4bcaa9d2787b013b5df1d4482f329c;
  Dbl 0x59276f88e5aa40603b85d523374a1e929498d8793238400841efbc9c90450b732d6ef5b580a1d006418146c4d50b26b268eb4b7d8a9;
  Dbl 0x7533a500d43ff86cc7908b7dd1fecb9b01a9fc7a6e064af2dd42d3bd49ce097136a163a0719768ac72e764ec985dcab5595590ebf79e;
  Dbl 0x54ca2331a88d4e82e28f48b0de76a25781f306e5524b4847b77af70289ecbdcf109bf47573f36f14c1007a2a963917b717af521b8f96;
  Dbl 0x420b532a2d86a9632ca6282d20f11203a4edfdc7c23be1815e48565886b6919fe766a1d05fa44117c4d5a618350da9f268f3eb338962;
  Dbl 0x5a6c1c0d34515f9546e6650b05193fca0a25213fc126d7f92c0070bdd241bf0fc49564212e0be7df9e6dd6fe300eaf011eedb9c85707;
  Dbl 0x49bd766557edde6a3f29ba45ff7eac19df76fac6017b1c06b681a30612ae22ef7da1193eac0d5d92cbe178055d0f44f9355815df2513;
  Dbl 0x321d777bbb19b7cd49b236773cd4502bbc10b1946eb162438ee77958262fe6d370cf5a19cfba9621e7e22e7fab805b6f68c3f8d012a1;
  Dbl 0x6c6dc5df9d173983ac442aa9ee1f84b6983139945845d2d355b31f5ca344789f9cb79ca39b260c8143a5f1f53f416d236bee50172392;
  Dbl 0x25a7d88689a41941f700ff3448bbbf00573adcff5bb222bd301ebb42de94180fc9274571715a80536d3e7f8668891615bb1c8b438648;
  Dbl 0x14151ea0b4407828f90a6c49b92ea8ba06c1ef59c5580775cf72068cfa189a351a92bce71b02c2b3036c12dfd3499f320733b1e1c267;
  Dbl 0x53c262dc1585fb82a8d7d24b1e2d05694bb04ec056035709685983f54d63a7c132f2cbcb413f2def2ceec22e0e4a29da2e5b4b3b53b7;
  Dbl 0x43573770b4bd76265e7603c9ed03c013c10332fa65776ff66c7851dc7572e288b54ba8bf93201ee8e30a2d2b4945f35282401f0cf2d;
  Dbl 0x478bfed55bcf5f9946d328fe3ad3b63ed0034a553c164f1e3c8a2ede40e4521f8ff271a48023b871d3a9673120892222064f3ef9d485;
  Dbl 0x9524c7907b4de5249fa7d81fbd547fc5892c44d130888d30844069676ed02379f001c08ae20fe7ecc0aefdc4c1492d0725b05ccf47f;
  Dbl 0x18b2786b286513a68945853ba91da5a6118297179e939270252434ff3f9c858c34e4aa5d5cfefd2c6a16c5972d409acb54172e29f19a;
  Dbl 0x5e1c50a9927b99ec5ab3924fb40d0d9efa9f12efe28fc8c4c7e1402195ec789d6afa076977066e7f448918db520b57ec74c6832c3513;
  Dbl 0x68f5ab802ce677abab230c0e1073b60e30f014d368adc844c6c7671211538e398adec3e8f1dbf9d62c6a5b895c89a908febdc76d4fe9;
  Dbl 0xb1432c27ba93e318fa9911427234f4506683ea5cfee23477383febf35bea7863511149914f6954c79487b5102ead92c08d9364c4ad5;
  Dbl 0x30c02169804cdddf07214b309b0b3e7bc8fc5ad31505d6a84ef641f8d1ca2739813270e2311aea5540ab9cf774fc9c141ae00a115a3;
  Dbl 0x3e800a8fb23182f704f0099c6fcd6b4b9b30eadeac71a20025826619ee893f7378e23ce4b971437b4cd8e960b2b16b3cba0dff4e15ea;
  Dbl 0x6c1575238f82ee7034f7b42af50e7511d1aeb6714145cb6a9e7a5e0487ebb55deb89e899dae7b7282ff749148afc3bd002c9190dc5db;
  Dbl 0x5512262e19f541c997b62ef08016ce4a4e3994366aeb63e0b447f4d6cc0bb29a5cb5a6bc7bc71963287f45b53b3181b80ec299c43024;
  Dbl 0x53586b4ec83fe768b87cb120515070c0dda524ac58013ca6497dd74fe8499747260ae9e97b6e6c82d8c0f5bb5fe46724ddb45b76747b;
  Dbl 0x77b48a965a03fec31a5a48c2e9cabed3407bf03bde6f751a706ace7afcaef3f49ebe6b732c894d3a04b348d7c1a869354dc539d1b72;
  Dbl 0x1eecf9ae283048632d4e3300baf13fb25eea2581263b406f7619e54a1cfe20e041deb86e2cd12d8224cfc6d53c78a219293996bc7819;
  Dbl 0x31998fadc650d7de446c9d7274d137459c5c8e63629af90c65bd5c285b51f0d1edcf842dafc82f08adf41de46f542d3f513103b8fbc8;
  Dbl 0x33f54cc5df65b4a6528bd255752d61efc175bac322ddfe03dc3c188dc955d6539bc3595ab3e9d081f4c435560d54eac931393c98adf;
  Dbl 0x800b8437bc0f5bc768cd2cf81ee548b07ebafb931723b66fcec61c2b336b6114b4a081e6f52f70b191faa115a970f2f5699ce3f96b;
  Dbl 0x9516db9e175c809e0dc17bacded50583b38fdd7d568d9e2b069f0d6ff131264c1e18906039e883b543c52481c2a0753a3fdf434d445;
  Dbl 0x7e8416c902d44a36f76e31790363547aa75a996ce91fd0303a2091b285ede2f2a2d36bb5e01b9788d3e6adf7537d5bdc1cad7230ad42;
  Dbl 0x74ef05d6f1c3263e737de69d1e85d347b65c13f14c6cca0bf3adecd87646b88adba596563291bae0c85d7bfd494e5457cc3fd8e9814b;
  Dbl 0x172faf4cf35665c5ebe6a0631b87993702df1d610fe1cffea2aaabc5d1b11962f335be9a6f2233eadf330a0c5bc64bc317d296ad74df;
  Dbl 0x324806db7b826f94a88732ba4d122251a721e50f23d9aa5b95b932cf6bfac1fed44593c36189cdf9e24a62d68e0b47835a6aeff0a3c6;
  Dbl 0x34b0b3b8a4019a36ff4b78b9d95887c2d4c05f8d0cc52cbdf0147ddfa810147d233ed905208107d8ac1717f8110e15e98e7f0d396e98;
  Dbl 0x390f35bf8b0f5fbf0d220f4ad7a35be7391f9b3bb803fd00e841616dfefc63feef592a2a163e270b095dbd8a0fc2c53708062dad3677;
  Dbl 0x3d5c037432150141774e3d332c96fcb57df032f343158c432ec3cb9b5792038821d02b5d740404c3d2052d47a023c01b4a4779a59bb4;
  Dbl 0xcfee599e4a70798835d092ba2a0405eb6a39bcfd9210bb75fc8df0b251ab9dfb1c288837126a58639c860bc11958075c67273abc12f;
  Dbl 0x13d740c60addc821c99871e8f8677e683562b54908c9ea07060cc6fc84118b1b082d3f2aa4cd7690da7067fdb417da328aadf0561e4f;
  Dbl 0x5ba7dea5a1b52c8debc0b707feedd38e1ffe677a29c44fb7079ec281abe1d8b25bf983d5a5dc8144720bd02b8891bf44fd8135502545;
  Dbl 0x5a9f1cefa2c6edf55965719295285c770fe4a2f86dcd5d7ff2f88145ec854418f80fcc17b9e551e473b4e4c4bf834b2674ecb6a068f7;
  Dbl 0x5a5ae7a864dc781422a6fbdf3c77a6dcc21f202b1af7ee3b89a026d6b6c990e5d37dd36ab98df9b63f068f9997b5923bbb8ee81190d9;
  Dbl 0x3ea79712cfaf645abddf7b19049509c47e3fe74e93c59650b298221f59b8bcc66503f06e58be597431769039d57ed9eae69b9247f781;
  Dbl 0x346cd256fc7b7d749a1b5f3a258175cd72ba6c96aa8c1c55ca3c947b3def897f99b53e91e167f424b56f8813cb2a3d91fef4f6519f8;
  Dbl 0x6b13a2d1d9f92ab00e1232e8acaaff056e07ebd077fe9d8b22b869e7f174b01976d064a18e8e09ab51334173c65968db0a4f0d176712;
  Dbl 0x676beb889279be2ea4e9b6eefbbc7d8eb0456cf0be28cb336d2fcf9e39668ac7c4092fdd940d1823ded4287bdb34d0d8393df4f93436;
  Dbl 0x45ab82992c1b91dd30cae38ead71d0eb45836680e1bf4da9fb124e6d251d0ebcaf78168aba82b17805caa9d527f68fab9ea2302deabe;
  Dbl 0x7b7a2a195323f3ca42bf74c2fb0895cc682bab3c321cff1eed77907cabe08bbae8514d02b95a0d4d4d1ef60d5d70da09cf6151b68584;
  Sub 0x3a80ff50d9675749a61e3c522bbda992dc1883153475dffd544b41b0f400ca706e2eb6af6f8754b3277f95e4fcee627a902092fecfd0 0x7bf4429b1e022cabca9e5de30262dacb850732027f99072d82a173e2375e5fb4716681185c81907b2be1f0d3c53d5a5d23a45990e553 0x283873ca734ce95fba92c95d64f5ad915b43c66fb0f86535aa617626c4da07f755478dc867759cd48139f87bee50ba26bc54d521bba1;
  Dbl 0x562a151b3e139c486412547acd0575c7451b5839ce45e783664921b04ac2048c75e581cdcfde2f0187a160018402a48b7fd822d57307;
  Dbl 0x5c7ff50059f44ad9f1d4c10d387f7d595e74122a32bf8a1fcd5e519f1f2f4da03ab0ec5820acc29152dd11e91d36516ff2a2d2d664cd;
  Sub 0x33f0b27c7f5655d1bc65f966d0f9254bda28c1a7c11ea06ee1ad301f858b1f881f3a179524fb30bde2bafd78246a611d7786d2f88004 0x782920b3f85850e3ec2db7dc01a0ab04204c722922c57af9aa0563e819d3f74e556cd4a91ca411c0809a85194c7ec30ed26340256eed 0x5299099522603a174848b99cf5b9563c12ec80d824e9e617ade35ff94cf72ceb1bd26a0de1b513fd3e0153eed6c0523828cb5118dc14;
  Dbl 0x6b83173db0e6b4d13f16930c5f7668cdf34f1d827b0ec922eb3cfec368be1419388597327480e30644477c8d3868c5a39a796f5ea6ff;
  Add 0x4b839f96634544d23584ae69c1812bb1e2771a678f0e9ac729536052d33e6f2d083b9dfd724991cb43e2b459c9cce42e0a2e2a664a 0x61047c7a7cdf0daaa287c1f37a526cb31e953e50112d04d35c72811faa9a94594c9ff58e01238f59fc5a1b544ac54650442e1d8b1b60 0x5d123f99daba16dece64e4bd9d0effb79b7b1a7f04e0c7c265b617bdfe91213fbc6a285b381dac981cb9d76bf12a49c20664da80bca5;
  Dbl 0x53b691102278fb3c2ef1388c043ab2e2cfe37d6bef49a5616933dadf648469c20136986cc8b9ec0ac4408a0e778013fff7bba8c84095;
  Dbl 0x1d797bbdd8fa98b7957d0803273bdf0a82766863e98142fc7bbd79a690d57cf3490d7124f2b7fa3e98b63297aa73100ffe0196c17621;
  Add 0x3e2f4fdc1822039995ec994b692a75d7e24ea9a17483478fe795c8b6491e7116f0b921bf9e13b6a4021b041f8bf58a492b380075d31f 0x481c6a47821604633714df6ab8f78799db5cc588c9faeabff618a3736031dda063b0596d5b5c8b6607bc176cabc9bc4d6fd0548e13c7 0x5275f0c45bfb929d1f055a96a6afc5754eec4eb7bdf3070cb0c1d24ca5b1e4efd5ecd249a831a56db3fe57c0a10f239c3c27430d50ed;
  Dbl 0x550f60838bab0fb16372a0183dc465c7acdb79d50efd0ea65453d6ed9aaad337fb0dcfeda831ce4e110bd0f0a9eca9045a99f4cd32c8;
  Sub 0x238e42ee0c7571d9f687a85b8408c136f855527e9dbe8bb54c242dbe8667f75c1e2118a025a4c2a1583aec2e0af3db80ec5f08766938 0x210414d98c4574d591a75069af72ab2b17d07e81a041abcc89a4c0fee3efbaf5179815cc60cf37ee37a0352b15c9f68fecdf309bba8b 0x7d0c88da42cec4e0ef08b1e75d83b267a022e7d19916082c5cd426d98106866317e2779936b404f63dcc24adb8d7d81c2dfed7ffcd80;
  Dbl 0x28d72a52f08be73dc7875d14e588bbdd14a7879498a80f694ee92f206657510822b621c621c34575e70f6580b79ff0be1bdd31acef39;
  Dbl 0x573329e7eb8a796dc2faacd8f6bdf5b805405eadc4bcac11d31b13e761bc66ff62f6239a6363755f0e2394e87f2298f8d93ddefa2d45;
  Add 0x6578965f4634dc6697ab38ddcf45afda8b915e2798b1c280caee9042ce0513f74383887709b8778c9ccbc8a0b9595b6b8d83dc140a91 0x269b720eeafc9b5f90b670e1a03ffa98e7e6806629b8c6301255ead423b697dcc275f6175505137d0e7ccc8506dd7d0b06ff91397ef5 0x2709a0a95d61699fca8d1cff8389a3a3b0964f6a5a56851b2527b9f172ee666ca7985491d97159d630752ee89faff8b818cbf5022d9f;
  Dbl 0x270a7a1948fe019a40d2135cdf39a8b095149b1d47c8f6e4f718024e245a21d9c853fad77e804b6aebf4cd1866d976028277197447e3;
  Sub 0x108751bc73a96d1ec1e4766ad911b0ae1d2944b30c2449c3902460a308b21a9c207f543cd84dd638864ccc7c2aee57b0728bfce69139 0x3c88441d5143bd352586212a4307de5deb08fededf546568e694503c60239d64115d3bc0b2c994a7f121333be6b8f934e55083fd9da9 0x7d71e014fab8f25ddcf2b277807473131376aa0602a4b4660bcf15f2e52b4a091ec9a9c86db1a414d757c13c3f1e4c530f50d24a8fd7;
  Dbl 0x3af6e98b5e5d489688ecb8ca0c26ab82a7f572244401c35bf586411917936cea6ce722fa1c21e920660bda4401962b89c88c5106f525;
  Dbl 0x78791e44122feea1c7078d71e4c68d5504f3da9d28e735b2a978149fd6f8122de3653881c4a5691b78640b079cd75eb3d2ceac808c35;
  Sub 0x1343cdb9e854f84268df5b98e980218ca9f9116b2d375c1730781f8f79621426c1bacbc8a63bfe0fd1631cb2e54346dfeb757e5c482a 0x64595a9314f5a4497bcfd65a4277f99ee7dfdfac824f746e927cba707307ca4c97445f043f385e1ca30677da62f774bbafd781f82d76 0xc4a46432e0ac10ec3bd5452090d7830fce4e1667b96e4c0dd55b6641790c5d43391bf6b3dab6aada032067fa961b91220215a8644e9;
  Dbl 0x5a6121f83b53b932a0f0048657dfd7a95b3df91cbb175899046f25019e487810b315851918842c087fb4176e6f678fd2b5be11015e18;
  Add 0x97d92b183bb95bf35f94604f8ef32706d799d74359bbe0b4579122faa8b9cb5d31e943a6f0c44bbd4fc7c0dc9e358e099416182dc5a 0x3bc93b3f23eb16db1df7b0e99017ee592c8743f35aaad90350636c1f9c0867e6bf271992f5f019e415c3c772af775df0b5260fda2e80 0x3126b60218a801fc053685ff8111a0e6ce4a14eb12091055f19914b77757a81c2cc00cec507398bf05e72cb02075647a235e4f1d3d28;
  Dbl 0x72b70c7f62d143225e0d63a69a2ee244cc296820dbfaa8747baab4edf2452dc30847ea3739a0a57de80a9d3d4eabe412ac4422a32b9f;
  Add 0x37aeefa9e574e74fbd732d87cd514dfec1bd523a8c7c27bddd6c2d20673daed5f719b7af5969e710721a8f224de2e297106587580d00 0x4b0d94fe05d6792b310f1eec4cf48e7d5ea06531f3b2d0a695ee6268908c165bac20fd6f1ecd440b48a7f0a273c6f486623137eaeded 0x15d98d0cbfef877ead3ce0b4e889d6f03dcf043e2b99aae5c759e0dfc2787cae7918eb29eff561eb786718c52e9fd372a0088b353774;
  Dbl 0x63daebe0c54e85fb8ea43625c18973d51889c3cfda3aea90b1a6f541aed2a3e28ade792395a1fe992b48e82ad348317f2be7297f05f4;
  Add 0x2e0b6f5076e83a92b9360c20086e4e61a16f913834e5f33c758459d92a97de39961320acf66bea0b371d62282507d58ccef575030507 0x3bf1d58f7a138f4d00d688572f72eb3fec810347a203d2658fabb92ea164fbaa3e379ced378add20d6086ad965e36b123c5e954d49d6 0x689511786b8d77cb67917e409c4b021e2292a8c70e5bf259efe0db05deab50e47bf86c07408e208e018888f97e6ca92dec8f8b8a9a43;
  Dbl 0x197d134d4ab00bb5893c85184ca8f7c424b53fdbb876d8f2ff1cfcf44b04c5a2d3a4dbf78a0baf936f2a409f4bd4028667cb23b52c2e;
  Dbl 0x7c892e53b3d07c4968e9a1c92a5dca1cbb270dfff5cb63f984918864a8324800877a74bfb78962d6af80a98e2c67819380b17fcf6a20;
  Add 0x61514a759dca012721d0c32014151c8e1c4c2492bc32c29fab65e191ed0ea4ed082e11f75eed0398a036f2891b761cc89126a2658e65 0x19bce99570661ee315d00800a8156ef9aec92fc86c2e46f90dc331fab94d50869d47e188b2c6bed5e75385b7a375a4597bdbe4b8f13d 0x4fb3574c42aa5b009f574e6ad9893999b5de6e16f2a6bd357a63ba7409dc33da713601f2a5340546762e9e4b5f497b51cd7e2a41b656;
  Dbl 0x6a471a899e1565a8df45e354ec88ac22ba473ce072eb3c41c3d69326b4e0ace09f90ba8afc6d5f6385c7b0331af4748e096764ab58ff;
  Sub 0x11e0516887dddcd0ba43ed39820eaba363d20e9f192cfda8f9f14ce95a0680aceff357a7ef3af1ac792a0b0e7b1ec584d5b01f983a63 0x5ba097e0a1db29249bc7afe77337197198ca8801d9e935b401e72c1da8bbe08014d2ff7a2f830a2a7445db07a97407bfc9dfe11c31c1 0x6f8421b5cfd5818152b15552f1ca75cc7fd6928ca900f15fe1913a92cd678f4e9ddb5267a52347ad7cb3f6b2a88ddf95e609391c0c6b;
  Dbl 0x4cad789e1ff35cd76c85d18e43e849005915bfd3f460cf3b7706212fedd3b69353db429942f04e474dce3156e4f3e075719b70bbd712;
  Sub 0x66b8ab6806675885f2d90abdc3a0da965e492c36f8aa99cd1e533a6bdaf0a505184db5d5999680f7ac6f8c65276241c7547df13f02e7 0x4654a5869d93f7a659c41882b8e206e4c3151892211f11ead5ad01247af449eea893bb22bf7b43f380db6ebdbf56d8a9067698535064 0x1c40dc113f35f96b3f3d04273dd49ff7e7df4792a3192a07e99e0b52684ffddedba119409df586b327dce0ba456952112a3612644d9d;
  Dbl 0x71cc2f9786dba006c30640b208bac310aa44ee2da68e65c8fa8f343b006bb048b5ce6cedf14088a774b585590f9f8fa8ae1a6281c7d2;
  Dbl 0x6a282fe2267bf58c70c375285f648be73717a8cb8955f147a340eaeebe1d26415f7b89f7128433cc510bcd356621d8845232b0adc44a;
  Dbl 0x73e6d79706c8109b71478aa1f351053f2a4507d44d756350847b1452b7dbe531569679c1c1a843707b7db78a32acf095110c28e00e89;
  Dbl 0x4227f9e8ee7a911e9b17dedb8b29f3b5a6fdabe196490902b192e7f43b8cc0523c6625f90def3d0999b2a6c6fbf5da4c1a23ce357fd;
  Dbl 0x2c635b5e36b7829bddc37df51ace017188ee68e944262a7f434f1157171770e780af1a4adb9dbee9df08c6b5024d109ad1ee5d636080;
  Dbl 0xcf99983f2e6c470cd1b6c9d029429c97ed0c240770a541af6098087e4bce6f4d4bdd67d2fbd143ed68474f83217f5ee5b1443b292c9;
  Dbl 0x389e8cf9944d5caf91cb8da83e22404fd329986231226504c5daa0ee9ec542e1e0f5462b7d7c08c8c53731ca422cfeecdd077db975b2;
  Dbl 0x794745c84a7cbfa6c2e73d60d94721a3e835924c024d18f42a0ee7ae664da89012665b2518bcba6eec6c318ccf307bee07040ef37e96;
  Dbl 0x5430a5d117ca46e5076559387b384c756e8fda5b2673c3a2f22ccb2baa40b4fc99df7388562c9bff0346dc82654e0d22981b4c3758b3;
  Dbl 0x59d4b24e9d774624c10c6ae45a5c526ec020c48e2bae8aba5a4ea3dc2f291f79110c0594f34e584ad97102e331ed97383c845c9655b4;
  Dbl 0x2d6e7792f5129515b24e8738fe7b4f027dbac641dd6c8440ac2510b4c4e4e1a98c51e2d75d612316007e20a5547a74131d71868314ef;
  Add 0x1ebb03b2a811677c583aa3515f527557394d893efcda4df35db5d41f7e4fe17f90e609edda1d5102b3d37ee3479dcfeee9f2492895ab 0x76bc227051be71a724c04bff8270bafe751e21e8cdc867636eaebe7cff6e31becc42afb7c7ca1bff5c7094560edd5650fb56ff4dae8d 0x78f9815e34e5d9ff69068abe97b13c2feac8791f3a84d2ed520611fc9fa5e39deebf52eae0ec7b86941f0511d704c885201906887a5f;
  Dbl 0x4d3174928ac04c2a6295d6918da7f3e4d73871931635ae5d732202bfe945c685fd24bd5827b8bc9f3ff7355c96f0bf3db04d7f666545;
  Add 0x7c7c9c1b205178f1753f53b7301c5f83a1ae95ba213b9c133dd99579d403ce69356a1ed46e235953f185f88dd1f0fb15db91e5c5b91a 0x69b3492608ea65e09d0d1c788be6e4df4e94a072664ffb81a2ae314e41572cf3a41b5ce7f59650805c1fed252c5af83ea7c9b28a162 0x36671aed6fab8076941c99ccdc62fca5d89320c68b101566a199f118aee305c4ef462e70ae95ff93376ef6d8b37714e0ebacdeb00d63;
  Dbl 0x7a751ad1c7af0e7265010e08c48e360fbb8a6067b65e3dc96532bdded1ba677b527a80a0e4cd514963b901410073510ea81ba5163e88;
  Sub 0x14dd5c6c245d3f53159c81d1601f149680373477da39c57e6e667fe7a7416d4339bd76e93300240ae3740c872f1be6484563244770a5 0x6d32d8deafd51247b2f39c958635e3a5f8fb60dcfca3c90f273eafb815c322b2a949d24f5cf5ff36367174c0b7997c36b18a27d58b33 0x418906d4d6111717d9b2228549b883bf1d43a008329265e394a7789ba22bd420dd7e7da2f3657b568e34b4a0555f081f24edf5204fea;
  Dbl 0x3fac6745a3eac33331f1385d46ae5cd35fdf9b7f495462aa582af9ef20c6506eb30e08fe3cbda0cd37504315a8628053facd60bc83a2;
  Add 0x3a027e75e028fcc311fe95c4f6d8bf5c1934bdbf289633d02cbc6118ce31a7c342c23614f258383ea3294d85aad31c7625033aca9bf9 0x66da4414ba73d29a9ec4188f4a5c7ae9ad1e6f4347eda278e8227d2a92c82ac7c2c845bb49bd849d1ba7524bfdd4ec885aabd98b12dd 0x4c9d8d531f077355d9c8861197cc90e9d5e49bd439bb208d72ac45a19f499cd013a550ce0c57c96149a656112be299dd31f01773a465;
  Dbl 0x4b0364a9be85c02367832114449601e575bd371fb8bf7809b3e7fc9d11a7831319f5fbe5d899be2738c0598dd02f411e9c1ef721be7e;
  Add 0x6a978e16b1c21b3bc8637c77959c3235b5922bd19faec74dff84ee0a00e7f3e3142444e6e7351a74bc5cfe605181e2fe6c699005abd5 0x15ddb3779af3944cfbc7f7787cf14db675d303ef1e0258a460bbabe0439bf03270c44597f012468adedd1e8dd3c23f0ec3ff1786ee8 0x4375b2468d3ed88263ae9619febef6300c9e7eaccec2fab9ae7def04fae2a8b122319c7658d26258980c5907c3ab4cdbb3a000cbd9f8;
  Dbl 0x463547797282fda1598afd247e665e67c1ed757451d1dc811dd7f99bff6e99283f162a5d6ea4d9d42539edd01f17b3ccbb3dd654d635;
  Dbl 0x322af423a197da5e335eb27ba04ae678358e240d299624676ad4f88260e36ee48b4f6fea570772cabe9102524aae99f2fa86127d5d6b;
  Add 0x2f07fa177111bdd661fe2ad8a016a26a291692c631e9897d73e0e9039c9cc801e019ea880478a24fc84922a71ea733f3f8114ba50a56 0x4567a0ef39f11af1ed70e6b1ff477bfad80c9d6a748a87fd43a8e53e442dc6e64fb13413cc5081f0698d31cb4de68f7990e24b022645 0x3dc05c20e2ed56ec1800cb78cb32069b0300c88a485aaffdc4e5683e5e0ce45820e8e80d59b7d9f08be6e72970c44aed9c4c32383004;
  Dbl 0x2a87296b4e59550b2a536037b946feb503e8f0326d5aed9fc5cce6e42539e15bf363c4705acddc5cb5037918e4577d0f5b52637efb5d;
  Sub 0x3e501fc4e11237697e2ba3edac1a4233c086d02cf089a629f45eef1df90827c7e17cf66e9a82c9074dfb35259a0af8e59b8bd1bc1cab 0x57a5e39307975d5833d5ae9b8c692c80f011f962718134626d8a6751df9b5d1ba16f6000df8630c3571b88506891b2adbe1a2384a303 0x4c1b1161683d7e0c929ecd58b62a33586fd3aae740c3d1b109a80ffddc441671ca24ff5e40cad9aabdddaaa9ecd365c57c90684fa486;
  Dbl 0x6247f0e0e78b310fdaa14f5a0192448b66725a38a97f33d66aa0dcd4f17e56c6125b557f042b1124c7abe603f2f8ef56d06e0bfa3387;
  Dbl 0x38d2fafcbda01970a151a6939a2aaf3cd300363507feca3856df8a638e7bbc6ea92338cbdc43a43b507725c217ee033e94dd2159c0d4;
  Dbl 0x15593eccf169204f05e5505fc3f59be5beddf5237190b4d97e28455a4353f0a1714032c7c0540c8b95ba46b59f43343277a5ebdbd102;
  Dbl 0x470f9328846bbc917872a70072813a6b5d8bd53a47e6fbc5277c248fa05458313982849d4805a97014ada6007e728b68de5941635b6f;
  Dbl 0x12124cf61280b70fd63f8fbf38689c57686d27e6e58de71f00efe7f15f8ba8c5993702aa1372b10b9530148b7edc258bac936f21df6d;
  Dbl 0x2f2d8ca4753dd1ab45153197a5194dd56ebb02ccead067dbe66184ebfc7dd20ca0f4eaa7feb5eb80a287537fca9af0b7c096aa8b80e0;
  Add 0x49db30b7df88e71354142548796617a92d5352b3dec597d1f1127a5ba53f74fbf174b8f78fa6dad8bbc7d449f0631cf44cbee516e64c 0x60f5188519bb147a29bd4d53daf580731c3634431d21e9003c42c1137ad2d6a44f4cec8e107f1b77b380a3acc47bcfa08cc7e2ea3c2a 0x6cb4a63c073ebbee6d3fcf8c6bcb272103e00a43b128fbbde16dcbaea6622fc6889de4cbd01816585504cfcc554e01adf29e79416f75;
  Dbl 0x4a22e5255c6b91f3880559af565e7b7d1c45ff6d0f4792b154bba2569d7c5cbea27b672d47edbd467a40f0e665a92f17806b883b6cee;
  Add 0xc64a82de9cc0ff55d7b5bd56a1d56f6bce9ab735a37152b51e2bc5a9a42c057577c880c0813209419873f6a739dd5ab6f93afaf9924 0x3f9a75542a0e351f8b9a94df5ad69721711d566487e966ea70c31135232e0b0433a8ade9c3fa418755dc44400d3a7a39191dd097fc6a 0xe08c0911b9d08e5985d64840bdce468b56e846ed75f8cb81c3606577046fdf1229e37be2b018eaf980e3eb829a6dc418c7cfd2e47c1;
  Dbl 0x48db5fd3b4fa055686a0792e504912bdc1696ad3fd465702bc97b7d40ff6542226ffef87348731bf1b58536693767546e08b3c195a0f;
  Add 0x77d9d0062a03ac61b45aaadab8dc19e4959bdefbdad990e67f1b9a549a6321e30112ba60e4e24980dcd24c8dadca096f355cd8d977f3 0x3594dc553eff616b0e45d6c39863190407ba495188ef9c1494db4322637ea97519162699754fc6dd7135b80c56cbf40f89223d4d3103 0x41d766ece74334e01f81bad86cbb19b500b65ea46f0ee93f6d4ff540fe0eedb4ba81b12e6ea5a69ad101a9c49eaa53ca4a53a955e755;
  Dbl 0x7c99fe74e16922b0cccfa86e2e310b13f0b0a41349efa1cdc37bfc2f2b8afde5ffb04545d96d412067508b357c92d8a1511a449f62fb;
  Dbl 0x3384448f95bf2dbde72396df5a769198f69da86e295e0f821ab3854306cbe3f229a1eac08dddeab5aa00df8e3c83fe873609bef59a7b;
  Sub 0x24bce9a57f4cc39c294b20f293229c624bfc0320a26bfc8117499b9c56bfa4f906b1eace142b9a7cbdcf5b4dd7a1ce9e5e87561ec97c 0x57708f3e3644e758d7f48e801d38a77c3f3400cc18f0d550a86c38eb62994c8ca229a4f0c58f0b60e157ee6851239622f18ca8d5ef91 0x762587adf2527e8ca2af3a58ceccc29476e16f41935057b80aa3ea71f6006a1ddadc19fc36dea4556fe344d83be9349c0a3b952fb63f;
  Dbl 0x5468920b3fcb9f2c7e4f444d03a2e6fc2ace9d171e93c7a7093f18589a76f54bea863152412a06d92f9809b1669d906b9084c265b7ef;
  Dbl 0x65febac5bd110a28259ae709ddffcf3752d432215beb4f26b140f81d127d7d72e1a66e5aa03c027819ba9fb53b65d8f096ca8f1690f7;
  Add 0x378b85c4697affbfe77d0a08c9bfd728d954b1a14d298f09d207a17f0a545cfafc12144c5651b2a1085fa55531da69747ccd8d312492 0x1741875de00c7fd422291fdf5e667dbfa86180a9db2e696ce00aa1af48a1c9ae97755630895dfbb419091f75c325343d6167eff0540 0x1cc67a92e06772bc26b14425bbf3cc6e8061eb31b80bd619eae6fca30780bb12755ed520736b4912b030e272ce5ae9d6a4e8d9bc1110;
  Dbl 0x60e3be44ba88b7074a5ac304e82fc72e12c3ded72abefb35f6dc084e63385e57b1c66b815b00966260a30c5b1d3d2ddd5e022e56ba77;
  Dbl 0x446c23a7e7d64aae0ea4a75e9f136c7d34b19d69352985aab0ba61b87e0d8e955eb92cb1e5d7e3cf1d4b6a75e7a630e3496c68be404d;
  Add 0x68cb16e246941bc7aeab4733a7c8610632c3a71da2a776cf5a020b020182d7721b9e90333d7048af5cfd77d4f9b27edb24a327d20322 0x468dfaa238203fe18eb4d2939e0ab4691383ea25e23ee261d714126be2f7484def40a761dc56247c8e1ec54c138fe5bd229f179c28fd 0x46a3f8713f678bc22e0e183d2f4f76ba7811287754bc07729eda49aef5c2d57c0a4f5fd7601ea20a79b3b0a8f1d5ae55d43c5bba24ec;
  Dbl 0x1bdd7b4b716cb54765e04ea4a9b92ad383cf9afc90eb4e8c540f1dc910175fa5a0785f90895e23bdd1abd91b0fe9b6120a12a121db12;
  Add 0xaf33db4cafa71c8a331f34dccd124f622612713c44e45e52de1d3beba7ad0c6931c881167759d7366fd518ab4fb513624c4db152749 0x12d5cf8f432e1eacbf90bca0a6047003b817ff48a20d528bfc3fd590e909398fa8d8189f346c049b6fb70d2096ca0a0dac41d554fdb2 0xe0923babc36424ce17c0db2fcfd1fe0dc65d3fa323f76dacc7efada7cec840e541ba9bc3be8b000d79b131126a6e830f39b9188257b;
  Dbl 0x47a4f375b26e59e28d582756f0ea88b36093a711560dac0248a0e43d3ef8fd58e92bdf71c1f61e3f86b4162a53310e3087cbf4f02a38;
  Dbl 0x1e1dbaef3662b7788d5d464bb3e041848a0add797a95cbf31da92a14887c42f20c4bf1194a4dbbaf117bd1d7dffea0e06832a1160b77;
  Dbl 0x51182e017909b422702c9c54702303e23e8d811b68b1844e1ddf809a36c2d83954bbf3f9d2b86bd4f72d975ca9c150cb782487cb6c3f;
  Sub 0x6e152f180bae276ef8a138989ae96f711e9acbf63a5e7165ecf04bc0cea45d9f0ad41d2b046c7ab4e04f6236ae855f10f25bdf16acb4 0x58ffce2391bbc3e7f52bdfe6cecaf16d64487517537193a832e46d1d81de3c6de7047f3db579ca2ef09ce5b645138073e83831a8c293 0x2fb46f6cbf76fe14603062f3c07b8237d88fdd49fb9d51256c9b8d0f016e7fffa2f9d24179574246de83ff08b09123131f9ce059935e;
  Dbl 0xe74b4f6ea73dffe96e3f98a91ff4123bc6affc35f9cdef8161ad768946ea5ef426942fa66bf65fb8f8291614c9e57bae82459ffcb11;
  Dbl 0x191824677cc4eeab1d7ee5b8a44f3df6129b2facd5c9b9dfb08058bfd9fe838a3b6c265a9b300c30e15e32c3ae60f07a92af51e6007a;
  Dbl 0x51ef2c685601e4d236766a63e473ddc8a13b4d94d85996bf0379d7a250c2b96ec8b917b258fb3e13746b8d59a0f9b2ad72ec6fc223f9;
  Dbl 0x25a495e5e57a167ed9c48767844d4425f74d76a751df1372838e45d1dd845b66ac01acf0b0a28e01e1defd2c86030a4aeb97b238cf0f;
  Dbl 0x5b80314b2184bd3de69122122ffa90cf7a7029b0ffee03794687d18733c38ff4a9594a6ee75b5779fe7e00136a50375addff544eed7a;
  Add 0x518604f7b02b7734fd3c1150dfb34cdca6040fce050b2a690c0f2f22b7d2f267949d8db3c6db78d9a033e5b4360d6cbe561947473740 0x6afd62b28e4e1d4ea9dbd6115ee2f7990794bfd7fb39fffd50d0a8b788cb0238237f13c70878638f5247a583446017a6ec923d0f29fc 0x6f6b07a65db2ddb715ed017c22546546489f40c0204fe2a142b446e9499290ba447804000a266d9ba3899a62f41766640cd7b781b22;
  Dbl 0x34ff422d6f861a240ff8a0fb5362401b4323302583b318f6052c3c57ff5ef3cf5ac056fa5fd7aaed9d4a791da048601a2ba7507374bf;
  Sub 0x349c260715f6140a10e03adfc7168a2c19026cb68127f80516ac8f6284f00d55f44e656473328c2669e1b44e4ec2bc49b86f929ae8c3 0x44289098ea88099b43e9bbe538b3dd5c92eba47c62acde194a8a2dacedfb7c05990c247cba176a353147126d3f9bfeb9f9a613e858dd 0x42295114bca27473b1dd9023a6faf7548a501d01b3916db99fed9362ecf504a2fff4fd8f35d255a36b770b4f082fd18a059895356da8;
  Dbl 0x47fc175ae4408d6f04650b78f7afd3800657eb5f3498ac93fdf2687900db0fd99231052059f8a2c92016bf712b5330cf8e917e9d84b1;
  Dbl 0x5d9775849f25efb75a75eb6bd7e93dd43f98c0ad6969dbb7747bf0ce0b713c8d3c6556d6ca22e3f913bde48609ab2024f8e1899ac4dd;
  Dbl 0x21ea2f074675eac959c96dc58173d21772cc0a90630b3a68fbc815ca014a7e169efd499753d69bd7dd6989085ed9c8923957fbca1e8;
  Dbl 0x5a6f188a0a018305fc1cd0a96b22528bc9f41fd25d064309324650f7b76beafcf591d7b6392c19e637b52b146d3ee02e90ab7d8ebeb2;
  Sub 0x27c382421ece7142f8abdd19cdd62e1eced48f41cc0cd18bfcfaf517d8efcda607072740210ab95d409308ed585cb211bf77d06c8c58 0x5916ccd983b3e251f784a22bf29ba3f23717727a2451d23748b2352294b693819d9665e0a6d798ba924b0a75153c37358bb8a3bc058b 0x1f34f7fe04bf758e0e4eb56273d180dc3396e88ea8c94f7cf0c0ab41694a77b8d4171199418d8372c80fde6b4714ae39a99307e0e592;
  Dbl 0x8c34ab354c25096b481110d5b5247ac6117a79735b4a3900f104f9ff821ba6db9329087d09218649942b5280afcb8b6d97a61db6be6;
  Dbl 0x6c5283d67f4c5411d2c8d768c0584fbe4f32f1e1149da26d59d29132ed49c73b1d1a2b8be72f8c73a2380ddc491a1198c8e1ad34f1b9;
  Dbl 0x6eceedee73bd435271cf32ebf5f21957f34fc74d399ceda1d9bfbc959e9875c9f70243c1b7f70e62648534f12641272aed430b259fa2;
  Dbl 0xb31d8df1d77b7981706efc1f42a37568ff726f599ccab357756d069d3eff570d025eff34c84c3a5f4960d1dfc90787e2d50af8daeec;
  Dbl 0x618343ccfeb16da216b86e40595e2bd087bee0d21b4b25167ae21463a42818ce5cdb96edd0b934ea66d223dcc386f81eae367c4572e7;
  Add 0x5ed7b79640a4030ae48a34f9e44c407e7b4c679705ce90ce963c7c256cbe59f26693c82d103c47ac0f0d8383c4c9111c661445c89034 0xf0791754d92a21f1bef46c742e020be2bb8c16713c6a455ecd8a58e50e5f94a1be515c4aa35b2554da55463998431554773f9a9a93d 0x3e4e5b768530f0aeea402b90751343ff869bb0a26665520b8328ea8dd0a994492a5fd183f048535d49089b5201eabeac84a798c3e86b;
  Dbl 0x4c17a472a51e36f86d8080d6e5617ce6c4d2aa92a8dce37af8825a8856d728db5f3d77d392f1c0c2536e69ede1e06068ebe10e30647f;
  Sub 0xd8086a24b467753b5fc4761104afbbd7bcccce4a3d8deb03bfed57dba428284c9523526525502a027f59a7770ed3c2daa842747085e 0x325898a7b071b2cbc9112df3d8b30005b3652cd3819fe10ae8196dc88c7f1c1f0b92da6998e8ada5c392fc303b56ab58981db212d67e 0x683552deb34ee7ec149795cafe438a41fa080fb450948bd5b302014b2c3ada96c14e80e701bca4cc02de3c62f1953525b9884a29349;
  Dbl 0x2628e5d0307cbef10198f18aa005e862ee22a2b9567e62e2fb9b63dcff33bce17dcf1e38e4679438b6d9dc80266d2a7e1cd20995aba8;
  Add 0x739826fd7612e57096f453bb0fe23d29d054e726204333ee7842846cfa59b787060c84dbac6da89393cd261e3221877dcf4fe7010094 0x7d7d3b6b8f1046c0ea1135fd7e4605cbc830316020cda142a0489450e7b5d21e90fdf5f76545cf8d923c1f342e466c49d1fd7fb8b2a9 0x35d0ea804b99993a5d24dba5cc412422fec7dfb228ea17e8b274e6e671c22b1db6a1002a7321403db2e93836f1e57bc1b80bd219c663;
  Dbl 0x13d7d02bd32b8e80cb0f99cb27ca102433d565f331a402e18657b647b88707d1c164f75d0816e997ab66856c84084f1e23a0a59a64d4;
  Add 0x1cf2bf76b1978fcd4543f2ce11c87d7977937167e119d1da7dc42cc006e6306d70381f299baf2ee21ed8efe15f9a1083d8644eb1de05 0x57fd65f161d3613650b4c9baebb95d2ad93f476c0f390e4732218cbcd946e55945f53f9b4fef71e69839c14dff4b50b58bed76c1ff4c 0x1d5d1c26049c12c0cac00cae5f2e245265594370c4b950a30790c748a89435f0920e0e0822cf7b628ccbb4d45e158dd74cc95dc51b8a;
  Dbl 0xadf424e05cb798a05d3c844021fdf0cfaf06508791f5eef06b783492fb256cfcd11966c96b4721d8afc4b34f2ce794bd5456280e0f5;
  Add 0x7f843f6a08fa191265ed81b5c822ec1fe83c9651bc38be983302e976fbd120d0cf39da0b2c1355b413f5914567a18dc30b594da19ed6 0x32a41c1c2acb30ea1c9091ab62c741c3bc6603c2612b1516b109d99e5df3802ebe8a07c76c190d01f1d24b8adc2808e0934cbedf36e0 0x7efb8f0abe10b4599b6cd10cde4eb3fa2d548bfad175c688536d5de9ecaf4a3b13485522d903bdaa06627479a40a6529f5b9ea386845;
  Dbl 0x242df84684356d4acc111a8dbcbf566d6b5bc59f84a382795f5663e8e12a30293f00e6b02df10a82cba0f199caa8a37c506d824173ad;
  Add 0x79da1a65a2f790f563294da78ac380654578c07f162fad252d0eda4c115499d2aa5add5be4965b5fa49b244143fff38a3033ae943912 0x23e8161a8d98847fed5843afd943f6cb1eedc768fa7ee4eb46fbb4172babedc40cdcbfc4538332241748391a0b2406d8d998f15c5afb 0x6b3413d45d9ebbac3f8c089295e5d483e373245b119df1d1636fa542cfe3369939ac23dde8f20866aa3744166146979e2fee9509f288;
  Dbl 0x77648b73692ace22947917392b0c6518d3298970e624978caac36cb4161479611633b15860fd4b929925922e2d91f2e55891a8e9eb2a;
  Dbl 0x63f6b795d674c85cdcee57878d0d515d803086fd8aa79f8b2dbec57ebb784495a7c9dc2a1dd6c32309b4496d09cf65759138332bcbbe;
  Dbl 0x68bcb25362703e8d62363a3b0aaf9d692e09bdc88f6dacf6fbdc68f7288d03fdaab5ace620038b462b799283b280c9612b8fcfa2afd2;
  Add 0x53ff43ed67152d1824d6ddc006c6ccf96d12c921d8be54136739a338bf5a660934a7b7f4519a0b0f49a4030c3e7d9f224917517f42ca 0x207e33be0b9fc11593ae6a7df88e299a0e7a3ffcdaaf087d16b538404a5a456a964d44afbb0c3a525388e601b5bce7902fae8f0905d8 0x4f388159750522bacbdeb0ab89d131c956fe4fd03044063bab2f5c9aa2f89e6d2913e266e9d784c4e8d10de892d652053a399f7882e5;
  Dbl 0xae2fcfcdc2083333f6d329bc154f3efa59241f702ba1199e275b87960f335dcc3ec53f31734939fc7320e90635785097239bb727d1c;
  Add 0x14cf336be0a3132fa8f7abb441de9c79ac767caedcdb281201f59b6ae101a2011298fba185b880dffe7ce7aa72607c83c678083f42a0 0x7f8ccc12355f82cff723d0fecaace9794624edbbdaa2e2535ef2ea7dde7b752328de4cb90710e13606359eab5f182a8b47c331f9aac1 0x6f1470260fbc31d884e706907e98068ae6e3e48296929d54f6f3c791d37c7038137bc1935cbbb5b5e93da85a5cb76fae70ea559067c;
  Dbl 0x5daa7399e88fcefab694c100e5362286523c6ec88c4e5ad828f770f0768ae3ec09dd95858029b14fca0809253381046103e6eacaa515;
  Dbl 0x8b36f91d7e4dd91f80cc108655465c099845be5e05a074b8b6a234155269b689d109aa04692b64d5187369078ae0da4f26c4024a520;
  Dbl 0x7fc7767271fad6c733b6da4e11f90633fa4dd17ad07176de156c88b4f5d039e1f86ff2bbea35445387ea66b61c38800195fcc10eb91e;
  Add 0x33e62620b8d4e241e15aa3041d10b7b321120a241a1fcd48fddd442c663badbae9187ff0bbe8015bd5d111a1aa09d7e794155306006 0xc8845df0fbcf2cabb41d0baa9810e61762aafbe1c7139464c67d67cf3709abdcc8994cf15ea21de69ce9565089dc26c2ba89e99ee3b 0x6c01fcfa3975c85bc7bf44581f5bd744af6fce6af796735bd960b80fe7cc3c38416e003889c5985d2f03e043bad39a9e1804f39e6065;
  Dbl 0x12dd1ab054c314ec6a19a37e4b8fa849c9e26d8c721e0f529b7330325f1c661a274ac5f34482b7b68fa88c1ee00e54e25e8808e4822b;
  Dbl 0x6fd2eab2737d68c549e4687bebcd5c313ea1952af2a9397a8cca6ff602bc67d4ad53c8b2c79d8743357fa0087b8bd3af1081afac01de;
  Dbl 0xeaa8412ef659355c092a231750f1ae0fe9133debc313257288424b6d7a5bbc0ddec563322b3c7457af732dd0f6cc5e4c82df73bb0b;
  Dbl 0x73c3fcfc35c2861b13d766f95ff35266a9cca6df6895352f5200c4fb5574b70fce955ff637c1bbeb687f534eb8861b950c9e0c1a1d73;
  Dbl 0x3f7db6c6eaaebd6bd099958564e4dcffbd83e57d90d23d2525694e3c02c61c97c875d476da2692f213f96ac747460580baf71052741e;
  Dbl 0x593fa4b57b677d07f9d55cc3036170a13e184bc4a64dc9876486601678e7486e9649feee9e4bffc9c59c0973d844d8fd264cbfe12f83;
  Sub 0x77a901b73decbe2453d7a853d648ca0784293d0ab3f2640acd209e6745fb1fe60497a29c5a2bdf96a571e07b45fec1015393ae59b46d 0x85a8ec57a1b10dc671bbb9bef8e23e220b18a8f71ef6c58230c7ec75ed45fc42d819b77742b8db4bcc83a828bca18cc5c8fbe94965 0xbd1b8140321961522f72a06695f41fcd37dd0ff1ca6a3f42cc3e99db2cf5f570e0cc212612aded6bfd620792bd17e0c41acb877d665;
  Dbl 0x2f31cc748a357fc4d6222854bea17ea3d62021aa7b610fd54e35c02c28d40c50e9a27e3301bda51b2d1172c35caa7ee9a5ddb5dfaaf9;
  Add 0x50d06f143e925476bf02805ab1b68cdf73cff261c9f64e558e537379949ae08147a956958c9ed768eb0c6cf71c52692bce2f8ff2fa28 0x6208b08f2a7eeee1a5b94038b718bc935919fde445da8ac113406d84c74d8ed400c9df4835d18c47bb5ecfe62bfc499bfd13b8edce06 0x5d55fb58c2142a8e0bd4cb96b8a1cde3d6e282923f50ab42680a2a8e261439cb72704819fbc100af155d3e6c4a13db03925fd14baa23;
  Dbl 0xcfd594cc55d6d29b6425169c4d66787400f3faf7e5e88e43e3f0ff2e31e3c8d28114a64c972310b00f56bb2d7f88725c9a62656176d;
  Sub 0x1a16ae69373bef39098aefba777573cd8cde99357e8ee6f57db4fd3158f7af5077641f1abd5509019f4965ae33269a8bb8ce8175c72e 0x3daf6dde04b18c6ae87a49104f3b84a74fcaf06014ac2b632acc9f26c3ff65821b8665b4ca4a5f3003899bfd04e58d4296fa7d289bba 0x11e870bf6093761c907a3d7e5baefc571edb837b5dc8ccd25b15e35d2708deeed6e9e81d149449e29551a9c34d1b7391a5d20175e033;
  Dbl 0x4863dc5690703ace363e47f603444571ffa32a1367e7899acf1d60c36c9485c10f02a4b3dfbfbbb0159b422b5a2503b5c8f1b0b14311;
  Dbl 0x286b503958419766d839a3a13304af5b674d9825e6e091a1d8bffca9b1ee032b256dc9e4befb3136ce497e49e3faad20718f36c59dac;
  Dbl 0x62d74f5e04b5b0b09aec7a06a7e080b3e5a5814e24141cb468bcf51dc49efea2401540ee9aede91feedf170d887d341daaf1910e9184;
  Sub 0x5752ceee4ce9791cbb93518b3cc561ea86999dd60adbc000339fa8998070b9da3013a845b5c86fa498ccba742d0f1bb3dbb07c46a556 0x2f6561d5c5de3ffd73e7cf81f1b4e6241549e9f7d7c68cfffa4914bead93fe9350b86b2c222020a9aac93a255492ddcaae4440866c44 0x36f282fc855bb0117093483fa216364e89075bfb85f8007daea40af2906ccb3ddd5be67b8a92d1289f89beccbd770ee0b6b7f2f7ba44;
  Dbl 0x77ba7c69f4500d5fe71576811868f5b6ed119f1007ca549b593ad9c00b4f3cf5c615785f54d866d11340d1af5d0fa12e35171469df06;
  Sub 0x7d35078c7438193febdd850662b9b6c18de3aac402c3add5f30742cec3c6c2fd09a246cab1d19d3f982bcb6ce8f6465931b8ba6777ce 0x1f8b861f70a1162821eece46836c058b46df4b6cb9d7a78585cc2505228534574737dc8c057702a90ebfdd1e0f37e9abda3a34c79c09 0x70173e25b16225759e77fbfad0a712551e0a5bd8f45b01fbb10a620358900a021ca2da327a5a95a8a30fa163ebefd266d0f8610b4d1;
  Dbl 0x75a1a2a363e8eedcc79a7c34a9cb7a62998433ea42d0bdb705a5740e3a6c589527ea01977749a457f24ecd439dd1619d23f31e555e6c;
  Dbl 0x51d80bde4d6644e2e3f6db9cbf51c4da7f575129db37785efe27c58134e59dde853d55c128570504821e0b196adcd305a9ee02c56719;
  Dbl 0x52d85e7298cfdc9e3bb0a330c43362979020b8196474051a748cd4a03e2408943008844e4836ea179bd191d05b7a425d4b728e26fe76;
  Dbl 0x3058e8de971d70d052125c0f2eaf190aaac0abd4250be4009ff5812fa084ba2de1e42e91b0631f7e28f3011b2818775afb91630d00ce;
  Sub 0x4562147c86409d5ed8dc6d8d5d7d75a2ef7ddc2450205f583bae53c81159856780c28b430d2599ab586b67fd15a00d018c2330b22ca9 0x2a43f96b271efdac5b573d067b3633e011f7686fce25d174d0850328392a414d2df90fb8341b127e56ea0cb1444567c0c607aab9bb12 0xf9791eea52d733007aa0343c039339eb67cabe9eda54ef0c87e01aa2eff74291de46f24a69ba2e2238c7423cc683b116a5059a958db;
  Dbl 0x7e1687c1d1a81f33f4fd88f0352a75ad114909fdbdb8327cac3e1b51b656ff99ba99de85324907c84a0974b5e44401dfd6a03fa196b7;
  Dbl 0x77a7a5f337e42e8c7e5d82c7c55f489299d354131bfb6e8a230b3667b2fc32351acfe5b2de265afd192084c0b8148b57cc8070b6aa3d;
  Dbl 0x407f9eb974fbb06ebcb62650788fb51547f5f97361a049c025f174426ab3a1e47908694733c25bc94a3b7a4e70681f3a5ead82f6b6b4;
  Dbl 0x58dc73baf4b41250c9f387ba464e0e9c957837f0e64252415280c9b23f9b2f899a7a2e4baee5072d1e0992367234e897925bf22695b9;
  Dbl 0x58c52f739c2e3ddbc5b38b764e352779299ea5454fb3d2e512fe1bfc747c98d3e3bfb1d3e9676844c2cd01e5ca0b511c92702e26c22a;
  Dbl 0x2bc9f8499b9e7e77a897e2feaad798272f92c2502e1efa898f540ddd8ee916cda26b58b4ada2e7d04066fbbf29a9630979487ab2cdee;
  Add 0x1b7c90db0699f8d80777a1731619e5f5aacf3bbab08eb2ed5d8a789f752c08119d15d8d3cbb435709a71774f98c273212617f6e7196b 0x2e795c7572be3c1e4ee3d8f50d6cce129c64ae0d13b6c92d7c27e7140aa18f16abfcd968aa5aa8987a565d916153e73bef2c88bb83aa 0x72a7c42859d9ce6bea4bf1a44cdf51b58027fee602577ed2bffd4151d626af01ab04fbf8fe8ee9d979b2d177009dfa9a0f7a95de8ac9;
  Dbl 0x704cc32eba01581cd8cfa7369bbc520791651eb9ce997ac7075331c9cbdac2dc5bca66e834f5dfb12b732639af73b75b0c2db6be2108;
  Dbl 0x181dce8b7dac1305f7caaf158da31ef6d2b9da5d64506db317baf051e5b11e9b52bb1cad4e10647caf0b496dbcc81836d5445e4d6011;
  Sub 0x46105bb6db50a4b9820d42c20b6692aedaaa73918a079745a61413b0115e903ecbeacb7e737f881801d11d0bbbfcfb5906cb3c10ce9c 0x68161b91b7659d172804dda80aee5087d22abd6f67a0adbd52d119d496d66a2f94eab276ffad602734d54b6ccb8def1ad8a8c1ad60c7 0x50c8f5aa97300227e387338b26ca2cec60e6c84506de7382deb95648b21d8aeeb23b828bbd7bee83dbe22659beb9d88ec7359971dc92;
  Dbl 0x28a559e12b09f713452a88206f5993d9348c22e678342ae120414438b470454590f1302e13eabb721875fafd2cea122b2ef7d7504617;
  Sub 0x2c6f1690aaa401da11d023226036dab2ee45737bdf09ec1f6a8e584646e57e51a72336b110400ccb0c500bc4c5a3093a2a2eea9f4a01 0x4b7920de80cffbcddae46e79f426edf4f47bb6ec5b3b55cd33dd99a08bf8e090bb5036fdd18d700849ea40894498d2ffbfd46e498312 0x2e0951402db32114550c15ae77f0dca015ce83fec524c28c1eede59a8bc7e56816e7cc03e4365e3759403193a0ee69fc4d71e309b26b;
  Dbl 0x5c22d91630dfc380ea414d2b8f1fc22758b0b6925ec466206b2e803a84e96233fef21d94288f931e8fcbdb009fba31659597b37eaa37;
  Dbl 0x31694487a11c926ee7c4985dfb7c35c1adbc05cea2763abf9d7483d9df544d354e89b70a9e306048e3c92efe9f907f8ed2a559334b99;
  Add 0x734e668a4fe1f2925d31f497cb3c3398bd390054dfdeb77941ecaa6925d5d5056576afd2767ddb2fd952f5d9e6a6da0bcb20170a7d01 0x3f05c13fa5c5733038b2fb8ac7a90f65619b1235ad2352244069f2f7b36301b3d585e02f5368cb3d7c2842030335a30300e9e4cd8ec0 0x4dc53fe987e45a7a525beab536d1fdb5ed56916a19053f8f4feb1a182039edfaede8cf542e1fd80c008dc6d7195b85fef9a20cf2d6c6;
  Dbl 0x3b768e648551ab7b3666f2bee5a2cb643ed507a39a9e22f52a52cd7290665bdac788eb46494e14c4bb4f2b4822c5cc31d4ad112ea549;
  Dbl 0x5e8e335e39e0a79b4b67b4dc867b4c29128ffd90333b4f21ff8c7603fefca8e6543681102ab63c70dcd4d4b7af8606b6296968f7ecbd;
  Dbl 0x2f2bdba28ca8f79ebc474c8a0ae67494364a04e214b39db5e89b1c9f429659eddbfadbd2cea528e5889263777e5e053d4a142321d845;
  Add 0xc9e8e674e34d04bb1354f4976d07e0958d199b38454f3241c03925bef6fb0af1f44141b504b1742a6139513ce19d96765bf99af3451 0x5892bc57fad3f32b280b79ac7cca8f0192de0f31ab0aac1df14a5b586f79a1589434f066fa9c3e37d2cc5936fe617f6df7d383871d8c 0x523db840ff90e092593bcdfc7c42ae21ce7f06381b716384dd55a3a541caf907690f197058d8c6756643eac873cd94a66dbbcfb42eea;
  Dbl 0x9bfae882eaf47c09dc37cb91f4394d722d037f1b7d2d4cec39b52dde4d85662ffc52562c49b38fb40036293424ae95579562c557b12;
  Sub 0x2b6b90c9d130cc4df0da3570e43da8a5fbff1f9e02404c12bcec918234d85573162ad9fd26a338f0670060dd8d905a7c73d2d375620e 0x4abe5a4bc9294193e6217c36bf49e7237186b50cd74a4ae00721cf7270b59d21e19102eda93901302034b020535c8f027d5c15fc5f2d 0x2874029618ee51de11f55910bd2b1c5a68df703b9b231f9382b35c361b8345a716c2f8b09ca418825a573c3e92bb64dc5edfc1232de6;
  Dbl 0x400357e698f264b30e91ff595d85fd461f2d7b96974e8623347d649fbb2af48ca05bc44266cd1b97821ca6dd77ab4e7ab4e7907e21d1;
  Dbl 0x3b0e624f7ff71c2e39588e1bef77532aed14d008415e20a70bf949d74f10c2db36708848c4d98ac0271edcd04cc297eb18365f647fa2;
  Add 0x461cdfdd7a183c0eb4e5188a20fca7aee5d1c8d37341b2a353e35b04ec209fa93f96d562aa9a6c81274cb0e1f223d01e12b4c4147bd3 0x5659d3645abf528db9c88eb879578f54bc6e4f114638e7f4082008e6814ba52e9e06b361964e83e3e22b0988c8237604829194b7bb0b 0x1d17f8c39e1a3ba381e4898d67b40d5150a921361fd7c99a808ff3831bb7649da49115937e1d2d50c2bf3cbf5b3590cfd88bd2b88f7f;
  Dbl 0x1bc73f225f228fca493d29ef247a3301e8681e3be701e0378803eb996b26452e10892783b2cd9ccf5ea6a33e5c1a72578ff9e61fe7b0;
  Dbl 0x1e7ce206e94e0f55dd19e35e6d6c935998dd5e6508d13167f6d0592f26d320ce99c1600a5fb3ff25dc39f7820ec271cbbffe53fd2fcf;
  Dbl 0x46307d114fd88555311f7ae6c0c5015eb0eae80ddae33b02244d6fc538fa72eb146aadfeed6f5bf6bd919077460fd8b7a65661f6e7db;
  Sub 0xcdf45713e1342fea73356ad00cad686a69af8e16d85863bed511701a689e540349fe67cd7663af1131b9a1c70a106e80b33a15ff619 0x3af59afcd7a7d05ba7f2e8049c8df849fb1fb262d529cb7721816dd596731a1afaa37fcbe4c65ba56f32f2887cc9bfe6400db969db3f 0x44930d025a5d199d43261a91f9146fa3d2e36f3b8f0c070f6f7d118dcd11afcdcf9e3468d4a30ab46b64250f371348380c43b7e9612e;
  Dbl 0x1c87d7fb4931a3a7d82cfc70459e727126ab601635def087c466fbb2ed112522450efd2e27dd9f28b61f800aeb53c977b2694b9f7e89;
  Add 0x64ef4425804980ea8ed01fe2af04d0dafb0532e5437fcde7d0f29373a8ebade7968d5594f098614de9fea21c0e4ad00cdb2351e4e032 0x483ca2a700d2c6e12689b68cdeffa73841ddd33dd095c79aeca3b3218d9242bd2565b4a03fb7e0351a899d258e52af55e43d6ae7c2e6 0x624bf6af8e0a83c731448c86f6ccd33f57a56d392894064e4e730993122efbd9f97ad9c48a2c438a54b10050e3aa76bf1d77ba4704fd;
  Dbl 0x2db44e4f066c96cd551c81ddd781764933641acf979bbf61eae6f5950f896346eb8e8d7fc7c109e1331a80f2d1c5122e2a429e9aa0e4;
  Add 0x6889830f5bcc190bb237c1ba9f1eee0b6a9804b4e554aa51996686674d33555955655d51013c969e77b949f383b4ab93f81e334749b2 0x67713cc36f772c90098c8efbf41595e2bc5fde6fc21db492235fbf167a853c16055e7197802f804c508d92b3ab54118d56f0d9b65728 0x2b039b87ec113d13b5fa05d0709f4772d2e9b8cfa20470e1ca21d644c901b02b358646f9437abbb111f75c0372e69b66ff97164281f0;
  Dbl 0x2cef6b685e43f446fb16b3c38cb094a943bcbd5a0efde99c1e4f62c3a2f409b3e24a9261e5f202682472cf4a8041aee168c50f243080;
  Dbl 0x55d05f5c82c586a9c4d7eff5ddb5c2dbde4a9b7730b014ba4df8d059c6aec1972d51690b5416a7e55b0b91e391844ba5a45ddeca4049;
  Add 0x475bc314654e82c03c34a7577f72940bd7d96ecbce13b3df0383d4d781183cf6e19acba19c20359f95b63c81edbd7686c40544fe4cf9 0xc9514fe6b3c71e11bbcedf0c349dcbb68fd52d6fcf9f76331365207d5609d57bc5838dc5d7ee5c63ad53f636d4115b826a80be740aa 0x2a25822565cbd0cb5b28f88269d196270986d48d449a8725e950ed4b5465a0a9429eb4b7a0ebc7067961570af8c3eb4baabbd99ed7d4;
  Dbl 0x18a65122ec771e91913268d37773bad38b995a220bb8c4a903e800870730ebabc20e4833e131d9d1270b1dab0ddc8f220efc45b6f0b8;
  Add 0x701019235bb54d5e4f953e4765d210cf55a87d5eab584c82d3f6344113b02b06fd9b8e37cab6cc69be9e31357d9b99570f79258e8b7f 0x42ef8cf638dca4261e07b1313ea496e22c7e0143fe991e399d1b4ca22adee69ec5694448aaae97aedc9632738f1634b4877c07abd9a1 0x44794bd6a171f643ffb0250fff8f227f4f5e08a84fcd43c8c9b726092261efd3aab9d5f29650cda79f220b74f829c8aefbbadcc44911;
  Dbl 0x31f907cc51448735b889301f96ae1014ad5675757d66e4ec17f9188d704bd2967cd3d1b00a9bd1758226e2cf567470f9b4d96164e747;
  Add 0xde9627ace7317ed83bad5638894ea971d75be8919719ee93ea9175ebdde5902d671d2b4e1eedb20e545260817a2baff641e71f0334a 0x4bcca0e0848f024e15706ae45f486bac67cd633f9bd34a44400daf327a828b4aa1430a745ba857673aa33ee0fc73534143321f04ec8c 0xca6b35c24b116adafe8d8f76d31d8333f0d8cf37288e4dda740824acac1066b4e9de132e36381b4ecce555746985a59dcda1ff69fd8;
  Dbl 0x4c415b7af46feeb5c3a43dca089803019043eec3c28f64a2acdd8efb9a1b13d7c9b5ade3471a0a6e511090fb28f8c2fb78cab7fca75e;
  Dbl 0x77a243029ba47f71a90b834b3fa2003e799392d37f133e8d8479c5d7d98973efffe35f3f3df51cc99abcdf8f97f10a934d1ee045529b;
  Dbl 0x3827240b82038b6f5e5ad5000ef944622bd545688bdf266edb46e23bd886cc459a3900c3b28f01c8871e64dbaeac7c350b349bbafecf;
  Add 0x6f943fb433fefe6ad92435075c2afb26ad8894166ff03e68206248145a8367fb328412d5d8a4750c832f68aa414f130032bf663790b1 0x22b12176597dbf7feef9ff502e04587bd9570715db723b52d2d68b1776770e32793308b4b2e359d8c3e21be32143b7c5fd0e8d499a7 0x7a5f015df8ba01cccaf54dafdbc9dd29ccc39346fc268a7720e1e0a33b77d0000d15e373791622b83689ac46d06e2b561a1e92be57d8;
  Dbl 0x55499f9fd3ea637a4501c0555a32d62d4d6216858328378513e6a2b779f9549e3c569d6505fbc66b915a147dade94de82fa2cdf74d3b;
  Dbl 0x216a9a5693c21c6dd3a5060cc930660113040c5833a2af5a58f1c0301b2f19275adc55f183acd02b7dc4eb028faeda1acd9be0fd8b2c;
  Dbl 0x1a222903a27d1dc95a829cae5de9b2bc3d5838379568dccc87b9441deb42ab04b3f4bf3a85031a9614596082f13438345658c7465829;
  Add 0x51c67985609e39328b11f0c772776e71720a3091feffd9432ba669acb215772426a0d8e0a571bee2660e15cbb8aee96ecd316215860 0x39e7547231c2aaca1116c6eea1f0422f6ed23d81d9d680a61af2c84195e4dd9d717789941aa2292ac51a93114f52b74f37163d5ede49 0x1a61ddc63c72d14b62b92177e427784f02ab45c7c03ab4e7c5b04420f1dd9842eb8cc46a4bc93326ae6c43980d00bb3cf5c8121b1634;
  Dbl 0x6c69dee2d3eb505f87333911c51eb7902c8037cd0afd0307a419ef911a59eb56a72b14a6a05deca47c1169e43b6ce526181b9dc2a6cf;
  Dbl 0x50ec3ea2fc8a19647127a2a9bd70e40a91cc5a9fd0cd117d7560228f69a49c573140ffbcaa5986351c87989c809347018d0e8d72d5d6;
  Dbl 0x6ae6ce4ef2a5ab982e3ebb92d480d93f6859329e4a056c58b9a72c3f257abb2c2e984833d76bb17f94457df574e118b1c9058c1614b7;
  Dbl 0x56e9dd4cca95c46dae25b93b4754a7f6c17f11b98ef954e5f79543efe651645680d57cb58df4c2c4134961c2f2a0833d7d2722c4a134;
  Dbl 0x4211bced2632c5d11d228c47316263bea02a5e639d0426ef77f23588e9f308239fd3c73ce0368adbfadd8f6cc332b98d124493c13048;
  Add 0x5d8e3148b91b89ca4549d758f0a723c6f2f1b68649127b39cc6c9108bc151d289c844f60bad32d815640d163ad292b31c9fa2ed7fbbd 0x1f0da4f482130c36835c9e69479bbc6c373e660519f143f7769e7675c5cc1610e0bb24e540b960095655cc92f08441d9a69d4b570f87 0x45174b3b69ed08c4a3d0a28d7adc0f19a447101d2b87edfcda2399b76394645ebe1d75bbaaf0c10adb4f997b5b10bca17479ebb3adf0;
  Dbl 0x39689330e0e3ffa508fdda24b2fdf41a97d15ef3825902392de7be6ca8abe3b27c72f73e3ba9b9446977a4ec0757bc2950c669751dbd;
  Add 0x4035b3c0d9ec2f13b462c8988b38df259701b63583fe1695453d3d426e028aa86ba572cfe8597409fa96ac1e379d0fffa93ad9c6d8b9 0x172026b9b7f52efe2658d5799927ef2f53de6a3dd32cfdb3d930e52be4156c6b21e904289354f02e767771c3d3d1bc510b5285eaed04 0x4ea46efb78ee32ce8439c8727fa2df1f364b92785ca1bab0aec53ed5ae54b48072d3d0d522dd37886c010561f517f1800304c55f9996;
  Dbl 0x2b76e09355b8e4ade90c14793b5c54eb576458e86ff6c736d3d73c58f45f225955060c9b41e22a5b74f49aaa15df1316f5c74c6853d7;
  Dbl 0x1361c9124aef48ade3c815e3d51e9687834dd539e63c8c720f54a247d02d29ca821098cff84b54708bc129577f64e32813dac5535cb1;
  Dbl 0x184add961c7b3d783160ed1ef67b5843e28cfbf56ff42d8d0cae7d319b24cc2f15ef9c1496753ee224a7f8c98de677f66bbc54c740e6;
  Dbl 0x37f9acdd81eb49bed9e194697828e4a33dc8835df23c27c8f4142382b23bfca80b01a3524e3d1ef38f86133d06da1b7bf356fc5b3805;
  Dbl 0x48fdf398bf2159db42f9f667644c1f5f110e8cf966cad3abb51ccf56368a86a7f82a586fa1ffd8e15104a8e78a1f8982219d20c856e4;
  Add 0x20b15d07ce4eaad885d18ee7868d14775287f225322d38fee21786b548690e39f0241ce3bd2b8a516a5e2c45e5351a3ae5bbe35b9201 0x6efb6ac2d64b1e6606573b1d6d492339b446239401ba00b4b4e47264c776fb5ad48b49deac9d1df3ced7db03ac6ba47b400afcaa1e27 0x7a2936ea2714a38a90b5529a0d6d8da6f7d1587a919360a516b872db312311d602f6e28ceff5643edc94c6125d97145b95d49f004d0e;
  Dbl 0x5b20328edb803d5fe5ea158e66620a90fba2e56d93bb0686cec96148e95fda0bf9872e19b8e66bea2451ce1587cfefb39327d1c31589;
  Add 0x1268197e6e1249d65e5c74d50a4818c9d80bb6a532b0c79e56db9b6c9cb993c0c6fd821ca68eb4f25efae3295452bfe69427d37fd3ec 0x1d2194338582aa653af6b9ed8ea0cd881ac7e7d1a0a6a05f1af0663f8cb5b99dca823809b987e05d3dfffe7a134e6336b046be9802bc 0x296f2f52a6662defa3e3a9c2b0c8796e57c19300e51991a2ebd752e7e3cd5618ad42838fbc97ab9f828b387c17f8d48cb9e91fec14cc;
  Dbl 0x34cedf9501c38ef8feffcad21f989731c0a37addfff8e39076c95036858ac7e9fe5400645b21a32d585f71af2fe975585b0c6e8b7856;
  Sub 0xfc29e53d7ae4b07cee6c725d57b489613983a5301de7ab1b3ca4595cbb92c4de5ecdf9abdd9651a02dace90066fe51f45c39ac1bbf1 0x4f6fc3bc9d9d5762aa9d2a47daafdccee1d9c9ce6a333a1942d4c2bc4413a52e72355b00f425f000266fa6184c98f9af1554df45b5d3 0x1409c4285df532f7c928d1e0f226560030e8e87c6789d4d7df930aa2207ed6d376779e455ea02076580be49880865d423182da07b34c;
  Dbl 0x2dd1ee9dde9d7aeba7a9c63bf34287e8566e58026f33a4a6c7174e6fa351a6389a96f92343b4793d67b57c7054618fd2f08614220be4;
  Add 0x18879a48273c794658c42569c53bd9ef187c8c3f68e4ed096481eaf7d2bd90dd7dd37d0aad4e58cbbe1670ca075064482a95ac09e67e 0x327907f3b8c92fb875738a184934556e312da6f4750d7a072883f35bdac9539ec1740150c622b56230f0b1ed1f70f887b8927b49f01d 0x19ec172c85ae88020d0888be3993839d53681f1a1445481ac8edea91b1ad63db7008c04d2060603ac94af4cddd7135aaac475f90b109;
  Dbl 0x33762a710d97e670595559904a13cb8018455bf74f8dfb1c0f4fadd6b4d42256b5f31a66cd2f028893fd3362e1d1facd245792dbba12;
  Dbl 0x7c7d2c5d0bb74a175f0344eabafe5cf482b07d5b85829c731103337b260826ebc9352a04008b79f06f742b8ad2e5684a7cb4b362781e;
  Dbl 0x7406fa40231c02f176a1b44ccb96fd841435ec96b48b534d69584532a408dda779cd47c541b1db6b4f0353d93886d98c3b56e3f8e107;
  Dbl 0x2250c8cadf61bbb06e4752773aebf7164e6eaa13ef3a75fa9af8cf0ae128afbbfff6338c466edfefcb3b298336f2cbeccef3c2f2817f].
Lemma order431 : order_check 431 0x2b 1 108 (ofN 0x56) 0x1a62ba79d98133a16bbae7ed9a8e03c32e0824d57aef72f88986874e5aae49c27bed49a2a95058068426c2171e99fd3b43c5947c857d 0x70b5e1e14031c1f70bbefe96bdde66f451754b4ca5f48da241f331aa396b8d1839a855c1769b1ea14ba53308b5e2723724e090e02db9 0x2250c8cadf61bbb06e4752773aebf7164e6eaa13ef3a75fa9af8cf0ae128afbbfff6338c466edfefcb3b298336f2cbeccef3c2f2817f cert431 0x3fffffffffffffffffffffffffffffffffffffffffffffffffffffba3175458009a8c0a724f02f81aa8a1fcbaf80d90c7a95110504cf = true.
Proof. vm_compute. reflexivity. Qed.
