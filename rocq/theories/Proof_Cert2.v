(** Generated: slopes for the multiples of the base points; checked by [order_check]. *)
From Verif Require Import Base Proof_Hex Proof_Order.
Definition cert233 : list cstep :=
 [Dbl 0xf41bd6ae2ced969e4b699c836984f3010fc82f58cb0f7b494fdaafdb5b;
  Dbl 0x16c2a42335d0c98d4651a4215c4d0a8c41e1fa8d1e0cdce662666e38f85;
  Dbl 0x720f476f15132038fa9a1406fbfd6d78efe0489aeb896b4ddad1611e2;
  Dbl 0xe739b49a5d2d108e40af2a6928c47f02fc1694054ec38aa9a8aa4967e3;
  Dbl 0xc725e803b40a5a8c0e125fbf9f803d3552b4e0cfc393091ccd6ff3160f;
  Dbl 0x240b288c3edad0d1dfa2dd8593d1788adb8983464be9fd569d0a356ac;
  Dbl 0x14ca0e60ec6c1855bf5b6eda30ec91276cd7e8074799c022dc7ec00378;
  Dbl 0x175d8a0a951d08a0c77fda5408cb0c2ad262d61c7c7d9ab64a83d484393;
  Dbl 0x9e4e061eb2a9866f4cb49378a5a3552db266982e808b8a5d2294c14f1a;
  Dbl 0xd8ac06e5191e6dafc47fa20b19a79ab7506b6317ec8c52a466b0cc73d1;
  Dbl 0x1c1cc2ecbbf83c068745955c51138c8e7388c1a732c7b6092ea4a509c81;
  Dbl 0xa7607d84a00c88e8ac6e4a39a87d838c0dce6a90d33ecb3b5e4e5cac15;
  Dbl 0xdbe0af251aff5564eb31e83e4f8d050b24622abf4354da381cea20de79;
  Dbl 0x19612d192327d507bf15c218ad5ed8b867a8f2e9a2cb61fa6ba2ec4c911;
  Dbl 0x85a9897ae23cf3ac3ae50529528bec09e333206c4f7892e1df1fd3aee5;
  Dbl 0x19e13b88a59a6c09a4875556d3a8031767e07f15785df70102c2fce9781;
  Dbl 0x1a0fbe1167c39f1bbfcffcf67cf5b7aa09f055797f35e5137d5ae7d94e0;
  Dbl 0x632bd56e997feafd0ef00419a44dd53a7617f79f5c37165212bff4e0;
  Dbl 0x284d81596453273745c5ed933c4c0b49cd4cea2411660564c5fb4dbd79;
  Dbl 0x1a9097cdd4c9913d4d685dc88e2074dc0901cfd49fb82c7b3b596c2eef7;
  Dbl 0x1cbab34abfff2d764423d892111353b8b6a5c39507f9aee05d9b9e2d4cd;
  Dbl 0x79b45106e84df877b41289539135319f9eb71323301034111874a8a415;
  Dbl 0x450575afcf6b03365060303b1531097b6e770e24aa9b12b14c6a1ed11;
  Dbl 0x1feba178c4b2fb2bb30394213254594349b576cbc713de7f2541107d805;
  Dbl 0x1ac14415bd9c848f140649e5567b7e98da2e8d0af26d4697cadd069186f;
  Dbl 0x149cb1604bbcb578c37c76bb19342d6163d38f1ba68ab40d0f0f7b6fe7f;
  Dbl 0x124d5d6155e24632cea5c74dcfcba7d7584198ce07e63596b522f042542;
  Dbl 0x180277f78f4521695fd82870aa7de3485fd18e6d5d7762829af9bc27878;
  Dbl 0x1bd70426ec095d830eb0ea61e8eb2db7f2bfc29f7ddad3d51e8b9220ec6;
  Dbl 0x1bd43ad1a0b0b8d795206d512b2321c12b0d35c59555e316864298827de;
  Dbl 0xe503f9b842a7d08aabcfbd564ffaad4293c4b415b07eb4bcd5804a966b;
  Dbl 0x6f9078543a85ae75b769c36fe56103fa393455faf94da3e6a6063082fe;
  Dbl 0x13aeb524012474b8b61f67475babbd8f9598a6aad6ff4e008cbce400af3;
  Dbl 0x1fdcb38ce6da67a6f20118dc67dbabc2b72e2f5d87e75858d17904e43e4;
  Dbl 0xe496e3a0f95dd87fb24d1801e78fc2bf0889da4b0a3a50e0cea7e4c54c;
  Dbl 0x465ef07919e061be8d9fb50086cbf56736ce288e5973acc05b556bc3c7;
  Dbl 0x1bdf3979e2f2e67cfbf02f44689281796dde02d5e17389b12378948603;
  Dbl 0x8ae7504730a8cd771c97e9b49ae523265f95dcc84ac54831ebc457e6e3;
  Dbl 0x9fe531b568f26ce003c71d28a979dd467e1af0c1222cf60ff4c7bd4dfe;
  Dbl 0x1bf4a8608cc09463c16ec00578d632414870bebc88686084c86584c6442;
  Dbl 0x17ca66d99f7b595f54251f2aeb5bd8a1ab8d72d0b64caf8a205b3d0bb80;
  Dbl 0x1bd89c8607f253eb2d463e071b2e70a9b725ac9b555928d0b40b619ec7c;
  Dbl 0xf2448a4f3c3137e3f46a9b9f77786873fdea3aa2cbb1c70f7dd395cae2;
  Dbl 0x12c15b14ecf46542798b9e2124130797b21f1844da52d8446f950c54c21;
  Dbl 0xfe81a417f421492f6fc41cf961da8f46451775e385f25eeb4e5df16eff;
  Dbl 0xbbe41a59a1271b7d15a04bc28c45548e8a9457aa46f0844cf759b692dd;
  Dbl 0x1d1f8fac9382a7b4c82aa0db86139475d7548ccc4a5a050226a27c4b56a;
  Dbl 0x14ab30f6a2b3ccd7a489c41068ff483a8fab50d1d34700a787a77c7a309;
  Dbl 0x1d364461210c6f726ff7677ce546d039cc65331cfc146da89a8693dcf75;
  Dbl 0x6cad744a81b453d77429a7660093c5e9952caf5fbe9469502c467b2866;
  Dbl 0x190d9c09be98875cb5403dfd021364ad1fa2da1ed964c5ad2ffa1cb5000;
  Dbl 0xe96b36308df64ed4af8ab3152fb69782218bdfcad37f9edc95eebb02ca;
  Dbl 0x1d06b623b0bf90840c143307d49010cc680c477697dfc41d2f65f661771;
  Dbl 0x1fba87213d4a248638eae012fcf1f6aeaff717d8a03fb3114910bccfbb1;
  Dbl 0x1c2257174a9fffb78b28f39e9c0a6b5ce7db99bb3df1f9dab3f3531e26b;
  Dbl 0x8671e604c7f12c603cc5714810b01b894ef41500391f75949db9c4499;
  Dbl 0x1138bf0e1673b48e636869b171a938a6846efd161ec22a54d9192e01768;
  Dbl 0x11b07199867837a3419a66f35779ebdfc5192fee3cb88b7e6408f114214;
  Dbl 0x1e1b9b307fcbf834dc8529b3ea741d7a021d811fce15931337afdd34e3b;
  Dbl 0x77599eb02567dda646edda94165f1d8b658c00e1907e2924787147c417;
  Dbl 0x197465f6afdc30f4f769b2220ddde6d03ddacc12b78e98d6b55d62aefdc;
  Dbl 0xa53a87debb9668ca7de702cf91aa0fc0b4da724614f3246e8524393d0e;
  Dbl 0x1900949a91ad791775401260cecf96caec29b7290d9b0f7c4dba3537b77;
  Dbl 0xd151de3087ba8fa9028bc9c8dded6d613ee9af66b38770b496391079d9;
  Dbl 0x10122f52fb3b76da5b4872fe71dcc4efb481ac3c7c7ce955979205219ef;
  Dbl 0xaa2c8ded97999e95a587329f050342402f5685e7fbf1d0b1f2f04e1df0;
  Dbl 0x1549352a3d000b518b20bf610d5c30b1e7f67b02caef31ff7e210649799;
  Dbl 0x1bdc363336244b15b112c7b23e0f98e43413ead2604ae4529740108a3f2;
  Dbl 0x1cf68b1e3a969d9017f86284d7104408566ea289b67d12c2d188224e143;
  Dbl 0x125409ac46499226ce01dcd136eacf58328791e551817a2959655588d12;
  Dbl 0x173316d269db83c8b70160729c0e1604157d6ac9a3a5ffddf483d369142;
  Dbl 0x10fae67fe72a40517a62fb844ee4645bdf113448312dc18bdcd459d6d84;
  Dbl 0x1beef5077a6cf66e9374eb9364d57b2474226c17e9a0dfeb43d7847dc0;
  Dbl 0xdda9200bee2737a7d1f2c1eaf8a9a0a93baba9f5957d1e08eea2c48d4c;
  Dbl 0x1a63ee4406e30892792f5942595c15b3fe0643518c1e4505f97d1dd1f59;
  Dbl 0xe6c171d12a3b9d37aecdd62ad7b8e7495be2d8ab1998831121937daf94;
  Dbl 0x59bc28a0d8cf82a383ec12a34bb9aaa86e8a2e242818071172237f1e19;
  Dbl 0x131b1599b0ded1785ec72c006535afe4548d6203585d23ea4a9a023ee2e;
  Dbl 0x154134c2c79f0a518266dd727e24324af3fe137a360e6c4f69ae7acb102;
  Dbl 0x1ee05aa78e7190f9b9d76530a17ba155f72a36c59976a260e16411336ce;
  Dbl 0x75cc6b79d4d53f1b87c11ebbaf5eaed53ace75c511c1b45de8cb9d2ee;
  Dbl 0x157a9cdaf00ff1549279bf137ded40bda52ae612caaa52e008c3de9719b;
  Dbl 0xa14205325aafedb7982c6bf1c13c87f78f70317703e37833d846877033;
  Dbl 0xab28fa7bc83e2c764106c9d30eb2d3178f5727bb0f1df92770de0147d3;
  Dbl 0x1c6242004bb1b573e49ed4fc2b5976daf0f88e76bbb1103f65162962e0a;
  Dbl 0x1b35dc9412562377155262aa347d7e561b8a23afe34763a86a09a33b073;
  Dbl 0x33faf97b2ef79cac5c7f605f6514977370ba5e881c0ef7858b962de74f;
  Dbl 0x5b609fe6da2c415d574b588b8108c31e1ceb120ce29e2bfd849033d434;
  Dbl 0x9fa9693cb903138652c151247096e6836fee450a4accfd82b609114ab0;
  Dbl 0x1c9f792842b95d9272d2b900b3b53bd0e76c6edc1efb8f1e214f3371b18;
  Dbl 0x1af9cd69ab8b7a92521cccd51503266c7d3ddda32c563ac2ed5eff0e9ba;
  Dbl 0xf75b824e20989cb1ce46b05aaf3f79e60e5cc0ddf8d817a7c5846f74d4;
  Dbl 0xfd890cd46633c475c94871ed935c8bbba61ea2a3ad1ddaa42768d207f2;
  Dbl 0x12330b1de2a1f78c6cd3ab54c11faa9b5ca77a12aefc42a4618b91c09ac;
  Dbl 0x1ad2496b7e85614ccac3227f6bbd32565543567cbd7f6c610bca50280b0;
  Dbl 0x12ad353bf244bd341fc594f45f43c5c582b27b649ab1a15378873479750;
  Dbl 0x9e11525241b31352821762e624b465fc08ef3df5bcad0badbd32f9db39;
  Dbl 0x1a71282b93d54143c8bbf284fa48cc738693d49478c53e87ba13dfcea5e;
  Dbl 0xeabb83b5617b89a94659c62709eb6ba4303e4a095826d5e2f4f03b13dd;
  Dbl 0x1260dcce370c2e4fbdc85941f84483f6a806b378d7ef8ee76e6e72d7f80;
  Dbl 0xc540017f631d79f588ef5904feaaad2d9dd01bf89a9774c8e399ab4394;
  Dbl 0x1e774b6854edea506b52b4b7abcba3589ad474034c748c1f5fbea0f53d3;
  Dbl 0xf5a26d89a86b5e58e116f9ef46dbf69d1d77f3ca9618ad48c8aeae2791;
  Dbl 0x11d8166cbad9c245218672bc9b0cf4383e417fa9942cdd51277394e9fce;
  Dbl 0xc91f77885013c60fbda0b7007a4df777476ed41914843d917ac6ecb8ed;
  Dbl 0x151f0434f9c16244b7097aa4e44c5bf34a0d761f92e7c34b22f63b7a305;
  Dbl 0x49761b5258fdd4964a3beac88f5408ee702e1ff9787c6a318a7d683fbf;
  Dbl 0xcb048867c79afcd599a814b6922332eb28dc7f9ea864b166668e6449be;
  Dbl 0xd745cfd7d86a85aef1ca07536a37e0e71129634e67cf5bcce6bb9a7efe;
  Dbl 0x487705de9fba0fe9019ccf286feb5d5c958e78494e490e16205676a598;
  Dbl 0x4fa008d5a7b66cc485c46d3e4c7d20fadc07da1c20d0ef73c6e29e4403;
  Dbl 0x141132de1e4b63d09f8ace5a3eb39d01a96aa0f28a314a478d347ec9c74;
  Dbl 0x41944b9652e238fbd5998238285f8d98d96ef32967acfcf23bf3381202;
  Dbl 0x14259952bdf4c129447d22e84e25b21c895a5938153069de86593774b0b;
  Dbl 0x13e6f2a8f9eff780ffcf433839d3c9a8d523fa5a8dbfa4e1614e7cb5acb;
  Add 0x20da3d0ea290ed2fe74fd17e170ce650f57cebfeea3b208868d27c6ee3 0xa05f228aaaa1552f453b4ad0800954be2a7956a5685d73f4c1f88d3c2a 0x95e47f4e58c1d9d201fc4eacf42c2ad283a7397ea84e2e8dfeaf6c9e48;
  Dbl 0xb68a19856daba4a6186f2062437813e0cb4bbbecd919719e79f0a9e694;
  Add 0x1d333b030a60cc25833565a6c5994633ec7e43d486fa9ba2ac1189abd19 0x86ea501c865c85fa805aab520e1f87d66e0af3a8fd99deac59a4b3d2cb 0x6e022d41401b354b2f7e8738e2bfd7ba8d84909634a01cb60fb62eaefa;
  Dbl 0x7a16fd6b556ae00abed9253d095bd4ead55db8fc9c055b5a1502ecc08f;
  Dbl 0xd51677042f105a350a2cef5f2ed3995553e21d595382ad79d0a49c97bc;
  Dbl 0x42c49ff7e02971369181ae0b96149b10d3387769c2d8235c1d898cac8;
  Dbl 0xa0ade62b5287d6aab1d496ca754344b06b8e8a17ac06d16ca3a662a05c;
  Sub 0x3a8d760aa39cabd678f0fe80c21753c5641d50ca5acc0324e8aa9b8daa 0x7fe9d7c5e2d7352a172e6236bb84949542f54a8ec248fb72d8c462afe8 0x1ac4b97a33d14e9b9956cfbc322d7b6e7b4c176c48ef3c663f7c251fc7f;
  Dbl 0x983fae2fbf0869f27ca411fbd2b25289f64ac9fd50a0cbf2c8a8fbbcc8;
  Add 0x1a91a6a926e49ff9ed3bf7aef7f38e1621458697bd6c7dee197e42759d3 0x13b8b41a077e0001e4dd530ba7f8db57b74933ddc8a43a80b5cd6b2b12a 0x137e17c1dfa8807664d3c086ade71353dc7af4ddb775a856e3a7aa19145;
  Dbl 0x13e9b88843643b88f8ef42c73393fd52b9340320a7958ae74b397d41cc7;
  Add 0x1025dbd08a79982c150e252bef1b3ec9f5fe6a244b4bf753a16e60c62b6 0x139c0f1eedba5277bc48492b8882fac8860645d513bc4eb7dfe0643eb28 0x1c8d0634713135916a877e0d804aee249353f0b86b6e7b1a65629894fc3;
  Dbl 0xfda7aec1d90d479097da814af054c3611a643cc71a88c60ac828e8d013;
  Sub 0xcd387014b7c536325c6cadc0927610120ac5deac6a0aab871a4b81d1e5 0xf432dc41d3f74c81024177c9e4e11cb954d7ab1fd8f986f3b112e38992 0x16d99c0eb997335b608d1454ec16fd3f7c1436cacfd0408a6b4e9ab3e0d;
  Dbl 0x1a2191a90b116e1760d76cc799e1ba639c1cb68bdb532dad998a4a6e827;
  Dbl 0x2772b6e15e0d61a16c8eb1982e881641ba7250e9b83fe21192e832989a;
  Sub 0x181472c2622912a49b3d638facffc49e630d1140f6d4c3c6a2ce574f335 0x1e00f9c11cadcb4e5a63de2360d9b1c4d3df8486a8d9a49c01bf134dde7 0xd6967ec7f1b9b3726cf681161ad5fd145f7769c47f24e54c4737e6cb67;
  Dbl 0x18c929522f59ddc1a19fa5836f63a6c08f830bd7577df010eba2449a7d0;
  Add 0x23cb441b0e5911f9f45e451cfaa2f4f36dd4e1352139a9b1ddba6dbcbb 0x1743210f4205d4b0d9df38db5286feb26caa5cb28bf133b237a838c7244 0x10bd3776ce4a459ed18a65d92d9a8315d52f83789d52dd0fcc814f2c3dd;
  Dbl 0x1a6c93b6c5f1807ea0791560e2eb1ba0318317faa3d9dd952ab5bd7a37f;
  Add 0x1e9c1e875ad2b577a34022ab613674730860df422509fa0e88952f8f093 0x78f65156ef5832e35325a8e1ddfba08f20dab6c85af06f1569e3e479c8 0x1150c9c65b41fe2a4cf025f10321c2bfbe96d3033b19b8d76ed599c46a7;
  Dbl 0x1f4d6c3759d4af9078d3f102605c5fcbf855e4107d81e7921e065bc0372;
  Dbl 0xc773d77510cb5a96aec4c40ce674eaf96296033d11f6fbe28c6d5ed247;
  Sub 0x1223dae5d7a4df2c2f980d074e605d68298f6c9a5bb2bb681ca494ded71 0xda33daf363d590ab15d126e6b672c1dfaae748065d05b407c7cfbcdfe7 0x1bbee2008530ba0b8a8e9ebea76cfbe6a21a87e4af939540197f75b9a8e;
  Dbl 0x1c1e3890c6925fe0e29da0833abee31065b04dced8004790007a7443606;
  Add 0x1532e03bb2169b979262f791b20476d1401d7021e3714a2882604d62351 0xc85be8be3041457c930f1781c9149262d8bc13dcb5af04cbd46da1d9f5 0x12e29ad4d5351452ff3c18dae8a06c5d29dc3ca56f345b78b08e75fb702;
  Dbl 0x103df70c432d50c1b0611816be6ff2ee1041acfc28119f5110715d35a11;
  Dbl 0x40c41f5686fc8aa1c95bb3c15e5addf747d6fa23f7f57d146bf0bec68a;
  Sub 0x4db3a5bfb26f86650ec9a6ce97bf8f9c7072a75b3ea1b7310099610e0a 0x4aa7d216a2d52ca29598161276d8d238f61eb4f34d07e7ae3ee90e99a4 0x139849107453d9006e1197dc745a8bdd0d811dece0786e78ffd2a1f9bb1;
  Dbl 0x1c73baf4f1708dec7751608f9d3995f97bcaa4d2f66e7abc0f8eede82c2;
  Add 0x5e26032b164c9c54f0cdbdfb25c7e73cc4492bc0cd4767088910fd6757 0x8813349754ee7887acef72f6ec5e8d1ab3169fc31bb4fd529dfbc09789 0x1e3bc1b14d1e8c3d5ba4609fef0702771e5e4eec4d410a5099cdd5d3217;
  Dbl 0x1d03d4ff39f1b1439cc8976da9161eb5a4bb8852e964d78e8cdd9b0f146;
  Sub 0x6cd8daa819c4e1ba17c6fa92f544af5d672fe1bc605d74760022792a9d 0x1081e602fa51acae250dbda9dd8dd989859efdf97a67bf18d9b300f4708 0xfbf9ca5a6652deb9bc1325c51c11ee20fef25c80f27e8cb96ca37cfddc;
  Dbl 0xcc4072b55174773935dc1c3a1eaa28048d75806c98d84dc7efe5ce4d06;
  Dbl 0x1fac6682d5715b8a47fbf5d0344917a39d7c4d151a387a6254dcd27078f;
  Dbl 0x129d015194720b33c11f628c2e7c14e8dfb04c4507cfc6d65fef314453;
  Dbl 0xdce87f65420dd59ef701651a22041f469380482af538ef3711f32b54c9;
  Sub 0xbc313972c7d2f4f800c2276f281ee957cbafeedad7dfe7caae3a6cb480 0x1079d66cf28aba0e4c63d04d12c0689b984fd3cd7612fd61134c693dcef 0x12f77b8d2f4a58c0cef8f60963ee79ba1c2187ca3a472565427b33368fb;
  Dbl 0x1724dec80f79ce21ce02cc3a848e967c793a26c020761c4d0f5e48f99f6;
  Dbl 0x11e8235f3b748b51169547ac5e670bf8df605a2c352c36292314087e371;
  Dbl 0x174933be9a2b0208084e83e5dd2d8610d113ec7e0d7dc946eed5d49035;
  Add 0x18954cdaf733f8be0582e8db75425c2177718ba931fc915ffa9e036a5a5 0x18117c4b8240e3983894a77c6cf5219ff6f405dc7dc90e6d7b7cfc2fad5 0x17b83eab3f6ea258462a5138665d0976331e48d9ce26cdad6f6e280ad99;
  Dbl 0x79d73719fba35575bec8ff90d71b42a13b2b50b92721218f8b1f9a4a95;
  Add 0xf341b4e74d3ff8d250a0ac5bb1c22cf919b51e656968e63e3dfe6ee7f9 0x1a20dee179e04fad8a8b67f3a0b7f1468e129f5bb0f84a0c3e349d08afc 0x1f42257d4a5c7d46513db3a0cd77d0f7dfadd9f7604a5b3a0ea1b87ff6f;
  Dbl 0x1df4b47aa38cd284411f18cab12d3f63f839887376779783fbe0811a5e7;
  Add 0x110fd77037c68d10cb97e8df5851ea17c96f68b515791e53f625c555db2 0x17530ac57f1887e99069fde8494c8372c92b6e82befef310cbdd7066539 0x116af7ec739dc4cb224951980c50d5d5c957a7115724d00e3ebdab7c1d1;
  Dbl 0xd29cb624e2abed7b43b0b50a3018483896b1ea7b832e8f056a60e34b34;
  Sub 0xb53fd7ec61cc0400a06bfc3fc67359c480601a8d2c30cce95026ffa009 0x5f0ac9565e11c489290e1ccc2532651b9b9b0a18b43f9dbb1e9d278296 0x1f409db76d8d979d3928e1a2ca5266917bd2962651019c1b9958a3a67cd;
  Dbl 0x12f8dd68e945939b9cc1a2cc424c6c223de2dda3d44c3446f319de9249f;
  Add 0xa12ef36786c1ab07cdc6796a46f8d65abf324143b95da23cc9293c3630 0x704ec85403de6d4a54d528c78e09bd9a66ad1a644c4ca639968838e16 0x874e85579057900991dd14f915e552dd01725acfedd6b473a2acffdb32;
  Dbl 0x8e3bb727c3f7304b5533d2b37226c0d6c1ec8615de9fcd3fd692859fa1;
  Dbl 0xe9db1a09f065acc0e3c4f3a5b42b17fb088fffc3eab8b7ab53c2c08478;
  Add 0x1759c71e89e8fc6289f06e2c1f2f1b8d4498f137d4b0f5ed3a084ff8535 0xbdeaba4b5254f9f9ed10278ab9ebdb30a5399024898fcabb2dc362b515 0xcaf4264e139e920d9e7db2f7f96da37fdfe8c0b4cc9affe11b00a90223;
  Dbl 0xb2c5a7c7faab20350a6e1c37b5dde37aecd9983749e90e21e06fba45e5;
  Dbl 0x1d9387c8e6a9e3031c49a6f217c5bbbde6a4499ab309aeac537ac4590fe;
  Add 0x6866d21e8293cbb7966ab729914e72f5d197c4f6ac7b92740c96ad1413 0x2fac58bd4e9fe43e45c2cfd6d849797519288e38326c63721b60e9862 0x43c17c3ab5ccb6d80e4f4dbe474a96509ace23df231ded0f9cc73407fb;
  Dbl 0x15d1a8c76339fc7669b6e0f33e1eb8cf9eda6ddd890ecf8c6ea733e873e;
  Dbl 0xf7df044e0232ffd6ac4349fbb63e531e8190baeaf4861aaf4ab7eabff2;
  Dbl 0xe9f15345fd8264a9aec7c2c8f5cd6e52f2dce215a8c5e4389b758a2eac;
  Add 0xaa37677cded5bcd645f18728c9d2391c5fe540aeeaf75230cd15f0b5f3 0x14b1834f85521166383d51a5c6d6da7dfc4c1392828b8ce2360aaabb4d5 0xc8538fbaf022e2212821213cf02e46e1cb62fe36741160b917145e23fc;
  Dbl 0x12035777a36efcd8057fa48442426ea7c65ebac008c1db487f91d66e78d;
  Dbl 0x16de7fcf2684a32962c446f964274be5e506b08a72914b6d223234aa4b4;
  Dbl 0x1dbf819bd82dddbcf33ed2ed74ab52e2f51c8d1cbf2fba34001f1050db1;
  Dbl 0x60ed65d8f1901b56d8c0493b951a8862ba2dc3909fa1773fcab5f2e714;
  Dbl 0x133b1961fb12d9e72dd8c04144f05d39dbc634dcedadf2b0f6ee5de9af6;
  Dbl 0x90b1ef36fc9f5584ed5003df01635a358fbc03e797c4ffcddacc203864;
  Add 0x8db5edd4b2ec36a3c6cfac048771d77c0eccb86ea541cd21d164ed05da 0x1888ccc7c1013b8ea926c9e5d136b35fa92fc454e4efc146c69a4704052 0x1a8a78b07151882b0a039098792b62961eaa167a4d21f36de1980fd7361;
  Dbl 0x9d74ffb4833440594c2ee189a1af938482c872a49f56484d8f7a7f2321;
  Sub 0x1462bbc86f22fdd47e542a7cbe6623511f73cbb460c09b0cafd4ca5e790 0x140ddacaa452f968a88cdeb89d0f86fbdc32c76cc7df6fd2b2989960801 0x115150a4333918cfbca0079c7313e46b1def6cd23f85f75dca9350f4444;
  Dbl 0x1ed4bb2dea76243dccc8ba79a0a378c09684f046361740cec9201eee33a;
  Dbl 0x19d3e58abd7aaa8d30fad9df4c1cef68b30240842dc1801886e5432b596;
  Add 0x1106fe4587e190826426bd30f319a969640166200401938172569bf66da 0xdac4984d71074fa96f3e7b2603ebd92fe4541a677165b5df9d8a27c23c 0xd54d7aca475a72679c8902f1f0e2539ac96c66a8fe5e75a57cd243bf74;
  Dbl 0x1c9fb535b7c9a6cb7951b6e51e14651623a6bc93a8f0095311784ca5645;
  Dbl 0x18f402d395814c31ce7551dcb19a2865cc64dc9a4074ee336f5ff24bd3a;
  Sub 0x19d8874d8c973ade2bf558bc3e6412bd83b9978578e93e2c19086e1e5ac 0xff6c91e33b8a727b681626b7bee832e65c319669dd2359076db19b1941 0x1ee5aec29bef8a8ae02e475a84e35116c71e2bace1b3d37a268a1d62a49;
  Dbl 0x2826cabe7506cd01972b8f512b8745ac2b6d4a596951188dd042fa1540;
  Add 0xeecef8e969d98827722781c111f8cfbb97463c401174cf7e979ebc406a 0x1b209a9b340d9aa4098c864e5dc21defd2370b140c66855ab934bb44d4b 0x1edf64132b33c7c5c94721b94aa4ab737d5b68c196e22350e33bf888b1;
  Dbl 0x112567da67fad0c524ec54516916230f2f430d9280c8c787a747c6b3381;
  Dbl 0x1d9e0c2a3cf02e15f7f53d9c9ac1fa4b7de6d589df5c64e85326fe62571;
  Add 0x6bb9a943b6440ece1357b4e3aff730b69666574148a725308cd7bad22d 0x196e9fb3c73670fc11e382452c5f037e640fa1fe298c018ebfa39184529 0x177285bdc202f94669467d282edaf74304e7e734e149ace2e8a58eac61c;
  Dbl 0xc6834defb3593b7e2db602913cb24662c9dfecf3070e7c4d938fd1d5de;
  Add 0x149fa1ee2e416d21c0d71932b6d76aea22f063ccdf8ccc5135d4f9550e2 0x9ef9a19eb366588382c63289f00f0bc1ed9a1726d277baa1603372abb3 0x19ede1f74b085c26d7b98e1d2e70a634965cd279de078c99c4c1fa81c14;
  Dbl 0xcfe824a8455f0bd3755d80ba4227e89b87a5358ce5c890aa6d535b1406;
  Sub 0x94317bbf352494cc46a82f04c8c4bb3d9b26edf6bed3bdf1cdd0ee7f2c 0x228a35df40160de5ee02a36532f3bfedd44a55a8b89bfdb044516e11e 0xf318f1a82113bf78d72e7eb77874cc541c72dc3b5f82d9b12fbd115bba;
  Dbl 0x1939c3b2689d6fbae1440bb34d3532eca42e44f785a5c26d11ca79eadc8;
  Dbl 0xc96467b3c0d019985c06321f913956e760361d78a414a8516a697b3a8d;
  Dbl 0x1f862b28b333972eb0d0dca6df6647b1400e06adc881625346dfeae5bdf;
  Dbl 0x115855695275d99a7d8b334999d069d373d112bdbe39008717dcc09ec4b;
  Dbl 0x1a277be76ea431ad989623b97fcd5995e508df62542605fc1b51bec2568;
  Dbl 0x659efc1b8a3dce7d700c601495717d8eea90d51af09ba2e153e2c9d7f0;
  Add 0x7ed012a67169b5246adbc3349800ce920955b24ab432216e5f811b8628 0x3d7e654758acfebad7e6918532e1e713aa1e837043a4496d7b1d613277 0x19413f2471540d7c561c3d62305edf1a34caf7e1a78cc9901dbc3c2ab7c;
  Dbl 0x1bc1b70476fa9066eb947e6ab3ecc21a4343e8eb224105db241ef264244;
  Dbl 0x1edb652f93bc1cbc23c4f1a28d0afa6a658b7d87b6ea6a0dcce85833d37;
  Dbl 0x17686cc47207112feaaf9284833e4931ad01cb5f51c31fe4b52fb932615;
  Sub 0x1227f235cfb22ceb93500bf38e725f44a5b34b5eb5fe0aa12ff11757ca7 0x1841ec67e08c96e91ec0b3b79c6de74c24a6a82dd2a611ff2c6a9695f9b 0x912e1112e43cb0c7eb5f770a757ad6a4a8351a08f07af44106bd8d2bfb;
  Dbl 0x1dc469dc3dbe0f635394a44cb11360d930de53bfc6e993c131fa798971a;
  Add 0x1185d00c7c09ce644199a87c881e75f6ccf55cd56893a7b74f25fa242af 0x12046c4b894b86b11fd0c3d8f8bf2ef06c99f9f40f16ccaaf6b79f0a421 0x290eac44482536f95389b4ccda9cc282f6aa196859bb9132e987381ef2;
  Dbl 0x511b344dfd17212a3bc5d1828a57a559f53e8ba88b20e8b3f6b1a6239e;
  Dbl 0x18a46eb376d4a90b6c79923a21e652d46c6f519f874da61c9de879eba79;
  Dbl 0x6fd0976e3f2f19837ecdf0c790017469c41cd6c34a1a2a107760f991c9;
  Dbl 0x16528270c9a446f9c51cda908bb6eee5b803a3f43567713892eae852962;
  Dbl 0x8f378aff8de5ae7d09ce2b433189e71b9a1d96179961b7509a617b68a2;
  Dbl 0x26f59d5de0358132e0d96a9bc953c7697e9d44e208f9077e2823f18000;
  Sub 0x1ba496a300b6ca301a042fb5d53313c72491056bea113c08d579375c465 0xe816ef6e6f41d1560f204ce8b89583090bafb35bd08dd9bef9f72aecc2 0x1ad50ace40465398371d1edb483ac03cf73a2bae911454009718f3536b6;
  Dbl 0x7ac18c93ab665bc0f2fed054a70ab21f9dd8c00f136fecce2e89aa3cf6;
  Dbl 0x1ae43ed32fa4c6143132702b1fb2699f68e8e73ca2041bd6c21cc90106b;
  Dbl 0x1f1a9fd9f1d6baa1f4525e0b46aa96ab89705aa9c69923f42fd89d70888;
  Dbl 0x41801b2c43bd02a620f25c2b1302d896843b6de7d82a3e337861f0a11f;
  Add 0x1e4b472229715418ff5c37ff0937523a7df666ca1d3320bd74e1b21d0 0x2eeb151a2f47f8d745291140a7d5a933c58f7d8561f3e3ba96df85eb4d 0x18b5affe132fc1ac2e8a8bea913783baf84c864c4fda8555b66cd75a13;
  Dbl 0xd8ded118c7dbbd6141b044306343f20beadd8c0f729476023467cde7d0;
  Dbl 0x1607c46dc6f336ca20efe718a11cda163f955f07231576fb413c8228bdd;
  Sub 0x14ea7620713a8cbfdd5e94ca54b3e4b664a4a49b63f4b9ee0d3b9994ea1 0x1d8a84a8a50144ce530d157ae6e8f82b7140923c88bd9fec6e3b79303ab 0x745a454d5dc71bb34443ae2305b974567d2a46371e20774af5896e254c;
  Dbl 0x1d2edc7b04b354c90cdc4981f40fc04ea0dc19f16a5e579a88ecbc36d5e;
  Sub 0xcc26b5c3f8bc4936ae0e79091df38bd1b679372f1b7aaddde6c4ecf77e 0x1cee1265d4b4ac2bfd1ad4794b23f5691c9a7c51c4fee52ffbb14d31cab 0xbe6456fc3d227a28c3a2ab80bbb6ed59e2073b70a4b48d7ff51db05f92;
  Dbl 0x19e619aa9ccb58c195fd36d553bd6d9f606021882ec643ceefb355ba894;
  Dbl 0x18d3c0d5fe539ae7ebf91340d8be3c13f1064ad6fd865c7b048fa01d350;
  Dbl 0x1af3d3cc802587ad6a841279ea2b6e47637ec336c78438b6aae196cd1ae].
Lemma order233 : order_check 233 0x213 1 59 (ofN 0x1098) 0x3fcda526b6cdf83ba1118df35b3c31761d3545f32728d003eeb25efe96 0x9ca8b57a934c54deeda9e54a7bbad95e3b2e91c54d32be0b9df96d8d35 0x1af3d3cc802587ad6a841279ea2b6e47637ec336c78438b6aae196cd1ae cert233 0x1000000000000000000000000000013e974e72f8a6922031d2603cfe0d7 = true.
Proof. vm_compute. reflexivity. Qed.
Definition cert257 : list cstep :=
 [Dbl 0x1c7d1b1c6f0f470e087d6c08817d007b0b0661c16b724040b354a52b2fff72c5d;
  Dbl 0xa403cfdd4badf4b38444740d75cb3bd4bb881935f4198ef452e1fe9abd07a33e;
  Dbl 0x738c0b1bb1c9e76f350aec7d565149554d6673c706d9f1d5c47f9d8d66e67bae;
  Dbl 0x621e3e0cdf41b56cd6c095ce693f4b9988543aa21d16e7bc7785e7bc9bbed91c;
  Dbl 0x189c59d8bd8308c8f75fc53a7da6abd5f8e0454171febf5adac781c600738819f;
  Dbl 0x153e2a7c72e09e7dbb43cf79e645ea66d4717772920fe5d57cc05748fdea5fa49;
  Dbl 0x1ba3142572535acc8093a277ee1753c5aed2ea7c8d5ec541e4f415e9738f9ef70;
  Dbl 0x150a54e0ddcb06fc3092054817e3653728410ea261c325a1a32a02f4e94c3ba0;
  Dbl 0x3c5c76b4ecda601a2cf52438a6422105c59ff9cd2abae7d7b087d7758184befe;
  Dbl 0x11058a92055375cd33762bf046c0561638ca1dfb0c66508b3251b5769b874efa2;
  Dbl 0xe3233c47d27895b809b656147205a5312b0f256c505cc7bb5115167e1e292bef;
  Dbl 0x7b899a8d5c8d20c284a1e99e01d5e01426122e1ec96b8ad9f6e402e0d57e9166;
  Dbl 0x1258ac1a4c29f9ef6adbabe3438e55118053017ee25c6c3d67cbb40f2ba469008;
  Dbl 0x230b93832accd8d34a35e572020e720a5b1539b7bd1ffc59dac9a38394be434;
  Dbl 0x1b9bc07899acba6a4b1b9690d48fa012c583e8c1dd79b2bb1d5e010916b54a4e3;
  Dbl 0x3173fe9c06365fd6f5bed9f1ce0f9eb4cabf18199cb33f21d4238f35a883313c;
  Dbl 0x180e56467a6eb105e03128ce90a7448b4f8a31d20437d21cde6b1124d924b42c5;
  Dbl 0xc8cbf47806b728a51c7fb9bd52f57b79bccf14d06a911a55ec1ec0cc2cd04719;
  Dbl 0x117fb1ca4f2480097e316e3cfb771056e8494d92f3e1a5b227afc62e03293f2e2;
  Dbl 0x1a09780b1289dd9292c5a5537d7f7ef82a174a828758d7f1a234f5f0cb5521cb7;
  Dbl 0x1c1c973fcc2981773e45c911da6fc8f08d53697fb3f14ea8ec43e7d529d793a56;
  Dbl 0x3d63ee6d6852c416691f02e1abaf71e5de5805695b26011f51def5ceb7b4ee88;
  Dbl 0x189946c81bc50e646f28310bd2d654787ab3bd43a853101db6ce8dbd107278a57;
  Dbl 0xd5d73b663d091b0378794e2246e3b91147c6c0d05338677471f0c08f5adb45b3;
  Dbl 0x665d341cab61f944e028ecc2e0681c8a4cd749a49663fccd27a1c4a08ca9607a;
  Dbl 0xd995f2913c765d04ea776c5082720b90dcd8b1d01d8609d6002f9fac0714e965;
  Dbl 0xe6b564a162dcec7163008f747fe05f0157208493c2447df40d9e31d135eea8d4;
  Dbl 0x12267ca32c6faf6cdb2198ec1fdb62fd5458cfe66fb190e4b2bd3dd5b84cf21b3;
  Dbl 0x3b733d26bcee665eb5fb1c44191d7c32cc0797af1792e9e2c4dada47dece702a;
  Dbl 0x10187bc8453b80a22e9839bd9bb038a72cc091f06286d6b521fcf208c93d72d20;
  Dbl 0x1e6d03fbae71dcc4deadcf69f171bfe580fce8fdab5b696d76ae28643af6ed84c;
  Dbl 0xa8ae1f0d517ae6845bf5418ae66389240792cb4220b3fae92b96b357ab31daf8;
  Dbl 0x84fffe484a343e2f3f75c5fd0c0ae9a7caf66df480c4447e4ccfc19c1126ef48;
  Dbl 0x1c04789b9a2399c239d24ae76108e49a6cf92940e7019d5f57af76be6029629cf;
  Dbl 0x5bd5c316b17e170b181681d0b09662b19137b9de8faea1288a9777757219ae75;
  Dbl 0x5430a797e2c51ae607ca56cef88830fabf29d278df4702f8b753492fbce278e7;
  Dbl 0x189813532406269109eba88b74908bb5225107e83440458b971758fa709842c1;
  Dbl 0x1e09f2e0b163044dcb728a68f08ec7981711b4b4655c62be967e4d4d319c305be;
  Dbl 0xdd150bb05c259e939cd2bf7d6a174c357f2c1a76b15a64bb52a671d55acecb8a;
  Dbl 0x1f13541bd7ad29740d3cb42d38319554b072d82224da868d18d375cac277bf20d;
  Dbl 0x10452a8a298d41f248479e8c709f9940dcd73fa2175229fedc089a8eb27ebb7d;
  Dbl 0x15a7115071496074d9b0680feb1f23c140403ae05a20f37324bf5a05382440fa;
  Dbl 0x155bc410c1e5a90a55ba6caa6dfa3713d1077c1165518ac64e91540b7d5b8aa98;
  Dbl 0x818b3b5098754752c91d3d03185c3fce7f3537fb46727296bec01ad1da4f5e1f;
  Dbl 0x15ca08ad64418076d60bfcfc414e7b1e527e5fe9a9b79ef1a11260f7407d3fa80;
  Dbl 0xf572afbf3b9f8c136ad17a8e2f3771051d9de8261b64bcbb621775699cff1850;
  Dbl 0x134a585ecb5af2e188abcc274fa57ec46e6626a01b5c536cdbc5175c85938f8c4;
  Dbl 0x2ea9008921c948860caa9f6dbfa40d5a88134151661560942a048ae262652c9f;
  Dbl 0x83e343cc1ff10f10165ae1987d674677298e7985c196add33de778d1fa67a3d6;
  Dbl 0xee29f80815ff5281ddd9b709c186705f8f56da1459f2b5bd1d3fd0387287ac71;
  Dbl 0x820d3cb8d28a6b149fdf40bd67912cbdaf93da8f457aa666e18a8b391d6a3f6d;
  Dbl 0x17ddb7fd591038745de0f086bbdbf9eeaad7e4381c9f5816c2cc7245a52ec1381;
  Dbl 0x102169cd71d95a3e7511e2a8d983e4e1e1df88959dc49bc47acdae219685a3044;
  Dbl 0xed869dbef18c60b82c33bd68672a45897506edd9f04ea4d6b8b4beb136d59628;
  Dbl 0x7148043e390b5a23f428fad9296b990668318094e5fbc4642e31c5977abdf85e;
  Dbl 0xe6d3f8f442b5cdfa5883b047eef4e62cb9ed0ea160375481e98b199e46a85a10;
  Dbl 0x194ba2d07f767380f67d9fc11763389e844e726452be5d293dee9d3dd7fb0061a;
  Dbl 0x125db82727ee38b6c740771ae6328d8a5068bcd88037172c30c972fdc9a2181d9;
  Dbl 0x9634c6bc13e9112bb06f1d4d71601a5719ce52167f605457af8ed6340b364e97;
  Dbl 0x16074a035673024a4476421a27256ef3523a87b9497c99f129a308d4f09a4a764;
  Dbl 0x1004f7d8aa8326d9695f6df3035999a56926b1e1653576db4cc458ddb54cbfeb1;
  Dbl 0xbfa7812599c6e109ff93548bb9ecc3c0a4c6761b0c57bfb700abfbc92b08b7a1;
  Dbl 0xe16d1d01caa4c064ef0a1ce82186273a2d5c0a1fb70fe3a2377e9ef57e80b3f3;
  Dbl 0x1476191ab5f0c734f1d6c8b421a93f6383a9a18069856272b4fc96a3e6fc65b15;
  Dbl 0xed7027960ffe1ab5fd8c8ff1e43c352a72fda5804682927a50ca14918783d608;
  Dbl 0x922b98445d3196a6fc504002dfc395e476398dabc328ed3dd1fa7f121bb80851;
  Dbl 0x10e4a7622868cf26c1f27b538eb33c80caaee12d5fb3cca1b50121cd90476499d;
  Dbl 0x122b4f8c5ae1e3d2da3515ce5404fb944eb6c709c2306c97217a91a66fd6cd4f;
  Dbl 0x3e80970e5229b3eb6c3e523dbcd342a5d64e44a1a3d291a0201823d31aa97ec;
  Dbl 0x122fdf1b7be33757e28e147551000746f4baa2b6f2fa40a623b879468923889f3;
  Dbl 0x10fbd8cb4e6a10b3ccc756457c53ddf4ad63a5a19de7fbca0e9bf755a5ac26322;
  Dbl 0x554f5514ecafa6a70e2446ed97e359f1ee1caf53df8a7a022e3e2c7c69ca3f1e;
  Dbl 0xe92cf0512879f4f2145ea5708878adfb6d58586044e0fb31d154f81354a2356;
  Dbl 0x1d6642bd449cacbc57ad38189736ea19a9361aec246444c7b94d88455cf736307;
  Dbl 0x1bdc97de714d831e3f261528d93a1bf928a137bfa8539ed9d0fbb488b94296490;
  Dbl 0x33ca8edc3bf7bd20578857d65be9373fdca22be9d42b5d3253fcc37e352fb37f;
  Dbl 0xd17c7d007bdc2dfa7f0c9bffb1dcec0900083c0a2352f2650ba2d795d778dfea;
  Dbl 0xdbce10579983a52a7cc5459592c45b124d71bf0ae247c2817f13385adb4c7ee0;
  Dbl 0x1a22ca365add272b7dd65e64a32ab546997ddc4a321fa8114c937227650d44869;
  Dbl 0x1d3c1d7b12823169186b054f50187311008ca863982e67797004b0e129823e254;
  Dbl 0x1a81afddaf9b5b926edf72d9912dfe93d3ca82c75bb2e9796500991dcccd1fe15;
  Dbl 0x10122edfe12359c679d5fdaba596cc6f3ee24bb616d7f389963824f6ed8fd6e43;
  Dbl 0x1593b5f4567aa2d7d61363a775d3187c5aaf5e2d18499ef1102fcd70c92913a6b;
  Dbl 0xed0c6c024b928d78432b32e8591c9d17e92ff7f0c66fa4a30a4d20c8e5f0d810;
  Dbl 0x13f2af7bb9037745eb1d8ec2a9ef07748d484774df6b3b40d75c368881a540c87;
  Dbl 0x15b28f48367dd6f7f7faa8f1ca88c7bfb4a17dbcd9004449daceea31bed421e9a;
  Dbl 0xd6fa8d5eb55de19fa13c0b09c92a8baf230b7729e07995232d3cfc4a339a3647;
  Dbl 0xb630f77a2eedf06582a95ef6e234bda3a176d5351e9254c8385ff241a7574c9a;
  Dbl 0xee93c2ef896487e4d6fdd9ef1ef80383a2d56d191bc4d6525a00c58e309fcf92;
  Dbl 0x7308921538cfb27b4abc502fe321ed905c763ca8766b28f604a12f0768945adc;
  Dbl 0x631d3bf575ea46a363acf35be30b247e270733adcc39368aeed79dfff92129a3;
  Dbl 0x1a26384db9b499c07c710e53c09311b1f118846f29289c077a7e6ac750fcfe175;
  Dbl 0xe80bd845780702a45412399d8550ea2c62cb88fcaa4e29069f35f446d2cd9550;
  Dbl 0x7246605e9bddc768c5d138755c069b68ea485fcafd1451b0c53dec64c0eef38a;
  Dbl 0x10901f8882bf0874e5313be69d23b69a61dd601b90a7262c6a6920f6536d7916e;
  Dbl 0xf023a96215c42f05e3424a437e0e82ca35ffd1d4a3dbbe643f7c36fee867fb5f;
  Dbl 0xede77c179ceb5cb8eb88a1c68064a646db622856b9ca08ec62e79eceb5c4a300;
  Dbl 0x6ca51918165113fe5f6152c76a162252e493d4d36cdcbab5fe9408318b48c8c1;
  Dbl 0x5196c83cd3f70b152bdb85dcdc502b3e509a3f86fd2fad27a028994bcb6a93;
  Dbl 0x1897ba9fce8776f77ad031c40e7acb766f050e92f3c8a5e69b87b009dba599346;
  Dbl 0xebfa87eafcae01c3e70f904865ef338ba61da86d38168bf35a6e88a0ecd56f30;
  Dbl 0x1b2968b24134cd770b2d684b32cfbab19b3a983852f9312b201dee70c4cf14166;
  Dbl 0x9052bd9540121c880a0222902e83d2c7f5effc428ab09cf1373c0564b1dfe2da;
  Dbl 0x3d16bc12355161c0a82566273afc2a9af30553bbb3cb4dd801517e5a52b15649;
  Dbl 0x78bfc3f467d9e1932daeadb3cd639fe1a8bfe3dc72960aae58fc8e6236db24bc;
  Dbl 0x53488ac4ad96c49ba2b25b125449bb15cd0826f4971c89a7d93f856d69d11dc1;
  Dbl 0xca958908eefee9dad86a788923f175ec21ade369d2f76a471bbe1dc4e9a42982;
  Dbl 0x4280482f7143fd77c8f98418e90b16693c7fc2b00dac3a237d46f26b941a6038;
  Dbl 0xc9d3fd3075f0ccfdac5ea73eb7573226c847e0368da2c090af05c07485898f7f;
  Dbl 0x17c0aa057b82e4f58da17e99add3c16efcda202a6a55c9cade3f00df36e1c021e;
  Dbl 0x1ac60157da47ab2c1fd343e787242bd5647418439ffa5e2f95158f19b2eb8a64a;
  Dbl 0x1f2a40ff17c5f1bff05054796f174b53f038473ccafb408b6ec8571a28fa05bbe;
  Dbl 0x34c2ab15c0e5aa616eae2de1e935fdd864a835fd4aae27fa48ab6d721565c64e;
  Dbl 0x4a2bebac2e54aca82892b850cc8fe486ce8625d654e14156d769556fd486ff31;
  Dbl 0x1c5d806ebfaf35f196f90b401b5ff86c430e147fe692eaab1ff7f08f52ea8db00;
  Dbl 0x252e01e8d52791e1837ceb16c791200c14a8ab0a40efe9952b867d1e8bacab3f;
  Dbl 0x4fb0bea823bd98455765dcd465581fe29b5de69be407ae869323ffc56bf603a9;
  Dbl 0xac3a8799487bce5dbca1d17334811f5d4e8069b1c207ac2ffd6f6c64c00a9584;
  Dbl 0xf35dec952798b890d8b83649859dce9c3c8b0f30f36a1beadddaf2b9b5be75ec;
  Dbl 0xfd46481b6a9e210e276af7bc213585e0b642e8ccdf3ac910972ec971d343280f;
  Dbl 0x3e5c8c92bd4bd3e8e1db36ca3f9ffacc78298baa2ac1b3a918812f9ae55e505d;
  Dbl 0x460be72568a55735a4f86ca38fd2eb292cadb4c1f19281f40c2efba8c518a005;
  Dbl 0x4ab3612ff77f3c733f582c051b2c9926c54a1b48c2f505e761b5e9df405a52d0;
  Dbl 0xbab9afe2ca2c42d888325d8b8383acd2cf852335503d567e8c2a19f3546f6e32;
  Dbl 0x1c5ac7dd0fff6ade6602a293471852ea43d13018460105ba88eba5b9918d9d9bd;
  Dbl 0x1f6c6781965415dc34589c07867044688d53bb068d8a1a80f126ee1a4933f84e;
  Dbl 0x4da4348681d1a5268edb3573809cfe2acd4baa65a7feeaa16b2e6a2839ee51da;
  Add 0x165738f928a07b50c0cf3414492d90f3679dc6b7c561ceb5aaab7330090a7edb8 0xfe95845575b0b1fbab7008122d94fcfe3e32725e68e4825e4aabbd7925ac5406 0x2d1415adcd2b3ce58df64531b392cc1e7b06945bfeac54aa997d7be418a9f304;
  Dbl 0x5d22ba6346bd0c3cf1da450c866540f4c93a332cd6a2dcb7a5d386c2a9eeffa1;
  Sub 0xaacc1057e483e538690bb06821d7df07823215c0d716d82badbee537082df2e 0x802fc83151967ef6ade234971425b62e77b2567956711c05b5171e9664d58456 0x1b95fa2b7ba83f0fbcd52c6383e42c7ceaf548585be1a4c0c5c8596ce4f0d03bc;
  Dbl 0x167821a1c1617bc35f6f53f4563e1a157a725d114dda4dbeae7f1bbc3532f0d0d;
  Add 0x1bf21250cec11e08c2e95cada2be6aaeaebd858194637ffbd029d71c0076db580 0x1fcc5eadefd349d832f4aedbe074e46d7063969792c9aee1c947d4c34b01d03a6 0x1b9b198d6dbc4c64bf46a00d9843d4216b43b87fe9b86cfcef29090021aac4ebb;
  Dbl 0x152c63bdf712a11325d16372750c0cfcc3be50aadede5dd583d49a1b2e01c9155;
  Dbl 0x64b60319aa7f0f879d3aa3febaa94727d2a936f9d725f068599f97700aa4b611;
  Dbl 0x7f19baf014ffbaf6290a68ce8cca8a25d17d95a0dcf8ff11876695cdd0fa5876;
  Sub 0x18b27967aff86b3727f9c30a3905a187b08bc3d1d9442134f8e08dcb4159cdda 0x179abb36d8c606f64a0c1eb7da703e848b8329ac6f2dc9aa9da92e76004cf17ed 0x208ab713e207ca1b8c6e77cf451ef0a5a1daff114a408b9c97383c28dfba0659;
  Dbl 0x44d9e57abefb1e4fe4b56bd6b4d7519c7d2f334f0fd12cad1d15737cdcbc5820;
  Sub 0x1cc668a3e98784917ed18bc83d53c0afad9500ddf6e83a3e5458f6b9bed87ec2a 0x861eddb70dfeb6772ce5e68b495365083ded46866908e11642db024ed30a82a4 0xd0be5f06726e28e8c684db80ce3af0e6987a6c9e6c12319ab27ec02b9da19c6e;
  Dbl 0xa69c3df3fb6793574ecc9cc00e68e8c11313de95e71de618c21fdd27a8089816;
  Sub 0x21ad228d816d2e6965a1bf1082bfd284a2d89bb89c111cb2a058d2a77c2a52ce 0x13bfd59a44622acdeaedfa596aa7fc3e932a2cc8da1eeebfad87c9c0b8881f5e 0xee7265f5c0b2821ad433c398fc8562dbaf3a52970a69ac742c55cfabe7d03661;
  Dbl 0x9eba8c040cb301b910af5fbbde80382e9f05e0acf43297630033d3ca2560ece4;
  Dbl 0x1b2a43e5c42e254ca78031902cd36bd88dd1151462928206f680ca84b7ce242d2;
  Add 0x1a4995fbedc4ec7d2a5281063db40a020dfc990775f0f6918c1bbccca1f03e9e9 0x75b38348a43d63cd0b819fda535b5db06f97cd7ca46350f8e903cf5e997c3162 0x17b8b9485867e7ce209415f191e71f377f7b31e6e144478f86461716d5dae8d83;
  Dbl 0x8354db9e351381464f2ba95809d4e0a5d5df3c5e08354a23ba5129255221a73c;
  Dbl 0xf6cc6bd1c46398a9159c858915a6fba18d0b481d534fb77b9d4c39ed69cde1e7;
  Add 0x1c6c581600caa8d98d20805a8b9055a16bf77a1fa675bb07da00df3637a56f765 0x1562b90e49df4f7a08639a230438934b1f387a38bc5121d5cc46ca3ce30a9bf73 0x1a85366edda070b5551dd46f432a3c614b5371a8ecdca3fa45b16e9089db34b0d;
  Dbl 0xceb8153e2445cdc628514d6198a11cb3c4619dcfe1814c5afa43804f559511ba;
  Dbl 0x5360a7a084da522c6439a4f28534a9d7986b7345f4bedfdfedb20d3d7bc29a3a;
  Dbl 0x33d96d5ac827c34e7f98672a46b3a4e626cd0f52692369aa15328bbde51ac787;
  Dbl 0x17e7b8d18ebb1faa156d07177e7d20d378339029a60c7e7bbfe8b2c64102a2cb0;
  Add 0x1f5779977dd31efbef6b6909a5d4c91f80785ca7ad182d03dc9c9b3e678309107 0xf17b2e2f72a7a0fb67b2bf241324e9d373791639bbd4c09f7fb45fb96851a474 0xdaa53f008ce372b5f5ec20619a621a176baa06e7aefa9418ff81e081859affdf;
  Dbl 0xe149e19f0488911302b4eb4ff17ae3afc3745837db6768b941ea258369a85160;
  Add 0x80ea0d05c15d819ae2f20259f90789b113847da0d7764dc733622cc49a51d21e 0x1e25740198022a6db9450f028540e442ef750855cf630fbfe91240cb3fe535d5f 0x1ce4bf8efa2849f3cce64915b0dd43d88e52e9dd5efe2cefaeca9d3966deb27d1;
  Dbl 0x1c79db0a29bf8d2eaf33871eca6ea756c507df98ec210ce23fba463f5a47fef1a;
  Dbl 0x116562dec39929184d9f189071909a2836e36648651cb388b13eac25e4b37847c;
  Dbl 0xc30e38975a3c3a0963ec05482cf0ef12759daf3dc37bad608b316576d8543eff;
  Sub 0x26d8ad507cf4ae8f78d3391f95447329b977bcc3a4f1b60812814ef608eb2695 0x198fc235115c0b1774a648537d3263e027e516db8c59d2644328b31863c039aa4 0xb437ed0fef33e2f0b059af8c95949e6e80a0a44feeed7369c3de1f8609bec7a;
  Dbl 0x3131169caa52eabfedf8029b0dd077d2e9b2bf64aef6152699b05ed64796bfa4;
  Sub 0xff964b699d92cfde56e442ec77f70831804c67519b7cad65cc0cdfd5dc23fab 0x1abe71e0a8cc07dd7262db2f25fa0e55428f558ad2f7fb94738e6fa87f3cd72b0 0x14a3e7670a299c58ee9c35235a0e4a678e2e45249763bbc885d5f03ce5e3f3cbe;
  Dbl 0xfa0a9c7a6bf02ac0dd8ef0812234c9b6d46bddd98ced952868bb313a19c1f8bc;
  Dbl 0x5e308d841df2678ebe0b12f0966607436f1dcdab2f75508970661a40e412af4f;
  Dbl 0x1106234c7bac23b551d66332833220ced6017f5025cf287ad38d14388ed70b64f;
  Sub 0x18affe4334c82352ea087703912cb3c938b21abafde40ec79553501714e352094 0x166ba2669b142a21169d6a2dc2f44af9e470e5e1be0dfdda158540c2ab7ff9830 0x6f5b6a81be771e302d35590e3d2ce7941a65ac49d2f9661a40444652e7a6b218;
  Dbl 0x1635ac9f4a045fd1b43a6887d7462089cec27b38dfd0d651edb24f647ad5390c4;
  Dbl 0x2c224083c2da463bf591ebf9c187355ce6828f96096f28f665c2ecf9bf0e23c9;
  Add 0x4e50cbc5185475c31989e55f749618cf9bfe2cedc869f761c50d5e014b1620e2 0xf93f838fec3345b2900a4466986f643b0a2e15327c49b3be98a1ff7cb8fdef1f 0x10372e81d7d71df9887cd43b4cf4e0bd85ae5ab81193ab9e5f97b4d6136022934;
  Dbl 0x156f153f61653ba56643bcb75da62540b04ffedd05f5defe2d312b812569beff4;
  Sub 0x3eb0033db978c5b3cfcc99ec47bb8e76ec6d3e79f343b7dfacdc0a3fae9a2ec3 0x72549b4fb81f442535face9879ddd3b7bfd046066b5f64feefdfeaa2c30ab415 0x11ae55eed1ae049d7d69e5c2a06a1344c8d6e1298ae1f806703cc2e26841479a5;
  Dbl 0x1bd0d52ea07bb9cd6ca6339ef688e1e0842f1e401c9bf8bd8bf172203764eb31d;
  Dbl 0x16a44c0de7150b5f04644d8c7414b2d91ab7f07da49c9a59c2ecfda6a313ab728;
  Dbl 0x111e37ceed2030d1a5eb7eca04d83903417ffa8a073fea4573eee7fb307e02b42;
  Dbl 0x1d098c4bcd113f94a90e3504784771bf29a3ed408debe073898d7ceb8490a0431;
  Add 0x1e8c20a3a9f976137c034a48398db5851ab7ae311609e14342b505571b7a1850d 0x12610e5595e037c5c0d285f0d1d86e61cb55e5f913795381917228bc8f5be3341 0xcc36013cf2409b5e95732ebbc095f087d564ba920762a99f341dd6c9065cb50e;
  Dbl 0x1d55314c03097bc1e0a4c1a8b4dfc9df92a3594f8a00c265adf39db63f6b2e893;
  Sub 0xc36a6e8b9e07f92c6f374e4096bfffc6203c26be1e4e888d9bca15873c04dc63 0x17802f5941ac7949960ce30b9d064414f95fa0e0420c96183b17ff3a21b1a64bc 0x1b3e390dd963ad61eca5d3a71cafe90b09b66618f25c303e42504b8d4b70bc944;
  Dbl 0x1bd62c18fbfd7b8245d61d7c475c5741a23b1c9b99a0fbb29e1b52345751e3d93;
  Dbl 0x146da342266bd23b62e321a1ee380adb9a0d484ad6164e9d0c4edd933a24cbb61;
  Sub 0x112ebf78469e94ce0989ab510aa39fd73ba3177161fc63f614b3302d5ff75188c 0x7912924ac00d3f8d96b4d384be4967b7b00b01c5528b4b57e25c00fcfe50a2bb 0x1f9be6b26c4b80bab32a439aee3d4078516354b3a8499e7040f538b57f9644d99;
  Dbl 0xf2cab1492cecbc2d67fb41a903cb26f34028f00665dd11718ce6ac5ae57b992f;
  Add 0x4c0136ecf1d26a7029d73af29ca97afba7adf4aad59761666b6fc94137149b74 0x190b4c1e7b73a7225e508ae75a3f063e6d47d971aff0e6c12c3eca96be687fd06 0x1ad38873410866d91170e6993470fc9cf146cba9513c1c98e221c3d924807a630;
  Dbl 0x606c4e7fd0c850ea3cb6decd48193e28eb8f49dbce113df54acbbcae7b9bee60;
  Add 0x1f4d711af23e65e442b54579c2ae1518956c9e557313a572f039651b1c2b79412 0x9943c88dab1e307e33d7b9213a408de16016b00b67c006c69fad7b87594581e9 0x1eed8e019a29d788d0c231358636ba2c590b9a7da0f9fb5bc8047beb59bfb1c34;
  Dbl 0x151000a1aa3cde55055afd6724ac5609681480ef112b4d9e691c0f87162d77af6;
  Sub 0x3c4d2461c488cbd0e078d033725fb8917c1265c253e7e00bd0ed2a74c5dd5374 0x1d5934134f312d474996591508e722f67d398216271c5a720c0897b215d13f133 0x7eb6f185a13100324458b65f5e597022cd6d90e18258575d83864e80c7e2d2ef;
  Dbl 0x1008d48c2d16f53efdc75b985a479672162f6acaee4e09bd08b11a470ca262d79;
  Dbl 0x1cd5731fcd2225289f08e2b42b709f29a4bbe7167b56863e238100da3d603e63b;
  Dbl 0x1ce29e076a93d2f4567828eb7a96d9bbedf38f03da493ad207938de6e643d2803;
  Add 0xee7bb4f4b447f4f315a807c8bb5c60a9a5452c742d8cd782c05104c270b4933e 0x140ae8ee48f2b1caa306c8c2f872e7b9d6d5981f3c06f6dc0a75312a23cafd216 0x1b1dee516fe89af44c38813a49582abc39984cb2db6e9160d482c6e983012ba80;
  Dbl 0x1048068eb465fa815c6a8a4d1848c568a84493fadd15643bf72458d3e60cff27b;
  Dbl 0x3051e99ddd53da4e05a4cdbe403494067de73c23dbf266ff14033241cb8b3c23;
  Dbl 0x1ddab3fcfd8bbeefa9b040c56c5b55bab941d1fb54a7dccda10f488b57eb73cd9;
  Dbl 0x192b547915cd401c79d1c3571776ac9586904bc300670f111335ea1dc178a5c51;
  Sub 0x13164cbad0628f0afd2c023b0554f598c52aafec187dd6a4fa54e0be6c969b644 0x54ef0a24148b059bf02e5278b706837984c85a265bfd73bbed41e99bd8d99bd4 0x1a72121eb3aa18579f93243a5deb472736c0672f00816d3695b1789c5865c0bc8;
  Dbl 0x8d4e34416004e80dea0c11c4eecf4a57fdc48d244c313617dce7cdfa4589eb50;
  Add 0x80dc09f9ca4905df9f18579f2c38d3d025bb4786f5559b97b1b6d71bcc6a42c8 0xfebd5cfcc6342f58c55e14cda73c5bca0400ed2b6e5d1b44623afaf37d9e4527 0x1c28bfdce5010c0a3ecdb60549c6e89f5aa82f316cfd747b1e80f3e0162ef55d;
  Dbl 0x943593254c3c373973d3d81ce1dd796cd910dfad5271bc425d383b10b6bf66c8;
  Add 0x12597f4a2aeeaae1d798f26f268726fa7e616b8685d5c998b271016358a42fe4 0x1b74a386dea8663e03c1649d28bd2889ae062939645bddbc2589e2ccdd0769937 0x1d7475d45d578ac08a5077d37022ae7e42edf34750330ac3702faf44df8b2e305;
  Dbl 0x14e410500cae9b5246df8291370f49c4cb54c5d6c4f548b11a7a1e8999de0b47d;
  Dbl 0x54099cf0243ef28c22d03a37114a8ceb498b1d0cc54a6e6042b7bf3a0fc140bc;
  Dbl 0x59a61889a65ea9c3d6e6b2d4e9f06d8862b5eecc54fd588b6e06ab2d4892a526;
  Dbl 0x1dbd1e3aa2ccd455cb7232c597357fae93ac03f92470056ee07a19b95c399991e;
  Sub 0xa3e4f1a1e800ce82fe5f8af6ce7092ff019dfdffc80fa58dbde87b8da01c9381 0xbfae936df3c7bfc7397350630bbfbd631827e800d97257e2cfd5c2b4fac87b47 0x1e8399040369f44b888933be5b45e75ef5b6be48d4c08417757b618c951a2fee0;
  Dbl 0x19805722eae92a469dfc036c4f288307f7b3826fff2a251a310e4e37d25fd8282;
  Dbl 0xa3d6d2ee725528def56297b278040bee1299b3bbbef93351c9058c28c6661b60;
  Dbl 0xbb42a43218ba606d3ae25bff49d91903f00bd15eb0f4cdc893b61436ba9caadb;
  Add 0x16e8b8c4ef464e293728303da16a91e35687bebd59ae93c5b8ff17951ede33d44 0x3726d95e391fd99611aedf6b0da6e125887da1a7bcb3f47ee675e9071f50d46f 0xea5d717af637f937cf01e85eee911aeb06e69c78bd0718d456990719abeeb753;
  Dbl 0x104d61268d5472fc2ff8a917b73a477981cc6198849c8c4a742b1a0ade8a7a29a;
  Sub 0x1ff70f5bec8314a30ef38351c3d7ce0750d23b6ee9b56c9b47b4c93035c292149 0x1eb65acd4b20dfb7adde57cce7537cb8e1f80164e035be859f4c4bf326bf3cad2 0x1cbc02300881145e1aec8dc362078cbb598d7667f6b40d0e0eb8542b1db782520;
  Dbl 0x143d38687a245cff2807217127944580f0a03a3d0964d7d84ead7f77ed43f18ac;
  Dbl 0xa801584eb2dbdd44120d1a0bbe4d09131ae362f785a7c47ca60dbf278dffbaf2;
  Dbl 0x53f4058055ec2566cdeea4a5363c0b52493730bb91a012a62a2d35a17066ebf4;
  Sub 0x5b70e1f9a268ef349aa4d32572bf27fcfe048db5a8e0c85f88f9f133ea9578ca 0x1e6622359f6029160adac021f92fcbe83b66192f5512e75275b424dfa9a2ffa82 0x182105e7d9ad7d8f626306781d89bbb8cf49c4cbd283723c9e46561aa97cf5b82;
  Dbl 0x19b6872e9b4444f50d1722df14784ae6f8220f68d545d01f1f796392c9bdce5ab;
  Dbl 0xb33daa4797477f1000c79bb84433128c34bb0f2cffd3fbdf519deba0daf709b3;
  Sub 0x188e4d1a46d978322e02b0a772bbeb8a32ffe4b52c1e05c03fae5b0f8bae7ec6 0x107a09f2e0a65050fc419a188df9229a19b085321cd53a8df32cc4936c55ea4fa 0x1d8243d87c361f5903bbe2fd5c175dd3697d01d0bac8640b2e38d68f27bccbe85;
  Dbl 0x1621b3ea760af7b35d72b1506dae3c8a9ba2d57b7b6dbd45098cd9c311ad71fdb;
  Dbl 0x17f615cdb2b36700ac4ee8c104ce59c5bfdab0ac94b4be3cd4cd1eafcb9d994f5;
  Dbl 0x1e4de653d066f5eab97c5ecf6bdb2d74318d8dbbf5023f267a3e389b2f20b9163;
  Add 0x1e09d7b1a21ce773093b8dde1f2a2d68c07dd3d5f682940bb521c64b7aad125c9 0xc7f33399595c9f454e72e09a8f69b8ed46b05e4243ba66c92c15162eca1c60f5 0x1ad2a500e315e1efc389f2a8f093b252792f05b4bb51df43e9c954d4572202cb;
  Dbl 0xbaa43cc10b221d49cc88e7d571bcfb467a5331d7e325f396f63eb34ed454ceae;
  Add 0xfbd7d26f675aac3e2477f33daa62603ecfe874ffebb9bf91e79d351ad50498c 0x16568f1e14ffca552e57eb9ca0ddf11dd0030b295bf55b916d927dc6d50b743ae 0x10be1b9f80a19d2035c62ed2d1a95320a3e6a6a90d4c2e285053da46329ac163d;
  Dbl 0x1d45adf00aa1b92bed16c363fbc2c5ccce27daca887a207fb68f1ea74c5768fe4;
  Dbl 0x507d73bacfab5eed5b29482123aa0cbfc20c822dce5e16c0d6b30a09f4fd5807;
  Add 0x283e7d5662496f1b26e9a6a439a3cceb82ff3dcbbcf16de47e180aed31722da2 0x171ad9d28434951b9c0fbf8abdd7122fffce54b3fbb66d4b85d22580b6c52a40d 0x1c144469ac90c6c648eabdfd646a31fb7e71448a8fae7303b94f16ac3a25bc2d2;
  Dbl 0x1887fde6fe16f78ea7598aed65be879bf1f4126ca51a3a29260b207daab0c245d;
  Dbl 0x38c05e56c04edcf38d70b947ae2f884c7fc3d12ff96edf6e58a725b38b405bf1;
  Add 0x71738256770c3bae0b7fec01b469c1d8b06449cd197a7723e463335a7916318 0x5015292ba64dfac20444cb2b518cc99a9d0dd5fad0f71700cafbf75f9bc44d11 0x111737e446abf9e17c526a098723a4fb447c46a6ff1ea853338edae9eb078024b;
  Dbl 0x12aefbdcd2bd36c635605fffa12336ced71de8269ede03bcbada47d5009729ba7;
  Dbl 0x11b4a466792619f26e740960c6e64321715c176366042f7fbde021af700b4bcf3;
  Dbl 0x1423ab38f54c3a33f8abcfddfda388fcbb3c9bd8b1b1ec054ab3f5080ca924ded;
  Dbl 0xba7d95e42247a62e96ab68ddb9b534e4a7ea426a8e01bc53243b18a9e2447031;
  Add 0x1b56e0832490de3e767c79e03ca41daba47a94008fa06250c9027b10da28d364b 0x10811d849864e63df86d77c5162291da022937dc82957abe8b5f32bc8ba87f23e 0x1d06d75d43debcd996b9b563ce3ba19287b0758e96dbd7c79646134867ac6c62c;
  Dbl 0x7104a6c6005c0ee717c83c98064118f181ca24e2255ef4ec67d05be294d6a501;
  Dbl 0xfe09e85acf00af2e9336d7176f798af7a10a42b0c682858382017d45fa9bca;
  Dbl 0x169beb9b913dde9c508b72b62cb67ac0e8cf7c7afe35367283031b37b34781ab9;
  Dbl 0x1d3748189651dc42a610792c1f8ba0d5726b58bfe031d60056e2cbaa30b6b79b4;
  Sub 0x11ece56980ff1fc17b676b9aa2405addd9c9b4fed657d9dfdf644d77b7079e8c3 0x115571b6fbd172b9de226bfd371f3184fa7714f63cc5afa7f8b51cdd8fee66beb 0x1df98e2da0a2013f32d1c8c6c786b3688cfb576a9657e44d385808941466a774b;
  Dbl 0x5eed194d0efad4dd9efd365d1aa515af8ff260a763bdcd854acf404a34befd3;
  Add 0x146db00e7ec4259e719498e6c0df8f6d472953ce75a693d165323bb9fe7240ce7 0x1b781410a21cb5d363983ba4768848e79f806eb78ab6cbdaffed33c8db56419b4 0xed0500f97b4aaf2c874ffa5f86821053da9c27ca4d4e243efde9b725afcd9421;
  Dbl 0x1e530231aabe3e52de9e64482512ebbb2911ba6c8e1aeb2a705f0d5dfc32e524b;
  Add 0xdf26c31313a4fe1a9e34c84e2e339f33b75e5dc638e70c4a5507621061775cb1 0x6599f297df2507949a9f748196fb6a42ce2fa5830d6c17590020cb7f514c5e 0x891ee59cfbb7bd1aba59e043db4fa4bf4e9c4991927e7808d69beca7f8dd57a1;
  Dbl 0x14128bc264be5cc530336368d08d469c0ae11d0b799133f9731d1ee32320872ca;
  Dbl 0xf6a73162bc42b78f35c3aaa8a3b534ce9479146ba148b3c2267dc7962fe16014;
  Add 0xf42c522f12232b391accb55a4e440810fc80cab36f0e2d85fd7eec9a712fcec5 0x1e9ef80b92ccb551f83202d3738cd2f94667544de2452cd597be4f8d4be22b8d4 0xbf6e28f1fb79ee895213e9e02e182a3682a290ec5070924b3915d8b8a6080334;
  Dbl 0x1ade732834b02d569a78f4a461d6ef457ecaf61e222a72714e5ed59c3c3f3c7ce;
  Dbl 0xd77d719111777c4cef2c2cebb98bdd73db9e817badd26a7d4bcfcec8bfb7592c;
  Sub 0x97c6c70ddf5077812929e97cf2002080b90fbf17fc37ab9635dd9de78429a3cb 0x1023477f2ce01b73d1ef330cb1c4c2d0352e4f9829f031b2404051bf4dbd1d521 0x9e1afd6a953769e579286c7fb721b6422732436ded6d2bf561e3e9e62cf2a2c8;
  Dbl 0xfa482fdd48fa0600780ec77b9ace06642ac040f3c1e797a8114e37815cf03d68;
  Dbl 0xd4d6751f9818434b43ebe5b7c671fb02509939bc9bd8493fe29cefac7d73ef0b;
  Dbl 0x1ecd42257ce0da1f2f139c626776c13d09dd6bb17a7eb53b581e22d9b0eafc2ec;
  Add 0x423e61106832846b999e54d3e02b91c89a3b46c6b462c36ff39372b021f4e6c4 0x65692b03978032cc0d753786f06bf49c08878a38e29d44e9fa1c664df58fbabf 0x54568cc47336b849542ab799b84c9aedb1bf6b3e50def197dcbcc45515dec36a;
  Dbl 0x1643d0404fedae4a489f4191ba92ab42f38dc806cefcf7fc2081a045e839caf43;
  Sub 0x1da82a405e944b19ad7b7b59c529a3fc3812b7e7ce356fd3e142fc8b4952fbe13 0x11d211a8d76e22acdbdf41c31d3f8e5c77efa13d7399a357890695c89d6784987 0x1702e6aace350d4d3363578c19b0474917d983a104260171e1b333b372bd73b08;
  Dbl 0xcdc01378003640d900b0d5112ab20fa0b9ecf4d7ffd44ed090b7aa0d268de9f2;
  Dbl 0x391519a26f47010d9094f8d881c5bd730792d0f17eb3b7598a4ac5ce253e558f].
Lemma order257 : order_check 257 0x1001 0 65 (ofN 0x8008) 0x2a29ef207d0e9b6c55cd260b306c7e007ac491ca1b10c62334a9e8dcd8d20fb7 0x10686d41ff744d4449fccf6d8eea03102e6812c93a9d60b978b702cf156d814ef 0x391519a26f47010d9094f8d881c5bd730792d0f17eb3b7598a4ac5ce253e558e cert257 0x800000000000000000000000000000006759213af182e987d3e17714907d470d = true.
Proof. vm_compute. reflexivity. Qed.
Definition cert307 : list cstep :=
 [Dbl 0x113a9a774c55c223d6f678259ea851bad6fd6e9d510c3192e6e4e96e426272fcfca827d539631;
  Dbl 0x566737a6732bd6a5428ce1c3c562f3e902506cc33630abb68a77defde7f38038a871e389d9ab0;
  Dbl 0x5c712fbf5bb81b07f1275a3a0baf86c8895c55b41cb33049efa7200b8e3dc369851cf0e51a03f;
  Dbl 0x163d99e0e769f37746a73c46a15b8961e3042b791668e970122f017424381565ffcffd817caef;
  Dbl 0x5ed0e443d745483bad129b2730c6d8522a98cfbaea6b34a3c40b7ed423b189236e63b9d719f62;
  Dbl 0x7d3c0cc991cd0cb47b1ad2bdb2a839cfb159adbc15f2f87d56093220eec5536d10b7fc6baf2cb;
  Dbl 0x494014e38400725f16b00591e8c7ba45265ec0f435d2a2b6145c7b94a69821ce382be9023da13;
  Dbl 0x4729117c9b95bc237fb3f36cc1fd6c0ec6568063cc10c4bc2b7bf9410015da6b43da9e8892c66;
  Dbl 0x64c4b4add436518f7c11f08a785f561eb363db2575264ae9491fc8961b38493be85f40e497542;
  Dbl 0x77aba58154212c8a06a139f7d0137bfba83460572cfca91f1a0f9d71a70ae04be4436e6e21dd4;
  Dbl 0x54f5a076fbc864b9df0fcfeadffc5d1a0c95a946c5d8bd151bd6fe95d710cb475b97130efe2a9;
  Dbl 0x94b418c076f6c3aa97f20fb4170594c9a71ab517c7399d77518e563589c6d70f6d58edb63cdb;
  Dbl 0x544ea4aa94538ef043abc5aaf1da0e1be2d5265e661125bfed440c3de5fcff11d491783a86fe0;
  Dbl 0x203762ddd2384a8839fee88ef6c79210ec69f1c1eee9b6ee954f8d3b3c6b3d7cffd308800183c;
  Dbl 0x3c1e0bd9e0ad0aa8aba382999308ff747f2d2dc1b5660298cb9d97fce3b02337fec98e6200128;
  Dbl 0x786f271193fc6fed4e545c8fa18c8b823135e11997d4a0e3fad8efa30872df751d91276cf4408;
  Dbl 0x6855ab88c204dd10e63e2783d2c2f2d89138fcbefbabf432e35e57c26796aa4c5e09f4ba98c79;
  Dbl 0x3d150dbefdc5946a8e2d3c0c6de864bf343693af064ef95737b6f35c030489138131828800cf4;
  Dbl 0x44682bf1ef93c188460947ffd12898906fbff5cc47592555a708baa8df1e241e2d964e40a38cc;
  Dbl 0x7509512bd55798b8b1828b2272f59312513efd500d326926c643339afde7c4bac0fadfc785361;
  Dbl 0x86a2c690657738f7f76301036e9d3083bbc5635aa47b655f2c9dd048b7d87b4fcd2e622be9fd;
  Dbl 0x6e933d2674777b25893ce401f5042b347527c403b3f58eac2089dba29152d7f931bc278e67d11;
  Dbl 0x6eaa27164c388d4d4261d7802c85d3970c951496b90370da87cc44871b9a5d388c08a44da978d;
  Dbl 0x553bc66d4d271894732ad5e28f4e3326a8028b655617882c0bb800ab1c69999205aa0ee059d80;
  Dbl 0x64c7781a4dc3270933032a8c7db95c2188887bd1b38fd2bfb118d6c4b2a22d1ebac2ca852fb3d;
  Dbl 0x803d60418850af2acd09ccfe66728ab2e636ae86e7092c2655ae371744b66d0ec406231c72fd;
  Dbl 0x43adfcbd5c05cbf048569f9f5d4ddf7c43720d64db69ce9671bdc680b7bf1e400329a021b23dd;
  Dbl 0x8fa1fbc656775f13631e80697ccaabb5c7556bf89564d94f697c2d9cbcd8c935a8dafa3e8ff8;
  Dbl 0x69f1c3818ac3a60a59f23973c7582fddbaff3d7cbfa5b44606942914cebc184532c41e9d9a769;
  Dbl 0x6436e7a9d66fed3b693f66c755471f07e30b58bfa59d688b6bb817e39743d84aa48267e07ab2b;
  Dbl 0x666c435fe48fc79d51b5587a09ec6cd2862243eed2e91ccbafd2f0b88f723364f5b15cccc395d;
  Dbl 0x331b48d76bb3f7196643802aa24a65ad86950618723dd581a086a2d755eb9bfbac037a99df83a;
  Dbl 0x1f27baa6e069403ca3068ffc56357904d1d5a43d2b7b11730c04dd2783cc05fcd3aad0b48b179;
  Dbl 0x2a6d5ea58ecf011b988273e78935e5dd0cec38fbc818105cd014326dae91984e1eafbe3f6b727;
  Dbl 0x62c9de03c75b784758ff93b7d843035e5bbf70f2f7ec624d75f70543da642e632fa09fbd013c0;
  Dbl 0x5f28f114d8e19b2b1748b7f00634715d3674aeb5ef218e31b4746d0510becb02b4d6ba19afe37;
  Dbl 0x77ea9a675b9b4d479ca4dc35153977d05a91b09dcf4f06adcc5c351b78a9b398e5816dcf7e5b1;
  Dbl 0x487d57f1dba46b4182d2b500e946ca5e79ea1341146590df453fe00a70c313fef53091dd39c5e;
  Dbl 0x26df3ad1d964f97e1f607308dff25cdb16972508c1d1f48831431c8afb0d750ba73912adb8f6f;
  Dbl 0x1ab4384d44a3d17f9c9b53aed50727cdbc3a9ed09863c7cf51051c8c74869721b6becdd2cfa14;
  Dbl 0x38eebf1ef337b9fb71cbfe78a68fafafac4d583c1573724efe21d022fde165988b8e4dcb3a283;
  Dbl 0x4a2d64cff672c49c6f245897e7b8a9c174741a566ae1b5d8d53aec817e85f0d719ea4a81ec55d;
  Dbl 0x7d6a6ce76bf1394cd50314fa66b95d287c2bdb3286576845a9c01223e469e500d3375bfd8d756;
  Dbl 0x824f0800a555dc8ff8d4026e9ed86561f658d648e0ba4c3a426e8f5060363163912f0b275c10;
  Dbl 0x4463aac422bba1421c2102a857ad6c72da7ba72d7d69f3f47dd2fc129379a4420ab7279c289a0;
  Dbl 0x2ea2186fb6a77cb7ee2b461dd6d13fa59a4f450b65e1190a4b3c8c41a3ec9e07838a44ce8acf2;
  Dbl 0x7f838ed4ae52c47c3eacdc08ac62a6151a8ae865a503029bc1d4ee6416b6b44a27967805a733d;
  Dbl 0x12d252cf9df85c1ff781d186448f7b47ccb31f945c7f8d85d222209b24dfcee19dc62997b1a3b;
  Dbl 0x268f678af0832c14cc27e979c8d29b7569d9ae3c84b0b058d3218d4737417af54ad477566333f;
  Dbl 0x45441cb73c3a1cb3c7451b524bdb8962fad518f6591d28137d0f5bb89586a385ee5b58bd957bd;
  Dbl 0x198aa5f7c9b52cb463c827f11b893299726e0c83955d200a6b986a29f6fc4f9b52a9caf5bb689;
  Dbl 0x3c7bca0ecb441e133462b5dc9ab174cd5f33d3dcdb5011961044100e2a45c5f6069d1d3979a96;
  Dbl 0xc08d065775174ec813bd7f1ba5ec250ac7d3e4c6f84b1b488694e0fa2abbd14ffe7c43d6f777;
  Dbl 0x214af22b31a23689e1beb0ce8938cf1a0bc1aa19d4d6f4b2835fa2c2dc8811ad08f24d369cd37;
  Dbl 0x11bcc9c97f839ca427bbb71267f0dd1f940c26e7fb2d681bf11a5b79108209a430be41a337fc2;
  Dbl 0x4beb5c422841abd843224c1b2f12df6d1c22da6ce0433faaaafdfefc4e0b05c915c8c17cae602;
  Dbl 0x4d7c9658e1a5595fbcfedda469400fbabd5dca51930414a2c2c51c45f0cb746d71e0ef7d2cf72;
  Dbl 0x15424499e81bdcfe7c21aa949e238a24455b2520951017e6e0f1925e0463feb4eb57a5464b3b5;
  Dbl 0x24efd1dd3b1e6192f22c0d93d4a8af20214d2e379cd62232a1a5cfe55304fd4370deff8ddfb8f;
  Dbl 0x668e0ca2c24685c14860dcef63ccb659f96842555e3e047b1acad851c8660379c5f14d9e1284e;
  Dbl 0x125ba71d4354ab61f4b87223f67e45c40cfdf8de39d51f5a44cab2ee226fbd0dd435339df1a00;
  Dbl 0x3ce1ea08cfcc8ad703348b7c21e178ed21aba31b593e714271a9307a1c8e0d53a6c5ad5ec350f;
  Dbl 0x421f23cbdaf553b86e531dac3f3e0817a635f9cc1df8654b51ec784667da6f6c9c4501a59d36f;
  Dbl 0x10470b5806743af34e590fdeb2b97412d0dc719a7b19a5c0f6a6c2e5661b990393276e17df645;
  Dbl 0x6a32bcea0c99703d62073252a0ea81bd29404f7f39740f176ad0b220dd6b41ed204724ad5848d;
  Dbl 0x67504447d177d3e167360bcb1b2047be43518b8a5a10d1d9cf05a50c5b110a87f33396995c094;
  Dbl 0x163bab5986a7ff66f07d437ae7608715a1a65b3b23701e4b7645321232243e518df5ed101b377;
  Dbl 0x4b1c9c1ecbc0e5c33f909ee1efe8b304710880aba6a0fdbc4e2dee014ac6d9f98b96bb847d836;
  Dbl 0x6678858cb3487ce1631cb41be9f70996254c7e26e146c5fd9911b81d53132de8798ab7afcf096;
  Dbl 0x215ca91d61931d72b3fba0e59f08253bfcc4235fea8b92893a5fc4bd585c81359ba7124a14327;
  Dbl 0x7772927407614494298ce836777d52d8790636caec2e6c4fe355076d83207440047dd7751cee9;
  Dbl 0x58eb623c2882733bbf62cadb1f97c6f9ab017fdb10416adf5b158b5d059b9fcc6923ddd46a07b;
  Dbl 0x7541c8186c03adf046477851d16d27126ba55b8c106a8b51cae32b5eb7df2aefb9d2352081d1c;
  Dbl 0x559c0867c6875b2a4e38a6ccbcedc789a4bc0d13cb03a1581d86cd329327243613619473144bc;
  Dbl 0x589276e04ac5d48b09957307d899b95127dc768e3b913d03b8ba2b896edf340b28b099eb9d913;
  Dbl 0x16ddb8a9e0c48ac3c0ea3cc0027f592c691dab8f70d9ac713442ef31eeca08a9704c734eca038;
  Dbl 0xc1e917bd1fd6dc7132257ee08ac70bc22ad945f09cfad69ca91f59463e0a0e31aa309287eb8a;
  Dbl 0x5d7eaad56fe8d992ef88bdab9913c0e95022d8affc7bc942cad3d9e4116cdba84c9c4df5d89f9;
  Dbl 0x5292a5eb8ab6a1dd2580a2040ab059326d7a36495d6993f90ea1c0ffae1507df517794419a9ff;
  Dbl 0x4bfb9b2f7fbc4f40bd9b41afb49c48fe1f9d844d6759f3c214cd66728ed4acc530b2a7a959766;
  Dbl 0x6421c0b6460f54eda3f849555351bc18549b910f7c0b0ea34c6e6a9908f72ad7b6c2141318085;
  Dbl 0x6e4148a77557ae5ecfdc07c641fe684a9c0d81aa7fb63323936d2849655a47fffc45d04695972;
  Dbl 0x7fc40c5eb0754d52ea1749c0e3acfd87aaf1c676c87d12d487321337700335c861aa4e661ac5c;
  Dbl 0x6f83eb62388f56a49b5541241faa0846c0dba80803f06dabdabf0e2920163d373dac2c30a9db4;
  Dbl 0x3e8759dbb78600fbd1f8d2ababcb7f157a445bd9facf1bfbb33e3a4c8d1a5f41382a9020e7327;
  Dbl 0x22956bba5ea0a588155c3ddb260895bcadcb0cbb4e531f0871fef5b552c4774213b348549b951;
  Dbl 0x600eaeb0e38d0bb0a593d73fc11969f2ede84fc5ccd5e9554814fc42964ab439ad6a4a0c91d1f;
  Dbl 0x77756510cf8ce8913d12dfedb96a36e5ae92f1f2cb447cc575f5bca6b68a0792e02596acbe713;
  Dbl 0x219bc33fe252a8c16338ebff4f2bde46337ad919b474d45951dc70e8c04a7f8c455c27124ac63;
  Dbl 0x1897ba316a45d36e9fb1c181dc66ad77c4d31ce35d9fd16c50f429358c07db7457b6bf5d0d4;
  Dbl 0x647728a2e1d966fef4892eba12dc6e542d514a83217303cefbd66fd58de036ec0f0ebe5ea37c4;
  Dbl 0x194c41d498ddfb259e459b229ee6d12c80a1ec2512b6f053fc8bb464d26e68fa2a1ae0c05ea6a;
  Dbl 0x89a85fa24f0a34890d42d21cc5dabbe975fec4b646af1765bc0666329f94f7f5acd9596970be;
  Dbl 0x346494553f8736bd5a881493bca9e1de6fc7bf655f06b4cfd4d90ffcfc2760bf26cb4021a9d44;
  Dbl 0x74d1f6bb193bfd5649393d24192a20a7e03ec4ab1c0539427351686cf76314a5591de0a446676;
  Dbl 0x48611673240ea42f073a8ca99e57429193a072cd90172e55c05268eb231e2157177319fe38a9c;
  Dbl 0x2c1e71a6193ced4016277415ba6267d64b6ea8d363e051665606777b86e7f241b334b1dbdbb61;
  Dbl 0x279013ab69db3a1f6bb9de27de14a21e7d70f372a05e2c40e61469bdac5caeb605e8e27ba5159;
  Dbl 0x731930ad3070e21d82e681008a2364c2d8f9d14a7f64b9b85e9e92288278ea3af3367167706d1;
  Dbl 0xa1470a2d187d2c3278bda26c41eb5738a6c8ac0bc298d2f5ff9ba3e8b16360f0e5773c5812f5;
  Dbl 0x13e56b85ec0cdd2859d6db8bc495933c26aff6c0c8cffeab4f222f880081ee7be362f43ba2158;
  Dbl 0xfb174c454533813b53b2e226bf7796c9dcfdbe1b7c7fda6c2377ed95e34007b244d9dacb73b4;
  Dbl 0x7c0385c0afa3859469d01017207a6a6e5644858449672b7d4d1457dbf2efdeb56ac7d5f256775;
  Dbl 0x697b596b56141924840659f0f21d8f875217b343e678c6986af71f23711f4cdbce8e331b6b133;
  Dbl 0x470f276616976d07df476300976e6abcc9ed8b5e9e1faf6ef23b42827e42a626043b35d099aab;
  Dbl 0x20ce56faa73fb64c74864ce39c153bd9c76ebfc566c6ca012df4cc862944510e55dc5a295de40;
  Dbl 0x5aed4f2cb1d4401c8b204fabf988b963b28a4b02eeca1c8d57132215eaccd8645bd7e4079f460;
  Dbl 0x33d3db91c65b74b7448c958da75b8df562a5e5b2fd4b82917ca017eed8ae35b3f848cd6b57e04;
  Dbl 0x331426a205b509de000f8f7a2c4d0cc3d281c723c0de6f76722960d39a4bc7444037c47c7ba53;
  Dbl 0x76d39b5d07255f548e2f9d43b5398e3d066d81219cb5b46d9ec813191758400083b6da4b1e295;
  Dbl 0x4fe49268466761b81fa0b5f640e122938051872847b697bb1d394913372d400e7b98a8eae7c76;
  Dbl 0x7c28c28a740a71359fad1f490f29600b90237afa133fa27b6b46419fa0cb7863d3e8366ab547d;
  Dbl 0x17001c4747eab425a35e94d8643885ef0408b08213ecb09ccc1d58d4e13d041bb62c08b9f649f;
  Dbl 0x32787d4d57e8fdb486bea95baa6235d232f03392fc4a18db573badf80db656aa2c26ef1aa5e19;
  Dbl 0xeabd99a7b933b8a0e05761070b837bfed6c95cb4ae730e0057fcd6fc41777bcdb8dc01e30b25;
  Dbl 0x54c49c7d162d1ea430a5d64452db64426a4cd95070ce85cfcf6e2615ad0c41b7b3d5e6be8e20b;
  Dbl 0x2792a75a68abf8edbf227d25e78acbeb8b7f6236af7371f9f926565b25ec1e37a2b89dece1618;
  Dbl 0x5241067ad27ebd28111a6af350aa6a3c6654a9fc8ae9a83d6ad0caee2b7cb4b1f7bbca87a79bb;
  Dbl 0x2cd58e44a65592348f7e542a810899247aa6ea7adbd8b69afe1591074c2328858cc8d0f52bea1;
  Dbl 0x56ec7beea4f894fde6641eaaa53a435db4b38102528f01f98ca86a02fc6fb29aa7ed621ebaf5c;
  Dbl 0x2fb31b4e6756f685f0d34e24ba2df83173dd3333e4e9ef82d5e3beaa76589e3a93318acc52cef;
  Dbl 0x2fe851675fb7fdadfe486936715fdb7378b2f1cb009e2ac227714695edf953b026e2a638a8f4c;
  Dbl 0x5fcf1633245caf3312cde6b02fc53bd41713359ab45ca1f5d5668ffb6adcdd67aaffa436dda24;
  Dbl 0xfbd1a1733f0a37f962df484ab4204513913208d64c0f1a650888594ce6ffe1b5e963996d6858;
  Dbl 0x4f18b3792b6804483fc4e1375277a3a4e67986ca1e5792aa8e4a7f44d4c6099a2e144dab3496d;
  Dbl 0x42e6a23f327adfa7c5cdd5f6645de013a87cdddbb13700d4f49e59189dde2fd654b0484c70e6b;
  Dbl 0x4582409e431843c137912fc044a47b1fa5dd255a8c93fc792ce37f09b2be687436aed56f0891e;
  Dbl 0x7a1f1eb94720f194b1e00fc7a0edd65ed88f5031a834845e34a5121b8da73895b245520b148c1;
  Dbl 0x3f98b446f03b56c66ded7584ef869150c9f464f369183aa0a431897a40f9af591ad3e5c315da9;
  Dbl 0x295ed7c1f22913d6caf31fcb08fb030eef0f98aee74bb6e540f08102e372724380d7d0a87b421;
  Dbl 0x42657864c961cbbfff498cd7a826a97b2da16ae05d45cb5f10aeebc4f1abc22d0888615c90689;
  Dbl 0x720270eaee37197c3967d4e9254f6f51138ffacb21ff6815142e872cebb18f4ac1c921226e7fa;
  Dbl 0x1357746ba25d856efb308882013862cbbdf18870ad5f8d98abbf97e413ffea907e6e1458a99e1;
  Dbl 0x95de04b90a7bf5fa81ab54a453a13b1f6d336e676cc08392fc500e9059839e19c7ddead34e77;
  Dbl 0x47246b5b570044a02e2ead0c6c1548fcd4c5176c9e610086c9c8d480aefd4b4510a5b6ffa2503;
  Dbl 0x2d25a5ba0205ea543c41feb6f93c922aec3ff7252f510bd6a1d749b67eae41646f469f63e55a5;
  Dbl 0x6441922e05e9752641bbac759c44b96b26eb55c6fcfe88f9f522a19929886986a6e7904210e33;
  Dbl 0x1e2aecad19bde59119e21b04d31339689caa8777dbe55e0232cf97d0d8a89f345516b301d9834;
  Dbl 0x1ffa142172dca9cb3699268d69a80284734b820b534d897db46ed8749ace58f2becbe6edcdb;
  Dbl 0x2ee74040355be20dbae78ebdc8abab4bbebdc945100c6241cc89e21a237ec304fc48ba4248193;
  Dbl 0x23b6d357a998310b4f378bc18fdf0fcbdacfd30815c9fbf0c4d6738a7de52eab331635c97ff06;
  Dbl 0x35609b2e54676707ac739a62b4405629b827dae4b5388e364c7c826c3c172ca7bdaa571acfa4f;
  Dbl 0x35a81dbc1941b231e8402acb87a28e3422f26106ee6c50852ed28f09d47dc921facc95cf3b040;
  Dbl 0x6a1966ab573dbd2059dadd2f97bc7c37460c553169157f6aa9603dd693571c35a3a2e0d3013f8;
  Dbl 0x1758783dedce0720da213b87f9189b26558909581ac8274885d8eca72f5fe88bc0441a4605b27;
  Dbl 0x4270fef2819f004e21b8a48dbbbaa91d808d0d950932ac7a98366fc88c369b2192c4e72cb49e1;
  Dbl 0x582652f762d36b9e18261c3516e8e00b0db2a309c55fd0d68885b6780d58e9b7f0effd9a3a891;
  Dbl 0x6bb1b3132582f617060696444122f611a3807c59fa1abf69e712b0f262a52d24979dc9ed1c8fc;
  Dbl 0x5094522a1cc51d973f1e9ec917f771387f12c9e0673f1c159e7aa324999e600227a88a160cdb0;
  Dbl 0x328bd6ecfde7c47a7d843c9233716d3f7894d5ef6858f0b9ba524bcf87fb227e2eae60b29864c;
  Dbl 0x4b865484c5b8685218dd1c7500f2e60bd51173e4762e961cd8a2152bbe9045ad8bd871ca60faf;
  Dbl 0x45f9c96cf061bb82908607d8d5bdeb7b98e00a5e67e5c8fa0361778820c9f90bc9dcdfb63c084;
  Dbl 0x6ec848d941944ea7e37c5da230c11d3f4524e662822326f4ededdb81b5fd9566b872af59ee873;
  Dbl 0x121cb2d4294ccdc71a004ca64f87def14cc85b65b8ae553c4b31efe1c098ad5a1f387fc239d1b;
  Dbl 0x40a9070dd2e3ded8a880318bc788743510275eb82a5e39a09aa55d13aa5af4834e308c5785e20;
  Sub 0x67a6805a8778c007de1dc589a459cb075748daae5ce3e29ac1538efc82a5d0e36e23abd9bb12c 0x319886716aa3fd85e5eb47e5f6dc7ccfa569a339c3000532ac36dc315becf246203dedfa9388e 0x5cfb384457b38df24854d8d15bbda6a53d9246a998134f525b03b592ad3ae6c93e8614e7517bc;
  Dbl 0x3920e5e4667a45dd0dca85f28f98a95d02a97728833a08d0fce523fe34b9dd9f67f912356d692;
  Dbl 0x248e765e0c023eb4679105d7c68764a579f2795f520dd5e98408756d4575d13ffa9e09efa35ca;
  Dbl 0x6340fd3a12dec14a11a22c394c32feaed77e706c1042473b1859d9550963b2c007eee2ba82c22;
  Dbl 0x1f46488aeaaf43f1cd89ca4557b9ff0ff1c703f01d36706b5029f15887a6fe865beb25c9a51c3;
  Dbl 0x2f97c35a5ec36965a6f28c79d60a44d09c6e72e3bd32d33826f46eedb222a6726c222fcc84f3;
  Dbl 0x690a4fec773134bd3f07c957437a546fb19684c6510650a19c688353a8afd2d043e15a82941ff;
  Add 0x4ef2361edbad036471de79d9cb3d7e3626ae9f07ba1be1bb59c0b91d910cbff4a139ee9e0a8cd 0x6d0218372cecc7145299934162083ef0842eea3699fea29d0fc76eaea94bba32fa28d37556bff 0x6a9391e4f62cfde461d1d7ea8f2a4d3a1445f2e0f5c37e0648aa05c4ed8fad5f4fb23afbcb8e9;
  Dbl 0x56d5b3afd6aae959f85c522e42508491b1df8c66889d3d23bcd066aaf6d33f22a345d40cf9e64;
  Dbl 0x7eedf0f2b24ff70183b6510b67f18aa357c904f1848803fc74a786eb3f8c0c72c3438934db40b;
  Dbl 0x47672e65da5baa868eda57754db98d0b47ba038f1b24efbe9f282213ccdc72fa84fff35485ee3;
  Sub 0x379d6acefe3211e6eba0aee845ebdff8288387d8abd074be0c7dbd7a06f0ef75ace92526ac060 0x685bf60e0b05fcc720cb44b26bfc34a5800e21296213a05c4049d943271165b1f3bf0c7fa0238 0x922431edd852e0f3420e40755adcfe4c27e34fa446e15d4360cd5cf92c0014f167d9d008420c;
  Dbl 0x2d93f64dff8564db5a948c8ef2ce0b75aa870ce2f256078e4d80ce776c44d5a53f5a5d60efc22;
  Add 0x391abab808ec0dbd531669494b55fa6a7ecd3a8a19502d2b0453410f0da4a810d3e9b6325a522 0x71696c94c7684de835840f0dfb4d46328dc0b6d2bc9f80054cfdeacf911ab4589d5e778377c82 0x1d7fd80c5738f1e6fab09d74aa1f4922fdb399fa72060d06090bc74a1dfab1fc5b56baac1df80;
  Dbl 0x1d0cbfa45ca7b62d6facf3842135777a67743d2accd7ef58574d376cc3111eee77171da6b5a80;
  Dbl 0x2a4874632b31c62b7aa81b8cbd98ba199a7d86ffd6bf18353ff6178293adfda0a6f28048efe27;
  Sub 0x720024ec434f88a8ede13755ac08c50c96f9b5a90c53d936622731de7168c42ea5ecb59687d9e 0x220ff3ffb008cb4b89f60cdae4f0188c825bd1fa265799aa32b49a05c95757c411a2bae24b8e9 0x1d6c78745ade14caebeeb0cd28ccc94769b84e3b11427349905965b960e52cd7f1b73af1fdf38;
  Dbl 0x3ed219e61b417f09e9a23b3bc929d1a2100e366b8ccbe3ad800c9a9f3ad4694b8759d055ba01d;
  Dbl 0x30316fe8be1a1ef8541eb37ad81adde9930dbf0655d1e0a56e1b0853eaf561d8021863e6547cd;
  Dbl 0x6e64834755c252aced5806acac990e15bba33d2eb68c56d44a15de36ad7b12c4d66398937f81c;
  Add 0x4cceb780dc477af2dabc21f90033be1ce31d55bbd554a1d9e4e0d4250ed60e194a1fc3e09a948 0x2849880e132eef8981a74f4a7f5d25d364b43537761e821b8238fb3bec96d095474d3a093686a 0x2ca2175eee48f9dc3c326b9e2e9d0fa9943fc5375416d189fefc7bcbe25549f51c615ec601c52;
  Dbl 0x51179c436ee7279e31baf44fac86e2b033d0d3369e00c453d6bc513d6e910010ab7845482534a;
  Sub 0x2afd6158d90368539de517d7ed768285501813b89e07c1d7d583b22c0798be61f296e6deef3dd 0x51cc2b8f194f85b5b7fb04657f03beab6c61f7dc104895ac2206c1ea09cb10be14fd7df2d970c 0x575e5afe60321598b67cfabf09b49d10a098b903416051e66e28f0262d2383748ef4ebd64b48e;
  Dbl 0x45b9ec6fe17421dda4ca181e36dee156ca5a17a2a189a0d38964555380228f75e58467ad1463a;
  Dbl 0x30284157e3f140e06f6723058b633c35bbf0d25a720d94c7a8c1eeac5639a48a54edcf0e94d04;
  Dbl 0x5e00e62d5a5c91d9400a362a792f116722192b7f5a11c5ee6a199c0d65c88a8f2a344ad02ca63;
  Sub 0x6df2a554452c72a0ff306baeaeec842dbda7105ef52bd10b246f9c15e92b0fd6c914092dd4a8a 0x5d50f159a90fef06c355eacff0f571480643d3e4b722aa33d38de36408facc5b24efe206680f6 0x68cb6b9db5ea563689f34f09b016b48f0005525f8c205eb8a890df150be5447cad9c26b689edd;
  Dbl 0x100bbfd2bf67780874ef6f7d0bf70a21eba5caace3ae9f0bf795a2f773f1235c4fdb78cf0db57;
  Add 0x2563e5f32c4ce34fbcc57beca44c7f65f09dac065496fdcdbd4b54d01d09a23d708513e5c1f27 0x1193abe3aa76e92809dae010f86185068e59106470feaebe35ab69841a112e9d9361a22c5e6e9 0x596e733c12b94e358109e5b9753e8678dac5f80fad69ef2398880268bba6b39a81f411d16ddd3;
  Dbl 0x7c729c1c69a7a45ee50362c7b2ff12273f2a8a4e388cf5a79e417eafd5bf0bf3db51a35fce47;
  Dbl 0x4b853abd272b8191041dfd3c94f400259d06b8cdc69ab5091ee885dd8c1f0ee1f5b479e864180;
  Sub 0x5c62d46b8d9bb6d7330f9b3c6f1fb9b7422af705143388487c4056dd7ac1fe6abfe144d1c6b35 0x3483c79625564f43377c68f1f58c100b315ea7f31eadebbc78af5ae6fd56621f9d8be67971f68 0x669b6849c13b19768f784778ee7aac4e46285f855db7441d210584bb4e89136296b666f9b92a2;
  Dbl 0x7847415455879aca225ee0e7de45205109c760c06148ae14b8c577cbb20ac7bcca407e6c2bab5;
  Dbl 0x63fa54471f31c2062128fd9033802e1552a127b491880619f086f95e44736ddcacb937a1a3499;
  Dbl 0x7909cf7f2b68eaeb2caf13eee6a227d1061e7cb937fa472f864a50015cd22ad3f3294f1832457;
  Dbl 0x668c5662552fd24c5355ce70820974babc544188ba07f270604bb1ee36085bae27bbfae5465ef;
  Dbl 0x73596355d13194ad4ff6476a5dd286e344fff69a9331bda5c19b6b0741a84b7a0fc8ce52d4cb6;
  Add 0x5e0a8e14c1e20071952ac4b9d73f7bb2b3b306fedc1cd378d532aee73d3e9c4dd1f0c5f51645d 0x153d024c4e27f6ff791abb986f08d53049d23841c006e3c7059c98550a251298a75184ce1f083 0x794f537d4afeaeee3f89332d943dcf9181d88c606ed0468bd86518e3ba1f7ee1554bccd7821d4;
  Dbl 0x392f9ec0d2a711e7a357c475ea6d36e2e94f6419e98d8c91af419d266d37e4e1e9ef7b1a4f272;
  Add 0x74a289a4dd630087c1490bb589f2bd8a03055d748e42d2f89e9b29431bdda6796f1741148b47 0x5d49025d8b31e824376629ba44984df3becd51cc2efab0e80561ad8ac6125703e6a97b6f3632e 0x36cf8349b7962bd34049514316948be50b2653f357e9be5976dc18b2878eed01ec3d7ee920dde;
  Dbl 0x38f9990c799cf5a7d41cd8c6ced1036e2081163dd547fc4f2d79e28bc169473413f39fc7ab834;
  Sub 0x5adc780ab0b1343d9da91161fa9ee525fa15e9f1882ff960077890d5e602541fc033c63dbfd93 0x654b45392cd94ada3de86687765d6a8a123f629ac4d4706a885c5b7db374a49638c31da71427b 0x5ee0ec372259635b27ab97f562ba8489a09f0c00f3b6cc3a40c2f3f82fc60b0ab3e8ad01e21d6;
  Dbl 0x77e4f7245f49a760d34671649eae7e0bedff779894a009ab4b5b82db67881cb55a9d1760c3ca9;
  Dbl 0x59ed9823ab0470890ef16fb81794ac740379d5a4717a6879be9fdb46bb3c5b413318ac106d374;
  Dbl 0x213e1cac68b4f74fd55b64b0a501943d3952eb6b9ed34a2af7fe503415d104cc7e45d9af31c70;
  Sub 0x39d7ae97f82d633d447ae20f2de2e465c467eec3277760ade733c667f84c8d8d32ec799589323 0x77a03e08d72ef97354ae6dd8108dcbaa7683be48523a7a77802b64e064ea1042b1cad470eb091 0x361d0711585aaab8c14718c6cdffd012413a9bb5838108636d29dcde367c85dba30db72f24533;
  Dbl 0x7fa95377cdd0a38110698db14c38878d81ef380962617c6969eec2051a5d0a8e556ee32577e83;
  Sub 0x3a29f30df2706c73eb36c87c9d164b209c23f208c2f995cebe65a8bda4ac78007dbf5e5bcf9bf 0x7532be085e28a785ed4f2b750c10fb28bda6ddaeba7cb7df966f56ab3be2c802f871adb5e32f2 0x1f5f01c9fef66d8494f3b6cfacab029f93816fb5f14949bd86735b30b49219879102f70f490e9;
  Dbl 0x3cf74f9cdd76d8e256fd959248c86a42ff53c49103bc2148e48f90507ba7d285b12fe2e57a60c;
  Add 0x134f9b3cdeffb119f4a3beec9535074b5f2663e461b92620e0295b7f502f9e0e32410143b063f 0x569857dd5ef39ebe34776d9a758c37c1fe0cf262af4cf0717e15e2830a63d584692aceefebf39 0x5ab04bfa9f114d44200a770dc46ebf94274bfee3d1090f004c32378caa0041366b7be277950f0;
  Dbl 0x5c6fd4241227e329029bd3d0d2bf28329bcc513088d656164f077872ce11e15ea840c9ce1bfbc;
  Add 0x7bc8ef36df31adf1d213b8e5a5cea9f63d094666f9e61cb92e775ebe0caabc5526a90fbdf5b8c 0x4de71c4c2167fd27dd7f71ea953fcc510a5b5c4c19077e84ee8dba09d8dec5a076fa1b0344edc 0x48e2ffaa3d5f197a75b40835e5b4a83bfa48916b188f24f9f14acbb8900f3c8d99294d39ea4fd;
  Dbl 0x259026b8829e90c35ea4ba70052d0687bb0f39466cbd3ea0412a24fbf0e25c73956f2fad7ca20;
  Dbl 0x72d7e72c081aa8c16ecdda1003b7af2c7c22e752f00d2eeb8e73052931bfa0215860baae75199;
  Sub 0x496fb110f8461bb1930d880897d12384bf2b5697f6bb897cf5b38b328f85a747fcaedd95e3613 0x4b93a2dd2640f5cf54eeac4472153766861bbc9dd5c77f3c6f1684036fbd884e31fe8bb8b9d5 0x1c832298325118f46b415344ccbea9935d90c9994c06fd8f31f0baf13141302fae5f032b85f8b;
  Dbl 0x759371d630df211623b2c6a56c9d9f61ce32c4e3d77c7e51cbe42e4fb8881a7e16a811226cdf1;
  Dbl 0x349930985e6ad042cd125cf7796d1a7c1fab6184f26ba2486919a0a9f10bcce8a03a8fe49610b;
  Dbl 0x3ddf9f89c5b35a64f8edda5f94105a0afe4ab7fe7cce01bee7d6d2e9c80a8b3f9879690cd914d;
  Add 0x7ea12ea948ae3d56605d4a269566aa9644fb2602c4fb2fb675377f48de88f145c6fdfbaed054a 0x636a0c71086bdbab8b10c00567f9fb0a3d1e81012dd48300dd51a0974854b6b721a4e9446f2b6 0xb172d2db0873fa1dd666715f720282fbde988fe17aa59ec7f1c74219a7c86fb28bd7d30727a6;
  Dbl 0x3e39150d183e42f2156f3350caefb3968208fd20d086c71801f4f66d6d609f52e75f342bf12f7;
  Sub 0x33972f709e58d5e0f92e2243a1c4e10fb164c179b821b5ab1c0215acdc047277b9733ba04ed7c 0x679f91ac86ec1aad82b72dd6449b1f4f92cb218e7cd75c2d307adb5aaed563b4c1d8f265d94c9 0x11016a23325db78f55af2515235d7ec27c30ab840f0da69aca339a31644d63f5ce0e6824b7652;
  Dbl 0x42e2d25a7e2a31ee5bbb4ff9b465ff94a00c1b059cbacad55a8dc4483133df034410a92cdde2c;
  Add 0x3045d635c09574261a93d69fc6a0b0ea34a4705ae09d7f972151ad35a192256f1bd2d76131276 0x387cf069fd967db5ddfbd8b54ba200576fe728b045f3b3a4dc006c4f690f8663d98dafb7d4d0 0x45f98902eca33054435c9cfdef9c264bab29a7012ec22e4f55fc503f7b8913b3c7eeb5ea18580;
  Dbl 0x2817d8816af85485f6950705e96dc99abae0815f261a10d3c56dbbf9a494322445e6459c95703;
  Add 0x1ebda5838f7282fcd5ac8df8cbbc0fbd90f28a1141d21aadafc12f84369a66a82fa33f644bb08 0x59a5e8470a4f93bc6769f6de126cede0c7fd1627284109f71bfec39ac91aa951de86d5537b7d5 0x1ff1f0fad514f4d3c7858c8c44f8000a750ea456d14d2561a94b6442f3ce3cd6e86243690efc4;
  Dbl 0x95621d14574b10aef7d8a946efd5d38456f85b2839ca2dccfb084cc1bf83542a3e03c58bc621;
  Dbl 0x4c1b40c59085eff8bd4128f75531b9fcd591b84ceb8e45df8ec7d308d3da4f66f7ed591848de4;
  Sub 0x14edfb4090d37717da76ee1f694760778409caffb5cd3439f3970f58d00e8999db7a91c9aae31 0x39326f7e787e63ece1c50e1eba17e25d473101f478aa1490a6ad061579f5b6b1bdd29a44cc20 0x5a40d13f1da8add36f01bf8a0dc3fc6f6c4bddb1f5be5efc44ad895e39ba05110c68ba42f3434;
  Dbl 0x69997a47270db57ef423d3298e9e846b9bb6321b9db3c650e9be4f0928f3bdbb5f38f3edcfbf5;
  Dbl 0x7b5c7f005b7e6d118ac5712ced07db3aee7bce1d8d20dd2780d150c3ba7149714ce40a153741;
  Add 0x870d360504c8d63b12bc1356cdae5a18c9d15712976e50fe8f26ff732a23a1cc9d4965f5df5 0x79a7534e82a442d7edc64fc2ffe4da2f0e8a0a30c546580304169cd2e355311de77bdd5b7fde 0x1052bed371b32f704499b30fdab6acf3b5d26f76e2e01fb5d60401fba116729f55475b9e2d57d;
  Dbl 0x67898c6b1e8444d5e3ac9e4dab168fbd2e5018d7373375699cf8fbba6b56e5e5b71453fe98996;
  Dbl 0x2b779ec7e662301f84c3606322d8a1539afd2f53d7633e31423a3ec96fd9484f3916e414cea52;
  Dbl 0x13130bd6780c80cd33abc151e35755a521eb79f26ca5ba2b05222a6a683ff4f051cf6e13e33f5;
  Add 0x1f16a5c9e46b5e12bbca05114b442a4184557a4b2d6a458d4ece99a4dedab122fb3f1dac37c39 0x2fe0ac8f69258abdc40b5bec57567d6fecf0fcab007aad2993b83496e5c91476648a6e79cbf9d 0x4fc8a5e6b749fc56c6ce53ce28f23021dc2be58fee7758b0fa2aea2c0806bafc867e7068992fb;
  Dbl 0x1437c93a9e671126c78664bf0e8c4cca9e9a47cb743254436988d6c824d83d226e2a42c5f56db;
  Dbl 0x1137ade28fcc29a986e5347f470d2142189cd83580f87d971d9a8b71c91969801a641d86306ec;
  Dbl 0x5a98363616a71afad5390ac8d6ddb9e58431d43c63aa7c77a9f6dd4c85d056b9b7ea97c4b6d76;
  Dbl 0x6dfd87a2e5987459c8b7cb560e01fa877d2886c264fe28a3eb6703efdd63db621ccde5fdbc5d3;
  Dbl 0x49be5ee84ad675fabb4d63324214a841b920ea226ed593a3896006093b42635c1edb34697323b;
  Sub 0x457d90cb497a8cb70b4e2f828e8b94181aeed71eb926c9587a95667f7ab4e9e7cacb4751d4aa9 0x48ad643926f8b39411cd5f9fc0360bda5d0b4227fc49e66e18cb88dcce7158249a037f211ddad 0x3499db89ff6181e634ef84435d6dc0a735ecdc99c68b1af5860df38d9579547e6b8a9f79c56d9;
  Dbl 0xae99c84156af73e2696d6fb6847ff41bdb827bf7149a2e6e8485b6ecf4b0023ea8cf44f3d7ae;
  Dbl 0x41f49772827bbdf2ef0aad6844b864a2f7ad88554b189cd64427f7ebc58139fb31f36f127af6b;
  Dbl 0x2c61dacff6977460bb9c1976f85a329b81e39390de9b9d6a62b60f4908d7196c9d1ab7ec0a466;
  Sub 0xac7b4a7a94d1baa8eec2d4e4d1fe094da01210ea8297fa1928b9dfe513ea50f00d793c0167bb 0x1361df6dce450301d1c9a94c81ec2685cdedf53fc47f3d82e17cb5b6afbca547b410f2cb62194 0x6df9e6a1e67c15698a6e34c962a0385aed034ee96c748e38e5ad7ae991950db8378fc104e82dd;
  Dbl 0x72db05cd799d3c3bc0bc19242a46a069d1eb0ec50fc8a1c335dba4ddf9eb939c11f07513923d6;
  Dbl 0x204eff31bcbb115a59969da1c9cbc8a74c13a65276caf345510ae4915f8da69eb769302e975a1;
  Sub 0x54ff19f94dfd322ce00b2bf769553258a2dd5fcd9e160ab0ed5f466833dad6f72fcb9fcce45d0 0x5a77b056e66bbb1721387d1fdd364c62031794df5fff5305c03e5982d905b79734f0985ca4209 0x77adcee285fca9e75b7b7a8b522c928a6c58b22477451feb0aeb9591cdcf99ef46be8ce9ca36b;
  Dbl 0x678694953eb88a82b94fe353468cee03c76d3b1b5529b3ca3820af151a802bafbc5c2cb93d1e9;
  Add 0x78e7cec891b415a7b8bb5a409515ce490fefaa726bb7d12baba98cebe8f555ab27a3f755b0d85 0x1b576fdf61bf4a1f8f9f39b5020572b6edc96e16e01e70450c364c3f5dd13bdd9d7b0c197bf7f 0x7d7e12bb5a653217f86597de1e4f6c8d1ad60672341f522c6119caf680c8dd6a0405f87ac010b;
  Dbl 0x443c5a7c23157362022d42830453ffef95c9fd1345d4c9111ba021c587ecdd1c0de41da1c1199;
  Add 0xe6f438354c9fac2bd53605a5a7d43b5a15b396e782c4b1f42661198e947c01bf3a3939129a62 0x5ba1aef51666ae600ddd8f830db059e867bfb24042c66400bd6f194e8eebad02349d225565110 0x2a077a39a3d218aed68c63bc5455c048482e1d9274bde0ff680cf1dff686be98e9c1ef85bd517;
  Dbl 0x475e7557eb3a4feb731dac0bee94c0a908c9fd828961705c490aa4b90a2245198aac56c061cf;
  Sub 0xf098eca72608dc8c7a896165a027aa366e782528802dd27fd022108dcd740dc423207834a0ba 0x219750f02485a14effb217bf7f3d099af512bb20c045d39a56bb0dc7a7f03280a026736cca804 0x29979b45d8c2b1531044eb2fc3ad916b2bcccb0c2171518f2190197b71f8bddeee4ab648e4515;
  Dbl 0x37dada0bec2b6ebe59b56ca339db89df26a49ce53c540af37e8549922d6d06ba6fd179fdf47d4;
  Sub 0x4e34dba497987eca4e4ea8c03ba935b1a4448d9a2e4077e10ab32ae8c1d6c997d000c0aca427c 0x109d252d8faa8e5306c49b990a39028853f0013afa9ed1d00249866b960f87a4ab3fc93106bef 0x2a4811b0b7d433ab67f3d230260f52779f3c8b5c11009efd5b795ae5dc9f71aeb314562f80149;
  Dbl 0x5e04fa00e13a8fa1b41276f69f6998be4b0d67b0b75ffcdd4f669807f4f8c11893c5ab404f41;
  Dbl 0x4f5c25b9b7b8439b62432cae3e6b45897dea831cdc3a70b7ed269eb442017f6f274e3b4a9fa69;
  Dbl 0xbf456916c55aa10bdd71277fdc81b497a334014b9f57f3d3654085e4cd0f3b7e236f8dabbf18;
  Add 0x89dcda164b96d4191bc1cdfccad44c803692e04c2f89832265bae55d51353541fac460bd4374 0x3a5489a01ba2fbdb7f32105c1f777d583e85d1d19efb41c081c635706adc8a29e73480cc4e043 0x5b71f054f86f3dbe27ea4774bd094603f6c0a1b5b2dae9b1b6ab273f06da13ebc9342a260af3b;
  Dbl 0x410f156cf0dc1759af73dc8ea521faa6c18c9d9e621060fac7cc2ae16da24a4c3f852e52219e9;
  Dbl 0x2d77366512383f12bf1ef4371e9892afa614266c7561176b26c952473f32c57e385cdc713c4d7;
  Add 0x5defd6aed462ed504d369fb823dfd4f657b5bc97fbaf4a88c067abad0fe400c277313325d9206 0x7b22181ffd58e8aec29461b50b0b82262fb0ef69e543cc25078fd99816bf4ed43a816792e6a18 0x7a157499bbcb5302026e34e46833079a9ab26238c2363c0a14b86f2f8a18c97450845b2316c65;
  Dbl 0x534ae7ef29a2a78ae161ca6192a2ab8b7c606629c94f0fab860cedfce4a480f3a3b1dc3ddabd1;
  Sub 0x67889c8899e196e1b3ca90aa8a18dc89ccee635e7a4f1c45b151d272c7f414ce1b99082b8501e 0x5e7928e170bfb0a821da6fb090199260f1b75fd2ebaeee99d4882f5a6641dcf62836356f6928b 0x4535c226a7b7972686ff19099f4697ca4bd5e89cb74932f5295feb7f5e980019fab33d84c39e3;
  Dbl 0x704a5327b55231ed3f1bd582fc22cba4125fcb6110774ca6ae66041af17b18c598eb983dcf946;
  Add 0x7d9b06e7d8ecb347621e9e27dcb52cf59d4c3863646d688e2593066f7f37c78e0e4a1fc80aae5 0x25ecaacf6de837141f32b2b42d1515e385839b8c88c37742999897b2539897e1edb337d7b768b 0x5a8de01247d22c5a010fb76f246713b0220594348ceb90d49c817c51bacb79d8dd077e07fff69;
  Dbl 0x6e597101dbfcb97243be6f2370582464cdbeb99dd95953b951a2a39539818a7c963b1e90d1ad6;
  Add 0x5056eb59508a3f06fa288a02915ad1f3bd39bdb8ec889737faa047bb12e628257595dfb6001da 0xb6588b9fa181370009088ea869aed90fe2f58bf4db68dd1b86545e0a6dde038766803630bb46 0x49d4898c12c7b38d62486201bf065761c7f659bb0b38c7abc550e058b21cd5d3ab5309f51a8eb;
  Dbl 0x7768717fbc7649458fdf21fb745f593e8d0a251dc422c42b5d248ee5a622d55f86015c4a4d45d;
  Dbl 0x3c30ec15032de5bbb8987e9afe2b34be78b2079c7969a8c643cd11a606c3632d7a2952f59c1b2;
  Add 0x41ea212f49513f4fd34b2e828bd7db3ac19e67cf64dce3020e7a29e96540683682aa7c4891f9f 0xbb53bb382e6b48f4ee035ffa4fac30927dd442d747f390d292624bbb3f8140f9e3d32d60014f 0x19aecadfd284887c20624573289b9fd2dd134122771c24bf98b89c00b9651f676d77bf2a658dc;
  Dbl 0x3ab55eec6e7b650077ad671671f26eda3f067bfb11deaf4f1f99531a6589203cea8b4834467fe;
  Sub 0x25730bbba03529cba3463d8647e6ed65d01fde62917835e650479c73b15545cf52df5527f70a5 0x2dff8ce4c5edb201389a14d0cbb79c32942f4fb1b807921352a0a8dc0162a84c7c02622b2269c 0x3192d3eed2eb8be2f44999f941591ed034e75ab40ef144a163c5fad8a7d2916a40b8a361ba840;
  Dbl 0x1424c08249ca37eb92b02efe33bf34f62f616972e7374983a94fddcdd064d880702ded7f95504;
  Dbl 0xd2e19dd50a58128c01eb3ba675cd0da66b2bd7f125d53b6559058f0be091c190af9658391ebf;
  Dbl 0x5a837fdf1074786e6578b854c831018e2bd474f85882270c60f276b22a5904982d367d008e79d;
  Dbl 0x1521af69f3b4787fdb6348577f44608824e5aaf4cc175954992d494e53993e522680a8f4cba46;
  Dbl 0x1491b96f399f625cbe994db5e2bffcef3bd73094281eda655a52c65a42eb72dccde31dc210ad6;
  Dbl 0x499f04192685ef8fe2008c82b5ec3dc1dd73e92848dac7d046ca8bd696023dc7f2b010220487;
  Add 0x1d1530097d7c2c1061b7f1610c56b89ec3a1178456678206d28a9018b7a99aa96a9673c2939a9 0x1e997c79590be532be93fb7c889b12590503f79be5a10110ad097386d41b9598f834379cd319b 0x4ce626bd02b2d3e23d9fe526cc09b884a57a7836f6e114170a9d24ee8706c73b8f52eef7ef991;
  Dbl 0x47e6c190f329cc42395210fcd88d16ff54c640ac2b8583070ddd30d5639d1baacba14296a2bf1;
  Dbl 0x76d9c00a7e933fbd886e69fa8397500dcec972f5ec497267d3d458104c6ff05b69620d1e1cd06;
  Dbl 0x141e52ab75b468e5f85f04b4a7eb9ead9b6a18975d09d5ce40fb2f9e4620cb4625f582294beb0;
  Dbl 0x594b5a9969bd3b901821ef714b88c1102536a55240197e4121df15221f8cd7c0347f5052d2f6d;
  Dbl 0x7240640832250fc93a7b3375d96715a364305e39aef2aa4fa4a010ec9abce43fa8342666fab31;
  Dbl 0x5d553f88191df9bd1c2c9e4b9965e105bb24ca971e3bea1bee0511acd51728122159a59edce76;
  Dbl 0x1a7ed382e72178a89c3dc51f5466106c2fa659994d0ea1ce183439de990382f7978c3dba59ec1;
  Dbl 0x5b6eb1d5ff808de5ba034e229ec22f32a44432726242f4915428acfaf4b68fd749f62e316fe8f;
  Add 0x3a57d420735e258eebe15b2d0e0984b642505730289e7007139491f5c87cc8697f3913c7848b8 0x10b2bc68a3006fb657ea235f73a8804216e41af41f5dc725466cb126d5e38ac6e04d3aff34ae8 0x773ddf4a705a82348525c04f6c618502cfc588c39e2ad7888d6e18763c31ca2b773673d274ed1;
  Dbl 0x2297eb13467090bcb213327897357fa4c8d90e12a79dd6cf599ddd419259895feaae29070a90e;
  Dbl 0x53ca44b64225b98b7d2982136730deab68196749df98cda42ba18fde4365494f5845b5947dad0;
  Add 0x482474a7416e9f249e1a894019f128e0858e1b9dbd6023bf1f02eb2151aab46da2435d5320694 0x33c8cad1fef7f7570a00bfdfab805eff74209ea7652ea5d9ea04fe62ed4d7a340b5d10ef05d4b 0x4da3cb01c104ffbca8326aff41c252a21f35d4549ee2d6ff9602dfd762d6da4679912a2cc4884;
  Dbl 0x38ce5739e4bfd74a306483f9499b847f528626f243d77c6964e7d295872f878e98877c4993595;
  Sub 0x4521d6e35e5654affdaae4b1793d41dfee431defa42bd1704fc89e99e53c3befea4fe9ab6495c 0xddb845ac3eda26fecd6b868646f5b25a9f485d04877504a321467d09cd8deccb025e2b24f1d8 0x42278cf2c374a406044ca0c2348090766ee2aa81a080d233f1b669282bf23869020ef4d1cdc3b;
  Dbl 0xd68b0008e98e34a31cc4aa9fa94b23fe189ac29c41185f4ab43dc13f255b4fe29f3989de4e3d;
  Sub 0x712c0c2c2f7ecb542e2c6758a96bba6e232687fb8a9c1e012919cd0c160136bd2ef038f9babdb 0x3e1ea62d7b7e77c981ae573667d65ce466af99ca184fb4cc642ea7509ded24da6a286de84c293 0x2fad594019b54c1318ebc05af5fcaf38cae40204c47c9d014b14513b3320b441561382a6ef3e9;
  Dbl 0x57f38d4d3d8ae783006f469ab3db2c47fd03b6a9cf28dce95ca7e5a6d4d1b55682ac96c536589;
  Dbl 0x4a81fabd169b387a56b8bed8e016bec9a9c0c4f848d1cf921791ccd4f8828c27d010ddbfe2994;
  Sub 0x405807bbacc767aface3710a0bbf4038a4ee3130b17834f1831e1dd20f3c0ddfd41dca8c53492 0x3df3bfead12b7cd96e506293fe4a4ecaf9009e3a0c2a8f6068958fa7cb5098d295441a21d2688 0x627f8fc966c7bf51a43046eb0298982477749ed2b567654504a58e3f85202e2a367a492a6c7ce;
  Dbl 0x3e3c6fd9c59664ced38430514db010e1c46612825c74097c8c5ae977a20e09997de1b64e716c8;
  Dbl 0xd487a2fb372818da8256f77ce326179f16adac28c68f2bd17109157206512a65ab349df28936;
  Dbl 0x79172a3353fe95d0a87f27e3eb5d6ee1d07aabdac1f9866cede0764fa3b07682ecd8b92d137bd;
  Dbl 0x204fd567ed61eb40ea93b8fc3a376d5fd26e7bd7edf3e04ce2a46cfd9aa19e653339f86821ca7;
  Sub 0x2e5588f6e14cbed9341b0ebcc6bf275fa97a9e5950946fee4296026745bd8e3ddf50c2386ca16 0x23d1165cbdf659c8def6296131da460cd69151b3d178e738ec30cd3c9021c98dc2cabb0284475 0x4fe4252e08f15f9062bd8cb5edad0edf6076928dbd8cc3339b997deadd11e6dce5552f87d252d;
  Dbl 0x6dcb3cb904fd94c1809411e98a731d73e4098890ce50ef46d8b360845f552984e0bd2f3e5d558;
  Dbl 0x676675c74816a034f4f9d87c193a7a53d6ffb197001ddf8a6ca6ac76e7c351fa2b84654d2db5b;
  Sub 0x371b2b3191c66dc5ea2f9686288eb81cba5ee490dd6a2c0e1b1ce1a41f9b105f3896c934d3fa3 0x2b645ff96631897abb788b89c579071ff5461ec54aaf3cb4583c95a9b70f5c82236d82d3dc3e9 0x5264143e0550953f713cbb528fa88d4c89b228448c4677ca02e646c3427f7e53a5652ff3f7f01;
  Dbl 0x6e639db1034820885a10fc0dcde3fad439711dcd9f8206d824f38163c9e6f930ad38d50f7e6e9;
  Dbl 0x26411ad82011507d8f4badcb7343909389f1a84cf24667cc04128cd8a9bea29c305e675b959d5;
  Dbl 0x56bc15f24f6f32d3b27554865347dbe575af0acb866fc79c0a54c0764e03525dce1b4ea7a706e].
Lemma order307 : order_check 307 0x115 1 77 (ofN 0x22a) 0x216ee8b189d291a0224984c1e92f1d16bf75ccd825a087a239b276d3167743c52c02d6e7232aa 0x5d9306bacd22b7faeb09d2e049c6e2866c5d1677762a8f2f2dc9a11c7f7be8340ab2237c7f2a0 0x56bc15f24f6f32d3b27554865347dbe575af0acb866fc79c0a54c0764e03525dce1b4ea7a706e cert307 0x3ffffffffffffffffffffffffffffffffffffffc079c2f3825da70d390fbba588d4604022b7b7 = true.
Proof. vm_compute. reflexivity. Qed.
