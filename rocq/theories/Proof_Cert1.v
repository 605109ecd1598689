(** Generated: slopes for the multiples of the base points; checked by [order_check]. *)
From Verif Require Import Base Proof_Hex Proof_Order.
Definition cert163 : list cstep :=
 [Dbl 0x4e3870b484772131a2ffa0d7824a2cfbad93a9263;
  Dbl 0x569ad792fe235f523f86d10429151d000d8d1e965;
  Dbl 0x4a1420d3fb6667ac0a3a150b0547f872f91b634d6;
  Dbl 0x5684e0e26cb0956764bc177c7c341a9ff06ea4f6e;
  Dbl 0xb44adfbd1dee18998de94a365a80096b25ab42e2;
  Dbl 0x3d79015bb481d3cb7e5e6f81572f551895dee954;
  Dbl 0x1e7db6b37cd7b47d1ed7b04cb7944b6c2a5a5f3f4;
  Dbl 0x6375a61c8ce00a58e57d42bfc9c45c552555ab204;
  Dbl 0x28483e168d22c395021619124f4eb161eb61382ef;
  Dbl 0x1669d5bd20b2ede962045044563e102b0a5f5571c;
  Dbl 0x73db4a4e4aa9b767a9cb2bab26766260776c151d5;
  Dbl 0x3198a2eed805565545a066cd05faef60610d4494e;
  Dbl 0xd7b1acc8c76a8b4c7fd3b5b718d485df6a879ec9;
  Dbl 0x3c6f0ce7fa4adc674728333b66b8b59a6ffc315e;
  Dbl 0x3314b179c28a5ec6db25aace39b5ab3382d160388;
  Dbl 0x47cdde9f89ae622e72123196a46c7968a655811ca;
  Dbl 0x7eea05a1315da4e9c7645c6c4aa8cff3d7465c9d0;
  Dbl 0x21bc9f678c06e38791745f448cfd35ec8c6b10ed1;
  Dbl 0x366a4716024c19916f19fb25f50e50bf8245eaaa2;
  Dbl 0x6fae5a4afbc930ce6e38321d8f32a48a67ac8f85b;
  Dbl 0x7bff77cd337c92764685b14adc8862e3fb733ae44;
  Dbl 0x7b7de881a3f1e2e578a1cb3878ee4b41ba3181697;
  Dbl 0x3d831474d6a65110b464f569daceefb52070666c2;
  Dbl 0x593598bef459780e091c0c97a16e04333a8a1eac8;
  Dbl 0x533ce2a28fb31d9a84b1e022e4a241975cb19a818;
  Dbl 0x423eb044067a7660e4ce4e8107daf5830e7e6fc62;
  Dbl 0x22f79c24b53d6088448e7fb031cb5103613664570;
  Dbl 0xce2b8d9e190146d3fa20b1646313d3120eb3b6f9;
  Dbl 0x232b89f7d4260dce54b66c4b17377b1ed3a951787;
  Dbl 0x4ae833bcd7b1a4c117c64599bfb2db5886957526b;
  Dbl 0x5189c755fa031140722e219205fcc1cdad9f2763c;
  Dbl 0x1ab7759165d517e9c144611e8fea24c0e7dab82c3;
  Dbl 0x5db69349fdb3b92f67348e101f727816c2f210579;
  Dbl 0x7bc7b5a5447e6ad0564611538a435ead73baedcfb;
  Dbl 0x1ac466d36f4faaecafb92a86b95d627b19effbf79;
  Dbl 0x44a6311d8b62e2134d396c0869a9ce320315299f3;
  Dbl 0x795dab3853c6bc92e7d03f8d233516d65744c7652;
  Dbl 0x5796c1e61ae03abb06d7c99494f3a8b1c69d70f60;
  Dbl 0x645999737eb5d5b1b516a5b3659f459043223ad91;
  Dbl 0x1808ac5c1b66f545344f404860fef639c20d1fcbb;
  Dbl 0x6d87580af5a97c24cc7213d4981403c400adb8fb3;
  Dbl 0x14ffbf794242df10220d93362042ffc58b96f7de0;
  Dbl 0x3ce8aa89831d4a6edbdedccbfa2c068509fb16956;
  Dbl 0x6ae4f58328f2e11d882e8d3670861e78b32c6e7a5;
  Dbl 0xa5ed6b9c697f13f9be41283ce3bdb6452bb31f56;
  Dbl 0x61f443209f8103e5dc3beaf5cfc6c58a1b37d286a;
  Dbl 0x3af6d494af2a84c70f2eb696df5abef5df2f8bfa9;
  Dbl 0x152b33321c0c78648183e7461144e5ba887860421;
  Dbl 0x4078752a2059b9f82cd61ef3481e8057dc49c6315;
  Dbl 0x7eaa7eddff8e6f52ab0b5dc20c08814a8b6b76cd1;
  Dbl 0x481a96fb21b39bbce924a7db9e5198698e8c8b9c1;
  Dbl 0x55b5820511366ba71774ff379386d08a86edf2a8e;
  Dbl 0xf5bf94b6152231d7b279b72af24bcffdbc429987;
  Dbl 0x6cc4615baf5045c78ab4f9beddda33dacea7e90a1;
  Dbl 0x6e8172b028fa32c5e0a4b099cb0f62965f9153752;
  Dbl 0x5ff264b1fbcace7bb03b487fd5089c8a6873c2b17;
  Dbl 0x6dd703ab361ac3b2f6b03c67aa8a028d85bac4fcb;
  Dbl 0x99496a60309a1b096ed3f3ad9a9c8261d0b03987;
  Dbl 0x137f63618c0df076d61d0b88cab9663afa975b2b5;
  Dbl 0x499533e114be0adb9d25a563bfe3ac4d131db5786;
  Dbl 0x225522ea44d8cd4e41382c6a5defd344d805f11fc;
  Dbl 0x1b7fd022eba2cb1750611939db67fd10860c66dc3;
  Dbl 0x2b22355e1c551cbe6dcaa5a06eb4dd4716e433fc7;
  Dbl 0x41acf56ec2fc8ef5af95e5516c8b6b6948706aca7;
  Dbl 0x3dbee383f545de79ede5d0a2afa120921fc711db2;
  Dbl 0x7adb62212d1f35007683f6ea8b5d40f8df7854440;
  Dbl 0x65a74f5ad9b3130cc3c97eeefa31bb727968e5399;
  Dbl 0x25596930ae64c1e8d1c54a37ae369eba712561f6e;
  Dbl 0x2ca3144b0ba5b8617207dcc285bd4af64c10cc023;
  Dbl 0x3c8639311e4282a4b68d0ac6255d9a49e44ce4f8f;
  Dbl 0x278f0cc9390c2227a15d3152a05869583d453a92d;
  Dbl 0x4d91529f2348950ac60d8ca96fa453a76dfe8caf2;
  Dbl 0x31350ca2503a96e1cf6482f520325c1a8434c0c0;
  Dbl 0x317bd9a3cb322445d269abab95f63d1f4886c7f56;
  Dbl 0x75bd65e9b0d68b69e6ab81c9c1dc1d0d5ed29d23d;
  Dbl 0x2c87b7496a20106144fd2f31b07926855e5393d10;
  Dbl 0x2d9e8f93c43f44b130a7445d2a6d5f7390f853723;
  Dbl 0x33517ab53f7d5c39621deb9de42f12ab6bab03b59;
  Dbl 0x5726473cb2734e62307117dd08994c51a1f9dabd0;
  Add 0x4820f17c222272a5839203156919b79b3fbac309a 0x217e9cfa3e2617cee73dea646a06052af859e6b3d 0x6569007a1f4d7c5ded2daa7a2b9a58f939f84e726;
  Dbl 0x7bbd9f350288ad0a3d8691cbf2d6b0cb984819dc7;
  Sub 0x1536ba971674a3f89e2279304113e5dd2c6bc279d 0x3e78f82552e2b6d93dc218c8393da0b098a250b56 0x6aba2f11b2365bb7fb4fbd8581def4d1e3b9559b2;
  Dbl 0x262aab0066ac80329c01d34a07025321be2462691;
  Sub 0x7a083c5f8404c5df72ea0b232b44f7262f82a92fb 0x31e485b65d3fd2e41bbcbde09f9cb38968051983c 0x71751023029a9741522c890201a395d8a46909936;
  Dbl 0x2cc64b0654071f5c871759f926405b2e0ece73da0;
  Dbl 0x689387356d1c8d190c46656fcf294d4238bd1d2fa;
  Dbl 0x6454e0491e56f87019e123886625b15041436c3af;
  Dbl 0x683c188d5e9a5f33de13e1accfea5dc4c2252adf6;
  Dbl 0x4b492439d20c48268f998677b29bb468e5f9df38f;
  Sub 0x2d4f06dd5bf3bb67d19f7ce153040b14ece0c96a1 0x7ab23a660b585467aef4c50f05420c60c221e2d2f 0x10eb6e3c9ce492e6c3cf20f14503bc43997aa02b7;
  Dbl 0x5409813486fd0aee4e638a1266d757b65f141d8af;
  Sub 0x1f8c05eb17a2b864b74f0d3ce465b8e9312cf797b 0x55331a57a84d9cb8a4ab7ba026f9478269c548110 0x7e2a97de22229bfd5d5f47bf84f231dac61e6395;
  Dbl 0x68f601ba6f844357a4838686f0b39e6f0c53b84b0;
  Dbl 0x67a2d31244c03dd66cdf616021d78af0e5a520d0;
  Dbl 0x5c29435ce239e7e02402bc659a19cb5a84664dd43;
  Dbl 0x32d3c138de1353107b9d8873b192458ade050f14e;
  Dbl 0x4c8795f03f792a914cbcb9645536f50ea31f96cc7;
  Add 0x74603fe34053c240da8f2bb3573430009a090e24f 0xe7df978ad9622cc55e7e3f475f2c0bcb7a9156b3 0x1aa4ef9e3c6dfc89a4c26def60482d897b5a4f083;
  Dbl 0x5222f2b734601ea5ff5647f79b5c929b7935d76ef;
  Add 0x60f647004f17f2d44d9d5c7da54f0942f7a9f50c3 0x2202bddfeb6d79accb93201125f941f21838c22fe 0x3984e15dec1759112d88f534d4f78f2f788cecfdd;
  Dbl 0x2cc01c88a2090fba42908f343bced23ff34879f7e;
  Sub 0x71b061527ea63346134dde6438db85d7ba592ce05 0x5e4277d84ed2993efabcfe37e03034a64b3ced3c8 0x1f1d39b4d6036a4458b905b57fa63d6788b0c5ae5;
  Dbl 0xee7b0022e7192e6505063acacfc79c7238b343e4;
  Sub 0x3b628cfa04967f2e9292bfc044d64def06ac46d2e 0x7b1206aefa2ab4be76fdb678c83a269abaa40cdfc 0xf5656713dd41c01a3e36c5ec542b083928d5edd0;
  Dbl 0x5c06e874ac25f87757617cf7d39b5d75ca5165465;
  Dbl 0xcbc8096e85abf6c20e4a5f36f32de33aaf98003b;
  Dbl 0x24f02fe5af6ff5ebf3e02483c89bacca851be7a8d;
  Dbl 0x1b6d22fd8e8134b05d30bb0a80f05eed333642cf1;
  Sub 0x25ce87897e0418700308714e6c34c61961e994ca1 0x516de0df94cc4dc4d35bd2438053febd10a7ab8b6 0x337a83da73a86b7e022cd15f435a2c1ba392b7602;
  Dbl 0x5286c2d6fca02354cb6cc663b6b0fbff4188f3027;
  Dbl 0x673d0e28f4912037d4ccdb1dbfc9ff5923b14bb3;
  Dbl 0x7ebdca3f1d3833cb430ec5dfa5778ea69f2c226cd;
  Add 0x524168955dbc6d45dcc7c5d744b4400ad7f8adbe1 0x4036053a0abdc1ba66b8e459e7b543ebe1f77b842 0x75bd43fcdebca0979668f2651f658a4f6a0eee5cc;
  Dbl 0x64acc10a4f14bb1bc7373ca9102fc2c35f0d88fc3;
  Dbl 0xab594087eec01b5e37f2b6ea9c6e4337bbdd3bb7;
  Dbl 0x1ffca59f187f886c0f78c65b0fbb280e726c81351;
  Add 0x74deb2370740e4ca85abafc93f4957b461ef2b13b 0xdf06f07ca50b353f35a848c9f21fd53067415d96 0x48713ea0f655047d040509bcfa49a771ca60a3219;
  Dbl 0x4134191e9ec090999544d61ab29864097c1d893ca;
  Add 0x67bde4c8fcf02787609d68562b87db8e8e4a9b628 0x1da50d6a1c949ad08eb00dd05e930fafb557339a0 0x40178705c64bd2f566d2e5bfb2b2ba9531a967f2e;
  Dbl 0x412cfbdbee5e1720c2a2921588bfd272bd0339fcf;
  Sub 0x6c3f04dafd53732dbb21ddb71d6cefd3f8744b979 0x2cc0d390299ecbd3808686774b1335bcf83016135 0x2bbca1409b2792104147562a4631cbe050ad23950;
  Dbl 0x177ae693002710939c61ae0f722401def1f8e453a;
  Dbl 0x637f89728028b5a5b7ec9f4bfb6fe284e6a35c3fc;
  Add 0x47051d92d2279c723c05ddfb46f6fbd178e1e22ac 0x3627a39754bcc8666746024a089812938b21b680d 0x17b357fbbe658e6874122c46e2a89e735754cd6bc;
  Dbl 0x1adfc5bfc34a103d7c43806cfe794288f4409a11;
  Sub 0x5d67d0dad029061f1fd200a3051e13c9d8acaa986 0x5d0fed7d1f70fef6439c5e9709f897531aec5ed25 0x3286599bfb4a2fb30b819b006cda70a33830aac43;
  Dbl 0x55b889c3d9d2f597f5d02d25682ef46173f18aa5e;
  Sub 0x3776d21f68ba3366bf2d3030c73b44ae162392921 0x76251cb5ef966dbdf8dc48150d24bd4e47d648a82 0x47f395e5bfaa4be4b275f081ac0947c44342aed06;
  Dbl 0x318141c89248ec307d49aab1c485aeacf4585e439;
  Add 0x1d6b1c6aca6cb112510adb5088dfc9981d2970719 0xdee50275b1715a8ef8f01303f25055d2fbea7774 0x705ea6b293964c54625552b1ce0059752e7eb07a;
  Dbl 0x6cb1651a3d7a98903fbfed6356b7f8f2a533d198e;
  Add 0x412112451e798712513e26aa084bb4bfa6cd0332b 0x59abbd9fb4e0e8cf807c6292a92ceaa2fff3d90a7 0x425620a7974f413631bffdffa38b1e8ddb4b9af4a;
  Dbl 0x6127f7b6540e71459c892eb0650cc2c15bff2d0ac;
  Dbl 0x66cfac85136588ae14b7008d096862e4fc89f5a61;
  Sub 0x7b78f2761d78de05f93ffccc863c2c6b8715d172c 0x20dc355389417b774d71fb0f52d681e1ae155e10a 0x1cb24e3f37d01099784fb18ff0313f7bd0b94e1af;
  Dbl 0x44a7bf39538b50d6d6467ef55742c39e610144858;
  Add 0x7a11593c52dacec2d7404ac0174424a49e44151c8 0x4e54568d2c1db7428d294641455f3d0344638d943 0xd2ebe6217892811e1038ebf8428ed273c3785b1d;
  Dbl 0x217958acaba9f0c2c19ce3643b8afe28ad3d95dcd;
  Dbl 0x3821c7fe62065705225cbc5c4f31d66f8db84338a;
  Sub 0x39f11365ce3cc5c6ecdcad2a4747f900692eb9065 0x1b3169070bee363634516e1d927a8ca588c0d9ffe 0x1901fd509923d13b6c6480a65262eaf2de50bc920;
  Dbl 0x7a76442ef7e6ec3d76b60e440365125ed5e6f7b3b;
  Dbl 0x2d6677f5540554e9a12d28dd2351306b35a1ce0df;
  Dbl 0x55cde4cf61f4ae11d9abdabb161b1cea9a73132f0;
  Sub 0x7b9cc935eaaecb66aa94b26bbfff196e3139ea7f4 0x403d81f468b86c952908104a42417ad8456927f3d 0x49179ef8fabaacfc500fdf9f6c0a8cb80e6f6f499;
  Dbl 0x75fd98a008ba76ad62709f36c826390881ee323d;
  Add 0x7e8774130d0ed55c0f0c2781d628e193a34343376 0x6dfb30eb95d9dca06bf2bf3391b2a1712b6806537 0x43f5ec14590017f283eca29a4b949894237904c46;
  Dbl 0x26d24d07e418cc0ae1287c2674d125e7364c80bdf;
  Dbl 0x6c3114b7e06d00d17a0970c01419557589819c52f;
  Dbl 0x3f66ffcca943e1f0dc037d45fe718d8745423ec18;
  Sub 0x494cc92594b3315816409d55a04c4e948977cc167 0x78c947805a8048ed01be07eeb45696a2e7420072f 0x3e0a89950797a7041e9b770e32b507577a2abf1e8;
  Dbl 0x724cd1b04c647cd1028196916fc448661fafe6a38;
  Dbl 0x36ed2f150cd4f8e7539df7489d167e39f8cf4fc8;
  Dbl 0x65f0c7ed55714c4bd23abce12d9d3ed5f7573b2c6;
  Add 0x912e7dcc885c0136d6c8d4338ffe2aa13f19a4bd 0x3ecdf7674814eac43402cd4280daaca12fe9fa05b 0x65b92dc302ceefbb62ce2901d3d939663e3e4c762;
  Dbl 0x732c102c9543a178d77404cbed2f1a58a16244825;
  Add 0x5f44e6b2116e1df8dbfa0490d9a08cabe23946719 0x4cb3f29ee2916b90680e9c525349f2cfcf4ebe371 0x49e9ec14ec1bb9aa8084e347dfe95fdb10a88da80;
  Dbl 0x7f523e2b5324296288927145ea78b0c79e05f2923;
  Add 0x4a06ff49e43a7bbbeeda302a2abb27ded6b92a041 0x3b28a2b0c3ef0b2a9e362151f079857a0a4d2ff74 0x275210c1222c1dbed8fc0d1a8e5cb252993635673;
  Dbl 0x174c7c71666d3e9834a7288397e36712bc3173719;
  Sub 0x495bf2ea5498df95230ab3e03e62effcaf03294f2 0xb78f7ad34d4474543617fa78a61f5b72998d6557 0x41a1e3b9421c3debc32db341d17167e798babdf85;
  Dbl 0x33851c433398ad01b3b26184c7eabb7f76dc9b2cf;
  Dbl 0x52001be4d9acb14c0b6527f699ea455d82168f6d3].
Lemma order163 : order_check 163 0xc9 1 41 (ofN 0x192) 0x2e2f85f5dd74ce983a5c4237229daf8a3f35823be 0x3826f008a8c51d7b95284d9d03ff0e00ce2cd723a 0x52001be4d9acb14c0b6527f699ea455d82168f6d2 cert163 0x400000000000000000002bec12be2262d39bcf14d = true.
Proof. vm_compute. reflexivity. Qed.
Definition cert167 : list cstep :=
 [Dbl 0x47cacbe7c1de3c0a3edb955880febae5e64c4d26ad;
  Dbl 0x524326054b8947413d622e1cc45394efedd3088138;
  Dbl 0x2922b520a37dad5dd3bfc42b63fccae027ee3502e1;
  Dbl 0x3cd5dccd9eed4f70951a3ce91d186f27d59dade401;
  Dbl 0x385539d40749aafc4606c3992f6d5e8057cf597af8;
  Dbl 0x2cefa92bb03df4b0628d3d00972f8d9c4a73c2e34c;
  Dbl 0x2eef97e59131a8d4361c5da40b801dc978c102836c;
  Dbl 0x5cbf3f67439491bbfcee7114a2c4ac11ca8cd7d486;
  Dbl 0x77323d75e29143c4f7fa051293f424af5866a0bd5f;
  Dbl 0x3c4ddc9aa1b00ee654b199faabcf78b02d2e202e69;
  Dbl 0x662533bd97dc44eecb2b0d0818b5b5993850282795;
  Dbl 0x1d134d86a5a660dc1f4be6bd0689dc219968c81148;
  Dbl 0x20587a03c8e1fab160733665e9c108ba4d1cc1ce9d;
  Dbl 0x5a1a61c42879ac255d7462115f29caf374ad2a71e3;
  Dbl 0x77b1d67d854e38461b7c0299e60afa9da36b3f69d5;
  Dbl 0x104806b22ad174ff9dc0c766d1655e4da3f993619;
  Dbl 0x529bd6549886428bc1f68e765aecf8d4838d40788;
  Dbl 0x2a49b6214917ebd0c58ae2be0d427ad2e347259a5a;
  Dbl 0x250f642d51850f7f40cf835d78c91bafb20e8f1252;
  Dbl 0x5e053459a3b6f1b610c2771fd7b87937662f7a70a8;
  Dbl 0x43c33e0a6c50a83731ddb42d1410d3f1cbd39dc03;
  Dbl 0x54d1d90b788c512cbe75699f607bfb88a3ae55179e;
  Dbl 0x2c481a8d9656ebaef64805d00596753448c476f4ee;
  Dbl 0x2a2c5acf3023da6201b67edc28d286911bcbd2c962;
  Dbl 0x42071a79717f4ff8826fbb540d7051d89b26735c9d;
  Dbl 0x590620808da6b2eaeb17aa2d36b9fefc5f7565ec84;
  Dbl 0xdcb0d71f7b5d5e64e97d6febb75eb08016a61fe72;
  Dbl 0x488fa35c33e61c82d50e35bd797976642b2f7faa96;
  Dbl 0x5a46f64d0f7b7b7fa328ddbec83083d0165471a618;
  Dbl 0x29fd45e1b8a8247839b28a7477faea2ca038da3006;
  Dbl 0x81bfbdba879049d748d0ff47cbb71cdc3130281b7;
  Dbl 0x6a8b387c3ad27edd8db439882fd8b0f92d5d4bb2d8;
  Dbl 0x512ab722908d0a2d369bfb70cf1361e4865fc88d3c;
  Dbl 0xe3f7018fd9c108bffbf2ba1fe603b4d500ba345b5;
  Dbl 0x53edbcc32dcb6d76eda60ce1ad7052adee89539e42;
  Dbl 0xf23abd587f04c80d080f2976fb8d40c2151f4127e;
  Dbl 0x71b64172451c449a5da2ea54f9a49a72ecb2574901;
  Dbl 0x72efd1c8e60d457f473dc97a5c123c68d5280a2bc6;
  Dbl 0x255efe89a04b8277a1e1a937780a4795e60bcf073c;
  Dbl 0x7f532810af0d395642fbe2192a2c3682092d6a447a;
  Dbl 0x57b3d762a06c4e87e28149cd53dea9ae37c87595a9;
  Dbl 0x70651055513132ff321d1e845211ec26f027dc030f;
  Dbl 0x29a38c7a88aa51a03e16beda8e1bd807d8a9850ed;
  Dbl 0x207a2178d725b0146f06d096db68f0285ad706bb11;
  Dbl 0x1e71cc66f394c104ba324e5cad1e6bba68f2a862ca;
  Dbl 0x3149a7f79639d6910729fb5e8bc57b1a57ce4fd07e;
  Dbl 0x5d05d6185f0d4d61223b248ec6fba8beb4d2c30c81;
  Dbl 0x32d5b7891316495f035ad6f4c1c85a202d41e96fac;
  Dbl 0x4e3027720ad13b634ef66b986a46424beed5af913a;
  Dbl 0x24edf87707c7183425ae634060a9e7bf5dd0a999f;
  Dbl 0x2e560dcfc8757a28edad3dd1fe614ebe7e1f23b3e1;
  Dbl 0x51ebca7a64ea6e1386fc3f7aba4acba1ecde81341f;
  Dbl 0x711b45b368d0c71d2782260f1e4fcf12590acd606f;
  Dbl 0x54b9ae80c70a293d4fa72b8eced0a6645241dd8974;
  Dbl 0xe955cf48dbcd9adb02955bc65e52c689556a3de0;
  Dbl 0x79fb71990d47949d469e8a22169d751ddbc189fa4b;
  Dbl 0x1bab1ef97e83d097e2321fde29273e4e4dd8a512bb;
  Dbl 0x4348df51e50c497273e0b4e578d626d9a1813485c2;
  Dbl 0x3dd4cc55f92963aeb15f92f0396a6926952ae56739;
  Dbl 0x2f7de1ca299c742abd208573c2deed7c56a56785f9;
  Dbl 0x6c842b2b400ec88337f2c0bbf09ef22b533d2f68d2;
  Dbl 0x39d56e96d2c4ab67c862e3b4ad8a391d67f13d9cc7;
  Dbl 0x2a626e8afccbf7e0f4a2e1f944209990e5acc2d1ed;
  Dbl 0x1ea1b5d559df57e51a44eaa380369d7b8ad4311a1;
  Dbl 0x5269e394e5e6ceb3dce6045d9a24e443d9551635ee;
  Dbl 0x1752319cf20b10592a52dbad2e5d1118b814e5f4b7;
  Dbl 0x7f38a923eaa6f57e6a110df75db265a54056577b72;
  Dbl 0x32fef3c539bdd0c00f21ede0175b769e6103682df;
  Dbl 0x6371b5ca3d17ceff9110997ca66a736d7838e87608;
  Dbl 0x403e56d5e296cf02bbb84513f1727520a2ec5d4f84;
  Dbl 0x3564e10b2a700bfc383d35ae887e6b7044a297c4f0;
  Dbl 0x54d7edfc2bb7f9f74103320b0426c860b3798640cc;
  Dbl 0x9949ef6a37ab541cf824f37017611d8ae448ba44c;
  Dbl 0x58f6a6cadab62959b94869ec9965abb87c4ab9a178;
  Dbl 0x789a75adfb06c2b989df05b15d4fe2eabef4857d3e;
  Dbl 0x7196c76564c3b0c8f655d39dd3be0a92874bf33e20;
  Dbl 0x32cd9117f82dbf0e7842e95c31ed4c5ae6491f45f2;
  Dbl 0x3e9333b94a61b08503436082aa3104e014b7d06188;
  Dbl 0x2fca2e190c8ad8b03fcbd744b9178ee7f7ae1f6f68;
  Dbl 0x1ef980b4e7c2ee78510d7c3033ac750da865dc27cd;
  Dbl 0x1fcd69aa497526d6f3ec91f3f865d5fa1cc4341900;
  Dbl 0x4ad9e4113b3b08e27d8819384e9b82649ed2f3b72c;
  Dbl 0x7f3d3003602f934bcbbe14c52037e9135253a2b5a9;
  Dbl 0x4cbe1d912d5c574b34fd560bbe3bf901a579b3e71a;
  Dbl 0x5783fe2051199182003d3767d806436836e8611ba5;
  Dbl 0x7097855fff08cb25801292190a6e742668b0fbdceb;
  Dbl 0x445972ff79465e60604892e652da230ebbe3f9a76d;
  Sub 0x2f424124f003eaf44c9481d95de84ecf06e064028c 0x23c417f7a6f4fe90b2ca6a6b311fe1b648e630079f 0x60ffb530474e62cc1e57ea359bb0a910cd1ac06eb1;
  Dbl 0x2f1cf35bf5635e9ed6d0c00e339b47f5e9f950201a;
  Sub 0x5cada8ad11821d1d24a37f73efce8b0691779e2e82 0x7e12aea7a68645d8681e4b82d6f1346d0a523cb371 0x3ef20ed99c95770bd00c6870b2cb4a05490d3fd760;
  Dbl 0x7802537a66bb21341f343bff243b149bca50c0e18;
  Dbl 0x9a4009146988f4570d34c6d4208d379e48ac9b7b2;
  Dbl 0x77573d2344acf6601bebec01c2594aa8cbc2b5ab32;
  Add 0x4178ed97316cede4d8c8e6c1481a33f254eff99203 0xb214194d1ea286780200728a90c44ed4cb07ebfe6 0x525754e7a577d66cec39e4420ba8210fcba24b762f;
  Dbl 0x2a745eb7e4325996594434df5283bdffe55030dad2;
  Add 0x373ea209242657ee6af14378f4262b9ecc6156db52 0x36500ab7891e6701315f79001c61875ab385c55b99 0x499525485a7f4d302f4846866a596c09bcf5bdf89f;
  Dbl 0x10c7af436b0fd954651ac8895912ed5cd00209797c;
  Sub 0x5af4f669a2b0ec1dcb0fe623c3f437b176486b6d6c 0x708ecca7699ec282297d19c50d6884bc2e540b96e6 0x71d4414b6c7c9306b728dd47907fa944305b46b68;
  Dbl 0x25d4bcd498735a2edd13a9acefdb50da4984d88d57;
  Dbl 0x6b8bd9565a9f94f737b142d6308891f9ac00692584;
  Dbl 0x51826246d116282915811d3c4166145ebae1409221;
  Sub 0x2b42f6cd2dfbfe990fe1950882c617c96e2c40d685 0x6dea6e1dd6bafda124af0c1a8d328ad4a75321bfd7 0x42cedc219a27459a0fdbc8dc4bd1c86fc1f78f1221;
  Dbl 0x485db4e96fa11991039382ae41bf3a5cf167e86e4a;
  Sub 0x76bdf20e3831aacbd5b8fda18b800ea899ca794a21 0x174e8216f1a95946817870ba21817556d4e51fc6db 0x18d92c66773c10f35035080952abb6bb74c12eea05;
  Dbl 0x1fe4d42c6765a45849ed2d4a3339250e6e6273ea0f;
  Dbl 0x6e35142b18d2b33f6747ca9e55e591cb7d0d3a4658;
  Dbl 0x5a6abf0c034884b5b0e1a351d04faefd066ac6d7eb;
  Sub 0x7358b43f7d08903b548e5024a253bd34bee866cfb6 0x3953a59936fdd734fb16d1ff65bccb06570628f3ad 0x3c4cb18db6b672e53d4fca069dc219b998779ccdc9;
  Dbl 0xbefb2a6602a8fb3ee955c6c7da5d5b6e4d4bccb99;
  Add 0x64e068506b409fd50dbec26eb4af0cff60acee2423 0xe19905fd304e2af7327392af71eeb72271e475353 0x5b9aaf0c347cee84e1e38afeb87019209f42625425;
  Dbl 0x151ce723897a419692eb88574f12841b4f5fee90fe;
  Sub 0x44a31e1eb87c309d68e734aab60dc2b39086063904 0x44709d353e0b4fd141f574b2557f46b49fa66026b0 0x8914e698683d2b47d704502c836b97fb76540e1b0;
  Dbl 0x6121bb30cf4c89de50fc84e47126ea99d11028fc51;
  Dbl 0x37d036e70510a17723ce7c47960a4e9ef2c00ee800;
  Add 0x3b024931b4816a8d0ad875634b7164095a3718e50e 0xba7b29e7945eb874e4dc9994b837ab6af15482c23 0x48e237637bafe57c74f38c13383705a24e0fc421e9;
  Dbl 0x2459448702b15bf14311140815c2506f62d09f9320;
  Dbl 0x328fd71f6f1811baa17e41c51f1a3b4868ee2b6d05;
  Dbl 0x38eb903790b4c41919572e59b325bfffe467713b93;
  Dbl 0x4aa64a66bad0f1a0006b2669e4b79fdba132cac345;
  Dbl 0x5bf95847a1af9b08af92b01b627c8f2da6875016c3;
  Sub 0x47b3953ce980b792fd3484c33080ba7584c11cd88e 0x1a72cbf755b1309e5fea6da3f3fef2a365b48f5634 0x174dd1e37cbef6cf79941c8176a99ed925159c7f36;
  Dbl 0x5120582555220cacdc021be114b7fcb2f8a120b556;
  Sub 0x1d8bc3d2a59bf1f9a728a516ddbb504a0cd7d93de0 0x11a85b64d3d948135644eaedbc5821ff61db0a7238 0x3226ab33b2ea928391bfe3c6e372327c67c0320768;
  Dbl 0x3cc7f0db7f3240546d7c131939e5968b426c6efaef;
  Dbl 0x346a318d0ebc94384837524de792ba5be6a5e900c3;
  Dbl 0x590268191a6c0b7e9240d9bd16746891f2d00d7296;
  Dbl 0x370a7369416d6ac3019237a605b1e3d777342b1f17;
  Dbl 0x5cd3105f621367714bd331db69baff9d645169c0a7;
  Dbl 0x3027ec0fda5bf242d585c889858aa5ef7499ffa915;
  Sub 0x7d82407e85aa7e49ba483057b5d1d6cc5db85a7a9 0x39a3ec4ec6e1db1966b9133fb4daebf5013eadc1ff 0x6121add397b50d70c1707cf85d5940ec8603a4b7f4;
  Dbl 0x7e41e0b2866133665f692efd0615965275c0cefaa4;
  Dbl 0x1e34fe09a65c6b1cb6d240816c7c92be787d45c0e0;
  Add 0x11e103a18074336a6eee5692eb2add1860b631f845 0x46126387df9a78e5afde3a55b74dc1907c799e50c7 0x30141dfe979eead68bcd3fa128838d88472289b7b2;
  Dbl 0x35c0b17e206c3d60e35ded0788d33556180b44891d;
  Add 0x502b5049faac6e1d6ccb4dcdb3f01ec67b71e91369 0x11ecb0045c45b202d6a962f6abeebb85daace6ea0d 0x7751f3b97f27ad10663acd323dd2ae432dfe792098;
  Dbl 0xa7d519e841d6c35ba450c186240bb88a563ed4cff;
  Add 0x422b145e91299a9e2d0e104dd62c39c854a4558231 0x2c643fa95525eb236e4a6478909ac3bc4143163d02 0x7291a04f59a75712e9195ab7528e76af4c71e4a6f3;
  Dbl 0x3d1534e9e32f8c90b13c84e627335873ad610c39c7;
  Dbl 0x20816fdbe51f0b07404882946b0852dce5c44809a5;
  Dbl 0x728b91041ca321dc3023f1013fcdc84479903b9db;
  Dbl 0x67bb353816d83fe7f4eefb0342e8f8bc9e1f67d796;
  Dbl 0x53b7730036b0586eb1cbc3b6793510e795981fefa8;
  Dbl 0xc01ad582afea68e38981db7ba4136478c27403072;
  Dbl 0x7860c261573d113d559d36a9310a0c3f2976aac1f4;
  Dbl 0x51f8525fff9f032774d71109544e9f67483f0b1ad9;
  Dbl 0x70e434449f5965906da6653cd16836444ff6a2b74e;
  Sub 0x326abd2e6255f37ac8f2948cff93398c774a1fa77b 0x5e7eb74777c3d2f921b61543cbdb2390aaf0b33522 0x2a0a6c1bd2e2d426d2d4a27649ffa6c6bfe479faa8;
  Dbl 0x38eb45fb38e2420db772869dcb2fd4110a1437f9b;
  Dbl 0x73499dea545172b0f8274d027a9b76c00ada959c3c;
  Dbl 0x16446233a3f9681c7eb3df0a73d3dd9e866b6f5a13;
  Sub 0x4655606d1dcda6554c5b9793404f70010eb9877c05 0x4e455a31c0ebb4199b277e26bd082b3cc7b5758659 0x30905efeff12f574e2103223f4d45ca9ce6cb22418;
  Dbl 0x76b08d02f4adf316957513666910d9f6c190467627;
  Dbl 0x1245663af91f2439b2a9fa3fc295c780ef42aaa25;
  Sub 0x23b93d9dbee7c0051acd575820393ffbe57095ce8c 0x3be4208280007b354b1facbc8ea5620979b2e8075e 0x503d8e572918077069194f999d4f4ed345a2726d6b;
  Dbl 0x54c3bea384181f3745f92c4f5e410ba6966d08e07e;
  Dbl 0x42fb2ce589dbbc756a0adc20c7192ba8e67daec1df;
  Dbl 0x2fde313958c136eb88f158a7fb2d7a40ba39a27fe8;
  Dbl 0x3950d41475bc23cdd180692a439654fc3e5619bf1b;
  Dbl 0x9486fe8a35aa1feba41d1549e549f1239c6735a02;
  Dbl 0x44b898f8e402223a20274c6f435ca76779970cba51;
  Add 0x633d412c023b44f53c61a7ef741a1357a24b60b135 0x3b139e4680c0e2026ec952584d1963855764ae5c5b 0x72c556eec177e6650b4b9edd44e6f11449658a3570;
  Dbl 0x27b3d333789fafa2a08b7d2485d7ba35e53037b6ef;
  Dbl 0x7c96d57a772f54a85cfa1e8b38114155d492ed1eb;
  Dbl 0x42ac0c79e9bb9bec8b02a4567432b7d4c2772310a2;
  Dbl 0x1ae9ee2fbb855a41153c18e0e9b4c7718e2fd32c93;
  Dbl 0x4f6b7392bb76849a3c76e4a29b2dae1bbd3881d092].
Lemma order167 : order_check 167 0x41 1 42 (ofN 0x82) 0x7a1f6653786a68192803910a3d30b2a2018b21cd54 0x5f49eb26781c0ec6b8909156d98ed435e45fd59918 0x4f6b7392bb76849a3c76e4a29b2dae1bbd3881d092 cert167 0x3fffffffffffffffffffffb12ebcc7d7f29ff7701f = true.
Proof. vm_compute. reflexivity. Qed.
Definition cert173 : list cstep :=
 [Dbl 0xa61108997443c2c6f864090e67290f9a588fe1e01a3;
  Dbl 0x1e130fb42f0d30f51c9464634a4297827452f59ee19;
  Dbl 0x2f86161c126870674b07e1065e79ebad7c1978c1c03;
  Dbl 0x84c18c26325524f08381d87c87bc8fead6c77c27827;
  Dbl 0x1a6880c24ae16a8665c0bea3d0659f868ffa1f2683d5;
  Dbl 0x1842de890258206a2639a2b80c6155d98ca7493a446;
  Dbl 0x7f505b0e8c3d41f740840bc72898789942a7d86aff2;
  Dbl 0xf69c6ca2e976b62d44268cb8475daea403652ab830c;
  Dbl 0x11819539961fb4f615fc1af6b9e509631bce8365427e;
  Dbl 0xb8d90dc251735b5ff4b227b4aca17f0ffddab2e3d2b;
  Dbl 0xdbe4bcfce76764073f8ad5e1bd7037df7f0572921b2;
  Dbl 0x280e948eaf107bf0f2a1bcf58b58aa01e65b0494b15;
  Dbl 0x12d8001d8eec1969d52bee2e8588a93106d0505c10e6;
  Dbl 0x18a566b52b478fced7857b825c4cc2d3b9a3cf4c4b74;
  Dbl 0x10cb8a5ca5168ea63276a05f777fe4da9e2f5ca78e2e;
  Dbl 0x7c1611b7bd12344e223d2d9a4a36565fe28b3040f8b;
  Dbl 0x15fc995348707d597cba0a86f5804f56df22fa21d176;
  Dbl 0x9206ebd45a8dc1f749886b531ebbb3a37911b2a0385;
  Dbl 0xda7734c13731156fe52ef3bc5a0e501e500da8726a1;
  Dbl 0x15e644368db46fad8d27218bbe46f82607e69ec58395;
  Dbl 0xee3951e0bc9698f05216f826cf9e492f1f3cb7b64c0;
  Dbl 0x16fa8d17331732f5f9369079b19632fab9c1ebcd3328;
  Dbl 0x8924696ac3791da5ad800f9705e4e4afe0c1b859f37;
  Dbl 0x20ea069b94925d7784eabbe9ff3b8331acd60e7dce1;
  Dbl 0xe173fac0fa8a2e6618f657b197700fbb9a0770cefad;
  Dbl 0xc3098a8a70073ddfe31f890727e58169a0b005a10f5;
  Dbl 0x120546a610aa0931402ae95884a26d6e798604bd0487;
  Dbl 0x1c6d135e3c69c9b6fa5d4923c8b70588faa683c2f42f;
  Dbl 0x1e1091797a7c3b85ecf045655d355fbe9bef00b82655;
  Dbl 0x85a5eba6325b6b90c9ab6127aa1885318dfa44dab81;
  Dbl 0x18d4708c529f11dd4bcd560428c1dd667cae1aa82bc7;
  Dbl 0xa88a2d2efd12f7b80be4149f58d44ef143158b74e49;
  Dbl 0xef06a3e21eef599025b0e0567e23e82220081b36397;
  Dbl 0x32a0a072c327694acfee9ffcbbdd563dcee4c13af8c;
  Dbl 0x116202f4215ccc60f9e78164f335c7442e3e751f9b4b;
  Dbl 0x6b3314d7d7484d1c3b5e2597ce62773c1a3d1624853;
  Dbl 0xdb7fd51767a17a4d16c65a61de5b8b1147335d1fe18;
  Dbl 0x1220754184d0a9e3b6300d7b6195a0f424d348f8d886;
  Dbl 0xf8b2abecd62b7f6addca58982e4f67127ce2473e1bd;
  Dbl 0x1651c152acf5a75241c7c55c103f7265abc20b90533f;
  Dbl 0x174db677b73ada0639d06ed89902982ae24261c1cbcd;
  Dbl 0x9b32881a676b3dabcaea5e42ad49120f4ba9e52f1d7;
  Dbl 0x4951fac515065099aeed93e468056b3729a37a77921;
  Dbl 0x106888bfc1446307172293f276c7065c93a43e50ffc9;
  Dbl 0x90e0eeae3f8823c286af4fcec0c46e69ff9cfc76ebb;
  Dbl 0xd5ded5fc1b6216f168d37170a8f0b5f05aba8ffc4e;
  Dbl 0x1401941f09918f65d9cf4a7b2fe1ac6a41f0a1a1f88f;
  Dbl 0x86279c165144e4423de8af6fd3676596e6ac2e7821e;
  Dbl 0x1bf023d75da399345afeadf7c7d01e80ce3d4c75b15;
  Dbl 0x93345bdd86d7f433ced997c001854528333980b62e4;
  Dbl 0xfcf3698ca7fd298bffe9664069414ae1747b5136842;
  Dbl 0x85e196683798b4f1ee61cc00feea906a1f6db5dd339;
  Dbl 0x97106ea791ee88e14f6a29cfec773a13db15862e94b;
  Dbl 0x2d675b4a92b2f1ffe9b4ea0b799cd5ef09f6007ff20;
  Dbl 0x73b18b596e77b62e6cacc93ea1d55d0624e197bd74c;
  Dbl 0x1886cc63b6c984a2ce72ec08339122a054e47c7bcc9;
  Dbl 0x5c453005aa3afea6c562dd0d69406700b3f72ae7600;
  Dbl 0x1e3ae9e27296200387b0df9a19ff2d348745506af6eb;
  Dbl 0xcbd308bd499f26e40f6bf0ada6f6d6761f2cee1b04c;
  Dbl 0xe05dfa0fc25c933866bd524c82ca1403b29ab161d9e;
  Dbl 0x12d7c35b53f1c49e4537b6ba1e23fab25fd43ec66fe0;
  Dbl 0x10c652a3018b14f1bd9546eaf8e8d813bdf077cbb0f1;
  Dbl 0x1802ac58a1cc01875fab9d66cf3da4c2ee235a8cd51d;
  Dbl 0x577e94d6ce5b4a8fa2ed8fc24f3720dd8406587188f;
  Dbl 0x13a5357aabed1308963c7307b96a17df5f0edbf2b52e;
  Dbl 0xa8a8e4c6919db83f5fa8c29dd23dcc2f5da2a8c0ea4;
  Dbl 0xeb429a96b7e1e30fcbe2496abba27748834aa019b66;
  Dbl 0xa855002f02893f7143382b96c6403cf5fc76240e9cd;
  Dbl 0x10a17ac23079e750a6f56bec1a6a11cb4e102c31116;
  Dbl 0x1a3c7bd34afaaf5e1d7e652c9a07f95b1cf29f267c25;
  Dbl 0x8935a62816fae380dc52e407f30dabfdf8b05ecb59e;
  Dbl 0x1a514b2dbbc6187132846cc78651a16d2f3d65e2a9f1;
  Dbl 0x117a7dfd4588c9d0e5f00cae2b8dba4506ef9614e911;
  Dbl 0x13f2483b7f72f0472a474c7100f6a148ed1f179075b6;
  Dbl 0x1cad3d788e1de1fca6308f75af8458422c9de2e528fa;
  Dbl 0xb18f55ef355be0413003068d216e57cd853e4f63b4f;
  Dbl 0x783cf351b8aa7f63fb08726574fc2031b633346389a;
  Dbl 0x1801a0dcff08fa601387ba11bcbafb15ab339003c0db;
  Dbl 0x12b552c59a3dd5eae497c93ddd19f94dca057badd9fd;
  Dbl 0x15dc093f3c615a7bcabd1826479108a4570875bc67b0;
  Dbl 0x1086f876e697fdb408aa4ada2d6cf60d2c9a51a3e0d2;
  Dbl 0x1e8f75e4454f2c5f1bacabca6afcdf6a6b8568205e9e;
  Dbl 0x7fa4509c638c0075c6de3d134cfff6f71797abe427b;
  Dbl 0x1c95d0cf01255a81f553687f77b19da600464a1287cf;
  Dbl 0x18d0309babbb5066ac70d13a99496d6659b14aa78646;
  Add 0x199456374ac3d8d89174296ab3fea0e8efa88f980e38 0x1f1716e3e37c268d0f50f42359fa448679194e90b82 0x14390108207e7af2e8932b26add894bb309e2762c140;
  Dbl 0x1d42ad391f70b5efcd3d6f0bff4b17f6a4a37c311cab;
  Sub 0x8db4a903a7e206d67a693faebd61ce34d3d6deffd02 0x19cc1401e98456ddef291c200ffe1c556c5330f8efc4 0x1803f8c1ca78374c58d51e41a5c847782fe5ad290d31;
  Dbl 0x15541ea5c60b95b631f74e6eeb5a9d11b4f45e761521;
  Dbl 0xd9e770271b6fbc5e172c0f43c2dd3585e8ae6ff01e0;
  Dbl 0x7711834753a5774d2e5309ded5f18bee5aa72eebca6;
  Add 0x13464f9b7891b3ad027307ddd4f41efb96aa99a2c68 0x9b14f3526e8c5d2fdc58877be17753ea976c9ab57a9 0xd4ff60dd4862f4e57674fd9f5b83495e539c99f010c;
  Dbl 0xa20ba19ea4a9225f5540685a75ee0f62b33936468dc;
  Add 0xb441757363aacd706affbc168dd95679e11d646593a 0x1440c4dadeb1c7aeae521e63026ffee571f0a9d0007b 0xc1fe3eb8b16b2ded473f362f84ef5b4d5d340feac22;
  Dbl 0x1ed555488c03a1fcd7f707dea9887d43047b3f186a2;
  Dbl 0x8f288361a138f4dcd644965e26e3a8185ac3b66840;
  Sub 0x1ef5bd6910e769f9b296d6f77f93136b2c2e9b77ed4b 0x18e08eb272155a1f72b154327151d9af041568c76442 0x405c8a380d62d1b7b1c5cdf46430eec8f97a0d4c62;
  Dbl 0xc5b05022307d71251bbe2f3547eb680286cec24e1b8;
  Sub 0x13cea2200572cfcc68c833a81fc1aa8a6d0a25e079e8 0xe04654ffff6ca313ee6ee8e23a167a1708f6783e588 0x1953569d5c0b8fc984accdff65ddef4caa5b89e09fe6;
  Dbl 0x1556b6f7194e103e47752d0c347812d8a4c1cd87dd;
  Add 0x1c986707add01954e8455297909069455f9eefb5cc82 0x56d9a22cd595718e7942521684d4fcae417f7b7727a 0x194b2a545624a4f0791381961385d3e905e8c2bad233;
  Dbl 0x5440651e90f8a7bd1ae35b190c230a158994bc3e04e;
  Add 0x19a92d58a823995e25225d062d13301548cb12a0afce 0x25bb53a2f841fb23f064f8fe7e3d0d5b689b76962da 0x7d7be7d2223cbd86279f599ebe8f868c3dfe443f58;
  Dbl 0x1a412cb768027ab361decf418ec09f991335f8d52704;
  Dbl 0x6efcfff2c9947725099f1bf4cc32d4bdd321bcbfe1e;
  Sub 0x186012fca881716bc1f9eef7a92602fd5bb455d9b3ab 0x1263ff9e23a78f5ba19f1756d7ce2ad64c733560eb1a 0x12298fd0341c639088754b0416d424a8716bcbebd553;
  Dbl 0x9cab7364ee74d85ca5969de8867f6c0f8bebfbf11f5;
  Add 0x1fce075829edc61251d21fef6128ea2d7a20eae6b055 0xe877b439b243086697af4ac3f78451a21e3959f9d9c 0x3092f8c980a90f5aeb5b0f78b23fe451d0d9c1afb26;
  Dbl 0x19e4bee11a76f0c4309e6bf5eae7c511bd81756cae94;
  Sub 0x868cc5f8257a371e8fc7aec2241d7cbb36dfd0bcbdb 0x17dc22346423b330e235ea61c2bded78c6532c0ce804 0xe83aa5dc6ac56e6492d868ec657e832c3eea375c4ef;
  Dbl 0x15238c304a9cc9b7f163f5b41a4de3a8c115c67e9798;
  Add 0x1648f6ae7ca48a767eececd2b46b8c2de5172f13f5cc 0x14444682d8fbc7649f9d68d1afc67726709cf0d1316a 0x11813fa2a1dc725c3e335569fdb7fa90e0a3464f4718;
  Dbl 0xab23c3c077dbed644c84cc38d57dcf856757c15e85b;
  Dbl 0x1ee71abac8309991dbd1cb0474c60d9586c240ba82ac;
  Dbl 0x15134bc7bf99bba16995c6d1d38efa675a396bdad671;
  Sub 0x1e7a50670a83b1e5da0909add33168a95441e07fba63 0x11692ad60177743a97096a6027ba7889b23b31e14fa9 0x14aa11b91c93191432f476d0de92101025fececed2c2;
  Dbl 0xb387668bd90ea7d98099d5d84bb1c5b774c66a048e4;
  Sub 0x1b03204842e612e64ab202aa658c82831e31b14a4fb7 0x16e3b90ba39acc136ed4993318ca83fa3fc3de329dc1 0x9ac02629b88a816a6f0166224ab55e119bd88075b16;
  Dbl 0x4af96f630e5e64981f90e003607f459b1679185c6b6;
  Dbl 0x11173aad954c1b86bcdd989a46da7a9474ccdd75e77f;
  Dbl 0x16d60f4c4139bade21d0402030142f24672886f210b6;
  Dbl 0x1c29732803d68b5867e1cfe6af1f9f179c49097d92a9;
  Dbl 0xede1ddb5615286b1f897fc7c7498ea097ba552c1848;
  Add 0x15b5187f6765ba2cb559906c0142cf8ad2cd369d8dfc 0xd20867bf069fd0aad020ed10399f676e4843262acd 0x138a2f9b08e121aad902f779ec59216884df8549a8c3;
  Dbl 0x5cc76a6c89460d6c775ce316dc8292b9c0efb98470d;
  Dbl 0x8a85766fc5f463b0a0b60a16985a6b12103d482728c;
  Sub 0x1aaad1d7562cc708c91ac154542b1993c8234f5ba6e8 0x658aaff8bb49511a070cf8be66ae99e7d1340af7f0d 0x1d175c5c5286b0c5849c05fc5015dcf86b5702cce592;
  Dbl 0xa407e83011af637198196edba65610f2cc070f3bbe4;
  Dbl 0x33560fcd18c4d79e324758b3a93ad20f800944cacc9;
  Sub 0xb6628276d691349cb81d2d2b75a9ab5068828caad98 0x1cb327c60f87f64d4e96765e7f10dbc3e75370ea92d2 0x1eeb2ce7460bf40bcf196753bdd391c507168189e967;
  Dbl 0x1444ac47b5f2bb86a8e15b9931183ab74a0c7c67ff29;
  Dbl 0x161ff30b7aa56205bc31255290ccf8ce957cd8f0f0f;
  Add 0x95142e917bbb0f7ddd4ba400bf9b32b39d27f0fd83a 0x2e6cab07b9a38ba272af235fcfe3132c05ab7ba098d 0x2b3a748e65cb9b6ca89814c0324c5c2d0afce68ee02;
  Dbl 0xf3341ad29e61473c92b2a48354b4cb04ecefbb8f74f;
  Dbl 0x1f2f53799be7b7e0c1f0ad08d7830819e68f39d7aa58;
  Sub 0x1a5dfc3dc2f409e66b2f3c04236781bc7d0d88db354c 0x134b8e6085eb600a925811a4e399a88ea0ddb93386ab 0x7d4bea7f7a1b27fd175821ed8f135bba893f6e255de;
  Dbl 0x1749f78a5498be6f33c18c2ed14c8227471a2c649a51;
  Dbl 0x18165b67c85cdd0f7d289ff9f9105aa7bb27d1c1b578;
  Dbl 0x13926bbb23d351b817bdbefbcea157a85ab483f3ae04;
  Dbl 0xa3cfb79e11179d55cc23c1eede1c9300dda3cae8f68;
  Dbl 0xbfcc14e8bb0e43a5b4deaa05b69d6532531d881adf1;
  Add 0x72343e0db6e5653a0ef0a0fcf638b29fa2f1f0d47df 0x90b39b82efc213063d3ad58438c6168acfc02821188 0x1a8b661c267fe67c52f34772a995627a31a600c4ec6e;
  Dbl 0x8da23a17213e4544c0383e066ac4f0ef4bca23aa189;
  Add 0xb440236e17939194b7c66b5509fa2b2ead474e4cbac 0x1ea2c84ad4c9a791921832a022ec0e0b7b3e80ccb2b6 0x19c99a50d97052e9d6c7d0efc116f8d2f89747c4e503;
  Dbl 0xfa5a2db871f25d3c35643a05c9ab6d880d08c76d34a;
  Sub 0x14392b175a5eb58c33350fd5a49c278c2d33bc4850f 0xe6ad00a785a982aa4000fec4e1599166b5ffaee9127 0x183826354f37b6cf8396124541ff375a45ec478df5f0;
  Dbl 0x2c32454f86db20772b27f106fce0c7c1fbf56e288de;
  Dbl 0xd41ce06e44db6c9a657dc1734aa2e073812ed9634c4;
  Sub 0x1b604b1549fac028cf408bf6b6108cf56920e8db9d69 0x473f2fb4564090565267ad0895bff70fe99d78b223d 0x132378d005abec133133552087bd35fa8adfe1dbe62d;
  Dbl 0x17f84705df104568e16c214b0f6a0b41de5252b28f97;
  Dbl 0x10df8462377fe4e7d64beceee94dd72eef4e16c027ac;
  Dbl 0x85fb9bc44503c1a978213f2c07233bce75e476fac35;
  Sub 0x1592e12e5a9ed6efbcec423c194953541a7a8056773 0x1b91097b54af2edf409c3d61a77e8dcd5be44f8e5c24 0xa9396c2a9a5011da621a7e5691a205135cd56476280;
  Dbl 0xf39e66a2cb6b2f5895de115d212590041164c910a42;
  Sub 0x13ac6428a4ff84a758755ab568ecbc8cc11488c21d8e 0x85902ef38d63f54095ca6d535ef042384a7e613c076 0x11abdd203ea3bc18fbe1c1bfc3d6891e27371833736e;
  Dbl 0x13296b23882445f7c71bd43e7face159a6aed4d686c1;
  Dbl 0x186f88212777ed8b342c541f694ed1d30d63d6fb2685;
  Add 0x1e21abb150e0c02caa27228c732aea3acd03224abe46 0x163313a4f9d4ce6a8f56fe522bd596a2814e06e3a22b 0x15bbccdd3b56c78456d3c1d31af3a0122dd067ae3a9e;
  Dbl 0x66280e5ff7a47ea464828d7a1c790ad1781ac8e682;
  Add 0x1a6af07db7d73e87a1c14d75710a4a629ac449b89d1d 0x550b785806827b7c0991ab3497cb6874cfd3a42d82e 0x4006eba78bb329652445c58f3b9530b4a959496e5a7;
  Dbl 0x86b17165fa806f6c5518086bff369b9b7f970cd4bbc;
  Dbl 0xf4889ddcde959db0d75a02b6a20b8810b497fbbe477;
  Dbl 0xb096b74fffceac47c169227d11dc846776de9c6cdeb;
  Dbl 0xa645e677376a9dc36ee90a1cc951f69e93a07cf5340;
  Add 0x19d8d6566a32262183a22764d7fa5965aafdff19eb25 0xe2a3e57d8add4e635cdbdd489a89d83b4db40eb03fd 0xddc3a12ec9495bdf115e33f085f6d24ed79bb0eaccd;
  Dbl 0x1b001af09121833018da4a095ea43dadae4ac9c47ce1;
  Sub 0x3de1ad8d66e4d68073bc319a3292f0dcd4a00015703 0x1278ab196d9d949f4a76d778827960c3b7deafc265c6 0x1ab3453e31991ea22fb949c76fc91b1a0d2fafcb22e0;
  Dbl 0x1f6f0d80c48888e9d8e4dda9601bbd591e27a595b0ac;
  Dbl 0x39699009c5c18df927ba7ce77af605c5b10cbee8ee5;
  Dbl 0x87a95fd8ad60353619ae583dc034875d9df2e0897ec;
  Dbl 0x936bc7aadad09adf0d1b517fca72c09af6c39ebd150].
Lemma order173 : order_check 173 0x407 0 44 (ofN 0x2038) 0x4d41a619bcc6eadf0448fa22fad567a9181d37389ca 0x10b51cc12849b234c75e6dd2028bf7ff5c1ce0d991a1 0x936bc7aadad09adf0d1b517fca72c09af6c39ebd151 cert173 0x800000000000000000000189b4e67606e3825bb2831 = true.
Proof. vm_compute. reflexivity. Qed.
Definition cert179 : list cstep :=
 [Dbl 0xae1f1149b204cf1ae6e1d28009c0db83b038d84c9f0e;
  Dbl 0x2951d1b581bb4a00beff2a84a7f9b5ed6cce5cc0d03a6;
  Dbl 0x3c6fee6ca4bec4095af62b1b3d6aa514ea304ed867222;
  Dbl 0x4d2958df67cc3a6d29b4fc5821e82d3503c258fae1b28;
  Dbl 0x785380e0cd6839091e8cd7d88b1f844d58c14433ae96d;
  Dbl 0x257da0ab8cd9b33656c2f63f71f319d8d229a0bf0cba6;
  Dbl 0x56d0c5f52b2adfa961a2d584a95904746fed936f51088;
  Dbl 0x1233f5a9c0bffbc7a326024641ad0f40caec45bba77f1;
  Dbl 0x3745e32bef987088a312efa6362c250a38fba17f57725;
  Dbl 0xacb3d13f295089ca00a29819b865d6129a89d870c27a;
  Dbl 0x3815d2350d98cbf2e566d94a540a61669826e0f722faf;
  Dbl 0x632fa9a86308b390ddb88a8beb29263d774ae1cdeda9d;
  Dbl 0x512d46e7764a05535500594d2e9e642eec1640c856fb7;
  Dbl 0x7ce04d95eb968bd48bca11ad9def3f543f9d4813690ee;
  Dbl 0xea9dc128470dd117e09642583fd781562a36b4b16448;
  Dbl 0x36111b2e2a0a40ba85e858be4c4d18c744d9d94b80efd;
  Dbl 0x16fe3237533de109b74ea248f742627fccaefb46a2c61;
  Dbl 0x61b84882f017ffa027beed20effd83ca14ecc8ed4bf35;
  Dbl 0x6153915ea6a8c37d95ff85f2c86c786bbbbbb9a35e042;
  Dbl 0x45dec858aeb66f342277f7878559b2a2235c7d9bcdd56;
  Dbl 0x5220e29e3d226587a4271a1ecc41af37f8b1e2b98495b;
  Dbl 0x2ca32f4c58cefa6424957263de516b1d9dacfdd35aa39;
  Dbl 0x67a7304dd31f60694ce429228c4b34de30aefc6e51989;
  Dbl 0x1186ca4322aed4b6d5588265ec0107ec73dd7c415546a;
  Dbl 0x3e703b12e720bb8fd82a4627131a9975d708a2be17ff9;
  Dbl 0x297d2a23586ab388bbada209e0e0bc5fb58fd679f0482;
  Dbl 0x1571a96affc7416a93390d8ef6ad052454ba927510d4f;
  Dbl 0x2f4a391db4ebf11ca10d90ef02cb608a5c90bcd8f8917;
  Dbl 0x55d31a39b37f93fe9db175be54096a1644507a9ab20ca;
  Dbl 0x52188f3cdec4fade7c4d372b92c4b96f39d71b22ec16c;
  Dbl 0x377ac53168b2e44e1a2101efe2fd0383ace2076034078;
  Dbl 0x2a1194f6e09079dcfd733ce7c66ffbb9c5e0e84747b27;
  Dbl 0x5d024c0f92d4c3bdbfcc010b9f9efc2ec5c77aa0d55a1;
  Dbl 0x16281863098dc6713f864a93134f6195115ac06fee6f5;
  Dbl 0x3ca4053d1b3ab8965c60550ad46e3fe9be1b33e51552c;
  Dbl 0x5f02e747fbfe89e5032df8d89f2774018ceec82a118a3;
  Dbl 0x4083cbd77a76454a8a57de40a3ef2d03c6a39f697672d;
  Dbl 0x19652a57cc942e9b86c2182eb113db8ba174c262ea391;
  Dbl 0x71569ac05a7543096516faaea1780c338454acba5842f;
  Dbl 0x6c4a6177bd8abc0bd8b99bfcdcb39a9784cc201631317;
  Dbl 0x70d67fb1035f3e7b0e5722535920d9746372fe2a027e6;
  Dbl 0x582db08803e1efe84e14e614414cdc0395e1f77c9979d;
  Dbl 0x54e05e8ee7068128a90ffe996c25751b0ed394bd12d7e;
  Dbl 0x54f6a85d6cfe5465b89465546008485894ad143b52921;
  Dbl 0x24a8ad010785f8741611c5c4eedbf8871c16f860b2b5c;
  Dbl 0x533c4b42ed589867f89f1271927f51f10de077aafb0fc;
  Dbl 0x60205288c2ef59d3ea78c617f7288bd74c718e455fb92;
  Dbl 0x68393e95474a5f6de7654a6a758768e6b2eaff74c702;
  Dbl 0x550ddf9faa46e34592af489416c50b55c868959a7f1df;
  Dbl 0x15b611d42e48f6d4912ae1c0c12d90ce90366497350d1;
  Dbl 0x5ab26fab2a6bd4c2cb213a1f6722d984f142fe6a5dae7;
  Dbl 0x61abeb815a75cbb57440364f09920d86dfa381fa20bb3;
  Dbl 0x4f70da0614a7ffe50beb2077890b994e84fb18cbaae70;
  Dbl 0x295353ddef76f4bede9bacd86f3d5f6693125bbb97659;
  Dbl 0x5128af4ed8f3b5f5db8800943266166ecd46a39322d24;
  Dbl 0x6927459d6aac007594101a1e24ece67cda9242a622243;
  Dbl 0x17daeefb3ecbc7b72037f5338133110ca166ffe5b628c;
  Dbl 0x227bc9be44d379eba0b5d3d2be6d4f59eeeeb0f3d00f4;
  Dbl 0x719e553f945e6c6624fb4ebcc585ba23c1240cbb73943;
  Dbl 0x69221b01d87ade62be034b159a08d51ecd1e1ce954ce;
  Dbl 0x4801945d3bfcf7d146f6d77ef00224fa7dae296161110;
  Dbl 0x5134217430d190300c2515e0e91c62b5b24ca1bde232a;
  Dbl 0x1fe9e6ba934a10cf37c63393fa61928c477cfe81db45c;
  Dbl 0x2074da3c17fd2cefe9383b7b92fd6517a524929e538d7;
  Dbl 0x7be60af1cb603976745b056f61c35621b3fd49bd7e759;
  Dbl 0x1c908e98511fb222b9831a57911767e0e51b298e66364;
  Dbl 0x71eaa2d90564d9a16e55ecb3285eea5781c5259dce911;
  Dbl 0x5317f57d4522bb98d26f7042e994f3ebe4b035e8b2591;
  Dbl 0x1aa1056eeefbd94500c4d6061b8c272e4aa1b2c29df1;
  Dbl 0x4fe1ed0295e92c1a13d7c67b13a186f7ce370e1cd27d;
  Dbl 0x368a7d7055aaa330b7e33d2a3d7d30b0d7881e4a0c9d0;
  Dbl 0x1fb959165dcbf4639856f1b9094473ae0dfebf5f258f7;
  Dbl 0x15d019151cdf398038df65e2ccaf1d123f205e82c4d28;
  Dbl 0x45e4d466bc06d4c969ac7a3b1d5b543e3bceb43a36837;
  Dbl 0x20afd0cd50319ebb1091f79a79481f4435d4ed6b60890;
  Dbl 0x1c261a2989b4a9504fc449684dffec2c664f7ccc395c9;
  Dbl 0x7c41ec7f2f40c907387696b629fd698402cf766a4e0ce;
  Dbl 0x53b9e86f5644839bd21066cec80ada75a6011c741ae00;
  Dbl 0x1446504ab0ebd83121806bbb6aff060c7c9e46b6e1f2f;
  Dbl 0x33e94cc49a3cb9c7ac375940127128bd9dac3ea89eba9;
  Dbl 0x7bbb97cc0a85c353db6139d23322108f48ddd4bd99b42;
  Dbl 0x70d887a9f4933b2766f2a425ea7e428292a661a8ec7e3;
  Dbl 0x24f486b2e1f22aebb0da9715b7a03ddc9ec629b981bad;
  Dbl 0x12b417ff64dc1abc33ae1c6338b0f87a7246c93048474;
  Dbl 0x4b73d79de45147a234b4c5d167a8fa74f14355803dc72;
  Dbl 0x400d024631876c9b61e7e7847bcc9d2856bca7769869f;
  Dbl 0x3028f954a1f4e55031b293184273455e78e038341fc50;
  Dbl 0x4f826d382800a43ea7e98484f7723bee0023e565943ee;
  Dbl 0x7a85e52328358ae59f98f4d20222007756e26fa038cc1;
  Dbl 0x7c810c88523017727a16150f7d13ec049a198124f1f30;
  Dbl 0x1ca646612a2c2d8c8f45a1ebc6718b87e0c7fd078901d;
  Sub 0x792394847fac9b88ca74afbc6beda51622d30880e2be8 0x34918ad24d3cc984a3651300b9bd1ae9e0e6b0a29e5b2 0x43f6c2a4c66bd8dfd5d5632e8622d0dfb144ac6026da;
  Dbl 0x1879b426e35835a1d4289f1bc59f46db5806bfdc0198b;
  Dbl 0x3ab1df6891c461faf15137df73581b37faec04e89c0c9;
  Sub 0x4d8483d9dedcad51a1b1483542df5b22cbfbebc9c16e5 0x6d7a8e05ef0c128eab0607751c5d4d62aa5371d5a7fca 0x279541f3a3b8fd6512644c94d53c63d771922e3e62ed8;
  Dbl 0x19f3fff8875fd24002d277d16c10460008a1047dfac3c;
  Add 0x41ebf309b9e26c9653847e90089282ab7ab7f0d29d2c7 0x3c7d7c98f27b9789e53b28a7860538e54339442f9d8c2 0x3f687578fe9e68a12cd20882af4c2361e94b945f3bcbc;
  Dbl 0x2cee1fdbf5d8036a087a0eda3eaa97d0b76ab706acf2b;
  Sub 0x5139b4d29fd1b16e31eff2c36e679217cc7092e93bdb9 0x267466ef7aa32e68c49968a1ad41c2c79d493f9cdff5f 0x59017d87542445a426482b79797a81232583c36c9aff;
  Dbl 0x27cd6dffe8cfaa54342c286e5f4cd12d0a653d80638b8;
  Dbl 0x71e6590d87324a689715b8ccaffd72a004c35ef874ce2;
  Dbl 0x182ccaa1bc0dffb8122664a56c0088cc4d7afdca04b1b;
  Dbl 0x4e613a8895340c350d4aad0266032f8d9a3f17fb05ead;
  Dbl 0x2fed78d9b645cc8852863723268a6ba20060bb889c072;
  Add 0x71a8d98c9192d814d6e4b98cf17cc02df65487ee5f45 0x568c425cf7511e0091ec47538c3f89de8b5603c499cda 0x1c916ef095a02ab6b56c9d22a44f987ae457564da28b;
  Dbl 0x5de9a75c8ccc0c898100e1d3f6a11e6bdd7cdd8203204;
  Sub 0x51154db2a01d003df49888cbe6254e67897b925e443bc 0x65a928ffe025eacfedb9954946088c83c2340a6272a72 0x45c476249fbf0754469f9c6cb50f877950beb10d591ba;
  Dbl 0x46e61218811dda648c4c59e6da30a091f828aae61933d;
  Add 0x39b48c471cd112803ea7bce6a8a1f6cfc90b6668c82b1 0x2cc9817dd092d1f8be2e015ce72ba474490e69a3a6561 0x4d1ba9407b4d850597e82958ae9c1c8b7b839b365c45;
  Dbl 0x505eb93d4841eac67d61c9c60467f0e94d0b48a842cca;
  Sub 0x4c340cbd26d66ecb345db46b2e40578ef9c1e84bcef80 0x7471d1130d2afc7779d8c764d7c8af9d0bbc7dbb8ee1c 0x621ae0ac9f5a1a1d97e2969651b679cc28ee2a6b3ecdd;
  Dbl 0x23f8feda9c2b5e2d0fbe75f7e376bd0267c2b1687a2c3;
  Sub 0x45579fc5879cd1fbc2faeb2f5ed48cb81c078a7840863 0x76aca5febe844b3ff71308a1aabeceb7e8af0935add58 0x30a80d7376025bb623384fdaff0e6ed204bb9bd87d003;
  Dbl 0x506b9af8d3dafc397f8756d865c7e6ff657a61e6131dc;
  Dbl 0x4e9adc776f998d03200a3a03ee2684275302702a90be4;
  Dbl 0x35e5be3f9cf34f44baad96ae2cf8f12511b82fee2f26b;
  Dbl 0x4577dfa883c76874682026118c0cf78319a3299e746b8;
  Dbl 0x25278e2da7e7cd3691b1be72194f138aab98b71b0c670;
  Dbl 0x57b859adfa83acd044ae406b7c419b638736f22f78887;
  Add 0x6d0807e529a83c009e46892fb73657f26707e3c7b2c92 0x6610634af9ffbb14e5cc7d51d66dcfd2054c4d0e5cd02 0x4db0639f2cbecc5e311562da9b5c968c666e75a0f4ba8;
  Dbl 0x3af58ca3d5d154673a30fd2b362b7356a19665e6cb3f0;
  Dbl 0x5e2647d713a7bf674b54376a00e4ec1dc5827803f6e0;
  Dbl 0x1a8346ba8887771433a0f235610b43e791d44cda9a07b;
  Add 0x4250fd5f30ee884ebaeb3414f88da7512015cc1604ed7 0x77422469a75ac75cd17510279365912d354bf0b6af149 0x79fdcecb825cbd0ea09285d52bc23edf6dee9c4f126a5;
  Dbl 0x4046d6af46b6213ac545f33e83cd2af6d5b30111af322;
  Dbl 0x44a252001dceaf3f6510703b1a3aee6654eb101e1be61;
  Sub 0x7c1a436c6a2b882ad2a96b49fad0d4b4c14e240599033 0x3fbc5027ba11b2143d6e87dc026bec58b23532ab1d7b1 0x3908c5d1ae2d610a232e3c07139c9e262949f41679ade;
  Dbl 0x4cac8dbb9e97174279c5af9ce61371ad4bda631e06cea;
  Sub 0x72ca2f3cf8b7569ff86587ce5e573fb7c752e83399b32 0x7a0264e99d70b0a306f209283ff40129a12fc1af31ad1 0x7292460630bb39d244933f5c2da51fe188a9723eb5494;
  Dbl 0x589f7fbfe32466f7fedd2839644c71ca5484dcb3f74b6;
  Dbl 0xc8ea57348af9afc421b42bce532456d6e760cd20733f;
  Dbl 0x54e8e9d9b4c99e395716fcde245bb8f8d1d3fd54ab77c;
  Dbl 0x2edf7ba724a17607ae100571aa6ea372c28e391f61dde;
  Dbl 0x3fbf1637d41641c5b64f7b4b70426eeba72de9dc4815d;
  Dbl 0x56ed3ab81c6596bc8ae8ba11cba55805bc4b4d4c4ac90;
  Dbl 0x3e86c51da3ac2804df6a18eecfecd6ad6ae26fd32fb23;
  Sub 0x5e7c2399b99efa8f1f8f1de305061706b51aaa03aa99a 0x56ea62584f0cda9c3c785bc8bcff8f56497596e187b9 0x2388891f1ead983c03bc552dd4e7ead49bcd743750250;
  Dbl 0x11c546d05cbebf7c9341c2c97b1da185da27ced811188;
  Add 0x50c24ea06bb70de44c6de6c335b020330e9a6a0941a3e 0x515910eb1ec2d86139c59786fa4bf6257806c5d39b8b7 0x8a8224672a64192370d188304833078815175f99b6cd;
  Dbl 0x7cbbffc415081756d63cc886c8af2ce9b9b1b5b54c84;
  Sub 0xc469a494cf2a489fd2d9080eaaab5ddc7b30ac719479 0x7f0fd94af24c930ff53a6e2a5d39ff16c190b0afce1ff 0x2fa65e7165254d486524c846a63c35e165b16cc33df4b;
  Dbl 0x225bc2b0d394de84b6674eb818497f298ae3d02b43976;
  Dbl 0x1125df50b2c0645a3ac3251b73ed1a74853ae6dc6da73;
  Sub 0x40cf80c7d117ea3c2efde724cb58e9d002cc0d7fea7e4 0x38b2d1640ff387db76fb6f4624c742229b7c88a3aa615 0x20bd33926f72fed5954e8879805dd9089dfef0bb99a95;
  Dbl 0x57c64c08c5d4fa32195289b39522eba54ae3de1c93a78;
  Sub 0x4111a6170b15269edbd18416018383771a35dcdef9db4 0x58baf7ae361a702e350b5364c917cce74abaed186ce55 0x1fa97283c28b27eb92a96cc1adb31b8f390ee909ca95e;
  Dbl 0x74fc4e100e224cfd4e61d2188db4d7429c3c398adcd53;
  Sub 0x6784ec33da9665760187316b1a82dd472da9a888c8d4a 0x737583d91825812410731ab3dba74016883a84ae80dbd 0x2293da221b377e47284f8f46bbf902d8c8bd370c1abad;
  Dbl 0x34aace32475b2b3d5ef7d374235f8d29c7c0c8e3abbdc;
  Dbl 0x381c073c6d2ad0733e0ee98dd8f627f186e0353b34ba7;
  Sub 0x11c9667da3e755f5582fc27a4f18e13fcb5ac441d1de1 0x2ffcd8b616264db63c1af8f4f2dfacddb3f10ac760621 0x274ff9d986358ceb68203b7409b6c1fca20704690f935;
  Dbl 0x4ff72a7466dbb4f754944f7012b36a2b5c630eea3c8b2;
  Sub 0x3463fcb657df52f450f317d2b8daefc30e07f5355bcfa 0x5f8029ddcde92e5c8eaa544d6c90224d21ac588df779 0x485f52bfd6eb97101879e40f05bfae7dc1adab24a52db;
  Dbl 0x26799dddf73c3cd6858a70e2517b97dd7fdc718d43c3a;
  Dbl 0x288c24258f70b69a39be4afe2a1541455daf0466026d0;
  Add 0x7b1c23e11f9f9e63637fbea8f6e6087ab6fce96643fd5 0x69e7a4c4fc10d3482def1f6553c05da3982ea56bb525f 0x6355adafd32cdb969eb8e3769b34ca9a999f283e33635;
  Dbl 0x540b7167f08ece21d121f466a090b5c29c8e61aad7298;
  Dbl 0x5c2cb13f00075033a881d1a7410e82c11bc19765b488f;
  Dbl 0x7464cdc9991c7287068dac55af843bad98df8639d979e;
  Dbl 0x5972bad289b3dce1947f9d5adf1fe1fb41e74ba9be2a0;
  Add 0x1fff7ffeb4c417885a00f631fca296147210e33716769 0x6e6c02c6fa6adcf2be95c0bbfd87a7aff55711af62733 0x15b09b16acd91ccce6a0817da96590d18c6fa468d45ed;
  Dbl 0xde65e21d86e9b528d6b6de9d01e4341173d107583988;
  Dbl 0x6a7f8368f5c6c96d619a372c0211fed1ae6666080c809;
  Add 0x78771030d9f5bc569b2de3fbad137f2d8c92e21f4c851 0x44fae8681899e148c6e1c6fe2a4aaea9829f9862be0d1 0x7586b6a80cce5d4e1947aeba1e953481de3c62d134962;
  Dbl 0x361a482662dc2b76fb3816a14721bac75b9fb0d8d1728;
  Dbl 0x525134cc457ba00a54adb3190b3d777773fc18c2c1a5e;
  Sub 0x69fd06ed6411f7d5bbf6d05e1801b5b1839558ba5cf09 0x837d7960faea4dac4b50b2840decae157fe94ef0a09f 0x28c0c816502dc88114a11ad7703d23864c3e040cfde9;
  Dbl 0xc1b6136e08707fbb8a80b3ff99f4c2c36d4b48701a15;
  Dbl 0x2b83663a57ac1687bc4bdc4b17baf99a2f6d4a0dc8c47;
  Sub 0x67c53a38d047061484f291ee406da9cb9038316b481d2 0x363c61ee9f39a946e4e43fa4d2e722de013be900c648c 0x396dd7a80ca585d3324b43fe932ab98f263c8c255feec;
  Dbl 0x769e2feb95fb22e39b99a9f062a71ecaf36ccff0b21d3;
  Dbl 0x207246a1c7794ee5e2bb2009fb5f7af5624f29bdefcf7;
  Dbl 0x3e63b42dddd6b13622b8e1be5e054388310d8889f553e;
  Sub 0x2c0c073f9572f5fad8583bd640b3ceb4c9c88edb74b18 0x257c425c0e1cc2bee7daac534aa25c11c4d6a311aaf26 0x5b3e69f099d061413b611a48c1ff6d0d3ca40faf59d49;
  Dbl 0x19385c03ffa84cca3993fd4f739cee8cb529e792439b2;
  Dbl 0x543a90b62453ea284215f77d182a4441d56642ed4b0ad;
  Dbl 0x6e7e406ea063a76b1a9e5e78b378e8ca3545c6e9155f0;
  Dbl 0x2ab17105c8f23868d05becc8bda4cc8bbe85d3cafac1d].
Lemma order179 : order_check 179 0x17 1 45 (ofN 0x2e) 0x6ba06fe51464b2bd26dc57f48819ba9954667022c7d03 0x25fbc363582dcec065080ca8287aaff09788a66dc3a9e 0x2ab17105c8f23868d05becc8bda4cc8bbe85d3cafac1d cert179 0x3ffffffffffffffffffffffb981960435fe5ab64236ef = true.
Proof. vm_compute. reflexivity. Qed.
Definition cert191 : list cstep :=
 [Dbl 0x27b2b05479a8d4408dd8c3670c52b8eebed0898f87fea293;
  Dbl 0xe0a69f83af52ee1daf4c5351e583ecd38975e18c32df60c;
  Dbl 0x1db612c78c7ff006d989c457d451e1be9f1d54d110a5ec53;
  Dbl 0x4ba397c1ded2831da7d5787e5273ee54f5bf4a7e8f7bae8d;
  Dbl 0x7c80d002807fc73015cc11525c6f49dc9afdc397d365db31;
  Dbl 0x6ea22bc564f4193e23679cf04b2bb6a4f6e09c0bde60ec5;
  Dbl 0xbade0296ebbfe78c1b2f93eef0ecc50c2c266d27421c381;
  Dbl 0x17aa9e2ba9049b1451337994fca319649cae1f5d1902b3c7;
  Dbl 0x747148eac5d54a0f501af815ca9f27cdf94b6dbb7e6c4631;
  Dbl 0x59e9f212ace0f31ebfe90f3f3b6e10f771e78e80db9b9ae0;
  Dbl 0x400af7c8427d18372057e284de5bd52bfef7173716482f14;
  Dbl 0x27eef68564f511d7ac91baedf9fda5443f71056ccdc6106d;
  Dbl 0x4a5d9ba906def5840a517e55ef511870a1351a494790cabc;
  Dbl 0x688320b9b7a286d883712dddaa1973939d371bf1e5659bb7;
  Dbl 0x46d556df8344857745e4964ee21cda4f21d9bd187fd97b9c;
  Dbl 0x4c83451d7a3c679d47d927df3bcee258d8bd1198fdeadafa;
  Dbl 0x11ad47d001fd8662764c86fc79bdc6aaf28551b50fdbafa7;
  Dbl 0x48d378db7853048db4091582eea2d5ffb37392d528487738;
  Dbl 0x3be247f0394e9a5c5470fe42f9e3c95a885c9063f0f27c83;
  Dbl 0x522561284b6ce438a739844acca00aea0381f0cd0fb9cc3d;
  Dbl 0x37201cb1c854f5a44bcda923fa01c905334f3803e816aca2;
  Dbl 0x3dc894b308f7f06b8621ecc8df2866f185172c794bcd0626;
  Dbl 0x3766e271b225993829a8bb84a29cbf0f14e5bd9053330b40;
  Dbl 0x3c5c69d2211ab739c710997904582f59b78e8fc0a06f9d37;
  Dbl 0x4050cdae5b0bb926161620a59fc9c6b59125f0983d26513a;
  Dbl 0x7450f024b95888173c0339d534b8c2bec1881cf5c8a878f6;
  Dbl 0x78f746f1f8a1a83d8090a0b76e6e753c600ef6e820fa5fa;
  Dbl 0x68f162dd5053d1cebfa7e8d363ffbbb22726af4bae708cf4;
  Dbl 0x5ecf2b7236871470fd8f5b6b3d36dd73a113f52243871a84;
  Dbl 0x22d3bd1af63626f2f463d53608c381fcecc443280780372b;
  Dbl 0x759b33d81b4510deda0709a77cc52976f1996bcd6f554db4;
  Dbl 0x1011994d2af1ac6ee6eed1a03905c7775ec8c376628c87e1;
  Dbl 0x2bd198b9eb2fda3c0bd9216969c032d53f6ba31707ead15;
  Dbl 0x737513389ac97afd973f68e1868bb8129f842b1981dff1ae;
  Dbl 0x662b390ffcd196bb46f320d426c174352c8cb99922df1c10;
  Dbl 0x7ca97fa24a1302bc8580381f504e7bb5768d2b34d47a1ffb;
  Dbl 0x56a2e0d0fa076d8f10eba3f34996001ffc4cb51de2447cd;
  Dbl 0x655d557368a6396d29ab1a9bf60f82e84da78834ab80af4e;
  Dbl 0x6f30b3e217ba74a51e93fef587fd16a86132445b80e043a7;
  Dbl 0x6d648ba28fcbcdcd4d56a69d5425cf10e2e0712bf2328aa7;
  Dbl 0x2d089fd5057fb364ab9dc856456f80505f2fa8679aa52866;
  Dbl 0x35ab49cee3d5d4cb9b98af8f03d9daba1859b553af664747;
  Dbl 0xe0453d6663fbb78515562b6af06d9c36b3442df5c82962c;
  Dbl 0x296753d4a0b8d401c839aef02b44a8e956786ee5b5fa4ea2;
  Dbl 0x7a554776ecc21c667fc2db6f300bd72614eb029b91bb0f6;
  Dbl 0x3a6560dfab4e409ceadd52ae17119682f8c8c1df3075423f;
  Dbl 0x3c1c2eceb8e61511b07ee96cbeb65cc67ce3998d5ad0dc1e;
  Dbl 0x6191e10a5cd0258f94866e6e22bebcddac46ceae2e23c6a6;
  Dbl 0x148ab83945bd268737af89b8577c275d8b21fc5f8637955b;
  Dbl 0x116a53c25e85d6235bbc35fcaa376016eaf9b525344d1918;
  Dbl 0x48bed46204e6ff583f492d8bdc17a08d8f1b15d222c681e3;
  Dbl 0x5c553021998318ea4979c97f8d62c19f90ea587bc6c80564;
  Dbl 0x51b86b27202d464c7720ea25fcfdb7b126a37e7bd22bae0f;
  Dbl 0x23ca6d4cb1b75abad9ea1f345f22abf7406ee14251f9c110;
  Dbl 0x6b7a60b89175c564b3949085c200c1019f5e997f9451b1e7;
  Dbl 0x66e12faf5ec5d6534bd0e574259cec7774c1726f276a77a6;
  Dbl 0x3d06be54d56136f2d491db8a2c54f4082009dffb3210db2f;
  Dbl 0x45addcd20cd81c2301677686af5a60881ee8e7f6271a4e28;
  Dbl 0x6d3475999cfa018cac49e7b7eec935e612750f5156dea3cc;
  Dbl 0x278b700ad0a6d4a00dee578e87c84acc97b1ba9c284bf75e;
  Dbl 0x312e9293ef97036d3669716bde11e1d5f422b2e808963747;
  Dbl 0x5f97418f06ddd55d5eff890bc1b38d4f5a61fa0c33bc1c0d;
  Dbl 0x3300bd03efdc9286b406142de6c123808886fe9e6325f9fa;
  Dbl 0x30468c9d43671f93c05fbca7ed3e3091d28308df9ff499fb;
  Dbl 0x10f5cc292f642b3c7b8c3683617936ecc7df54afa429a08;
  Dbl 0x7f727379743b4b98a60d523ff332b259f0c994095d67a15a;
  Dbl 0x641ad446b83ab78b53dbac482c9c015a3439fc0ab021a778;
  Dbl 0x5ba9be9929158003184fcb679b0a6275b5542cb6fadc9c6f;
  Dbl 0xa25415d804386b832d13434c61e5dc05fe577bb75f0fba8;
  Dbl 0x25caf22ae33c1f968d8fba8167c6e8c7bce268ab0082e710;
  Dbl 0x68b040b1c51d6f8bcb1a58ad265901211c3fbaae89c1375a;
  Dbl 0x42f0c9593d545b73db3a4ce870e4f7afac55a9b9b17a5252;
  Dbl 0x435eb8a1c30ca2acd24e9c19c3b060bca9f393ef7356e61e;
  Dbl 0x5bcdefa4fd185220c52a588ac0f49664adccd3b89a9ef930;
  Dbl 0x271c41d7c15da412af5c95d45a98b559f94ab649b0ccd882;
  Dbl 0x612e6bbe5fa6b29b0894f234e277e1fdaa2b2913e1412bed;
  Dbl 0x634cc0c18a4bd05119517c780081531c683ec8755680c8c0;
  Dbl 0x5571ab75038001ee9a9ec6f0f6edb139a42a6f2ee20bb138;
  Dbl 0x73a6917620b91211a2a7d722b64e6c77d0a3a657bbc3b18b;
  Dbl 0x346842398e09d3de8b1be097b61d6b54f7f96035379bb2e2;
  Dbl 0xa7650022db690f9daed021f9f29f4ded26aa52c8971fa5d;
  Dbl 0x19842d966c045aa5d0dcda785f7196ffd00328e5f33a5c6b;
  Dbl 0x6f86089351d28df9f8d819fedc66ac7f33045ae43d7b71a1;
  Dbl 0x12d4eadc2a778c2f16e37e7acf45a1a844f1779ec9d35856;
  Dbl 0x46da1fb0599317a26d41e789dc7ce6e74310538549947159;
  Dbl 0x540220449baf82ea678084147d947ae50e2817e693d23cbc;
  Dbl 0x39dc822f83cbadac3d58c0e8252cdfe02c9c205816a399bb;
  Dbl 0x5d6e793103b5d1f11b80071abba2620a221e9f62122a8bf0;
  Dbl 0x2571fc13a610bacde6765de5a3722ee59c8c7d952993bab5;
  Dbl 0x2db6f638598e7414d3b15bbc719478dc9156113b9da0d1a9;
  Dbl 0x4bf10d9c5a59320715c1314acb56449cc091bf484e7df62a;
  Dbl 0x2003927fd3b7c6caf545c96571c5921766ad9b8c34e38e51;
  Dbl 0x3b4335de00a5bb6c6d2c1c976b8cd87d2510d7783adc0878;
  Dbl 0x4bd141dcb6966c022f8cb7db7a69c15b1744d29796d193aa;
  Add 0x5049b16b663befb214add0a7b1207152c0fb1d27ad51ff9a 0x302ed7895ece23dce2472f1fef6c6752fda22bae03a94230 0x235ca24d9c60801a61e99b6cf762447754d9448f2d5c84c1;
  Dbl 0x4bdcc14fc461bcada7191f563b6ad4f6329322d678fd672f;
  Sub 0x6616c96b10b0fa46a3c27b04436bb5e293c2e67b13d08246 0x2735c920c81aaadb9e4050f29eec03b7289e88800ebebfa4 0x7f999f7c5b770af6990747fe12801966dbe71835e13fc802;
  Dbl 0x5a495e9d0fcfa05d6474aead65ac243036637d8c60552a47;
  Add 0x41e6c358433f4a258a6ab9856b7f620895213e8ae02bb786 0x30b8cab2702e2e88c23a471516ccc732906ceb65ecfa1fb7 0x487fc162e30f8c1a0720bad411e836d8727cd717926e2b39;
  Dbl 0x77c41c90fee3fef83f7fddc98048a79d28b119dde1967199;
  Add 0x124fd13f8ed1ce8d300a1615268dd1414137d1df5a8d6338 0x3e4c76ba8a05de3aaf563a7f61a39df4ce06f6400835798d 0x3073c4ed7de273ad794ec0c4a64e45b07a7914a200aada8d;
  Dbl 0x605e2f6e4a80313bc821c8c5c96c041d9c0c2b7ce785ca2b;
  Sub 0x31837d7446ba8a79332b78ad3182ee08ce58c86c7d2cf5dc 0x6c3538cf2d44dfa51ceceae148084188758807b2d338458d 0x4d221dffba8dd74e9c3c6d76e82a3b955963f940af9b2521;
  Dbl 0x44354b96d0e37e9600b428d6ba5387bd713b97d6e0654828;
  Add 0x3b38c52bfb26887ed3de6f4827a93d744917b90f38e41cc 0x276f75b24b1ae87520d091bdc1db283f6b794bf928a69d82 0x600b4fc20f6fa035c47aff63a959688950554315e2c6ed98;
  Dbl 0x608f7608abb71b26ced674b083046406bc55cba65f86584c;
  Add 0x64ade9e6e938007aa566cbfad1d46da286ce6448b83c0a0e 0x2ea82d2e93569a66a9cd66ca27b2a02987177ca6407b7d45 0x4b15af040b13016d708c0fe1ddf8d05a2866153df9585105;
  Dbl 0x5a209878f93a4da2fbc5ab1d0c12363942c220ca447a5907;
  Dbl 0x67ed7620f0ba8a22d36b05961fae93fe8a98b37061138014;
  Dbl 0x2e2de14f040d5f91f2e81e5ab27e5c7f71337e7590554f76;
  Sub 0x2b0f9a8022d790aa3bafc08974b07a43c9b5c3453c1deed 0x1557cb3c7ff35066791dceeb46f24c0d17f3ed29f2b51dce 0x243fca4ee4c7c991557684996e74d03e50def236190d37d7;
  Dbl 0x6a602cef928c7344eff2ad83ac168788ddabb8d0a5f0d2c9;
  Dbl 0xd3b259175571b063625bb534b74ffaee5ba4ad43f2769ed;
  Dbl 0x62b0231bacc9e64dd48e9fc90d877cd2f040e3dcee7c4e60;
  Sub 0x72e27bfe6e8f5be10c130ecb94e0744b2c12136b2df67baf 0x6ddedd6ff483243a26d78f38b98713f9eec0d19aa12bf3f7 0x26c0109775db3e2c21414604a51b61cd33799b5912f78431;
  Dbl 0x8ed521ecc714073922d56ab5ace72397939aa49ba293a93;
  Add 0x263fb1b9a96674a734ac376899927c94bcf68a23d216b423 0x273999c6e074e9cc61e61eabb34634c889853b1e9939dcf0 0x57f365da92acf00e8ed41c2ad45bcbfdc344d496428f5499;
  Dbl 0x38822fb7e8d0e8441999361a29438facf5b1e65d2d256d73;
  Dbl 0x7938d0c06e305c1e4aac7e9ffb44ab4131c57b940346de68;
  Sub 0x4febf7fa73e3cc854b1022e56fefcc8494033c6650df56d9 0xc98a9c60e8493093b8fb06ebc7f4dac1833f7bdc81f6400 0x16f48c55b85923059243d5dc51c5ea5ed5855356f22e2306;
  Dbl 0x3468b336583a461067b15c6998c62578d2de762b43d31d35;
  Add 0x7e8bf788cc517416ec5f27826846ba75bb750829e7b0ae81 0x5f092850251057779a142d54ec1dcc8002c1c0a52b1b5701 0x7465b33b83327eccac10bad75edf07a6351cd27aea8c2699;
  Dbl 0x28fba7187ad97c6f470c5313e60718a4329be25b9835570a;
  Sub 0xbe24a3073c5036e36cc097f41f99687a4697bb406f032e 0x21481d626041f3e6743cc61a5c970a4aa9740fdf2d3ba520 0x21ef1d5fb1eb3db1e821a09a8ddce718f361812b15db161f;
  Dbl 0xa0f7adb128897964049523af668ad9b67e123203aa54dd;
  Sub 0x685eb6a64a0e325d775bf94f4b3851fa838421c26edd4662 0x73216a66604f735b6f8f00294d8f1a7dfaba6d8d86e7a43b 0x31b92d16c611f3fbbb5150f1dfcac53c3723fbf9f33b9ff0;
  Dbl 0xa6674a471261c38fde92a3050bbb474667be6a1d326e5bc;
  Sub 0x1d0849777a2721386957e08efdac2101425f396da30f31f3 0x6dc21b54e767db4d98d2ae1d85c0c0e4e44652b5d75cf65 0x49d2a5f7af6945674142877a298b5d60ec20efb35b7abbb4;
  Dbl 0x4ce29c535e6204a2885a380a8ccc218c22f265a070d487d4;
  Dbl 0xd7b49c0c261ee9347b34a60fc915e0cbbfec489c4d5179b;
  Dbl 0x4fefb3aa51c7868c7ee5e81eb1a38ea2bc632d9f05519d4e;
  Dbl 0x1bcbe8b4d6f60412c6fb1f788bf5d4020ed3b30d68eee5d3;
  Add 0x4dc088209c3de7d0cdc4e53f3c0c344dd337d395540b3aa 0x5874ec5a1c890ca6fa2f60ee0f00c660dcc63fec2411f776 0x246b0350f737a10c6c616d4f98eebc6641f978599e29fd07;
  Dbl 0x59b04c5960f1450ed386196399d23ed1223391280c0d145a;
  Dbl 0x6f64ed0f4758d2a44f68a464ac01fbda16fb74bf7f970675;
  Dbl 0x374c19dbd23d23e02696a99577b6d52133bccc63218f534d;
  Sub 0x10f86536a1b6ef366cdfda1d2ebda4b13bbe9ef971b917df 0x4863a4d0b4474feb482fb2b744670a272ccc966cabe3262c 0x48cf4531fe8476e9f8747e4b45c548d908d01e8f3ff07b7d;
  Dbl 0x5667c841f396aa1fa98ae2cd4a269d22c8a44b9df93da5dd;
  Dbl 0xa0563108f727bec1fc02a0e0a6a64705a01cd3a14e5438a;
  Sub 0x6609e2344b8a3609b946b62cfe091c04e0fee2e8e4db78cd 0x1c318bae4588fadb319be0878eaf95fdf2ba52e12058a722 0x28e3db8295c18b4eea65e65b6c71880f2d966c563a0b5cc0;
  Dbl 0x53d63c471784472a038f7a3540262b44e77f6c87cd62bebf;
  Sub 0x1170cbd887aadb24c20c1ba740c8f8dd2f140dce2c88c35b 0x65bec5879d091c47c3bc420ec9ad10711ca974b8f0bf12af 0x66b88d0ae4938c626fd0ed5a5786fee99aaa60683704eb3f;
  Dbl 0xdec21800a43fc5624c539be8ee013e006a24c3cbe912b9;
  Sub 0x15a20b616fe4a705c687c1ae6faba33ee545798e8f6b0b4a 0x1e9d18ec5c5dc4e3068f300661a474c2680194836928f923 0xf202dae32bfc6925fd6f5fbceddfbf043573d30e1229035;
  Dbl 0x188152dc65d79d5094b1a287d42d31d5dcafbcbaeeb13161;
  Dbl 0x274e3bb3ff224b0c5dbd2348dfe2a899553c3ca63a9384d1;
  Dbl 0x3c3afdef73509058c53d73b5b551f9316f07a61f421298eb;
  Sub 0x58b02c8407b137da6041bb016964aa2350df14e691a3c350 0x3ad618b886a89a21c2e3ab6f390ef67981458b0e3fa5f22c 0x57a71a994e2a2cc8b257559a9d081956987c834685b0f80c;
  Dbl 0x52289d8bd7d0391e5e293baeb5f8fbd5db6ee10c5cb01604;
  Dbl 0xd05f10aa3e57b5ee84fdbe0897545a90836978f499b07e1;
  Add 0x6eb921451010d3cb88e6e4d56508180995804af41a6e5322 0x6c0658936b6e6ca35700f7156c1a3dbd42bf5984472b5c75 0x7b45a08f8c4d7b0d6523662093e7818df0f59352825903ac;
  Dbl 0x7a141776d2bbf2fb9c07ae4af8de2c249b078ee68e8a04df;
  Sub 0x71e45098936b0d275ecc143cd9fc7e363f92fff9a63a2776 0x40d2e49776f7a295843ababe9cefbfa614fa41a08baed6c1 0x4eb2798cd2cf190241630d193344a9fe8356576c6b441a86;
  Dbl 0x3129d9ed9baff3e7a25faaff8c3131aa6b36bf5c54c5f335;
  Add 0x429761b9d7a49023d6cddc7b0ca3d7356c6434ef39ff8af7 0x28b384581d859cb37389f73c678d5ebc5be3296f16c16af9 0x170a34efcd49d08c14063d6766d555cfcafe3cb80687373e;
  Dbl 0x196d26cb5ea6e1572e2a43fdf3ff3f9aa21d22b363a12be3;
  Dbl 0x519b3698bedaee42ace425ebce7afc656e5db6581c5d9ee9;
  Dbl 0x2894b00583b5edb298951041e26ffc956560841c3aa3c238;
  Sub 0x4adfb9b871fc94dd111168e0984a6dcfb436fba204c9e7ed 0x5ed51236bccb8b6242c3163bcd427e7255aae30034db5671 0x22dca0c15c3fca71750b80cbc2e17f7a07179f77311f58f0;
  Dbl 0x6dff630b742d95758ea501e2f2357e4c386847f104db37f9;
  Dbl 0x4f1fb321997a713fcbef36c1df7c56f110912c4fa6b060a8;
  Dbl 0x7ef427d2b8da32ed399bb2d960f00f9e76786bca77624bc1;
  Add 0x43ccc0f8dd97c34a8a141df8264f33e23f5109522bfaf066 0x637d8a958ec285526996d61a119426ad6be3c9d75060c0b8 0x359123a8856d2a9704f6a062d55a5a7a2ca86407bdc5ab3e;
  Dbl 0x57c3003a7b5c7f132b51da5079cbeb96816e345ecb19cc98;
  Dbl 0x38b775e33db7bd63bbc8ddb5d966f960c69456201d17b2c7;
  Add 0x59ec24081172b8d99abb0671ac0357485ea2b98aab89377b 0x27ca8db02b1fa42dec5e98f97f2a198dc59704ae890f4334 0x29ddc8b85bf43e25922f6683bd8d3a5baba16adf62e7df32;
  Dbl 0x63530bb34eae2e0c892c80de12f1a484ec9f8bcb28d8d824;
  Dbl 0x1270660c87a9141c507c43cb1925eb295862e1cee6d57bc5;
  Dbl 0x4da5216ba376de6ad9867264afbeed723e2ce5b10bde26c6;
  Dbl 0x288cda76aef9b66c62bcbe09259b5c5f29730a4ba287d30b;
  Sub 0x149764d183d8f0d198d3fc976375f87d7521b21f25a97d6c 0x78e128c996665eed3ef6eac08bbc5357db777856dfc583f3 0x52b6e4f8076eddba4b72c724d96ff14ffdfae90652577212;
  Dbl 0x3aaee5c51582d6ea214c5334ac5fe10b3857772f05172a58;
  Dbl 0x2555644b7c2de561f01ae6d240021e5cdce487d852b5512f;
  Sub 0x6dd54ecb4216fa8ab7397a04ab1f02ee31d7e01acb2a6995 0x4e0df93fa16193b7a689acbc5c279f33a0dae1ef23dab35f 0x5b082f4133a5d7f71354f6b7d741d9bd33343f8da52e6db;
  Dbl 0x5ecf6d08c57054b10a48ac83b5368a9727f19e29916aa14;
  Add 0x711ab007a295d8f5ed065d6bba2b9f80a0e7fe916377bf26 0x39daadcd821655c4249efacfd9b7062e3a532999cf12ea33 0x5269fc8d3aeef307bf22ebcf195da2489da5c6dbcc1b034b;
  Dbl 0x518288f412f0fa27b58dc612a181046ebb0e09985048e7bc;
  Dbl 0x34e22390975a271aad56723029e5733ae7d0b169e1af783c;
  Add 0x199e0fa4f1d73f1970161576d28cc0d6bd5d5d6adf4da345 0x72168bd9b0650542f6657fca78bc78312ffa3d6f5ef4724e 0x7a4d8781f4bd2684fcc4113d0d67c0a31b36f1e69f9f5a97;
  Dbl 0x5521edf3710f92b143a3e69681acbfdeb9cb6fe3af84e58a;
  Dbl 0xc6fbdb392b3af67f9eab72b5df82a54173253fa7218d291;
  Sub 0x65208468c95c291371e9b74a75547229243230438aa345a1 0x738b4ed5c51d8db66eb1b2e543972bc8085163d434a6afb0 0x28d8d8e62f13097e386e5bccb2b529c040eab60712d6d60c;
  Dbl 0x1217ac27c1709b605542138944feadabaa72b64764195993;
  Add 0x5ac499278cbcfa9a1e1e98360ba17bc05efc9f36c05d801e 0x4f80f4d04f64dcfc4f2615e20e68e1819546578ddf6e09a0 0x54b7b462f667e5537672779909ded3738711ae668c8c2ba8;
  Dbl 0x47cf29782fc9cb7b7912c8615460a09118c965416a95915b;
  Add 0x1c2c63523a846f4ba2c3d3919d405c9fef49001746b999ff 0x784358f89668d27d2cb7ee9b46b9fb715fedd8ed62666ac5 0x597569d7ec0bddf4695c42d1c28c637f49c11be84f7bfde6;
  Dbl 0x306c0e9166ac434ffc2fb28a4672b03313610eb3fac1b614;
  Dbl 0x590c5f4e6588ab7b3f58afe1542d0bfdac6cd79397af4c98;
  Dbl 0x3faf9859f562d89c9761cf9a5fd97f0001c3c2357b50e6de;
  Dbl 0x1124d5752aa2367b6311c43a46f5f9728fa417041814f36b].
Lemma order191 : order_check 191 0x201 1 48 (ofN 0x402) 0x714114b762f2ff4a7912a6d2ac58b9b5c2fcfe76daeb7129 0x29c41e568b77c617efe5902f11db96fa9613cd8d03db08da 0x1124d5752aa2367b6311c43a46f5f9728fa417041814f36b cert191 0x40000000000000000000000069a779cac1dabc6788f7474f = true.
Proof. vm_compute. reflexivity. Qed.
