(** Generated: slopes for the multiples of the base points; checked by [order_check]. *)
From Verif Require Import Base Proof_Hex Proof_Order.
Definition cert367 : list cstep :=
 [Dbl 0x159ed9c7b1ccfd7f44b66ecc9c90e80aead2b42b1fcbf09bdc34d906b3c3afe4d1788f6ca16be31ffe11c32fa63d;
  Dbl 0x422d6963cb81cd94335b6224bd71879584415341e3d55f1c6055aedb3a89cb956cf63f9630b7c4407bcffac85456;
  Dbl 0x7de496196909b324a8ac7d27f6057220c40df0a2dab763ed06bf3e7577a70e20c1d59449ed5210579a7114a8b537;
  Dbl 0x4b3d08fcee8a0613a2bce90480af1ec0fd3aa5f9759e5993aaaccf7c2a1f3c5c9bf6b9386ebbc163ee6d30be7030;
  Dbl 0x552bcdad39ec40e88c0acd3dfb2858b00fd76a4b3773e87b69ca0df85517fb0dfc97223f717c377d72ffcf439373;
  Dbl 0x12d75e168b1ac5cdbe4a6bf3b2ebf15cf349fb8c3cb042f879cf6482d30b96881dc3e66e7592c7182104165a1ce9;
  Dbl 0x62185378c3d5718bec8729af3034c5ce65de14818b96d91b16b014571cfb52af4135a680ab65c10152823bdb303;
  Dbl 0x7451ae8b17471927184759b5965f32a71c5635176286071fde2e3f168c1f09c37a39bfd0b3828883a883b118b562;
  Dbl 0xcd29de75a04567e364304bca8cf5ae6617591c8bdd11a26af8a73d95f6300c5ddfb0d75ee2d11bcbfec7d8d7cfc;
  Dbl 0x730cfcc6e96088d84dc0aa06dc4acc9b1a3d5c2d611a5d988063230f475c090a3a18a0d90581e26d97156098f5c7;
  Dbl 0xb7ab3d7c1180e8b99ef8257e410f2b02eb77ece40613af27dd6dcd6838ea8471da83b964467ed1c0edd18110edb;
  Dbl 0x4629ebd9c4b5d2e054017f562d3ac310bd899234360529d884c78c10bbc61f233dbf42f74f5dd18144fd3d407626;
  Dbl 0x6f6e90f0f266f3ce909e0198d5f03e87fefa44c0ac990f8a944a99b6cc46deda99e8f72050c79555a40cc6ed867d;
  Dbl 0x274ae08273b2c7bc98e21716183aeea417123ebd896797c8b1911cf558b3c7bcbc9aca7ed236484353de64281b29;
  Dbl 0x24b4692ad716fbf541974be3abe9bbcb079be08e7b75bbb658696eadeafb0b3ce1b7d7bbda83340317c41b9e091d;
  Dbl 0x6cde4ed3f1a306ce9dd1723795a8bb7a06742fe7a4ccac8369419057e2a7939c5c7b5b9280329217caab647f9bb0;
  Dbl 0x71937eb8f51c8e621cf9b9cb67e3e030fe047512108055ba4233c44134f1f28095fc0254719913d4be5860e3ce8e;
  Dbl 0x56c2f51487275c520628f50fc9b260f5c51bcca232a3ce784af37c798d2749a86398fd3c6333b29b7e6141b6fa24;
  Dbl 0x674c768cc3b03f711c2fd6bc4f4f40d5474ea1ea80bf2eac1389c6204e6b85e5cc0fd0ff06eca9ef42f0cb8eba0f;
  Dbl 0x34bc251bce520f8de79b642fa157be27fc7cf6e6269d56e193b46e506a94e556765e51a1b666a8a69d8367750eb4;
  Dbl 0x121e6e3cf726b645367c569adbe457eb11067bb31954c365d26cac75fa93a867c387a8564a02561ea92c5120fb29;
  Dbl 0x7039c91dec6c781221036c3089b45c1f4713264bbb5f6e0f5136b734905a3de37a9b348c1141450766c9b1da2e88;
  Dbl 0x40fcc735eb843c194626df1c1cf491a95e0143b3534b6ce31953e7bd951fa339872d31daebb82e924673c9930f35;
  Dbl 0x5e72df7df69a9b0d968a0dbd93016029a9de06d745bc05e29c5ec8340da8676822b17c364aabd0d6e71617759028;
  Dbl 0x6367e4ba7e776e66277780a1364105808063f689728a36df658bc1a06149ade15142844474fad58e27854576d251;
  Dbl 0x2596a353e56c0e870e114de56e71381b2e6417a27bd50f4cb02aa90f413eef5773c131ad668be3d626c8bf9320de;
  Dbl 0x117d9dfe7e1f54fb15d81a3cbcf7c074bc0fc9fb586b9f2fc9bda39e64ac79697b6e58f65ab4924812e5f71c2380;
  Dbl 0x34700a2e83ac33148111d34322a9224b9ae34238aab95468e355c4761a9ba990458840d38273fa0c351433a42160;
  Dbl 0x3c87c45a90515c8548db88665e3c94db087d2c8bcc39522de7ed2f0ab012e81ba63655e36fa1571dbb755f659237;
  Dbl 0x52f25186bb553881a813cd463f5905f4dc827afd7519953597c97600d1a47eb642876d57492c4e89311a456fd4e7;
  Dbl 0x6aa1b85dad17a07530ca53f81b025967ee22c7f08e48094028d6b4b62a84a90259862f9b8da93b698cd39d8247e1;
  Dbl 0x5b6ed280359c9e3498abc2cc5c06096ca703ab6aebd6586b9a0a0dc3e7383cce18e6cac79a27b85c8c5d4ab5b6bc;
  Dbl 0x51efc876a4bacb8bf267a31fc2764fa54c16f5db731e1fc1857e19577371ab9d36f86f82b0dd417e3911ac37ab8c;
  Dbl 0x11b4dda8347d2c270f21e2661a987a808440ec0044dc85a7e707d8a40a55ecee8dfe5e7492d5ee5a9e3f241dfbe9;
  Dbl 0x7aaea4d8afcef39d142b3b0ab31f3cba9eca3a48751112e3f48d5e5c313790bab90636d61591d319869eba28c852;
  Dbl 0x58c44f4f31768a3ba6457b27efac855dcefd7f3dec1bfc8b7569587499b6b97de78918f6cb85e8e8f05ce87a0e97;
  Dbl 0x26c50466c78a66c91ef231ef93803abc6846c8489108ff0d8074067872c4e19eafa1dea7b0f2a812095247c0ff11;
  Dbl 0x767d5879019e235677d8b0b2adeefa71e6fc24b9deb794818035aa6dae04caac04f6f2392da928ffed110787505;
  Dbl 0x307d93b161ab811b4f131eb6502de19a53ead5e2f55527589b37c9f5fff4ac8ee2ffa8ac9c73747fee3dc2e018f5;
  Dbl 0x39cb57594d80184722bb6a7cb7329c03ff895292019c4185ca182b7a146aed629c0fa3ba0e09cc935da1b78794e1;
  Dbl 0x5aa68debbb31a9faacf20b5971a9115bad59a477d35f676c5f607138456012f8df5e2ebe73b286de33ba01f21f3b;
  Dbl 0x71a1966bc9ea7e7782b2c0133b3360338ea92bbcad15eb11445f5001a09d6d27eb385c617d4f46931e1d55e2825f;
  Dbl 0x5caf5b957d5e2f0a492d522c2b7e6b533918e52bd763c6b0e740bd61f5978dfa3e5a0de584eba344a5e26a482c07;
  Dbl 0x73bc5b4d4ed0e3dc0026a78407c1d2edc0a86b11d4123d23b4e919e6082fe4604798e1a223ddc4eaff338904873e;
  Dbl 0x55dd7a6087a81d95943d122a36f82647895d152a518a34f95fc427686a959be5b6903ae8e5864fdfa61f1e00b792;
  Dbl 0x7945d9e5f909633c6b57fae5d19f23887b3f18fe26fc9e7b0bbb1d68f2951c81f294c05600432722c3600487727c;
  Dbl 0x5ec4bb04e654222e4f3a2c4396c272b42eeeca5d4bf64df3444f9a02eea08d73c73e48e032e1cee47c1594107302;
  Dbl 0x36717391d002c4aa1a95731ca12a6a6dbe5b0713de728f59fe50cca62d66db460c24aafce17ab2ee8bba9adb8a80;
  Dbl 0x60991ce4863ce51eeea1397624e331d4de0d2142ecbfeefd53aa7a8a6512e7ac7eef1f73e1a61d873d7a14524bbf;
  Dbl 0x3ab04fb7bda336d13b393d220136c8bc0a29037dc8f5221f280f8e18673b2c0f7b02dcc4779e7bf7aa336b25ab8;
  Dbl 0x4f3ede19826ed926900fd08e4ca51cdb548ff6a667b683a9a0ebd44b8e222a0a8440971dac67e26b4edc33df369c;
  Dbl 0x5e743589a4bdec02a66707f8451e45d619e077acf8cb8ebe0cf59b2ef712e8967bce7f360abd7544fc809fd650c6;
  Dbl 0x52f8056549ae503fd2bf0a34d2f3e0e26239661a1504282113d659bfca0298653f9aafda9f376d5f45d2f93a5dd9;
  Dbl 0x679b2219840b8afbe8a437a6655691625feca198bd1da0a9425e220cb97f6a86a0facd96e376ffb245f7b512ce1e;
  Dbl 0x32aee83c042f6cf05b68f23421ce936648fddb8ae24b103453866785933feb31ab65706b2dfa442613356a69d9ab;
  Dbl 0x65c156193d57053395b18e1235d1a942b3ad76e9a02277cd9b843bf359b771063f8201de5e7d8332ee2c2350df32;
  Dbl 0x2830369a4d085c9e9ec9026024a320fe66807e53124e4669e22dfe72781a863b34e918b497279fd4524c8a1eac9f;
  Dbl 0x797a99c12c304123666eb1e1be99cc6c7031bf9ada89d21311315f257fcdcb33dea5921e77b9f2b1cf6fed68ddc2;
  Dbl 0x881e949c06a81b0b7b4e18193c7c0c95b46d3b4460c8dc833edf267a2c1bb062e393b84b92ccc097660f744156e;
  Dbl 0x4941fb1052128852a8d52d014174e79cdd2d4a59e065fbabe286c329a2e352851d139b111bc683e6e9be599ab4a6;
  Dbl 0x6a5330bb18e1454957e89b0626909ec6dea3f82c9434a7512a9cbb25ed2ce41e0d2ca66def330cb853488cc90d43;
  Dbl 0x5b0f952c25c7c4773bfb8955f7ab2c19f86b1148cc651a6fb516234b1c2983665aaecbd0226f464ceedbc574ecf3;
  Dbl 0x726483b889066aa19992d697e4675d40a2da591743b8cb94129ed51fbd103036eefe68cd97999ad4e000c44ec406;
  Dbl 0x171b854a3a6971e815206ae283ae10ed08a9cf190a8a0d55b5d9c9fe1aa480dfebec87807b495c59eabe088e6797;
  Dbl 0x495253e6cdb733f2236b85a47212b630ad5543c72956c13d3d934096e665c0c04046bd3d1b8536f0891dd3761f60;
  Dbl 0x4cd7fd1a60f3506866dda08aefebfe1d0bad9725defa2db05f0885bfb3830d319cf908bef9837c339f697041dee6;
  Dbl 0x123006e760eb30f26ec0b796497867aa8fc1bf36702c639a05aa9a783623accfe42272916bd996eebdfde758d98a;
  Dbl 0x88c9a0e376fec3016e47ef9f2761eee761e5586f124de3e4956e5ebdabf6f40fa5f9d711b1f4e3180bc60997028;
  Dbl 0x6df1653fbbf0590ea8cbdc0d4360baa32bed26277c369bffa7d2b71bb360ba710b7283f056626395955f696fa3d0;
  Dbl 0x75d5cffe7b5a18805a74dcb68fe6e8fe238b284c756a24e841298a2dc8b33188173400684d9daeab68e74122cd8d;
  Dbl 0x33b5f712a5bf46232f11a232bbf91bb461ca4ce516b08dd3d9087566ad045850af937d7ff67b0bff6365d966239b;
  Dbl 0x44b7526e8798c940c3a2b2656c6364aa168ce9f9eb136d7f4f6e2a8baa82bce4b87168e7292c32f6dd9e67672e0f;
  Dbl 0x50317a8c81dd72b6abc36759176fed7bb953ffa20c6c7c7b55ef0e68640e89bfec0f93b278c6712dff2e0cda109e;
  Dbl 0x3c39a7c3ac70e44126cddd01023600e9ff0170bdd4f28ce62fb9b426b39149a5c191aae8b51bec25d01fcdc035a8;
  Dbl 0x76adf161ec83197fa50344deeea52b14712ccc3c2ecd90bd6c0f700b720d3fecfe04f278525fdd25222ff274572f;
  Dbl 0x4f80614a48494e408d99ff0d4f57da1c06b8151b91929983f2c2856be44b0eead4d09f0fc1346ca5c4bf2bb9674d;
  Dbl 0x4cd7956b02ddae22aa1af8d7710e7e652e0f245d98552136f9eee72449bfb3327588e52a9c0c43a1bb9494b52b5e;
  Dbl 0x6bc8afe6147ae1c2ec9d76f143c59503493fae07bae5e4dff617e0374e23a6d5e8edb0afebc0091e7a787097c3d0;
  Dbl 0x4e6be54f5bbebf8802014e31defb8a71b219a0b034d9daa68aba38f07ffae6547a1959671197576bda70dfd1bd23;
  Dbl 0x7eceea2370c421cfb7f1d77abeef871d4f65370660fedfd4d42d760126a8f1d3bd007933c5f6a6f5a2b4bb190af2;
  Dbl 0x57a071b020e2d7f378c0101857af9dda2186097f8ecdb47510b765826a3b64ad5771d819a295b79b76f97fc2c3a2;
  Dbl 0x3326926ad661e567e3ed08234fc233dd575d58654a6b7ff724eddf04728ee1ec723a6197d4a4a1b2decc9d756b22;
  Dbl 0x47bb9bf2595fc6186561f78c1d3b4c0d7be8442dfd09a27fab2faa2f0393223e0aced0b413f08eb2a28d3eef4d0b;
  Dbl 0x5cb8366cbb93046e487f6ce2a10f44be0945c7b88186d23bda6bd3f2f9ac35e1aa1f6eefbc02fa6b30044f0dd86c;
  Dbl 0x74204e880f66a69b859209f14ef6a7ffb577ec283326f9836ea080132e9b7a46c0c0e218636605e5b5b48d5cb8a;
  Dbl 0x6364c66d55bc29d6c72130202f7bb2afd5598c02b90918a8cd19ebb8af006fc51b11a78cf7c115b5c966c9cbdd62;
  Dbl 0x50235905c4511acbc350cc79af71611cef8e67089f21c8bf811e8d1604590b8fac7e3ae040197660c5f8d10623f9;
  Dbl 0x563c665c83a9efd7e7b6cd5d8608b9604eeb13a69d87de963d83e0a523c99920c3e7a1c1da96d2202466c7a6ba2a;
  Dbl 0x17ce12c3df42480d0d2d531f880361d364b123bc5e59341a1c35684b3775761a3a4d579b1ea07da5b6d5ddf09141;
  Dbl 0x38decb5d071722eeba37d9a7623437079b0fecf967578ff8804e55a62b0bf00795f56d938f6780ec21bb7d6362aa;
  Dbl 0x4b971e5adafa3838217857f590a258354e3406fabf5058f0ecdb52a49edc5b0ca3778753d73d1049ac8176321b8e;
  Dbl 0x47788cbdbe95170e1545c8c4e147ea753e557ae92fe2f40bc0a7df3b0e84189cdc32da71be57febe652f4907c2af;
  Dbl 0x1213c25c336e7421c8712beba0987be6dee4b179c558af3891d5e4c69defcb54ea3bc46fcf3a2ffcc2fab2d4ac2a;
  Dbl 0x676f54c0f87825377a6cbc1618151880f17144b0a7bb0601e833b7b276927b14246afc03eeb0de448efa8ebfa653;
  Dbl 0x444d1648b079714e033112eb81deaf99e148ce76d9d5d6b9cfaf4a35a3fc5e6b20dca58b78c4cad9a3e0b4e678d8;
  Dbl 0x543588253823f5427211c646087cbd1eea296dc945846ef3c2a91f292e8367cef1d28f89f41810d5e690ba758054;
  Dbl 0x1eb4da01b8d5efce166046e7fba6afa40dece32485b630e2e41fd9b043771d786ab9e9320573a0e03f138e6f0867;
  Dbl 0x5fd9e10ad7a629b49cf2c17190a431a5508dd22107f3b0e25be1299dd34d9bcd0d4abc0bd4625b51e0003a4638c9;
  Dbl 0x4f84f3e5aae370ce31e1f4fccb6c614754b83d6bf39613545b2c824056912626cc43194690af3b619628ee20df11;
  Dbl 0x1a0eae361c9a9daca2ec64e7b85660cc2f9cd67d800a442e48f084b90c6144c767ec338e7f1abfb04721fa92ecdb;
  Dbl 0x695a074acad35486cd7d8fb124c029f7e27d38bb89a01ba98a3379ccb1217249d7a6e08d08af224c1d06a9e4a629;
  Dbl 0x33a390c3fcdb82ec25e690c52c2b9358ce51f94af1693cf1e4f2f6933e87de142e0321446bdc433a99cf7b4e1d9e;
  Dbl 0x4f1fe1e19fee459a4b89e9025cf7fd4f33e142265d2d40b6372a51b9186e3932dc5c6686a4087d5971f76b60651b;
  Dbl 0x56bcf3dfefb0d8accdf9da9d84712ef70338238506611af440be345ca2bc0ca9436d40f4ba6ee996fdcc46317602;
  Dbl 0x5df363853d03abd0c8cc2f91e0e6c7cd4b2010965bf7e5e41949c7a3321850a3a7b5422f5ae2e67f96954b7de0f8;
  Dbl 0x4f539a4e2500dd49d6f25c979527fd4164204f6c7c13eea486ca41eeb65ea944023e977d78382c99c703b0b51506;
  Dbl 0x24f10a8ef9d9291f40960b81bb4f9fb266388d3a88b3c9c145219b21ef2140d425f56cd375c0ad2140d8c36f0d97;
  Dbl 0x5aa3bcd1d117960df06bb3e5bd0dc5984c17fd22f28001932f9a43c82e0e356fc8a3074de281a2b789a04b566969;
  Dbl 0x4410d17bfc3153cd148a7d24d15b06ef729bded1d848179bb2381523e1c272fa4c435bf815f23558ba772478c7d4;
  Dbl 0x17951cc08340df89debe50243ec44304bbb48bc7c5e928957ae82301032465628e4296363326a50c3276ffb3b9cb;
  Dbl 0x6ca322afe2ab0de4e7f7ffd6de5a66acbe0ec62e859b2cb642e44da840b9a0e9a7fdc704efb5ef7ae45a7e5b775f;
  Dbl 0x58ccc559039813b5c21d098a86ef0697b56cb6f6807a05822262656c203286022d05ba106232d92571aba8cd3271;
  Dbl 0x7a304b2c18aa97d8c3680961d01b7d70f2f372335759a4f29c26abb378368fbd4af9697b9eb76899a38fe8ac6078;
  Dbl 0x34201e386fb14339fbf522e4f3293216798cda305125cdc1aaac28988b458757f262f119a1cd3735ce97497cf592;
  Dbl 0x45f778da893929f2ba4650c6149992b6ebdc3cd7e96a71cb18ea8a33b2d48cff6bbcd454a19fc5cd58e84725e3e5;
  Dbl 0x26b564fb5984e38202daae05f5abc0881b71f2594944e131756b89f5bec75aee3c88273048b387522f58d9c8195c;
  Dbl 0x29175e3508ac4826bd5f830d41be69607a4682016fcb8e046a51405d945cea48118d40b93154777196b0fbdefccb;
  Dbl 0x26f020e0fc3e3dd2a87c205121f7ce491caf43d25f49effb3bee62b5fabf6be768c9e4585c118c79f2a2d5ee7d4d;
  Dbl 0x6b35b74a433baa873cddaf0ba65e408ed31b5c7f9de0fd0362484fdeea32d0a2b0d9424df6dbf75451aaf6af61b6;
  Dbl 0x4edd235584e175df564081e408fd58ee9d3d93937e5b545bf56772feea7ad957a8c21f519387caac1a4af1190423;
  Dbl 0x21b23eb92b0fd34438d9bac9311fe81ab5c75f38451fc40a905424764295143ead2db7e898666ba62356fcc1d00e;
  Dbl 0x635ec0186585812cee5e6ab29ecac09c516c14221d16779bf84b377b83e23e01d9f871a9b978bfba3f3e4db2c07a;
  Dbl 0x10543c7196c99016dcd22b0183c995ee7ca941d8fe5b5a0bd449d679d5bb4b2dc132e8894eee489afb4d3c5edab;
  Dbl 0x22ac963570084a72e85ab20d460422f2125bcbe9dfd697c743ce0539a3fc406bf98533ecaac9e00399eb288b8a18;
  Dbl 0x7a0bb81e53e47f1c84ae1d3550f9d31218cb86cf314e9916dd3f545312c1e9da7fb200558352a638c766b9e9d5b5;
  Dbl 0x3c3a9f95b8d7efdcc388d281fb37425ad9ecf09ac05767f7f01aaa8edd5e232fdfd3f241c2e1745925d332a7b17a;
  Dbl 0x4a28c250238fc46c423aa1d8f93c09a51e3cb85016e409b38c4570941a073031e4b29533bb7b7d0a16ca05527bc1;
  Dbl 0x7e2ed5952ea603eb00643ac9fadf59e2357f6c032de7067a7662a201664fd4f728c767eb4d4e990890ce51758320;
  Dbl 0x3a53a4a077360e774c4ce3547ffed83dfbaf166d54690248f5a89ac3a9b190249b0633051466a91b8f4953904f3c;
  Dbl 0x6e898f656f97e133e278c43e6a7b305384535844717da14ab8744258aa85d6b08af4bad11df49482bbbc0f433578;
  Dbl 0x72766b3a9cb20a47268cac4cdbcb33702a139e4ff5a9c7edb180b5636d768f1e5c09702cb9214f34ccc9eb8fbbaa;
  Dbl 0x2dc50e168d834dd0aa0704baee6ce191e9fd328a21a1887256cc700922654d37562e4d38b22e7f71db331ec00558;
  Dbl 0x605948160b763527f5317db2635d468a194537b3219cbe5adb4482b38757a8a484dc062c5134c9a3019add3e34cb;
  Dbl 0x63e36c1a83a2c52e8d231ca800136ec8759acc724db1bf90b28aaf9bd11489b37267e45cfafc8d930820badd2b61;
  Dbl 0x7d329ff6cf1481e8979863266e714f2e33def62b8351820761b9a69ffe93c4fbbb46ceb19bd97d1eefc3f7f0ad5b;
  Dbl 0x1aedf321107e7a64d81f331bbdb263c90a98ada9281f587e2257cb892572ae6dbe268f92f6079c396cb24004b900;
  Dbl 0x60d91befbce82f0bcd5d58b7d7956f8f6a1df4fd7ebdb27acedf09bc001030e58a2ca1caeba9b339e61f4b0ad7bb;
  Dbl 0xae984a3ab012b3357e59d21b542b50aa6586a149f46e4cc9464d32283c8f28099d29cbe51f76d447b2482f245a7;
  Dbl 0x9bd79a07dcd0c675624a40d0c9f2db4c5c970b4e0c4b5c39449bd818bc966a8ddb1f611e4a3b9ea66b96a54c8ed;
  Dbl 0x3dfbdf78032e39a647256f5536449c7668341d0eca61d80b452ddde082e66023e517f1393a885d849ca3603652b8;
  Dbl 0x425c9dfad0a0e9c86d627148472012054e52cf1f5cbe99dd78e29d8b54b5b445e34aaaeac4d498d3886e84925a3b;
  Dbl 0x3bdf107b4473b5d2cda92fbe979eab9b5181138af25108e66e60b4edfe30c6546907bc199376aa918863ed1e4e52;
  Dbl 0x767d024460605c7a81434ab122283c9640d91f4a49259bf4bdec034969f398d506c6433c0a3c818ccbcca7418c6b;
  Dbl 0x253d9bea91d7355f49049b2ce90538bdc58b1799f9100b6e04dcde055a4f6cfe3e6f3c016fffce392a029d381e90;
  Dbl 0xe6af900eae211c61a778e1b0a7671c0407d733d1cd8ec8497cfec20f7b66666517535343483796791872cdd18e5;
  Dbl 0x5229e75613818c47a261f52144f76eb4c7ff3501541a37f2b26e806ac3741c2a418836dc3da7b3307d7f3b822bce;
  Dbl 0x75927bfa3f0c4a8bee8e812cb4882e63e0f70fe0c17ed3c51ef94a575a55165e74370a34cdebf9e2b6185a9c649e;
  Dbl 0x740a7adee2ac2c3e1b0cfa7532a264f67f4fc08de1fd04b2b27b24a549ab777768318155d7eb912ff0e705b28b55;
  Dbl 0x64d8f4fdab4890dd77d2aa2f0cf272d3863835d9a3470b45cd8ea02fa2e63efdc8786720ee63cc2902589118748;
  Dbl 0x6aa5d7a2faa65545b766cb4abedf112ec352bfe4216eb53ad00122ee84de1a0ef8243f217aba9d0baca9df02aedc;
  Dbl 0x529ade5127eb6b7db4d7590b282e2c2a8ad589cd7c127c3d01cc2fd306cc3c49511db4ffd614a46bbeb17e617f9a;
  Dbl 0x730bb7719d665aede067faebc3aa4c9a7eb346c19e382483bd81c48ccbcac3d793bf8534d06ef5e3a7ac201cf841;
  Dbl 0x17ec439f3734382adf89685543e370548a2b04dad0b9fc13b47dbd12b5bc98fa8324e29fe7a6ca820fd0b8abc2b7;
  Dbl 0x38156b2cf9846a2800f1a043644a165eba5ed314a0ea98624b1fc87f1acd73c3806b4229b5bd370d6e6e6ec8d2fa;
  Dbl 0x71db0699ed32f2fb8ca5d430e651fc06c8108a06746875a24c864ce60387a045fe67bc680d9202711dc8250db60b;
  Dbl 0xbf3fa24a513d8516ebf0d1552b8944b8cc9d349eced4c0bfb71caac7f1bee6eedf67bf77ca3fe1a8954c1f1bcc6;
  Dbl 0x3ce6a16dcda0c81fdc88a901ebaac7ca87b7bc5b0df0fab99e9d8836b99b0a609641abcf88f601181a3734bc2408;
  Dbl 0x38635fc12ce87380faea32bdba70937dca1857e5c503edcac699862d14080cb921f2b15eee732aeb20165baf6a69;
  Dbl 0xeb4f0e08e7142271c8aa58893c6a0dab828f85a4e4e516c5816e6f30b0841b851d95249c6413cb9fdc042eb2c83;
  Dbl 0x49365bc4368da839e1cd5686b0cd6c66ef39ea37c4755c29179245788d563e6d7189c4a20d7f818d6af2affca89a;
  Dbl 0x4ff8c5aae2e65718b050de9b9afee58783a4f2daf44983d75e9a3cac91428929e5890e4c2c2d417604b34f6550db;
  Dbl 0x1ae2d2354129b45407049a088b5f58dc87d34a88b05bbb93d352a3c2e32746fb84dab41ce843acbe9d2650d5c6a4;
  Dbl 0x27ae81f2dc608f9a1770bec1c566ffbde7d89420b5e217bc0e3f669932ba9b64a2a7cf610201795140370cd2278c;
  Dbl 0x71d533a4e022c01caf81ea0f942c12d8cb02bd3847643e6a97f3cbfecfd441a7e81b136aafe8ff28eb519703c173;
  Dbl 0x51443e63a4b60458730d10359c0fbf4f95c16c5d9e061c1c847f8b44a18abf6be1f0e32b8ca55b7af980f70b43bf;
  Dbl 0x1955c3dcf8c6d439b91c0f655393f6184a6d6053f1cd14ef2b9d93df78e2ae1a2ac8849dd4bf45543d411f8ad087;
  Dbl 0x532a47e3187532cf5e5ab1bd9542327d5455f83deb4d248ebe2f19209c3e8541f93246eb15d101aaf5e645f7cdec;
  Dbl 0x6396e49c4c075a01ab035cbf35e25a044ad4ffe82cd1b9f9285b14483b52d009756751d75bf92d9f20be151b262a;
  Dbl 0x46cbfcf6a46d27553460aaa614845153da73e0c3c9d01c392dc5871d0d1df7b476e45724b7a5d90a2bb7f656d65;
  Dbl 0x2423c75885f5cc02f0d983d237fd6887e4de95775f244107e9fc3b65e2be4559943c1ab0c5f7cfdc826823e96388;
  Dbl 0x5976b3fb93dbeae6df618c2b0c89c34fed10110c46fad7c7ca58ce577f847987497b679484c622b7c3cc9546a57d;
  Dbl 0x29b47e5fa282c60cfc90ee56ae57c7748ca9fa99a5871f8c55d0b4797da6eeb73478ac68ac36937aaab910dcb1fb;
  Dbl 0x546abfb7a43728b8bbf90e025dff1022d862baf23b835235b6f9ba2afd9f35a26a1414c8c50c83da0e26ec10bae0;
  Dbl 0x183e7055bef15cf3591d75b75da1cacf2253e58daacbb0a0ac1dc7e1f17a76d5a05a42acfccb2c6395297f1b5d7e;
  Dbl 0x39b4b972fb2f9c649c4d5df13cbac51ddfa9a3a2a446a31e0e9ad3334c980463376353a332f4913fe56e1c7f8112;
  Dbl 0x6210e61ec99195f28f2931bf44e908e23e0ff94abb870a85e21c68ceda015cbd80680030e10828aea342fb853260;
  Dbl 0x4ed3e857a2cb7a753cad335570caab37605457a49c5cd26356bdd0629c3ddb2048bc7f84eab3eef0f896bdf9d432;
  Dbl 0xc99a91e56655a502647232d1186b6625366e57f120c8c4bc9c7a63abd7d78beb4202960e6f42973175f689ec4ad;
  Dbl 0x68c808af4bd67495617f60065cb1605af8b024554fd0974374ab190775d4aaae01b0ffd1ae47b7f19c83825d28dd;
  Dbl 0x558cad99654bd4e18f6199ae1efcde025511cebf6005ce1b0ed4a42d2f28e7ad3cd97acffacbfde88085ed132666;
  Dbl 0x6b92afea43663e87ce2579c8d6704c2e6865c1fab272790d559c228a5c5e1b2d3c3cd9067a60eeb956c949c447f4;
  Dbl 0x1b9f0637213aebd01fbe2924be777ed428d34ec062c749f5b6b0d96c3248b60b0af61f4b3cc619cf67cfa1b47b26;
  Add 0x3025b0ca46c85bed7d56819df8430526a39e0c2711aa98378087c64ecb02040837da6502e695053e0d19f9691c73 0x3bfce3a90ea18de8819d37de99e51575c2bc7cb752b02f27389294a63f131c0437a9ca4e96c0be351d7f5c0278d2 0x7ac97ec793adbd6962e1e59a3abc7d18081d75541e8b4db619a6d5e4e07524886cbeb23dde9a3999eeb673a10bee;
  Dbl 0x3424a9199a1e084e59e416daadeffb5e46e5c88576026298cfef178dff495964b985f65478a872dfeee72d6d6fb6;
  Add 0x79e573aaf05c6ec6a1f48e463633e0c44571746f9ed72238da421ee624c45e2a1ae6b133d76775c9b1fc8c1ea1e8 0x4e75271a8e6976d1c8cf246e2baeac52ef67c20d4aeaca5692a84639f4f86722423ebeeb18bb9a5551e6b5647011 0x4d5bf46354edeeafbb0a3eff5ebeac5fbb79f7310b827f18ac49629e34c25a9474b629e7b96954e205e1fd48f21d;
  Dbl 0x7b5569aca745a272e04fadee27bb4a17f4885ac95ade87154539cc2f93ed74c8f4339935748bec59f1211f092728;
  Dbl 0x56c1ae7f1419b43dc2c0a08915135ef2a430c717e6e43802f209df674191db73c00713058ade7e44a9e7ebf51a06;
  Sub 0x3247e81fd46fe60801fa35d4d2b0b77f4d4d8c37d63c70ab4a6d54104d575974ecb7139f1360d94d2eb904bdf84f 0x128a259df2ca489bcc5d7ced9d5fa32555ae38cfacd62243a7e038075becaed910d25ae04c19b1bd949a3179bece 0x22e7e85bdce51b500dc8629bea1a83d3cf28685fbe120da87f303d746f2f5716c56115e3798c04b05520e8baf7c5;
  Dbl 0x1a7d961a859297b5c00c45b13276c38293f2e41a7b9ead9bdcf78bce5d72e325bbc552017b68390919ac3079f2f9;
  Dbl 0x44cfc8e135e58e6d64bac853be849967f3005574c2f59765fbfa2b51bd87592fee1cbf759d510ea8fc9ea3cd5566;
  Dbl 0x50c4c28e08f6d76486c1469aa820f6e3a5fec508867ff05a7772486e53306845666c2cf7aca0022d3cdf5e155f0e;
  Add 0x1b47e3625569aad2ffd9a3332e5ab364103cb8afc62b6dd1d76eb7d8a799b9a865e59c6526adae20931a5bd870b6 0x6463be585eae2a435af048d1f1212cb21d77ef6f6e8ed32bee868283182610e7455b4c88a29a62137c02ef0553d3 0x21efcb70cffe739356ea1c9d85ff1370af3c8338f971b00e6f14937d3db777d103300ae36904dc245138b18ef0be;
  Dbl 0x1f5b6f0c082299b54f63bc39a9fa7dc5bef5e4bee726992a401dd06c989f7aca2a15be76a8041637ed7b3e5066e3;
  Sub 0x41515531f3546050a78e014cf88fd05eec6996ef6569b5b51a827d1f49c73bec1527a252b95b3fc10bbd742d891c 0x11a2f3077e98e0a35ee7c799e28713d6ab31f90d34b05fa1a39937294a0fa98aa54ac8e376a1416d821380bae6d6 0x5b12bb9e25075f047c0e0843dd52c2c9771a2fcb5bf381e4cb1609905312f38a7c99e2896c3affccaa98d3322480;
  Dbl 0x35b5bd2a6740dc5408aa266f3f8b84306d9c64207863c0cb4063c6fdbfb50626bec0b76dd919d47489dfac77132;
  Dbl 0x5dcf6661316c55f87805993461fc4d5fe090153c455848b9513728701db5b0b0e17cbda397c499ee4f9a0cd4f57d;
  Dbl 0x2b31fa2b23d476c6bc604b18bf836016f0b93d320ce85fc341709cb8b504a1843747cbc92062f4b4e014b296be8b;
  Dbl 0x251e3ce9362a56811cefc3b73f845c398b1a9792a9734fb527dabd35f016491cc2f213f172c318a987d59ac9cd1a;
  Dbl 0x54eeae7973920bdde75378236db7286c861177e5da80c6aeef3d2044878306a3b0b8ee9ccd0f46528b8b1435e9ca;
  Dbl 0x7e3f1437d913af3e25ed866be5f44d21f75fd115c3bf50d989855134dfe6c181d467362f0ef28b5510938f5061ec;
  Dbl 0x26f54a667aa47aa90e098cacf6927ed9f4a9369605b41b8d40000ff1166ce82fdecddff238795217ba8ecc03e53c;
  Add 0xd6f484ddd8a5419a6d69fa95a1750f9095c08d85c124b981b0cbffa98581c2e80c849873226bb571435eda30235 0x4aa3e0ed480d789f5faaffc744a397e66a9b4e1fa6d895db16625322152f184d86643aa265234a848517ba6871d3 0x71385ce9668b75b1b1ab0b6d92ddb2d4b98411d21f21634522496a611584ceb0e39a4739e54fb96e955cb4609bc4;
  Dbl 0x4cc957112ee067260f678e84c646d13b325219a76cc31688194768a3a475e7c75f67e4902bc4d99a37aa6dcff1fb;
  Sub 0x6e29ada6a9ebce23e0036b462c752238c5c9140455d235d961e52b9c48f4d4317ed4b81c862d7c03e193ad8ab044 0x25f89bfe5f42f2f54eea63cf2c79350d849b0c0b7a484e550b9345976a49252dcca811ae04aec24e3bc768f79885 0x19f9338535d08d5d3e135109246e6e42b277dd68af85f60f2ffa12c80ffa1ae83ee6a10ea9647f5def687918407c;
  Dbl 0x37a51b93fa69dc1bed0d7e810430c2e2d981fcfc4069c4ca889f5ef457b6eec25201f6f9034dd3b7442a2a99f348;
  Dbl 0x494e817d10c0ff9c0dca6c53bf2cd299b26ae740031f2c66b733f4a507ec9d240eb224f8941bb9d2107413026465;
  Sub 0x7b2599b4935b76de415ae04200eb4bd92b2b2b11441959576a4dde07950327781ea67548a797c31a604f00012e09 0x44a7c8ceffa2697b9c9568931a53a2e68cf9249ceaaa2bde590419375f5cb879f168cc28ac53ee23ab82cad9f590 0x3b0691899654b5421160f81372c81ccbcd428a909323a20dacd1933f3fa68545f1e5fe26506b1238e0710e1a41c2;
  Dbl 0x50930a72a55b9373495aa955c9e8c5e70131b5dd01e3405b7f0895bb1aa4e8259e1de110edb6949d6c07e54fe26b;
  Dbl 0x7b24c731573562532665a7b6586762474131666e406d424c2f7d5119c848be441a8d0ef77c190e8e9cc5a6c84aef;
  Dbl 0x73b057e671761d8a056448fc89c005fe28149fe171b1366cd346e856643675519af62184d9fc7b1e8c6609bb2a75;
  Sub 0x6e4afcee911b438c33d48754ce3377b4ee8dd05d59dae4020adbc340bae1e60454f1c6efecc3ee8823717d25244b 0x6f86adae48f3dc2ff4657af1e258b58dc3f23da03109fc63b56e5edf9add8679e101ff2908eb7dccb8b3751116e 0x31fd662fb98fdcd9ff0d74e3e63abb3e2b5b02d6f6451943f0767d813dd4df9760e89ef101b4a088bfac7b81544;
  Dbl 0x4855ad060a6880b47bd31e9701c89cebc1acb6ba2f7312bd9c1bc64708de87ebcb089642fdb4f1f58272553f6ecd;
  Sub 0x3a2ab1dcf8bc0ecc9471fedff4266090841a56ff1ce0bfdc874539da309e15ede76d24a3831b058af2835af83679 0x2fc2373423d66e4503a6db6f3a135e27c15392c946829100f4004079e8a93e5656c95cc309dab0facc3e6e09d453 0x13d599b0a2002d1ca2d4503c5a8b2a4f136838c185fbeaf1aa610cf52fd86f3a05acbf597df5f32dbdc390ddedc;
  Dbl 0x5bf9596e6e5f4d69c786d3fb4f469c85299350277a44ef9b13f1fe4ebaa5132349dbb9c120c8fe7dd3b08fac4450;
  Sub 0x691d911b823cffc98cc40234903117b6a8791c910f2815f32c8e3816c048924245058fe1484b4032f86b5a417852 0x1188b3d70ef4d4476e23885a5a28439cd3ecb2a31443869bf820ae658d4a5e7da757c63f0ac368ad9a1dc032d4b1 0x41e26e6dd147dedf5668228028d1726a7943f68fbeb9066a9d61214c3cd97c2a4216b9226bf6e8a459d89801db9e;
  Dbl 0x9d95d01fdf852c7c0e615a5866a08c28f741f4b041751ff8696ab9d4bc82307dbbade98a4459274cee7aa8c0158;
  Add 0xf5531a1b0e901a561abe0f98790f5af5ab9b2dfdda1de0aa47f288d41a71353fef9e1fab3dafd20bc9e98410a36 0x5b974c732ee23224a8968488aaf3d3a7a277a51cbe6905a48c50a3496e54feb0a4e065aec966ae5071c56d0d4a53 0x3e58c50823dcc81f7b073ee3b5b1eb7a519294dd8b592abac019202c98faae8721edf76615d656ec90fcadb3c13e;
  Dbl 0xbdcccde50125969b0fc72bbca3f7af460e73d7f32d9d5e0411918b2628a8c7636240787eea77523e4c0ae66feab;
  Dbl 0x757d3bdea2cb3367d58a2559b23a8ca5163273b10bfa5520607b5d0c4a6e1346044a6abb76411aa94b8f88392fe1;
  Add 0x3bd16e81cc555dca1cbcdfae2d865be935499028f125f27b5dc3a51acf7829a3e28af3daecbb3079bca718a5ab8e 0x362d3e44f6b23458a4edb8e73233b7692a13de44c9f4448ef56f57dd5cca98ba658e7fca485b41f1c931b5f67e64 0x318d0bf1b416e86aceb35a6d7c985b315a90c5e9742100b9ab97ceb7cf68e6f41995da5b561c3dc7da1368a903ba;
  Dbl 0x1bf20089f820fec25618939959bdcfe99a6e540b26f179009db169b4ca5ea92bc40d4a62ae6af93e80b1449998c5;
  Dbl 0x657c80d13f122b9a7756f61eaaf214c268a8b8a903acf1156593b8ffef4da71568e1477f584030c6f866836f9d6c;
  Dbl 0x20430dec68fd7048568fa2f91a420cdc86b34f54624e53267348e2df7ce38e16a5f343a7fd5a32b73e4f322e71d8;
  Dbl 0x386f519d93000bdcef15dd821a0c5ffdc0ed93b6b7437ed848628decee1e4b6753941f4918e657e0e78aab5fd576;
  Dbl 0x3ccbdecf48bd53249dff067dd2daf028b8726c4f375d1cb131090153b25d15254ba799337f71879657470b5441d7;
  Dbl 0x5b77c786daf85de3a495a8c29c645107c1dad7f0ea386d1578349bda4ebc3c02ee22499495c2ea31237184500ffd;
  Sub 0x4d714c1a69688346071d3b57194b40da6e4f376ebf292e58ccc0029326248efe8f5252cb4f51c48aa8b0fc70e4d5 0x19d3476413d6c715612e55e4e47bb09e8af373e7ca1c12edffd40fde51575becaf2a7ae2ba3471ad69c95d4a75e2 0x4c07d5bc68840fca9b1b4abdc86bc525479f5067bbb23d547404c287290099607bede8a230e85cc5294e1ad7373d;
  Dbl 0x7f79ffaeda1060c6e6712c91e817f9ddec2652b15a2371cd2512d9f1243dfd7d6982cd62c89cb16a1326793cd343;
  Add 0xc6987771e139cd946151a453243363cad106aaa5dcd89a89317da39865663fcb0d22739b4258f4410bff5addd46 0x4c23ff5159838aff9319e512ef0762dd31f16d85021f8dc1d66f6409eb54ebadce521bd9184000dcbc8ad8ae1da6 0x49e5cd5b15260a34e7940dd88df064582f9795ccd906d03c3a5a5bbca815d1efdb38e90e022a6b441bfeb3801251;
  Dbl 0x3f44c3fdea80cab62c2397e9427f4763874ba72974f2db2d22be7d337a484a090aeb7d608d278a2948b24b62a8a2;
  Add 0x1d28a1710df81ad0ea16dfb3490a9cdc191e3c5bc2a1e7366864d4df0b1c1b0ec62e989c8e38e191b39f66edf341 0x55e9168bff4a9e109ccdc14e18ee49a3c89717a707fa72ebd6c25bc2b39be60a7a3bd1c8b8db68bdb4fcd9ddcb77 0x19b631688065c0b4fa92cc996bc453f5e0369c120270acfbed1fdd9297db68d41330b5d621e7451b8e3a703fed25;
  Dbl 0x10bb325b25d94ab3d628452b54df6f5ed6469654196fc20d76e93eb1e8106bdc8b5ba89129e0d3f74de06efc6e98;
  Dbl 0x1b6af2f0e95ae868212a57423e5a027e70573f3f476ca7fe4f1637475e332f1a82f9fe6f26bffef2d72f86085165;
  Dbl 0x2376932b37340d4c39dee199ed3bdc84d43df830e6800c36e5e73548df23f234c3b1e88d2f7ac719db2e009f672f;
  Dbl 0x4067572a9a4ad285c0dc749d27ecf8faeb6da756a1ba6ef5425ce5ae02207716b9b0c1b458c41e95e517491c77b2;
  Dbl 0x7e47bf2e3379aef11083b4adbfb0da0770db79e12c6372b6127c3740e3bc78e9f04d409a98840bf3f8cf068b94e3;
  Add 0x1e2a8d7ab353b4e8d232af8236e6d9f4f8ee4509efe540f2a7668f1d247f2d779f902cd094b44a7a02d17f1a966a 0x468069129a451e5ca05944f23dd391e9a9c3188a8f0aed6c9bf96395d6b5c7aef9812f9268c31a164993e911c721 0x2e4f8a9e1516f415d753eaaf418094718b7ecd7b7681e1493c69929d0ad786363ee777725ca0b0e98445036f2151;
  Dbl 0x72dff589193b57619794c5081d539202e87f0a5e268174bff223dfca28a27486c0e221b60a6d641d9df4f9efd8db;
  Dbl 0x2b7cc026092454c0886507d9204eee1fc46299d40a7b24175d9dc53718dbcef0a24a6fe64180c5ca201a5dc164d0;
  Add 0x4e98ddb54a907c4f06a3196be853d5cf9e9df327607f4f5d469a957aa1bd429e2ce5d8979c9dbedfd565c330aaea 0x68d2f9c8c6e4c2982f767247103285a23ff1696c053cd348837fdf75e68cc191f8aa040b614d8fd489247415b06b 0x520e0765314264c3bae7eae59da26b770bed043b09f50dd7f6bee71be08a32d11faeab15535522db6276fdd87e83;
  Dbl 0x716eb62dfbaf9e0ccf6d74d82060fd0527db3a6604dcd3fa3f2a18137f31db703ecea6da7cc7609a51f47d9bacef;
  Add 0x7c9e7da58af62717b1bac060eae7ead447c3b2138436881d711ad6fd3d653a0912fc00eb825b890925dfa667a71b 0x1227f630562998c6be108bf386354fbe1bab2ee121519523db5c3412750ef716b8c440482805e603952a033235aa 0x5b8e6a7f48ea6cace5f04421e47fa01d7b24a4eebfe48d5f39497e6fa7b09a740067a1c0326c739113fe5c3d1f8b;
  Dbl 0x12a79fd09acd083332ebc4d789b69c700415816152a1999f801bf458ba9c0dbc1b7bc755fac62b38203cce2d2c44;
  Dbl 0x57ab51d17dac268d6d46b2f42abd0e4562c5eec7d63fb985f177526563f9fafc4f12656e2052692702362a3cf8bd;
  Dbl 0x7194eb245062462aed617a76f092721df507c4ce27d0cf1d67613d2e70e850a110bb78342d5e6fce7b7d0740e465;
  Sub 0x5c2d8355cbff8856065f6b6a6e9edcb4581ab825532da6eb4f7a2492f79e185e444f5f8e56ac6abfb0e2c6cc4be4 0x28e0bf96777589f5dd0518030024a81e165ac398e77162b735727385788488c4cda6871404df6a817a2a55edb1d6 0x5ff0580cc69cd96f8b8b782ff7a2c5dc6180f8791f2501e74efc16ae168fbd4046a099a871a0e30ef664f53c8b01;
  Dbl 0x270e8ce3cd088d4a641cf86eff1c292339c55eb6b7955bf2242bfa64ff598a2cb1e15ca2e253075b35fbaa8791b;
  Dbl 0x24ab86c8bd4ba608a077639626a74176e9d9b2957578b2f10db4a5a7d380e7b0ca4c1ab1957c72f18ba5f4ff28b5;
  Add 0x2b859a4cb655b41824ed1d3585741487b2538eaedd158c1c901f64857047e4de286cb5cfe8efccb6299d63f3b699 0x621c9596cd8865288831d755ec41def78ee158deeb34aa58c775fc500b92d1b117fee536252076e2351aea4c4c83 0x7447e7b35449cd87b030ad41b8b07dd998b779cd215f4468b4ececd456fd2fb0fc70563031bb327967c413166713;
  Dbl 0x65492ffbcb9ee3b9918b9b3940d7d6d6f3569d12c48df95db92bf3761e5c0ec9e9517b45716a15a712849cf6a0f8;
  Dbl 0x11b0f6cd18f75b2a8928146462a3c2eaeef8c5b361bba64de028b666099ffbd77b3f300f09b1d6adb4325d409607;
  Dbl 0x66bbd54b9cb301aa32aabe6cbfda1b3a6166833c4d2658c790880bd8da4d7d1fab982b1b14b623dca0ab08b5c07;
  Add 0x5c1ad1d1150d604d880251d0791af5641c120ee3773ad224dbafc26ebd4107f762929bd348f6b3f4f685d392cd22 0x1c7d2fb96bc0f11e4c948abe7dba3281b2cd1ae21f9a35ba991a184f08f79566134f68f9b0a4ca45b2cd4d5c36ea 0x15372abf1a2cda7c38b79110ab9eea5770644a9f5e0fa114e222811560079374a4735ba062d935dbf62d73d2c3ab;
  Dbl 0x33cbe3374e2e575c08ff662aebdb734e5a3450df524f20086c4b1151cfe6d8e725749c884e9c3f095177ca2c6a81;
  Dbl 0xa79c8637138ebc3c28f5ba203d1166b19db294986be25fcca5df35f16d157b55161234f162a4cc9dc4acd928c21;
  Add 0x479feb2b69eafe3f1934872916fa19e4b45a3baf17ed367784b6ca660272e0deaf5ddc436d29b6ded1fca06803f4 0x87185214f40282ca1288d6463298693fe67735ea20e2d5025ac9f0c8e70251e333d2eef69412ffb352139078f96 0x1820c4ddf04a1540fdf2ecd7694a9eaa2644a0b3d70696e38c73579f49a760ce74fda3bedc828723c8361a36ba0e;
  Dbl 0x316f7af6b6a71535189532a45da4f03a42a8ffe0ffcf762b74389ec15011f06bb109c59887b514dc24fb1a4c7a06;
  Dbl 0x78d3022892ede49c8bf80b542787740a1f9ae48c9905016e70ef7d82ba1b250f504f3db8ef2446b2879274eef8be;
  Dbl 0x2422b6353a9d94a4f4c93736c7c88d28097c1a1ded87c5a9f1d88d4fa36a818699f0cd8ce1fbf42a29030c4865e;
  Dbl 0x5dc67c787018078fc03d549e1fbde49ed1bea3812700dd5794c68cae4dd3d45bbe28c0e037ae72186a95bad6d38b;
  Add 0x46024f08a11e223e91af754ba8434e5af3369d4db3e68d91099d95565a6df37e3e0445952aa8a6a6cae3946b3fd6 0x4e608c1c7643118776ec80b3e0468cb35fecfef9aead20375414a07750749b74ec304a5f3edfadcd7e90c597d0e2 0x5deb9454649489472fd218d4f2fada6d224aee295d9c39f1db0dda1eeca20214cc779a4343fff0a541849437b55a;
  Dbl 0x24ade5030159793635bc0b3fc6f2a5317ffc726950222f9de93ae7e3f7f7f9e71c18c201a2a7067bb23e0817b4ce;
  Add 0x6cfc8f11265d2b45e14882bd2a66d950132e6af03670686964359b0cca1b2f2329b042df77f0615f00bbf30835eb 0x66eb85a3d77fbf004e36043b6e3e6b2bc547d2f53e72d31d86c5a96dc89f7a4d525520a9a6afc5cbd78a4053942a 0x467564f522299e54fc0ed580aa9fd4901a5a04905d0c9495cfafb6eb2e624dbae198029c321cb1814f08923734e;
  Dbl 0x1dea4481c78c6781b3993ca58c7b24e8952e41810336ce7cddc0a3b58e8775eefdc995f16aa158745593089ce9f6;
  Dbl 0xdebf5563a2e6610958cd60d44e35663d9157b377a1807a1c374297b1d974e47ed86be3b5302836b289aa72e33fd;
  Add 0x7444608589b0df35c32ff2139ff7f99db496d20fe52cd3bdb25b0ad0ecc36a7801dec013a579d4c568b308be104f 0x1d62964313a067cc688b2ba80a4db22f105f24687f261b9d899ee9677f76c4aeb2e3b62ad8af337c15ffb628af82 0x41a7b50eb72ea9d82d5acf7fbcc348a5316544e671e4053fd5b0dd764b20586aedce9d5d7ee0149757faa908322f;
  Dbl 0x7ae393e6ffaa755b3ec63b21a2619f89e09a6d39189b1fd0053e7c0812ac3b25b2d5d4a159da577aa7ee06a985fa;
  Dbl 0x58b83a83b4d7b0ccb3837fa0af816738e031b9260889f08918814880831bd019299da73b95d22ddcb08ee37501cc;
  Dbl 0xc689bf4d6b193fa3b2647d8945ccafc43a375e82789461bc58f57eb24fa903d94816ff7faabc814a8e81bb0d079;
  Dbl 0x1b8bf26b2cdb835ce03501c0b0f007455b3d5a9227c7df787306da0a1b89f8bea8068c92643095d9f557ced9b49e;
  Dbl 0xe6af74b71cea42e864cef95a75186b815406ead645fbc65291349bbeccfbbcd3040a4041d752a620b652732b64d;
  Sub 0x42f77a1a195c2f0b3c633ef5dc9f5f94d01ee5ce52c2ba2165b9b162e4d8d92c9da4bfb4efdbda2799474d39b2e1 0x41e20f283957ef5ca83e7a788f46ad99d7abb277c98e3c659c14138ba19773a7e791bfd0fcf9afd3ed453006b5dd 0x500c3ac7e0521570dcc3768f5fd516d6e11fa720bcef7762e1d3d6e62932d2d0be5326f04be7b2656ab64578ad36;
  Dbl 0x674462064f26839359bd6d1eba64d3e84870db5f2d3a5915a3544e974c2c1e86d5eb00c1774422acf4765988e67e;
  Add 0x781540887838bfe5881b9c2340c216eb7a9a04099043a90ffc7b3cdbe7ba69da51712164be3a6429ed9ae154c1e7 0x4d9165c844be6f2a8b8ffaed4be4e6d7b7f38d1aad57ea53ef0df7040a80566cce7981f75dc0afe5f18d863c7015 0x3a7911559bc34ef04cc68a0348d1fdce15031275d6e468a383710bb9ddbcc7968818a5f60b6392005feab3d8536c;
  Dbl 0x5be34d7ed7f3880ec4ad3c24c59f3d610816d60a235190ecf15b9986f32c75a12f1d1f7be9f7105d50521e7c6990;
  Dbl 0x24ae0e805c17692802b5a3b5018d15eca5162ce57a4cc818cf028ee38207202281a2b7fbd721eef929864805ba08;
  Add 0x1784477e68ff68ec61b9820ad41ccb69ff29533e80cf89e3502a63699c3c4a469703e0a47e356edee3ff19cff487 0x777ae5ed071fdd44c8304c46c27ec90aa607973d532cb6d2edb798d2587a8d9f42d1bf7605267f9e3ecd6ebbbf99 0x5ebee775c3355e9d7ae63ec38941f61251d6e77ed911d03e341986aa5c811c1252372f8f72290b134e56b46e45d9;
  Dbl 0x50220b45d97829e70acfd93325929a5e053e5e1cbdb04737c414335fc62cd74ecadbe9b31c83cd2a873e04c48910;
  Add 0x5b13bd3b3bb4820d412a75ef479720a85ddbd537034649f6298c21c7e9235610a971800059913d53057dcddb5fd6 0x4b4e4ecc8b5244188352557d41a6a6720682d0232677787d018a115d0c09752d2d92793ba83046c2c30cd4697445 0x5e77b00a33990a06f4e0df7bf4200de12eafe319a2e762551d85c1e1353a2deac193c9176f600c310f8758450498;
  Dbl 0x424943e4566a25cd0298c08414342f3f9f0eb3c6f5135fc0ceba7be8bd4a1d1ca6e6d165ba08e18e08908cb175ce;
  Dbl 0x7e61f910907cdc649f3911ecf684dd9bd34e3e3bce9f59fff221e21029ad2ecade76121c4705e1bc0d435dfaa5d1;
  Add 0x12096cc34b7137369935978252293a829b123423dc26421fb00baf7a8aac858fa1ac97ef9798a7ca0e35d3e778a5 0x639117abd200fc65dbc57e8bdfd8b1ea92b629966fb1b854f77c289e502e9e2e8a14509a37b10397afdf125ca2b7 0x580ac39cd27f0d5178ec387b89b525e72c3bba74df14cb2b0ea240640920075ddbbfb67c9291970f355d64bff048;
  Dbl 0x1b2a15fb19689b402bdcd8cf673741d8feeb252233657e151ee973827edb611053a0de7bc071d0f8be9e5b81f454;
  Sub 0x52e431ca5ba525e12de4f3a5bfdbdc9aeba4962e48d9d3855e5f0c0929960c80ab5a1b5a91f0598f90dca70743dd 0x215855b6e5bde0d24f381bd0e7236a5775ba60671d7151aabab310362f67bd02a2d9c050244e90135734df228a64 0x6ab1d3010da858be1c2e7ca80b4e4ae82c0112c4253210de5bb768c07dd7a6d941282f8b55c0d3329518c72e1345;
  Dbl 0x337326f894ab53cb7c5dcd3806dee9d06ba23c79310d9bff81704e820f3af83fb0e65643faf9ae39b286ec05884c;
  Add 0x7e5a8caed0f9a8b33fa0ece5c85a004ab4018d4cd6dea713989eebb822a6a568dd26cabf31cf186b6534334c8bb3 0x52dac999160fa3ffdc8ddb91a3133b29f29d259638f08d491fc1e37058ec9689d3a8b8bc14e26c0341f62daea8d6 0x1535f96cffc5415fcb1538526d45236d71c3a9ff14e53bed7443fb1f4e622664996683c3dff3ae338cfdfb7f4f30;
  Dbl 0x21d2626e0c17b694845e8b311f92e9b387c469a527ae48eb5d23b512ce0d60144f1b1e282cbf5ebbea60210be0ed;
  Dbl 0x7e6359e466a282cab0c95fa7845cc5c6bd4567921422679d3f5c1e66f2f769fee551a57630835aafcf2f5369debb;
  Sub 0xec031a3590aba4aadc1a16013a788cac8a9d703d6842f25eee27676f218453f34c56676cb401beec548bbf52563 0x5fd8e0784d4cb798e9b156672ad1492ff14641fb5ac080c73dedfd72706dacf26abf03f719b030d6040dca03f1b3 0x2a0a0a417c9d459a124339052bd5b929a247b1c4888e3a1c908e75a8ab9d4cf38f06a6c4242a334c7b3f301e28fb;
  Dbl 0x2f7aff84ab4af64d29140426831abf394fefba1a45eedeba0d209037276d31b040bda00667dd702161576b1d665b;
  Add 0x7bd953f3043fdbd8ce8afb311e1bf806b58b417093ed3bb9d155b465f2a2882e40a14da02c21f0d09b616ee04b84 0x30310a1595df8ccfa829ab5f6faa23fe471dfe0624bdcc46f579908cd1793322e7b1a9f8f13e543fc5474afdf9aa 0x4691efc962b2b70c704211947937dc943917d39ba595bf97b67ef10f8fc8e7d5e9c9513ba09ae4025c36d403bf1e;
  Dbl 0x770acc95dafce1f58384c060520dabe4e02057d2e5746ccc495d9a2110a0196ea1b8f8c2cb3243d2ab3c4a21351d;
  Dbl 0x67cf4adc8520cfde09b61293ff263df3cdb13f56dce6258365640f1a75adfaeaf09e08b4a8bd575f12173b2f4617;
  Dbl 0x346ed2afaf4f3a3ff6db80ace46ef5fa41f8c9eb80e7369d1fa5e104ed0582f32d04c69233605f481cf232294cf6;
  Add 0x7757755676526051d4db765760c3c80c663014f85dbd2d1b91dd4c65c0bd649ffd71102ecbe4457206918a9a3a5d 0x4cba0570be0334b1462196668a636cdf7c1370070649e9479b31216cf3de8abd9a062eeea9df108c509c3cffa2e1 0x5f3766513ee542ee71e72fd2b8d30c8361013f55c704928001cb9010e0035f1efa0ee7b7ef38985c29125ec5f2b6;
  Dbl 0x7e4cfc9dd21217982d2ed65363dab0be9296df0441a91a4eccd01f8d14ddb11e6bd2d157cb5f0fe492121cef807b;
  Dbl 0x482463537f9a96a0a737b031e03c55c89d55d2edf16b08b26e97998d2bb745ac141ab755097ce22faec5ab6f25b1;
  Dbl 0x2392b4c4a01fc619a4eccb028cbc7b4b0c31a042124bb0d0b59e2f4e1de0c8323fad4a0bd2a4b6610403a406bb05;
  Dbl 0x368dbbc278f657cfbb97c71e02e83f396e4c1d36d143e98dc4434676d9cb4a8c636cdf29776067e49fa1f8874025;
  Dbl 0x192e779ace6a6ed7ce3a4796426faf6d3f3d2c7ff26c1578a9d96a2379e02c928b8366ec28cf8781b39ba89a25b1;
  Dbl 0x2d76bc0d99b3651b1972569bf9bf8d8d520560f417f53e2489ff0a63d593780c657e84a39b5c37783a3e97fa561c;
  Add 0x7c6b217436d915edb6d6fa96fd4a6a471f46c7611556725e7b1eb78f9c2ad868fd5f8f608af2141401c85fde2e27 0x42c9527c6ce2e80a34bff15156aba28ea8960a5c5c5ab261510b60694c3f099ce43e9a6f3bd070658d7d7b907b4e 0x452608717a13981151010fc612786325afaf855eac7b4a881030d239fd011f2bdb547017f36611a79b1a39d6e333;
  Dbl 0x34f6d894f45439eec1e617c54a397c5327585b6e4c82d3cc6958e811a30ea8faf331debde4808094ba178ee66fe;
  Dbl 0x5e0c41c7b2cdd9d4a08bbca2d17cbd6780a61f23bd9a8686b3f1a85c7f705c96e32e660b534a142ed0d060510031;
  Add 0x463b93464b985ce08dc037dc647c8a532bd659810589eef4ea80cea2939381298ac5dbd939c08a2576f60a3e9785 0x78b6eda0e2ba687854b131b329ec422adffd588b8b412f9c635cf551218b9b08eeeeabbcc2e1d2d37b3c717dda66 0x4c1b74f2c57c16c00a51438d77e7407c34299f83f20edc682be73d1278086e3e8b9b18beec594bf96b1a1e3d7806;
  Dbl 0x4c42d31466310d9c01178c469b2b304ddaf25bc28ca5185c43a26653b8b4f13f4e55bcf57fdac37abf0a89378c8c;
  Dbl 0x60309444ada7cabc24437baac4b916a5cd3f2d955e54c7475889a73232e11c1a82ae026a720ac6fd5decc921ae5a;
  Dbl 0x51d955574c36c84f05fd3c42fb7a91d458b060ca0e692a4f57e54ab2f3f309ffbcd68e1c4facf7c52ffadd3ff1b0;
  Add 0x4910aa9e6a9038c2d0a219811d00d040a2a21a0ff2b41f85efc7ac7b8f6940cb1133b15c55c6ca382708b2efb9f3 0x6e40875d74b811082abe9c8dc083896b2d5f5ae1349a23ff3049497c9c607ad84b8170352fa87bad1619febf5a0 0x7fe8b29350d9b9ebd6dfc5ee15e2b9b5bfa2c8cc2daa74063735105cf33bab5ed1d5f630c30e9b89963f21565a5a;
  Dbl 0x4a0fcd710266bcba6221a30549b62ee084015e53402b6da6cc4b5bbd6149f60de8520c95b7ee909eb5707ab4aabb;
  Dbl 0x50e71b809364476ef0e8d2d6e3a6dfdbc0f6b1e3280a5ec124c129df03649926890db5ae16723c2a2b8601a6e09c;
  Add 0x74d0f72a55f4dc045d02a498e6989c83067b3cd62a6d332f2e5b29043627394f32069966465fd05acb632f7ba380 0x73a199c21bdb201363fccb377a9c58e7b35358928d00e803bc5657380b747bbfc4b2dd3838062e038618a8ae592b 0x3db4c72bb5991d64dfeb31cba993ccf16776aa2e7da067c16ee894f79afb40d89fdf660bfe934e05dc9fff9ef337;
  Dbl 0x7bc8c1b386a37045e1b4287430011d1685ea3ecc0159edf3fbc285762f6e8060877fbb6d90f3476a2b7a869fea71;
  Dbl 0x1bfead2fc1c5a085b5ecd3d0294bfc017f024403331096430cf8f0e4dd43601c9d17d95837efa9003c6e73198be5;
  Add 0x1fe7afc341b57571d1812e82d93d44b137ff808c709152e7ec661d7914833a8211c308977218f06987f86e2a6ba3 0x31efa4e2ed1ec38678a25f21d60cafdea21961af0bd2505f28f57299464e339672c94e452e329927f7affcf28e4a 0x5a00c3e49037b01d671306708e116b869bfb2a8bd34034738433310d39ca89b024c84aa995dbf8a205c84080121f;
  Dbl 0x1f1ac7bd8c5f9176ddee3e6cacff8464fd1f2bbbcc132dec12e3a7e5c9d7ee1663e84a5bf585c827d368582539c3;
  Sub 0x4529795cafaa7b63ba82998c80786e90c52d067ce0899d62fefdcb512c694e9fba6ce2ed229b9dd3747540745f51 0x6b36b0ae383b92a6093c04f6350c62b9c5edc175f623d0e697e8c1246fa7c567d6ee4bc9e45f5367f1dc43d1e10 0x1421b6771fc80a8363fbe0baa0171fd05da6c09d2cdd766b749f9d3e73da2887602897a424d320f2cb4b636d90b5;
  Dbl 0x364a1f269e49ebcd9ceebf4c218179064c96dd747319926070959ac1837e34cc32041f79d9f5ffca59a73f494078;
  Dbl 0x7bf973e17a1b99fa6ee8174cb196b60c9d6e794a0ec526295dcb98efc0b5a95c7de2e375e09f67c82627aed9c83;
  Dbl 0x3450a37070fef4ff4282883851d885ac54cb5ead086265514c5ea42b5d1475aad487a16b3be3de219c9912211cbb;
  Dbl 0x35cc720a31d65fdfca35192138530d08f9d104074417e6ee9bf06e555efe6b3fc179fd561d50414467068e67d067;
  Sub 0x7c91f9c76552e5ace24ca2404135d31f995dc7b7207bc06a8df5a336027aece09d505025cde1d53c6edb725657b0 0x2468910cca165916a0d4db93fc12e004f2ef0f46864c425a3545819728d41f48029eebc3d8ad3a1f14dd7f101f5a 0x5a651a45fd8688e292d2d227cc8661535cd4400dfbb77c22482303a9974e51554a6f6606f1d4956d56ad405134ce;
  Dbl 0x3d72bfaaa4158ff477ab2b2a03f2f5e3016120737d9495cde64e1a228174fdc6262c324cb2d88d0edbdc3d49f51c;
  Dbl 0x4e1867f8ca6155a21f2a2e5e942972dbebaa2789c50e0400014e1db9ffa4146f4377bbc6ea7e0e1eaa3a4f6bf41a;
  Dbl 0x160acd1adb04da89d01ff0a1cfc9886030c44f77f57ede7ab69de2aae050ebe1893e2aca64c253f011c9ff9ada62;
  Sub 0x71d7da4661322b5e428ed7cf7334d4fa52a5c9c4ad3ca63f8e05900e2127b25d56cedf6e72b162930d3427e423e1 0x5ec687c947333edcca7c8c74e4f711546b1daaf30656b2f8c7c204a248d1991d1464844182693569594b181a8a29 0x1adfe12d9c009ee16e9405a0a815939a9a0596aaeabfc924629d50d4af5342fa5455a0fb45e50e60eec55dd73723;
  Dbl 0x7c88b5786efe40e12a6a4f282b96931f62625c9116901a2720584734311292a731c8e3413f69aa8577af1585da13;
  Add 0x75f62e609778f8acdf59c42928f21a6e3c7b13481400f3d59bf0ae0ab3dbefff7843a89dd89849dd8a2e1bab6626 0x7fc88405fbbcbe69e028714707622f2bc378009fdb19903f3550089a9a3508188f9ea9baf121f91cfb67bdcffcf7 0x18f501d1968666de264bbb26c8f3a254719de905c621652f036230dd77074ca9112c0f0b2446fa6ffebae6a8f7f3;
  Dbl 0x53003dd26d02e3c906f4830979ded17befe3da393271771b1d47d058439cadfb5da73465b8117d270f14023febb4;
  Dbl 0x6021635b0ba01232027535b1deabb9fc2111f4f3cc2befdd3ff7731d6ba727c472d8d0703b4e32a2a5c8d28daf40;
  Dbl 0xc2e200a58fa8fda24236d5e512c33f0612691da80b601a975d267407430f66aeedaf26c8a69d722a35dea6dbbd9;
  Add 0x2ee0657d21504e93beca002c523062f23cadcca807f7e3552dfa4ddfded01ff7fd82225f86ebdc23b9f9db990469 0x289716a6d9ebf820e1bf6db0b0055371fec3933e1bfbcb0bcab5e35f32a48ee98589404611691ea4f2e44dbbb5c7 0x424126e1b5d52fd42fb33137639598cf1919121c954228492c9129aa87c0567a9cbdffe53be2f9e5c0dac439790a;
  Dbl 0x3115f6e76263692d5f406865bfeced5d0e3ad88d88af732c4e7b22ecbf673c65bde201f3a92fb4f06a5931bdfd31;
  Dbl 0x715c1e6726552be2654e8de8616afa79147ccfea5ddc6ccdce00ff5b57be52d39e4019f231d34c7e3803a2b9ee4a;
  Dbl 0x550f4dcf72bf34f4fe738d2b1e3c6c75c399d48f78728b0da78eb9874e98fa599a3cc4dbeb84ac960d20de0306a5;
  Dbl 0x56efd3bf118117280c3dd3c744a2d7661c6457960bc7a79c270b225045c52041d0445526b1e75b754881df0bfc30;
  Dbl 0x6224f73ab41c20ce2a8809bdf2b95b9d278cdd7ae3adb7248fe20420be93491d01cb3babe272492765391f44b569;
  Dbl 0x4ac1ea7f4e71597e204c0db324d6a97cfcf9aea79b055bc08eeb34c79daf2376361f3ec4f41b3dfce01dc0743e0a;
  Dbl 0x6cdd8aa06591b75a054a47e5542a8d2fda4dafc9bdc39f5ec74c77f32956a030ece876af0b235557cc764fd2ed95;
  Add 0x4c818da98d44eee0a8b02b4f8ad7bd588cf964f4fc7e1ec50ca99ed7ad05176b49123dabd6cff320300da10290d6 0x7b77d7e7728423d24a725c646673b91735d7a22e4dd00b4a4ec34dba4ac69bb9158abf5e7f839d6426a2a7aba553 0x74c6f56449f7fcb13ffc35e24fea6dafa618b60f86e9724af4acf6ce5786a3fcc3f6b129ea291d4f2568271faf39;
  Dbl 0x1f2658624e0ec90f977bf917fdff77dbbefde02c3c2b5cdaca7e9fab8c025d72fde702d057a416b59bdf060f0ad7;
  Dbl 0x3ebd15961c8c439a943c5fdecdceb65790cfe356970f62d822b2936f640588861e5e8f7c59790feb019f3ae414e8;
  Add 0x62dedcc51d7d9922a3af4e6b53a8c84a11b339356172cfb3c1372642ee175493c741838ab251f3f0d1900f17709a 0x4f05adbdc35b73010c94714022cee5297309b23ec366cebad52d4b67f7d91604357b9afea5c2205e6a6dcc56e87f 0x2bce06f5e2d989e8865c265f2b6f5af8372d006fe199daca2150ebac986301be06458dbbe4a0a3cf16ce63c43fe9;
  Dbl 0x50a976ae271fedc0dd050837ed267adf4ef92321fb3a157e7b11a82e7b958a4f1876ec8b77cf2d42c3583f724f9;
  Add 0x1724a7ae702a73faa9d015264071968772d5c4ef83cb06ba8e579b82b01ad317cec47d10b46b7719b244c62e5c25 0x1a51accb1b7a249f62b75ca485a407a35b67afe7814e6522435ea26f70d7e313c9efc0d32447801dc2f58532d4d6 0x2c93f82d63fc671a77345b22690353c30c599dfe3e719137a795361513259285091f3976c0e141eac148be896aef;
  Dbl 0x56a69bedd464134b8ca304a93f425bf3d74bbe988bfddd6113b1bebc497e4c44a6902e3716ac8b7eeeb37803ffac;
  Dbl 0x41bf818bce667ee5a1821d2e89ff960da555152384e6ce2513bee6cc4b7ba2861118dc6da9872040239c8e954f0f;
  Sub 0x3e304c193251b5e2bc874439b5f707c9d799ffb5a2afd3ae803bcb431f8fd59c2f600147f74d860284b80febf133 0x437d7f1a4c593211cfafb3c0fb94a41ce95914f2832475747474626634964109c0d2a760502356e771901dca8c23 0x61f507983c3e15c6f9d009b56276546e4d658faf9518b6ee2694fd4454ff1b626bf92aa8480aab9b8df810742718;
  Dbl 0x5a3c18e3c1f6fe2903cb1d4555526158eebbadd3d5ad36ca0baad215af22b7ba512006fba716bb581257fe713b24;
  Sub 0x614edbda36b048dd76d397dcdea0bea2d89c18995e9b17b92321884d067e4d69b99d14359d6c654d2b7fb7840794 0x435662ee0955fc0b08d448ee68e483a49942010bc20e4cf24b29ae31d2cbc3a6b377a940bd7446e93fbdf4e19baa 0x39e4a88a5466ac68c5e887dcb131746a1d1b5557ed1c4780d61735da85c50fc8409a213903abb1276fa2e9ae2a33;
  Dbl 0x11cfac41d5eae3971760e172a0e5231ecd261bf417823d2aef530c448039d356ccf7e0bcf44e3129fd59443be3f9;
  Add 0x581f1836895f293aaa3e75c275a26073704e4d0d175ef1920ba34598b8c9ae2041d36faeab0c1b545f37f7ed110b 0x656c3d7892b52885b83a1f5d6311cede4839783eff41773818af5fbf1fbb255d36d3556a0dcc700242fff8a78a12 0x37f49e23825af10c810454948e62054a857440fd2890b2f5173bbffc52cbf113793099daa9c544310d5350bb3559;
  Dbl 0xba21335424913581ffba3f92cc58c36633700b023d4d1cd319cf00b03efaad6831b05e46728910e239616435fc6;
  Sub 0x76c6c28cdedea1ee00542e7b9d6c14e449ea40a85a7293f2943f4d20bb9e5391607a249399a2b9db6a368b82b5d5 0x2b180ce99672a03624bac04c988765ad3734882908f2fd0659c9ebd2ae678bceaeb920934f98705c05a35bc3bda6 0xfffcc3b0e7050eab57646ac7ff96ef0bc66f7c672f67829f83501ec128cfee02d50c932e7ed0f58a7e367bb55d1;
  Dbl 0xedcfb6b1578b7e20da60a3aed7097e58fff0f1f80bcf2335f7a85db964c1661ff1473cf4eceaaad075131fc30e3;
  Sub 0x1aadbacc9354bc15c5a90b572508f6ddd2e6a7a3e5f99727660d9c4337e5a38794b6a106115652fa2af515981df1 0x60abf63bd781c04e9de610cce671b2f8f304119e2fbba5feedbf5e8554b7ef12fec463e6494019facf5754c0328 0x677aae5e34fcf29732f57d69b2b3cb6e5e107f785928acf6c23e3fde942390ad61312ed5d55aa6a789a1b81e4b66;
  Dbl 0x279167bce386e37a5a61660758bdf9513b38bf805fda6d5affcac51028fc948e9305208feb3fccf4e04628387f9a;
  Add 0x4f37b7aff53a398d0f480b77124aa39c50c540607b746a49cdbdde7612433436bfb8d8f5e515ca0f2fb1a33e75c4 0x449f2ea2b26eb993c516d80a457e4d6cb1508675e4e4a5e781e63bd09cf79d62bcea7b627f1034481e0917dbe3e8 0x69bc8771917f2d55ee2af29b67e331f79ef38a9c671be7d5e69e563d2889fa7e18d510c798516d28ef7669037b66;
  Dbl 0xe67e9d56c4693efb25d5cb84779154e66b67f47abbdb3bddf8a3da950995350c3eea8cd1d49331598ef52d60b64;
  Add 0x7e84440b18e7ea3106b422d080a16b49337f603dca99d154454b01d29c69e6b14e9c1263eecfb7d422b63460f595 0x5b8d5d4c9e0a3c2d32e397dbda435e35664c86e9fa4291bb3ebbebe4b4cc42d117f79b4123b99d5857e83871ea73 0x69d4144b6606a6e43aa7fb3dfa8506df86da380da3e7a5859b8dd394eea6dfcbfbf2d54893e506ea277671076320;
  Dbl 0x62d5985acda6f0857fda7a0dc1b4bd77d03f8642fee26c9f5241dd1541c7947f754e3a8be746347d27366e2eafd3;
  Dbl 0x4e58d5e972a94db1e1d6759ae87c29b189979818baddb290d9db3cb4b4ce9c30cd138b4249f3fb9d123e3895aff9;
  Add 0x5511b2049342a186c995693cdc10ee5959c2f846b6bc4b3343c07413a57b37007a21ec7e2ae51f9f2df750abb102 0x6378e8119c515e5f21fe2d97c4f28ede4b4e0326b38cab900942fa196f5634d9f1d037a15070460d81fc681daf4a 0x812af91dda91f1e34c199fbcead1aa1c10ebccfee376e71cb85ab941c7d79409d89fe99d71d81e82730b626d631;
  Dbl 0x7c1293f4b6fc30659b396d66a42ac13e9355be9c86c77f57a7590fff721857faa26a53ae81ad9047da5efdb2c4;
  Dbl 0x2ad78cf751b74ff66eaa059ff7479e75038fcdf36bdadcfbe799f18b00958f8d07bb1fab3aca51005aaff6682d69;
  Dbl 0x7703ba71e24bd4b1f037faff7ce68c7dda30892074c247b458ce0479b14003ef22f88941febba0033e585d60c8a].
Lemma order367 : order_check 367 0x200001 1 92 (ofN 0x400002) 0x324a6eddd512f08c49a99ae0d3f961197a76413e7be81a400ca681e09639b5fe12e59a109f78bf4a373541b3b9a1 0x1ab597a5b4477f59e39539007c7f977d1a567b92b043a49c6b61984c3fe3481aaf454cd41ba1f051626442b3c10 0x7703ba71e24bd4b1f037faff7ce68c7dda30892074c247b458ce0479b14003ef22f88941febba0033e585d60c8b cert367 0x40000000000000000000000000000000000000000000009c300b75a3fa824f22428fd28ce8812245ef44049b2d49 = true.
Proof. vm_compute. reflexivity. Qed.
