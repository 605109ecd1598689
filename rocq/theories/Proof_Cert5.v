(** Generated: on the curves of degree 163 and 367 a point of the subgroup with x = 1 whose
    compression fails. *)
From Verif Require Import Base Proof_Hex Proof_Order.
Definition bad163 : N := 0x5834c6899dae6cf57bbbf6df203c0e0d50383df36.
Definition bad_cert163 : list cstep :=
 [Dbl 0x49245b0e40d7dca1ae11d41f30f2ac2ec8d08f13a;
  Dbl 0x2ef0d0d3d25106a77b0b22251cdb406f85d4159c8;
  Dbl 0x4698b256ea9ab29e7432280bc76f3d754c352550c;
  Dbl 0x301afb0e342ee8517196e5406d862e2aea3dac23a;
  Dbl 0x5649e1f898f9554d7926af2f9c33e164c1f84770a;
  Dbl 0x780260092a95fa4c0927b3323f1b513be6809bbbe;
  Dbl 0x4073d361673618113590f27d3d7eb6c8a3adc2702;
  Dbl 0x494033b4a806278d65eaf4db020c8a22901e2d541;
  Dbl 0x571f95ea008a0d24ccf822a105f7230bee8ea08f5;
  Dbl 0x72f27e7b101b18e8c1560286b28378e39a67df878;
  Dbl 0x6a8eb84d95cd4d058643c76f39fb92ce8a0170b72;
  Dbl 0x776a36472fea7d0f03f10b5f4be27ef7b43b0b332;
  Dbl 0x6da8d7bd2b5d47be5e7ea737ea2687790835ce2a5;
  Dbl 0x79e6ff2b6fa20aa7d9423cd5bdb3e1882379a4fe9;
  Dbl 0xd8e2ff6e2171bcbb5fd351fcadd0e498d4aadc61;
  Dbl 0x3919c97cf652cb756a794056d6a4e610574cd6d8d;
  Dbl 0xb22c3569136d505b8ed0dee900a2be04255c1929;
  Dbl 0x76038905447d2a28878fb00f351329e40f3be01c;
  Dbl 0x7ec48baae891f291a40d4e70f54ba663fb29b811c;
  Dbl 0x4fee0c6160118b8644ff53346ce49d539aad99d3f;
  Dbl 0x788c13df83a2b96f41bd83c671b7bf8c7650f7165;
  Dbl 0x54b60e1a85e9274f7282ea64b5f9aa2cbe8118dc1;
  Dbl 0x1b18f9ee6602066d863bbd8dabc1336d121904dea;
  Dbl 0x8e7a7366584e4413844d120287a1b0780f34c49a;
  Dbl 0x33e85ac3a0f2bb87dfadd5352afcc5051d8257dfd;
  Dbl 0x432e3606c09413539b893ad03771009ca45244c3;
  Dbl 0x30092d789aba5fb20de52194f27f62be7e6ad7b6b;
  Dbl 0x3882f8f4eebf45a8148bf0c7abaa8b93f9e608631;
  Dbl 0x54aaaa95fdf48f39965d173d3b7c8ca11277dd434;
  Dbl 0x27939fec214e258ce7349110ecf7d29cce58ae876;
  Dbl 0x735e573dd3cbfc3d8b7593f98eb284440f8d8fa6;
  Dbl 0x1b2a863771a50ff020bcfb3c98aa0e8872a2bc741;
  Dbl 0x76457a17955c39915e5ac7bd186bb7a3521ba3e3f;
  Dbl 0x145bc7207aa759a0045b1d8103f2f1661dda5f6f7;
  Dbl 0x45cbcf05cefd16033ada13d7fb7087048272cd829;
  Dbl 0x58f8a30154c8d257f4a0f6cf13fdc561f63d45c4;
  Dbl 0x73cf292fd8add2671d3fcd9f1b16ca9210c2ffe58;
  Dbl 0x364f2009c6d319033d04ca9722b1901509158f45d;
  Dbl 0x34bc736b9f20b09f86d1fd10693e5b6a632366f41;
  Dbl 0x526cf1682c790555cc22444b09590163c1fd945ea;
  Dbl 0xa67a14b148d3e1ceddf0c50ddafa027a11e51857;
  Dbl 0x3a5666d32a51ce013d40c59773b426d39333fa0bd;
  Dbl 0x7ea983b406c10071d457f0dc6b1bb9918957e2b01;
  Dbl 0x2db827a498cef64fed522cf8b2b41797cbac1002;
  Dbl 0x1d406375d9a28ba697388357e9de875a6bc88a74c;
  Dbl 0x3564fdeaad14b3aeffca03ab0efd21195e23e1d08;
  Dbl 0x7c974da4e9c063863b34adbeb9d0838ebe6c251ca;
  Dbl 0x3e78ce3f832195af5ce9d0e643a92f0e17073de2a;
  Dbl 0x63e31d82ca8542b9a689c6114260a04385c1195fb;
  Dbl 0x363e63871d68856b78bf6703fdb566dc4995a84ba;
  Dbl 0x72a7353bbc166437b32617cc85512a3fe4564ea44;
  Dbl 0x4a35a9e2788fa73bb5c2d3be124d1b6f8b0b53b17;
  Dbl 0x4c2c5eea6a90de760177c55c1bf78ab75d63c64c1;
  Dbl 0x5801434caa825af0e9ac57cbc40b70739e98cb800;
  Dbl 0x123ab14f27a91c28cd5829018242122fca5369924;
  Dbl 0x11912d1e1f857ddbbd0eab7aea6afdf6e92245372;
  Dbl 0x1b196759583f912e98dc21cb62ea20fe314c54661;
  Dbl 0x2cd4e8a32553b69c374cd1d135941e6a222a8c458;
  Dbl 0x26b4dd5ce98ab708b22ff177261a44ce35e6d9cb9;
  Dbl 0x13724a9f8b3ca1f553d927cd3efdaf6be54fd123e;
  Dbl 0x32d76b52298c7d7339fdb04ce54625f1d31e30ed6;
  Dbl 0x37aabcf337962723e07d03b571a6bbc966f16901f;
  Dbl 0x5174408bd86fd434f7c219734f633b72fa728e0f5;
  Dbl 0x5367324fd109c95e60877c6e151849485b332c757;
  Dbl 0x77ac666f33b98e36b05445b4cc90e7374cbb976e2;
  Dbl 0x6545e30897f2f5175056b570149e352ea7fbd0194;
  Dbl 0x14292dcd39be1986261bbc0f14135bcb1a35d4f49;
  Dbl 0x6f24b1b601cbf9d5a9a71389da466a8a7c3ba1fd1;
  Dbl 0x70066428765ec86e2fc5a1c3c48f73b1fa0d505a2;
  Dbl 0x1e7bfeb79a5c623ae777f3990fb72c35e77a242fc;
  Dbl 0xfac64191ffdb11b8d435e3601e4f492aa2f2b315;
  Dbl 0x6d68e57a6e4cb1baa311290893c4d178f1de95b59;
  Dbl 0xd09eb3cb9b4636a2534cb46ccc8d69f064f187b;
  Dbl 0x710750f934025bea8d653e8e3e81c6094e9bd7fa7;
  Dbl 0x4176f9ace91567fbb5d9e6c5eee305ff8bd2d82e4;
  Dbl 0x4c2d4fc0cb62c342aa9faa1f9f72f0f72a03f1bba;
  Dbl 0x22978f9ae698b5fb82ab5d56ecbe8683ae3d1b65;
  Dbl 0x594177f526c4d474a43e18ddb63991eddf4a47189;
  Dbl 0x16edce4cd45636392db6c658b52d94da64f58c570;
  Add 0x4fde5e315d53c991cfeea7c2bc2232c75458d98c6 0x208b464944df87c0d84a6a5c9d11b2099b0f2d2e0 0x253642b0a01e3ca446defb48538cd679c7d49035b;
  Dbl 0x4f6b3ea11db5538f425f723b46542696f9f77683c;
  Sub 0x5a739b65c1dfa0af18bc14aa105cb0fd3d839382f 0x70f44020ec6ac1e81295d66e705688164e8cd0624 0x37dd2262e99ecccb42980d60c708cf3a6d6620f9;
  Dbl 0x49206a30e38092f6c16225256c41d81841b0edcef;
  Sub 0xe37965c0bf7f62c5ecfaf4234babb516ba5fd228 0x8afe26486a4173085f9d6a2f1619e5a9da470ecc 0x54d6620ab79d93ef708f4888166b9f10028f1396c;
  Dbl 0x3e43e27287d48adf70ebe9fb87c1a13777e912cd2;
  Dbl 0xb3412b7b9cb7f6eaa1c31ae88b27eea868cd6e8f;
  Dbl 0x451d84df477c8162c51b83eee83fe19b95cedbd2f;
  Dbl 0x75535c99a2fe12dfde78aa246add9e41edc666b9b;
  Dbl 0x61d25e5cd126d6b556d3294315c7be92e1b3c36b1;
  Sub 0x7c179a8cf362bb9b629df408107db436df13ddeb1 0xffff4729e31a59249a84cbe94f88bbf58961fe63 0x477b948fdd7aafce162426863fcabaf0e7ddd1e1d;
  Dbl 0x6b2dfeb661a9b1ab7ab166ec5666d492dfd8c06d1;
  Sub 0x78c79fdf8ebf52ea79cd49526c7b176a2758b4836 0x78b1a8501167dbaa48cf4eb4104fc2e71bf39d89e 0x2f4b512aa0bd747df7c6e98c886bac475eeef5b69;
  Dbl 0x55a0946b0d410150a6fb4279961a83cfbaf073be1;
  Dbl 0x9e148f07050494fd87ea6607639428091e73592;
  Dbl 0x4e4f470dc427b048a1aac8e470daa3419aa350ef0;
  Dbl 0xf9a95598eb5e10f1a3c3c5e913387bc9333ed60a;
  Dbl 0x4030b517d3acd6f27067499a2d458c55f5a174a62;
  Add 0x7d9ef2d8e4b67e776c58277cd833dddbf9e7e5a6 0x59af1ecb362ebad05f20f3d9fada4e541516cc0a4 0xdd2c532615eaea54f18c9448f7eb188b32c2db17;
  Dbl 0x1af590f5d0f7a5793629d5907e0172877c7ef67ec;
  Add 0x2c3ed16fb75f4ee726e9b6284c0eb2d8cbd48e92e 0x1ac39bb0725ccac006732601fcd1fd8a9cb281ded 0x76152814279264e6d797750b7f15281651302087e;
  Dbl 0x6c1f91a2d0d04b87f291d16e591bc13806a245098;
  Sub 0x584e8b10e1c01fe934825fb26ec02ba6c835edc8a 0x3ef66b32c8fc22671faeb12613e47b835ffc1cee 0x1f018fb8fffb4ee60467c778638f4174a782fd968;
  Dbl 0x66b79e3f0c0be72547bd6ed0c414f29ccb2523885;
  Sub 0x70f12d7540d3b0ec09720b82a7b0b1caf13508215 0x25584726c3a08bd6982df4b4771b9d76898071be5 0x3f4a9daf4b509e671f2180187afdeb2487a41628f;
  Dbl 0x493eee7d564825b9d420d46ec626fe4dae4a272b5;
  Dbl 0x37f6b74d193092481e7841055df3a9dc7069da443;
  Dbl 0x3af0a30e897de2068a144424e23bcd7c3448c5ba9;
  Dbl 0x7e90b57617e3034a89581fb5fcf358be6a01152c1;
  Sub 0x2e112a4d69b7f9ca6f0d174acac4c6eddf87906e4 0x229c770e30e0d98c1da3f1c78a70f4de232019ade 0x27d94cb19c40e6226c5000814fb9469737d09e404;
  Dbl 0x2a13edb6761d51b8b436142a5406e45a3da580c6c;
  Dbl 0x4297dc36a67a2c5267a1e04b40fc86200569d8de;
  Dbl 0x96667994520c6a22e01d72db91dec51045269736;
  Add 0x62cacdb6dbf816a42238cbec3a2d8005a1bfa7b4f 0x579a4c72da77debc3593e0f2965756eb40c5074a3 0x578a30475f68c36ee8f6cc0a0c8423e2623ec709c;
  Dbl 0x756b97370caf54b6e7ebcf3cd446ce0434bb5690e;
  Dbl 0x5a30e8ccb98373a199883f3730d3e9e9d4647b15e;
  Dbl 0x2e193ec2a3bd9f950a79ffef42ef856e72873d51;
  Add 0x641244bd5ea1fb4626b447fa56cece558e371882a 0x22d75273f10740433c28a9a38aa7afa8e8cfdf9e8 0x4093ebbc55766afd01ce4e8e35322e5e7cff6bf0c;
  Dbl 0x1e8e02e0e07f4880be7c0cfb190a6935d4cc8277a;
  Add 0x3729324198badb53d0ec2ad77f8c3bb72ff2478a7 0x6e9091284815833869c70d876a62176e6fac4a903 0x46268608970513871c9953e8288db974d4a73349;
  Dbl 0x2849662dfefa224a2e30d8bf5421cda43c33bfccb;
  Sub 0x48901ee8d9f4eddd700c638e1f6d276fc8afed38d 0x577075afc4aafb2c62b95f42e8f53866fef410045 0x1b30287901e970311a745151c95b084fa40b6617a;
  Dbl 0x5689d52b8d57d244abec8053b34ecf220b53dc814;
  Dbl 0x596c01a1e69b4d33a8c74c72ba3a34ec038490e18;
  Add 0x3ddc30d0fc142a7c9f879fbb8f878f2508aaccfae 0x5699eabff7e41b52a0c18678a521488451e666aa1 0x2b83bdcb504b1507310f69ad4118da4402913d256;
  Dbl 0x17147ba8746a9a1513ee294013f7afaf84c999270;
  Sub 0x3a054155e446cb8a0bf816c9e557e36ec29f7992f 0x327a03ef594473cfd6ac41f141d8bcd0c22f1c9d8 0x50b022a841a199d3cfdbe83256b9d847bed4df6a9;
  Dbl 0x3b7edca343388992c523e3a0d3f14463278afe84e;
  Sub 0xceba35b9a015c4b3cc0e87c148af0fa3371c541e 0x61b1065603b11731552df07d1e0a05cd818507985 0x497f467280c234df65194e681745ed53994e20d2c;
  Dbl 0x3262fccd6aa28570d8c49a0f62c04a08716eccd6b;
  Add 0x5dea09afcca717e2efe2cc9d85b89a86c52c63011 0x544461eacf0472d8a94ff02c6c9244e24f28b344f 0x6f57e585d008242923766d7f0e75f57f29f0e3f47;
  Dbl 0x5ed63f4d11c28cc20c23b999c303868aa2b266fda;
  Add 0x7cba6672365ef4ade6ea0da926426ffe3de62587c 0x10ada754b7d28cac7f5a194e4647b1336ec5606cf 0x7069eb474bc4baee07463ff0c631c50ec2a2f8cf5;
  Dbl 0xb12d24e3ee799809d5b06ddcd028d434c0d67002;
  Dbl 0x3f62e5ae096a714cbdc3228aac63cb4364b08ecee;
  Sub 0x77f97b6cf048a3c26741f806ee75f4d4862d88a2b 0x4fa585e98ee5c350558fffaafe342faf30515ef5b 0x6aeed23746ea0299387b9a0604551b2fc902dca7e;
  Dbl 0x257708c6efbbb2d77170d3921ff5e1b5ab0ca3baa;
  Add 0x7e667ca175ed2a6351dbb4f37535ec8a0d8d44323 0x74edc3bb363ee5a6eb3f7af25114bd35cbe15cafe 0x56126833cca4c44ccac0a607fc8c919274907f87f;
  Dbl 0x7c7fcf5e21d5deffcf6a047481cb61e104f8c9383;
  Dbl 0x7f45633debc262f6b1fb2ceb220d5c8c69f449a0b;
  Sub 0x7e0c997fe955af73eb8ddb8bf6450b265de8111da 0x7cb6c943c2eb06b57f848999e8a9fb2d695cd2c2d 0xf258a5d6fa6a81b24d0fb1552d7ce5521bda3fa5;
  Dbl 0x5cfb8eea15209515909a6631f883644103acd271b;
  Dbl 0x3cb1cf7b44c08bbfe3a2998eb1451fde5cce0b7d2;
  Dbl 0x7eba69a60f44b8ddebf0ae087179598f543caa5b5;
  Sub 0x2b14c4681b5b3d256bcc7416944748d7af9820c24 0x5ab301f40d265cb51d20b475208f8b0b403151640 0x2ff1a8cf80205e90e05453a68519b12ebf6940dbd;
  Dbl 0x2c20405713483736a0d52f1c3b13cdbffcf51781f;
  Add 0x7850a1e6b12b5bc8dd8d76730e3eb05c7fbabecae 0x6319de1b1a1b1abe435870fbe95b0c9cc33a3bb78 0x1216e124f7e31b6c88762ba16854e02ae6bebf564;
  Dbl 0x27b2300896ae76141bf40b0f544866cf5105d6c12;
  Dbl 0x12b5ea06705538d245c77f26e42585d154e530ed;
  Dbl 0x47b3ca2f307e797c012aeea57adfc19de5214e1e5;
  Sub 0x3b5cbae773cb3c3d042fefb673957509463f14384 0x183b97cba1f1469e1c95fb2db9e205268cc9e65c 0x7591102612d543e427005d9b3e5567dcb74a7e74e;
  Dbl 0x28b2e8df5e929930900c556f5584be7f09a35cf9b;
  Dbl 0x20c423aa36e4fce5454187c6136d61a204ece50c3;
  Dbl 0x2e524df825ef42c19bc7f7666097bdaf90c02be43;
  Add 0x7be353031975e9a7f159b200636b5cfd66d071d8b 0x46c2467c3f183f29acc231567877fca5b93a515df 0x1fa76aa034e4195fa6a575fa11f97c0f26d23718d;
  Dbl 0x140577d9972339bdb7b343600bbf46877d9261865;
  Add 0x5e23368c2a77cf1457ee7641f6517ca7840817295 0x6e4e345181a9082c9d4f1a45536ffce4425a12702 0x3537b60683b38eeb9be70b84c46e0c925914dd4d9;
  Dbl 0x19257fc0829a429355973b8b3b31aa8891c2f76e7;
  Add 0x5a1da519d95571fcd811c82041e86d19026868002 0x1ff815fae2a73da2dc4ba7aca6451916bb1b91d1a 0x62820e3d40c8a6869055c643f6b1ac6847aa59f40;
  Dbl 0x77b6202e658af3c3222c51a9989c089f8115a8a9f;
  Sub 0x4c1ff985fe0eb79a2137ff459a6d3bb2afeaca4b8 0x645edd2c56d114338bddd27422f5b8fa6dfc86fe3 0x182cb5966d39a75115b69e8d0e1c87a858a7b3882;
  Dbl 0x1;
  Dbl 0x5834c6899dae6cf57bbbf6df203c0e0d50383df36].
Lemma bad_order163 : order_check 163 0xc9 1 41 (ofN 0x192) 1 0x5834c6899dae6cf57bbbf6df203c0e0d50383df36 0x5834c6899dae6cf57bbbf6df203c0e0d50383df37 bad_cert163 0x400000000000000000002bec12be2262d39bcf14d = true.
Proof. vm_compute. reflexivity. Qed.
Definition bad367 : N := 0x7861efa1449483af1b503b9b1f11fcebb2999d82bbe789c973d5440d8715c00f65960dffe3474d51bf4cd317012.
Definition bad_cert367 : list cstep :=
 [Dbl 0x2e8a7a60c56594137070a37c6c589125193142b631f761afcaaa26788b44b4d0b44f2268b03adfe25fd3a8c9920;
  Dbl 0x1f9af6449b87cc2bc34465c5cffde7b48a4f08b75e4500509c2ea8f09afb21d60687231470ddcf3f9a14222efd9e;
  Dbl 0x4cb7380ce90ea781605963f37b82b77902b8d2a5c4874a5bd75b713fe71b9407fbfa44672f9e1ef7bd150a9c17dd;
  Dbl 0x4d3cd7a7eaf777478c906e9babac8fe0988b9ff63edfbe8dbc96a11979deafc36437e34daf64e7d27f2c61080b10;
  Dbl 0xa658fa18e720eb5082a279043d891059c6ebb1a333cab1c6f725d62b4eb0b3f231cd4f52a5aec14f00429a8f35c;
  Dbl 0x5cbabb3aa4f60fbfd2997824519756f5e16d90f463f72ddb3f51a5759e9b72f78fffcdf6f428b163907db1095fef;
  Dbl 0x6da40bae6d2ae340475ab37f8595230108fc023b3295d27263b7a2fb1d7cae83afb9f038a746d6d2620ec5bd4c3a;
  Dbl 0x5e1bd7c0af016930e99b1841f4798468b6c2f03aac7762e82b4b1f0bf31aa163e4d54ef9d668f70045536ce251b2;
  Dbl 0x14bc80084619673fad29e7d9697f106a9a305c622c52965899b226d44c892778e1668f4941997d945d8842542765;
  Dbl 0x2cc6184ad961bbdec87ad302b903bd72ef32a7be959d1bb90d182ef325aadca149ce9b5bf6e99144f89273854770;
  Dbl 0x6658e8564d64bc7e9663b1a4dead6d2f0df2ce523e6dcf9ba418e9a837d303ef9b454170028284924372d60eb2a3;
  Dbl 0x2c7216ab0360a43ca8a906ada3571626704b7a22220d615739785240cdd5fabd45ff10c48345194cfe43601b2d2a;
  Dbl 0x6d1a0ab11eb40a668a7ed9707ba475f0199954b28c75e5b6c238ff0b952b6d2e8000349de9aac8c0bf8b1a11e7fc;
  Dbl 0x126837c04ef15d276c7c51d570e692e5a625a6908602d99d217e7fc357458f9f2df4acc37e0bb667f59676747f9c;
  Dbl 0x562c84b2203623ea9955cfb27fef7f189d3b4c640b194b28673f7be49add33c653a5d38000c6b1b2f8b3d005a7a8;
  Dbl 0x429584480ef055067593c7b1d94cdd3264ec58997a28a978400362bfd8980d77ce954249e1555927b01a67ec5e5c;
  Dbl 0x2d1dc2b4df62a8e51b1e832858503fd92838547bda6a66b374ac107cf92e1098f1815646595cad973ab7aa045f40;
  Dbl 0x219b0a4405b09cf9fd62af2e1d63ecfa2778c3adc38052b4038d5d32c9a259e6ea73bad47cc27fe4432c777bb683;
  Dbl 0x752c517788797315f25012d08217aadb8afc06baff7dcf0a723370d0af8c1c5ad8541662f2fc31ed4714427966fe;
  Dbl 0x63fe7b7db38d513f799f705908e49cc6d4cc90112964a430ea29c2faa96f956c62d565f933814b4acdcda63da32a;
  Dbl 0x345b39d18035ecf6aa310c3e0d8aaecf087c7af55cb9bd6ab917ea2f24677df7715ec660a9d2ab9a08b0647bcb48;
  Dbl 0x425fa592eeee02ab7b3d2f7604810b5c2655daf1b0d14651026832a4ef18c5626a286e229a42b9c26d15e1c9221d;
  Dbl 0x69881483c5e927920c23421caade7106800ee8b7e1b0b4a33c672cd9ae1d1ba0de4cdd5bb85648ab3b28a56872e;
  Dbl 0x30ea4918fa2b857dc43cf1d66ed8b1f13182a35a437402841158fc2be4c3e9a3859d70507599df8c36cd1637f866;
  Dbl 0x3c7c7ea0dc8124896d6978fbc4cb987dc1786b20951e9d7abba84b036f25b0c33914b6cd9e4b5dc06890ffd803c6;
  Dbl 0x15a3614c91743703ea1d77f9bb18e325f4d0490f473ee510f850f9b69b8eba2804e4d25c6acd56b151c58c8f4f33;
  Dbl 0xcf09ff78e92eaa88a8326547132e795592546ad307c2a06e4f933930f029e8e0e51a510e1efea173335802f170a;
  Dbl 0x3960f9091b559f42c0e8cfee00885a4840a782f62f7b26e0d70ee19de885241a57678fb48985561399cac6235767;
  Dbl 0x33e9958e80a4046228343a9716dbc6d342d6704044dfac9c0cbcecb9b3077e01bf0d51ef8cdd6af0ea96bd3361a5;
  Dbl 0x648e86f2ca0ab9db273695277c798bf267705eeba942155119b480a0d3c089e65f1c66446d3be9039b1ce280e593;
  Dbl 0x47700ad37de56cb031175b61b8071b522a378e67c1d850a3821ca76d13a4b1936320fb8f30330ecafd299a377e1a;
  Dbl 0x1f220c149eefa82690e56d431ae8ebdd6e77329cb1be483920c0301b5f86be650e04b4b9afe81f3ef4ec90785ef4;
  Dbl 0x316ad9d7c4a61c5e5d27dc8e76863f7f82633e5e007c87b966925c3377e8b95896628b0ac149908494df28141e32;
  Dbl 0x69dfe48c2dca1ed6e20575edafd3c0e885ba41dcf034c19e7eaf3974be565a8eb71a92c78aee93756383728e43b9;
  Dbl 0x25151d9df98578422385a73e3774ddd0b26968cdcf69df2072d8b89ff7f9b86eafb0772b6baa9eabf54b23eedeaa;
  Dbl 0x640d493680ffb7eeb1245f863a9680428232803b8a280d7e4b593070c49be2f4b83656872370213b84202149478d;
  Dbl 0x43de029c3e83a11c7a090356448fd86bc71f4b13cf0e3ba5e653346ccf3dbf253fcc1dc09515be4b055dd5d6eeb2;
  Dbl 0x8a32331a1a44d4d7b53b32cd9545cf5c73ea694718860c07baa77137b46e8dfeec1105c94a48d5b3f4cef4dc996;
  Dbl 0x3c0c9dd954ca551d29ba3d42d868c7b76905b1a30d9c922df097d2a080ff6f52b5c023968a16402823d1950bf6fb;
  Dbl 0xde445df13f35373139a9182ce5229aaf6954e53cfc38db6bc1dca63b46a1aa7e8ceb1f4762427a2e97950b6eedc;
  Dbl 0x7b05dc8b110eecac022f88662c7ba0d49ac2664da9ac8f6e4f8408e3ac0f58c9df8e3310c5da22b791ec2b2c5302;
  Dbl 0x4d02de765b03219816dc64cfa3efeee856fbee075cd74205c6804b65ccb531c69f1546693dbecd05415719e75b7;
  Dbl 0x531250a357e723619710d58f77c3620e68ca25d7d552249142b9db54c29cd3b7c49d24c5299bea206ee7e1eabad;
  Dbl 0x5dd8fd1f0726e95e71c4c0e20ccd61c87238f2b641f802f5359b1de13b500d1f3dfa037f91a42c388037e34385e9;
  Dbl 0x3834f035999672977b4944a3dffd1624be9d42557137acb2b545e2b7c840c39d320f67b0f8c83b2477206e01b195;
  Dbl 0x6b5dd5ab19ad2ae3d2eafe5a20d83961ef17de2629dc396e70cbbfbc919011603b6d5277b4668df54f5549024969;
  Dbl 0x5d1fcd905ffa7f065e670df7604b4d3feb4833390a5e6ce3c926e415b33d41caa6e72be1fe447edff82f74992c60;
  Dbl 0xf554fdb000a6048407b0801ef5c68191c52dc4d5749c6ccb2bfa3bee168aebc59cb80c2b5a83afbca0975a09504;
  Dbl 0x9ec4eb5e283ed443679a2e4a6df8837c5d90e42142396d5e1289e92c18c0b67f744957ebc5125d9cc1f74f83b04;
  Dbl 0x4e6fe4c6be7054258828bdc1e7a3d1b4ec049c8be1a7ad4a87f28c55b727ea6175084f46adcbb1116d1a9180f74d;
  Dbl 0x7dfca9ff239deb23998d2a37fdafc1592c1a97a5aa3cea9f066d62101203cdc6082d1d94235c9591b5ae2f6486f4;
  Dbl 0x381759347a8fa92b5dbef5e41cb909fbe73eebd81e6b6f4dbedd95b2663227996401b09006832b58dd6bb546086b;
  Dbl 0x1fec57ee79c29240ffec09ba35e03b4d8bc7922c7a6e8b013b46300dfff1201b979fcc2879b1095892697fd9b05b;
  Dbl 0x4233d3a951834eb5cc5a2e9cfcf438001176e9a749bac441df7d3abf2743e6bf54201f063e616996f2e9f224350a;
  Dbl 0x93c62c10faead215c2f5de033d5f7a69fe154fa65d4d372454309908af3941199f65a6b324044faef9ba503fc43;
  Dbl 0x231b0d2205218fc23a22723120ac387fce0272c2012259fbab63a8dc15c0ed324163cacd76e3a5d51f0f184e798f;
  Dbl 0x39872a57399bcf1def70ab2d744f83a59de2a4fdbc3e4229ade5bd5f9b269012b5242be6a62ee1c4f4d87ebbc0b6;
  Dbl 0x7388fe52d73663a87d1525540550696e15ad0c7a874e0c703d7a9f065af3567ba05207408221b703d3870e88bd0c;
  Dbl 0x1cfe4194096e6350e036630f41f631ec55dc8db50a6e4cda79b3d0895652ba08af9b17789100d1d5dee9f034d80e;
  Dbl 0x2b27a11d37db9484331dfd8c60a04ebf4206af49333e0cef9d1356e206494f873e0219a8a3b2dc6de94c6a37f8f;
  Dbl 0x75a7cffe3c219c502f0948172de432f5a89c7b033c62d6a966fccd533c8e1002b0e7b225f8867392ba81e35bb9c8;
  Dbl 0x4db4094da76280493bfafac585baef817cfb25825f19063fa3bfa2ddd8fa7598db2186696956e882af2825817576;
  Dbl 0x71618f6f571b1a619864e630ffa9764630708f0f6edca8f9eb299cc3e7d8398f4c4bf65f7ec175486d21c1b7584a;
  Dbl 0x37df0b4e45e9e2204c210ec222cd189a9df877e41eca6ce148c2fba2967bef2325e3bcf837aab9eaef0685c75d35;
  Dbl 0x3e755474660c5e5d022df4e98fd8288f24334bd19269cfb34084830a1fb79696275d00afd8838d052ea12ef56bb9;
  Dbl 0x55adfda973ea4642318c8f5aee1c7bf21533aabe0922d0df4dfb705bb320617041b8fa25ec888442a97e297493da;
  Dbl 0x1f0fc081b3856e5d289a89dfb896c7f152603f9457b5168e20c4c28860225a98cc47920386feb6c14de7a1f3aa18;
  Dbl 0x47e9718cba9f8749744a444e4f7cba4e90e0ccd3debd2239f1337f4fe6396639311ced6a846b8f1c8ab912fe947a;
  Dbl 0x2855007b4ef35c05b9f835daf3d720d94f606505897d5c39fcb373edab0ab400132e44ab16633610a6ca4c4f99b9;
  Dbl 0x7f17556181c68d5312db82dc6f8af6a5a9a6254de4f3fdf844d515c5bc5a23c183a03d740d0cb88b1b17bbb431e1;
  Dbl 0x31df9bbd8c46221d3423f58696dfe75c11c95246d78c8a5217c553fe52c1b76c30058a12579673fb912a867a88d6;
  Dbl 0x60a299d959b0dc78cd2e76f304ef43231d57559e6a040d5d91bef73b4f6319596dab8ee77d99f47765892661ff9c;
  Dbl 0x14fa75b323e712d5d83631f462c24d7e3fbf0a694eea4628ab2db56603725975b42e6b8c0f087a870379e56a851d;
  Dbl 0x4a65ff5e80ec6ebd6595314735bf390a9cea938814043009cc3bb7c0039bfc8af98dbd067d7d7536660c1f758968;
  Dbl 0x10371491f7174217be6ea26d6d636a701d9845166bf52a5a53a5801264111202f834e85350558e6f217ac1aa0156;
  Dbl 0xf7a61e999c39f0ec7b582582686e415836735fc1a1c9304373be31fab28b64cc07305374c17c38c8f631bdee433;
  Dbl 0x7fa8d1635ce6192bd2811b2cdced22f6ef5c98710406088c8280d6f999347eb5d8c88f9780cb8dace014c43734fc;
  Dbl 0x2b641e76bfaed23133865f2f4fa301502353adbb3028f4f3af509e59f5756612eaa9d9364e5721e211bc54f6a74;
  Dbl 0x4086c4ad624ea250585d7986ec17fb34a9aaee60373ee16004cdec0092833feaf40e10b109600ed34037024ed4fa;
  Dbl 0x7c8757013369be02fe31b72991a19b0c3d655353f4824cd843e4f34e31fb41ee3c099e8bbc1d94ff0a7edbf52b75;
  Dbl 0x56bbe316f6ee8963d9bc02eacfe405736a7e327fabe1cf7ba0e05f92846700ef8c2381ad72848faadbdeee39286d;
  Dbl 0x2a8d8f4cc89c71f82d74949af6e182ad629faee8f77c815ecc05ed47b944e3433183ba2623c88ce5cc8b80d2917c;
  Dbl 0x435fa806cf1a3e59d7f9841ba348d21c76ac6727fcfc602f449c8b80b31f9d1ce60ac4ebeff976465e8009f6d95f;
  Dbl 0x5e44f82d357ac86cb82ccea7b65e5dfe45ba8a246cb71203be63cc5e96150ef0e5aa6bd905734541a746b7f0a5dc;
  Dbl 0x3fedb908ebd8dfef290e48d685078abbe62aa0293e0f8230ab7e32c868a893af251db1110bde5d694dd0b125fbb7;
  Dbl 0x10e35e6217264ead487775d97ed3372a903e68742d3a6aac0ade8efaf983e3327d5a2767f2cbf67c69c9eb1f4e15;
  Dbl 0x4452d5116158a9411c3fdd497aa5ddf4b25bdc633b477130aa5b56d3ad5261435a7d6d031e1405be467d7d43a4a;
  Dbl 0x783ffcbe20750f2e4542336bb15fb2364af90df0c258f0ea87a00b1fe53fe04a8a91252321f6159e11d8e89b2f1a;
  Dbl 0x3a1da203e9f9338a0f4eb45137096b4143773bb0c9b792f437b4385e0620654e56089051b8b533661ae1a1852d99;
  Dbl 0x4f949c305918b3379a92e3de9d01aa79251f2ec10152fb5026ed5f9ebf04b7d9bf5c357c00db32bcd3b289be20d4;
  Dbl 0x4a8e345277e4cfedfd50325965711bb9284da590a33fb85a172041ffbc0ccbcfc6b2e4c5c6816e1b341cbec90fe;
  Dbl 0x7b99038cee0b951a7de3691016013f91b1ed86cb7b0b50fec95c9cbf5ef215d24edddcd832fa1d2dbda8d8bbe2eb;
  Dbl 0xb10cb8c234d21844a9c97888207d1c6efc33a3ad83e17ad795c9beb531c5f034b3fecbdb56cf6d9eee5611caf5;
  Dbl 0xccf4170cc97634efa3723caaf864446e54e3a1acd8a9be42d6831101d31d0564b6ea4b75b0638c2bfdc09388e90;
  Dbl 0x5668b1801824c5e7b45c7c725961167116c5eac9a655e0d362ff1f93196a848dc75d57993cec2f966e861e2e0ee6;
  Dbl 0x1ee38c7515e31f345add48996f536a526df990771d4d57c3602f7d874d8a8d887744cad8cc902591a1f1313d89e2;
  Dbl 0xda0fe65da17cef3c99e5b5e4a025b12ef23dc0d1e18bd5078a0b41d249f5641ada954f2314a070edef010546e6f;
  Dbl 0x10eefb12ace23323d75412815702d490236d8e3d628ab172e49c6e430a57159b8cdf6dd8abd18f677a78d64b90d9;
  Dbl 0x5b57a150f5a36d6123c4f720d48fd49149c188e7c9e40eb501c93c1a850ab4a23a4c4abd560d1bac3b6b6cf2fbd5;
  Dbl 0xd7322d2d978885fcdcee66b6119f5048340ca37334c8fd87bf43af6c5c759a8feb0f76f8b15998147469a3b3c88;
  Dbl 0x6e5c3766082090115db24aaffcfc0bfa2813b0616fab7cdb916bf4270d6bdf5b92b1d35f03acbcd60cf246276d2c;
  Dbl 0x6fd8483d2525228c9b8bb66a3791961cb064f368034a311fbc0eb08dfef8e979a6ba05f49f67dfc5a9bd5325b9f9;
  Dbl 0x5f9f453c53e08c568553200969ab29d7fa0c99d37611c26655abc75913c67d0d682243b657ee5506304c47b23558;
  Dbl 0x712225c510e36062b596aae7e647989f89d16f6c3e1b306ee5ec56302be5e159fa21cf2b2c110200761abfb6ddf8;
  Dbl 0x50942a4d40b3d30c140186a23f07aeb5884bdf18eb7b6e291cd7e80fe96a65173e90eb516cf8226b4916c75fc1d2;
  Dbl 0x5db349e7ad3f67886cf7eca1c8180eb4cba9b0cb8c5de90cffb99612238a6e21b2158eb0bb638d8c8023e5ef749;
  Dbl 0xde37a5e521961e27296af67e4779df88156742957f3cc489aaaebe00d9efb687c5171f6d29878cfaa5e8fb798aa;
  Dbl 0x42bfda0d46843d33000ad136c738b2d4b3c24b207d1489e90c8ce9d2c20feb33efb2bdac4bd2017d9a58449e307b;
  Dbl 0x1719768a1fc92e2788c9fd1ea2e02191510d806e96bfe55f45c6dfff5cf812237dc4a56bc5c502a93815f0c871d3;
  Dbl 0x6a1b20b438ff7977ef44fdda58983c12e6be0004332992bfef2ea10d4d9fba62b69b49c75793ea4656d32cd0e821;
  Dbl 0x216b96a89843cf2e5a6c521275364448a9739162fce15174652d718dae66984cfb615d7ffdf09f7b6f4d78efc43;
  Dbl 0x311468637388f1ff063b6187d3c8b30cd93d1323d4763bf50dccc82cdbda220c073fa88b86de59e831b2fa0a0cc6;
  Dbl 0x73e0b3e7e7dc0a22f0861f6d484e717ff11eb5c486178700590e87fb228f73d65ed6a31946b610d05f10dff71201;
  Dbl 0x1db518c82bca181dd74f63d377b553d7eccd927cf084d01df43d5e317b3892f5917f6ab4850494799a31c52ee136;
  Dbl 0x1d6923699790e63e662ea82bfc048dddac77563f6de9db2c810362631ce50eea2535426f16b34748ff9c626647e1;
  Dbl 0x36264c66341f24bdc988a9d8cc2a82161998f08f3e0aafc47c11942276fdc6c9e926096c334c75ac4905db6a85e1;
  Dbl 0x6e2849b2bb806dd8fb4616a841a398f346e6559653f0ec75c754ce12561f8a692c4df24be119d1c408af7059cefb;
  Dbl 0x3a52987ad6c17bb80b770315bda530b55232d74e2a87a79aa58af4999bcca17864b17d2f07bc92ed5dd455c13ac7;
  Dbl 0x5bea817f0dfa37c3eba14c3233aba83ac9da92d6fcfc924ebdf272881d0abe6d5a14ed7a66163ed0504371f30c4a;
  Dbl 0x4699417777c1fa383e3046806ccba0cb7e3c7a04f4e49a86d4cbbed44dc5764d21555516ebfc9fef3d6b6ca2a713;
  Dbl 0x3e49830f7175362ae29488f87b8fcf87ab8ecd92c561bb4513ad7c64641fafd9f2e89c6a2d2f942ae095993f0f72;
  Dbl 0x75639bbaa2534030576b1ba3624db0c0eb0d85f16db87a500ed29f9e5e68de4976b9144e4224342a2ca80d97fde6;
  Dbl 0x6dd453455ca5ea98172a453071d732ab7808164603866aa54023b3d29d941913a6f579ea7d6ff832508d55dafe12;
  Dbl 0x4b78c2ec4712190ae45b29888a8f59ac311198b2c54002c924615681a44bde9affa3525abb5fe3c5879811fbdf4a;
  Dbl 0x563bdf9776fffb5ffda8ea9d2666ff7d5306416f68c7f5b5cea3a32422a7dd3a973132b370c3deed6a5af9fb1988;
  Dbl 0x7ae3dbd822047e27f68e8f55d9a5e5af2d08ca1b52769f10faef1e3be8cb863ea268ae47d673569045e6cdb8b76a;
  Dbl 0x7bef398f4a89fcd2bcc40a61e99d1c508b3d6d2a3f2c8fc2ff1270ebc55be88e4e5a5b08fa56cc12a1502109ed76;
  Dbl 0x3582e20a4eb8caa8bba44e4ce7c38361c4ac04f76a9a9076fbd11f39b4faa2d67c636501ebfce76e5e7b1581eafa;
  Dbl 0x6f07f33fd84a91ddaf6b035524814ed18a20c290e35fad232a02ac834c82c8f2d4954733356ab3ae196cfe98bc16;
  Dbl 0x4659cf4326a437c68f8bdcf26cd8b80d65f37b78dcc8b92cd196de27a0f7916e5439f55d467f1c7115934857efa5;
  Dbl 0x2edaeb088f0236d6eb7cc5b5c83dcd2413b29eb229195c2a378a43294de595a4fda72aa880a88021199b02c39e6a;
  Dbl 0x5cb91cce8f33b12a1529e43020ae30a15302b3ff78aaaa55790f8ee2479dd087e2a105d3d3a76609db15d52f9ed4;
  Dbl 0x4f09b95c4653e262030dc6dc81bd5528669357e8af732175d3a7ca619b8b744e66eb4aec06769fac655ae57a64a6;
  Dbl 0x5e582d83022584643c273b0234cf9f1c3ddede6c3722458c94efd7d57533a808b5a7c1888f46f136f55491b71078;
  Dbl 0x72885b3ae1b19bf9cdf5b237f3e02319b3a5684be9857c626773ff169d6737336a77a394ce3ee5699454fc745bac;
  Dbl 0x74dfec41eca6ee6d8c295a279cd5df8250c71f7153f9e7d02a57e8f88bf815fc9a153219ffa0f19fb66ce11ae621;
  Dbl 0x474ba3cb2f56aff6353cd285632e9e1569c65a22ccae0a73aa31e3b20e9b1cdbb311eacd65c4e0872020e69837c7;
  Dbl 0x1346c13f93cbe9fcb97c01e3b2e962b9b138a74c955868736a43889be18f8e97fe298b7c566c5812e93d769a01e7;
  Dbl 0xfa3a612abb23a938408fe01aa8636baea2331eed55166726d61503f1433ab26adce26670ac6c138b7a131f08c6d;
  Dbl 0xa6b72d128382ff999af1a91ede59a9ad81af91ff6bdbd43fa524cce08879bdb640760f5b5a7bb8a82f878a3c375;
  Dbl 0x322681628f64637aa8f43559955554d19e471dbe90c6356518d2337e95205d0787aeb5e496174fb8423ae099eea3;
  Dbl 0x6e1ea8d25733dfe26dc0b38ea9099b3d8d7bd212ad5be39d17a11978dbfcd87e9bc0215d3452bf7a95400632e05c;
  Dbl 0xb174e5b7eb05bb95918f92a3befe587df84a50db172d369e3c78ac30a63ee0f677db59c5f2255230a20edf1b0eb;
  Dbl 0x5cc75fb691c07f4f7d287e8880fc6fbda5cc4c3fa2d13e39f65c065c0fa8b6aa9386cb94192f318a81a6854c1b55;
  Dbl 0x521a5f2a21b67e86db757945ff4f8e8ea508055369e03f4eb77a61d9822ecdb2ca72a4d48f62716ab50fd917830e;
  Dbl 0x227a0bd779cf614182c22bf15f440ef32f696b119a1f8faf338d9fb4bd4898a58272f089a2ad7c5c08808d1febb9;
  Dbl 0xdcdd11117e383e30d1e61725dae43bb6d9e95b03b82df4f1078430a319b829b3dd15b07f74850f3dfe57ddd0a00;
  Dbl 0x4f174439ee1b4ef9c9b7826793214f69efe95916fb619166c0bf6c0171712f1849c12625ff009a4a3aa00d141ff3;
  Dbl 0x65166008e67101e87889e3467e31a571dde47fddd987013422e2666ddfb58c75c0dd1890d97503f2c3a314965980;
  Dbl 0x733e33778613ac714557f0838654bbd3c4fab1579839bb325134dce3a0a6a2343cd60ab1c07822efc4353eb2437a;
  Dbl 0x6e55bb02b6f5bf68c569daaf7c6ee892d1a848ba6655d8cb1db7b542a81b6cd9385503f99fb9c00e82c68bc4eb44;
  Dbl 0x6c9a24867a1cab34bfcebb8bc39011437a673f5259026dfe7bcd7a6ebda517337971fd05054d61e2126b5ed2f93f;
  Dbl 0x2219221e15ef46bab0def4fe03e203771795d9e5048990a29147c8ce9d73cc4bad708fb0895adabc0424ad48e3c1;
  Dbl 0xbf87383cd62c3f01404509f3cf9651418fe004dc098104a33a1474667bb4beb05d96858886a095bd83f9b2663bd;
  Dbl 0x62cd5007b7cd7b61894683804cd64c396af926a870d85e3edf62ac8fe524ad8124857e1be868927e2bb87d0f4fd;
  Dbl 0x1c841a0562292ee3ba6543b3bfb0c025d8afb13791d43dec9a13e8ba9a036fcbee788dfba574364dedee8f516da6;
  Dbl 0x4b5be55fd7b18f4628da7d37dbd514deee19e60d46117309d9861a29bf088ef879e536fe7812948e2b0084cbd471;
  Dbl 0x547d42020ba86c91cc7a95ca547662a94c15b1f187a6f3860f1f0dca36575df29f3e12d8892b849e5ba93db9e60f;
  Dbl 0x697219149ddd86ef98561cd1deb545a1049ce68e409312f6e015aa8cc6fd75f9e98cb9364050b203218712418673;
  Dbl 0xf97ca6dbe20308b35ce897622065895b542a0b21abac9bf192f43cf0bb0f519eff4bc325b1b3679b0ef4f45da98;
  Dbl 0x6240712fd2e6605a3b7ef58f6834ef8caf50c842b17764f5889a041e33d69621b850ba068212ae3c8f2fc8114f86;
  Dbl 0x3845b3c6d3f2dca65663ed2625bb2b8eb1d634e38e750464afc3fc042afbdbf4a78b772b8db399784c27511d0830;
  Dbl 0x73cfaf268dba35f53bca71fae7f84038cec1d4297ba1608a19494bc45ec7608b41fcc21e16258da07885dc723511;
  Dbl 0x7a7c6f1ba155e5592b1183d6af153f987c6d06fd05c3fad08e1a302af1f2b20ab47d9006247e1a5f156f86633e6;
  Dbl 0x718c69ae2d941fc451345baf59064340595efe97b375631cf70b17a5de0cf9d3e9d4665645835b76d8dd1a938f7a;
  Dbl 0x43fb72ba1091cd66acc23552737d8f01f804c3f8cc61622930921b7fea98c200adaa57cc8b16982198785f4711fe;
  Dbl 0x367cc4977002e9b5c2afbd39bc3de2eb8de2455195f6a3c42bd1dc59e1eb9697bbbd2a56c143da55e3abc7cdbda3;
  Dbl 0x61311fb6f7342c813d1b76e47ae4d3660463590c19e58ef71e4799d7c0fb183a24f1930b78a4877076d0aad337b8;
  Dbl 0x756f99b71e6034dc05da57e110c4c677af2b997ef8ef645808b9e01943e5be89e9140a1680ff41594ae4b63695ba;
  Dbl 0x2a8d0313223fd082831a4491360ba5e3e0873d2336568d85a7b1080798dfba44891c69e31d86e9b8814d91f497b8;
  Dbl 0x231d1aaa56a7a5f73da0df26d77f953eca166c97ee88b0980daf1bb8b0fd2c0d7e1959657b19a419e1b6cf3aae0c;
  Dbl 0x4d31a28a3ce4a02d2516f2d391a10acdf5ed1222fb9226679e6ab36e341f6cbbbe138dda9872d72a508e36f111fa;
  Dbl 0x5769113a78da6880520997452b297b0c6584abc3fadba35c582a0fc00ab90547fbdb99a486a599d1f87074661c2c;
  Dbl 0x4ce3b42c2130f9bb3424b89a9b476af8918065ff0d0d7347d20670a6486ad4c30eea56cf1d3990eb996ef9c38651;
  Dbl 0x53a14ae091b065abb545e5408942e8a3d3a02e2b134b4feab576b2fd65ff22422a9dbac3837b97e9966e55e4731a;
  Dbl 0x4cbd53235f33405e6aaa4f667641f0a65885cf67f36a549c371d7dba3878c34e27b712de46b801a319433870621e;
  Dbl 0x5273643c52dbb54acb76b161540bc194d93d725ee277ef7b3af5c1a193c8c9ed1e22c3f17c94c8579052680ceeb9;
  Dbl 0x7fb4f6f1e6170ebde70a3c8ecc60b0d64a4327523982b9b75b6f1c0590f953551b8dfe9572bccbdaba5622f9628;
  Dbl 0x61cec51cab11b819a776270a6ee224a0d2a0afeb436e9a99f1cda9fbd1e51f0579de0a332804ed5028d838e644ed;
  Dbl 0x54005f2ae18288bef1cfe305ae50595d42fbef47d49c0ff08ee4deb6eddf9d6917ee89b8b369bf6f89590e989b05;
  Dbl 0x5315b97ea6047ff72265f2f23eef95ea79b01ba8026754aebeba0daf6275d48642c3a68acc60d1d543c62cffe0fd;
  Dbl 0x6e8d9d844e8445aea1923737ce010ac956bd1df31d8a051c1a5f9b7bc0f85593d301119a7fae80c07d268f160e84;
  Add 0x1cdfe696bf249c1969f3835c4fd691b07e6b5f2aaee92041b3ba0172077c764194c77ad2a5098151f9a991b3d0ad 0x147b33654e9d7cc0e2cec60adf26906e204549eda3c10ca92e70169b46837c9ba4fa3e3374d8ba114a0ba6737e34 0x24245a2c5448095be0026963476aedd6628df876ba25856f367935fa4fb1e7b7b9464cba8b900059bf956be71a1a;
  Dbl 0x40c15b1a448ce271eb715bf312df1d33b0695e91655b7132399d0fc21ea95788cac7a595e51681066f57c462dbb0;
  Add 0x10f13cc874f32916ad00b0f3237b3c9659e9ab00ed89a6cd55eb253117c571f0e34b179f68c4910c112b55ce06c6 0x2dc861ed97cc26dad414743d9b26a6bdd2e8e78bb778f3879bac14e48ddc54bc2f973d6c9d8bcb101d272674e192 0x79ee836118f50a90ccda56d7a50bb9647eea037f46ade9e6f409e3365c589d2bfc983b2ae886ea76e1fa716d045d;
  Dbl 0x9124eb5be6db2bed536393efea0ecea10f3da7b41672e8e6fc91e9a439732cf3616ec35383cad818f324f10444c;
  Dbl 0x153ba6ae6926e7994126c141d862b70c836c0ca382307abcb29d18a840bae8d672a06fb0ebc19b47805faf3f5fa;
  Sub 0x6207bf3be2f687dc6be8f14acdf945bf00a3aa7bbd18a670306464ed72547d7976220e0b7cbb8b569e4db5a43950 0xcc14c4376ba08090dbf81aaa549281f882a289402509c81562accdb0eca344f6d14cec280f2c273e187f1ee46a7 0x653e6e3a28a60168db5954e650dbdfe72a35faaa17a41209ff8ac2195feb54cfc68b56c312229949927a68564cab;
  Dbl 0x6f42584f6ee3c8485081a2bc0815f9e5977671fed5f323da3ecee50eb24583aa6b1759fbbc85d9b02c05d340adff;
  Dbl 0x3607bfee24bf4e42e2b642e849fd90f777af36bce88c896634a2158d536d1499efb30a1fe1fdfbeb1fc2cf5dad84;
  Dbl 0x624947cfa2a04992448e47c9362dc6650f7f194b43761df6152285fe43512c6b2ae4f970f19d21224eee0edc401e;
  Add 0x6551e4594313fe2db78d0c01058b5f0835f3fe4dd5dc7d13b8b609e356f60c318125711a2b68fc5b3ddaca50420e 0x120049cf1f40733f61431c4f1fa782e48cc207075195875e27c62806b1d1d4e93f1da639cd4e920bc02deba29a18 0x3e8030b90c5bda5205ef434a47a4c3aa2492500a377e9c29a261454964387744102c1a6705f80aae88250800ff9;
  Dbl 0x5336a63b0517e020330d80885efd07a158be69d7063e9c0b4c25a875452b9dcb367611e87aa90f2f32c1d18f0bb6;
  Sub 0x5a8b9d5ff852c492846be39b26018998f8c4ca29b1a91e56c310bbfd6e5cb499728fc2877b3f1f7b99c990db50a8 0x308f525b99dc309ba02c63ded80731f88e2a7fb39232a50ba1d2f6842c622d1ae6c4b933bf876f85d54a58c87356 0x5e33a023e0cd964aebbe21661bedc63cbc1ab3814ee5285b3303a8668e2eca0702fa2cfc0e863361aaea6ceeb6d8;
  Dbl 0x3a8788253d9a7eba29b469343319dbb436e719ae8e75a0f54a74f5e35881b50019c613744dcb83993193ac936e66;
  Dbl 0x75cbdd33adefb1ebe9b8dd354c8f5dc9a0882286ef343884ddf28734f6b4bdc0a893a341bf169f857cca46b65f8;
  Dbl 0x359698d132d1774e3db1f5ddae904566413ee4bb57d5f192746905e18ea6fa9445c16c0123f609c41ff98948b04d;
  Dbl 0x46a5e5bc38f1fb84e98ef45e9991d65681cbf72fc488e1d0bc0cb08e3cf8de9a790bf8a2388b9da989b08e70b051;
  Dbl 0x25c62b0007be2d27a6a13e5c5b80b7237b149d151768e2e2ba22e7f112bd0169ced04dc071855fd1577a64c4002c;
  Dbl 0x6b4bd3412c51ebe7a064244bfa97ba89a4525326f01d94dcbc64e751ca002146e719ae79f5442c1efc3d16e6804a;
  Dbl 0x180ed464aae68eb2228a6d076d566c6298d27bfc516ae9bcaedf84a1de561a03ac0ddb71cbb8485cca907f4b931b;
  Add 0x1505ade0fa3b26d9c535d1fcb3cb7d1103a8f7a46b7430f14798abe9370f85c76760b65ac03a227523a499407cd7 0x2987ae08128dbb0521843ad1ba4623fa2165a26d6032f0450e44206a26283269c0274c130fa812cfedace7bc8dcc 0x13ec0e99aa3350db417d9599589c11f849cd5251155a5f3eb79aea7e92806006c68053554393506d351d3e719e16;
  Dbl 0x1cc869d9ff6df724cbb86ec30c4846333590f2fe31e91f5054d5b11cc478e443b224acc6d93f4b0c2d3e289931d2;
  Sub 0x5fe1398f21e14725a238ca01c3b33fec5ac6670b2476359af5d9b6a6f5439d8a33be0c3c2158b6991d5d48383102 0x598087af5dc24c5a9d82a06763b6f65707ea8f591820afb77a0aab81bcdb38d23adf8bd191c72a9c563c2f7e6936 0x7fd47f9c869f8beaf3375d7daff41537595ea3a33c01658976b8649555bb691e6a1f2ef48e4b7d4ac26e1585768b;
  Dbl 0x20718610a1c5dfa79cab71710cbcf897ed40006f64930a042aae0f9454c055deadee43e72bb51f5d566ea66b0a96;
  Dbl 0x526303050dfb62901d2fa5537630fa280355508a681d48e5edc3eeb9c893f08a015702270108e42f1fb57785db43;
  Sub 0x4e6346e231f3f861198e5ec00430e860aa30911ab22d1bff5f8e94c7834551d8a0ee8baceb1d3135c9a0e0bd42 0x78cbc505272a8caeef8941c121896e63d6eabd475baba73176340a5b41e3685ab1e8bd37db53356f9d7790b69669 0x6df04860447e4a9625b359cf0399aeacac143291fe16625384749b969f2c4d908d3c677d3dca7974d5db01dba5df;
  Dbl 0x684a8320ca9cee4ce563eef1f4d4bc987c543632a43f9fedabdb08501b97a905f305d06d2e6784513ab8bef45e95;
  Dbl 0x5f2938ae90fec832bbfee16a74873172b6ef9664e02680038ade2b3d99f5ecdc70a064aaa8a33cbcf407ff9c039c;
  Dbl 0xb936b83dd25da957274f4b6b7184e9d9cce8682ec964cc49f460479f43ee405b8a10820f1869c8d6ff26e1fc1a8;
  Sub 0x770bf1b1926025863d89f70b81e4b3bb525ff40429d2d187e26ef7bbc4f52637d2a379146162e2c7767ea956100e 0x1d3fd693a56f7615c0a0227e914315a2894c3b0259930d238b546886199125f34adc49e27c74d49ad257bc6879e1 0x3fac504e027901fa441be0dcce0856a27ff2a0c9bd9c8f19a2eff7aa6349da8f590fb94531df52c5c01901490c37;
  Dbl 0x56d2062a8bbc982c180f65436ab41c4f59b46595bdbeda9dba0b244a4313003cd4903d3bce3e8f16aec9d8db5463;
  Sub 0x67630fc97f64d4fdc5b504ea821ed61eece1b8acd588e5cd84f57f91380407e85e7a26ba8e426b3c03830b7c3461 0x2ba92aac1abfb130434da6867d0a258a81972fd532f05b6c1b26ea04c67b069636da6133a8743db1a121885a692b 0x181592107e11b00f9d217a804f2801c5cb4238653d1d87100c972656aab572390404e1597e0c44a3f5b70e2f8a17;
  Dbl 0x1c0e349a9b18a706593baf12b6cacbf623a396086d2b58d91699a44518ef92af2ee8db6b4d2576063976e0cb0b64;
  Sub 0x59419d095afa7d4a28f82a51b1a832f293b53e82df25806a09f2059355725bcd4b74b16ce6dc6ccd7e4abf3ef3 0x28fd2ebe6c3ce15b5e8f1c426cfc8ce086a12fd8c28223a9b927981b9df40cdb60c2817d410a81bc92f1e9bc1443 0x22a81afd259b9994f31f686aab999f4558dd61180f43ef57cdbfbfd41bbf86e6f51d3b0ac6a8adf51f9b818fbd62;
  Dbl 0x5d603901d8205ba86af2dfaa111b2fd7eafb2302c3ddc77d8e5cb2233316a8cecdead033e5e38215edac442094be;
  Add 0x54a3e5335132767b2d95d1eb7e11c65c431fb21234a26fcd1d4a722e0f4c2ef42b5697c7f34ddd5ea3dbc74df70e 0x2904183132af8226b2f7998b15608152e58ec23b6546aff01ae44d0c2248df9dbd5cea96a90aafb5649ed7f4be82 0x2f381820b82c296fe3a530c46b98b649625bb2e1d93533e99ed28e2d950849f8b6ee78a904de71629261cf3bbd3f;
  Dbl 0x7ad174ac99fd49c1a4342795b00c07616b0c755dc78c91de74c8083f81a1e3d138f05b9765d16164fc8bab0bfda3;
  Dbl 0x1244a42d49b41b55b2f5484772485ce1e1e3f2cb696afd22f5fae0c40fdf40bc12a16229e88eb26e5559ce2363c5;
  Add 0x4cd1806bc89f53d2938838ed09b62b0a7d6f0606a094fffb3e83e86954b63925d0c7fd097fae0523888a53c1333b 0x7446ebd2ba3a574e9dc1ff1023d9423595dcc701ea14cbc01f7567b35a6f0a1e55681b67cba3186a464fe7e88d7a 0x3e30f4c46e32e270a8c7c1c87d8c03f6d5fb342d4fb5bc2877c9092e35c8cd36cda29d4382c9709d8af64c53ca3a;
  Dbl 0x2da490d7fc0323d7dbbc9809b4ed89eab4e541cbc091c960d604756528ca78f17b8cca7f656491909997cfd9f68;
  Dbl 0x718175e500938d877b532543199f80815a722b61940584403de141d91fa85ce2c03db552675c995fb7cec0aba957;
  Dbl 0x1ef28d2edd3123e88a532f00bc49f6a1a8503c86dc474f489399291ab636305bdaf82857d4b33ffd14ef0ea4c9ad;
  Dbl 0x35bedaeaa65eb4af13afb33d3b7c6a332249f4a78b6fb915a5de6582c33b293b7015c83bd6b53822d1c2e1247f5c;
  Dbl 0x2b2c29af2d593f1d44c5c1f0ce2485f0c0a75ebe738a7c0b8deb1f6ab7a533a378bae5d0495944bf2b0c0b7f73bf;
  Dbl 0x8c6becc8339793b1fb5fa706c4e46c975070b6fa8b85f2f2c292ade019c2e66267c7416fa9de50c44f3d36a89a0;
  Sub 0x1650f18b662a42b92fde7481896ea377abf2317c8b106e6aa7301383d1c693b45b8d077998c7df35b5f4bf8d5c5d 0x57ac5ab8a9d1ddf5be5d721ee281c7204cfc0bd001c18c4ba05d6f5ab7479b484ade9a12d8ef887534dde63914ae 0x560fb048f71030f22f84a393e20f520a205b65e2791bade8b49c0763264f2f3c9e8c34ccf35fbd7ed9e5a56c03f4;
  Dbl 0x392916ffc61f89dcf61deb24c8912e08dfb59dfecbb4b87c91ed3e24a4ed660a592b7292c22af93cef0236398e25;
  Add 0x32f9289583b10268bdf1e36426baa8c651fb9fb1754b1dfd388c8058f7873151601157fbb96199fa4bf46d20ef47 0x2fe84dfa1190de6848dbd4476ee9fae5d96c2456c02d70722994dee06bd2ab1e75da53de9d3b7cb3f0413b027659 0x5520897764e862f97aaf6086720fe3471ff2a65dc04007b81736c29b4d533a10b53697683d13b32c516ed5374ac1;
  Dbl 0x21dd7903dfca07d9626a2bfe5d4ce25a6377cf22f8b7c1356524259877d4eb5b44131eee858e7f30af16f7f08805;
  Add 0x68abda09ea43ecad0789fde17f9d6c5851812bd1979bdd473556b09df19c33042a1b5a28a9a8faa1dc88785a5de3 0x502fa4d20c53685e2204e5810a392164d61440d5b2819bd8babd039896e2af9bc236429be0796bacaa9c7775a29b 0x736c14144587f5fd951843619411b0230934d304fd431a28078972076a0799a230581eb383577ae8a6ef2c608ea4;
  Dbl 0x3aae711147f7e4b1df9e8cf0207d15ecc4257a4c512d783114f569c5c4acb2bc6971a104639a8b99b4848dc02ffc;
  Dbl 0x13c5f2953be067014bcbac9d9b7fc4ff2fc9145147fcf18b60d3e3904ef44a494be70abe61615d290362eb1e14f1;
  Dbl 0x5213e7209ef5fff5e7eaa4996cfd47e25863668b19892a2d39eb3d89daa0812d29afaa80b98915821de452dadafc;
  Dbl 0x6715bc30852ad93ed4a0d878e7ea6d7af16834c220b8046ef620c5d07aeef390469ff63ffb4728bdde941679db53;
  Dbl 0x2441026b44b001dfd70e0958ad830639e550b18a1836b1dc03cc702d5cc377a1e1ff8bf6a4f84bf8cc608e9660d0;
  Add 0x96a0764be508a26b4f9671e7e64e711f3e1f852ed737ce74200ee38f182ade1ac4fad3b3907a2e7b29cd4c417f4 0x588be87a4d770ba7240df636ea0b1e261f977e8c01b68e3156da2263cf4cedd94ab15333dc13d8a1699508338875 0x5aa92d07c8e5b2f7594798e03694705fba342a267f6af2faba9a5f37f7604c82ba9d905d60217a87761adc0b1dc0;
  Dbl 0x57a479031e17702b6b6a183955ff265e8c33db9df5482270396046b1a126cd8325f01653eb0d2927f80f05f2a8aa;
  Dbl 0x4f82f7a2551423aa58663f121b3cc279f41e5252716febfda1fff83421cd1ae96168f58f61d43c1da52297f80b29;
  Add 0x79ec19d9c25d0c7b63324b905157e3b363499783941166cfeecc5d63ef13acedee73e1816f0fa0a99e5010410840 0x2f382c83048a948e1ab230d0ab8950abf21f587090783f0f128ec06475d7947468fef119a5ba9e4cfb7781b53542 0x76697347b664b02a5b651fc30abefe778c3b11beca2d9bcad861adc13385dc49c39fc5deb95d049b682d4b1473fa;
  Dbl 0x16374d262f382e4821a53c565dcebbad27c5034a82bb3c7c0d84baea3182fef70537ee739a38474e949025493b03;
  Add 0x54591b23e5ddfffd43f88efbaec041b77a6b464e5ac2cf427f216f66babc46e5fa470859500317a19a9335a7f38d 0x2acc92d8d883d8c6fcbe922945409885e2ef0202a11bd9e5f1d2ad725a58e25cd95b4d16176c5f1afea0c05a5bab 0x23c453701bc390c0688bc8269f73d35af4a0e0be40ec02fbbd8bd8a7e523c2a581ff3fd9543897eb948a2189cff1;
  Dbl 0x6cc7e5f57de6e4d32d561ca0015fa3144fbf8daaac55c8bd56738466bcff1d47358c389adc2704aabf159abbece8;
  Dbl 0x6ff83786f1ca9bea915cc4fd4f3c7dcf669fd5b0a2205ddcd299a459286be798239dae3a267ea386546a8999f9aa;
  Dbl 0x680d4f3cc455ede3a129a54e6ceeb5f4140fb4039699083da9f097f5314f32815ca8528c09975f0ed412f8dc4b45;
  Sub 0x1c898ec11d7f11a2b9b707afcc472e7348235f18d0cced686f2ccfc992caa251537b37cbed54516e36ebd12fa1f5 0x58862d08451ee7cb268225098da73a3c3e5a253b2b6a065d2b7e5f8af2541d362e76e345a0986ea10ec33f283b47 0x26fc34148e5d7c9febad31ea9eae877cec73aa2b846e6d8a3fcc38b046dddf31b7c8d7c4526a98957fa2125ba6d9;
  Dbl 0x103dece11200c0e30d54b6c4cb16fa3038ca217b34b71048400865300f9a2906ce91c50044139fbde792a0c5ad48;
  Dbl 0x185c950128b8f02dd822564e49dc059caffc0c04eecc5c10984242cad0bca855018d99b1b1ff4b3b4eef9129d98f;
  Add 0x5966c3d4683d20c890f87da27b71412109f156c8d206a4825f635e7224cdc37dea1276043ceba0a4ebe8a9eac11 0x6e369af7b977a7fc965422c978565161bef5b026d59e575cbb9ba6857465341df765c2c7f0e76283e4863e57f791 0x1d00cb79212973977d587bb5804f908f547dcf2697e068adb5716bff1d9cf90f399f0497da00e80e7a5519ba091;
  Dbl 0x5ea615465c0ee39e0e2c865181daaa9de2512c9b35749509264d558855d6353ec294364ccfc37103b5738cb178e1;
  Dbl 0x67d492b90360d20f0c0a0b20fbf218f3898dc67efc57e89f67b2f957260e15fe2a54216a711ab490489ef2d732bf;
  Dbl 0x53fecf5d4a18c5d2a701f7ca9b5d5ad1f3da374ed37177bd3b223f8d6c0b68539ce5d2a1f55fdadacabab1648edf;
  Add 0x1a0638a516ee57f4eafee71e5034364a89b1679b3c140211ab0fcd6b8d1b5d4a9b8ce136afbaa868510ed6ade993 0x472b5a01a980e7d1cfbcfbde3bfb4ffb4efbeedf9ef11d983253ac62bc5b6f7b3ab991b5d37bdf25a6e05955e82a 0x2394dc5df1087b887ed06b41ec151cd4f6bfd2fb2a040cf3fb3a01c06e297f9ddb6a580ea675d3172020f7add87c;
  Dbl 0x5ba73a6c53ebafd60c3c5ec42a3f1882bb76e5d2e925fce1d1bbde529a698c2c70a0b0fdd1dd3d66ddac1ee365eb;
  Dbl 0x6b6418583c6ef87c623e7cf105fa825e9965ced237c2636efed4405fd943cc9bc619d2d54035c84a893e4ec03895;
  Add 0x4c75cc53792f46ac0741aafa1a91b80230485945958da6be6b4ec81fa6381b065155e63b8f3bdad1e0cb46a9c1d6 0x47b104f61fa7146bd44ebbe6af0a57dd47fd8e8a08db7d6fcd6e7cf90edf0da98a7b7a68809586997f5c389f3f2c 0x4c254be7bee4c25d9b8e765ef82709c20829025388e16a83487c3d4dee749b366a8e4ef4bafa3fa866da98dcc918;
  Dbl 0x3fd078329b70357dea3bd894a72922bd30884b99ca2aa9cc288557789cf111f5522e18e1978fed4aa2639e200428;
  Dbl 0x64ed0855088bbc95e77f4d9531e9b3c07a90b4abae8f320cdde18cb8eff1b3e47587b9b816159d4d9c529ec888f7;
  Dbl 0x3f10425a0af118ee7e1085239eb95a463ba1783ba561e7a39804fd404191e29857c813ff685975cb56cf839665d1;
  Dbl 0x1c87fb261576be0f0d33e37d61e076527d4b36f4f0b1cc17546184b24a38d0f56439f680ef67f118561213c5c225;
  Add 0x1528fe7de44e1c3adc2a49aeadccb8bb5cb582cc662795a8b7379702513fc6eb4f3e6f3f9f02b18ce7f28e60defa 0x55131df0f17df74ef5d1828a75d412fff63087b598153dae7a1787fda48709a7d0cc72106238227f740bfef39e69 0x35c6b662896e0784184d23e85eb59c8631ddbc6dd5d4ca0fe16854cfd57c865ee1adef35f1fffc0601c495c80e6c;
  Dbl 0x6af59f34530e8ce7995710eda89210cdbaec0888321c68c83d9df5e72ff85d95b20ad674e72c15f9a9f92ea3f87d;
  Add 0x673ff1e2012dea23571926babea9ce53b51b394009836a4e6ede4b343e8feb78c62a7a3d62cf992ebfdb55b03c28 0x7a94aba88762ed706b05db639d1e5b034dcdfb251fb5713bc77c7ddffdd71ab97ddb18e05d704ad8c0846c0e2b46 0x367322a8ddccc5bbdd5467e8d55a05125d213da7817b3a1287454a4bd2732bbd97d40d91ce5a7d8b451bebdc60ba;
  Dbl 0x531d4b988e8dbfc832edc5351411cbd679c13f24806b3892551ab05422849eddcdb69024c2d0addcbaba4a2ce80c;
  Dbl 0x6fe1a58a472df5b422bc33a9d55c26c48581af6886587ec4b4ee5d49739aedaa8b18ef3fb16ac7913f8af5f3909e;
  Add 0x1dc7a2279fbfff304029ac9cb11a45bcdfac712950e2a243aa7a803a9bb1106470e64391fb7650f32d7f3a7c443a 0x3d97fa255f6e0ff18634e4bbcacc0d3249cc64ed6e30ff19d3982c655cce85e38ef2f89ab782f0126ba9cf4c92dd 0x6839fbc162aecad98f1610dc8f542eddfe6657c506bd2e43c386d7c01b11ecba40be51062719c0114bfbc9a3949d;
  Dbl 0x4063a94480c7250791fa00df44614f2b7a422464be6e93b1a8b080d8b50ddb2453fd1c6bfafdf7811d6705671ce3;
  Dbl 0x6b86ca3b0705e633a9dc66d29f2229c9767f13fb2159fdc1b34c2f9a9c12a2b804cd1b9fa93c3a438335085e30ac;
  Dbl 0x6cdf9a911a9bc298c04171113b641c10c02b3143fa831e92bd69e87e5ffad823e70a42e3bad9b758a6e10598764b;
  Dbl 0x4734bfd232d75ed0dac4b407edffb6a3b9da6a7e620139db7595325a20aa4c5fc846cc3808894fa977598be32da0;
  Dbl 0x5b361808b1acd0b04e9936673d938d93f308e81d51e6edd4a8a55570525679ea2c17aa68df139f94235f0840d6a5;
  Sub 0xdc072965001641fceb003c81c89d51e8ca760880d32556d327de4d720f574005504559907e76d3030af31d90b74 0x272badcabe42b62a92be8917f5fcd39a1a076f47c24e258b0ac8205078035c90306be4d9c083e1f6432bafecb864 0x4cf4be8852611b970aea73affcd22f9e7af691dcbc0e3bd5d95521297b59381486329d8ea44b31892fc02887d446;
  Dbl 0x43d7b2b380ffa87e117e156c9c48934d2859ccaf07420ea4bc07326a7b719232eb487d24259639738eac7ed20018;
  Add 0x2b88daad00f6acf36eac58c5ba26746523f27eb79def71aea08a9defc300a650dce5a39c894c1d0866f11c6f09fc 0x34939d515dd503d0f56b1d004419530084661279ed707d875cdd4648b8a622c0d78ec60d45d01eba8f8031e797c1 0x7dde68fa17e2638387846d5d6e3e2f33aea2afc35ad1edddc4efa648d51f4b362c7f998d3154d5db3daaf443e8cb;
  Dbl 0xf333874c5763125cbdfdd68a4a521459107a8a3277cc1d47e51a5422444983bfc71cbbfeb04233c68866806e787;
  Dbl 0x1930552b0a45b48cb18dc9f607f073310454320ca56483ff939116c0bdfd6e1039f0af9a3cce3364e987ec05e8e;
  Add 0x1514b5b645ad63dbb456771c052c557b770ed1fd413a4fc0bf4ea37ac00b854477b1077bc97b14ca4f6266b66776 0x17a8f2c5139438640c697ba9fb24c2e893599cf1ac514a6dd3037dc216e4a3d762ef9bca61215dc162efc9fe7626 0x12af6066d3547c04a4d58203844e606b5520104232169f45657c20715dc3a75db90f2803d3eb75f6227cfb6125b6;
  Dbl 0x1005cd7decd13d45d4f26f2440a503442582b94f6e8d5d4c53e202d52690b1284b1c50a7f5daebbefb82ddc0cc5d;
  Add 0x6c17ac34db649ac87dbb01d8852228fb79ca1370074a91a749e261ca4214e883432e87b21e1bb311cc70a83650b6 0x61af0ec36981e9f79d6bb3f0b1a87b0e0876788030c333585f15539caaf3662c2aaf37fb9b03bb9b7a07b3cfd7a5 0x75941cf1da67166c33dee023654cc44f96f168bb8d4007c247ec3d5e8f78a9426424cbab30b466ed7ce31346cfd7;
  Dbl 0x4748e9ed834e5aeea3647c43a9c58eccddb2ed4c3934d1247cc7651938b7b317a28f921700070d27c7948d1cd711;
  Dbl 0x7f7788c7289f7a1d6fce025f732fbf966fe938b6ee343a4db3db7c23c2de96ef0bbc2eb0bb08f9022059eb9d36e8;
  Add 0x2ba953af1b40a50746a304c4fd53f4f34ef7208bde95cff3c2bc7f371ab96bbcbf37b45b10fe60fd82d6df470dd8 0x7c6969451196b6e1e60852e297b2334661b038be1ef1cdc9d4de19d8b6b83a6d58848e5376f1e8b73bf0a55d674f 0x19a2a278bc76126645c88f57b60d92b4946974c1467d2dca5c68f9afe8a503dafcc5ff3babef11295268790b83f9;
  Dbl 0x10d23acf05a1d62319c99f02e1276c4b84d8341d251a5a688f65119fd5dd81de7064d40ce44b4c1b511dc984b398;
  Sub 0x53c0e7b7e8217832271bc785a3f4956ffd0e0fb8f35122fee97c4e5f04a3a6fa4a2d80c988c0c68fbf3d86f8c3c9 0x5a63f9138e4670380ee51b25bfda645b8fced1434b098d5a3d3fb713c9dbebf4742fe5f7df194105461357a5f449 0x10bb4f0f50b8c544885821ecf594ffb9712ef1a8ce4d8efe99a5e901cfa1ae03790bfe91ab1b73fc8091b94eb75a;
  Dbl 0x1202087192269fdcde33ee83370ce8c16201021de8782b5666d01faa3f4cf8dca2b672d9aa6b77495516286822e4;
  Add 0xe93f372dc54c476e22cb9d32117f37d657e249c9938641b5e746b0d4ff8102c829211a5b6953d2bf47c3bde0c91 0x2063386569a3c6bf019732d63cbd9f7be1056b1b9ae318c848df66a31bc2dbe2361faf422dc347ce804dfa44e56b 0x283bba02ba85a528626a86ecd5d50a481299fe588705e6ce61009ef19d7b2fcf76c8cf15f6a6cb1ae7f8e72a6e27;
  Dbl 0x4be4d76f40d3d6ba3653d261fbbe3a262a54cdd26186509b453de8d64c4f7df6457f26fd3cf085f38f3bc858e9ff;
  Dbl 0x1b476a120e879a4417e779eef4bbf9325bcd5f78edb9836056ff7c2c94a7231328163f95284e1c043bb93b1e792e;
  Sub 0xb38f97eeaba01738d865ce9a9f58e5a34a2466b13573963265b847724007caa4ca6d6854b0a3e42bad19d7dcce1 0x19696a02c0dabb2645588f38bb5102184e79bf2827276e49e3b0ff22897d7fac551ab75c2274408e63f87f54c3e7 0x73c5ab58fc3e4a0be8b2f55153778d04f413591f84fad546e3906a7c9ff1a72cce0fff8790318850eb37ef92f6b1;
  Dbl 0xbaaf62ca9deb39054c1031c8a8255ab5147da8c96ed10bdad0551364a939ebb24b82b3ae960eee580bac02f4c15;
  Add 0x7f8c379b418609427f81c5826bccacc50e0a9e6b5145b20957d687e9a4846b8bde07ad5862046db35bd22eda2f1c 0x190d4fedc7bd4cb3f050db6a415266e62ad4014693521c1f1fd9e382704fc8db7095f70c54a09ce643dc3cf4b381 0x20f32a571674754bf0b1ce5328f819cebcbce113aa8fd44c93165e8dc93d5cec516aaf57d517e9a000371668aaf7;
  Dbl 0x1bcb6ce89841d285aab56d35bbc706d5efd1868e11b5dd61ac1b69213780f4758a4b05d2fa832d0af8552bd6f679;
  Dbl 0x730dec9c11b0d8318fe892074f3a3500f09b22a9ef5e19949e5e458249a2e2d97a0d93bfd8a9ac6bdd69f6d2076e;
  Dbl 0x14391fe65da52b75c2c5d13410602f12ebad739f528748cb831cc7b26988dfea73c09629117b1f0f5314e37d9633;
  Add 0xc3049431acafebe2a8ed28416a989e5a0fabcb26788ab93fe7354c6f35152420d0ab09ac4478cb2b86259b0a782 0x4553eba394495cfa31e01c7bf8b774999fb21d02843e8f2784fe59089eabaa2677cb9566a17bc3576d0cd0045d75 0x508d0c1f7da9e8af84581c46e0a95b6612d5d5fe9ff182738a68c7e021b440334021ba17fa6f8d75c85981ffe80;
  Dbl 0x58f5bf2a7e8b47ad33658e931cd575f837d2e971066a98c72748de4809d13afcd4a3d40c763505f54b8817b7c799;
  Dbl 0x1cbd963fb73e6b1a1abbab82424ed1482ae1ec2c5456c29499556638d9b0a6789c3aa1e3f6938f1da38b673456d1;
  Dbl 0x964d21847d576852a78a7058804d98dc505bcee0d6f102b6985523ca9fa9c4d8aa3a2450982a081af35bb376024;
  Dbl 0x4873cbb0a696cbc9933881a3e69fb7e19feb66e4a74bb0f09b70844d81d5b988f59d4b13fb38c446396b727ea4c1;
  Dbl 0x57c1effd6337d4d2e4d7b0e6e9b0da6b5ee927010611fa5ebfd92d4aa9d61cb0393e4cccf65a1edb3dbcd12e5d2;
  Dbl 0x467fc00125e8c48278258ecdcedda697b74830c03ff41ab498f75eff9c1510d7f1c1c97a488596077f6e86077c89;
  Add 0x76345689ecc79b104f4f1ae19cc662cb177a5d58200eb279ca02d864a48166f83f47cdaa1a907adcd90110d8d6df 0x75c14c0ade369bdd5ac50056ada8e835655b42ee91cb24b082e867929614d6ba6707081e56a08429d0a9c911dd52 0x50152790c8351050edfe96c4f81ffa54c45d6b09963dd9401a61163b27f8135e73010b4f8128145803f2130cab05;
  Dbl 0x3b4111754abd792bb8c43334ef60e2726f54634496f471c2f440954c70894d836a2bdff1ed131d0734eef5cab0e0;
  Dbl 0x57eb48fcb7539f3d10071c015836a302b0f6780709b75cfbfce8f1fc3eaee9bed2c4ae79be3cbfefda43e43daeca;
  Add 0x1b410101ac806c164bdde563aa1f7aa5410e4a19b00e82d3965222d7bdda0966a9f6d8584fde9125d0a071235841 0x743324615e8373560017dfa042e373031186842783596ebf03267c68a63e4f2364b5ba7f47aeda919ec2e6fd632 0x242db4e2afb894ddbdd668bd49c1dd1b512b318c0397db16e7072ff51567e0a81491fe39ea6606feb85b1dbb1d6f;
  Dbl 0x718284ca40defb4687df4b5bb1a022c40511a4808db6f7f78c27fad857e0127d5a6cf6cc2dad295f97bac4224ab1;
  Dbl 0x47aa10e43e0f3c3206b67706cd2fa0642bb81581787a43397584b6139491b023ca3d7b12c86a2c37fa8cc3da3e47;
  Dbl 0x2b743c151236e2e44b55691191a653be966bf5a49651e2ec8247fe34953ca4cf3d77cd4b6a7e8ef549f3c25b1a1e;
  Add 0x3bff2075fdccbd820588870fabf49135af8c82dbcd4af779f972d7d55457adeb4982371d61a8885a6a8e344b6689 0x70849446e3a4d73a10093c199628d06892112682a7a982bdd4287ebe2d02eb84a499a9ed7c0e7c456940b7aa2f8b 0x2ce52406c0d2ef667b6186869abb768d4fd533d1864a18cb019494b319a1da7ffcaf9191559acf5816dcd8cb2785;
  Dbl 0xf60c42bca1e6877e670e8c5172b79b3b470eab52be5927b218a286588d2f42e112e967a290d49ca3cb2ee970bc6;
  Dbl 0x66d9702e7fcb3c8e73c062ce72f542c9b371b0594c2797a19a2e5e5876880bd64760e26cb16f1a15b2ba7fc840c9;
  Add 0x26dba5d0fd33ec21c69f83768e1daecb805a0e5f489188b96264e4f34c036a1a22253298d162bd8d2cc9c7e7bba4 0x3e4139eda43cfe7f41c23603bdb3045fab4538d5114e6b7c8fdb77e56f7a1bfdf8eeaf9d4103445a0c29d4397e11 0x5be5e67cf2220fd9b7527288d4ccd0630216f7841033772a8196896a4df787d4a2e78d07fa48a6de49d6173144b0;
  Dbl 0x3133e734fc01b86e172de330b5733b0ae45c213df9efd50cbade327b1622db7945ff1bf42f32ede7ead30231663a;
  Dbl 0x3546556108f66608b9ba81af8a5bd16e98e9339b071f94a569ad47691abe8c93003c1dfb130b982cf0df4c594a51;
  Add 0x2169364fb728704b88e112349996e06777d63778685d9ea9fe5a003340f8e5d2a7c5859a77d571967b1daf853e7f 0x9928adbc00f4ded058182df0de3071be96cf8e50900151f5b2e6ae04f57bc0e334cfc210d59c0a93a6d00d42e5c 0x76b112c16caa915893e85747e7aec4e4173832f9202967aa9016f106186b7477e9914a5248023af108a97f917bdc;
  Dbl 0x5dc91ab56e22e6a3e5cb0c0573992a12b3b70498464916791939bc2bda8de77e99634e92dc09da363b8b868f0abc;
  Sub 0x5cc32452bd703240aac4da9da08277b6c50f2e3e3c4e952c07054ebde57cc2a1034eb398617c6382a7c19cff35fe 0x35783d6da043f123b2bd2e39e822af0129ffc548c113017ad75c3eee0ed18b1ef76c8613bfc02b39b7ba1a580b05 0x2fe99d4723a5804289c44f49e9623ec455a1eb5de1d55ac8de1f79e41023c681dcba2c2d678e94d8d3a001fe2661;
  Dbl 0x10e664e3b243f1df8a849f1e1ad4d6c3d2cb3036e5935b0f3349f027719db33ae37d89ee45bb074c40740d519658;
  Dbl 0x2de4a22c4a11db2896ce4d3b6288062d5d4b12ecd4c4c4d42a020fc265cb83d204dc9d223bbfc8f2e801b48dc71e;
  Dbl 0x6b6480c9bc7d871638320a39d5683de55041914637928c7f2b1deb5bf0ce6e3ad3c88773d46f9bf3440236224043;
  Dbl 0x1dafb2abf9f9bc7401f75bbe98ac8e67c5987756fcbd7e2813ea644e8acba3b53466c71cef3cde4c069e3c5d4add;
  Sub 0x74f7030d0dcda27deef620561e179d14da6dec9d63ae834b8afe4889a1cc770a05efcb1b9515a964e5a4ecc2462a 0x877eca068256965ece0d49d1988ebe0cb24e3e4ec17f488a8f13e7dc41c576508ab3f4ab0dadd7102327088cb0e 0x1992ffe597876a42c62d74479f659591d961c92ce754dcc8bca75559d1e21e455e51d7699fe6b14d52ba117a9448;
  Dbl 0x264956ab78e19e29adf0b24c9a58e1ee095d9412f74a397875ac065c3bd485ed9c5b1de0d08ba4a06669b793324c;
  Dbl 0x1543bdd00e08a79d516bb129051f538f27e68d22e66d4fe9cc5406ce6959e8c42032f39802bcd19b759ba7d0a413;
  Dbl 0x72eecaf87c03f8d5d20b272e642175a5104c59520d80842b3bb86f0652ccb4337b7f4b3b24a8c8d53a7f4d78e731;
  Sub 0x3ada7843cd55102364212560a5eb9854cb50db2e869e25266408b6dcb01d4614b2b91d54d582675824d06c2a09cb 0x46351a8ea58c639fceac4306909bbc5dd32e79b5ecec9451f2bed3ab2ee7b9cfb027b7c9f8919ab59aad338989a1 0x7c599d327d9d8117fbf3100fec21439cc63c049da8f5abf95eb24a6095be96131bc8947b50de856b551483666b53;
  Dbl 0x486078c3b5576bcf9190de2f7f35308d9508df8e6311b9cb764b1ba11920f22c3d235efa4f2977fdd79d4513ebd0;
  Add 0x3d0957010337bada95633d21817d45d07c560a148759938ca6716cc064fc734dbc8c5f234dff83be7512bf8fcef9 0x451c23ea5eb96265665b9e39af3c9c3b0f9874da68aa084f52a9c3161eb38855dfe8a072b5d97e9aeaea023eb313 0x1335f398b52985ebb807c55954a5e7385be18809951945279fe571c9903aacfa8e60b7820534192885921a05930d;
  Dbl 0x70f453d50614e87c65f5281312e9c31cadd336ff1359eab644eb0e6f8da6c3576c00c00e31a44cf3a4f6b16a4399;
  Dbl 0x2a818ac626eef14eb539db0094a64f6dd0bea1267c5cac46a50a17c953e0ed918a1efb013f922ea3aeb6509e56af;
  Dbl 0x2e5f180235e78ef405f75f319c4321a3c3f92c1b5a763da44243c3e905427a9fdada98d1149c5fb1296b188e2f9d;
  Add 0x390343e85363a396d84db9decabdee36ffb5e41a3750d213da96ff95478ba187b37ac54ed1d1ad157fbdc2b35325 0x2282185af4357e10a0ed62773baf8193e17a82e2fd63441c40b502413a6d1c66fb4da767c04b279a674fb8e52c26 0x3183c46681ebd8d09268f563fa4aad8f32c81322d253df5312956cc51d4143eac558abb716c396eb7da307ab039b;
  Dbl 0x47f6a0bc421f462f622963df45fdcde44e8da0dedd6a04162cc0e67882c835edfffa2939d1f25dd1292c8dbb245b;
  Dbl 0xd42a08f4c6b08d405851e68560320ed49b0e1a852eab2c4e95fc54fbfd8dd2fbcb50fbbd33bea14a53e5a66390;
  Dbl 0x13a24c7428f10e77ba4f1853b124a45b4547c627ce70a8145d34b944307a31c0259d6f1b38550e5d321cea1c587;
  Dbl 0xccaf7ddd07cc518cab19e51896f31c437099cd8ca08fa2833a69856c1f719c1ec8f08d095c2c0ffc2ce20318a1b;
  Dbl 0x4456513dfe1e8cf0d5422e947f0c1fed51f471f9f03cd8b5c820442c4f3b7c5c9aec9c6855b8fe2bacacade01ee;
  Dbl 0xa37aaf9617b745686bde2298f8b9a6927c73db77c8f790235c22a44760c8918230dc35f772f544a6bd754304df5;
  Dbl 0x1ae1090ad562109986057475b476f7a4ef86bcddb7833b96df26f47f4dfbdac304addcf6fe5e78ac5471f458db77;
  Add 0x3ff2c7631f1738ebe8cf0ccaaad9f7622bbc667b9ad00a6e14fa9e06c3f962f3dfbcc3242aaf30f27c53a4671a0a 0x23fe66f16c39aa0348355528127ee97cfdad65b3d6f912a74d34f8d997d35484c3985be2ce6d19e324a0fc3f6be1 0x5677b1a624b0dbc221ff6c6b734c8e23832fc3edd4e44d4c4e3fe4c9ad4f7eff4a39214df6b6950cb1eb35215110;
  Dbl 0x5d54a08a6f026b4fa3229d682eb59a599c8387cd066e38021557f21fa3d592e2eb1de2f3d1cc70141d44d9640af9;
  Dbl 0x6b1ec9d1f2bc86ce50c3ef3aeabd669ca11b5ea469434e827d1bfb1b0eda84078a7f2e17d2e955d749c3096239da;
  Add 0x4edc0a611140953e4db8deca2923340a0107ae8d0fd5117ee2744e93eeb20e83abf34658fdd0b14bb5706abbad17 0x3a6e09a8aaf26d1eb9cc02b3f410dc075fae716e8d219580b3dbb4495a0f4fb8b8f50ad072e934a12842caa82b68 0x6c041c9a9664143c9e735d4cea9524f1d9b8efc02b024b211059cdba9ae93611834372f38c870272fe172ee2d2e;
  Dbl 0x6bc17516acd57cc99a0e8dde41b9d534f71442400bb3606d560f8393e054a898f042038b3e9d92168001eb5d5171;
  Add 0x1c99e9129ce376c1867645996559fcc824fe9f4492572bee854870f2f2052f7f1d960f44e428a23695a09c59b1b6 0x591d00f522d7e670d082a1a1501c9438123296458a2361c39316868c0a12e57bd53def4471e103ba6c1b8436e8a3 0x4278a5c881e256e32c548f9cd3d6dd706b2b4cfe0cd158ce0c4e4d1db63c709a7af0fe9e6abdd682a94f101cdb42;
  Dbl 0x75eef5420b7d9282b2c612aab7cd276e47c3bb17984e5de0e8612325160059b4b6bec525831078cb84bf458b8bb8;
  Dbl 0x7f005879d4bec1d397be0d14d84903ca63e2eec545a9b061d158c104517acda2c3b3fbdc7678304b34807e44a533;
  Sub 0x6ae7b34827c82ff8a0a388816906faf7975f893b4a27f0ce45e108f0594b5be8246c6c189df1663ca00a54cd7764 0x225e1fa23c3c9b90edca833f6a14ea8bd8809e1a8cedde288136492a5fee768c458f5169727799d0b466b9fea4ac 0x289ef5cc159239efcbc46e9023344e9b0f4e5da5069e8599100f09a1ce783d057cf77337f89f018a086700ca2c01;
  Dbl 0x35ad4d7e7c38cc6ffb5d5c2e67d741bc6b1885a9b0ff2931715f437ccf3b94bfe035998c4390946f5270d7d737c1;
  Sub 0x644cf8c2b678e340039cf1fb6cbcda50fb0d41a1e401ccdb50bd7a29210600a4952422906365d580d6af3649253c 0x79a931b785f1b625743a157726a7f9982abf3b32106e0f7a9e7a5e383c3a523ad44920540a3ad060e130d2052bb1 0x315f49c53db209523f88a4fdc752fb8d303e484e7c9207836850cec0b4c7113be9b3a7ed625e40bae5163bb73e40;
  Dbl 0x664898a691d7a8ad63667135988fdfe79a4a9eb917614fd996c60d975d583648a8a3e0bb28ceb6c39c1c9b3c9980;
  Add 0x2f937ae045a7654f0320ad314502cbc8e77f35a783a8034fd02795df9271e34958f44a4ec3ce1bf587bdde4bda8c 0x4521362b67911e2f5cf90750185c2cb7d86aee5ad1fa3cc6c28c65bbfc4fb1c75c3d9bc5a9d35eb5d0425029645c 0x35625f99714d3117563c86476eea183c987fd3908632a6db173b775cac1c8a69d899c1cadc32fa5c84b7c1974d61;
  Dbl 0x57a6528b8a183c6bd71886f267969b8a2e9ae0b7a43e8db693edbe4ad37dc4192ba48f943a9eefd194fe64f688ea;
  Sub 0x5968cf69a03e19a6d92a2d302449301e787c8fc523111e9ab9b3f6f531d49c6a91f7851a3c2f0f1245e108cb9374 0x73567394ee764f89959db07a7935a05cfbdbadf9bcaf4bd3ad4995c33f124d4368334a022d19f22d76dd7477ef70 0x74cc9b2f8e4bce3ba40cda1c6c8df0f1af7cccc55e0dfba06f5384f1ec742515642fa4a64d5531dbdd51414eb6fe;
  Dbl 0x46251b0922576728808782cbd4e091dc50b9406942ca4d64a5695bf9f10c37fd07b505b34051ee1b43a6fc692d0b;
  Sub 0x7201d15de9e7b1df949f67ff36768d2d82c46025955f0cb546f9051559765429019556038f6c927f7aca96bcfad 0x2d2a3b97192bda0fc1492d5da9bcfdba1e8779103150c1d2db92b4a62f5f688611a1c2a6c976174f9a4a669a0686 0x7ed9f53b113e22a54c0a7ac4fcaa82068a526c319cc97576d3ea89543763c65aef322d9f57965f345b5495df6339;
  Dbl 0x2271e7ef6211f73f47361e73395df3ed7eb90a61967d3c79dcea20f2e5b57914658a316f0d8e3d0f3e1788a9953e;
  Add 0x6140b482c0b04011a441e2405d272e2520ce4cadd3f95f3e8f14dcdacb43129cb58052cf689f40f222c768f696a3 0x400718d7486c0957ed445d46e59366d712ac09e751d49bc3d49f95d47d471168586dafd65161645216089ccc0e6f 0x53a1ace2c639d54229ff131d42a436d7344ddd90dcf4177dd3ad398acba90bc639892af40c72a78f067beb9cc125;
  Dbl 0x7ee34965bb1e5c69687c5adf31c48861fb6e9ec1c1a73a34277e3f7dc484bc3d3384fb14e647661e0276ff605fc0;
  Add 0x4acb9742c749a96b4943e141dd9af260fab0def3745abfbdc84d7169c967cc2e10461fdf6ae2396c5de8c062ce6c 0x78234b94d6480cd7a0504ef063e9e6c244eac80dee2d42f845f8ff7b9c81db46067c3c52e38742019a11034707db 0x333361822b529d74881b6c42e1e808fb7fac3fd4e4637450c5f63ff47d520c6f06b15f997b97afd993a403aae6da;
  Dbl 0x3ed72759cb1eb8aab090870d89c4b2b5ffa558ae6c1e432ba035f1c3ef3d435e540932726276d1bfd2848f56b253;
  Dbl 0xc2a397b46eeee5eeca9920b4eaf510ca71e68df84c10941f86d3b67821f5b0e878fb02cbaaa822a597f43e942ab;
  Add 0xc1e89714733b205c882f65879c0ae3ebfabf82647e0ef8c119f595394acb286609f7d69c0407341c1f84aa1ccdc 0x3e7555f5a882b30a253818389862338e562cd1b97ad2a0a01267a36ec44f098592c34ff60e89a66b98633b311e57 0x2fe2663e59ad699db1982874bd0a5cd3fa1f8275c38fe2125fec8998377ed40d5cc1e5d3bd37a7e14dbe93f810b3;
  Dbl 0x602a1aef8ec635c073428e12dd361175ed40d115a908ce879ff0ab097295e5654fe442333b886184e1641ef7192a;
  Dbl 0x1;
  Dbl 0x7861efa1449483af1b503b9b1f11fcebb2999d82bbe789c973d5440d8715c00f65960dffe3474d51bf4cd317012].
Lemma bad_order367 : order_check 367 0x200001 1 92 (ofN 0x400002) 1 0x7861efa1449483af1b503b9b1f11fcebb2999d82bbe789c973d5440d8715c00f65960dffe3474d51bf4cd317012 0x7861efa1449483af1b503b9b1f11fcebb2999d82bbe789c973d5440d8715c00f65960dffe3474d51bf4cd317013 bad_cert367 0x40000000000000000000000000000000000000000000009c300b75a3fa824f22428fd28ce8812245ef44049b2d49 = true.
Proof. vm_compute. reflexivity. Qed.
