(** Generated: the ten groups built from the tables; each is well-formed. *)
From Coq Require Import Lia ZArith.
From Verif Require Import Base Lib Model_Gf2m Model_Compress Model_Ec Model_Curves Spec_Gf2m Spec_Compress Spec_Curves.
From Verif Require Import Proof_Gf2 Proof_Hex Proof_Order Proof_Cert1 Proof_Cert2 Proof_Cert3 Proof_Cert4 Proof_Curves.

Definition g163 : group := GROUP (CURVE 0x800000000000000000000000000000000000000c9 1 0x5ff6108462a2dc8210ab403925e638a19c1455d21) (Some (0x2e2f85f5dd74ce983a5c4237229daf8a3f35823be, 0x3826f008a8c51d7b95284d9d03ff0e00ce2cd723a)) 0x400000000000000000002bec12be2262d39bcf14d 1.
Lemma named163 : group_from_named_curve 0 = Some g163.
Proof. vm_compute. reflexivity. Qed.
Lemma check163 : curve_check 163 0xc9 41 (ofN 0x192) 1 0x5ff6108462a2dc8210ab403925e638a19c1455d21 0x2e2f85f5dd74ce983a5c4237229daf8a3f35823be 0x3826f008a8c51d7b95284d9d03ff0e00ce2cd723a = true.
Proof. vm_compute. reflexivity. Qed.
Lemma good163 : well_formed g163.
Proof.
  assert (E : 0x800000000000000000000000000000000000000c9 = N.shiftl 1 163 ⊕ 0xc9) by (vm_compute; reflexivity). unfold g163. rewrite E.
  apply (curve_check_ok 163 0xc9 41 (ofN 0x192) 1 0x5ff6108462a2dc8210ab403925e638a19c1455d21 0x2e2f85f5dd74ce983a5c4237229daf8a3f35823be 0x3826f008a8c51d7b95284d9d03ff0e00ce2cd723a 0x52001be4d9acb14c0b6527f699ea455d82168f6d2 cert163); [exact check163|exact order163|vm_compute; reflexivity|vm_compute; reflexivity].
Qed.
Definition g167 : group := GROUP (CURVE 0x800000000000000000000000000000000000000041 1 0x6ee3ceeb230811759f20518a0930f1a4315a827dac) (Some (0x7a1f6653786a68192803910a3d30b2a2018b21cd54, 0x5f49eb26781c0ec6b8909156d98ed435e45fd59918)) 0x3fffffffffffffffffffffb12ebcc7d7f29ff7701f 1.
Lemma named167 : group_from_named_curve 1 = Some g167.
Proof. vm_compute. reflexivity. Qed.
Lemma check167 : curve_check 167 0x41 42 (ofN 0x82) 1 0x6ee3ceeb230811759f20518a0930f1a4315a827dac 0x7a1f6653786a68192803910a3d30b2a2018b21cd54 0x5f49eb26781c0ec6b8909156d98ed435e45fd59918 = true.
Proof. vm_compute. reflexivity. Qed.
Lemma good167 : well_formed g167.
Proof.
  assert (E : 0x800000000000000000000000000000000000000041 = N.shiftl 1 167 ⊕ 0x41) by (vm_compute; reflexivity). unfold g167. rewrite E.
  apply (curve_check_ok 167 0x41 42 (ofN 0x82) 1 0x6ee3ceeb230811759f20518a0930f1a4315a827dac 0x7a1f6653786a68192803910a3d30b2a2018b21cd54 0x5f49eb26781c0ec6b8909156d98ed435e45fd59918 0x4f6b7392bb76849a3c76e4a29b2dae1bbd3881d092 cert167); [exact check167|exact order167|vm_compute; reflexivity|vm_compute; reflexivity].
Qed.
Definition g173 : group := GROUP (CURVE 0x20000000000000000000000000000000000000000407 0 0x108576c80499db2fc16eddf6853bbb278f6b6fb437d9) (Some (0x4d41a619bcc6eadf0448fa22fad567a9181d37389ca, 0x10b51cc12849b234c75e6dd2028bf7ff5c1ce0d991a1)) 0x800000000000000000000189b4e67606e3825bb2831 1.
Lemma named173 : group_from_named_curve 2 = Some g173.
Proof. vm_compute. reflexivity. Qed.
Lemma check173 : curve_check 173 0x407 44 (ofN 0x2038) 0 0x108576c80499db2fc16eddf6853bbb278f6b6fb437d9 0x4d41a619bcc6eadf0448fa22fad567a9181d37389ca 0x10b51cc12849b234c75e6dd2028bf7ff5c1ce0d991a1 = true.
Proof. vm_compute. reflexivity. Qed.
Lemma good173 : well_formed g173.
Proof.
  assert (E : 0x20000000000000000000000000000000000000000407 = N.shiftl 1 173 ⊕ 0x407) by (vm_compute; reflexivity). unfold g173. rewrite E.
  apply (curve_check_ok 173 0x407 44 (ofN 0x2038) 0 0x108576c80499db2fc16eddf6853bbb278f6b6fb437d9 0x4d41a619bcc6eadf0448fa22fad567a9181d37389ca 0x10b51cc12849b234c75e6dd2028bf7ff5c1ce0d991a1 0x936bc7aadad09adf0d1b517fca72c09af6c39ebd151 cert173); [exact check173|exact order173|vm_compute; reflexivity|vm_compute; reflexivity].
Qed.
Definition g179 : group := GROUP (CURVE 0x800000000000000000000000000000000000000000017 1 0x4a6e0856526436f2f88dd07a341e32d04184572beb710) (Some (0x6ba06fe51464b2bd26dc57f48819ba9954667022c7d03, 0x25fbc363582dcec065080ca8287aaff09788a66dc3a9e)) 0x3ffffffffffffffffffffffb981960435fe5ab64236ef 1.
Lemma named179 : group_from_named_curve 3 = Some g179.
Proof. vm_compute. reflexivity. Qed.
Lemma check179 : curve_check 179 0x17 45 (ofN 0x2e) 1 0x4a6e0856526436f2f88dd07a341e32d04184572beb710 0x6ba06fe51464b2bd26dc57f48819ba9954667022c7d03 0x25fbc363582dcec065080ca8287aaff09788a66dc3a9e = true.
Proof. vm_compute. reflexivity. Qed.
Lemma good179 : well_formed g179.
Proof.
  assert (E : 0x800000000000000000000000000000000000000000017 = N.shiftl 1 179 ⊕ 0x17) by (vm_compute; reflexivity). unfold g179. rewrite E.
  apply (curve_check_ok 179 0x17 45 (ofN 0x2e) 1 0x4a6e0856526436f2f88dd07a341e32d04184572beb710 0x6ba06fe51464b2bd26dc57f48819ba9954667022c7d03 0x25fbc363582dcec065080ca8287aaff09788a66dc3a9e 0x2ab17105c8f23868d05becc8bda4cc8bbe85d3cafac1d cert179); [exact check179|exact order179|vm_compute; reflexivity|vm_compute; reflexivity].
Qed.
Definition g191 : group := GROUP (CURVE 0x800000000000000000000000000000000000000000000201 1 0x7bc86e2102902ec4d5890e8b6b4981ff27e0482750fefc03) (Some (0x714114b762f2ff4a7912a6d2ac58b9b5c2fcfe76daeb7129, 0x29c41e568b77c617efe5902f11db96fa9613cd8d03db08da)) 0x40000000000000000000000069a779cac1dabc6788f7474f 1.
Lemma named191 : group_from_named_curve 4 = Some g191.
Proof. vm_compute. reflexivity. Qed.
Lemma check191 : curve_check 191 0x201 48 (ofN 0x402) 1 0x7bc86e2102902ec4d5890e8b6b4981ff27e0482750fefc03 0x714114b762f2ff4a7912a6d2ac58b9b5c2fcfe76daeb7129 0x29c41e568b77c617efe5902f11db96fa9613cd8d03db08da = true.
Proof. vm_compute. reflexivity. Qed.
Lemma good191 : well_formed g191.
Proof.
  assert (E : 0x800000000000000000000000000000000000000000000201 = N.shiftl 1 191 ⊕ 0x201) by (vm_compute; reflexivity). unfold g191. rewrite E.
  apply (curve_check_ok 191 0x201 48 (ofN 0x402) 1 0x7bc86e2102902ec4d5890e8b6b4981ff27e0482750fefc03 0x714114b762f2ff4a7912a6d2ac58b9b5c2fcfe76daeb7129 0x29c41e568b77c617efe5902f11db96fa9613cd8d03db08da 0x1124d5752aa2367b6311c43a46f5f9728fa417041814f36b cert191); [exact check191|exact order191|vm_compute; reflexivity|vm_compute; reflexivity].
Qed.
Definition g233 : group := GROUP (CURVE 0x20000000000000000000000000000000000000000000000000000000213 1 0x6973b15095675534c7cf7e64a21bd54ef5dd3b8a0326aa936ece454d2c) (Some (0x3fcda526b6cdf83ba1118df35b3c31761d3545f32728d003eeb25efe96, 0x9ca8b57a934c54deeda9e54a7bbad95e3b2e91c54d32be0b9df96d8d35)) 0x1000000000000000000000000000013e974e72f8a6922031d2603cfe0d7 1.
Lemma named233 : group_from_named_curve 5 = Some g233.
Proof. vm_compute. reflexivity. Qed.
Lemma check233 : curve_check 233 0x213 59 (ofN 0x1098) 1 0x6973b15095675534c7cf7e64a21bd54ef5dd3b8a0326aa936ece454d2c 0x3fcda526b6cdf83ba1118df35b3c31761d3545f32728d003eeb25efe96 0x9ca8b57a934c54deeda9e54a7bbad95e3b2e91c54d32be0b9df96d8d35 = true.
Proof. vm_compute. reflexivity. Qed.
Lemma good233 : well_formed g233.
Proof.
  assert (E : 0x20000000000000000000000000000000000000000000000000000000213 = N.shiftl 1 233 ⊕ 0x213) by (vm_compute; reflexivity). unfold g233. rewrite E.
  apply (curve_check_ok 233 0x213 59 (ofN 0x1098) 1 0x6973b15095675534c7cf7e64a21bd54ef5dd3b8a0326aa936ece454d2c 0x3fcda526b6cdf83ba1118df35b3c31761d3545f32728d003eeb25efe96 0x9ca8b57a934c54deeda9e54a7bbad95e3b2e91c54d32be0b9df96d8d35 0x1af3d3cc802587ad6a841279ea2b6e47637ec336c78438b6aae196cd1ae cert233); [exact check233|exact order233|vm_compute; reflexivity|vm_compute; reflexivity].
Qed.
Definition g257 : group := GROUP (CURVE 0x20000000000000000000000000000000000000000000000000000000000001001 0 0x1cef494720115657e18f938d7a7942394ff9425c1458c57861f9eea6adbe3be10) (Some (0x2a29ef207d0e9b6c55cd260b306c7e007ac491ca1b10c62334a9e8dcd8d20fb7, 0x10686d41ff744d4449fccf6d8eea03102e6812c93a9d60b978b702cf156d814ef)) 0x800000000000000000000000000000006759213af182e987d3e17714907d470d 1.
Lemma named257 : group_from_named_curve 6 = Some g257.
Proof. vm_compute. reflexivity. Qed.
Lemma check257 : curve_check 257 0x1001 65 (ofN 0x8008) 0 0x1cef494720115657e18f938d7a7942394ff9425c1458c57861f9eea6adbe3be10 0x2a29ef207d0e9b6c55cd260b306c7e007ac491ca1b10c62334a9e8dcd8d20fb7 0x10686d41ff744d4449fccf6d8eea03102e6812c93a9d60b978b702cf156d814ef = true.
Proof. vm_compute. reflexivity. Qed.
Lemma good257 : well_formed g257.
Proof.
  assert (E : 0x20000000000000000000000000000000000000000000000000000000000001001 = N.shiftl 1 257 ⊕ 0x1001) by (vm_compute; reflexivity). unfold g257. rewrite E.
  apply (curve_check_ok 257 0x1001 65 (ofN 0x8008) 0 0x1cef494720115657e18f938d7a7942394ff9425c1458c57861f9eea6adbe3be10 0x2a29ef207d0e9b6c55cd260b306c7e007ac491ca1b10c62334a9e8dcd8d20fb7 0x10686d41ff744d4449fccf6d8eea03102e6812c93a9d60b978b702cf156d814ef 0x391519a26f47010d9094f8d881c5bd730792d0f17eb3b7598a4ac5ce253e558e cert257); [exact check257|exact order257|vm_compute; reflexivity|vm_compute; reflexivity].
Qed.
Definition g307 : group := GROUP (CURVE 0x80000000000000000000000000000000000000000000000000000000000000000000000000115 1 0x393c7f7d53666b5054b5e6c6d3de94f4296c0c599e2e2e241050df18b6090bdc90186904968bb) (Some (0x216ee8b189d291a0224984c1e92f1d16bf75ccd825a087a239b276d3167743c52c02d6e7232aa, 0x5d9306bacd22b7faeb09d2e049c6e2866c5d1677762a8f2f2dc9a11c7f7be8340ab2237c7f2a0)) 0x3ffffffffffffffffffffffffffffffffffffffc079c2f3825da70d390fbba588d4604022b7b7 1.
Lemma named307 : group_from_named_curve 7 = Some g307.
Proof. vm_compute. reflexivity. Qed.
Lemma check307 : curve_check 307 0x115 77 (ofN 0x22a) 1 0x393c7f7d53666b5054b5e6c6d3de94f4296c0c599e2e2e241050df18b6090bdc90186904968bb 0x216ee8b189d291a0224984c1e92f1d16bf75ccd825a087a239b276d3167743c52c02d6e7232aa 0x5d9306bacd22b7faeb09d2e049c6e2866c5d1677762a8f2f2dc9a11c7f7be8340ab2237c7f2a0 = true.
Proof. vm_compute. reflexivity. Qed.
Lemma good307 : well_formed g307.
Proof.
  assert (E : 0x80000000000000000000000000000000000000000000000000000000000000000000000000115 = N.shiftl 1 307 ⊕ 0x115) by (vm_compute; reflexivity). unfold g307. rewrite E.
  apply (curve_check_ok 307 0x115 77 (ofN 0x22a) 1 0x393c7f7d53666b5054b5e6c6d3de94f4296c0c599e2e2e241050df18b6090bdc90186904968bb 0x216ee8b189d291a0224984c1e92f1d16bf75ccd825a087a239b276d3167743c52c02d6e7232aa 0x5d9306bacd22b7faeb09d2e049c6e2866c5d1677762a8f2f2dc9a11c7f7be8340ab2237c7f2a0 0x56bc15f24f6f32d3b27554865347dbe575af0acb866fc79c0a54c0764e03525dce1b4ea7a706e cert307); [exact check307|exact order307|vm_compute; reflexivity|vm_compute; reflexivity].
Qed.
Definition g367 : group := GROUP (CURVE 0x80000000000000000000000000000000000000000000000000000000000000000000000000000000000000200001 1 0x43fc8ad242b0b7a6f3d1627ad5654447556b47bf6aa4a64b0c2afe42cadab8f93d92394c79a79755437b56995136) (Some (0x324a6eddd512f08c49a99ae0d3f961197a76413e7be81a400ca681e09639b5fe12e59a109f78bf4a373541b3b9a1, 0x1ab597a5b4477f59e39539007c7f977d1a567b92b043a49c6b61984c3fe3481aaf454cd41ba1f051626442b3c10)) 0x40000000000000000000000000000000000000000000009c300b75a3fa824f22428fd28ce8812245ef44049b2d49 1.
Lemma named367 : group_from_named_curve 8 = Some g367.
Proof. vm_compute. reflexivity. Qed.
Lemma check367 : curve_check 367 0x200001 92 (ofN 0x400002) 1 0x43fc8ad242b0b7a6f3d1627ad5654447556b47bf6aa4a64b0c2afe42cadab8f93d92394c79a79755437b56995136 0x324a6eddd512f08c49a99ae0d3f961197a76413e7be81a400ca681e09639b5fe12e59a109f78bf4a373541b3b9a1 0x1ab597a5b4477f59e39539007c7f977d1a567b92b043a49c6b61984c3fe3481aaf454cd41ba1f051626442b3c10 = true.
Proof. vm_compute. reflexivity. Qed.
Lemma good367 : well_formed g367.
Proof.
  assert (E : 0x80000000000000000000000000000000000000000000000000000000000000000000000000000000000000200001 = N.shiftl 1 367 ⊕ 0x200001) by (vm_compute; reflexivity). unfold g367. rewrite E.
  apply (curve_check_ok 367 0x200001 92 (ofN 0x400002) 1 0x43fc8ad242b0b7a6f3d1627ad5654447556b47bf6aa4a64b0c2afe42cadab8f93d92394c79a79755437b56995136 0x324a6eddd512f08c49a99ae0d3f961197a76413e7be81a400ca681e09639b5fe12e59a109f78bf4a373541b3b9a1 0x1ab597a5b4477f59e39539007c7f977d1a567b92b043a49c6b61984c3fe3481aaf454cd41ba1f051626442b3c10 0x7703ba71e24bd4b1f037faff7ce68c7dda30892074c247b458ce0479b14003ef22f88941febba0033e585d60c8b cert367); [exact check367|exact order367|vm_compute; reflexivity|vm_compute; reflexivity].
Qed.
Definition g431 : group := GROUP (CURVE 0x80000000000000000000000000000000000000000000000000000000000000000000000000000000000000000000000000000000002b 1 0x3ce10490f6a708fc26dfe8c3d27c4f94e690134d5bff988d8d28aaeaede975936c66bac536b18ae2dc312ca493117daa469c640caf3) (Some (0x1a62ba79d98133a16bbae7ed9a8e03c32e0824d57aef72f88986874e5aae49c27bed49a2a95058068426c2171e99fd3b43c5947c857d, 0x70b5e1e14031c1f70bbefe96bdde66f451754b4ca5f48da241f331aa396b8d1839a855c1769b1ea14ba53308b5e2723724e090e02db9)) 0x3fffffffffffffffffffffffffffffffffffffffffffffffffffffba3175458009a8c0a724f02f81aa8a1fcbaf80d90c7a95110504cf 1.
Lemma named431 : group_from_named_curve 9 = Some g431.
Proof. vm_compute. reflexivity. Qed.
Lemma check431 : curve_check 431 0x2b 108 (ofN 0x56) 1 0x3ce10490f6a708fc26dfe8c3d27c4f94e690134d5bff988d8d28aaeaede975936c66bac536b18ae2dc312ca493117daa469c640caf3 0x1a62ba79d98133a16bbae7ed9a8e03c32e0824d57aef72f88986874e5aae49c27bed49a2a95058068426c2171e99fd3b43c5947c857d 0x70b5e1e14031c1f70bbefe96bdde66f451754b4ca5f48da241f331aa396b8d1839a855c1769b1ea14ba53308b5e2723724e090e02db9 = true.
Proof. vm_compute. reflexivity. Qed.
Lemma good431 : well_formed g431.
Proof.
  assert (E : 0x80000000000000000000000000000000000000000000000000000000000000000000000000000000000000000000000000000000002b = N.shiftl 1 431 ⊕ 0x2b) by (vm_compute; reflexivity). unfold g431. rewrite E.
  apply (curve_check_ok 431 0x2b 108 (ofN 0x56) 1 0x3ce10490f6a708fc26dfe8c3d27c4f94e690134d5bff988d8d28aaeaede975936c66bac536b18ae2dc312ca493117daa469c640caf3 0x1a62ba79d98133a16bbae7ed9a8e03c32e0824d57aef72f88986874e5aae49c27bed49a2a95058068426c2171e99fd3b43c5947c857d 0x70b5e1e14031c1f70bbefe96bdde66f451754b4ca5f48da241f331aa396b8d1839a855c1769b1ea14ba53308b5e2723724e090e02db9 0x2250c8cadf61bbb06e4752773aebf7164e6eaa13ef3a75fa9af8cf0ae128afbbfff6338c466edfefcb3b298336f2cbeccef3c2f2817f cert431); [exact check431|exact order431|vm_compute; reflexivity|vm_compute; reflexivity].
Qed.

Definition std (i : nat) : group := nth i [g163; g167; g173; g179; g191; g233; g257; g307; g367; g431] g163.
Lemma named i : (i < 10)%nat -> group_from_named_curve i = Some (std i) /\ well_formed (std i).
Proof.
  intros H. destruct i as [|[|[|[|[|[|[|[|[|[|i]]]]]]]]]]; [..|lia]; cbn [std nth]; split.
  - exact named163.
  - exact good163.
  - exact named167.
  - exact good167.
  - exact named173.
  - exact good173.
  - exact named179.
  - exact good179.
  - exact named191.
  - exact good191.
  - exact named233.
  - exact good233.
  - exact named257.
  - exact good257.
  - exact named307.
  - exact good307.
  - exact named367.
  - exact good367.
  - exact named431.
  - exact good431.
Qed.
