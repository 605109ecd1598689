(** The orders of the curves of degree 431 are prime.  The certificates are generated. *)
From Coq Require Import List ZArith Znumtheory.
From Verif Require Import Proof_Prime.
Import ListNotations.
Open Scope N_scope.

Lemma prime_11_0463 : prime (Z.of_N 1123). Proof. apply small_prime. vm_compute. reflexivity. Qed.
Lemma prime_3_0005 : prime (Z.of_N 5). Proof. apply small_prime. vm_compute. reflexivity. Qed.
Lemma prime_12_0d55 : prime (Z.of_N 3413). Proof. apply small_prime. vm_compute. reflexivity. Qed.
Definition c0_27_f1ad : cert := CERT 0x63594e0 [(0x0, 0x63594e1); (0x553a6ba, 0x4aa280f); (0x4006dc1, 0x1f804c2); (0x1b061a7, 0x1a221a7); (0x166b39e, 0x1)]
  [(5%nat, ((0x0, 0x1), (0x0, 0x1), (0x0, 0x1), (0x0, 0x1), (0x0, 0x1)))]
  0x140ba92 0x113249b.
Definition c1_27_f1ad : cert := CERT 0x70c76d7 [(0x0, 0x70c76d8); (0x6dd40b9, 0x39cf03b); (0x384bd16, 0x10c65ea); (0x1056035, 0x6c7f09f); (0x69a8578, 0x3de2610); (0x3c43e25, 0x3f0a97f); (0x3d64594, 0x2263424); (0x217ceee, 0x447b18a); (0x42b06b1, 0x5ef41d3); (0x5c781fe, 0x25fd562); (0x24fee2c, 0x643d6f4); (0x619e098, 0x635f728); (0x60c5dba, 0x325890e)]
  [(13%nat, ((0x0, 0x1), (0x0, 0x1), (0x0, 0x1), (0x0, 0x1), (0x0, 0x325890e)));
   (5%nat, ((0x15e314c, 0x8c2068), (0xa98ce, 0x28ef90a), (0xe78489, 0x206eacf), (0x9152a5, 0x264e4e0), (0x147825b, 0x128cb81)));
   (5%nat, ((0x2f8a00, 0x30b9501), (0x147fd95, 0x5848750), (0x434caf9, 0x5e7e5bb), (0x4d19f64, 0x37c3c05), (0x1dcc76b, 0x1)))]
  0x8b6ba1 0x87c5ce.
Lemma prime_27_f1ad : prime (Z.of_N 0x73cf1ad).
Proof.
  apply (good_prime _ [c0_27_f1ad; c1_27_f1ad]); [vm_cast_no_check (eq_refl true)|].
  intros c H. cbn [In] in H. destruct H as [<- | [<- | []]].
  - replace (exponent c0_27_f1ad) with (Z.of_N 0x5) by (vm_compute; reflexivity). exact prime_3_0005.
  - replace (exponent c1_27_f1ad) with (Z.of_N 0xd55) by (vm_compute; reflexivity). exact prime_12_0d55.
Qed.
Definition c0_57_d281 : cert := CERT 0x1d43b86f53dd56c [(0x0, 0x1d43b86f53dd56d); (0x1c3af5b76ab85d2, 0xa490f87b8bdd97); (0x9ec01d5e0b7f8f, 0x681a273b08673c); (0x646c534c2e6627, 0x6f2ab60a768e5); (0x6b3cf7d05175a, 0x160a6e061c69a27); (0x1543061d8fa8599, 0x6540fccc384182)]
  [(4%nat, ((0x0, 0x1), (0x0, 0x1), (0x0, 0x1), (0x0, 0x1), (0x0, 0x6f2ab60a768e5)));
   (6%nat, ((0x1975d44fb4ad, 0x1d4b2f95210e7ac), (0x1c495ec4728bc8e, 0x17a8e7fe9145c02), (0x1273d45a1ee05e0, 0x864c277d9eba24), (0x25285b9287fcf9, 0x185d9d91fad9997), (0x515322440f791f, 0x8190493c97df0f)));
   (3%nat, ((0x229592cac619b0, 0x123f5be0c27d131), (0xaf9d2b91b70ac3, 0x121d3f1121ea91e), (0xad0ef81c8815dc, 0x1cc48258c7f23a8), (0x1b479cc6f3042ce, 0xb72853ba8b872), (0x2748457165f37, 0x1)))]
  0x8a385ccd60513e 0x8555dd2b0e8aa7.
Definition c1_57_d281 : cert := CERT 0x7347a9ad29dab7 [(0x0, 0x7347a9ad29dab8); (0x1b610fd42e7a44, 0x168284f97d67ffc); (0x5589b46d9be7e8, 0x1d289e864386938); (0x6ecdb905277b51, 0x1004293667fba6f); (0x3cdcb476133303, 0xc837a412225b45); (0x2f8d499a9286bc, 0x18612eeb95b3edc); (0x5ca4a368100782, 0xc6850252fc199e); (0x2f260fd4b79c7e, 0xbb9208e58bbe12); (0x2c8c59f903a482, 0x702db20e45676e); (0x1aa47e548a0844, 0x15547bb7fe10cc); (0x510df5e6159d7, 0x1c942695e52749); (0x6c9989fd088b6, 0x172675a93f36c2); (0x57f8ae640c653, 0x141aa25151e899d); (0x4c65538c803e3b, 0xa6b2b7256bd91d); (0x27974e36cf01e1, 0x17d22e05aa13a77)]
  [(7%nat, ((0x0, 0x1), (0x0, 0x1), (0x0, 0x1), (0x0, 0x1), (0x0, 0xc6850252fc199e)));
   (3%nat, ((0x51316f214972e7, 0xa6b2b7256bd91d), (0x393ff1ad6c26f5, 0x131ecb3ff1b91d4), (0xc0d0b3a12e524e, 0xa340fc320e6242), (0x36e8918f6a7688, 0xb81ee7468d4e7c), (0xb0f8a6cfff0b19, 0x1e3ecaa968aed87)));
   (12%nat, ((0x1e27791ed5c3a30, 0x1636acf67ba8b01), (0x1043fcd3b2fd08d, 0xfdf4d6c77254f4), (0x84df06623d53c8, 0x1b06b490d5fc0c8), (0x1813b5b568238d4, 0x2c40b94420116c), (0x21c5138494e4c, 0xaadad93fa32f8c)));
   (15%nat, ((0x3c23f9d8af7618, 0xde8fb990528278), (0x660cc1a2c1e555, 0x15264b3b1b9ce6b), (0xebea53abaaf08d, 0x1a54997f54f7fac), (0x16da743e0bfd5d5, 0x12a8ee749f0a13b), (0xea6f43ebda235a, 0x1bb93a272f1ac13)));
   (1%nat, ((0x1955e52a7faea67, 0x1be86102bc6ed82), (0x19ac5cae1644937, 0xe19441cae9f34d), (0x68d6024690eed4, 0x109537733330455), (0x9108e90fd952ba, 0x112f9f664f1807f), (0x414eaa83b4a3d3, 0x176f54f5d3dddf5)));
   (10%nat, ((0x121a737051f40cc, 0xd8306bae8bedad), (0x604a2fed8bf79c, 0x644f8ae622094d), (0x14baf9c6b881cb, 0x1ec536e92893de), (0x1f35d5fa017e0, 0x1416ecd3586eca4), (0xe200b73c62b62, 0x62d15fc774924e)));
   (13%nat, ((0x141e31261c8cfe, 0x4b4d2ac761a7c6), (0xbae9ab44adbbb, 0x53160c5ed7cde9), (0xe38e7f95f9202, 0x128e633e6eec70f), (0xb59b2f0027c82b, 0x117efcd743d2f36), (0xb983796ada419d, 0x1)))]
  0x142bd12d41ef63d 0x4ca69f5041569a.
Lemma prime_57_d281 : prime (Z.of_N 0x1e562e3c490d281).
Proof.
  apply (good_prime _ [c0_57_d281; c1_57_d281]); [vm_cast_no_check (eq_refl true)|].
  intros c H. cbn [In] in H. destruct H as [<- | [<- | []]].
  - replace (exponent c0_57_d281) with (Z.of_N 0x463) by (vm_compute; reflexivity). exact prime_11_0463.
  - replace (exponent c1_57_d281) with (Z.of_N 0x73cf1ad) by (vm_compute; reflexivity). exact prime_27_f1ad.
Qed.
Lemma prime_11_060d : prime (Z.of_N 1549). Proof. apply small_prime. vm_compute. reflexivity. Qed.
Definition c0_22_0743 : cert := CERT 0x1802b [(0x0, 0x1802c); (0x1075, 0xd85f1); (0x9450, 0x17847c); (0x101ed, 0xcc949); (0x8c3b, 0x14c81b); (0xe3eb, 0x22d123); (0x17dda, 0xd8bf6); (0x9492, 0x182e12); (0x10931, 0xa2c45); (0x6f92, 0x6eaa6); (0x4bdb, 0x117d37); (0xbfcf, 0x162947); (0xf30d, 0xda0cd)]
  [(6%nat, ((0x0, 0x1), (0x0, 0x1), (0x0, 0x1), (0x0, 0x1), (0x0, 0x22d123)));
   (0%nat, ((0x229b56, 0x162947), (0xe0549, 0x107096), (0x7b734, 0x203948), (0x1da4c9, 0x1284a5), (0x0, 0x1284a5)));
   (13%nat, ((0x9ca32, 0x14943), (0xc17, 0x7c84), (0x1ba, 0x159a62), (0xd52c1, 0xb1e01), (0x45344, 0x1)))]
  0x92efb 0x64b8.
Lemma prime_22_0743 : prime (Z.of_N 0x230743).
Proof.
  apply (good_prime _ [c0_22_0743]); [vm_cast_no_check (eq_refl true)|].
  intros c H. cbn [In] in H. destruct H as [<- | []].
  - replace (exponent c0_22_0743) with (Z.of_N 0x60d) by (vm_compute; reflexivity). exact prime_11_060d.
Qed.
Definition c0_36_b5e9 : cert := CERT 0x12742efe6 [(0x0, 0x12742efe7); (0x1f1f56ff, 0xa7710a95a); (0x11a63ee49, 0x9035e58c5); (0xf33610e3, 0x3d4a22728); (0x675d6d12, 0x19df1adb6); (0x2ba1df55, 0x118554bdd); (0x1d8c83ca, 0x2c1fb0291)]
  [(2%nat, ((0x0, 0x1), (0x0, 0x1), (0x0, 0x1), (0x0, 0x1), (0x0, 0xa7710a95a)));
   (3%nat, ((0xa02474f1c, 0x3d4a22728), (0x1574cacae, 0x4add505e2), (0x20036de2b, 0xa96cdff61), (0xa3f59a4e2, 0x98919870f), (0x7dac5014d, 0x7ee1e7676)));
   (0%nat, ((0x5bf4e28b5, 0x69d71f8a7), (0x3ffc4f1ab, 0xabd70214e), (0xa8aa82c0a, 0x3eaa0caa), (0x166df3a, 0x2ffb331a), (0x0, 0x2ffb331a)));
   (7%nat, ((0xd2660b, 0x364a6b7a1), (0x10d5ef437, 0x561f86a32), (0x2a5dbfc58, 0x1b2a8dac), (0x437242, 0x96053437e), (0x25cf45168, 0x1226d96b6)));
   (4%nat, ((0x1e1ca050, 0x1848f5094), (0x35e5fb4e, 0x7764cf592), (0x516c1a995, 0x8447b15a7), (0x63f25b7a4, 0x46ff3baad), (0x18dac61a5, 0x614b4fddb)));
   (3%nat, ((0x3611d4cdf, 0x9ef59f762), (0x905423015, 0x74f59a567), (0x4e22c2880, 0x975a892f1), (0x82d8f9a2d, 0x69e36a2ec), (0x5738c62e3, 0x1)))]
  0x89fbe8919 0xe8b5cdad.
Lemma prime_36_b5e9 : prime (Z.of_N 0xaf12cb5e9).
Proof.
  apply (good_prime _ [c0_36_b5e9]); [vm_cast_no_check (eq_refl true)|].
  intros c H. cbn [In] in H. destruct H as [<- | []].
  - replace (exponent c0_36_b5e9) with (Z.of_N 0x230743) by (vm_compute; reflexivity). exact prime_22_0743.
Qed.
Lemma prime_7_0067 : prime (Z.of_N 103). Proof. apply small_prime. vm_compute. reflexivity. Qed.
Lemma prime_12_0f25 : prime (Z.of_N 3877). Proof. apply small_prime. vm_compute. reflexivity. Qed.
Definition c0_31_743b : cert := CERT 0x7c3e627 [(0x0, 0x7c3e628); (0xd3400e, 0x3729cb06); (0x5dcb226, 0x433ed62e); (0x7256341, 0x431f7735); (0x7220dd2, 0x1482e6e2); (0x22e00d7, 0x24ef81c3); (0x3ecd190, 0x1de0ec48)]
  [(6%nat, ((0x0, 0x1), (0x0, 0x1), (0x0, 0x1), (0x0, 0x1), (0x0, 0x24ef81c3)));
   (7%nat, ((0x12ab73dd, 0x3b52429a), (0x30287fb7, 0x1ae96977), (0x9e94e53, 0x24f82c30), (0x12b43794, 0xf80a9e4), (0x656c16d, 0x1)))]
  0x194c0175 0x2b03156.
Definition c1_31_743b : cert := CERT 0x2eee89b8 [(0x0, 0x2eee89b9); (0x1e248a8a, 0x412d11e3); (0x29dc4508, 0xb92df33); (0x76ef46e, 0x16ef6981); (0xebb03a3, 0x173194a8); (0xee58318, 0x31963ee0); (0x1fd9184e, 0x47f15de6); (0x2e34dde5, 0x46ac096f); (0x2d63eb09, 0x667f924); (0x41d4cf8, 0x1de31dc); (0x13320f3, 0x16fc0ffb); (0xec3239a, 0x381fe2e5); (0x240c04e6, 0x7342b7b); (0x4a0730d, 0x154bd6e4); (0xdad8958, 0x305bc77c)]
  [(15%nat, ((0x0, 0x1), (0x0, 0x1), (0x0, 0x1), (0x0, 0x1), (0x0, 0x305bc77c)));
   (2%nat, ((0x2000d658, 0x218bdc8), (0xf668f, 0x471d7d4b), (0x4535f0d9, 0x57d7df6), (0x6999af, 0x34ee710f), (0x2f3634da, 0x20ce490f)));
   (5%nat, ((0xeba6ba4, 0x35b87015), (0x277e63d8, 0x4b37ef1), (0x4d6d8d, 0x3b91fb62), (0x30902d58, 0x19e6fe3c), (0x838bb2d, 0x1)))]
  0x369943a4 0x231122ad.
Lemma prime_31_743b : prime (Z.of_N 0x4912743b).
Proof.
  apply (good_prime _ [c0_31_743b; c1_31_743b]); [vm_cast_no_check (eq_refl true)|].
  intros c H. cbn [In] in H. destruct H as [<- | [<- | []]].
  - replace (exponent c0_31_743b) with (Z.of_N 0x67) by (vm_compute; reflexivity). exact prime_7_0067.
  - replace (exponent c1_31_743b) with (Z.of_N 0xf25) by (vm_compute; reflexivity). exact prime_12_0f25.
Qed.
Definition c0_32_e877 : cert := CERT 0x3 [(0x0, 0x4); (0x0, 0x10); (0x0, 0x40); (0x0, 0x100); (0x0, 0x400); (0x0, 0x1000); (0x0, 0x4000); (0x0, 0x10000); (0x0, 0x40000); (0x0, 0x100000); (0x0, 0x400000)]
  [(4%nat, ((0x0, 0x1), (0x0, 0x1), (0x0, 0x1), (0x0, 0x1), (0x0, 0x100)));
   (9%nat, ((0x0, 0x10000), (0x1, 0x6ddb1789), (0x5293fc0e, 0x3610ccf), (0x14005d, 0x4ecd9c26), (0x22828, 0x5931568)));
   (1%nat, ((0x366f55, 0x171371bd), (0x3a4c6e5, 0x728a6916), (0x59c5793a, 0x3e0b23ee), (0x1a56f887, 0x62db1283), (0x2, 0x6722791e)));
   (2%nat, ((0x48c85ae4, 0x51b47f88), (0x2dadd27d, 0xa61825), (0xbcc4, 0x5349963d), (0x2f7727d4, 0x6a9e6fd), (0x0, 0x6a9e6fd0)));
   (7%nat, ((0x4dc88bf3, 0x4a5cc30b), (0x25d67378, 0x844d55b1), (0x77c56451, 0x5419faba), (0x3065d781, 0x531bba2d), (0x2465, 0x154acd0d)));
   (4%nat, ((0x31a24d4, 0x196a941d), (0x46b9390, 0x3bb97359), (0x18684e57, 0x6ee3d280), (0x5423d9c5, 0x685d7d6d), (0xb6, 0x77402866)));
   (3%nat, ((0x614e5820, 0x2d9811c4), (0xe3972fe, 0x4d58f9fe), (0x28efc51e, 0x78704712), (0x63412095, 0x6bb9d001), (0x2f, 0x19ad5267)));
   (11%nat, ((0x482e916, 0x888ddc37), (0x7f97e9d7, 0x464008e0), (0x21c4c1d1, 0x7acf43d9), (0x67336be3, 0x6a506f6c), (0x2e8eb9, 0x1)))]
  0x30b6f828 0x1.
Lemma prime_32_e877 : prime (Z.of_N 0x9224e877).
Proof.
  apply (good_prime _ [c0_32_e877]); [vm_cast_no_check (eq_refl true)|].
  intros c H. cbn [In] in H. destruct H as [<- | []].
  - replace (exponent c0_32_e877) with (Z.of_N 0x4912743b) by (vm_compute; reflexivity). exact prime_31_743b.
Qed.
Lemma prime_2_0003 : prime (Z.of_N 3). Proof. apply small_prime. vm_compute. reflexivity. Qed.
Lemma prime_14_2b69 : prime (Z.of_N 11113). Proof. apply small_prime. vm_compute. reflexivity. Qed.
Definition c0_28_8b07 : cert := CERT 0x2ed5a64 [(0x0, 0x2ed5a65); (0xa18508, 0xaa730a1); (0x24bd55c, 0x1)]
  [(3%nat, ((0x0, 0x1), (0x0, 0x1), (0x0, 0x1), (0x0, 0x1), (0x0, 0x1)))]
  0xc9ac23a 0x2b78361.
Definition c1_28_8b07 : cert := CERT 0xad3be81 [(0x0, 0xad3be82); (0x8a1d43a, 0x1e0ee6e); (0x17f6ea7, 0x6bc044b); (0x55e81d6, 0xaae193c); (0x883d0b7, 0x4dd4677); (0x3e0d222, 0x9d8e580); (0x7d9d5eb, 0xa021893); (0x7faaec9, 0xc80aa27); (0x9f7cb66, 0x5956804); (0x4739f7f, 0xd2e788f); (0xa825d76, 0xa68ba64)]
  [(2%nat, ((0x0, 0x1), (0x0, 0x1), (0x0, 0x1), (0x0, 0x1), (0x0, 0x1e0ee6e)));
   (11%nat, ((0x4287b8, 0xaae193c), (0x866358f, 0xc80aa27), (0xb82ada9, 0x864f52), (0x53056, 0x150b1ea), (0x1021296, 0xbfb8f4e)));
   (6%nat, ((0xa92b08a, 0x58679fe), (0x23f7f82, 0xea0576), (0xfc0c4, 0x86d2108), (0x53a7527, 0xd51af2f), (0x9a86a87, 0xab66bcf)));
   (9%nat, ((0x87351ce, 0xa109abf), (0x7759fc8, 0x7d16409), (0x4802b40, 0x3cc1991), (0x10fd0c1, 0xd4a23da), (0x576d0a1, 0x1)))]
  0x36cc46 0x2bb053.
Lemma prime_28_8b07 : prime (Z.of_N 0xd948b07).
Proof.
  apply (good_prime _ [c0_28_8b07; c1_28_8b07]); [vm_cast_no_check (eq_refl true)|].
  intros c H. cbn [In] in H. destruct H as [<- | [<- | []]].
  - replace (exponent c0_28_8b07) with (Z.of_N 0x3) by (vm_compute; reflexivity). exact prime_2_0003.
  - replace (exponent c1_28_8b07) with (Z.of_N 0x2b69) by (vm_compute; reflexivity). exact prime_14_2b69.
Qed.
Definition c0_33_08a9 : cert := CERT 0xffffff [(0x0, 0x1000000); (0xc913, 0xb39baa75); (0x8d12f0, 0x7716ff90); (0x5d8a26, 0x142c09cea); (0xfd81e1, 0x74493a77); (0x5b5660, 0x8920faa0); (0x6bb55d, 0x103215d9b); (0xcb88fc, 0xfb0eb1a4); (0xc531b5, 0x12ab38783); (0xea9dc5, 0x6aceb0f3); (0x53e471, 0x2adda967); (0x21ab50, 0x1a5b6830); (0x14b3c8, 0x248f10f8)]
  [(13%nat, ((0x0, 0x1), (0x0, 0x1), (0x0, 0x1), (0x0, 0x1), (0x0, 0x248f10f8)));
   (9%nat, ((0x419cc90, 0x101736530), (0xcb5ca1e7, 0x1260dcf81), (0x1094c7831, 0x5b1fea8), (0x197a2f, 0xc7bad39), (0xb70bdce, 0xc36bf62d)));
   (4%nat, ((0x752c3c5f, 0x1094eb132), (0xd7f69603, 0x102de0dc9), (0xcd9b2416, 0x2270854b), (0x3a39cf6, 0xb15eb593), (0xafa4964f, 0x60fada37)));
   (8%nat, ((0x1cdb4747, 0x26b671f2), (0x4992362, 0x110e21d12), (0xe4791693, 0x75599639), (0x2a4080cd, 0x7e64695c), (0x615bd01c, 0x1022ad874)));
   (11%nat, ((0xcc7eda45, 0xeba2b503), (0xaa5bad5f, 0xa9e5d252), (0x5890562a, 0x26a2708a), (0x49463ff, 0xa0f80f0d), (0x152bb1fd, 0x56553b36)));
   (0%nat, ((0x16de49b9, 0x7f3c7c43), (0x31abc72f, 0xbb960382), (0x6bf6f8b4, 0x47f07f30), (0xfe0f327, 0x37fbec41), (0x0, 0x37fbec41)));
   (7%nat, ((0x99dc8e1, 0x12ac043f8), (0x111d788ed, 0x13e11f3cb), (0x136675807, 0x116acae5a), (0xee4601cb, 0x5b79f0a1), (0x48baa4ea, 0x1)))]
  0x117111f96 0xdb31c1.
Lemma prime_33_08a9 : prime (Z.of_N 0x145ed08a9).
Proof.
  apply (good_prime _ [c0_33_08a9]); [vm_cast_no_check (eq_refl true)|].
  intros c H. cbn [In] in H. destruct H as [<- | []].
  - replace (exponent c0_33_08a9) with (Z.of_N 0xd948b07) by (vm_compute; reflexivity). exact prime_28_8b07.
Qed.
Definition c0_72_bd21 : cert := CERT 0x5758268df52d15f2e2 [(0x0, 0x5758268df52d15f2e3); (0x2edc20250daa6ad624, 0x83bb23e9632631c6a5); (0x46ac5235a3f050c5e0, 0x72c9482be200f43c6f); (0x3d95141edc5566327d, 0x8dda1ef3f7f052b950); (0x4c1a5f073870a21697, 0x579eade4cd4f6d8d79); (0x2f01f6c1e11375cbb5, 0x30017163541b71f0f6); (0x19c13bd966211189d7, 0x44a12d2aa4a4e0b66b); (0x24d1c9cfd2c58a26cf, 0x3e9db15daa4a2c1332); (0x2197dca7bfbf92c8d9, 0x8a3fa267a44bb8305d); (0x4a2b760bc2011e2c06, 0x5a7a156e159757b1b1); (0x308a5bf898879af89c, 0x7bc2b1336d465ba9d7); (0x4265a121c7022a1a3d, 0x27288e3c0104a36cc8); (0x150221a27f8374b781, 0x5d415a5f7eb1f8a0b7); (0x3207f3c47a362103ea, 0x4704625f9b11b13d1b)]
  [(9%nat, ((0x0, 0x1), (0x0, 0x1), (0x0, 0x1), (0x0, 0x1), (0x0, 0x8a3fa267a44bb8305d)));
   (2%nat, ((0x756557e14e0806e286, 0xa20a7696959ac2e083), (0xa147b1af0bc4dbd153, 0x7b51a7164aa9194056), (0x5d68d7196ff8789ff9, 0x9f4d1e69dc39e7a8cb), (0x9bdf64a277435829cc, 0x9870ebef48688c11ad), (0x7b58538fac57ecba2f, 0x2f0fa52076903f7f72)));
   (2%nat, ((0xd9a89c2da47bcfe80, 0x5ee7689d426e4d0044), (0x375280668b39d5576c, 0x3d3416aee32bfd1124), (0x17021ccec933b3c280, 0x45811b5594f5893a90), (0x1dac2d873f69c44ed7, 0x44da11786a4feaac49), (0x37b5d26c117064d5d4, 0x1fb3fd762b297d6cb9)));
   (4%nat, ((0x62c6d6eb023641e85, 0x1d95bedbaae11e7d8c), (0x5604cb0839b513680, 0x797470ab8f03ad7e10), (0x5a9b5cd83ff9c3208b, 0x687cdd3d097d4df015), (0x430f4f543766c3835d, 0x57038c823f9991c9bc), (0x4bd0a8666c43e357a4, 0x99e63112f112ed869c)));
   (14%nat, ((0x917af47a3960edb52c, 0xf1390fcaaf959d864), (0x165695b144421e741, 0x7a27927d792faf1aaf), (0x5ba766fec7b02a58ce, 0x2465287f26c3d47b13), (0x822da361c01d707b0, 0x40ad92240d9bbe55b9), (0x1c368fafd7e3ff033b, 0x9f9b77d2c8476f25e8)));
   (8%nat, ((0x9c78ddc645299da852, 0x9f74f13bcfd865a5ae), (0x9c2d5d2c480593d6be, 0x1c4bb06c63603ccdc6), (0x4eaf530d9c93e2ade, 0x12154db1dac5dd4886), (0x20230688ac5be987d, 0x15639bd0697b9b507), (0x839f490a3a184403, 0x1bd695f5bf2e99e4fb)));
   (7%nat, ((0x4c294de9938086260, 0x16a901309fc207fb9), (0x3276acbb898b1a7, 0x6325119eeb89e22a), (0x3c6081e93d22a6, 0xa1f4e81329185c297e), (0xa11ccb5520da785706, 0x2d2e25f182af96f43e), (0x130ba412222c741669, 0x6f5d8a08a23d91c161)));
   (7%nat, ((0x4c2dad347f9c0c083b, 0xb69f4dc922f9cc826), (0xccd9f8ac0b184a4f, 0xefa4731d12ff57e75), (0x160be48e44ad6b8d8, 0x3070321504968415a1), (0xe6956ed098a17e751, 0x575d41d529a9d830d0), (0x24d3f0e31abae4f20f, 0x1)))]
  0x62e0becf89c6e81d10 0x350c2e1951664f9d3f.
Definition c1_72_bd21 : cert := CERT 0xa01f3e4b4c78bba95c [(0x0, 0xa01f3e4b4c78bba95d); (0x9d7ba815984ecadd2c, 0xdf89423676399ed1d); (0xdbda1d768a19c657e, 0x43e867633995db2d4b); (0x42c9e32129e4c46eb1, 0x2865014b96661c056e); (0x27ba9289b00d3e75a5, 0x85a2ddf89c9eed9bb1); (0x836f0784809cf4c2ce, 0x67f4d4705dc7d535bf); (0x663e379dac06a0939f, 0x2d6aa4b8bf0d6d32e4); (0x2cab0599a3d415460b, 0x1d6f272c0c1b23da69); (0x1cf2f6dcd0e934f9eb, 0x9600fa3fd67559f2da); (0x938814e2e20ad29472, 0x6c2b0d3fac8cafd680); (0x6a62ab31662fed9cf2, 0x6df87e5b2182ab874e); (0x6c288162a7611d8234, 0x9eeecff08d328e78a2); (0x9c503e2f6471b8f0d3, 0x566f187006469ff2a7); (0x550269d1fb5880586d, 0x82784364f0bec869e)]
  [(1%nat, ((0x0, 0x1), (0x0, 0x1), (0x0, 0x1), (0x0, 0x1), (0x0, 0xa01f3e4b4c78bba95d)));
   (4%nat, ((0x9d7ba815984ecadd2c, 0xdf89423676399ed1d), (0x132ebde691d96b17b, 0x2865014b96661c056e), (0xa05c41c4fac6c827b, 0x1d6f272c0c1b23da69), (0x5524f2b2345df3b78, 0x534e5197bb519ebc99), (0x14ab652cd84f4b9b8e, 0xa114d5197666d92370)));
   (5%nat, ((0x9f602fc8a12a6a81bb, 0x5a10887649d68e08e5), (0x31d2f93b4d91fa0388, 0x4c8364c7f473454051), (0x23f5724dd9e79b0e40, 0x84574cce7e53508361), (0x6b93c6cb177201575d, 0x31cee1406cd7587ec4), (0x28e25ce98eac5dd8fa, 0x5552ee08f0930ac74a)));
   (14%nat, ((0x2cb7921acc702ad67b, 0x50d1aecaea8c55ac89), (0x281eae33a61ce9a2d5, 0x77b402078cf22522dc), (0x58031d77935e405b8a, 0x2f6bfda894d7e67e46), (0xdd02162a805160058, 0x206e57ed176839f7cc), (0x19fd608a88ca11f5b, 0x558865bb0bb0e87e2d)));
   (13%nat, ((0x2cefaeb8470ef3e8bb, 0x545bf6ddfacec544ce), (0x2bb62bffc6114a7c51, 0x3565aa870fa0004253), (0x1183661602fcd48009, 0x60996b33494f5bc0c0), (0x395103ed58b4f823c6, 0x4ec57e633aed4ac57a), (0x29d1f0c066a3d417c5, 0x4d07ab1738760ea531)));
   (0%nat, ((0x2472322bdebde352ea, 0x60d394ccebbbdfc137), (0x39961df89eabca3036, 0xee2994646f8de4db), (0x15c665e37655284, 0x1a177d31b7ef39bc55), (0x42e7a8d3acf31ef8c, 0x904ccc6297ff3cb72d), (0x0, 0x904ccc6297ff3cb72d)));
   (8%nat, ((0x7fe5eadcadb895f5b8, 0x173baf18f53abd931), (0x350c3c537e37a32, 0x614e03c9440b6070ef), (0x3a281bc6611993829b, 0x10f3e267a57fe9ba26), (0x1c3e7dfd4c8260996, 0x6cd8fa7cc71c1c434e), (0x13add1043611f6e0f6, 0x69779d2d0e44396948)));
   (10%nat, ((0x4452adc4472172c630, 0x285f8f5dcdd1bf2810), (0xa031094d3144ae3a5, 0x98f3f8d6d02824d7bb), (0x8fb26c91e127e52c96, 0x2b3dbd03ff6d7e2543), (0xb7c20d0a7feb7d886, 0x6d8f931a886ce29843), (0x48cade2ca2c462b22c, 0x9596f5e699e33dafd4)));
   (9%nat, ((0x897265d02efd9af63b, 0x3bd0b5465646503af5), (0x15f9f22f70750702f7, 0x6480039302af8431a2), (0x3e09f59712599386a2, 0x8d118d1768bff575a2), (0x7a3be69fee8b27b8ae, 0x3ef40e29a1287a3616), (0x3a00d787e0ec89a05b, 0x1)))]
  0x1c98c912bca111b312 0x1c2021391f0dbdee97.
Lemma prime_72_bd21 : prime (Z.of_N 0xa2ce26b46d72a8bd21).
Proof.
  apply (good_prime _ [c0_72_bd21; c1_72_bd21]); [vm_cast_no_check (eq_refl true)|].
  intros c H. cbn [In] in H. destruct H as [<- | [<- | []]].
  - replace (exponent c0_72_bd21) with (Z.of_N 0x9224e877) by (vm_compute; reflexivity). exact prime_32_e877.
  - replace (exponent c1_72_bd21) with (Z.of_N 0x145ed08a9) by (vm_compute; reflexivity). exact prime_33_08a9.
Qed.
Definition c0_196_6973 : cert := CERT 0xa1f78e529a9f08d458764717ab3f3c4cbcf3aa5d1e6efc375 [(0x0, 0xa1f78e529a9f08d458764717ab3f3c4cbcf3aa5d1e6efc376); (0x99e898408cd09d303d581f056e9f05ded0db713b9cbd54113, 0x322cd2b36ffeb9b6d0451e7871f50d2d8fced482d8e84f3db); (0x2fadbf31a573bff366dd1c28c57566d21f2c73e48a7bd9dfe, 0x3610f4695096fdc72b9d53e2e8df9b147cc3a7c3350ac10d8); (0x33605140c7282de53af11943509383229a4d26849f7ab6fdf, 0x9f1854366c9f87b81588e16fcf2fe9080b74723370b9b9363); (0x972df2abb94411ad41c47d7859f76884dd05430015e084467, 0x388926875a8739968ed8d82405111d96133d5d558da2f5f5d); (0x35b90f246bc0bdf7bf4dbd7be2b479f00e68ad1ac985cc6fc, 0x4e8a0cb1bb4e0b08202a7492e89b4ebfa03d7750473560caa); (0x4aa1b383366936fadd55f1dd6a69cc860691f08c3b979b4f6, 0x65726014e10703254f2a5d7588fef6e02966f2cd442f223da); (0x606641710407a9d0857fa467f784a300dda4d1632b90093b5, 0x66ae2481223e980919b58c44f038d9242ad40451641c0fd2d); (0x61924ff612769ec73019e519ab00688cdfb17dcbd79f31541, 0x8bd0f8960fc95a193a51ce2cfc71b3e184fb0f36bde91c48b); (0x84dc244ff37dfbe39738174b32456b8d7ddf232aa47147c4d, 0x8f9b2a4419aa3fdca61b1953ae1d617fd3dd0a05f5e2b0d7b); (0x887610b4cb828c4f987e61a3b16ade99ec6a5bd42fa02d725, 0x2d7b54ddd0f2cd3d578ba0b89b3d578b16cce85e561641513); (0x2b3808a9cdd4babf442ddf98ae6901ab2bf7e193a33a89686, 0x4bc04e5930e308c6fd2be56799c334fd367de499e1f759b90); (0x47fb780ff554f3159534ed0f75e086fc33654e04152d8983f, 0x657d40828de18178256952fb99ffe90bf37489bff283b2913); (0x60709755a4d4576187a03ff71a42630ada2848bb703284da4, 0x5461215f7a1f8b222d6289b9066a033dcb3844d316ce44316); (0x502e6576db12f2a900585de4f096fd9706783bf94ffc650e5, 0xa08a85a2f150de94b1eb05416bdfc917b528be2fa4bcd6a45)]
  [(10%nat, ((0x0, 0x1), (0x0, 0x1), (0x0, 0x1), (0x0, 0x1), (0x0, 0x8f9b2a4419aa3fdca61b1953ae1d617fd3dd0a05f5e2b0d7b)));
   (15%nat, ((0x78fdded35c3ae57d5e2fcc709fd12bda16d021350c43dad6e, 0x98f2c4a067149af099bf146aa73624faf5b744d43522ab2af), (0x893eec2661202b06cfbb7bf9dd970cfd4ede3e294d22409e7, 0xa4ed46a67d87601165478083ccb4d356ceb842b67edf0a1dc), (0x9f95cb4b1715e1f428ab051cd007d494133287da2f1456030, 0x438306014b4d972a026f4f695fd82d777cdab3d9820488f80), (0x1abd8ff22dc5bee85862b6658c7ec0643b81899102b86c4b4, 0x6c40757143f1e6b23cd1863a1ad7969a06cccc309a9740f24), (0x65f5d466ae4d22eaa0356e5e16ea0f6840f7831e4c93a9093, 0x7ff9b1ba6c7fcdc6cd7c9e4297fcfbd87ecbdd31a79b6bfab)));
   (1%nat, ((0x601625a5dad94a79c00c4d239fcf722bcb236aee1fbb290ee, 0x4910cad0e8f7ce72ddf66c157c854a56f858a201dae75e34f), (0x1f522c7e2553f8bdf03d935154296a76a29d818c93e2b8033, 0x31a3351783a7113807e454d1d5a0f66aeaec2d032c4bcb078), (0xe7494c16f3386398ba94f47d570c241993db3cf6a72b1d94, 0x15812fe2759c4c6e1f4803a434d78f16dd8dae7a70d413ac4), (0x2b691079df7a9c3dbd54f1ef04b3b019f0fd095ac03bd729, 0x433c75857cf5d20308885588734b30881025a09686e86eda5), (0x3fe413c6a43102d6e4f1a104643ea8ac0521170f6767e7a92, 0x9ba566d4f20b6bcf9155bbe94b897f1690bb90d787304778)));
   (2%nat, ((0x8e214ff0c0a7d583ef8b452c07f2b937298b26417a48dde, 0x25434c010d8682c275b756464640aea40efe5a673f4a1ff86), (0x82576710fbc8c72046f3f767d91030cd5e46bfa3d3ffe961, 0x44fa0da87b09586fe232214fb9a5b71d283b8f8c33bf49a91), (0x1be9dfabffbd70db27a2cd255ec99b99feb9c8f93f652e3ac, 0x80db5107ed93116de926d4aee4b02fe7a81a4440a2c00f3dd), (0x616a1e06c42570eb2b09a21ea58a7b083e98ffcb60a144a7d, 0x5115047f29f0a8ebf1f1428b7b727cb0e10de717c706191a2), (0x17de4da392237aa32f873c78eb978afb55a52f913ce3ccf6b, 0x5be2c75e773c755417bac81035fa5519f81b85f69c4114b85)));
   (12%nat, ((0x3188ceeb5cbfd42e8795cfa172149efee5f318cc4657dcb0a, 0x6a98de55bfe5274ce42a44521adf6a23572c9f855da55e39b), (0x42aa5a92c05c0d2a7a8cdc2149384aaf66c026b50fd5862ab, 0x2a9c70a89b0365d690ffc38a1e18bc862dbb71cc2ee16ca08), (0xaa70fd5701d1e41b147d78ef48bf9c67825c08f56ac0e45f, 0xe06d4c4a811eb6382778898dd54bfa6963051ea92cb41293), (0x1278060864f39e06383ad89f65c0e9a2d8e6c39a112aee13, 0x2197a64d12f1c1ccb6e9d2aa1d90b63de4b1eaacd289342e0), (0xeede7b5b03053e9e63d5e8d2a98061302a4f029c102a17f2, 0x4b6439a9802c57dee07739d352d417be6d6fe10494b1e3a4a)));
   (11%nat, ((0x2158c975230410b3d7410d90bdd14cd177fa3671c0f77cb36, 0x770f0329105f92d0ef15bc32522facc5fd6249c0e6062e22), (0x5329cb5df4b27a549c819e441d882eac15b3f1e2eae8d8e, 0x5793899c07080f7bad22596bdba00bad5cf9801f00c967ba), (0x2cff37bdbf3104bacdacae2cc00483f81859cf6fe6969c1, 0x3db64618399348a943aa2b846778d96f3b122f66ad78b8871), (0x1657e82b39ca1be42383e89af6320f0f0016f1604646d2008, 0x3c659759a103cde7064dad4698d40fa90daf1c4fdb19d9649), (0x101dbbb177e81916c50543179996d1e06f758efdc807ee337, 0x13ed261c582938e45c7bd6146371f88632fada88523d583b6)));
   (5%nat, ((0x2545b2af9d4bc1a92fa99ed09a6ae7eb8097ffba46de2e26, 0x6e77729430489e8e8cad960e2b9a46cfba71ec87828c57452), (0x4797d9b221328f6dcb24bc66fe0570ecb4d74d52bcedd8bad, 0x8be88b3304ab178298f67aa33b401d9867690050ec00db68d), (0x72d74d9dd17edac3cce8763eeba744e84a8d65e71b78da8c7, 0x245e83b18094cb9b2d3bf96f0b57849018fd66147174f5944), (0x7c2a1579bf441c754ed4282a926160d309041b31d74e065a, 0x5d2bfc7f4db1d7e856ba6280e1c4f52263027c15b7d0e95a2), (0x1ee778ef795ff38359da818576100fa338b84c320524c9531, 0x12167e1f8f74c0280fc70779f9417c769de852d8ec3f45bd7)));
   (14%nat, ((0x1eb633217ea4522c211889e3546c526261efec5db4150de0, 0x5ac2964f597de8609eddd5c712c340f3786486bb2514472f1), (0x3053fdc926b777b353d9406ff3559f0255e267879ec886afe, 0x71af00a3ae4fa6cea302409583656f0c57049e5bacda348c7), (0x4bd2e1ec3334b93c894fdbadcc9e22ef3bd5da44e9b549940, 0x9c5092bb2eabb956a861c589a5270f9b00679f797ebfe72f1), (0x8f5a992f6b6511aa86b76e5779045971e3b10f275b41034fa, 0x948b34144187e2aa53e8755dee6b81065fe9cbdaea533093), (0x49893dcbae8bbffa8aacb6e453ba48a660366227f6dc5012, 0x30f91f05c695a011e4cac44d0e0d5b707e8b2b430387f4b8c)));
   (9%nat, ((0xe122deb7a5130d1eb94ada9a80e6a77d0ec91e627f8bb8f3, 0x7db48a3c06d0f5e68d8a3e5a813d0127f3ce061fe1ea49467), (0x5cb533cd241dac5e80fe68e5719b3feec7be14dcf1f3161b5, 0x34ceb86cc85c5030a9c9b66ffdd9f90247ef3d0336be42022), (0x105c54666293df70fd9763488d87058389ac8fb6765810cc8, 0x537540780ca922bb8762ddad5079dc84b2ed059988f9beac), (0x28dd4d312bb9c684e1c2fe58d438b7de33a6d3a57ad85cb, 0x92fb3a3110d4aa17a25f05a47c5509d36f26294c09a21665f), (0x78913d5c0512f2b89c425fa13681899396018bec35f6bd31c, 0x1)))]
  0xa540a30625fc36fa477b449cec7c3924c2eb1aa5df2627747 0x9d07d42c1a49fc43b8afb125694e65d135efe5c4dc1ca7146.
Definition c1_196_6973 : cert := CERT 0x957f14755b754d38be1d9ff096e65818bac2e4a6c9c02288b [(0x0, 0x957f14755b754d38be1d9ff096e65818bac2e4a6c9c02288c); (0x831ee42b4934335aa064c6521a4c3aed97d568809eae279c1, 0x24bf7fe977a141da57c375253910e3e4a8d1ee3ede21a31dd); (0x203b270cd0432afa7b51367bcefc6eb8e555b5b1494ae126b, 0x7d4fc6c433460a04b3d3a09011fca66cf4c9dfae8c550a3cb); (0x6de89b9ca6bb8c177ab0660932fcabcc1c078ac4eb48e5f9a, 0x16c64c68e3fffbde589079eb09ae5bbedcf041365f07a2ed6); (0x13f9a6fbdb406b6d697b1b3643a04a0cf499924c7dffa5638, 0x5a578335bbf9cdf46030252e29aaaac3b43b4c510926559e0); (0x4f3cbc0efdbd65d8e3810fac5923cc9169698b47b9a25d67e, 0x13d5647105f14faf4009b31b307daa13c40445f14c0e91de6); (0x11654aa363698d9bc01a09300734fb84290333943a4dbe804, 0x756c42b67cc7e533381092e3820515c506e7790fafead6bfc); (0x66fd5376a92909df641602d3fda9eba601591e65f79e7b95e, 0x63307c4b32904fb9c3029463785ba1433fb08271b08d89a96); (0x56ff4d761c531e5e5be145080a63d2b8805fe607153b01991, 0x10e686417c84ead8ed2d8b9a84c0c03660de5c3dfbe4b04e5); (0xed2b7f05f036a8ccbe426cfad3afc188068fb9e26373399b, 0x701bc1c24fc2937582a478c5e4e885e6896edeafa007a019b); (0x62540d5892a2879b62b905d39c7eb5255876c6be3da55d7b2, 0x1c3a0a667569fdbe8cee427c6a769cbed2ddd56266a8d31ce); (0x18c1d54b4446242f668cec5bc43bdb4d3a71328d8bbc1064a, 0x5c060bc16210f77ec9a2c9b8e8a3b96aa54181cd2a53f3f6a); (0x50b6590d7ed4018f069c94824b1168957722d3f5bad17f90d, 0x2a1641b9a251fe6c65e60ba9b97c391f5f3a9472bb8570821); (0x24e9e940cf4e86ebb9ae9253818e5fd0d612f019e3f39924b, 0x6fe5041e81167cf6e7521aded87bbf0ea800778827b1b1f5b)]
  [(10%nat, ((0x0, 0x1), (0x0, 0x1), (0x0, 0x1), (0x0, 0x1), (0x0, 0x701bc1c24fc2937582a478c5e4e885e6896edeafa007a019b)));
   (2%nat, ((0x49bcb3bf78bbbb839b38a50f5154e525a565282eb889f44c2, 0x77e144b47efbca2d6c07a4412f49f8cb3af744fb2ad151eb3), (0x545089bc8ec8584a2abbe5dbcdbbf752d18c71b7238fc7683, 0x47bfd47cd5e82e7ae0ba13e71b1b1e130fad341ca96487950), (0x1e33e295f39e165b7964da3906e0b6d597d915a625d60a9e6, 0x2bdcc6c6107d4d37ae96ec2364b611e761f65bb68e28310ae), (0xb499433e3ffa877afac91a66ba765f4e74c3e6463c06c7ba, 0x7d63879199ea2ce2859f83152485bea7fcef414dab5f133b6), (0x1b0894c75287e6881d1c0968ebabc3b608383393768ea1b90, 0x915c3018ceec8510280cead988650db3ac0d1e469f53086e)));
   (12%nat, ((0x7bf71dd697dc932b3a7960234e704cd8592cc36e226f54f, 0x35c6eaf0f6e32e6c9bc1f76f655356f8c3c9b5cef4c0275c7), (0x10f78870d429494138c7017a4108d534d1b1bc7774610cf51, 0x3ce7daf298778ffac80c4da17e321a586b929bd3eb311264e), (0x15c3697a6030c664faba43dbb55e0d27b245f3bf341cb0670, 0x5c33129ac7730f5448988a434c4a01fd16777672ff50f6b74), (0x31df86d63142fe5fb74c0949e77cab97aa7b2b98d13701452, 0x947bb53afc567b73177eb463d7e2089604c9dd719ca4969ba), (0x502a50788029fd1097cac031836c0e4c3ac293fc9fe7de8a9, 0x1148a6ee7f6a990bd64b54d6cda26a97174988888db56b819)));
   (14%nat, ((0x1c0abc2ac1062cb46fd1c05a35fcfc1932ac127e54353bfd, 0x8b27aadc2c8e7430cdcd6c1b7244297be7b640b96ebea3aca), (0x719b84af85f2f42a61ef0b02f4893badd98d7a916024d838f, 0x25067ae2d31022c86c6cf41b11dadf50cfa93250526456727), (0x80af4c2afe76b7e26b5dbd0d6569fa8b94e00874d78d6c84, 0xa3c298047bdee1ecbefad270600eba6cfd575e7a393b884a5), (0x9d55d26f1960fc8349dfbef150e47634d67be0ffd3b515542, 0x357f2f164da5b1f074bfcf9c04b6856d1457ca708ebff33b3), (0x231e8ebed44613e3563eebce60c002db622254b13b8bc8f67, 0x24223238d30607868878818ba01310d2b86aba2b9dae2635c)));
   (2%nat, ((0x7a8f90adb098ad37dcc8c9f4d8a4fd4481022a261359f189, 0x684245b373821cf120fe9e07557c5b2150c058f34d4a9785), (0x3fc5d8946ed965c72eeb58e4212fe788690818877b670c7, 0x802382ec1b4a49634988b3716ef49cefc014edfba0b08e2b4), (0x6054fb4334e66a18360d2eabc817766dffe84ea268ed8c89f, 0x976ee699354e989755e992ce9aead0516793f75f6234bf823), (0x868a46de893f1c420f9d0ec50a17fa9e2bb34a039cd893549, 0x1db2a3a0087306f0128f3ad70c0767e88e1a9cd35da8af3fe), (0x6671c54d2cd70a840dd713411e4510385887c826488b6b99, 0x3a376b5022eabd366f732e78cc9cdf3854ab17cb5fb24298b)));
   (6%nat, ((0x13e2473abeb8c5bd5f519673c94eb5d16de25ccd0f75a67f8, 0x4d5c9cd1edf7590021ac9d05c0e72752c42d3b2069e3c6511), (0x231cd05cd6935b62adecfe9bf822d1cb9a79a767744f3373d, 0x49ba9664c1087093a95aa41202fc9df3c1fe00e3a46f395ba), (0x1fe468164bf1009841c7f779cae1d3cbb77797a5f9235f349, 0x2c245cdbd7196f6fe9c761de87213989c91ae623278abd059), (0xb6e8a39b15798dbecceaf37dd5aaa82658b061de2373c1cb, 0x352a98bc97f2531fb038c9490dcc70b94d61474710d536dc0), (0x62fc0e267139b9a6b7a26494c1421eb7f62ce6d921eea58f, 0x6c0a4d71c1a7a32e6b68cf2a78046d71915ca2a45fd4c5443)));
   (11%nat, ((0x447b911ed54ae4969c3e79e420b757e044c3bd3cc96b6213d, 0x46ba86b146d930fa7729041d8540dcb9571a7482c76101622), (0x1d5975ad2de391db74e91d631f9c7546efa378f93baa1dcbb, 0x703b538d3e35149c32b72bce869a626d3bafff8f8d2940183), (0x49e640e05874d05344dcd2532e3da6ec65784b09407b56fc2, 0xa1798ce6594527fa99c69cefa1a5a52c3c0f735351b3882e3), (0x98f97c67538d40f00aa0eaa7315ebf1a6f28ed989021ead1f, 0x887dd873ec90ea9dc6acc44698a4e7c6ff2e98868ede6d95c), (0x169a7fe4878ad416e46914ebaa2e43d428b4b650411033084, 0x80f456b83f6ea5e019f48216fad99e7104262815a78e094bc)));
   (4%nat, ((0x618ff6fcaa98f6f287615f1615f72ea1aa57aa1b8981f438f, 0x8363e9fb6d0bb65de07e7690d2489a954ec86b4828dede9d3), (0x65486d11efc8d5091928af491fdfca79501e8db58f0055286, 0x2f53073bbc35d967da0efc19dfaf422b056f78ea76204bbb7), (0xd23b5c4a9eb0e241b6ae50ec257a922c469b2fc9daa7b9ae, 0x6df265e0da2b26d3dbc656b6d443a4949fb436a63e79615a7), (0x46ebcc377422d20d2404520ba961fee52ca480ca5298507ce, 0xa0ec02dec537d5824f063962d45e905b25ad9b69d4cacd367), (0x158078c1f126088a984d8eeb6fcc552258e9b9e1682e382ea, 0x5c75443bd67d3d7ba1b204ae904b78e9b0d22a1f8c77370fc)));
   (6%nat, ((0x32273d38ceedfcc971e3decffa50f8341e0943207a0c5fa26, 0x5eff0b5bdd716a701628f145086fe50e9ddad76ff3e9e82fe), (0x34f1d9c895dcb5a3df266de6944632c47a2a8ffd5226f7ba3, 0x6907d25e531160138defca5f13b566dac64a09446e0658ecb), (0x40b869e4966ef545ecd094e5c38d9bf6085b671c9072d528e, 0x7abb6202d843deaa2bcf8ff1e627842cf52ff614989f5812f), (0x585fc545b2181d5b763ca2d1ce497832e8755029208453a0a, 0x454b157ac12d67873af729d1b2380716e0984b711e06d3a23), (0x81026d231293ffb33f40dd99663488d4bb6c5122277c44dc, 0x301f0a76e81d1e81b80fd9fffea2778034f331e011876079e)));
   (13%nat, ((0xd95f37febcb05de47a193988aa9a97b69cca3af374df36d0, 0x35720eb5f54603e31f5b014485130fd6fea53d34279111614), (0x10c2267a6dd36c4cf94848fe5851fac3562b00763685e5c81, 0xa8cbe3db19dc06b1a9f5384ecbe201863986f323729a5fa9d), (0xa72957c2336af1766af6e116e068ce798b3f71decd78ab30b, 0x9d628a619ab4b1d6e5fa0f5bdb06704e1fc46480651141358), (0x9152d23f743f327116eb98618bcaaeab2c1cda7323b6d73ba, 0x2424d422a072c3904d629ad885b3e83ead65450552e51e7b2), (0x8ecb65c077be3e3eb01c88fab9caf9f74adb88f8948566a0, 0x221fd49d9d4d9a83b1d3b9e1857fda56ac518574d1b25b412)));
   (7%nat, ((0x6d4f3ea8e4e5f6cbb2ef75c3a8326df3c1fb875db9be6c21, 0x63d39e958715c3ba3735371cc7ed3315a61ea53de2c443571), (0x3a77446a443487f93ce2d04b45db8ca74194398a4f2e7b5b6, 0x2ec2ae12aa148ae8f2b89faa45e2314d48510a650cba3b51f), (0xcd40817855b51fecd165cb44151ff98f5dd9e395f004cbe7, 0x84be2c4f5c53157a27decf79136b837c634a892d07de281fc), (0x6761015210608384a3c559fe358d9c4a0ba80bd952da8015c, 0xaa27a4b8489a14595128fe1402d959e13576eb01b9b5c97bc), (0x7538ab797b3b2056b56f36f8d943058f2dc2c5d5fc88ceab5, 0x6070e7d6c41f4c99cd8793d35e400c9837cc4e685a63244c1)));
   (2%nat, ((0x36914247e826991fb3bd931308daca4be032a52674c1c78a8, 0x510f9e94cff80e63c67cc1f34fa375cf192f852925cbfe09), (0x268d0312c267daf779f6b06b9a11b6dc5eec0f9602f875c, 0x9aef942babfc6dc91b84beea8adfcca073c7d3438f1f151fd), (0x8cd60099ba6ed0e83151ca62d0c47b808014adef8d186c1f3, 0x8abf16bd5bcf038742092d8bb70fe8c85a40e665e1e9748e0), (0x70f102cbf0b75189bcd3bfc62c54f25781f11fa1461d2a232, 0x47d1eda22076b0667978d1230e221dc83c98d3c9384bf658a), (0xf7bf6382524313e4eb1b1cd6b0d43181acd0f02f4d75c894, 0xa84a8afefa8631ac873fb4887e5204c658a1b9176a85c43a6)));
   (10%nat, ((0xa62989a7631052e532cab09259257ed3ff5bd8947d61b7399, 0xa37443f6d0d5e124bd35e589b815775ae1840f9c9f2e4a0e9), (0x9cbf73bfaea595af220fc8439fe6053305c5b939541840851, 0x24ed1150de0f5674437ea6a6b1a8cda2b7b6a330221ce1eae), (0x7ffee36ac9aee48ca01122687fdb3da47a727c310b01d4d1, 0x9eee1e93c6680584b95972b8d59facf65be4e383f673eb61), (0x9430ef104bfac1a008773bdef72a3f86208519abdef2c95, 0x7eabc1db3877264ff636a0eb8fb72e059afedb5eeff9e16d2), (0x5350b8a4e666d22174ecd73b7a4da04590bacff2837bc3f60, 0x7bb807e5b9d89293cdfb803285ccc2e3e366cb1521073cb06)));
   (8%nat, ((0x59cd136443d710a18e5b1ab4acd1fac89a98d3483e3b81d6e, 0x78f1d6ed136cc04b77d824e3aa6fc0cb507ee2ca2b2992dba), (0x55d1a73112d854245559ddfad41403e0c489950213f180e19, 0x23e816aa8f0b8eac3f9b25e14335303a017e87f7648db54e9), (0x79069d66b333df37519efc35a403c4ee8f7ac4554f6d5182, 0x8bfd94dbbbbabc524e1854634e59494cb79a7165b3a9bccab), (0x72f9d9a3126b2092780499d103ad64bcd9a8db21bf235f52f, 0x849549d4253581c1998d3cd5e859ca877dbce4b9a0c0a8f1c), (0x4d27a49512eaa0139b07409a6946fd2868b7e6138edaede60, 0x2e63c2762af892b373c3caee805f8c1a01b1d81428b436d48)));
   (11%nat, ((0xca02842b0f98a8ba996c7e95f95b0bf1116e0d2ad6eaa99e, 0x8d5e1396681e66fc4a7194fa9e450a4bf43e2f6e3a1646446), (0x753fb6fdf5f3a721dcbbda28c7532bb40358bb8e1deeb68e9, 0xa122715eaab8f2e2bc9045e01378753293e21cc88eb121179), (0x98549d9d651baad8b60652038451e6faf50ae1a137590ee76, 0x567c7640c46fa0d11b7d016de43c59bc696ae6044de9dc62f), (0x2be2391a8f32b1f37c48cad990b99753d97235854d108af1e, 0x5aa2eb7d02325d1efaceeceffeb4ddb8af220759022e2c427), (0xf027d65ab0b5f1a148df91365381f4f7493301b20041bcb6, 0xa965f902a9cd8366cb88a17a73f2992cd852dd313aea3e2a0)));
   (13%nat, ((0xa85b113b1c1f29ea1b548ead07f4f8a12e25469cdaa0ea748, 0x50862cd8b6264b796607fc12600a993cdca85982304536a8), (0x260ab6c9a3ab130eb8a2bb5b110a260c826797cacfb77a4, 0x5bac2421d32b41cb6bec93e3d99f2d67f7b7ace0690be4b94), (0x314df7c70ef66529d863d437371efd06f263de6bccbbd9352, 0x14f1250b06e42dbfaa0bf0611e1e18658fca57971c4b03dba), (0x292b21138468742691326b29ff736ee6e4ae09c77c263300, 0x43c1780068ee44238ace0536a57e3002aacdb747d1f8e4224), (0x10baf34ff4d0e54bd4e18b0140cc511ef6f78dd9e1a57b088, 0xa3377d5cf3b8966ea698f3bfd56d98ba8d83dd7f185af918c)));
   (2%nat, ((0x9c4af8e9eed31764788f19ba15d2819b5090c526822187cc6, 0x549e54dafffc0bd583892521cfc39382ee0652d05a3bca19e), (0x2a023fb4781d32c2e2b6473f2bc9688c84c41fa9690871256, 0x673808abe2e499d426c9820e522565e7d300f7b679d79ae2), (0x3e81c42a37203507ad61338591929af6724840b65170ea4, 0x903f2f753934fafce98cf21d1d415233931a388f6cf7fd7d8), (0x7a12de839a217c04721f669195bf90b57f00097c0f882449d, 0x1665b8b1a251e36adcde0cec01dd2bf7a8c8526ecc2c24eb9), (0x4d42d306ab5eab0e59af904f01a2feb8b3e8aab23b23d9e8, 0x61964accd0350c0de789d1f37a6370b06fef28c90ae16537d)));
   (1%nat, ((0x37df3bff1ccf7331ba4601b1b499b6ff35904f57802512c49, 0x946ce1dd0f42aed8b1217a8e25235633bc037bf305718753e), (0x813fa0610ded6a45b1ae21fa77a5cb7f37f19a5bf4c6191cf, 0x474ca65a6d79c5e85c18d97efcb4e1baf0b53184ecb45407), (0x1dd3383665b2531358b2d542430f51e8d27b3951ee309f7, 0x6d0b7586dec615f72a83d5cf1578390b79c2d1031ef15cf3c), (0x45c3161a2e3b35555c128026113427d39a21768ed327cf846, 0x9320728f08ae2178d1d05a2f44aa4cb4609edc41ad5e3d89e), (0x810ad31c9fce3ae11c308215d2a1fb63f0f446d7cab2d623d, 0x1)))]
  0x704af144c57286033a24b86338da6ce6242560b3be4bb8257 0x627d70124c289bafcca1c51870b94e15562dcc6aaf9454ed4.
Lemma prime_196_6973 : prime (Z.of_N 0xaa7287eebaaa347ab3ca500924848e087655abeee82156973).
Proof.
  apply (good_prime _ [c0_196_6973; c1_196_6973]); [vm_cast_no_check (eq_refl true)|].
  intros c H. cbn [In] in H. destruct H as [<- | [<- | []]].
  - replace (exponent c0_196_6973) with (Z.of_N 0xaf12cb5e9) by (vm_compute; reflexivity). exact prime_36_b5e9.
  - replace (exponent c1_196_6973) with (Z.of_N 0xa2ce26b46d72a8bd21) by (vm_compute; reflexivity). exact prime_72_bd21.
Qed.
Definition c0_430_04cf : cert := CERT 0x35954213572b429f197fc71c1de13a66b601b6906110a8bdce82a33f113843a41669bb990a15a4db147e0b1a8fafae55b351a773b752 [(0x0, 0x35954213572b429f197fc71c1de13a66b601b6906110a8bdce82a33f113843a41669bb990a15a4db147e0b1a8fafae55b351a773b753); (0x2cdc9187f6a5716728dbca2ab367b8e6989d74261d5e6d04a6baf0e82c66fcd5b5d77f2ce88321d948f9d8b0372020a1e517fbb2acc6, 0x2196568ea42c5b4b4bff7b40192000baeed9eef150660e485fa683f85152509e1b46083103e7eac79830cadaee2437f5f07aabcef8cf); (0x1c1ed45cd3aed027f8b3c7cd0d0153a69617d0ce4314c44024debaf65da09d884ed4d98359c49fba53cdf4034a7714f8738f7e7491a2, 0x366f57fef3c52adcf0a292860fb2e53254690d3413a6f80ef570b5a213b07c7076181698c2ac05d27bcc9a840d8c77457520c9415a1f); (0x2d93284b456000b24c1cf1c5a6f5763ed1b1f252e1f3172e33c648509f4e1cac8a560c792ee1d6253c9c548c6c094d470b3898a35a91, 0x103e202faf3fdeaf48e1c8eacc83c6ac8dd0be0cea5a2e8c763caf581a5f6e2373b79c5e03c90751dd074645952e465a0ab44d33e1ce); (0xd99540f65e70e646151ee70a1514eb4e125ba9bd052f28fefac83a6f70e7bd8b18f3ca81aab95e6b2fa761408d752957594f16d12a1, 0x18c4556c7345a7e81944de296687a4db1b55e0454bdbd8e96df98a2eb2f77b22ae848ec77fcbceef772aba18f501275d7026f624e39b); (0x14bc5966a40ee21a066766a5caa56e84ebabf92fddc031ad61c4df1d708eb7527fbd10907a8e48057c344a50ad0c8d88560c866e3396, 0x12a676a049063ea188d7dff0de4012e5b93961191453f6a1ad9bead33a1b4841417df27ecb4ac79734c2f5f58f018a4f0491247289f7); (0xf9d590a36ca95cf521e5aa5677ba373fbd7baae4fb2b65481db38b44c0dcb26a5fd7584e0ebb913632a0f92a2be20d7a937d85399bc, 0x864779554e4d1215ca7228271ca168d2087c82a6398eacf969535219fa38419c961d9e2738bf0b16809653d4b601e5d22eb160b0d11); (0x706c598368ae0937dfdc7e4acd1fef7d87a30b4b80c4a81137ca431ef913f1b520bdfa48527d0e78a6e1994789df0d3fe9234c36ec0, 0x1b1b199a7adc8f503169c074ca1b013193bb08d1a6beec5066ec4a821feccb807995ddfc45c444229aada644d8a78c2367e0600dd643); (0x16b1a847acc2c1f68439d9f1d09754aee8334258c90c91b633eef4356d9254a9f49bcd098f266009389e451959569f6b716d43c6794f, 0x3db3221339b39a663c73354fbcf129437b98a70ad164c205e7c324c74812f0fc8d8af7296999de6a6ab8da4f01a8c94fb54678d309d8); (0x33a83cf6a0e63a1d9cbbf79d69658a65d3f2e26ece50bb6fbf732846103195869a95bcf4803cd0231203a6e5a9c9404a973e9e12666b, 0x35a1d5ad92dc60152cb008f5500846de7df27a242957a9b4b817f236dfdc85aa5553697c2365b826e2683f1b53b2fd590e3f26ec1c83); (0x2ce719184f2b16a3d2da926eda7f74989985bfb30016ad9e837b77b1fb44302f96efbabf9b41668300ee87969cd329c2b043eb526eea, 0x1811543bdfeb7c364b1c1ff341dc54ddc33c061c40b4389a31616f6474d339e0e62730745ef2802d69f52ade977ec00529a564d28c43); (0x14267af2d59ee6ff26bb6a6a88e5515b355fac344263b3dd275747563f14004203ef52a4667c40d32366389367cb28b0d0d1db33dfd7, 0x2e1b28b46f40d55f2763e20f6f928b4980e2a4d80f99917bdd7d66db7b6a7889d2e4abef1e7b22fcc6f43cf2bd360e9e00d934fc03e0); (0x269a048a210af182b1b8a275b32e1c7570625f6f3d63521f94d9822a55b697a69ebc332fc57ec0698ce155589c0a6b102cb2a108a752, 0x38db8aee6ba5b09e3bad52ccf903e19103f2fcf510a9f1ad30e780d8669ee1f11e3ac158bc15fdbee998dcf72f6384377af322e3ce52); (0x2f9a68e07a1bd15a3f01f22b7b389c9dae4cdd6b784bb4de52d0a331d461b2915c43d1bdf498128ae37770a83bc17b93facfbcabb898, 0x39c778110c25949028885750ba6ebb0cae912846de55b17aaec49c7eae5a3f791b2d658171da177d36834b6417e3db398ca36479dfae)]
  [(1%nat, ((0x0, 0x1), (0x0, 0x1), (0x0, 0x1), (0x0, 0x1), (0x0, 0x35954213572b429f197fc71c1de13a66b601b6906110a8bdce82a33f113843a41669bb990a15a4db147e0b1a8fafae55b351a773b753)));
   (14%nat, ((0x2cdc9187f6a5716728dbca2ab367b8e6989d74261d5e6d04a6baf0e82c66fcd5b5d77f2ce88321d948f9d8b0372020a1e517fbb2acc6, 0x2196568ea42c5b4b4bff7b40192000baeed9eef150660e485fa683f85152509e1b46083103e7eac79830cadaee2437f5f07aabcef8cf), (0x11a06a694affe532f6a6a1ab9e8e4660aaf6758cbc8f6f1eb560fbdee40d12ad48e622d628c56f6c133528a8f1a24501f5ff2021dbfd, 0x103e202faf3fdeaf48e1c8eacc83c6ac8dd0be0cea5a2e8c763caf581a5f6e2373b79c5e03c90751dd074645952e465a0ab44d33e1ce), (0x41f4c6644334dde3c6dfdcb8834310041c598229ae4e652248ef7b872381d02a9485df3e986637f483b91bf187ac39d8d4d4e2ebeaf, 0x1b1b199a7adc8f503169c074ca1b013193bb08d1a6beec5066ec4a821feccb807995ddfc45c444229aada644d8a78c2367e0600dd643), (0xb7ae913fc3fe7e1169f1ea19cfc65d13965060928eb577ce65aecb000b5a7b41b80f1546c93f082849e0903898a3e9b453aaff85744, 0x3a7605bf5a0504144f00b862d63634ed5edc5c2d99df7dcfc22020ddf965457a97fa1d1fe6fc30e8eef18be2487970353b4452a2758d), (0x34c751c5286123dbe5dc2c81fbd0782632bfc3f2b072af4c44cfcfd5c4e530744c9c612bb26711ca57a8331121dc1cdd757384b2eae5, 0x3de69ec70e337d508aab5adfd8ea0cbcfbd342d26255a73981230de65dba0bf96bbc33075e492b264428ed14e20533b72d0b6ea635ab)));
   (5%nat, ((0x3bdeddb233b17a30c952fea4331a9578543b7ca9723550fb233a21ead2ceec3385efd84035110a7d8057ffbd43e2fbaa18c784ad0a29, 0xf603a8a4f8d21de41df02b897620e562da4e321e5086842c7458b5a482e7de888cb192a4b285661139287a4c1630574c68b1236512), (0x3b1ac20a9c4aa5d0a8caf04f7437074e59a9e4a293c3de723f1cf96aaeb955a8d236762407e80902d9abfad4be43744f3e759e235, 0xf5381220ace5e30e566065b7779a8fe5d2870876ddec6d354e146046b48097504be53413efa511223131822e1c7e813ccd245937869), (0x3ab917be9ea1116a3271b30905acf93760da7bc28090ecd39a864b635e0f7755bb15c9fb19a259cfb8ad2fc3ddef74c13ba84f41719, 0x2c0f0a678bd7be6626b483cca66a8322f2803af976e15348ffd53d8af744711b2ca76e2d29683af78d6c586a49588ccb060ad0089da), (0x1e54b1d7428336287097190d57dbf72834db58cc7a100bbc6dc74cb42822c5484b6485ffaacc19ee1840e899085d85b46d10285ffa, 0x23fd294114187848c2ba9503c61cfb53748e49092c71c9da625ee2fbb4960e7803970c548e55ba74797f6b62b63bbd3545b4c2338a7e), (0xded56cff5a8d60a96bc8d95fd77fe22a2329807aaa677f3f59e9a501b7808fb040b4f1b637e13f675770b28ae5450a5462d9e96afaa, 0x29a17a2f8d6a9c0f0efb8dc978caf1d3bf7e134e679411bb1958ab32bcda6ce6bb4de484b9c8bfe99b81f0ba711b89912fc287d1e1d4)));
   (6%nat, ((0x1b147bf895b586cfd6febfc156e395f1e7005c0110700d56b12c04dceabb47813bd3b1931c11015c8ced97e2914178db1a380c6a8956, 0x2fe5f9386f4f0886d631c5c41506d098077684d39577f69e3094190f17183f79f54ab9f81201b2f9ab98d0d98143641d5cb0265f306), (0x23d9006a29d3f5fd95c4947e2910986671b5375d2c84f175d627f31aad38b83e4c21f14d15abed04acef47f8f74ca8bbb0cb275d43, 0x292f071f14a9891f2b7935723bc30e45723c36124447f8f2aad837f1db7996ba2c0290e78ee7a462af8a820f142d3359d5d399d7eef7), (0x1a8063ae48ea6c4e766285024b094f5950dc14ee2d93090b56e311452bd880fc183b565ba3935a6ab522ec45678d2eedaeaed15348d8, 0x3ca0f35e1769118a556e58ee04b554415bc65d71abee99cc5ceabffeb6c4e806e3ea48058868b5febbbc5ead4dce2540d4212c3eeba9), (0x396f5d14dfc91a55be403eacd67e81f0fce036eac4725ad37b9cdbbff1121c90217d167ae5087d844cc6bcd404d8f3010dcb0caf1c68, 0x3d1bed9f470957515778cb00136ca481fab937c273856a282f4f2ea8c6a85844a29541ac4d6ff61e6693a6cef479bf790dd2a2ba1d79), (0x11cecc89aac46b696afff998b057a042bcf935b507c6698b8afe4dbab9a537dc74fae3e4e9915211355daefa90b635aa8b2e079bb54c, 0x24e1a71a77cdcec6295a6471a3d8586232dec24bea35cecab1282b07d9170d0a1762a366eb52aae9d91dae8924a5006cb389301684b)));
   (2%nat, ((0x1540f79a6d3013e1166e8c27984d38620aa81b060548971f9ec8620af81ab9a6856d968b53d71b62ff00bba28cd0b7848b1d46c85c, 0x28917a9fc280fe0f3e4dbb32715666d873863ff4ba485803bfc70f3bd8b2cb42b087d8947674fc6a6c1db51199ab07d51c6a4fe99395), (0x19b723f841fd3a6acb9afbb5cd617ac62a73c9aa6c2ea86dc7eee34a800e001d5f390de831402fb6623756544fcf10e33fc7522878ed, 0x1d658c4143b3aa06fce3428254257abdb6f9e08c8d3f20fd56c5cd0efafce91b6b35511cff2a3a239056859b8301bf367f60c60ff916), (0xd80a83b06b64be6cfaa367f747c611dc6221ee6154987893749b87d4481fc6c57f2ee58c5c61d2661a64637073be5cfd94f1654bf9e, 0x851ca1791e2b32cdd2f2011655048a40ec0a54cf57b432dcf3620fe4ee3e39fd51d7dd2ecdca891bf41cd94111b0a1984298d546522), (0x114db0bee46c435f36202aca6601c4085bba2f871a42d08885614967380f2e0c2fe6e09017202050a2fbc9227f0247c87d764cd1242, 0x2dd0f0c496b6661867cd49b8bae408fce0bbedaa24ccdc123e9590b14af000a25771e499a9f6d8f92404a8e7615a691ea8be86df0d26), (0x180b5bd08b1cd0cfa390e35c071c8601c6c7c195a768ab19ce1cb32b5de4984bfc32149b07e9504649f3280df42ddabd1443f22bbda8, 0x13ef6abd33643c022f5bcc27b55c43b5dcba2fb2e67c229bfe173a4e3cd008c7af2ed2c07f5d195cae08210551e60f53e623bd0f76e2)));
   (14%nat, ((0x635a7023da041d1347e3d3b614509b2f745ca7a1609b183929ea1dc3efc0b2afe125765e5913cc5a9742e1dc907f3a76d6927dc5d51, 0x855cb7735ff3388a373f5a46809d64d206549ebfa167de5ea0590d6500f3bf854a9b3f1d41d534f483d2fff3cdb98b2fff8f9776705), (0x115e5e0c900575af550416e2d48ba34b1386b0f9225ca13c8ef3da2bf6c2fde9fa1f9e729816a32b1a1a93d236387e29a214f803718, 0x15637e4881c129dd817d5f0c4f9ae491b1d12ed3d986318131a773318b475642e21618daaf76f5e866fad8e870cf6c0e5579b51a19b1), (0x725e58b3ea6022070ca3a44b003723294b6713f397d6e6a86074e28d6db8cc4b4afe5ed56802bf3ca7cb0c1730dfa2f74012378251c, 0x27201df4bc6f63d561aedc2a297d9d07b410b14631bc4faaed25be913a97641d8ae0e5ab4d1c58b0baf9ae62c0676db94fba60419abd), (0x17eb34a04869a3b3d31093235f589dbbc76a771199aea57ebe502e9add2bf70d5e155c2464345a86a575c48cc0f9de74ea2ecb6bdef1, 0x9925dd8b29869926641474172e62914138762775a1b236a04e9b7f3f9dc052fe1ca65c343a30cbb2b6f8c92b7b42b3eef4f2a17e6aa), (0x8a430a5c9835ccac7e29846162bedd1154c7d9c3fc67d59dd7d9f21a21881bbfa2f75dfebecb5ff1ce8013026347d0d52311ed09f06, 0x31dec85080f1b510664fe8a28d847668d3d9ab38def3967e9235c577368ecd6b7203f2b7ad6e8d7c5c487bb7f034d2c295ca2e3c2fb2)));
   (3%nat, ((0x26dc2a3b66e835434a25b42543291a65b080b8abd51d3e2c4101b9772c5fe7eb0764d67a3dacb53efa2e25196a9a4d25d0e243c8b449, 0xfb25b364d72f6ed2626a5e9dd0df25a21a2007f0a1ce5afb89a2933ec681e9b4e04f855c3bc9d07f3cdcfd688f8deb758cd0bcaecbd), (0x3d98bcd545b4d8eaef2da1cd6dc9b649355f9b8d4e99ab074224809f17c74b8ca28e20d06c74513f244ae335f79e4f8e223b26f18fb, 0x11277bcbdc49665f53a2f4ad8d8c3b8bc7c5dfe2eae05eb96f29ba55fb2213e194b6c0c2c6b800108cabe24390871ad9b9528710e494), (0x49912201cf197edf1f54ac8e129ce1349027ff5d4c5e2c4b90911f23c60256ea1fac9111d378699dbd4e99a3a8c142abe9f05d65f13, 0x1cb5433e73a6ef7eef0c41e80afb5584f662340e86ef105c23f0556f4e104a08f9d8d7ece51f3d15a54424df5d6d6a59ccc54665c933), (0xce09c37451738e02102418eb19cb297a63bf3e60bf06600419d1bb2e1e4f1bb57951e542555653f054d242c7a0dd3876ee53c3ce040, 0x1ae3fdc6eabbaba2eb2da06320349e5a9b37296be19c2e8164b1bf5ed5f44e742862468603e7ad2fed626fd18179651d455cfa64cc69), (0x16df2685074b8a34ba0a4e3ee505425d3a5e5308cf4b980812d6e27e190b762379f3e31b44ff64c6eb96337690fc23810599779177de, 0x109736f050ef24892d46e5d9382bdffeaddd94860888ccc181a3ff75dbf8e73b4c9f40fdf79d459c081a3b1e34c1ade8dc870fe54635)));
   (12%nat, ((0x44d00bf959e89abf383f3a053484c1118ae95f0c17cb5ef06faafa16e995e89bfb4a1e3a66fedcaf5456c8c32ae7a73da92ebfe3e99, 0x445a8d9c9101223596f2acb94a10cf6aa01a017041eef749d1646300718f3df9c01a559c9bb95ff7ed7387201b5b8e9efcdb6870542), (0x4900ed0c35d199d3444842f4a68ff12b4ed915386c8b7f53849b5bf2ce43abd3ac6079c6a3f107cde9937b4909002fc540ea4c4e5c, 0x464d38da7c6b2537cc124f9c1d9849e9b7d70260702d6d0c55d5727c34984c15d738744e04da2a25fcee3153307f0bd4f001afed8a0), (0x4d39498af06706d7a99a2f0c1771e9c6d644676982f1ca4b21337b35d2ead418c90faca98ee9a5ef9b8825a63fb3ef764794b3e533, 0xbc6e5a8605bc8fdbef66ac1b71928d4d7b5d14de5adb06c71c7096b87b4e823f790b5732e17c6a6900ac733a4489ab931142ac443c3), (0x22ac9121b0e718e24fd3ac064e87597fcd476a68a3e0893bc8b9f03cd73c4c3541f349a49d7ce3003c3746d12f1142f93333e980b47, 0xfb780c3d9a574760169513d3d5b59b7645dc92d7b383f8754d614324fbd29ea5659ae0b8658c255e921290ce80a7176adb6e4066c20), (0xb528ff616f57b9804dd7ff13f418134bb2d9f5431e6b996080e97a3e1eac8ee3148b33f6aa3f755ac14610d507cfb99415a924c8c41, 0x3daf59c402cbd40a3f426df4c0f0d1fb1e37126cae69d1844237b12dfd69bce272173ca43a92384e28ed1f40177f298ec0f2fc078f71)));
   (4%nat, ((0x3b74238d0b2b56fb26ef1a009e75c2038264b3670a40754fae91ec4115a68f2454e9ed69de4eb135381845eac38cf2460e620f89bb32, 0x34d5d69d0f081334ccbed8da8d46b1b74a2782a48539ac97fada8aa47be39d78976c3ed8a111653021c6f7e3f46f80662f81ef484a73), (0x2b9e473a8d8502e967c01504f9cceae3ea98f202952404195fda36f1c112c2bd5241b2e14178608c67ed4527a957aff4094c6cf0608d, 0x36724b7187f3cbcc88060ed49e54aa3850bf8e2e652979d985b10106daee3c396b927f90a6bd078ca4b40eb06a8c8bc31fa698b569a6), (0x2e51ab6cb2ce9c77c989fc2328c427df4b2496f5f9be32f3bb9b0990f137079e55163438f8502ed13a9d05c3c736bbe052e12da7b6b8, 0x3b181f29f52257b26b873f5af94cd932a86acdcd5b80a27248e3898b03a6167f00784a7407321b1d9bd4ebc1f06b86698c005d45f8dc), (0x3690828cca9bec6dbff238dfb78abaac87f8f1aa3c4b4726765ec81ed61bdfcb3edc44efb36594b3390143886fc3f2611893000756a9, 0x3d331fdda41bb10980d45ff5aa9ab09cc5d8ce2eb4442389d0450a69def026a5aedb54709c75f8f9d8019547a4378b61e7cfe2ec4669), (0xf88304570ccfe4e9d334b79e1ec07f6965400ba85e66fbdc2cc36a78bc4b7b2ffa39738ec068ffeab5a55db480c61e4230a076f91f5, 0xd32adbf2cd2e52a511f4c1adff0218dc292d64bb7d4a2691f01a5327b1edc8504da09baf0102d9cb9aa59775f7e154d611bffa61863)));
   (9%nat, ((0x2b8beb6fc9b7c03142cc5048509567418099a4e6077fd728831bf329141707cf90d206c3e04be4f39e61cf9c71b82ba3389ee1170c3, 0x1d415eeb43b51d2da02899d55c3bcad6cc71264c673ebe19cdd856083341844cf0fea5f99c3c6e780ad266540d2f787848a7f00a7c9c), (0xd5f80ca9004220e2537a109e1ba607c15c20ff640be9cd68bbf0cbd02ca91860daa8837d807027b05ad0c34a3356cef48ccbef426fc, 0x22484c0ed173a2106ffc1950c94572e2cdc2997f401618e5313af2c0a04aac6986076174fb0080881acc4a9cee0e414e3308c1e4094c), (0x125d227b3a45553f0cedceade6e5ca28173388f2cbbe899e2f3083907a84b8961542ddb311492b9b36baa69c5565d669e9e9d3966f46, 0x3a46eaa5ebf931b6ecc2756e7bc2ce1b07757d40b23d0847762866bd424feeaa142a6e4d2779d780ecb1b0a067f24a567372e4f75cf6), (0x3510d7e162f6d6eeabc6281a4019b747627cc624e0f598ec8381a14a6f9ee78c64d47e7378d0253533b2ce81b1f8020538ded652c589, 0x4b5b364f8e8fba1eabdcdf2cac120750201565a6d1abc9465f19ec8cae93801e13f681d43fa1f30855870a8e3347076f2b127c4de9d), (0x48a5dafed242d00313d8a209a57bf99d211446487c4ea2b2096534187ac044b224cd309751df36eddd9222bd9555682a2c93b833266, 0xdf207860e29b8b0aa8150fd09ccd6628d7004a787eadf4b4d966b91d792c4002bd908068e715cd996272443290ea902587e9f7900fe)));
   (0%nat, ((0x309e6575c6e7a70ef8c5ff18ebc971cc3150480b257a8ae6ffbfc1b3f757fc10d46562060cc7de4f6d7eb394f794918773c4aaa1045, 0x26b99539f71a89610e84f3065c0eeb81b5a9e90e09d61537f1fe4daca0d9d7253ea2afab2abbc866fc4965c6b8b45c5aacfa85ffc039), (0x176e7b58e87e2fa0eb5b5117604e871cc34091cf171671d28d320a9554ff998d7528b3178485fe3ebfa3b67306dd06ffb82e18c2e37d, 0x17a73f68f1cf6f23d032a2a3f9a69027ddc31b595ca9a63fec976b78f091881e9dba7001ec26a07afeb3a0c00c368f21b83bec4ea69e), (0x8bdeaa2984e5293972380c8609a6bf1464dddb4f366b7dd064f41433d9c56b04db50a5f560fa6179eb8052ae0fba289087ba3a39a7f, 0x103f046af03a06ed9c0c4ddeb14247596e4b8b2068eb55477b2bd5eb5d6a96e536b20cf1b57202c99520d883b078429bbc49f18a60d3), (0x41fc0422af4066af8996e51bb5303bb7ef7481967d947e8bd662afbee64aff229555c3efca369e74bf9132741a7c83f9d7aa4514a0d, 0x22af7f4bde700adeb43ce50173cc7bad594a4c0b26d809ba591c3fb45aceb3eec815bfa1360e9e65890ca5af528ee1dcda15bf6d966), (0x0, 0x22af7f4bde700adeb43ce50173cc7bad594a4c0b26d809ba591c3fb45aceb3eec815bfa1360e9e65890ca5af528ee1dcda15bf6d966)));
   (13%nat, ((0x12cc587dc070f5051841c52d1646f1ca7f04edd35722520092b09b0971ef63b9f1b87d098b5a2b8f9f206ab684d2ef69e56a1f6be1, 0x3cc5dedbc11ea277b578f0f5869853ef0acbde6dcd99a0823587ae6bd5d89b7aed6f9aa4291292c076f16b8fd118eecbd7fbb32955b5), (0x39b5659f0afdd38d1cbb251caa65127eaec269e76da33a250a54721fa08e7a1db1d3bc1487be349833eb1bf6cd41d2df2439cc4f7f43, 0x257d80f27f409326ec84c208a7b77001e559c5df0385bb75a996419dda07e5e4321b07b5d1acbb454227407863de9db474884d17becc), (0x15f613351a315239737e7889c2b8102661e021b83ce2b523342cbe5c73b877fbf7187bf814a212fc72c5c2fb180d883bfb19076c3a9d, 0x35f55a5f14846f9fafcc37b45bffbc3c4410e241a3fd7140563997badf545eed557663aef51892f446ec34d7f062a88a31fd4b5c999d), (0x2d7e0a45e18c65cc8374881e7b74d55fa312827688cc50cf87035f4ee3083ab72ec75065ac79746f35c5b7dbee4126095c9fb38a37dc, 0x2ddd4cde60c113f55b8e236e3465db8cd1b73a1e88a61a4c453562ab287f23f0dc5cf720f8715b112973ec05c42c61d8af6dba166f65), (0x28bef815a7761b5f0c4eb5d755c0bed81f92a42466cbd7f98abde89b10b51b12ef96a588f091f3c916eab12b46a1f0f2c2c4d52fae73, 0x70dc8eb06f4a51b0cab9dbabb5dd4f15f71c34c02bf3ba46fd5ae8de6b233f016a53f72f33997e8b396ed93064370c1c82addb195d)));
   (2%nat, ((0xc706eb7fc0a2111b09c4303d8659f7067860712be4475217caf18ac3758ed158d2d03b17a224a90163872fa27db6cf1761418abd, 0xadbb374c8b772c7e362364073d61417dfa7d497ad9c95921de6878a5d9b565c21f4a134c04fe1204ddb48c9f806a4c412542cc628f6), (0x1d79a469d2913343795a8d392e5900e8a2a2b868c388b97aa8a388695baa6d46050dff3b315b2590b897c138b693ae581dcb923292b, 0x116ecaf0ee0367b0c9dcc182fc1bb7e09ac3b1bc94b2ad1d0e6cfae56a556a1f0643e9a66ebf93962b970300f28fe50255170a2bd69f), (0x4bf9b9c1e28643c68322933835344d0cff62ba22e842b102b69d4bc6024655026c70726a296807938fcb4e9c09c12b8ca1483af942f, 0x2331a108950fb49d3a24af243b94ea7b53e8523a7d5a3f6dd1d3d4da1cac0b7b2689ae1d3416735a7fccae78d78f508d0192fc23a8c0), (0x135a6e9d8d5c9cb62c2a8069a9242b54b1f8afaa7095e094f4f26cf63574baafe404be40b3009c5cac690d00b90d40ae5d9b7fc12e59, 0x29274658d5b40556154636e3639e17b385e21fad060ba3e5b381bc4b98c66e77f6d4cb4ecb261d0548d5f63d840885285ecf7111b209), (0x1598ebfb2da24ee936ecdc07311cf7d6aa2713cf107923983c764c658a84dd132c89a67f3fd02c2c0d0191aa85fb552b22ac8fe7162c, 0xb691d9282ee3a855d912ad28b4cfc3552a80dc73f0f6ea2731b0257f1ccb8337541f227a97074750051b23b34ab886bf25884f60fb3)));
   (8%nat, ((0x208cecf736997dc2d940cd499662f4d94c794d017b0017aca13e1a9a436e3ff1fd86bfb8f86c38131b6e177504af7e790eb29d1c229, 0x9dba9239ece21a0a6bd87731dc4f06aab3bb52771f60d46efb8534a85a76481876e11b1012702f92288f352723861fbe1a2988d402), (0x184b97d4f70feaf2f74057071fbaaa33110559e11ccb060c83c76ca23ec4c4923dd496176b6c793ff38c6b5955dcecfb8207372c8, 0xa8d7c2a045c81cb0ce3b26f351a45065b1b7c5f7bb3c296457b565e143439e7c1bf0f03ebf995b121c736e1dc8ad238e3c604a6604c), (0x1bd6f952b630ca78b61356fc97de6283326020f5e3d3c9015e95a027e252b21d0b257d728c40a23a56380b1c6dff99d808fa8e01da4, 0x3cf7e61841fffa1668692cc4ddfc40e9fdde3d620c3ca9193d8c7047fd4f908cab763f4d3472a7b43d3ee06775c937d59319e0e68ef4), (0x3a148fa4c23bc84dfa47b2d32857bc921dfb60a02737581fcec43385b66fa613d218fe0cb3956f8e08db1624b4a522fa7c00c5b2c44d, 0x2b305b9c443be6df67761849feb615fdfb8e686bc6484b7dae0c6a7f6258fb90263a528b854255adf010f81a7700cdfc77699524aa4d), (0x124ab053b5c48eea31f11334ffb7a7a578293efb92b88d0674663fd3b067f2a30e587ef44bf829275529685416b749843ae337231de4, 0x3d75d2371fbc99bfcb919f37d9cfdcde1bd2a8aa628f51011f566507bf995abef5805eabb87f771d825e56b1436b04013372598d34cb)));
   (1%nat, ((0x3b0571a060857e680e2dae3ca7ed1844c0e7f763bb40afd15cf6fa5d6e2cc31f4c1b0a546e165325e6ed39c81547a69c2952a17235ae, 0x26498516ee694973e3399a7b6aaccdc6de2fba7b4ec26803df06e6517cb05c05c426f25072e4f6480da5abfb7fc0a3ec7fc69eaf947), (0x16e7a27fec303e8627feaa71dc6ee8f518185a92efa32723fda4f307c8c96813b0ba252a3c448f78ba6b454873b7d203dbf90a6329, 0x6470c21253ce48a756fee1c4ce6e2b903f2a18fb76f300e0890a0c309d3eef48d70787e5b9296e378fcb31b3d10656e6087b4c75f8a), (0x9da12522d289165b63ca007d6f62479713184913d9bac2c15902809f83e0a44d6936c26b39f9fb206d4cfa44001a5a0950e6c1cd2c, 0x3ecbf32692fcf0b52ef36898aed9b8beb2c17a3afe7c81524e79aa7b2ce4835255e8ac545b9caa4f7104bc43a90d6b1ae21306e1fd0), (0x3d9db108d5478a66aa2d185d4107db51fd5ce8a07560cafa7231b5ce492df796ee6e709b837e736e1f14bcb5c3c09eb5e27ba287af, 0x39c88a777ed77bfb784a94db834a04568dd023753e575e1cdd7840655f523a9aee133683bb9c249791087ccf174306273ed292be967f), (0x3060d5359845c1beb1a50869d7094cf072ee754f022797e6a077f1c74469125402f39f43d5b91c56278ea2c1f9fd0d7f66fb8ee98c14, 0x1)))]
  0x1fc8a614e632cba22df74d37a9e34be0f9ea5269e587e91ecdc57024ecb64dc03b935c537a9334f51de890e6b21e99dff7b8afaa6caf 0x1a9c497c7d6b18270a1b396bb1655818dc77594b55830cc0ed34586d9615f2deda5317eb78e5b3f211697be9942efbd0e3e646686363.
Definition c1_430_04cf : cert := CERT 0x350beef475b2f14e81e201f2461895bec62a9b1a2e427380b587e65135cdb3bc3500223231ae3d5be1cbd60c7db10908af859087d8eb [(0x0, 0x350beef475b2f14e81e201f2461895bec62a9b1a2e427380b587e65135cdb3bc3500223231ae3d5be1cbd60c7db10908af859087d8ec); (0x2bf7c5fe8326a65229b70c22169203e9280ec0b97b2c7ffc06f48426c42be1c6bd7e8a07a37abef68baf4de0ffe21b37e5fd40eb8f3c, 0x36fba4f271a805b97677f63f545284560f1c8703462b33a7fb3c48877a5f0a01e23d6ed179881c8aa02c7c334ff590d95d840bd5580c); (0x2d92a522f1b2e555bd55dc2df4132d8e537b148f61e16e3abdd30326d0761d9ecd69a1f094af65cecfa1a43c0286512cc52932241191, 0x37a11b519a17d0eaf7db24254ee7a78edf127e92f925f9cab64471366482f97baf5d0943e7bc1f5c0e4058271ac7a8670c9f0505d2d1); (0x2e1bca03dfbfe1029a203aab2149a22032b039fd719fa212a743cc2baf18f0bc95e258defe713e27a7103d62242f37f0e384f7d6014f, 0x3e5d46129ce2c0c506eb20388324b09ba9828a2db429da2e867c41cc6ebac93c938c839fb79f51ebd679f5afccba4ab99e6f43da65cb); (0x33b0dee887ffffa64fa22104fd7a265ebe6bf22d004e3953dfb36f5bc8704d1978a09ce7f243fe8eefb9d1bf79666ab6995c72d114ba, 0x259c16ec863953d7b20de6cec882c15d7fd8f18e5a5b810820ee01d23589eec5a5c30aba0d5eca15a98f6cddfd9d2044f073d44174be); (0x1f2c463bed50060402f806f6e96fca14baa41283e214fe3520703af0bfce7f59f6b07e355d7f3fd0a0dfbb6b7120313fee25d7ca224f, 0x223c7818039be47128056494b9da55b54dd5e4f856bdbc593a7a072b96ccb31556f65fce0d6a4674b42a7efb41b1bb794596c783f547); (0x1c6075ac2b3725c2113daf25c443b61710d61892ae8f59a950d632eb203fd9b3def83f6da346ba21d438cce8dc787e40d0da3c674839, 0x173458f4fad0c3ee618126ce5f407893cc1201258f4abd65a0fa01e7686a4c214e4edd623d0fa898ee37ea7f03c6ee8c4062e649bb5d); (0x133bad4d76debc8c83fec87ab3e9bd60c38df321caa6ee8ab7a660acf40609e93c083a21d8623523d0d01988d3b752b62682e6ef7e15, 0x3ae0c40719aa95fc19572ec85b46aea098f5af447c6b3fb5dbf521c916b9f77461e09a482261987f73b6c564065a935ca4574b11eac1); (0x30cd1ccc50a6f5878eafb5a35ecbe31ef908d57ee9b3323feb9d0dd67c79c2f25790e9c9a1bb2f148d0a3224b61bb22fae51b85711b3, 0x16010057a38a2375b47a0d4c6fd1736905007b0103322fae6471003fce2c109af4dcb3c8066a784a1e88f5bc495f26867f900831262f); (0x123cee9c680d11c4b2168871feb34b1733b030ea18f95edaefc3ca6ff5d1a0687ee3851f3448aa7358909fd3b9bea7716292edb32a9a, 0x3c5de9169d5b1c9415d130b518d1a52d2101b96916b96d1457f6636c5262d27559512d0be3898069c2f31eea01dcde9c540688c400ce); (0x3209068e9a0bb59f96688b072ea387bf68d954f689f5eac20ae8c9fbb812834c6aa8799621f16b4fee05fa4cd0315200ab3980967a23, 0x217995a1079a697c628e82657ad1d132ea8fcce1a2ce5aecbcb8c85d9c897098aa5c436679136f0599460c496f3cfce5f754b8bc3f9b); (0x1bbeedcb13825601c94b2059399d30dd056de7bfe40f7c1db14acf12c026c7c8f32ed6006c03ce50fdb89192ab8743c2d55c5162ce86, 0x2afcf05ce60bb97e12201af83f5027bbca27b6790ae492c5e78c5e630c2a99c69ebe6207e8ae54e4df33a47d81f8801b9ffe9535548a); (0x23a17b070fb5b2447abb5e145158a18d8eebef587768c9683b8645fd4b4a7737d24aeb4d021d5cb075dfbf2a06bf3499a86b54b1b12c, 0x7eb55e2d315d94e1892b2c8188b600fbdf40eb228f6ea613fc3a57c12bb9dd0a0aa6d8de5f93b2ccd325c55011985efd6011cf56ca4); (0x6905d2400f5aed97838c01c7836f90de462c82a2007fb57e9c93fb7c827462d6fc9b6a5a9282d7082ea95dd4b36376340ad69aee40e, 0x31fbe78d066cf45f746af31f32e0063ec7562c804e71c6dadd017c11daa8e046ef469f25275db5b68752e1dd55e6c2a3019dbe25e7de)]
  [(10%nat, ((0x0, 0x1), (0x0, 0x1), (0x0, 0x1), (0x0, 0x1), (0x0, 0x3c5de9169d5b1c9415d130b518d1a52d2101b96916b96d1457f6636c5262d27559512d0be3898069c2f31eea01dcde9c540688c400ce)));
   (10%nat, ((0x38f09ed721acd81dd0e50ddf243c9bcb323025999bc9709d3deb2de9872e671e7a711bda130263793d808d72ad9b4c003cda22716250, 0x102cdd9a016467be48b9b91224544e41ecc55d0ca9a669a2fa1f05a87bff459d1c5adf9911095b900b66d8cfa96cf38ee75a40a8e714), (0x4168e40b3c12a21e9b606aafc1fcf427a1d8c474e574611661f49312bbf76833d950499dbc788522c20c137b6d0d9057a7bcf8b2af0, 0x3a571df6fa87de2e46f22512ed8c91abe92620caaac8df1ffa77e965fd20564597d3ef861060389f2d06a4f88e0dea0bd26d55f1a180), (0x352e5ce52b96f03cd8f451cdd1eb03d3a23cdb7f830586ea2a2f1ad01f75222f645bc92f16df42638c9abe31ef8337a5db4017e2d51f, 0xf3ae524a702785971a3b4bfec5b37c5c1be94971b7d5181b40ace812475e997f4eceb5ef98679db5c8193d8f57635293e7d64886fef), (0x39fd19bb5223d0b533b137821454b7c1b5f65f1558c5e9d5a754e4732f909fd7bcfa017244390437689196ab1107f3a5d47ff2473cf, 0x3781d8789d217c0975a2da6e37d2e5a1df5d6f487aac772df24b7c4a97a7b3799b3d973b4ef9ecee3e21c2f7a8f61361f179f48d40c0), (0x345b2dc7f7c6cae5f1f7a5cc95f639105efb461d56346dfb67695574558209cedcd117e356e9176758012bca42b9ef1372e3701263a2, 0x291eea7cc6c05f08279bcb194399f80f48f6225f8be7822e2e39868059f914f9e39af3187c223a26db3d574f16c5a7a0d42c0130282)));
   (7%nat, ((0x1a6bab5f0ec22ebed3f92dc0b2463c776aa83003394f2df8a25b47cb61d23929c99e0edda544b6698c99b5a7421c14c9ed1085b45b, 0x342fe49ff0800aaf1086e515d49769cc6688e9e5134c9727a968eeda47b09ee37f6ddd265b29c9bd752ee287f645af587eb45b9d086f), (0x2a8df75ae26e6eaefc11364aea027f3f4c4d472c4c08c55047d1ceac0545efd38e874ec5d53c6ae4c01bbfd083e9f09b2a3ac719f509, 0x3ecb2476fbf20c4470cd86ba4149dc989681485ba23ec21d3944134b509fbf2b1d653c484c52988697c10d18ab4d056d8ec27a6ed9da), (0x3d9c1b71efb9f7e7a6e62bc4563abec842dd8508a541d14b798b6a6561b0af265e4a84dda3299e28c9cd0d2b9718ecc31fa48cb8bc22, 0x4c0c80564e9f72370c5353455785b1971e5c24e16e87489c4d51bb9f7c4d5c23f13df2238f25e60e95b9133b8e12d47fde71dc0a626), (0x5a5db33e1c71d9ef07dfdde4d248249c4e8e8d93468bee470f7da7e7aa07e55de338542075ed384acc380a6deea5ae10549a7c7796, 0x43cd840ff08498958ae2bb61db5e147d693d11a9f5384235412591fdaff984fc937f75393d3f0ab2e35e5593a6b663b45b21864435a), (0x189550af2638716b34014b3e286ec48eb5b9a855c33cf1cd9abf23447f70d8e1f8ca377e6b341d129a59a89d8b480b6d8f7a25f8d7e, 0x29dae70f4025e3443974c73ab3a6b7af73ba33e46fcdd6845cf102fb12f6c79f912f70662f6fb5bb2eaa94557fac20c581b33f59d4d0)));
   (2%nat, ((0x1b5f64c4e447a7ff7d07ee84c3d6dd464fdd63e17df55ebbb4472f40ce9c436e3e9d551c1d4b4c756b09b1c2b5287a158af0d62834e3, 0x342753f4498afe3adb3b00a8cee739fa9ae23a53b96b4edb4b4e9f2b29ae1bebac206ef8cbcbd3bb920cc96820944123a4a322c3d973), (0x2a800097b75cc1b717b87c365d62320fd5b95baf803a36e662524cde776ae8523dee60baaeeb1091b35b98e86e41b33a787cb7d345ee, 0xc2765e080c2418d19d75cb183bf6bfb2a8b5b860833e4a91521087606818e5f02c723b4e1dcb214b118c0421200e8ebbe066d52e637), (0x24ede74fc116f403f63ca523bc76c3391a937ee18517ecaa981382a6fc985a6bd9ebd02da968ef5cadd4e00a9fb7c7dae56a448858e, 0x1bcedc827075c7e9a8f6f864cb436c60dc1e0171d2566e7fe3391be5c56ebff67be1e4767a68405904930ca74e3f1dcf60e81dc2a9ff), (0xc1526ac8e5925e7793fbac7998a0895893f6e12e1870052de07fde629a3ff929bb95644fc83358000557e803da3d2716b504eb0798d, 0x812bebe134973498d08e181c63b65e826d30e40c11b586f59ab0ac52bf818262444f591d1fa739108daf64efc7828bcd2f9be052efe), (0x6ef8f430fb8383081a53d85164e5c25707e0ce25efae06d3eadb1c1bd47db0feb0eae1d706e7218a43282e73c3e29b7f767cbbd51b9, 0x3c2b4a49d151d10f8c9ab5ada6a2fe9ff47bd03db6ad43692fafd1e3a709c1cdab85498db01d703da95ce532786edf659d6a1ec28b51)));
   (8%nat, ((0x3891489291e5b71f773aab2da7717a3ab9e76d438b02c3c8580433a9d273578b26121e9b255cdbe5da48efb6afe7ce74e28ee6ea8b3c, 0x18722751ebb2b333972f003e7594e7bd5c3358085bfc3391e1f8c7488a8c90a9f2e3cc1d73394456a8c706625052e9bdc0aa58958a1d), (0x95669199cc5f322e3f0997150f62c2fff6b9baeee9ff139206b4158116cb8297dce50f2fa580ddee7227bf3bdb8b4e49dcfe55b0bd3, 0x217f78412d3fa9ed7b75dda8d96b0ec2d345b1e833e544d6af1435bf8c2c6b781d409d2ebaf6c11d4d6bbd138fccc81e43c2e1586bac), (0x118871e55b49e7f6145d0804e14f2b6637d0d3752c110473e54f261a0811985a684f73a13fcc53454fae884bb49c1ada6f6fef50e78d, 0x27a390455e15fc0e0a8df2d88f278062ec585fdbb9ac3770634d11c6caf4e61e3a0028174b26c02976d78fb0a550a08de638e2becc8d), (0x188cf9d8b13a7dbf5c5a0cc0fd59f98af1bccbb53b5cb7bd48f96242bca64ef74212f142c9ace0fd8fb4496647a3eb4cc260c9b208b2, 0x37eea8b597857fa893b0be603a9a9b5ade0de6825dbed1895e8401836d7f96e033c64c709e4f1c8e81f10c5d4e4430aef2fb5c2b35bb), (0x3374b784261831c0019a6d56397a309f0c7536be37f3809101d8cc286f4a5c0f1f614175a27d44c51f95b0df0230f86c332a0e099f4e, 0x3e65176b4c8064906fd94cdb9f7f443928169411a646d773f5a0d5b258d387503301dabac0c6026b0c6301f173a963c7f2858b5067e9)));
   (7%nat, ((0x3cd47d0dd7740af5b1a00e883174f61b0b748c4f44650c29049ba17a78797827c7342e3e12b0c91bdf39701a905b50743159a39dd19d, 0x18c314e31f71492e980348d32b659ff782cce1a19bd1e4f0249ab4967edcaa8baf1659c9c4d5989260be82bd9ab2b19c18c6d8d9601e), (0x994a24da66daae2cebf93966fa7a734f2e5e5b9249c1e920daa1cf74fdc94452cd32c991521ba7d3c9abee1fc9d69ac3ca8b6a6915b, 0x10f76888875b689534b12bef12f7cd76382c53cadd285224bec68bb27f3d1e5c204d9e6b736b937c7241795cf295606591098a368eef), (0x47f70afcc3f590350aed6a5f0199571d883e9375342a0e65ba41df52805eca447a264f95ce83c0858879fa7f4d53dbf29228663dfaa, 0x6c8747e41a02638d7e97c6e58ca6bb8c500fe36667e0bf95a4b843a5297561b96363b376c0ab9413d114ff26e1e6f7567c4660f80ab), (0xb809b09572d710c030a781965860bf8c2160d45cc432596c4e0f993106f93330413425380ba71d66d060a9a584182e7b9830fe2b52, 0x2d7f7df4df380f1178ee27f53d5292ef1a3d081b714bfb7c08092e18830877b118092ecd0f6a631d98c2014e16c2d51a89ebb7e922eb), (0x107f0817ccbcd91e6f154c02a8826b71feaf7f81eaa3833f080194b9df6ff7c7e7542bee01bd8a00b1ab5faf7616527a6f5a3a9b6cc4, 0x361ce71248f02d454e926a7b9b0a79b5e9f3374915e61b98921084421808256c9ae97ddadabd5731cf43727dc2cdfa73ae933e0255e3)));
   (14%nat, ((0x2dc0d2fc4d5d224bb241852a7d6dfe88bc40c8be00518d9f6779f036fc30c11740cd7efac0a0f38c7b61e1e41f0f1a00e6c010e9d018, 0x20370035f10d99db1579e11e10ba73affc8302041c2c492ad67590de31236d2a1f5e5c4f7dc5704cf97b910e2b394ccf59656b94e3e1), (0x10372f7a4dc416b250780f127ae11b8627a8eb42331b84e92943c402685bd5a1d80324348512b48dd5939545b69f8369907bea4c5c53, 0x3e1f3bbed488d9976043713c6d0e2b232cf5c5afdf4b55f8c27ba7e44bea6200d3279d3fdf9899061537ab0a0744e145ad66731d8a4), (0x3c4c92ffd46d1b0514aebf2d33ecb0cd4f10c64e8f8a29cd2bf37d37eff4df465674e5e42ab3a07d76aa093cecc5a6c98c58d0fb6d, 0x1a4943110385a14a5dece04cac9bde0fe7e764eb08e31b9e8e5b3b29a046bbf3f52cbde2cdc976d05a54ab21a8f060ab9921631327ed), (0xacbda5b17f43fca06d9bceac2ff2ea68170a2d8c860a9c0c9d06f6209da5f16e7ee001cb57678d8d2f67e2768a70d5f80ef0e999f0b, 0x23249f8a5d0ad70f2cfef27f349630bc4c9c5af9e9c68b0e96835fe2ca4525b48d9611335d8109fd576d4968d35d7e061dec367d4b84), (0x1b725ced41ef5ac566d3b342bf2787b77bd42bf5c403b6c5d219ea36e05de9ecbbbeaff9c737a35ae6843325c3db54ba3e93dec65e19, 0x21dddb1af459cff79f0ee40798b34fa149122e10916f78aafb072d044ebe6a79a353fde0a5fc6c6547ed0000904d3457ac6576841e41)));
   (14%nat, ((0x11ebcb03ec40ae5c7756cb86f7ea3ad13aab14f989d9e17b71fd051eddf5bbf1d2c5be1fd6d53889d811e11d32ba75ef1d9d8d45611a, 0xb27d9db05e82e796a7f9e159ddbf17cc38edeb595a79b41ea1d6d2dd82d9933604b855e622d093f2fb02dbcdbd337ce98d3327b607b), (0x1f1cbb3b28b308d4946a49664a7f6d95e8195c4e9d5f63f45f13a16f096d49383a81827820233ee1dcf78649381125cf6f532363dbb, 0x1e1dde968c344858d4b8862b30ea42b24c2eb14e0a4f961e4ac9491c5c0bf6219aacbbb8aa4ae6f9b2fbc018c91400f361dbd414a4e4), (0xe2c0e9de205e201f60e1061dd89d163fa597703a04f5a5c94b8cefd06d5e69f38135c4e6b282299d09fdbb5d10f48beb84164d182b3, 0x1acead746bb5861da733d83e671dc10d5d7d5add74c1b08d3b7b8e8247a68602862cd61164e622dd772e8ed9efa11921d47391e27053), (0xb3a885d0b13179bfb19f430025c8e4a68a2835d51f394947b53de72ecfed71985ae918491492159df9617054c488e9fd2d3aae3e87c, 0x2a1248d37f9ad80b9ce7c6fc1820709eac0206240a714143b0be4c8a86dce42c1279bd5b9c8ba0ecbc61bd03b61a85bf0538057dcea5), (0x20db97ae3e88298b64ca715af837152118b96050a313d90f53d999997a88443b82638859433e56d2e96fd47f893d8cacfbb83013938c, 0x7f12ed21b23797d14726f1deaa3f3cc9f8fa8e21eb7984fd18bb6c61c99be8895e7b226835be743cf18ba36df53a7af5dee408a97e2)));
   (11%nat, ((0xfc4f22b68cde83756e1a8964040a67c2c5aa461e1cdab532f7b508bcddf85a754b0076869ed016b67bc29b96b0b6e87eca1e8ab5be, 0x28c4d30f3b962277d5fc91d846f0951086b73acb5c9fd0032864ec141abb13db50e54667898e010ced40fa1ac05b651a62eb120e76e2), (0x19f865227fd1172f029ae42fec429d9a978e558bb18fa7ee9512d336abc1a33ba289e54a67950574bd3827490b5c50c58ea1a132901c, 0x1a3fa84eed4ed1077363e876745147c5a9e6a8695375c8a0aff06e8a83a32030121a62ac754416cf31dfe027706f6180bf64313e28e0), (0xac3f81136d1fc353ddd16b70b256d72a8803f6599143828fe86369884f218a7ba6d45537e3bbf7910b7074dc9fea1464657f874f452, 0x2e9c950b231e99c8c8b5faed2e2836c3eb5d050abf1abc557392e16239613c02237581602d5a7d12d519611b766edc89e27da109edb2), (0x21f29557f3df0fb4f5315a45c6d31dd561ad2661f6b01275cf934314b40a9af845f63097fa758f43e58b37580a15aa97b54e03943ffb, 0xd726a5a47bf46d6a29af6f59c2c8efd3aef03ac243cde260e419129e2bb46d95073b886916407ce6a5d7572d62302634dd1567067cf), (0x7088a97d4b4f56a09b21b92134e675b40293e044816b11aacc29510e6907282a6c8b2f55a5ae8e08e3a36fd0f489358967aa52e02b4, 0x23f28b0e75db854a4f77b663988a66d1148a913b7ef9398fdfb76380e738ca4651dac6e48519ab913fe1db5c89b98d7e7581b9dbcbc9)));
   (10%nat, ((0x1430df449c66391f3cf292d0016020003bb231148868c490b40a311b3607accbe728445c1db9ec53d57d6ad897015f198c249aa17177, 0x36b785c8d18593a5c723fda1b2b09a799f73107d336ebc68fb1b72d72301fe38a5ad5da433e01e4cdaee05b2b5552b2221da217ac898), (0x2ec7c0050da8b9ff7a88e4bb439f1e4047df97c04ad3941bddfa66f120387c69694b32f4bac82b97b33623958cc8f2f028c15e666edc, 0x274990be226da4bc0af455eb1e9dd3e46d15a39f48738d09451fef04ce0b83f23a41e35ed55b75dde5b9634ea172c4f2b83d4932c65c), (0x181dfcf7330dfaaedd284ec5af3d2c48d7befc92b54f2ea0bbbdc0281b59fb6a096a8328a2efee55e351d9263d2a2c9188d2ed5f4acd, 0x1db2c34c14982dc58a6fa3b8fd482d7cbfd469ffe24c6d177f4d474925e4ce54d85b484a1c6fa2ac0e6521536e9403c9a6a20d68c14d), (0xdc7f44d9dd06fe9e740389472f1ee832a563df1a068b7121710ec3590ca89852577f88e8ed5a6f307170bd2f5bce96dd99e955b7b3c, 0x2bae60e9ca7dbc27791cb1a67c9f1fd4d1768e0633abd69392ba67afe537bd96ccd5f9e87b1f42d67ae45e90d3cec3db8e7edb739ba5), (0x2933935649ba89da74d206cf8a64d8cc72797e51622f0c4888902e4f4161279233e689fe6e186d3b097fdc2bb2de1629dc9606f01b79, 0x25a7380d954c4761f620858f35764689891f20c546102b3159af198edac67360ca5c61f78dc24aa0b905df0fe051f08271c97a6a23ef)));
   (10%nat, ((0x16270db86c9b20c54c0209f57a6e8db5ca4f4d8145979fead7412461dac8beb940fdbf2d50766d3f8bba0b1fa0bc4daa845fbe247d9e, 0x2c30224e92cc9f5dfc454ef8ad3ad520a7ea06c700770350e63cae77bd3b342da7ffda775ae1df5562099e77baed7eb6ad284f692e5f), (0x1e82535f92196a80d4aa2b0343096d24cd97d63a2edeea72412fea07604c46087c24dc1272419e77495290e40c68d799a9c923e54286, 0x16a8f9ef1ed017d43b651959af36f3a848979e6fa6cc3e623cb560c3e5af6f2ba3892c811c668ae29d26da89380b429e0a6ee64b64e7), (0x805e9f85c9cfa0c6d80766aebb4fc9e5a1c76cdbf524951f0add1a301aced789efd3c800ac0743adf1eaa675ec1ae22248a7e490ee7, 0x3556512ee56628327810fe53603b71839f7211463f7b147cd49d536a6d209833fb8a60d6384f018c777589ccf03532438834784d9fa8), (0x2c736ae040f48c272d580e1698fd4744eabb4294e630c66a72108b6471ccfca5207349cd1faaa7bb58b0bdc26b2028bfd177a0ab5cf3, 0x36d97a506ca4d629672bfebb9b387c1802b7f59052f42ad5c7eb08e54be7a75ecff1169df8276d95c03807c73b5243d58f4562df29c3), (0x33bc5e7445a2d540bd3b09eb3dd56776e1208c825a8eb4e52ef8e5ea81e62ab03d78bddc4edc63a429c0bae3659a2587dfe8c8f4e212, 0xe1afe7d55608786e1a8a5ce9cceacc3cc7d998fc59d87fd0e10dff94721f97c5412ca3cc1aa18abc2f2c14dc28d68e478cf32fa865c)));
   (10%nat, ((0x31bdab98f2364d947062133366495e0d0eb051b3e7f7850a3cc1d0933acebe208d6141ef84bc6838965bd3ba005c0d1e34401afd7ae, 0x167de9380e91c23e85eb449fb885ac5cd03a2309e15f330e0b010328fc662132e99cf1b3bd195297ad8f0467e9f1e5245c62c140535e), (0x7e7880cded97a1891091ba71998c8c50733dd14fb744afa2ab418877bcc7d791a450ea139ab17e343c44f05777453aa4061c415f898, 0x1122d147973f02c7133a33bd18a8c643be3b1412d2a7d78a19d9e5f3c95dc581a2ea0247629fa65b6504683935263981714fad87b39c), (0x496921f10c21055391b4bbf13d90c6d0e0523275e476847426352bf383af21137c8ce96dcb48c1cce4129ae1fb94ff9b58997cfc2fc, 0xc1249a59d19eb4f13f473ba160d5ae4bb1915a67544409b828b2d0ae85656c5eabb597f0e80e334957835a5c29377fbfaa93994ed4c), (0x246e0d7dcd191c4b40bcf269e3eae6cf430ec9402b73d0bcd14e48af3748418214e94b27bfaa7b0ef50ab9ffb0cb770cf398c3b00d0, 0x189e17b4034f659e16442db1d54cad36387d15390ab77007d95f3df689c2d000b4bde211976510c56709b1c68b5de1b6afa8f00ce660), (0x1738559b75d99e7f7c4420005f02dcbc04d7b45fa355765627eb312b27f6273f63791a422b6422afd41edd45540edcba25ebc438bb91, 0x57f05e84df141fd31983bbadb0906e8e6aa086f8b370407a620966ce6354abc6ca25681fa0a309072daf4a4e317a151accab43e7301)));
   (3%nat, ((0x78d507beae9f309af6ad281712fa7a2c8e252263ae9f0a42a44f1e2ff5dece97419b27682a98fddee1b2c46f1d46cc6305cc3f6547, 0x1f8dcc1d1afd1b1bc96f7b81310176c141b272592b9f776f6242bcdefa615cf9970bb27d27040fd9c547e370eaae1ca5925e79eae598), (0xf8e97e61d5db6cc6b26d7338bef8ac42714d762b2e33ba9f64aa905d2836a1f7586111975e3fcea9f259929bf11317ede1eff3f2a16, 0x2f81ea01aefb69e14263a207745dc06fcbe980e87c65d4d6c825f28ca1005841387873f13f98f503f8481d829f5a36eba04f8e9fea76), (0x2343d7692766f89f7a1b677ecbf318f29894da84636f409808e36a847ec0b33faa2ae6ee0ae2197723c2e9736069675a4c680863cdf4, 0x15e1f2f776d3bb1df42131535ff7dad18544d02e3e99b6293006571094f4993dba6a25cb0be7d36e5ca5604bdaff2866a6ef6ba09618), (0x77b65265c59a30298d0a5a7533fe90ac1cb8c6cbfcdc86bddeff32e1eabf0cc26e007c047e35a5b5b96cac5a9861cd3a4c3baf7633c, 0x5999c362f7550469f272e36a09c795704e43c29474c27ec16522e435c3fd87cdaa7618d1361c1a53b670968267971d54b7c0e3df4bc), (0x4de1b0f7ae47a1281740a280ed9f84a7a2086a85349649b4f1a0ba124f276721873de5c5e65a43046b915538967bef26a70312c4857, 0x1f9ab3152bd5bf0e865dbdc318dc7e3ce3681e6e70a475173d17d18c68ffa409fa0c2d8ab0525cf1e0fd5c606441d0e368ed42602b23)));
   (4%nat, ((0xf9b536c4d7479f20f1616b43d9426c4dff10d88c9bd945b73b14dda77b373d3e38bc587223d1eec6fd28fccb2b419347ff93c2f2bf4, 0x42eaaea99b326a3a1ad295d16192765329a5a5b498b3f3bcbaa64b7f01dd485c97a6c5c9d467b193b01868ebc7bd43c7dd8f6ec6c7d), (0x45f764cce502d91bdc6bc7de3827ebb6f7e41a0d3c8b357a4b97533a717ec208a92c38a6fb2f056927b99fedc821b0cbf8d98fc6f2, 0x3d05b7bbf85568dec1280240095a8814cf8698c449755951cb81a502aa8c0b5a808cbbcb7be94d9a95b4c95af654362a34b515a0f5b), (0x3a2ee6c1163ab97c696f87998eff8407e886d4fb655a729a62cd9bcf21592ce412d0c581fb3c49d0d6ccba75339dda26abc738621a, 0x30383b1123d2c0e5ccbfca2862dfbd0c7c552ce228102d1ce94dc545d0c2cc98d21ec5a9a847d38a64848e1c7bcc2c79eaf5c6460f53), (0x24548a014a3e70cdf4f163743f01f437f96c490fbf279ba4a8117018ed5e23ee65ebc6fcda7cb9251d9f38279dfbe3722d445f2e173c, 0x2ad23e46155b820703398f1330ebe51f38919b43293f24abe702917f603563ae6c3a80e9fa3528b21e6ab1bc1fbac5bdce9ba7811b65), (0x29ba14b8cabe09331f6a1f010a853b00eaa7788666096e157d7d8803258e1132107f49139441ce5c13ee314b42783391af4ea993a81c, 0x22a898993020a9f0ace593a4a6eb5480e7a17d3e80771db8c793ab24259971d14124e37ec7007d5885eb24822fcb5d9599d1f4a03373)));
   (7%nat, ((0x12c4de45533873514ed46db7f0023e9a2119f915ff5a921949c00cc75c8af97d8998b3e2ab6d07975d46092587d07236a216f7f8eaf4, 0x2dd1ad70732781dd694544f58c90b7bec115737874d9a2ae66842913807f61d5047cf0078817d72116b149527f4f95ca6a2c61613a5d), (0x20cd8ad8be645cc8f9ae9089a05739881f3ab669a5f26429f4dc8991b76a5e5d3a263aa15c417c7a5e7892032205be68827e50348d0d, 0xef14bdb8a509c2664f551ba72bcf4994cd1a2cf9971d4c291d45aadb40cdda1e346c4f091923547b962f62bcf849bcf10c676d50446), (0x37d1eefb3d670ad7de655a06d30b3f6208586f4dca7262daf1f8999cb595a8c857866881e38a3f98526724439718a9cf02eff25bcf5, 0xc8bf3bfc5f2dd125059c1c3eefb50a642c3954577515142dd8016865af2a7fad6e391ded9ea0c75a419e5f6b12ff8654199c84da509), (0x275ad7253956fa74a480097e8a371f48e3cc4f0b726d6d808537ff5623e6620b47b4c537c355524a18f6afeda578fc039ed1c32832a, 0x346459cb2ee66e91432cf4822eb11a944499d31c4df37cc5b4a6dd4b4fc75b95609ba364f7ade9a035bbb2cb59c7c6b971ddd117e35b), (0x12feeaa0815187601adb60001d5fa649b7322371cd244d6523fd15a5c22d6489f6a7cda73cd36ee1506a52e210b0dfb176f5010cc07a, 0x207fb32965e295d28b21e9a2fc8a8339e83d232c4b0b0ffb94eeade471cca25437c639c443c1da480a342ffd6e30ff53371117008669)));
   (10%nat, ((0x1080b1f667ba9dc7c94e135636948bd1b6a329d779dc2353c75e7a79f1c68e05fba742fdaa8f933f81531217ee48fb7df7f768e01e63, 0xa0bd7ede15fe540da42c70b607ff6dcf376ce17c26a6dfd55de846e1150753a1c07ac0634cdd3a44da51e79dce5d6e1e563abf0f904), (0x193b5ab68b92703a6ac5b88ee599f2c94fa981547c4aef3de1ec6b2a8a3639897d86a2cab68ee78f4469ecfeb8dfb2ca244fccb71f1, 0x3d530f13932eb5d97b80dab0d74de05500f4c873d53ceac3cb6653365b827489edb38c7af2039a20d1648a4e11dcb3a0a90c60bae231), (0x3ac2c0886ee3fec8dafa97948cce1efe3e0cef72f0019dfa362fe329a3bdbc6d7b4f6c475ea46654014360c98e852f8f3bfe0e853e25, 0x7175390a66947f6966f5063b55f0aa1923b2554eb61219a39f7a366bb7bf2d4b5f6a4246a442cf99c268be6220541612ebeb89fb976), (0xc922c8217b19f94742b7ece32d67e3831adf65af7a0c5a657a1d108335e6e0f984b9cde665d0976d2745fc95ebb511201985e624fa, 0x38f43545c7ac9b855be48d6c7a5151c476896aa3937e5b49c542ae26eb70397fa273c3fcd5d052fdf34aa99787952e47c7395661f43e), (0x35b8843c06847ae599f61f119610ac307a94e04a3f6a3e6829d1f52d848d6ce5b68f6897f7ec745a04b29b8c4fe76b69771066c2bbe3, 0x34595ee3b6da89d60ac5f9a3a66fed3a0744494409422ce92fd94fc6baf531f932750008a827aa29614c4a476d1f3ef68d1291761157)));
   (11%nat, ((0x2ad1b6fe7f27c3244a640c77bf9aed16980d3f14a1e848a9e689d796be3b884de7364e033cc055ec38b168c5407525c7b7c8b7a81948, 0xabdac7804a5f768b60e482aae47d74e82f40032d62ed77f4dcd2df8d7b959d58dd037599803c8e5ccafd7dcf5e27ed1b74b23a71a59), (0x1cd7805f7154b9b7be0c36f93193fa1467fee67331a1e90da0e85a41e6e5fe1bbe0bb4dfe765cefbac75200bab7a02144842860ec0a, 0x1d1fa6f43adeefc75c4c40b8a38659fb425735ace9963f2ffecdcee7fe9fdcd2fb8f3f992704c69c77150e8d23fc1943f58c48932edb), (0xd40bef4c579a6aa8aac1e9daced68865ebfdebfc39d2ad192c7dab56761b36116e394f83acfd015b798e61d444b276e0d54da5d4e25, 0xa57f248f4cd8e4e928d446396fb5b745862e779310760829a87d243909f5484dfb241a7480a0496a7ca553c5026643cddf005b1ab6e), (0x1abf4911811d9d06e7eebd322391b147dbf0b9a7468d0af045cb92381c021a8f03731b02bf26aa1551bc8829b96ca564cad87639ed5, 0x90f09ee2a9b117b915c48753af2824c17abee9341aca46bddb9dab5125836323f4486b6998aeed0de5019706c8c7ac8d95b85b66109), (0x4bcf6bb624778b9307eba862231f493a5056e0b0b13238e64cfc8babb3e236f171cd16cb829d5b9c43639979f06cb79027a62f21308, 0x3713d5bd6be4d5eed20c5d0ee6bcb443b6285c1a7a65ee4ce794e788014c9aab158dcda9fe09fdc6de9a675af1be74bf1dcbe0b873fb)));
   (3%nat, ((0x2f661d8343bc665ea443858160ed364a5a2859b4e38c909fda324796b68a1b65d3b073d8934ee2544ae18f67cf21b65b7cca6e4b66e4, 0x18fa3c607abb5b7f6ce94d1e0104afd6fd52378502aa55a43df5f3286f416aa86e92104ccfefbd376ca6b184e9e381cc5885aa53b5bd), (0x9bf7fb046c0d3eace2fb44e2a5859344b214663577f0cd880b1452058a89ba47708fe24a903d4cd5f7a2a6698585eeb5bacf7fc18e9, 0x36ac971242e4be08b78dbf034476bfd785c206ed7355ec497afc8c148567fa66c41c255e7413f0c58da9c64871bb3e5c1b32f2ca0522), (0x2eb5105c37a3bf096be8ccc27f1f2ddaf8b2fe5ce0fe6452412a0088397aa0e45f65a4bc74d1bcc419755eaa1e32474fd8d5af51acba, 0xe6bc7485887b2227601308f0d9dbc721bb25877bee3bbc9e5aec8a6284bf7531da2b5fab7d225aa9968cc51c2d2735b0d8f9e62c61e), (0x33fdcb06d299bfe3e687e2e12a645eeb25f2e857441cb2617a799a49ed3add1d77fed4d9e1967a3210f2b71a0681ae9a5dd49751565, 0x1561d9675ede8442a7ce4af7ad66eef71742f998bbbbde1c146a29a94138df6d82f3590539e41c78725b244af3fda5ff159af64f8ad9), (0x1295ea1c489c0c5f51de24f93108d5a2db38f7601594f0786e10331309b749bd58bb1f9dd2fdaddc912515cb02e6455f5cb999611a54, 0xf619f2ab7df8759a562e386994fd6b54d068f9ee747dd3f1088511c9466b1fda808f247727d87eef05ad1184ff67ea9da99a881c33d)));
   (12%nat, ((0x3b257840b8683265b701c9234f24eabe2534f3dcbb239c27fc3504b33427a7856770b3abd1501b6761edf42ec2c2dd5762762cef820, 0x16e51d6284149d6fdf6f8cb5250ad39ae8c31d9a676bc2bf9d5915b4fa92bf6a4416cd37df3eac4fe663c966df79751656674e84daa9), (0x830b86a114d3f1bd098402e39cd093498df06b428f795fa62f0f7b7bb914b82f7861b4d29c81fdeed003016842352e09587ab22db6f, 0x1beba2ff4bd05d475f0678c4dac4b7f30c14d126a9ffd891c5fc5bf2af69d7069c8ec62f7d0f516390006c94db128cef6cf3a04418d0), (0xc2e351a09ecfb1092bef0391bc814efb8a4e4d8998e1f11587865dd3be087126a85aaa60d055a42318ab06c0cb0e3e5109df5dcf5ce, 0x381b070a690b9bff2e61bfa22b0ede4711c4ad62acba6b21c2a7197f79b4602af483282be071072df7e9a9035f9eb9a02de6745faf6e), (0x312f57bc29633b763aa4ddb1c8ca6625d22173888a1026d4a28a42edabcbed697cbc9eb5903460aabd3605beea179ccaa0ef2ecfdd1b, 0x33b95deec53399e2b7734ad577bd797aebf601a20cecdb0ebc696ae87ff3ee2b75b0dc08b4cc7e85a45384788cefb2409bd025cc5e6f), (0x22be11c8c234663fa12defd378996dc31b52fd42b80145cb374d50832de5c96febdd45927b34c9392724bfc100f5c2d68edeffe4ecd3, 0x62dc8cb80a5bcad86ab4f48157468a7565b913bb4ebd09844948c93e668d36ee6d56c9b8225453056d76748cce71a1d19b176348939)));
   (10%nat, ((0x98b666fc466792d67f962b254e64cef0dbe26a5029f3cb9dca096e0a2e90f098518f8fda09776b7475c575b28762fd2810c620fe52, 0x238c09b38d197d03b7590445ffb6af2e3b1fe48fd7b6ae3a348ee75462ea73fcd2e575e56d530aad2ea26ea614d13be28a2f72752263), (0x13be5d06d555a7a8a99c3378e40c231d7dce950f53533cd03de61d7ede2005ff6f25ca2297540ec00fae79751588f08cc4355243d346, 0x126de6a7bb945b68dca1bf68fc4d47b652abe9afeaa5f5d048fcceb9c1e0b36c7c2cfbddfedfbd2a205475f8d6bc5637f813449984af), (0x54e8e774421b095be518dbd1844e2c1c0d3bea1ecb31881a7059fa59ef72d05d0df2bc99d472e37434f8990c15acaf6f5f2cb2a90fc, 0x3d28341364178ed9301427539287769fe0feb69688f8ecbddce841d80da70339540b8eaacea2294bf4474f0d11bc71fdbbe65357c3dd), (0x3a70bc8639698e46e5c9ea5064d8baf537357558606f64f9cd82e11418216789b41004915d30a331641487eadb880b01696794372804, 0x34910a305052ed0d1832fd28f769c5ca1de7600f1d917aa126819f610a1321776396be55234f0a45888e2bc7055a4c93c1242c3018d), (0x31951bc2b5b47e7858c1df52167966f3ea4c2084a561d06aae68e56705411adbdc572a6242037a309741ae284b5314114cb406d516b, 0x1c730dc08b72aaf4c7d825966bdf7aa745045ac5653253ab733aecea894a870ff62858a9f95cb2a9cd150e889d0234bd76f3511dbdf1)));
   (5%nat, ((0xca57adde8edf59903d76393a7e0bbfb007f7b6d548260f1689cd857522be461913cf24e3cab245131c7fb8eef6a12feca81bc99eef4, 0x3c6fecba47b760e016b5d8b73cadbc14360497216f8984c0aaef15e36cbf89ef9b365f1c52c380d6dfb6c1cbcf3ccef78f6f508fb595), (0x39129f99d84088d5c8986780332bf162b9f47c5fc62f9e2843773f1bf592a36ecbc8b1fd44a07965065c15694d1e8525bf94a5f07b92, 0x35173b823f6eb73205a96bc19a67e6286e95d380b8ca6ae4f42fde02cc7735d53fc3129da0de37b97dcb10f7dcf61a381db47205d5ab), (0x2c0a82feb602250497bfda17bd510114859c4740f47bebcffde2f50cb6d546b72f33669500fd37dcb54d82937802634d50c8264ab07f, 0x8caf4642fcb0a2cea5bb109da4e9ac6e17070cbe433624ab4edf483df3e7642957040b8dc74069fdb94802f46e8e672015d54624d88), (0x13540b3699cfd7d21e5517e0ffda0b820553028fae4e15dc24b1cb35d95400e5ef4bfb349d14e22d9399cefac407e848c1e295dcfa1, 0x30246b13592951411322073292e78cc0973ef6163113da5da4502b6845e8ea8c5d7cfb0acd6a9b31b3c0e935bbdd832bac140a5cb111), (0x1c4a77ea9ec615600506c404bf1ce2af84b94052f952f7a9a1d4ede31dfea89736bb20a9d59a3602d738a94e3be8d0e824332845de31, 0x2ae10d5fee4fea618b669e76cccec5e8844307df758a5ce87f6ce4c919bb3ff3c60a8b9a0a699545d4f996c15dc9cd697ebd7a6bb0ff)));
   (0%nat, ((0x1cba78eff6180e2370ad0ebd211b6579acbee6b5fc09e47b9fd9b18a3f203a6979760bb17cf65ba6435e35d599d47e76a4c597ee9ce1, 0x3b7b219624a33896a316f10526bdbdd16d6d299a59b5d22e8a246bf6a096089cdb6b52aa132a61e7f80dca2e6bdbeb518357e5c04012), (0x3747f2d1fe49f9bb642306c9f823635cc2a61abda14ea3fba64fb2c2d5fb1e73d375146a94e2655334cf468dba40edd70d728a33662e, 0x7673e66fd0135a9b983a9e437d0cb1e1edd9433899d6f1daeeab77b228571a652799e123e9c2c1d50704d158d8a0d8b4fe5c4faaa12), (0xdb3c339faecf8e8ee361aeeca6a8c065ab98a1b56d186423024875c77f94b289dcf042ddf6f26f3953d4c500111e51768f9d8d0ffe, 0x38fc041272825cd889c99de73626c424bff18787071f73b1cae15c3f88a07e98091a16570848e5a285e5c048cf1099e940d264de02e2), (0x32bce78059ec38b79c2ea763f1f36fbc4b5f7ba9b101d72271c8c8666ae04752043b9c72bdfc967bc1268340a0b6b49a6ac54e2c63b4, 0xf87c421472cbf75e9c1ad01e78ab7514cea187f47273f0d40219e8a6745dbecf1f3b509fbf41f03384a26d0bfd27e73398dc208e0f8), (0x0, 0xf87c421472cbf75e9c1ad01e78ab7514cea187f47273f0d40219e8a6745dbecf1f3b509fbf41f03384a26d0bfd27e73398dc208e0f8)));
   (0%nat, ((0x3c4c3f15ecd23c6c904039d3583b1f003cfca464aa4e6029316db265b137a6fde87689dacf7ea6243852cb8f302210651adc5c2ed68, 0x27d54cee745939bcf8d5387f2b2dc7bc6f882c499eb95c6059067485d40ceeae34e1110c2a83a434cd1dce6168a94b7667c235d75928), (0x18cabca70d7cfd0cb55e5241f2c9338c9c0d225d118d50d65ddedc8ee11634b654fd8ade9d86aeb7fbd6df5078e15f063611384138c9, 0x1fe5ecdc9ee31c997295da08baf3fc1bb166146f1eb5ada963453496130ed4dfee80b70ca9b66f90720af95bf54890f1eedb79afc7b9), (0xfe5f77c315b194a27e1fac244e20cc53c2615800a6b0074898192640dafed369eab2363b12af6d92a4e5381526a88ca792a4c94d88c, 0x27eb4b4ad64bd87d7564878ad1e5fd90fb6657de8d5c207fce687c0430bcf606f58d2da4a88c7d89f66ab3b24b34275a90d9c645da7d), (0x18e624d07b55ea9ae0bede60ecd7c763453dce7e38959d58fd690c2fc68ee374e6d23181124b26924c1c59dddc7222faa7445c62ed44, 0x3342e435ad55e3532d7dc74c8d3d5d841065da0cbc79a00c447a5ad16fda8dc61ed48c06cc372af6cde9d3a1d15e5813f6f677d4370d), (0x0, 0x3342e435ad55e3532d7dc74c8d3d5d841065da0cbc79a00c447a5ad16fda8dc61ed48c06cc372af6cde9d3a1d15e5813f6f677d4370d)));
   (9%nat, ((0x290ee19f68b5037a4b74372d3da3eb181db8b9a77d367742c5e416dcdf70998d60dc303d0e38dc30d95e1725846ddc32040e2297885e, 0x34469574652d48e622d773e8625112e82a2f5959740692c196211beb2ce6312104b52b5c6c87f06560a67691eb8e35005c6310dfdaa7), (0x2ab300b57009b44faf953641e17313003fc4a0691c7d0f7afb64cfac8ad9761fee8ff301cf7b21b2bb6ef9515d15a395942e9eafcf7d, 0x13f3328d80384b8bde35982dfff209b492c7cb7038a6ae6ceb12c4f584bf2952b94ced283e0544755c9738825b12aba03c191fdb1ede), (0x63802280e95698aa9080489cdfdf753054b09ad52ec01146cb46a7240c0bb12b48f7112c7126375ed6d0cc10d9ae8718dbc2bdc73c2, 0x3e8505829239d959ecdee7124c1619ffc72ba0686061baffa37e5b4ba22a06f7910595f3f8583a891cc620b16a5aa98a05a489b226a6), (0x3d12cf27e27946c9fbc18c6d4829dc650a23f7a8eb4d7ab87e308239bb8d3ac1689fcd1bc1ed31bdc7aa0d24c49df9e9441e5bc8f58f, 0x2f4a61de47f18ecba85b88271b1994acd52bf9b9b53b390fa72183a39e331d0ca362a7dffbcbbbb28f133b7508be86bc6695ca8de903), (0x10424f0eb228b6ded6ce6a31f6dc87c173b7c40a8af2c9bd7cfcf61ce7825dd6f7e0d5675d38f3a6c015fea634edd67118c74038d236, 0x269eef1216a9999bf438ce168d32ee7471248faea00e1e3aa0f3d4741fefdd3c179f950bdd75e249407070aa3506ce0892156fee67e3)));
   (2%nat, ((0x174e469561446a2f1ebad801e269ff4d8f85fcc78d432c5b66bfe907e90bbc5a10acb74370f27f049f037f114599a8fc0120fb018833, 0x323df71aa004699c6c960db29644828348054cbe7d837291a21fb858b4bebab96cc552fef2d30772071dc066e27a1472910125df860c), (0x27710e185ed97ba35eb4b90b9ba1b15de832d77061ddf6dd007820a272d966d10ea3e30047158ae33a67d29c681ae73de3c5cfb024f6, 0x205c6758b08f196d24b192517c094b35c1499d56a4ed7ac5e985ce520cfb6e3f7a38fc9a3773fc8a5a1dde1526f82cf63fbd8848d5a6), (0x105cecc2766ca80a48ec96e4913d2a52d20251e34962bcc628923661190925a33bbae9b418b2584c5de9c0702eac1499f4839af80e11, 0x1aba6403ba65961d1c182d4be4090b260e9eca64a85754e3c8d9e16d048403a25d36a2824edc5b94b07f01ccbf3bf93d1452a98d03e5), (0xb299018f9699f253d8715a3817be9e048544079bb4697e8a82c72b056e4f0300649c427cf65879677bc113596246ef79f3cee562a00, 0xff4d6eecb4969821fbdd47f5dd155eccc16fca8a924be124bdbdd846a3bd8ebc00074c79684e234d05ce12c2239eb7a3b0ec1fd34d9), (0xdb552b444f2046b90e593383210cbe2d90f451fb0dabbedefdde7af964323662f24d59896e0fc0219b0e4159a02c3b7ad0b6b978683, 0x2fc6970af541dfd26e92a621ab22e1ea7a96060c29b661e3322f60431e1f126febf200a8590847f50c6347ddd1940513928bc67423f)));
   (4%nat, ((0x23aa1610107dff85210f185cc23575ffe5a0de11332eea305ddb222592703da6661695a5e8b713594acf581f1713e0d21a4eb863d8, 0x208e2791a5c0fcd9030a6d87c2b60bf869e2e5050709a63a201a7b527f3ca4831ea6771b7942e46415092fa185bbeb73732f13f66fd9), (0x108f6351548752b2f9f37c883e93b3659fa98e7c05f0e64b29ae4f6008f894545386842ab3d3a3793202ef44af013e1b682e9228b273, 0x5887af533f5bc64fbe1a68da275a3dc0075230a5e614e59bf66bb5fb0a4c90de462eef309fe4ee8ca4ac45702828bf857fe6af8cef4), (0x7a7641ce75bb5b4e647a483f1dfd90b6c28254583fe0807c014f7e4aa9274843db3477dfe047f20eb836c4feacca63589c7050ca6e, 0x2df66a086864910ba758338d6ccf5cf4b388a56c63ed9b004f786ba66382fafaa44e18dd33ada75de860c471e58292f69c18596a319e), (0x210239dba31bcbfb50ccd1359e0bdc306e6f6d586adca63d7bb971edd31ceaa953da92c215b963b2f8e5980a1f37648f1de2dd5e7171, 0x3a9ec59e6f53f1ea54c43745a7e2a0828591b47b3b8194da465d66cc0d171aaae43a3bca3d511c372cbbf9713cadbc9eb120cb1d5f25), (0x391f3e575a92a99679953015d7c7dc059a5d8f321ffbc381a4a3287225a67768bd490fa6d5693b0d768da7af875c1457e55d42e4d45e, 0x18bafba8bea34112ccd179ad47edd79647f5ebd8aaf8f41e282e4d23506880f1e8fa84cd8d5139ade19fa2d213f2148505b4d26db55)));
   (8%nat, ((0x98e5f09315fd9f3ee3fa8e2ed53b518ed5a642a62b27d52518eefb54f630c6656e7deb7678173948dd99942208ecc965e2b8f3e59, 0x2ea973004d9021539fb646f028c885a7487798912fb77e1bdf64ccd1c6cb05a3b4e59b2ce67c22e50d1ac10f3ed9ae0154b4649cbc42), (0x220555f497bde7d68cfe1b5e2fdeae9bd74d37e5d7e7c2b8aafe6771eefb36f9ebbc82b7d2b7bf1060217ab1d300ba698a2f63c98fed, 0xa7951923a0f78e2d0544767db35b6f24f409bda4ac3c285044a5aca8e26a550c745c9591dd7db3d0a98f32d0e58aef259892804ec61), (0x1b6cf768b07d1583fffce02f2ba72fb544a069005da248b61431534778f8ffe89a6aa63f8dbdb6568c0272d1c661842afebcfa6829d, 0xeecb10afa2b4b396eb631fb8ae3a6b526922f522e20044f125137a4562b2e4091342bc63401bd38a1282a15637cdfb0188f118bebce), (0x37af8d06828a9d55f7fbcdb27d1d908a2629126e5c8772cdc4a234941cba92e8706824c5ba646492b1516d5dd2d9632125e763857a8, 0x5a76528e4e2104a6a943caa69fa678f692147c67b1cda6bca18b3bb5f3174143a3c74430e5885926796af464d58ee127c00efb258ec), (0x5338ee064eeb8d27a8ff047c6ba006266e1e0571aa92c2f527e94ef0bbaf584be3ee0815069839e1f3cfd06a4a183f86e3fc36c5c20, 0x277210abdcb6b524f98c9f7efc3d9ba87ae18f191174d51c4e621f2ab7620118278c78198f23e4f25a6b75daaff644a8e46e23b9c40c)));
   (4%nat, ((0x184fcf9cdd98b38827f108ad45a8cf16aecbffe9100a5be8dc693e075cec20bb1b8968058db15a48a158b25def947b9db6f1e791de1f, 0x38987695f950796d252ae996ada01defde24b11f2d3ac7c783246079e776226dae2594b2f291026a03544314b00e42e433db4b74497f), (0x320c3aba98677989312a17ea4930765a3aca6a27d91ec37c77683a5aaffc77047704ff9b2d516a08d2f70cd56b8e741db78580b29389, 0x2f1b1fbc19116307a743d6848b9548ad2b252d5d658048c2772786ab53de5097c45ae5d71d7c3efd5559ce05701b0efbae3144d13d3a), (0x22abe21b1b43113af4079567432f44a6040bd17ee6717480529f79fefb6de7ef8545b9a9d18700b00647b6b464fcb2259e5e08ac809c, 0x1714d0134c61473c88701838300c0eef286cfda3eb30dfd2effea02a1b2ed16931ec9785053f863886ad956f5cefc340c2df42ce4300), (0x852fc528f731e4a0bd9374d2874a138a9f8866e7f97f76a9005915f1c20fc547de8c06024408f01196414421f421a007ff7487aed34, 0x307d4db6730b8729e720bc0495624405aea477680af9f711fe489861d0688d1fa37fe5e306edfd83a49e2be7f380a740f93b486a62f4), (0x2f400e74d3acfaca4ca636fe871ee524f184fa35f74df02a2da62718096cf88c94a646fa1abec58c5c1c3d35b105e87625725e6a3c17, 0x287a00aa8fff1a60697b0ae4df6740843246a56a767a4776997564e3ac631addd80bee379f6fe5492bcd05e0308c14a62176d0e4c8e3)));
   (8%nat, ((0x19996967be45a41b52a4099d1003f64cb95badeea834d5911282fd5d40d6521570a8e3d0ab84fe8bb3d487b01cb0d488220deb1004eb, 0x29c356c703f2261e4ab8b1e9ba874dccf1c0c7c3dbd41b5433dd4a6cb24fd977fcc99cb917d76ea60ab6176a0a9bc56006d34c5cd344), (0x1b409b643f7791e668e0b663dcc6fb7d61dba27e508c3766246d906c491985a2c342810a2c154ac3ced303bb3b90c0b9aef677f957d9, 0xb5c6cf84932d4264fed454d3dfdc82938ffd160e2feeb70e229ceb169a269e7276f8745f06a476b73e456f3ce832fe0ec04defebd99), (0x2044aef5c85a5524344ecfba58f4f8e4b45359a5bd9eb5ac0fce5414b82a2beb8d2c19088bebb45f47888eb84d22089b8e03b331773, 0x25dce9d8d3e4cfcd6952fcdefb2be44ecd5e5f546dadf809244aa2cfb1df690444ba38e3aef64923fbbf4eceb05d08a9d460611a8374), (0x166668edbe22facd35124c95298cfaf3f37dfb013ab9f214830ecc4929cabd305eecacd0b3ca36406357cc51d0b2440087e1938f71a5, 0x4d0a115a2a3fbd2eefed4854ce551856113d47773079ea52cec4b46fc7920890aabcbb23d82173b65399dd30834a1743c4623137425), (0x46dfaeedd300efd8b69b7551c1f7d98df51a72ef62b2b49173f4a7ac27cee723d01cfb1e20e76e8b343c96216bbf942b91322b1099f, 0x390da273cab1689e83cf740888d27614120fd29dbd8eb3d2748f008fbd232f50f49e9513d815e71d67726c764e869e5eff2d36e11e54)));
   (14%nat, ((0x32dc4c45dc715e0dec53581a3bfe0016aa3758e94678458d24f0aa0c84b8b2d896fbfca4c294e1a0d505a3f4d9af4ac44aa576eca92b, 0x1cc4e06ab1ef6d4a875db0b120a7ff6c0e4dc0da415a7b34807153df7b0560603019a38104445a422917f6a983576d9ed0c0be6755cb), (0xceea1fefc1ee989f3c6a71eb0afa4c3db2efdffa691781ecd81e98113d608f5b91f4dd4b99f4479434add014de19ec5b8b1a37be708, 0x4e09769b659376cd08217c81393521be84b7aaf8a2ab55767b8237efa4b3d2398079f9be32b0d5f0cd95ae5502028ee4bf34e267f81), (0x5f271280ff1a82ed970e2abe9926d7b247b80ea2a7327bc157d30edb0baaeff0d0ab6ee077610b5a8b26c7a0cf2ba3e3c17338b96a, 0x3ef7f23f8a154e30237ce68d96f2588f13c4ede07833e383b139cf5958780c33078bc41ffd7ea43228ff8bfe6da9fa87e0bfef7aa4b), (0x3df425f08aebdf46eb7dce339ef6bd6a5a67354efefeec4a27ec9545f92faac7c40f25d968787aa61d037325261c34c804326f219e, 0x13db9c23849c4f457715f55f6f9f0fe8996126f6aa6f0064cd4e30504e96274f754a8f15329f9bb8bd86f11c691fbbf2d56d37890b37), (0xf824cabf63657aa1bda10848e94a22939d7773150db67a8046c5ae7b26e1e2f1f12f1eb20d409f2026be52ff769539281b5b7e121da, 0x3744cc6961798af837beee76af9689aa267be44feb8fadf17e18015314f266caba52a13c139388e92c635fc7f6445a49b58ec15936c)));
   (0%nat, ((0x2fba894a0c58840d307a5581e602b135e0f5b6584418c5da805f0024b464204b128e4b79a71abd3334ca001987f56205387541fff6, 0x25b6f5bcbec64332b72bf289bd66788d692e88c17fec7d9f660fc655547ae05c0c17dd77ac9a0ff2c0eb2429a46d5e49eeed767165a6), (0x1639972b8d9d8691cc2f43ec7d73d535387215a8fc3ccf80820e81e6fcdb91ca70cbf57e64519f1de41676d6d8de39e936951bbc5be3, 0x22930f06a6cc58b5ca11d2f36dd6acceedf9fa0371857379f5c8c9097a2346774d561ff9879ac2445854b2d51b2e2c316c64afbb8f17), (0x12ad91e01b4e77d96c67a376fb48eae4fd4534dc1da6bca2c1c5806093f3cae5f38ef9b5e6b20911327ed3cf3e6894e28e4f0d28e3d6, 0x1b8080162ef30131a395ec5d8f66364807903407002b24983945b192ef90ca7a15597bda232d2b23c93902cc180984754a67dcc72207), (0xbd16e1410b1988316dd23fcfbe4066f8997219f1a79d41035b140ba1b2e4d7c7db3e50425ec2a3a0b2ced159e5619aa475b4e8ebd8c, 0x2cd1dc8c0381ab5931f8ae7708b3827f81b64b432dcab9293ccef9d203fe2204d591ccfb6f1545faa3709c7eb159abf01d19334a67fd), (0x0, 0x2cd1dc8c0381ab5931f8ae7708b3827f81b64b432dcab9293ccef9d203fe2204d591ccfb6f1545faa3709c7eb159abf01d19334a67fd)));
   (8%nat, ((0x1f633f67ef4cfcec94c85ca85bd72ea6554b2a9666e7accbbe411bab3b5cacd8c4b76564a61924828eafead291cad748d2bf3b230acc, 0x224d2eef241f915eab924f47b85d2fded399720ad821549616737b1a9b12ad7d368fa64b1e78f0a9845d3e473a5f4eccfac8f704a515), (0x12625ef3283bb7e9a339b11b561a302d1baa7f2520e73c8f04194dde03fd535706f26bf0910d956a5240ae38a35f091773860806e515, 0x16b14b5868269661fcd1398a5eb433c8a3eb137a54490c340b88fe134b769e2559e0d5c4f3ace90b39269c1720d87e6a7561a18b83be), (0x80bcef1e14e4b0cafdef2d970125d642e24685c97ea15fdf7255462be9fc3726df4422aaf0cf9f5b111e6f983c14d8b693aaa5318cf, 0x85bcf1dd9fd8335b3d4649564ec5211f23cc7a79ba9a5915839035577e2bc0045ecf120cee96ef868d73b6473c647b659e00f80b5a3), (0x117777b11a871c6eaadd70ade41b757a703ff062e71bb4fecc6455f9fe5a9e7c582830e638196f0e2416e64287295f86e62e879b625, 0x30d0c66c89d90fc571ff20bba6683c7851fe6f7dbaa80cee75a73aebacea283de239b5acde24523bc3ca93f2aba638e376a158e409de), (0x2ce8a40da2e4f281c3e59558922c6a3fff9cc3487ff72485d7601836148402aeaf4563791a16e3502c3e23432d0a53f6faf3074f43b9, 0x1abf27074e5ee567ce419af28c46f7cee5ee0cdc3aaee223be59ebcedfad98f375b51e22dd99aaaa53c0a8a4a4e97556800664eab5c7)));
   (7%nat, ((0xb2d8aa2fb15c926c77cf3711ad9bfbeba6a4a955aca22fddb425a4e1c404eb8a785e1eb89f588fbf451288902a4bcd470c416df38aa, 0x163c20baa6167b59303c373becf75af34d16befc8ce5850439c912fbea9fb865c42d2ccdfa62b358c34784fb2dd9f27b378ce82b873b), (0x7b98efdc0e3a562256ea549bdc82d391c7cb41aadca55a0fe3de538a57e7fb0e58d759cc4e4e99913ae821824b5713a08149cb2c7e5, 0x3b7f5f15068305aeab5f9f3c87747134c4929591f0e3c7f2334b581a658e3251bf3e2db35025f705f959353ac1b1150eeadf0919116e), (0x374fd4ccacb5dcb5d8b455c7ed251d80f5408db8a704c6419083159ff5dc4412927efba486017f7a62aa57d6e354ef7edd9cab833001, 0x26bafa430e004834f5d19f5aded6e18fb4c6cbad2db32900869b9bad4e3854d8ddac781edfb0e5dfd0ddd0e8bdc7d21e1ca067d2f675), (0x17702b7218fddb061f82ce9a01ad0aad9aead4f3a47f41b60b50ded43b574d65a91245ef21668a7a965285c395fcd0296207ca464767, 0x3c0e23a32f7c9cb6a34c1111c858fad1733bc22d02960d4aacc20a79f563176fcf99c7fa08c8c56639035893dea988ce73e58744b930), (0x15c633c4ebeabe0562261063a5350ea7c93740913a4746afc127ffc7cbf7965d22952a739b86f0d0410ade41f1bb88c1938d10f1fbd8, 0x1b00b9327a1c8f4260a08b1f9d5521ed258f115b718605cbc1ea86d9354b66a182d58861f8019cb31caaeacf1db8b2cc8b0b871b52c8)));
   (6%nat, ((0xb649c44aef012a4d35bfaa5770d7f21a70e6289561056dd8705bc8a241ec3404bb79b8a96bc0194f1bdc8c6d2bab9d0fdf55f3f408b, 0x3e0a6518f8ca7cab276d793ddafdce4689fee63456c47ee23172b2098182ba8651d6aa5605c0c343a5a55853372f6b22141802165fdb), (0x3c2425909988ebd00a5de8bf3138a9ba2991711127d540efc8ebeb3e9ab1c1c092dfb9f1187fca160a651eeeac8de932edf3df45f0a4, 0x1b6369451b7376c6da0f89ad5cf3f664f3e6d20a1d9dd020eb847d570a9fd54b5d3d6e86d97a6dd85efff9eabd45a3cc1c08d10420bd), (0xbb87b3caa1d662159aa910ce313936ae4e4c715c88c9613c589d170a6eb494a6b127093a5120473c70cb06c8ff634201ea4afa96213, 0xf90f7cc0090a33d206fd6bb7e4cc1cb57476471402f56936289acdc73edb04aed8b20243a4ec30f0e655159767ba3bef68bc73a322c), (0x3c93c8675b38603405822dc6cca0546e44486a783c24e6b2f37bbc19d50b6ec4c78abbc060160387ec058cd48367d818cf45225dcaa, 0x54371b0839b05d284c0a2d15b88c9f80748b55f8d8b6ef028521e545695d3f94e1cc7f1384fa2c6a4d1a8a349ae84a136d59063221a), (0x2d0cd80ca2750d681fddbc441e1ab7546afe9aefde4b12246807996585ecb1fdc445bc7ecad0bc1bc8462bb7dc4eefdc409a18848a9, 0x3fd99489ea2da521dd6b575a9a8e3c093e57950b94b75b537602c8ec4e9fdeff81b50492b745b564c9ce06f13d3c453cd4b931ccf28f)));
   (5%nat, ((0x3fb340242504e6e781965504ab141ec708c7aff89250bf4dee3f20fbc845cca25d9c17421ba71126c7167f0a4e9ee5007f785ea0bd55, 0x31a1ffc43948ed82c528a70a23f2a19a4eef867d92dcc0e3bdda18f1e59185f6a73103f9070b1035f2b0855c5918fadf559dd9234026), (0x267da9b34919e4b76e75428e4501e52d4fa084938fcc86d4513b7db64e0bce2bde630001e0d565c620136282bf9b1fc2dae55ab8fb37, 0x3ff66aeec6b60690680260a4affe3ea8a57ed70f74d037336251f5dfbfa0fe9ab5a0171d52d012680ad3f12fea3cd9c4a20937e4082b), (0x3fecd74cd57861520b6bb96b77e06a8aa8423afc17cb508df12d53d7f7d1a9c87cb226197e75368e44d2b4b623bc8336fcd4e0feca69, 0x3e4461ebe45c339e5fdb3f9aa1b311fdd18260cf292cefbf58a3ca55f4769c419190660e5d26a586d8d39981bc21539d879309e6852), (0x3c94c6c9b58a599c3aa9176048ba0d502f0667cf73be3cc45adf294dbb026fe57fb7a13eb02d95108c7809cd4d08b21eea33d22bdd, 0x10bf1c8516f3664dc7b7228447d88a5143fc772d97437d5446c41f22273a644665e43ef4fe8d065c8bf71b9e60da896b4cd2f7c8ce91), (0x9d754520b52b6f2f9ee4c2f99e210aff13b4a213a582c3c44f7561e91bf3b66e8fb4e30353c193a46ea931bf8af37e351a29de94436, 0x2f125363a74e4f95c2b234fd94429a72dbf3a009c44542f99a8f2a930214cdd6eb02c5b5484740f64c186405ae693408fd912bb703f4)));
   (5%nat, ((0x229eefb9b270360f2842f98ac13e8f645b095687a7134ff30259833d6a60935a5e1b11ccb6302ae1a1bc710086db5c178add61435d87, 0x1b50f302e9ada62df59f775919816ef40103a185e0d6e7546926346d92c5b79459957608324a6d84eba678b8674be2c0dcf22155e467), (0xba8b36d972cd4f6d022389694f096be0af244a43fdd67cb94a775ebb82b9a7264b08e81779172544688bd46eca822dd3cceac86ffce, 0xaf94fdc22b523d8033a53b0abb1f67f3526fad1646e3480bad6056ac9578799c1b455d690f08981ffea2ae2f03d3653521abbff91df), (0x1e1b426976d17904a8183d4f14e7bbc399a894a70824be84a2d3f7136e74014f7ef0b634e62517614db44e7d656338092fd1797ed81, 0x16c57993ea8c7bfd0bc499765605ae751f29b521e24da19fd70f260bd478592dd0043f85b609353fa9d899be4f7d2b97c9b50f4c50f2), (0x81a24e70ed12ad94baa81c9586393d8a160cca6fad10e0a937916233c6505c94253a8f60297ca20ffd9a64b8d88b9ee2e0f9a7c1de3, 0x2dc2dafdd742458cccd5813cc8c3e63382982c95ff7da7d3de4ffdc7b5414409aa6b3172a0a05ebf56c1fb4b121a616d2fe102056e37), (0x1ae441f4a4f6c3c8ec96cefb4add5b133ab5f390d1baa155217718f4c498d817aef1a9a2e42c0aa458df6572e2453093f40702a85aaa, 0x3c20bd2c9d1ad5095e1b3e7747ae711307ddd7380dbf688961faac5b8786e510241d0bc8d7596c71e8d2ff089a2178fd214ea711c15c)));
   (10%nat, ((0x387d7373025b09469a9d21863e89a235efe964473df1c8186cdf9d18ea331a6738f3d496197305507963f683b0aacb4401f9576f0354, 0x296065d604810b5ef5f432caa54e43ba1b56ddee4a309fbccf12b34f507d0c67274c347df729a698d6c7a09782c513b62d4e34ced824), (0x1ac013ac59dd23993333a6a14cb2aeba5815f487d543ef8219a41f9ca89d64b9e468719152e5b514ec39a7bec8423096ea1f5fbb9f88, 0x341cafd958faec9fb8e79ebf46cbe5ee0705c0b6fa9518f73910acd702d7e4761cbe57dfe29d23a52a8198bc2e5f69da4197b390a618), (0x2a6eaa9cf1f11cceb78e25759068dcae64acc38ecd97cad666610880cb9c400e0a0e16db0559ee4c525d1947c854f5e3a21c09b05eee, 0x3360562c84e3bd3f567e0d9ba50cc18d633c43bc9c594b937af01a90b1a6fc8b64df8e6ec3af61585f7f5687b3130cf9a2389704a7ce), (0x293e1a59ed6164f08989666c8190582d06651cd69fd4ef36f759f8fff29acb8638d48a9987644bdaf61bfbaf56d92944d2e6439f433a, 0x1e59e9570fd491a3862457c06edf69d14ab7efb5fb96aafa823c7f6543642301642cf9788332bfa987675248f5b8a0d9d4965b7825de), (0x1ca0d3f2c0633acb2da4c0b40ef550edb35fc9bef9003aeb2949d873087131346f11a988f4f3c599f38dd9362de3d0bbb3b984614117, 0x3dc03ab5f5ab254b5917e456e02e433ea633a106f1f8b59e5a0d5c0ee1d6e5f27091c26581606ef62b3c1ca42048bed18b9d2c8b7b0b)));
   (11%nat, ((0x3b94b14b55ec1492d893bd7f2418c31904efcd33e4e00b93a69cd815ef8b2427005adb786e7b2558be52a8c3b1babc6fc45ba9f6bb9f, 0x16169f62839eb43b919a8248ba7cd78bb7a7b421f283fd7ed149e686da7bea3a51029bd2727dad40cab7a2557ad5406b39301e8a60e8), (0x79f9592db25aea5914d8110f07d220f8b26a0cec74167d99e3ce5f171c243d6a811971965c5cb6c5b5db6af0f18cb978a0c7406f971, 0x284c2d4f8558dc832e6450fcc36278bccc729f754ac1d20c49ef101a897cdb8000c7bb3de0f8be47e01734a454ab3fc1cb28b1105be1), (0x195f934f239ffd02f0da40767f6df3dc91191971a695420633efb309b26264c8544d680bb733ab5b37374f72ac0317e80edb545c3429, 0x172ef070172627fef3865160f1d6745f88dad7b5a6e5efbf129fc295f4bca77ae6cd92f38438e245f9d023e59676fb59109d59edea9a), (0x865df3db90e2587f76a3dd5386a1b6d67fc54d21e9daf1f0d9e9320d852dbb757ad2dfb73025185c928114d449a5a8afa658bc41c67, 0x17b354e066eeab0afeaa0163651262b46a2fc7d5791974b59395685d1866ba6db26e4d416201a7f90bc82e6c7258cec0de29d31a515b), (0xc657e3950e26b70b122c77bdcaf6ee83d6179a49a9a2164d2cfef2ab90cdfc6b03d3287f2dd58861d14a5991fb7f2a302057ab6df83, 0x1382a0a456c13cc60abfe8424d12dbcfa907b2c3fef730804665d571ac88e0089ffecd8a611152f31c158aa21f46a23c76ed4bdce02c)));
   (14%nat, ((0x5f299ffc25a84dfbebce5048cf872e6eb6b4215c32731ba040bafe85d554c18964caeec6b9077cbcb11890063286bb3e6903a3f43c9, 0x3be2e423ecee8595ac758e7560ae88717fd7b808116b4a409057ef54ba1b885c431bfe591b8109273419136288645a6d872215c91409), (0x38097900a7d1272970d9d78336bdd538ce90ac37dcf1b8dc8218ee9feaf3a9f34a2c0f017ddb8c8cdbccc3f25d93b3065b50671f7186, 0x3e06c0d8f0438e77378473e7e20dcc07d339c694b32e44e1062f3f46d7a84724801297b8d3d031313728d4c0e8ce5d644ad8f3e284f7), (0x3c1d165abf4871a056b2ef061e124e7a43fd35a2fcbdb1cc7d9d50734bc6f307dd7d463b338cf16974ce37634b552c21a278bb6d1ef3, 0x1f9b36392a35b2fbf2683af2e5200ac68d503e197422ff607d4ba855a89c899f0529a59bcc007bf15fd9639fa080d63e017ff3b4d3d4), (0xf9bd4f233b923c8f0b9c3c9979f5f2bec84677325952ada0791b4f992ce498cf0fb71d8ca76117b9fe1ecab77ec9353b4f3e2088372, 0x5f97039bf901b8aceefce3715f73f4d7280bcdde14b9d3f20934180219066c4771a78143fbbce63f77da8f754dc9688ad3bff3d1662), (0x4aa7dcdd45adb2b281e7c262c923efb3fad960eba3a184070e980b876159dff834e3d1a9796f2e57da56b238c22893e00577e83081a, 0x1e12a7f3550002bd3e698a8ea3952314dce3fcec1aadf02acddf4bfac711eb584571ce690f019341528722b8659e784dc7ee33bfe1f6)));
   (14%nat, ((0xe2182e4514d5354ec3a7f53140ac12a25cdd8ede3c30cadd02817f485262b78fdbe9e2d5c3475adc9d8c19803d225b0cb9da886be05, 0x25689163825e6e776f5ce8347cca7c429147ecfb4869ae5d28524d42c6d50bacae1bc4c8f949a54d43faaabb359200e749fc8d819e59), (0x15dd92f4dc6c64155f3078a75067e789fc714c1c9ce10c85ad69b666d3f64b21222f3fbd5d92131927903e34793d70816be02cd5f992, 0xeb2e9e7af061b54a8c175dfbf1b6766d27dc75a040408ed132499ca71605c05e77e51d9942e1e2c9e3824fc5fbd1351e494d6dee5e3), (0x3603a7dcc2e7706da7a75a08d70939cea16d894816db7c9b759332bcd2c0eaa5dfae9f88e7133b744d106690a77510a918010fbfe5e, 0x1ed1bccb1fac36889e4cd38a5688ab015cc377002be7acd0e9e2641b79378d8a7f84d1c765bfae2331784cb543f4bc77008b2691c147), (0xed75055a9442ea4fd3b250088f4f78905efa0bd43028cefb6ea3c22ebf0d8d245f34bec85f91b6f8eb2d945b41fdf248c27bb41d5b3, 0x3d04ce296740720fd1d698a42c184fc2f7216067268070787d5439e37380aa68418b692239745c530ccc723697fd6298d1c1174889f4), (0x2fa7d9740a424064a40a7ab29b8e769817639d64da72968081bec39dcbd831fb2485dab0282849f15090a2a650fa0d5a5493c17f6493, 0x2b696267a7d3cb113434275d9c666f338cffa356bd6f8beb8a0ed7a4f4d9b3ad20f821704b76ad0290c91bad2535014d5cbe80332ebb)));
   (14%nat, ((0x1d7249c2c4f161abf64bb7e9fbf1c6f21e5b7c28985003f29ecb75a180deedc167c9ea99e416170371e7eea174e77ee61d5a08348cc8, 0x40e0d1f0b93ad82b321ed50b48e4d5b61ffe5cfdcfe39df7e1e7d966e80ec8a91be3a934a20f14b680aa1c77c4335ef3d52a70c6e1), (0x41c4b9a1b8320f7737e44d0f89a83d008386c6a2ce4fa998aa2aed1a337a52feaf945610c241c359c97d7ac1588d4e40b0d51a04, 0x16c3c477ff64f435f3947ef2b269dfc03598557f85bf661367b757b0db7b13c7aa69f6deb5f0a10f2d7c5c7ec104ba645b105c94b885), (0x818ede615f1945d529a1e0884daacc19d73b6e9cd8391ed4214ddbb582d810499bfec6174590fbf5907dbf60cd84a0925705e459c61, 0x2632bbe303813c11223d1858f8a88cad92b9d36b7b23c6b947f31aecb2c30368eb797a5517d884c15cd2b3c4bfb0f231d1ca7277eaa), (0x16cc67554e74b2fa4765689792a138021d95487939b423206fe151ef12201a239f0dd2a9166f70ddd1047da657d32d501e1bfbeb02, 0x3332522c477026140a95ef7695db4b80bf60dcfc5f31acec28552ff9401bfd111f055fc54d7ed32bfed47a441daf69e98310590eba46), (0x27fc097e9cf2c47de1bf27668ccc1657dac366d11440cd4fee8e2150b8726b69b4c86d0bae433ffec8730b2a92b6114bcf9be953ddee, 0x1269a35cc1932c9b703a5011773d82b4648af797e5594defa7df540884b6609dbd66d53ebf7b988c69ea5fffe0c375bcb23b470a8742)));
   (8%nat, ((0x54c1a41d63af47648fe0666c1e377902fd59ed3fe089556a9979a69ec87bbf5e0605fda9de23f02d416f36078cbcef6e582801f0aeb, 0x33ce381830a6d02f1cbec3539f730755d2a59e4ed02a09865d3085785f67b3bf349bc13e85019712578e739083d80507703f8dc22cff), (0x29ef41dfda6d6befd383940b5a0c3e09cefef1f07256df5d39393996daec938e8899698b31d4b87de8c3679daea547914c76190df095, 0x1048708906bcb0cc424e809baec61c1006a8e3a5cd897e0e177bab7dae6f9f2b313c26bd7f5111ba14c8624126111ffb9f800e73c986), (0x4248a427d8e3de93011d0f4bcbe07e849aa062dfabac9e208905cadd1d851ab3f67aa3ac95f5af598c8e16846b040ee6ee68e15c27c, 0x2db80ba0f5b8d19f7688309d6fcdd80e2d4b993c0a11c2de06d637a5b9c30069227096049c82df0412433708b354ea120f4111f97fe0), (0x20a8e19d392db6c5672d1c294f28d7d43fb3ebf81a92f085556bc823482f377157417fdbdb8c003048116770eb0f749ad5371b189b4f, 0x3cc07053e58e48cc9b92eca6e46166594f126c1bc16a97476c58e1cac0b2ae9b168a6c0b0b3c2488e9bf940f7cb69500cd242ec2331f), (0x37e3c1694316b5938b711c90e65de6db280b301bc373f8724475595b485cbcaab9d397d3142aabaa19e79f8658e92d6181f7df872fd5, 0x23f45707e91bb5e4d54696589099619fbb2e8fc4fc924ad03f1716b5c0567a754574df15476debb47a08b901b1543a154eb74df9df24)));
   (2%nat, ((0x1432e408b9a144fadfc32cfb809b739d114aefde3f75c3b683edf4c1d8a538b755eac877a61f86eb15258ccb84cb7776f21fef5fb27a, 0x215793d51b6d12a4b9bbe1faa7d97fb6b167c4fcd4d0ce7eca8656aa55bbb0f6a85be5927338f724a6e15e448a45beeae54cdafa846a), (0x115ec84b0524c75c36cc4722c27dc19cea8169ea5e0c402caa0fdb7ece48a2566b25ee74b281236d62c333c2ad2d1dbe6cf25b1c86fd, 0x28e10a6de3a0c358d92a5910cadc2cf874d0d8156f0ca4660d1cb754c9e9eb84ca51235dd200c0f1f099c890aadeb27a3070dd676151), (0x1a1c6456b2e48a5d5a6b092984be57292817f3977484a8d03acd99d7621c716bb6a0e3b1a3d412dc0d614f5ded88fd0c9ae8f5f9c464, 0x33954e99bcf425846ad8c38f92b5f7204e7d0d40c28f6af8690ab5538d8c8db766c2a0bc8695c8e362888825b1e32a7cee4f08311ec5), (0x2993519761851a7a737f1e52bad07c75e33a645cae4ad48493fc406c47a075e52610f707b940290ab1a82a6ab5e1cb6e022221100ab7, 0xeb9ae7216796d15d9d7720efbe22b2b112d2ae6708cb0bb35424405d977ef11480b32d8f3003f7eb62cb8518adcec3fa48c2663da0), (0xca6915c01ad11faecf51c7622003b8e0284126d54cab7204f5ebc7925db478a6e661970009b5726fc5087950f27366a5f2415b382b, 0x2349c4f8cdba84c01a6d0a495f4043073dac3b3713689857964cbc04c667d46979047d8ea5505884357822834739354d4c012e9fccbb)));
   (1%nat, ((0x13750477d6d106045b1200abbcdf8546d8cfe9bb7090b87806197ca979a5f8049044456356971220efe3d98e0a229bfad094dd9207ef, 0x15bb0ca4672273ce3af9178e1703a328e7150ce31ac6134b4d1430dcea7ab5452f2b54ef405c0bca2dd226818362591fec77b0256a58), (0x760e2f9c6e89a52360de56e355b0a2106116e5fa2794dc2151837e703b74ca3e65c3fd1113ff6f1833c327f247941b1341ff4b67130, 0x34f99f2bd01fa96e2e9ca59d4d88baf1cc428826cbfe04899b28a9d7b3d919760a720c28134bd1850fb55c628564c40449d2ca62b870), (0x2bd970434afcb9cd0e4e40a759a7a471b574be101d64e6bd7f226843403202b6498d3de8223fc5fcff978c42eca6095aa44375c1a0e2, 0x3c6675a6f01916b5ea552f85ecf60ba59167c4e6524f27392398ce513cdff2bd0b3d41c93bd53d6df30bf995d14a2b1087e16229242), (0x3900c0a0de946bda3d25cd43ca85e46555aa875f32184edee69d490d40a1abfc4c841a19e026f5213db1f8f6aa832bb67ac146fd9a, 0x24c75098d901892b301ea7f7b23dc5fb5c8c9b064a3a2e1849cd8d1f09d3fe5e2d148a5e26d7c3127b5c9209b0f685871aa2f2b7e17e), (0x1e7bea521d3973efa218fdd93283a41c95925b946bd96c69befc25ee5d7084b17b97cbc9f3b3bcdcfd44aac8f054f89692a72de1dd30, 0x3e51d98bf3a969e2ce98f2c77b56eaa8e521f89a9975242d3e3bc72d73c1ae5dc5b1a8490f19613aa3d86facb501589f0d588e319658)));
   (5%nat, ((0x3caefe2cb5d3405a53fd803dd47bce96ee250e09905798aff8d281ae084a664a1f64068759231a250fb9259c877c1bfbe126f434da84, 0x30d88d17eab480060c7fd431f5ad439f23ce6c3ce0b0ffdef97c9ab0f0da91ccb621cab2c5727b23a4bde484554d5a67503533407d84), (0x2547b05d788c6d849e24adccda201eabc71e9fec0b2b75a5348115398ca4798bd6dc2c34412f369c688c385095fa15d648bd2a5d7e37, 0x14dcb0e1cfab35771e1238f47a891518c72bdc1e30b78630dd1375dbd87c83823ee31f901ad04c82180a829ac7e8a492c012c1e54197), (0x6cce78f1b1bcd6279727fac7279eddff208b47701a3d75420258f3f3d420df90cf70414bbbc597b502466c7b46864926095fee042fa, 0x304014a329911eb4e6d96ecbfe9831e551c179b76a0693b786070f94faea88eef642d41f5781203dcd9e08a05b2146d3c3d595aff6eb), (0x24605f1e0b546a3f4d788b3658e59068c5dbff7ce73aae8b7bbe87013cd452c18fe678451f08344e4bd0d3751c76c2b696ae183e80cd, 0x3cad6347794ea5a37ce311df190bca0b7fb6c6d5f6936040327b9af84392a231da2ff72cd7ae6ea2d865315eaac98a835b315be421f6), (0x23a839c3291932800b55020c90bb2c1691b1a3614a16b1aa20d4aad352bfed215edd70ddd823f378db36b024bedd98e13af0348120c1, 0x2721dde5a2dd386df1e9fd7a77e3c987dc21118060656795a177aba77be5643fb356fa6e2752907c624979596537cf1321bffc792c85)));
   (6%nat, ((0x17ed585bb4a6b5a31b7cb2145b3d70602e1444d0b33862cf4b7afc782e55763e07c7298417ea9a1f5d193e9f18972faa89861a26f0f4, 0xfd27c31ba9a4231d520b72a247a7718f37eff6647654cbac87016fddae25ba8e25a64bc6a2b2487d3fc32d99c28f1b296d84b7357cd), (0x3e95e7746d1bd135fb6874b609b55dab75d2031528801b0d4ee2305a63b965f978965987175375e6f6fc7c9b1d436d817ce8d53da4b, 0x4b138c02c12b6ea5ac9c3cb14a26eb61e7880d5fc7b86cdcfd7afad67921c9679371bad693218b9e91ee7719ea5b8f99557499d4b84), (0x5811d61ec8ac8a5a5cc2795a89541c7fde3d67d2122da5ac462ae3ad862334edc8494bd76324179752feef2c3fcd4d23d20ebd301e, 0x1d42dc97217111d6659afb2a8f9c898e7aaf514aa6abf9eb5a28f37bf4ddd7574e6e8ec4cc28cafb2ab1d1b3d587964cab002fde3bce), (0xd60ddc2e653dc2a4fed8ba5a6db2e2bf6fa06a2b48936807b848792c2d5fc816143c98956fa93210ae2e9efb8761a25e90beca179b4, 0x2baad1c1b51f583605fca381fb987fddafee330dba2b060e8c2d43914e419e267bf19f974b2f0c08d95ed0b7c1afcc7ef88a3a446138), (0x175c018439a2afe4ecc53393bf74aed015d398058ff183cfa92870df75432ba7cedc0d5642b9da5dd3ce95c9b0222b2c9e319cc0a4d6, 0x19725d9e847e01801abf8f6cf36cab2989e0439c38c06089594ca7bdd4034538eb60c8241801280af01101c74a612233c7a5b122ed7e)));
   (9%nat, ((0xa1e2581e52cabbee211670333c1696720b5f4cbae7f1265d3588e5531432df6246b2a027efbc07c21ff9c0c8eb42542aa64698a3dd0, 0xbc4600c8d6b24ed1f43653c1401d6c4296d7f4dc31cc06cab9bc3cb8979c04e6af37cffb68b92cb17c5a59115a387d0a8e2a8fb4ed4), (0x229db912da4afab5e90ac62ffc510c68a12553dfd53c6b0bcf805d0246c075ebb1f981e12fa8dbf56d98914c3340007b067fe12f58b, 0x1d7182a680eacbbfc9b10eb377348ede5a030bf5188a3c64ed7819036b90ac38d80f9dbce9d1d03f742ddae0eae894c697d7281c282b), (0xd8ba7b94b8222aced735137b9d7ea10cea742174ef151cb945263b17bad6018ccee5027448b34403ee8b2c138e15ad378f14ac0481f, 0x1e6b27966eb39071f288f93e621d4a71f99f89c83dcf3e08d905634ba72eb21e676c0872450b9bdcb9ae76ff1492892e7703557faa28), (0xe7528857f473858519e91b8ab84f8fc75c780ba531b88a56aaa5380a5762385aff816435f43836802327b8ec260b7d46c796a8478d0, 0x32a24a233cc6e9d17cbfa74aba0bdf5121b5918786caab3c33e9b2c899de8d371ed78cbf93573463d0f87d498bad84c8461575b83610), (0x1168944a9b70ba31c35723bd58ef31e5979f1f0d126ac3e0ffbad4ad84b52d2231dcab14d7b08745a5224bea583516363d85b287a103, 0x2cb8522f95028c1d1a0de81984ba6b82cdfdc2260dbf590eeb96c0c7d079b3070fc93f6bfdca8cdb2e56ea20204af1ac3760fbaa0f83)));
   (7%nat, ((0x1f3f83da6806608468e1291d064b8e2482ec11b3727b64fb959a81ddf055583ee2d3d42414e0bd31832699cdf573bcf479b4a200e3f4, 0x5e00006b67de73e2e2701fb680b45559764dfb8ecdcda55736271273c26b0ac96a6292492721940051e260fa756122f6de0d2e07abd), (0x8a10013b811e28aa718fe60451ae16f9e1e447bc2a8429ef366b5fefc9401bf0c8772d11362ca162864364e4322f9ee8b8ffaaeb89, 0x1c507c99f78672591129dacf4891af021e9daca53b58300a66df6cc1a4fb24071f64e7d1f68aa944b4eb214a9620449800a8000917c2), (0xc86d23f2c1685bc00ee4183c37706ebf7753590fdf3ebab73474a9e2256c51d9c9f5ae68a54f7da0bfb7eaed723851de6cd2653e132, 0x2e7847be378fe4862630bd40ce2aa94567c0582193b1c7a9b91eff278c742de30525e1e99873c5d5b77e247db5f7dd7d22c5a8868f96), (0x21bdc92ec99b74bb27985c5cb9c945e5b18b7e0392a7adebc6f1ef11d737b6a59d4e65d4c3b73bf093fd8ecbff622778f33065b55e84, 0x2a11e2a10c77327c6ecb6c1f8d55c884c04be548182d015b364a22e7de305fb2535852cfde8303cf75472aaebe6507925facd1db6f28), (0xf40d673a4018651fdfe4d68252ea447845bf0676ba66a148d60ce3a07e406839a6774fa544c40e2398a8267d757c6a3f21c6306d5ec, 0x194df381d50d390d0f0497f28a4702130ee7f8f977f206ca6e05ee27e2022c8787452f75c962a8317834a07f3e1ba115f5a121d6efb4)));
   (3%nat, ((0xa01452efd59eda186ece6ecd4227af2f67ee9c4132b5773fca9ee53eac77d2be087c74191c5e2e2d5b9750e029e24c1379fddff0702, 0xccc440dc747a34d5971feab2e060ab3de7aa5c201ddff7e2793fce16f6b3e5bf889fd2d8486138b6b61d34a504581535f514704e3f2), (0x28f25774aee905dab457b6f408c9b9d29d52383a518e916fdf7c888915a6938e36cd172152cd2f56f0e96ec922b59aea161c317a62a, 0xb29f9e7c0d612f9935efd374e0a201166c9a2b39d588faf6166fd767afa24af4ecc51da434e74054431052dcf733f6270a1fefd0cce), (0x1f2896fab0b44862c73b302c89d6127e740e642c685e38506ae5d95d82c05c00a227fa9be6d7a998bf2d78ac510c34adbede6c153cc, 0x37ae02d904bc82982314d7ca8e0f215050c85b7051b5742fb0421c54c3435747f8f475542224767c561f9e22bf8bde3c979b4d3203d0), (0x3070ee047c4e31ab7e6369ac010e9f93f2e5bf67d6482cc05e76f331f4ecf7922a430beaed488afe4de7cc95d428a5c90a25c699d40e, 0x30e72db4bf88f2b8188ccfb34936e78c3c59d491ef6f946f61f7846c20e1589c2749d9c1c8da7bb4384c4783098f7ff3220e8d55d9ae), (0x2a81c5b630e8175b34f42fc327ea11eabf27fd8e1cfb1edc79a440db34c500a20266d2417c87a6f77689d7a108ec2a92a7b6a3edb963, 0x1)))]
  0x3b254ff2ca0b55a5d7487bfc94a40a41b0e17a80cfbdf6e09405f778c7e2852b4bb1babe6d11a8c2619a576d69f84da95deb7f3f5b56 0x3105ed7379615ecbc3aeb38346c777265e965f8c0c2c26a5503e1a25e8d69d5a293903030e2c5ff9bfd27d49d1faf691aaa221f5773f.
Lemma prime_430_04cf : prime (Z.of_N 0x3fffffffffffffffffffffffffffffffffffffffffffffffffffffba3175458009a8c0a724f02f81aa8a1fcbaf80d90c7a95110504cf).
Proof.
  apply (good_prime _ [c0_430_04cf; c1_430_04cf]); [vm_cast_no_check (eq_refl true)|].
  intros c H. cbn [In] in H. destruct H as [<- | [<- | []]].
  - replace (exponent c0_430_04cf) with (Z.of_N 0x1e562e3c490d281) by (vm_compute; reflexivity). exact prime_57_d281.
  - replace (exponent c1_430_04cf) with (Z.of_N 0xaa7287eebaaa347ab3ca500924848e087655abeee82156973) by (vm_compute; reflexivity). exact prime_196_6973.
Qed.
Definition order431 : N := 0x3fffffffffffffffffffffffffffffffffffffffffffffffffffffba3175458009a8c0a724f02f81aa8a1fcbaf80d90c7a95110504cf.
Lemma order431_prime : prime (Z.of_N order431).
Proof. exact prime_430_04cf. Qed.
