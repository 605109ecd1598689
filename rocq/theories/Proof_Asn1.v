(** Encoding and decoding. *)
From Coq Require Import Lia ZArith.
From Verif Require Import Base Lib Model_Gf2m Model_Utils Model_Asn1 Spec_Asn1.

Lemma size_spec n : n < 2 ^ N.size n.
Proof. apply N.size_gt. Qed.
Lemma nbytes_gt n : n < 256 ^ num_bytes n.
Proof.
  unfold num_bytes, num_bits. pose proof (size_spec n). eapply N.lt_le_trans; [exact H|]. change 256 with (2 ^ 8). rewrite <- N.pow_mul_r.
  apply N.pow_le_mono_r; [lia|]. pose proof (N.div_mod (N.size n + 7) 8 ltac:(lia)). pose proof (N.mod_lt (N.size n + 7) 8 ltac:(lia)). lia.
Qed.
Lemma size_mono n k : n < 2 ^ k -> N.size n <= k.
Proof.
  intros H. destruct (N.eq_dec n 0) as [->|H0]; [cbn; lia|]. rewrite N.size_log2 by exact H0. apply N.le_succ_l. apply N.log2_lt_pow2; lia.
Qed.
Lemma nbytes_le n k : n < 256 ^ k -> num_bytes n <= k.
Proof.
  intros H. change 256 with (2 ^ 8) in H. rewrite <- N.pow_mul_r in H. apply size_mono in H. unfold num_bytes, num_bits.
  replace k with ((8 * k + 0) / 8) by (rewrite N.add_0_r, N.mul_comm, N.div_mul; lia).
  apply N.lt_succ_r. apply N.div_lt_upper_bound; [lia|]. rewrite N.add_0_r, (N.mul_comm 8 k), N.div_mul by lia. lia.
Qed.
Lemma nbytes_pos n : n <> 0 -> 0 < num_bytes n.
Proof.
  intros H. pose proof (nbytes_gt n). destruct (N.eq_dec (num_bytes n) 0) as [E|E]; [rewrite E in H0; cbn in H0; lia|lia].
Qed.

(** * Tag, length, value *)
Lemma get_len_ok n t : n < 2 ^ 63 -> (128 <= n -> t <> []) -> get_len (der_len n ++ t) = Some (Some n, t).
Proof.
  intros Hn Ht. unfold der_len. destruct (N.ltb_spec n 128); cbn [app get_len].
  - destruct (N.ltb_spec n 128); [reflexivity|lia].
  - assert (0 < num_bytes n) by (apply nbytes_pos; lia). set (k := num_bytes n) in *.
    destruct (N.ltb_spec (128 + k) 128); [lia|]. replace (128 + k - 128) with k by lia.
    destruct (Nat.eqb_spec (N.to_nat k) 0); [lia|].
    assert (t <> []) by (apply Ht; lia).
    destruct (Nat.ltb_spec (length (be_bytes (N.to_nat k) n ++ t)) (N.to_nat k + 1)).
    + rewrite app_length, be_bytes_length in *. destruct t; [contradiction|cbn in *; lia].
    + rewrite firstn_app, be_bytes_length, Nat.sub_diag, firstn_O, app_nil_r, firstn_all2 by (rewrite be_bytes_length; lia).
      rewrite be_val_be_bytes by (rewrite N2Nat.id; apply nbytes_gt).
      destruct (N.leb_spec (2 ^ 63) n); [lia|].
      rewrite skipn_app, be_bytes_length, Nat.sub_diag, skipn_all2 by (rewrite be_bytes_length; lia). reflexivity.
Qed.
Lemma get_header_ok tag c t : tag mod 32 <> 31 -> N.of_nat (length c) < 2 ^ 63 ->
  get_header (tlv tag c ++ t) = Some (HEADER (tag mod 32) (tag / 64) (N.testbit tag 5) (Some (N.of_nat (length c))), c ++ t).
Proof.
  intros Ht H. unfold tlv. cbn [app get_header]. destruct (N.eqb_spec (tag mod 32) 31); [contradiction|]. rewrite <- app_assoc, get_len_ok.
  - rewrite app_length. destruct (N.ltb_spec (N.of_nat (length c + length t)) (N.of_nat (length c))); [lia|]. reflexivity.
  - exact H.
  - intros H0. destruct c; [cbn in H0; lia|discriminate].
Qed.
Lemma take_app (c t : list N) : firstn (N.to_nat (N.of_nat (length c))) (c ++ t) = c /\ skipn (N.to_nat (N.of_nat (length c))) (c ++ t) = t.
Proof. rewrite Nat2N.id, firstn_app, skipn_app, Nat.sub_diag, firstn_all, skipn_all, firstn_O, app_nil_r. split; reflexivity. Qed.
Lemma get_tlv_ok tag c t : tag < 31 -> N.of_nat (length c) < 2 ^ 63 -> get_tlv tag (tlv tag c ++ t) = Some (c, t).
Proof.
  intros Ht H. unfold get_tlv. rewrite get_header_ok; [|rewrite N.mod_small; lia|exact H]. unfold is_tag. cbn [h_tag h_class h_cst h_len].
  rewrite N.mod_small by lia. rewrite N.eqb_refl. rewrite N.div_small by lia.
  replace (N.testbit tag 5) with false.
  - cbn [negb andb]. cbn [N.eqb]. destruct (take_app c t) as [-> ->]. reflexivity.
  - symmetry. destruct tag as [|q]; [reflexivity|]. apply N.bits_above_log2. apply N.log2_lt_pow2; [lia|]. change (2 ^ 5) with 32. lia.
Qed.
Lemma der_len_length n : N.of_nat (length (der_len n)) = if n <? 128 then 1 else 1 + num_bytes n.
Proof. unfold der_len. destruct (n <? 128); [reflexivity|]. cbn [length]. rewrite be_bytes_length. lia. Qed.
Lemma tlv_length tag c : N.of_nat (length (tlv tag c)) = object_size (N.of_nat (length c)).
Proof. unfold tlv, object_size. cbn [length]. rewrite app_length, Nat2N.inj_succ, Nat2N.inj_add, der_len_length. lia. Qed.
Lemma le_val_hd_rev l : bytes l -> l <> [] -> hd 0 l = be_val l / 256 ^ N.of_nat (length l - 1).
Proof.
  intros Hb Hl. destruct l as [|b t]; [contradiction|]. cbn [hd length]. change (b :: t) with ([b] ++ t). rewrite be_val_app.
  replace (S (length t) - 1)%nat with (length t) by lia. inversion Hb; subst. pose proof (be_val_lt t H2).
  rewrite N.div_add_l by (apply N.pow_nonzero; lia). rewrite N.div_small by exact H. unfold be_val; cbn. lia.
Qed.
Lemma tlv_der tag c : der_value tag c (tlv tag c).
Proof.
  unfold der_value, tlv. exists (der_len (N.of_nat (length c))). split; [reflexivity|].
  unfold der_len. destruct (N.ltb_spec (N.of_nat (length c)) 128).
  - left. split; [lia|reflexivity].
  - right. split; [lia|]. set (n := N.of_nat (length c)) in *. exists (be_bytes (N.to_nat (num_bytes n)) n).
    assert (E : be_val (be_bytes (N.to_nat (num_bytes n)) n) = n) by (apply be_val_be_bytes; rewrite N2Nat.id; apply nbytes_gt).
    assert (0 < num_bytes n) by (apply nbytes_pos; lia).
    split; [apply be_bytes_bytes|]. split; [|split; [exact E|rewrite be_bytes_length, N2Nat.id; reflexivity]].
    rewrite le_val_hd_rev, E, be_bytes_length.
    + intros E0. apply N.div_small_iff in E0; [|apply N.pow_nonzero; lia]. apply nbytes_le in E0. lia.
    + apply be_bytes_bytes.
    + intros E0. apply (f_equal (@length N)) in E0. rewrite be_bytes_length in E0. cbn in E0. lia.
Qed.
Lemma der_value_unique tag c w w' : der_value tag c w -> der_value tag c w' -> w = w'.
Proof.
  assert (K : forall d, bytes d -> hd 0 d <> 0 -> be_val d <> 0 /\ 256 ^ N.of_nat (length d - 1) <= be_val d < 256 ^ N.of_nat (length d)).
  { intros d Hb Hh. assert (d <> []) by (intros ->; contradiction). pose proof (le_val_hd_rev d Hb H) as E. pose proof (be_val_lt d Hb).
    assert (256 ^ N.of_nat (length d - 1) <= be_val d).
    { destruct (N.le_gt_cases (256 ^ N.of_nat (length d - 1)) (be_val d)) as [|L]; [assumption|]. apply N.div_small in L. rewrite L in E. contradiction. }
    assert (0 < 256 ^ N.of_nat (length d - 1)) by (apply N.neq_0_lt_0, N.pow_nonzero; lia). lia. }
  intros [l [-> H]] [l' [-> H']]. f_equal. f_equal.
  destruct H as [[H ->]|[H [d [B [Hd [V ->]]]]]]; destruct H' as [[H' ->]|[H' [d' [B' [Hd' [V' ->]]]]]]; try lia; [reflexivity|].
  destruct (K d B Hd) as [_ [L U]]. destruct (K d' B' Hd') as [_ [L' U']]. rewrite V in *. rewrite V' in *.
  assert (EL : length d = length d').
  { assert (A : N.of_nat (length d - 1) < N.of_nat (length d')) by (apply (N.pow_lt_mono_r_iff 256); [lia|]; eapply N.le_lt_trans; eassumption).
    assert (A' : N.of_nat (length d' - 1) < N.of_nat (length d)) by (apply (N.pow_lt_mono_r_iff 256); [lia|]; eapply N.le_lt_trans; eassumption). lia. }
  assert (d = d') as ->; [|reflexivity].
  rewrite <- (be_bytes_be_val d B), <- (be_bytes_be_val d' B'), V, V', EL. reflexivity.
Qed.

Lemma enc_octets_der c : der_octets c (enc_octets c).
Proof. apply tlv_der. Qed.
Lemma der_len_unique c w w' : der_octets c w -> der_octets c w' -> w = w'.
Proof. apply der_value_unique. Qed.
Lemma get_octets_tlv c t : N.of_nat (length c) < 2 ^ 63 -> get_octets (tlv 4 c ++ t) = Some (c, t).
Proof.
  intros H. unfold get_octets. rewrite get_header_ok; [|discriminate|exact H]. cbn [h_tag h_class h_cst h_len is_tag negb N.modulo N.div].
  change (is_tag 4 _) with true. change (N.testbit 4 5) with false. cbn [negb]. destruct (take_app c t) as [-> ->]. reflexivity.
Qed.
Lemma d2i_octets_reads : reads_octets d2i_octets.
Proof.
  intros c w t H D. rewrite (der_len_unique c w (enc_octets c) D (enc_octets_der c)).
  unfold d2i_octets, enc_octets. rewrite get_octets_tlv; [reflexivity|]. eapply N.lt_trans; [exact H|reflexivity].
Qed.
Lemma reads_enc_octets d2i c t : reads_octets d2i -> N.of_nat (length c) < 2 ^ 31 -> d2i (enc_octets c ++ t) = Some c.
Proof. intros R H. exact (R c _ t H (enc_octets_der c)). Qed.

(** * Integers *)
Lemma int_content_value x : int_value (int_content x) = Some x.
Proof.
  unfold int_content. set (a := Z.to_N (if x <? 0 then - x - 1 else x)%Z). set (k := N.size a / 8 + 1).
  assert (Hk : (- 128 * 256 ^ Z.of_N (k - 1) <= x < 128 * 256 ^ Z.of_N (k - 1))%Z).
  { assert (a < 128 * 256 ^ (k - 1)).
    { pose proof (size_spec a) as S. eapply N.lt_le_trans; [exact S|]. change 256 with (2 ^ 8). change 128 with (2 ^ 7). rewrite <- N.pow_mul_r, <- N.pow_add_r.
      apply N.pow_le_mono_r; [lia|]. unfold k. pose proof (N.div_mod (N.size a) 8 ltac:(lia)). pose proof (N.mod_lt (N.size a) 8 ltac:(lia)).
      generalize dependent (N.size a / 8). intros; lia. }
    assert (Z.of_N a < 128 * 256 ^ Z.of_N (k - 1))%Z.
    { change 256%Z with (Z.of_N 256). change 128%Z with (Z.of_N 128). rewrite <- N2Z.inj_pow, <- N2Z.inj_mul. lia. }
    unfold a in H0. destruct (Z.ltb_spec x 0); rewrite Z2N.id in H0 by lia; lia. }
  assert (Hk0 : 1 < k -> (x < - 128 * 256 ^ Z.of_N (k - 2) \/ 128 * 256 ^ Z.of_N (k - 2) <= x)%Z).
  { intros K1. assert (128 * 256 ^ (k - 2) <= a).
    { assert (a <> 0) by (intros E; unfold k in K1; rewrite E in K1; cbn in K1; lia).
      assert (L : 2 ^ (N.size a - 1) <= a) by (rewrite N.size_log2 by assumption; replace (N.succ (N.log2 a) - 1) with (N.log2 a) by lia; apply N.log2_spec; lia).
      eapply N.le_trans; [|exact L]. change 256 with (2 ^ 8). change 128 with (2 ^ 7). rewrite <- N.pow_mul_r, <- N.pow_add_r.
      apply N.pow_le_mono_r; [lia|]. unfold k in *. pose proof (N.div_mod (N.size a) 8 ltac:(lia)). generalize dependent (N.size a / 8). intros; lia. }
    assert (128 * 256 ^ Z.of_N (k - 2) <= Z.of_N a)%Z.
    { change 256%Z with (Z.of_N 256). change 128%Z with (Z.of_N 128). rewrite <- N2Z.inj_pow, <- N2Z.inj_mul. lia. }
    unfold a in H0. destruct (Z.ltb_spec x 0); rewrite Z2N.id in H0 by lia; lia. }
  assert (K1 : 1 <= k) by (unfold k; lia). clearbody k. clear a.
  set (v := Z.to_N (x mod 256 ^ Z.of_N k)%Z).
  assert (P : (0 < 256 ^ Z.of_N k)%Z) by (apply Z.pow_pos_nonneg; lia).
  assert (Ev : Z.of_N v = (if x <? 0 then x + 256 ^ Z.of_N k else x)%Z).
  { unfold v. rewrite Z2N.id by (apply Z.mod_pos_bound; exact P).
    assert (Q : (256 ^ Z.of_N k = 256 * 256 ^ Z.of_N (k - 1))%Z) by (replace (Z.of_N k) with (1 + Z.of_N (k - 1))%Z by lia; rewrite Z.pow_add_r by lia; reflexivity).
    destruct (Z.ltb_spec x 0).
    - symmetry. apply Z.mod_unique with (q := (-1)%Z); lia.
    - apply Z.mod_small. lia. }
  assert (Lv : v < 256 ^ N.of_nat (N.to_nat k)).
  { rewrite N2Nat.id. apply N2Z.inj_lt. rewrite N2Z.inj_pow. change (Z.of_N 256) with 256%Z. unfold v. rewrite Z2N.id by (apply Z.mod_pos_bound; exact P). apply Z.mod_pos_bound, P. }
  pose proof (be_val_be_bytes (N.to_nat k) v Lv) as BV. pose proof (be_bytes_length (N.to_nat k) v) as BL. pose proof (be_bytes_bytes (N.to_nat k) v) as BB.
  clearbody v. set (c := be_bytes (N.to_nat k) v) in *. clearbody c.
  assert (Q1 : (256 ^ Z.of_N k = 256 * 256 ^ Z.of_N (k - 1))%Z) by (replace (Z.of_N k) with (1 + Z.of_N (k - 1))%Z by lia; rewrite Z.pow_add_r by lia; reflexivity).
  destruct c as [|b [|b' t]].
  - cbn in BL. lia.
  - assert (k = 1) as -> by (cbn in BL; lia). unfold be_val in BV. cbn in BV. assert (b = v) as -> by lia. cbn [int_value].
    change (256 ^ Z.of_N 1)%Z with 256%Z in *. change (256 ^ Z.of_N (1 - 1))%Z with 1%Z in *.
    destruct (N.ltb_spec v 128); f_equal; destruct (Z.ltb_spec x 0); lia.
  - assert (K2 : 1 < k) by (cbn in BL; lia). specialize (Hk0 K2).
    unfold bytes in BB. apply Forall_cons_iff in BB. destruct BB as [B1 BB]. apply Forall_cons_iff in BB. destruct BB as [B2 B3]. unfold is_byte in B1, B2.
    assert (Lt : length t = N.to_nat (k - 2)) by (cbn in BL; lia).
    pose proof (be_val_lt t B3) as T. rewrite Lt, N2Nat.id in T.
    assert (EV : Z.of_N v = (Z.of_N b * (256 * 256 ^ Z.of_N (k - 2)) + Z.of_N b' * 256 ^ Z.of_N (k - 2) + Z.of_N (be_val t))%Z).
    { rewrite <- BV. change (b :: b' :: t) with ([b; b'] ++ t). rewrite be_val_app, Lt, N2Nat.id. unfold be_val at 1. cbn [rev app le_val].
      repeat rewrite ?N2Z.inj_add, ?N2Z.inj_mul, ?N2Z.inj_pow. change (Z.of_N 256) with 256%Z. change (Z.of_N 0) with 0%Z. ring. }
    assert (T' : (Z.of_N (be_val t) < 256 ^ Z.of_N (k - 2))%Z) by (change 256%Z with (Z.of_N 256); rewrite <- N2Z.inj_pow; lia).
    assert (Q2 : (256 ^ Z.of_N (k - 1) = 256 * 256 ^ Z.of_N (k - 2))%Z) by (replace (Z.of_N (k - 1)) with (1 + Z.of_N (k - 2))%Z by lia; rewrite Z.pow_add_r by lia; reflexivity).
    assert (P2 : (0 < 256 ^ Z.of_N (k - 2))%Z) by (apply Z.pow_pos_nonneg; lia).
    rewrite Q1, Q2 in *. set (M := (256 ^ Z.of_N (k - 2))%Z) in *. cbn [int_value].
    assert (T0 : (0 <= Z.of_N (be_val t))%Z) by lia. set (w := Z.of_N (be_val t)) in *.
    assert (X : if b <? 128 then x = Z.of_N v else x = (Z.of_N v - 256 * (256 * M))%Z).
    { destruct (N.ltb_spec b 128); destruct (Z.ltb_spec x 0); try lia; exfalso.
      - assert (Z.of_N b <= 127)%Z by lia. assert (Z.of_N b' <= 255)%Z by lia. nia.
      - assert (128 <= Z.of_N b)%Z by lia. nia. }
    assert (NP : ((b =? 0) && (b' <? 128)) || ((b =? 255) && (128 <=? b')) = false).
    { apply not_true_is_false. intros E. apply orb_true_iff in E. destruct E as [E|E]; apply andb_true_iff in E; destruct E as [E1 E2].
      - apply N.eqb_eq in E1. apply N.ltb_lt in E2. subst b. change (0 <? 128) with true in X. cbv iota in X. assert (0 <= Z.of_N b' * M)%Z by (apply Z.mul_nonneg_nonneg; lia). change (Z.of_N 0) with 0%Z in EV. assert (Z.of_N b' * M <= 127 * M)%Z by (apply Z.mul_le_mono_nonneg_r; lia). destruct Hk0; lia.
      - apply N.eqb_eq in E1. apply N.leb_le in E2. subst b. change (255 <? 128) with false in X. cbv iota in X. change (Z.of_N 255) with 255%Z in EV. assert (128 * M <= Z.of_N b' * M)%Z by (apply Z.mul_le_mono_nonneg_r; lia). assert (Z.of_N b' * M <= 255 * M)%Z by (apply Z.mul_le_mono_nonneg_r; lia). destruct Hk0; lia. }
    rewrite NP. destruct (N.ltb_spec b 128).
    + rewrite X, BV. reflexivity.
    + f_equal. rewrite X, BV. rewrite BL. f_equal. rewrite <- nat_N_Z, N2Nat.id. rewrite Q1. reflexivity.
Qed.

Lemma int_content_length x : integer_ok x -> N.of_nat (length (int_content x)) < 2 ^ 31.
Proof.
  intros H. unfold int_content. rewrite be_bytes_length, N2Nat.id. set (a := Z.to_N _).
  assert (A : a < 2 ^ (2 ^ 31)).
  { apply N2Z.inj_lt. rewrite N2Z.inj_pow. change (Z.of_N 2) with 2%Z. change (Z.of_N (2 ^ 31)) with (2 ^ 31)%Z. unfold integer_ok in H. unfold a.
    set (M := (2 ^ 2 ^ 31)%Z) in *. clearbody M. destruct (Z.ltb_spec x 0); rewrite Z2N.id; lia. }
  apply size_mono in A. clearbody a. generalize dependent (N.size a). intros s Hs. assert (s / 8 <= 2 ^ 31 / 8) by (apply N.div_le_mono; lia). change (2 ^ 31 / 8) with (2 ^ 28) in H0.
  assert (2 ^ 28 + 1 < 2 ^ 31) by reflexivity. lia.
Qed.
Lemma get_int_ok x t : integer_ok x -> get_int (enc_int x ++ t) = Some (x, t).
Proof.
  intros H. unfold get_int, enc_int. rewrite get_tlv_ok.
  - rewrite int_content_value. reflexivity.
  - reflexivity.
  - eapply N.lt_trans; [apply int_content_length, H|reflexivity].
Qed.
Lemma get_octets_ok c t : string_ok c -> get_octets (enc_octets c ++ t) = Some (c, t).
Proof. intros [_ H]. apply get_octets_tlv. eapply N.lt_trans; [exact H|reflexivity]. Qed.
Lemma get_oid_ok c t : oid_ok c = true -> string_ok c -> get_oid (enc_oid c ++ t) = Some (c, t).
Proof. intros O [_ H]. unfold get_oid, enc_oid. rewrite get_tlv_ok; [|reflexivity|eapply N.lt_trans; [exact H|reflexivity]]. rewrite O. reflexivity. Qed.
Lemma get_seq_ok {A} (f : list N -> option (A * list N)) c t x : N.of_nat (length c) < 2 ^ 63 -> f c = Some (x, []) -> get_seq f (tlv 0x30 c ++ t) = Some (x, t).
Proof.
  intros H E. unfold get_seq. rewrite get_header_ok; [|discriminate|exact H]. change (is_tag 16 _ && _) with true. cbn [h_len].
  destruct (take_app c t) as [-> ->]. rewrite E. reflexivity.
Qed.
Lemma header_int x t : integer_ok x -> exists h u, get_header (enc_int x ++ t) = Some (h, u) /\ is_tag 2 h = true.
Proof.
  intros H. unfold enc_int. rewrite get_header_ok; [|discriminate|eapply N.lt_trans; [apply int_content_length, H|reflexivity]].
  eexists _, _. split; reflexivity.
Qed.
Lemma header_oid c t : string_ok c -> exists h u, get_header (enc_oid c ++ t) = Some (h, u) /\ is_tag 6 h = true.
Proof.
  intros [_ H]. unfold enc_oid. rewrite get_header_ok; [|discriminate|eapply N.lt_trans; [exact H|reflexivity]]. eexists _, _. split; reflexivity.
Qed.
Lemma header_seq c t : N.of_nat (length c) < 2 ^ 63 -> exists h u, get_header (tlv 0x30 c ++ t) = Some (h, u) /\ is_tag 2 h = false /\ is_tag 6 h = false.
Proof. intros H. rewrite get_header_ok; [|discriminate|exact H]. eexists _, _. split; [reflexivity|]. split; reflexivity. Qed.

Definition small (k : N) (l : list N) : Prop := N.of_nat (length l) < k.
Lemma small_app a b l1 l2 : small a l1 -> small b l2 -> small (a + b) (l1 ++ l2).
Proof. unfold small. rewrite app_length. lia. Qed.
Lemma small_tlv a tag c : a <= 2 ^ 40 -> small a c -> small (a + 8) (tlv tag c).
Proof.
  unfold small. intros Ha H. rewrite tlv_length. unfold object_size. destruct (_ <? 128); [lia|].
  assert (num_bytes (N.of_nat (length c)) <= 6); [|lia]. apply nbytes_le. eapply N.lt_le_trans; [exact H|]. eapply N.le_trans; [exact Ha|]. vm_compute. discriminate.
Qed.
Lemma small_mono a b l : a <= b -> small a l -> small b l.
Proof. unfold small. lia. Qed.
Lemma small_int x : integer_ok x -> small (2 ^ 32) (enc_int x).
Proof. intros H. apply (small_mono (2 ^ 31 + 8)); [vm_compute; discriminate|]. apply small_tlv; [vm_compute; discriminate|]. apply int_content_length, H. Qed.
Lemma small_string s tag : string_ok s -> small (2 ^ 32) (tlv tag s).
Proof. intros [_ H]. apply (small_mono (2 ^ 31 + 8)); [vm_compute; discriminate|]. apply small_tlv; [vm_compute; discriminate|]. exact H. Qed.
Lemma small_63 a l : a <= 2 ^ 63 -> small a l -> N.of_nat (length l) < 2 ^ 63.
Proof. unfold small. lia. Qed.

Lemma get_middle_ok p t : middle_ok p -> get_middle (enc_middle p ++ t) = Some (p, t) /\ small (2 ^ 34) (enc_middle p).
Proof.
  destruct p as [k|k j l]; cbn [middle_ok enc_middle]; intros H.
  - split; [|apply (small_mono (2 ^ 32)); [vm_compute; discriminate|apply small_int, H]]. unfold get_middle. destruct (header_int k t H) as (h & u & -> & ->). rewrite get_int_ok by exact H. reflexivity.
  - destruct H as [Hk [Hj Hl]].
    assert (S : small (2 ^ 32 + (2 ^ 32 + 2 ^ 32)) (enc_int k ++ enc_int j ++ enc_int l)) by (repeat apply small_app; apply small_int; assumption).
    split.
    + assert (S63 : N.of_nat (length (enc_int k ++ enc_int j ++ enc_int l)) < 2 ^ 63) by (eapply small_63; [|exact S]; vm_compute; discriminate).
      unfold get_middle. destruct (header_seq _ t S63) as (h & u & -> & -> & _). apply get_seq_ok; [exact S63|].
      unfold get_pentanomial. rewrite get_int_ok, get_int_ok by assumption. rewrite <- (app_nil_r (enc_int l)), get_int_ok by assumption. reflexivity.
    + apply (small_mono (2 ^ 32 + (2 ^ 32 + 2 ^ 32) + 8)); [vm_compute; discriminate|]. apply small_tlv; [vm_compute; discriminate|exact S].
Qed.
Lemma get_field_ok f t : integer_ok (bf_m f) -> middle_ok (bf_poly f) -> get_field (enc_field f ++ t) = Some (f, t) /\ small (2 ^ 35) (enc_field f).
Proof.
  intros Hm Hp. destruct f as [m p]. unfold enc_field, get_field. cbn [bf_m bf_poly] in *.
  destruct (get_middle_ok p [] Hp) as [E S].
  assert (S2 : small (2 ^ 32 + 2 ^ 34) (enc_int m ++ enc_middle p)) by (apply small_app; [apply small_int, Hm|exact S]). split.
  - apply get_seq_ok; [eapply small_63; [|exact S2]; vm_compute; discriminate|]. rewrite get_int_ok by exact Hm. rewrite app_nil_r in E. rewrite E. reflexivity.
  - apply (small_mono (2 ^ 32 + 2 ^ 34 + 8)); [vm_compute; discriminate|]. apply small_tlv; [vm_compute; discriminate|exact S2].
Qed.
Lemma get_custom_ok c t : custom_ok c -> get_custom (enc_custom c ++ t) = Some (c, t) /\ small (2 ^ 36) (enc_custom c).
Proof.
  intros [Hm [Hp [Ha [Hb [Hn Hbp]]]]]. destruct c as [f a b n bp]. unfold enc_custom, get_custom. cbn [cu_field cu_a cu_b cu_n cu_bp] in *.
  destruct (get_field_ok f [] Hm Hp) as [_ S].
  assert (S2 : small (2 ^ 35 + (2 ^ 32 + (2 ^ 32 + (2 ^ 32 + 2 ^ 32)))) (enc_field f ++ enc_int a ++ enc_octets b ++ enc_int n ++ enc_octets bp)).
  { repeat apply small_app; try exact S; try (apply small_int; assumption); apply small_string; assumption. }
  split.
  - apply get_seq_ok; [eapply small_63; [|exact S2]; vm_compute; discriminate|]. rewrite (proj1 (get_field_ok f _ Hm Hp)), get_int_ok, get_octets_ok, get_int_ok by assumption.
    rewrite <- (app_nil_r (enc_octets bp)), get_octets_ok by assumption. reflexivity.
  - apply (small_mono (2 ^ 35 + (2 ^ 32 + (2 ^ 32 + (2 ^ 32 + 2 ^ 32))) + 8)); [vm_compute; discriminate|]. apply small_tlv; [vm_compute; discriminate|exact S2].
Qed.
Lemma get_curvespec_ok c t : match c with Named o => oid_ok o = true /\ string_ok o | Custom c => custom_ok c end ->
  get_curvespec (enc_curvespec c ++ t) = Some (c, t) /\ small (2 ^ 36) (enc_curvespec c).
Proof.
  destruct c as [o|c]; cbn [enc_curvespec]; intros H.
  - destruct H as [H H']. split; [|apply (small_mono (2 ^ 32)); [vm_compute; discriminate|apply small_string, H']].
    unfold get_curvespec. destruct (header_oid o t H') as (h & u & -> & ->). rewrite (get_oid_ok o t H H'). reflexivity.
  - destruct (get_custom_ok c t H) as [E S]. split; [|exact S]. unfold get_curvespec. rewrite E.
    assert (X : exists c', enc_custom c = tlv 0x30 c' /\ small (2 ^ 36) c').
    { unfold enc_custom in *. eexists. split; [reflexivity|]. unfold small in *. rewrite tlv_length in S. unfold object_size in S. lia. }
    destruct X as (c' & -> & S'). destruct (header_seq c' t) as (h & u & -> & _ & ->); [eapply small_63; [|exact S']; vm_compute; discriminate|]. reflexivity.
Qed.
Lemma get_params_ok p t : params_ok p -> get_params (enc_params p ++ t) = Some (p, t).
Proof.
  intros [Hc Hs]. destruct p as [c s]. cbn [ap_curve ap_sbox] in *. unfold enc_params, get_params. cbn [ap_curve ap_sbox].
  destruct (get_curvespec_ok c [] Hc) as [_ S].
  assert (S2 : small (2 ^ 36 + 2 ^ 32) (enc_curvespec c ++ match s with Some s => enc_octets s | None => [] end)).
  { apply small_app; [exact S|]. destruct s; [apply small_string, Hs|]. unfold small. cbn. lia. }
  apply get_seq_ok; [eapply small_63; [|exact S2]; vm_compute; discriminate|].
  rewrite (proj1 (get_curvespec_ok c _ Hc)). destruct s as [s|]; [|reflexivity].
  unfold enc_octets at 1, tlv at 1. cbn [app is_eoc]. change (4 :: der_len (N.of_nat (length s)) ++ s) with (enc_octets s). rewrite <- (app_nil_r (enc_octets s)), get_octets_ok by exact Hs. reflexivity.
Qed.
(** * The encoder is distinguished *)
Lemma int_value_twos c x : int_value c = Some x -> shortest c /\ twos_complement c = x.
Proof.
  intros E. unfold int_value in E. unfold shortest, twos_complement. destruct c as [|b [|b' t]]; [discriminate| |].
  - split; [split; [discriminate|intros ? ? ? [=]]|]. injection E as <-. cbn [hd length]. unfold be_val. cbn [rev app le_val]. replace (b + 256 * 0) with b by lia. reflexivity.
  - destruct (((b =? 0) && (b' <? 128)) || ((b =? 255) && (128 <=? b'))) eqn:NP; [discriminate|]. injection E as <-. split; [|reflexivity]. split; [discriminate|].
    intros x y u [= <- <- <-]. apply orb_false_iff in NP. destruct NP as [N1 N2]. split; intros [-> H].
    + apply andb_false_iff in N1. destruct N1 as [N1|N1]; [discriminate|]. apply N.ltb_ge in N1. lia.
    + apply andb_false_iff in N2. destruct N2 as [N2|N2]; [discriminate|]. apply N.leb_gt in N2. lia.
Qed.
Lemma enc_int_der x : der_integer x (enc_int x).
Proof.
  destruct (int_value_twos _ _ (int_content_value x)) as [S1 S2]. exists (int_content x). split; [apply be_bytes_bytes|]. split; [exact S1|]. split; [exact S2|]. apply tlv_der.
Qed.
(** The value and its range. *)
Lemma twos_range c : bytes c -> shortest c -> exists M, (M = 256 ^ Z.of_nat (length c - 1))%Z /\ (0 < M)%Z /\ (256 ^ Z.of_nat (length c) = 256 * M)%Z /\ (- 128 * M <= twos_complement c < 128 * M)%Z /\
  ((1 < length c)%nat -> exists L, (L = 256 ^ Z.of_nat (length c - 2))%Z /\ M = (256 * L)%Z /\ (twos_complement c < - 128 * L \/ 128 * L <= twos_complement c)%Z).
Proof.
  intros Hb [Hn Hs]. destruct c as [|b t]; [contradiction|]. unfold bytes in Hb. apply Forall_cons_iff in Hb. destruct Hb as [B Ht]. unfold is_byte in B.
  exists (256 ^ Z.of_nat (length t))%Z. cbn [length]. replace (S (length t) - 1)%nat with (length t) by lia. split; [reflexivity|].
  assert (P : (0 < 256 ^ Z.of_nat (length t))%Z) by (apply Z.pow_pos_nonneg; lia). split; [exact P|].
  assert (Q : (256 ^ Z.of_nat (S (length t)) = 256 * 256 ^ Z.of_nat (length t))%Z) by (rewrite Nat2Z.inj_succ, Z.pow_succ_r by lia; reflexivity). split; [exact Q|].
  pose proof (be_val_lt t Ht) as T.
  assert (EV : Z.of_N (be_val (b :: t)) = (Z.of_N b * 256 ^ Z.of_nat (length t) + Z.of_N (be_val t))%Z).
  { change (b :: t) with ([b] ++ t). rewrite be_val_app. unfold be_val at 1. cbn [rev app le_val]. rewrite N2Z.inj_add, N2Z.inj_mul, N2Z.inj_pow, nat_N_Z. f_equal. f_equal; lia. }
  assert (T' : (0 <= Z.of_N (be_val t) < 256 ^ Z.of_nat (length t))%Z) by (split; [lia|]; rewrite <- nat_N_Z; change 256%Z with (Z.of_N 256); rewrite <- N2Z.inj_pow; lia).
  unfold twos_complement. cbn [hd length]. rewrite EV, Q. set (M := (256 ^ Z.of_nat (length t))%Z) in *. set (v := Z.of_N (be_val t)) in *. split.
  - destruct (N.ltb_spec b 128); nia.
  - intros Lt. destruct t as [|b' u]; [cbn in Lt; lia|]. apply Forall_cons_iff in Ht. destruct Ht as [B' Hu]. unfold is_byte in B'.
    exists (256 ^ Z.of_nat (length u))%Z. cbn [length]. replace (S (S (length u)) - 2)%nat with (length u) by lia. split; [reflexivity|].
    assert (Q2 : M = (256 * 256 ^ Z.of_nat (length u))%Z) by (unfold M; cbn [length]; rewrite Nat2Z.inj_succ, Z.pow_succ_r by lia; reflexivity). split; [exact Q2|].
    pose proof (be_val_lt u Hu) as Tu.
    assert (EU : v = (Z.of_N b' * 256 ^ Z.of_nat (length u) + Z.of_N (be_val u))%Z).
    { unfold v. change (b' :: u) with ([b'] ++ u). rewrite be_val_app. unfold be_val at 1. cbn [rev app le_val]. rewrite N2Z.inj_add, N2Z.inj_mul, N2Z.inj_pow, nat_N_Z. f_equal. f_equal; lia. }
    assert (Tu' : (0 <= Z.of_N (be_val u) < 256 ^ Z.of_nat (length u))%Z) by (split; [lia|]; rewrite <- nat_N_Z; change 256%Z with (Z.of_N 256); rewrite <- N2Z.inj_pow; lia).
    destruct (Hs b b' u eq_refl) as [S1 S2].
    assert (P2 : (0 < 256 ^ Z.of_nat (length u))%Z) by (apply Z.pow_pos_nonneg; lia).
    rewrite Q2, EU. set (L := (256 ^ Z.of_nat (length u))%Z) in *. set (z := Z.of_N (be_val u)) in *. clearbody L z.
    destruct (N.ltb_spec b 128).
    + right. destruct (N.eq_dec b 0) as [->|Nb]; [assert (128 <= b') by lia; nia|]. assert (1 <= Z.of_N b)%Z by lia. nia.
    + left. destruct (N.eq_dec b 255) as [->|Nb]; [assert (b' < 128) by lia; nia|]. assert (Z.of_N b <= 254)%Z by lia. nia.
Qed.
Lemma twos_length c c' : bytes c -> shortest c -> bytes c' -> shortest c' -> twos_complement c = twos_complement c' -> (length c <= length c')%nat.
Proof.
  intros B S1 B' S1' E. destruct (Nat.le_gt_cases (length c) (length c')) as [|L]; [assumption|exfalso].
  destruct (twos_range c B S1) as (M & EM & PM & QM & RM & KM). destruct (twos_range c' B' S1') as (M' & EM' & PM' & QM' & RM' & _).
  assert (1 < length c)%nat as L2 by (destruct S1' as [N1 _]; destruct c'; [contradiction|cbn in L; lia]).
  destruct (KM L2) as (K & EK & EMK & HK). assert (M' <= K)%Z by (subst M' K; apply Z.pow_le_mono_r; lia). rewrite E in HK. lia.
Qed.
Lemma twos_unique c c' : bytes c -> shortest c -> bytes c' -> shortest c' -> twos_complement c = twos_complement c' -> c = c'.
Proof.
  intros B S1 B' S1' E. assert (length c = length c') as L.
  { apply Nat.le_antisymm; [exact (twos_length c c' B S1 B' S1' E)|exact (twos_length c' c B' S1' B S1 (eq_sym E))]. }
  assert (be_val c = be_val c') as V.
  { pose proof (be_val_lt c B) as H1. pose proof (be_val_lt c' B') as H2. rewrite <- L in H2.
    assert (Z.of_N (256 ^ N.of_nat (length c)) = 256 ^ Z.of_nat (length c))%Z as P by (rewrite N2Z.inj_pow, nat_N_Z; reflexivity).
    unfold twos_complement in E. rewrite <- L in E. rewrite <- P in E. set (M := 256 ^ N.of_nat (length c)) in *. clearbody M.
    destruct (hd 0 c <? 128), (hd 0 c' <? 128); lia. }
  rewrite <- (be_bytes_be_val c B), <- (be_bytes_be_val c' B'), V, L. reflexivity.
Qed.
Lemma der_integer_unique x w w' : der_integer x w -> der_integer x w' -> w = w'.
Proof.
  intros (c & B & S1 & E & D) (c' & B' & S1' & E' & D'). assert (c = c') as <- by (apply twos_unique; congruence). exact (der_value_unique 2 c w w' D D').
Qed.
Lemma der_middle_unique p w w' : der_middle p w -> der_middle p w' -> w = w'.
Proof.
  destruct p as [k|k j l]; cbn [der_middle]; [apply der_integer_unique|].
  intros (a & b & c & A & B & C & D) (a' & b' & c' & A' & B' & C' & D').
  rewrite (der_integer_unique _ _ _ A' A), (der_integer_unique _ _ _ B' B), (der_integer_unique _ _ _ C' C) in D'. exact (der_value_unique _ _ _ _ D D').
Qed.
Lemma der_field_unique f w w' : der_field f w -> der_field f w' -> w = w'.
Proof.
  intros (a & b & A & B & D) (a' & b' & A' & B' & D'). rewrite (der_integer_unique _ _ _ A' A), (der_middle_unique _ _ _ B' B) in D'. exact (der_value_unique _ _ _ _ D D').
Qed.
Lemma der_custom_unique c w w' : der_custom c w -> der_custom c w' -> w = w'.
Proof.
  intros (a & b & e & f & g & A & B & E & F & G & D) (a' & b' & e' & f' & g' & A' & B' & E' & F' & G' & D').
  rewrite (der_field_unique _ _ _ A' A), (der_integer_unique _ _ _ B' B), (der_len_unique _ _ _ E' E), (der_integer_unique _ _ _ F' F), (der_len_unique _ _ _ G' G) in D'.
  exact (der_value_unique _ _ _ _ D D').
Qed.
Lemma der_params_unique p w w' : der_params p w -> der_params p w' -> w = w'.
Proof.
  intros (a & b & A & B & D) (a' & b' & A' & B' & D').
  assert (a' = a) as -> by (destruct (ap_curve p); [exact (der_value_unique _ _ _ _ A' A)|exact (der_custom_unique _ _ _ A' A)]).
  assert (b' = b) as ->.
  { destruct (ap_sbox p) as [s|]; [|congruence]. destruct B as (v & V & ->). destruct B' as (v' & V' & ->). rewrite (der_len_unique _ _ _ V' V). reflexivity. }
  exact (der_value_unique _ _ _ _ D D').
Qed.
Lemma enc_params_der p : der_params p (enc_params p).
Proof.
  assert (forall m, der_middle m (enc_middle m)) as DM.
  { intros [k|k j l]; cbn [der_middle enc_middle]; [apply enc_int_der|]. exists (enc_int k), (enc_int j), (enc_int l). repeat (split; [apply enc_int_der|]).
    pose proof (tlv_der 0x30 (enc_int k ++ enc_int j ++ enc_int l)) as T. unfold der_sequence. cbn [concat]. rewrite app_nil_r. exact T. }
  assert (forall f, der_field f (enc_field f)) as DF.
  { intros f. exists (enc_int (bf_m f)), (enc_middle (bf_poly f)). split; [apply enc_int_der|]. split; [apply DM|].
    unfold der_sequence. cbn [concat]. rewrite app_nil_r. apply tlv_der. }
  assert (forall c, der_custom c (enc_custom c)) as DC.
  { intros c. exists (enc_field (cu_field c)), (enc_int (cu_a c)), (enc_octets (cu_b c)), (enc_int (cu_n c)), (enc_octets (cu_bp c)).
    split; [apply DF|]. split; [apply enc_int_der|]. split; [apply enc_octets_der|]. split; [apply enc_int_der|]. split; [apply enc_octets_der|].
    unfold der_sequence. cbn [concat]. rewrite app_nil_r. apply tlv_der. }
  destruct p as [c s]. unfold der_params, enc_params. cbn [ap_curve ap_sbox].
  exists (enc_curvespec c), (match s with Some s => [enc_octets s] | None => [] end).
  split; [destruct c; [apply tlv_der|apply DC]|]. split; [destruct s as [s|]; [exists (enc_octets s); split; [apply enc_octets_der|reflexivity]|reflexivity]|].
  unfold der_sequence. destruct s as [s|]; cbn [concat]; rewrite ?app_nil_r; apply tlv_der.
Qed.
Lemma d2i_params_reads : reads_params d2i_params.
Proof.
  intros p w t H D. rewrite (der_params_unique p w (enc_params p) D (enc_params_der p)). unfold d2i_params. rewrite get_params_ok by exact H. reflexivity.
Qed.
Lemma reads_enc_params d2i p t : reads_params d2i -> params_ok p -> d2i (enc_params p ++ t) = Some p.
Proof. intros R H. exact (R p _ t H (enc_params_der p)). Qed.
