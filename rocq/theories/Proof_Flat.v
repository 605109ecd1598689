(** Proofs: what a degenerate S-box does to encryption, MAC and digest. *)
From Coq Require Import Lia.
From Verif Require Import Base Lib Spec_Gost89 Spec_Params Spec_Hash Spec_Flat Model_Gost89 Model_Hash Proof_Hash.

(** ** the block cipher *)
Definition flatf (Sb : sbox) : Prop := forall i v w, (i < 8)%nat -> v < 16 -> w < 16 -> Sb i v = Sb i w.
Lemma packed_flat p : flat_sbox p -> flatf (packed_sbox p).
Proof. intros H i v w _. apply H. Qed.
Lemma F_flat Sb k x k' x' : flatf Sb -> F Sb k x = F Sb k' x'.
Proof.
  intros Hf. unfold F. f_equal. unfold subst32. apply fold_right_ext_in. intros i a Hi. do 2 f_equal.
  apply Hf; [apply in_seq in Hi; lia|apply N.mod_lt; discriminate|apply N.mod_lt; discriminate].
Qed.
Lemma feistel4 Sb k1 k2 k3 k4 ab : flatf Sb -> fold_left (feistel Sb) [k1; k2; k3; k4] ab = ab.
Proof.
  intros Hf. destruct ab as [A B]. cbn [fold_left]. unfold feistel. cbn [fst snd].
  rewrite (F_flat Sb k4 _ 0 0 Hf), (F_flat Sb k3 _ 0 0 Hf), (F_flat Sb k2 _ 0 0 Hf), (F_flat Sb k1 _ 0 0 Hf).
  rewrite !N.lxor_assoc, !N.lxor_nilpotent, !N.lxor_0_r. reflexivity.
Qed.
Lemma feistel_flat Sb n : forall ks ab, flatf Sb -> length ks = (4 * n)%nat -> fold_left (feistel Sb) ks ab = ab.
Proof.
  induction n as [|n IH]; intros ks ab Hf Hl.
  - destruct ks; [reflexivity|discriminate].
  - destruct ks as [|k1 [|k2 [|k3 [|k4 ks]]]]; cbn [length] in Hl; try lia.
    change (k1 :: k2 :: k3 :: k4 :: ks) with ([k1; k2; k3; k4] ++ ks). rewrite fold_left_app, feistel4 by exact Hf. apply IH; [exact Hf|lia].
Qed.
Lemma key_words_len k : length (key_words k) = 8%nat.
Proof. unfold key_words. rewrite map_length, seq_length. reflexivity. Qed.
Lemma halves8 b : bytesn 8 b -> bytesn 4 (firstn 4 b) /\ bytesn 4 (skipn 4 b).
Proof.
  intros [Hb Hl]. rewrite <- (firstn_skipn 4 b) in Hb. apply Forall_app in Hb as [H1 H2]. split; split; auto.
  - rewrite firstn_length. lia.
  - rewrite skipn_length. lia.
Qed.
Lemma encrypt_flat Sb k b : flatf Sb -> bytesn 8 b -> encrypt Sb k b = halves_swapped b.
Proof.
  intros Hf Hb. destruct (halves8 b Hb) as [H1 H2]. unfold encrypt, block_cipher. rewrite (feistel_flat Sb 8) by (try exact Hf; unfold enc_keys; rewrite !app_length, rev_length, key_words_len; reflexivity).
  unfold split64. cbn [fst snd]. rewrite (le_bytes_le_val_n 4 _ H1), (le_bytes_le_val_n 4 _ H2). reflexivity.
Qed.
Lemma xorl_bytesn n a b : bytesn n a -> bytesn n b -> bytesn n (xorl a b).
Proof.
  intros [Ha Hla] [Hb Hlb]. split.
  - clear Hla Hlb. revert b Hb. induction Ha as [|x a Hx Ha IH]; intros b Hb; [constructor|]. destruct Hb as [|y b Hy Hb]; [constructor|]. constructor; [apply lxor_byte; assumption|apply IH; exact Hb].
  - subst n. clear Ha Hb. revert b Hlb. induction a as [|x a IH]; intros [|y b] H; try discriminate; [reflexivity|]. cbn. f_equal. apply IH. cbn in H. lia.
Qed.
Lemma mac_step_flat Sb k st b : flatf Sb -> bytesn 8 st -> bytesn 8 b -> mac_step Sb k st b = xorl st b.
Proof.
  intros Hf Hs Hb. unfold mac_step. rewrite (feistel_flat Sb 4) by (try exact Hf; unfold mac_keys; rewrite !app_length, key_words_len; reflexivity).
  pose proof (xorl_bytesn 8 st b Hs Hb) as Hx. destruct (halves8 _ Hx) as [H1 H2].
  unfold split64. cbn [fst snd]. rewrite (le_bytes_le_val_n 4 _ H1), (le_bytes_le_val_n 4 _ H2). apply firstn_skipn.
Qed.
Lemma mac_flat Sb k bs : flatf Sb -> Forall (bytesn 8) bs -> forall st, bytesn 8 st -> fold_left (mac_step Sb k) bs st = fold_left xorl bs st.
Proof.
  intros Hf. induction 1 as [|b bs Hb Hbs IH]; intros st Hs; [reflexivity|]. cbn [fold_left]. rewrite mac_step_flat by assumption. apply IH. apply xorl_bytesn; assumption.
Qed.

(** ** the step function of the digest is linear *)
Lemma part_lxor w i X Y : part w i (N.lxor X Y) = N.lxor (part w i X) (part w i Y).
Proof.
  unfold part. rewrite <- !N.land_ones, <- !N.shiftr_div_pow2, N.shiftr_lxor. apply N.bits_inj. intros n. rewrite !N.land_spec, !N.lxor_spec, !N.land_spec.
  destruct (N.testbit (N.ones w) n); rewrite ?andb_true_r, ?andb_false_r; reflexivity.
Qed.
Lemma part_lt w i X : part w i X < 2 ^ w.
Proof. unfold part. apply N.mod_lt. apply N.pow_nonzero. discriminate. Qed.
Lemma add_lxor n a b : a < 2 ^ n -> b * 2 ^ n + a = N.lxor (N.shiftl b n) a.
Proof.
  intros Ha. rewrite <- N.shiftl_mul_pow2. apply N.add_nocarry_lxor. apply N.bits_inj. intros m. rewrite N.land_spec, N.bits_0.
  destruct (N.lt_ge_cases m n) as [H|H]; [rewrite N.shiftl_spec_low by exact H; reflexivity|].
  assert (N.testbit a m = false) as ->; [|apply andb_false_r]. rewrite <- (N.mod_small a (2 ^ n) Ha). apply N.mod_pow2_bits_high. exact H.
Qed.
Lemma lxor4 a b c d : N.lxor (N.lxor a b) (N.lxor c d) = N.lxor (N.lxor a c) (N.lxor b d).
Proof. rewrite !N.lxor_assoc. f_equal. rewrite <- !N.lxor_assoc. f_equal. apply N.lxor_comm. Qed.
Lemma lxor_lt n a b : a < 2 ^ n -> b < 2 ^ n -> N.lxor a b < 2 ^ n.
Proof.
  intros Ha Hb. destruct (N.eq_0_gt_0_cases (N.lxor a b)) as [->|H]; [apply N.neq_0_lt_0, N.pow_nonzero; discriminate|].
  apply N.log2_lt_pow2; [exact H|]. destruct (N.eq_0_gt_0_cases n) as [->|Hn].
  - change (2 ^ 0) with 1 in Ha, Hb. apply N.lt_1_r in Ha. apply N.lt_1_r in Hb. subst. discriminate.
  - eapply N.le_lt_trans; [apply N.log2_lxor|]. apply N.max_lub_lt.
    + destruct (N.eq_0_gt_0_cases a) as [->|Hz]; [cbn; exact Hn|apply N.log2_lt_pow2; assumption].
    + destruct (N.eq_0_gt_0_cases b) as [->|Hz]; [cbn; exact Hn|apply N.log2_lt_pow2; assumption].
Qed.
Definition B256 : N := 2 ^ 256.
Lemma psi_form X : X < B256 -> psi X = N.lxor (N.shiftl (N.lxor (N.lxor (N.lxor (N.lxor (N.lxor (part 16 0 X) (part 16 1 X)) (part 16 2 X)) (part 16 3 X)) (part 16 12 X)) (part 16 15 X)) 240) (N.shiftr X 16).
Proof.
  intros H. unfold psi. rewrite (N.shiftr_div_pow2 X). apply add_lxor. apply N.div_lt_upper_bound; [discriminate|]. exact H.
Qed.
Lemma psi_lt X : X < B256 -> psi X < B256.
Proof.
  intros H. rewrite psi_form by exact H. apply lxor_lt.
  - rewrite N.shiftl_mul_pow2. change (2 ^ 256) with (2 ^ 16 * 2 ^ 240). apply N.mul_lt_mono_pos_r; [reflexivity|]. repeat apply lxor_lt; apply part_lt.
  - rewrite N.shiftr_div_pow2. eapply N.le_lt_trans; [|exact H]. apply N.div_le_upper_bound; [discriminate|]. change (2 ^ 16) with 65536. lia.
Qed.
Lemma psi_lxor X Y : X < B256 -> Y < B256 -> psi (N.lxor X Y) = N.lxor (psi X) (psi Y).
Proof.
  intros HX HY. rewrite !psi_form by (try assumption; apply lxor_lt; assumption). rewrite !part_lxor, N.shiftr_lxor.
  match goal with |- N.lxor (N.shiftl ?l _) (N.lxor ?u ?v) = N.lxor (N.lxor (N.shiftl ?a _) _) (N.lxor (N.shiftl ?b _) _) =>
    assert (E : l = N.lxor a b); [|rewrite E, N.shiftl_lxor; apply lxor4] end.
  assert (L6 : forall a b c d e f a' b' c' d' e' f', N.lxor (N.lxor (N.lxor (N.lxor (N.lxor (N.lxor a a') (N.lxor b b')) (N.lxor c c')) (N.lxor d d')) (N.lxor e e')) (N.lxor f f') =
    N.lxor (N.lxor (N.lxor (N.lxor (N.lxor (N.lxor a b) c) d) e) f) (N.lxor (N.lxor (N.lxor (N.lxor (N.lxor a' b') c') d') e') f')).
  { intros. rewrite (lxor4 a a' b b'). rewrite (lxor4 (N.lxor a b)). rewrite (lxor4 (N.lxor (N.lxor a b) c)). rewrite (lxor4 (N.lxor (N.lxor (N.lxor a b) c) d)). apply lxor4. }
  apply L6.
Qed.
Lemma iter_psi n : forall X Y, X < B256 -> Y < B256 -> N.iter n psi X < B256 /\ N.iter n psi (N.lxor X Y) = N.lxor (N.iter n psi X) (N.iter n psi Y).
Proof.
  induction n as [|n IH] using N.peano_ind; intros X Y HX HY; [split; [exact HX|reflexivity]|].
  rewrite !N.iter_succ. destruct (IH X Y HX HY) as [A B]. destruct (IH Y X HY HX) as [C _]. split; [apply psi_lt; exact A|]. rewrite B. apply psi_lxor; assumption.
Qed.
(** Exchange of the 32-bit halves of 64 bits. *)
Definition sw64 (x : N) : N := part 32 0 x * 2 ^ 32 + part 32 1 x.
Definition sw256 (H : N) : N := sw64 (part 64 3 H) * 2 ^ 192 + sw64 (part 64 2 H) * 2 ^ 128 + sw64 (part 64 1 H) * 2 ^ 64 + sw64 (part 64 0 H).
Lemma sw64_lt x : sw64 x < 2 ^ 64.
Proof.
  unfold sw64. pose proof (part_lt 32 0 x). pose proof (part_lt 32 1 x). change (2 ^ 64) with (2 ^ 32 * 2 ^ 32). change (2 ^ 32) with 4294967296 in *. lia.
Qed.
Lemma sw64_lxor x y : sw64 (N.lxor x y) = N.lxor (sw64 x) (sw64 y).
Proof. unfold sw64. rewrite !add_lxor by apply part_lt. rewrite !part_lxor, N.shiftl_lxor. apply lxor4. Qed.
Lemma cat4_form a b c d : a < 2 ^ 64 -> b < 2 ^ 64 -> c < 2 ^ 64 -> d < 2 ^ 64 ->
  a * 2 ^ 192 + b * 2 ^ 128 + c * 2 ^ 64 + d = N.lxor (N.shiftl a 192) (N.lxor (N.shiftl b 128) (N.lxor (N.shiftl c 64) d)).
Proof.
  intros Ha Hb Hc Hd. rewrite <- (add_lxor 64 d c) by exact Hd.
  rewrite <- (add_lxor 128 (c * 2 ^ 64 + d) b) by (change (2 ^ 128) with (2 ^ 64 * 2 ^ 64); change (2 ^ 64) with 18446744073709551616 in *; lia).
  rewrite <- (add_lxor 192 (b * 2 ^ 128 + (c * 2 ^ 64 + d)) a); [rewrite !N.add_assoc; reflexivity|].
  change (2 ^ 192) with (2 ^ 64 * (2 ^ 64 * 2 ^ 64)). change (2 ^ 128) with (2 ^ 64 * 2 ^ 64). change (2 ^ 64) with 18446744073709551616 in *. lia.
Qed.
Lemma sw256_lxor H G : sw256 (N.lxor H G) = N.lxor (sw256 H) (sw256 G).
Proof.
  unfold sw256. rewrite !cat4_form by apply sw64_lt. rewrite !part_lxor, !sw64_lxor, !N.shiftl_lxor. rewrite (lxor4 (N.shiftl (sw64 (part 64 1 H)) 64)), (lxor4 (N.shiftl (sw64 (part 64 2 H)) 128)). apply lxor4.
Qed.
Lemma sw256_lt H : sw256 H < B256.
Proof.
  unfold sw256. pose proof (sw64_lt (part 64 0 H)). pose proof (sw64_lt (part 64 1 H)). pose proof (sw64_lt (part 64 2 H)). pose proof (sw64_lt (part 64 3 H)).
  unfold B256. change (2 ^ 256) with (2 ^ 64 * (2 ^ 64 * (2 ^ 64 * 2 ^ 64))). change (2 ^ 192) with (2 ^ 64 * (2 ^ 64 * 2 ^ 64)). change (2 ^ 128) with (2 ^ 64 * 2 ^ 64).
  change (2 ^ 64) with 18446744073709551616 in *. lia.
Qed.
Lemma le_val_4 b : bytesn 4 b -> le_val b < 2 ^ 32.
Proof. intros [Hb Hl]. pose proof (le_val_lt b Hb) as X. rewrite Hl in X. exact X. Qed.
Lemma E64_flat Sb K x : flatf Sb -> x < 2 ^ 64 -> E64 Sb K x = sw64 x.
Proof.
  intros Hf Hx. unfold E64. pose proof (le_bytes_bytesn 8 x) as Hb. rewrite encrypt_flat by assumption. unfold halves_swapped.
  destruct (halves8 _ Hb) as [H1 H2]. rewrite le_val_app. rewrite (proj2 H2).
  assert (Ev : le_val (le_bytes 8 x) = x) by (apply le_val_le_bytes_small; exact Hx).
  pose proof (part_val 4 0 (le_bytes 8 x) (proj1 Hb)) as P0. pose proof (part_val 4 1 (le_bytes 8 x) (proj1 Hb)) as P1. rewrite Ev in P0, P1.
  change (8 * N.of_nat 4) with 32 in P0, P1. change (N.of_nat 0) with 0 in P0. change (N.of_nat 1) with 1 in P1. change (skipn (4 * 0) (le_bytes 8 x)) with (le_bytes 8 x) in P0.
  change (4 * 1)%nat with 4%nat in P1. rewrite (firstn_all2 (n := 4) (skipn 4 (le_bytes 8 x))) in P1 by (rewrite (proj2 H2); reflexivity).
  unfold sw64. rewrite P0, P1. change (256 ^ N.of_nat 4) with (2 ^ 32). rewrite N.mul_comm. apply N.add_comm.
Qed.
Definition chi0 (H M : N) : N := N.iter 61 psi (N.lxor H (psi (N.lxor M (N.iter 12 psi (sw256 H))))).
Lemma chi_flat Sb H M : flatf Sb -> chi Sb H M = chi0 H M.
Proof.
  intros Hf. unfold chi, chi0, sw256. destruct (keys4 H M) as [[[k1 k2] k3] k4]. rewrite !(E64_flat Sb) by (try exact Hf; apply part_lt). reflexivity.
Qed.
Lemma chi0_lt H M : H < B256 -> M < B256 -> chi0 H M < B256.
Proof.
  intros HH HM. unfold chi0. apply (iter_psi 61 _ 0); [|reflexivity]. apply lxor_lt; [exact HH|]. apply psi_lt. apply lxor_lt; [exact HM|]. apply (iter_psi 12 _ 0); [apply sw256_lt|reflexivity].
Qed.
Lemma chi0_lxor H M G L : H < B256 -> M < B256 -> G < B256 -> L < B256 -> chi0 (N.lxor H G) (N.lxor M L) = N.lxor (chi0 H M) (chi0 G L).
Proof.
  intros HH HM HG HL. unfold chi0.
  assert (I1 : forall X, N.iter 12 psi (sw256 X) < B256) by (intros X; apply (iter_psi 12 _ 0); [apply sw256_lt|reflexivity]).
  rewrite sw256_lxor. rewrite (proj2 (iter_psi 12 (sw256 H) (sw256 G) (sw256_lt H) (sw256_lt G))). rewrite (lxor4 M L).
  rewrite psi_lxor by (apply lxor_lt; auto; apply I1). rewrite (lxor4 H G).
  apply iter_psi; (apply lxor_lt; [assumption|]; apply psi_lt; apply lxor_lt; [assumption|apply I1]).
Qed.

(** ** differences made of one 16-bit word *)
Definition emb (v : N) (b : bool) : N := if b then v else 0.
Definition bl (lo hi : N) (bs : list bool) : list N := flat_map (fun b => [emb lo b; emb hi b]) bs.
Definition psiB (bs : list bool) : list bool :=
  let x i := nth i bs false in
  firstn 15 (skipn 1 bs) ++ [xorb (xorb (xorb (xorb (xorb (x 0%nat) (x 1%nat)) (x 2%nat)) (x 3%nat)) (x 12%nat)) (x 15%nat)].
Definition swB (bs : list bool) : list bool := map (fun i => nth (4 * (i / 4) + (i + 2) mod 4) bs false) (seq 0 16).
Definition xorB (a b : list bool) : list bool := map (fun i => xorb (nth i a false) (nth i b false)) (seq 0 16).
Definition chiB (H M : list bool) : list bool := iter 61 psiB (xorB H (psiB (xorB M (iter 12 psiB (swB H))))).
Lemma emb_lxor v a b : N.lxor (emb v a) (emb v b) = emb v (xorb a b).
Proof. destruct a, b; cbn [emb xorb]; rewrite ?N.lxor_nilpotent, ?N.lxor_0_r, ?N.lxor_0_l; reflexivity. Qed.
Lemma emb_byte v b : is_byte v -> is_byte (emb v b).
Proof. destruct b; [auto|reflexivity]. Qed.
Lemma acc_bytes x y : x < 256 -> y < 256 -> N.land (N.lor x (N.shiftl y 8)) 255 = x /\ w8 (N.shiftr (N.lor x (N.shiftl y 8)) 8) = y.
Proof.
  intros Hx Hy. assert (Xh : forall n, 8 <= n -> N.testbit x n = false) by (intros n Hn; rewrite <- (N.mod_small x (2 ^ 8) Hx); apply N.mod_pow2_bits_high; exact Hn).
  assert (Yh : forall n, 8 <= n -> N.testbit y n = false) by (intros n Hn; rewrite <- (N.mod_small y (2 ^ 8) Hy); apply N.mod_pow2_bits_high; exact Hn).
  split.
  - change 255 with (N.ones 8). apply N.bits_inj. intros n. rewrite N.land_spec, N.lor_spec. destruct (N.lt_ge_cases n 8) as [H|H].
    + rewrite N.ones_spec_low, N.shiftl_spec_low by exact H. rewrite andb_true_r, orb_false_r. reflexivity.
    + rewrite N.ones_spec_high by exact H. rewrite andb_false_r. symmetry. apply Xh, H.
  - rewrite N.shiftr_lor, N.shiftr_shiftl_l by reflexivity. change (8 - 8) with 0. rewrite N.shiftl_0_r.
    assert (N.shiftr x 8 = 0) as ->. { rewrite N.shiftr_div_pow2. apply N.div_small. exact Hx. }
    rewrite N.lor_0_l. unfold w8. apply N.mod_small. exact Hy.
Qed.
Ltac dl H := repeat match type of H with length ?l = S _ => destruct l; [discriminate H|cbn [length] in H; apply eq_add_S in H] end; match type of H with length ?l = O => destruct l; [|discriminate H] end.
Lemma bl_ok lo hi bs : is_byte lo -> is_byte hi -> length bs = 16%nat -> bytesn 32 (bl lo hi bs).
Proof.
  intros Hl Hh H. split.
  - unfold bl. clear H. induction bs as [|b bs IH]; [constructor|]. cbn [flat_map app]. constructor; [apply emb_byte; exact Hl|]. constructor; [apply emb_byte; exact Hh|exact IH].
  - unfold bl. dl H. reflexivity.
Qed.
Lemma psiB_len bs : length bs = 16%nat -> length (psiB bs) = 16%nat.
Proof. intros H. dl H. reflexivity. Qed.
Lemma transform_bl lo hi bs : is_byte lo -> is_byte hi -> length bs = 16%nat -> transform_3 (bl lo hi bs) = bl lo hi (psiB bs).
Proof.
  intros Hl Hh H. dl H. unfold transform_3. cbn [bl flat_map app nth firstn skipn psiB]. rewrite !emb_lxor.
  destruct (acc_bytes (emb lo (xorb (xorb (xorb (xorb (xorb b b0) b1) b2) b11) b14)) (emb hi (xorb (xorb (xorb (xorb (xorb b b0) b1) b2) b11) b14))) as [-> ->]; try (apply emb_byte; assumption). reflexivity.
Qed.
Lemma psi_bl lo hi bs : is_byte lo -> is_byte hi -> length bs = 16%nat -> psi (le_val (bl lo hi bs)) = le_val (bl lo hi (psiB bs)).
Proof. intros Hl Hh H. rewrite <- transform_bl by assumption. symmetry. apply transform_3_ok. apply bl_ok; assumption. Qed.
Lemma iter_bl lo hi n : is_byte lo -> is_byte hi -> forall bs, length bs = 16%nat ->
  length (iter n psiB bs) = 16%nat /\ N.iter (N.of_nat n) psi (le_val (bl lo hi bs)) = le_val (bl lo hi (iter n psiB bs)).
Proof.
  intros Hl Hh. induction n as [|n IH]; intros bs H; [split; [exact H|reflexivity]|]. cbn [iter]. destruct (IH (psiB bs) (psiB_len bs H)) as [A B]. split; [exact A|].
  rewrite <- B, <- psi_bl by assumption. rewrite Nat2N.inj_succ, N.iter_succ_r. reflexivity.
Qed.
Lemma xor_bl lo hi a b : is_byte lo -> is_byte hi -> length a = 16%nat -> length b = 16%nat ->
  N.lxor (le_val (bl lo hi a)) (le_val (bl lo hi b)) = le_val (bl lo hi (xorB a b)).
Proof.
  intros Hl Hh Ha Hb. destruct (bl_ok lo hi a Hl Hh Ha) as [A1 A2]. destruct (bl_ok lo hi b Hl Hh Hb) as [B1 B2].
  rewrite <- xorl_val by congruence. f_equal. clear - Ha Hb. dl Ha. dl Hb. cbn [bl flat_map app xorl xorB map seq nth]. rewrite !emb_lxor. reflexivity.
Qed.
Lemma sw_bl lo hi bs : is_byte lo -> is_byte hi -> length bs = 16%nat -> sw256 (le_val (bl lo hi bs)) = le_val (bl lo hi (swB bs)).
Proof.
  intros Hl Hh H. assert (Half : forall a b, bytesn 4 a -> bytesn 4 b -> sw64 (le_val (a ++ b)) = le_val (b ++ a)).
  { intros a b [Ha La] [Hb Lb]. unfold sw64. pose proof (part_val 4 0 (a ++ b) (bytes_app _ _ Ha Hb)) as P0. pose proof (part_val 4 1 (a ++ b) (bytes_app _ _ Ha Hb)) as P1.
    change (8 * N.of_nat 4) with 32 in *. change (N.of_nat 0) with 0 in *. change (N.of_nat 1) with 1 in *. rewrite P0, P1. dl La. dl Lb. cbn [app firstn skipn Nat.mul Nat.add].
    match goal with |- le_val ?u * _ + le_val ?v = le_val (?x :: ?y :: ?z :: ?t :: ?w) => change (le_val (x :: y :: z :: t :: w)) with (le_val ([x; y; z; t] ++ w)) end.
    rewrite le_val_app. change (256 ^ N.of_nat (length _)) with (2 ^ 32). rewrite N.mul_comm. apply N.add_comm. }
  dl H.
  assert (W : forall b b', bytesn 4 [emb lo b; emb hi b; emb lo b'; emb hi b']) by (intros u v; split; [repeat constructor; apply emb_byte; assumption|reflexivity]).
  assert (W8 : forall b b' u u', bytesn 8 ([emb lo b; emb hi b; emb lo b'; emb hi b'] ++ [emb lo u; emb hi u; emb lo u'; emb hi u'])) by (intros u v u' v'; split; [repeat constructor; apply emb_byte; assumption|reflexivity]).
  unfold sw256.
  change (bl lo hi [b; b0; b1; b2; b3; b4; b5; b6; b7; b8; b9; b10; b11; b12; b13; b14]) with
    (([emb lo b; emb hi b; emb lo b0; emb hi b0] ++ [emb lo b1; emb hi b1; emb lo b2; emb hi b2]) ++ ([emb lo b3; emb hi b3; emb lo b4; emb hi b4] ++ [emb lo b5; emb hi b5; emb lo b6; emb hi b6]) ++
     ([emb lo b7; emb hi b7; emb lo b8; emb hi b8] ++ [emb lo b9; emb hi b9; emb lo b10; emb hi b10]) ++ ([emb lo b11; emb hi b11; emb lo b12; emb hi b12] ++ [emb lo b13; emb hi b13; emb lo b14; emb hi b14])).
  destruct (parts_64 _ _ _ _ (W8 b b0 b1 b2) (W8 b3 b4 b5 b6) (W8 b7 b8 b9 b10) (W8 b11 b12 b13 b14)) as (-> & -> & -> & ->).
  rewrite !Half by apply W.
  change (bl lo hi (swB [b; b0; b1; b2; b3; b4; b5; b6; b7; b8; b9; b10; b11; b12; b13; b14])) with
    (([emb lo b1; emb hi b1; emb lo b2; emb hi b2] ++ [emb lo b; emb hi b; emb lo b0; emb hi b0]) ++ ([emb lo b5; emb hi b5; emb lo b6; emb hi b6] ++ [emb lo b3; emb hi b3; emb lo b4; emb hi b4]) ++
     ([emb lo b9; emb hi b9; emb lo b10; emb hi b10] ++ [emb lo b7; emb hi b7; emb lo b8; emb hi b8]) ++ ([emb lo b13; emb hi b13; emb lo b14; emb hi b14] ++ [emb lo b11; emb hi b11; emb lo b12; emb hi b12])).
  rewrite (le_val_app ([emb lo b1; _; _; _] ++ _)), (le_val_app ([emb lo b5; _; _; _] ++ _)), (le_val_app ([emb lo b9; _; _; _] ++ _)).
  change (256 ^ N.of_nat (length (_ ++ _))) with (2 ^ 64). change (2 ^ 192) with (2 ^ 64 * (2 ^ 64 * 2 ^ 64)). change (2 ^ 128) with (2 ^ 64 * 2 ^ 64).
  generalize (2 ^ 64). intros q. repeat match goal with |- context [le_val ?l] => let v := fresh "v" in set (v := le_val l); clearbody v end. ring.
Qed.
Lemma chi_bl lo hi a b : is_byte lo -> is_byte hi -> length a = 16%nat -> length b = 16%nat ->
  length (chiB a b) = 16%nat /\ chi0 (le_val (bl lo hi a)) (le_val (bl lo hi b)) = le_val (bl lo hi (chiB a b)).
Proof.
  intros Hl Hh Ha Hb. assert (XL : forall u v, length (xorB u v) = 16%nat) by (intros; unfold xorB; rewrite map_length, seq_length; reflexivity).
  assert (SL : length (swB a) = 16%nat) by (unfold swB; rewrite map_length, seq_length; reflexivity).
  destruct (iter_bl lo hi 12 Hl Hh (swB a) SL) as [I1 I2]. pose proof (psiB_len (xorB b (iter 12 psiB (swB a))) (XL _ _)) as I3.
  destruct (iter_bl lo hi 61 Hl Hh (xorB a (psiB (xorB b (iter 12 psiB (swB a))))) (XL _ _)) as [I4 I5]. split; [exact I4|].
  unfold chi0, chiB. rewrite sw_bl by assumption. change (N.of_nat 12) with 12 in I2. change (N.of_nat 61) with 61 in I5. rewrite I2, xor_bl, psi_bl, xor_bl by auto. exact I5.
Qed.
Definition tw : list bool := map (fun i => existsb (Nat.eqb i) [1; 5; 11; 14; 15]%nat) (seq 0 16).
Lemma tweak_bl lo hi : tweak lo hi = bl lo hi tw.
Proof. reflexivity. Qed.
Lemma tweak_ok lo hi : is_byte lo -> is_byte hi -> bytesn 32 (tweak lo hi).
Proof. intros. rewrite tweak_bl. apply bl_ok; auto. Qed.
Lemma tweak_twice lo hi : is_byte lo -> is_byte hi -> chi0 (chi0 0 (le_val (tweak lo hi))) (le_val (tweak lo hi)) = 0.
Proof.
  intros Hl Hh. rewrite tweak_bl. change 0 with (le_val (bl lo hi (repeat false 16))) at 1. destruct (chi_bl lo hi (repeat false 16) tw Hl Hh eq_refl eq_refl) as [L1 ->].
  destruct (chi_bl lo hi (chiB (repeat false 16) tw) tw Hl Hh L1 eq_refl) as [_ ->].
  assert (chiB (chiB (repeat false 16) tw) tw = repeat false 16) as -> by (vm_compute; reflexivity). reflexivity.
Qed.

(** ** two blocks exchanged *)
Lemma val32 b : bytesn 32 b -> le_val b < B256.
Proof. intros [Hb Hl]. pose proof (le_val_lt b Hb) as X. rewrite Hl in X. exact X. Qed.
Lemma swap_chi Sb H a b lo hi : flatf Sb -> is_byte lo -> is_byte hi -> H < B256 -> a < B256 -> b < B256 -> N.lxor a b = le_val (tweak lo hi) ->
  chi Sb (chi Sb H a) b = chi Sb (chi Sb H b) a.
Proof.
  intros Hf Hl Hh HH Ha Hb Hd. rewrite !chi_flat by exact Hf. apply N.lxor_eq.
  rewrite <- chi0_lxor by (auto; apply chi0_lt; assumption). rewrite <- (chi0_lxor H a H b) by assumption.
  rewrite N.lxor_nilpotent, (N.lxor_comm b a), Hd. apply tweak_twice; assumption.
Qed.
Lemma chi_lt Sb H b : flatf Sb -> H < B256 -> b < B256 -> chi Sb H b < B256.
Proof. intros Hf HH Hb. rewrite (chi_flat Sb H b Hf). exact (chi0_lt H b HH Hb). Qed.
Lemma fold_cons {A B} (f : A -> B -> A) b bs a : fold_left f (b :: bs) a = fold_left f bs (f a b).
Proof. reflexivity. Qed.
Lemma fold_nil {A B} (f : A -> B -> A) a : fold_left f [] a = a.
Proof. reflexivity. Qed.
Lemma fold_chi_lt Sb bs : flatf Sb -> Forall (fun b => b < B256) bs -> forall H, H < B256 -> fold_left (chi Sb) bs H < B256.
Proof. intros Hf. induction 1 as [|b bs Hb Hbs IH]; intros H HH; [exact HH|]. rewrite fold_cons. apply IH. apply chi_lt; assumption. Qed.
Lemma whole_chunks q : forall P, bytes P -> length P = (q * 32)%nat -> Forall (fun b => b < B256) (map le_val (chunks 32 P)).
Proof.
  induction q as [|q IH]; intros P Hb Hl.
  - destruct P; [constructor|discriminate].
  - rewrite <- (firstn_skipn 32 P) in *. apply Forall_app in Hb as [H1 H2].
    assert (L : length (firstn 32 P) = 32%nat) by (rewrite app_length, firstn_length, skipn_length in Hl; rewrite firstn_length; lia).
    rewrite chunks_app by (try exact L; lia). cbn [map]. constructor; [apply val32; split; assumption|]. apply IH; [exact H2|]. rewrite app_length, L in Hl. lia.
Qed.
Lemma blocks_of q P A B Q : length P = (q * 32)%nat -> length A = 32%nat -> length B = 32%nat ->
  msg_blocks (P ++ A ++ B ++ Q) = map le_val (chunks 32 P) ++ [le_val A; le_val B] ++ map le_val (chunks 32 Q).
Proof.
  intros HP HA HB. unfold msg_blocks. rewrite (chunks_map_app (k := q)) by (try exact HP; lia). rewrite (chunks_app 32 A), (chunks_app 32 B) by (assumption || (apply Nat.lt_0_succ)).
  destruct (chunks 32 P ++ A :: B :: chunks 32 Q) eqn:E; [destruct (chunks 32 P); discriminate|]. rewrite <- E, map_app. reflexivity.
Qed.
Theorem digest_swap : forall Sb q P A lo hi Q, flatf Sb -> is_byte lo -> is_byte hi -> bytes P -> length P = (q * 32)%nat -> bytesn 32 A ->
  digest Sb (P ++ A ++ xorl A (tweak lo hi) ++ Q) = digest Sb (P ++ xorl A (tweak lo hi) ++ A ++ Q).
Proof.
  intros Sb q P A lo hi Q Hf Hl Hh HbP HP HA. pose proof (tweak_ok lo hi Hl Hh) as HT. pose proof (xorl_bytesn 32 A _ HA HT) as HB.
  unfold digest. apply (f_equal (le_bytes 32)). unfold gost34311. rewrite (blocks_of q P A _ Q HP (proj2 HA) (proj2 HB)), (blocks_of q P _ A Q HP (proj2 HB) (proj2 HA)). cbv zeta.
  rewrite !fold_left_app, !fold_cons, !fold_nil. cbv beta.
  rewrite (swap_chi Sb (fold_left (chi Sb) (map le_val (chunks 32 P)) 0) (le_val A) (le_val (xorl A (tweak lo hi))) lo hi Hf Hl Hh).
  - assert (EL : length (P ++ A ++ xorl A (tweak lo hi) ++ Q) = length (P ++ xorl A (tweak lo hi) ++ A ++ Q)) by (rewrite !app_length; lia). rewrite EL.
    set (s := fold_left (fun a b => (a + b) mod 2 ^ 256) (map le_val (chunks 32 P)) 0).
    assert (ES : ((s + le_val A) mod 2 ^ 256 + le_val (xorl A (tweak lo hi))) mod 2 ^ 256 = ((s + le_val (xorl A (tweak lo hi))) mod 2 ^ 256 + le_val A) mod 2 ^ 256).
    { rewrite !N.add_mod_idemp_l by discriminate. rewrite <- !N.add_assoc, (N.add_comm (le_val A)). reflexivity. }
    rewrite ES. reflexivity.
  - apply fold_chi_lt; [exact Hf| |reflexivity]. eapply whole_chunks; eassumption.
  - apply val32, HA.
  - apply val32, HB.
  - rewrite xorl_val by (apply HA || apply HT || (rewrite (proj2 HA), (proj2 HT); reflexivity)). rewrite <- N.lxor_assoc, N.lxor_nilpotent. apply N.lxor_0_l.
Qed.
Lemma tweak_differs A lo hi : bytesn 32 A -> is_byte lo -> is_byte hi -> lo <> 0 \/ hi <> 0 -> xorl A (tweak lo hi) <> A.
Proof.
  intros HA Hl Hh Hz E. pose proof (tweak_ok lo hi Hl Hh) as HT.
  assert (V : le_val (tweak lo hi) = 0).
  { pose proof (xorl_val A _ (proj1 HA) (proj1 HT) (eq_trans (proj2 HA) (eq_sym (proj2 HT)))) as X. rewrite E in X.
    apply (f_equal (N.lxor (le_val A))) in X. rewrite <- N.lxor_assoc, N.lxor_nilpotent, N.lxor_0_l in X. symmetry. exact X. }
  change 0 with (le_val (zeros 32)) in V. apply le_val_inj in V; [|apply HT|repeat constructor|reflexivity]. inversion V. destruct Hz; congruence.
Qed.
