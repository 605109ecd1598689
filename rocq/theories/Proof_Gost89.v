(** Lemmas about gost89.c. *)
From Verif Require Import Lib.
From Verif Require Export Model_Gost89 Spec_Gost89.

(** ** bounds *)
Lemma at_u32 l i : Forall u32 l -> u32 (at_ l i).
Proof.
  intros H. unfold at_. destruct (nth_in_or_default (N.to_nat i) l 0) as [Hin| ->].
  - rewrite Forall_forall in H. apply H, Hin.
  - reflexivity.
Qed.
Lemma at_byte l i : bytes l -> is_byte (at_ l i).
Proof.
  intros H. unfold at_. destruct (nth_in_or_default (N.to_nat i) l 0) as [Hin| ->].
  - unfold bytes in H. rewrite Forall_forall in H. apply H, Hin.
  - reflexivity.
Qed.
Lemma w32_lt x : w32 x < 2 ^ 32.
Proof. unfold w32. lia. Qed.
Lemma w8_lt x : w8 x < 256.
Proof. unfold w8. lia. Qed.

Lemma ktab_u32 hi lo sh : Forall u32 (ktab hi lo sh).
Proof. unfold ktab. apply Forall_forall. intros x Hx. apply in_map_iff in Hx. destruct Hx as (n & <- & _). apply w32_lt. Qed.
Lemma ktab_length hi lo sh : length (ktab hi lo sh) = 256%nat.
Proof. unfold ktab. rewrite map_length. apply seq_length. Qed.

Lemma f_lt c x : ctx_wf c -> f c x < 2 ^ 32.
Proof.
  intros (_ & _ & _ & _ & _ & H87 & _ & H65 & _ & H43 & _ & H21). unfold f. cbv zeta.
  match goal with |- N.lor (w32 (N.shiftl ?e 11)) _ < _ => set (y := e) end.
  assert (Hy : y < 2 ^ 32) by (subst y; repeat apply lor_lt; apply at_u32; assumption).
  apply lor_lt; [apply w32_lt|]. rewrite N.shiftr_div_pow2. lia.
Qed.

Lemma rounds_lt c idx n1 n2 a b : ctx_wf c -> n1 < 2 ^ 32 -> n2 < 2 ^ 32 ->
  rounds c idx n1 n2 = (a, b) -> a < 2 ^ 32 /\ b < 2 ^ 32.
Proof.
  intros Hc. remember (length idx) as k eqn:Hk. revert idx Hk n1 n2.
  induction k as [k IH] using lt_wf_ind. intros [|i [|j t]] Hk n1 n2 H1 H2 He; cbn [rounds] in He.
  - inversion He; subst; auto.
  - inversion He; subst; auto.
  - assert (Hn2 : N.lxor n2 (f c (keyed c n1 i)) < 2 ^ 32) by (apply lxor_lt; [|apply f_lt]; assumption).
    refine (IH (length t) _ t eq_refl _ _ _ _ He); [cbn [length] in Hk; lia| |assumption].
    apply lxor_lt; [assumption|apply f_lt; assumption].
Qed.

(** ** bytes and words *)
Lemma load_le_val a b c d : is_byte a -> is_byte b -> is_byte c -> load_le a b c d = le_val [a; b; c; d].
Proof.
  unfold is_byte. intros Ha Hb Hc. unfold load_le. cbn [le_val].
  rewrite (lor_add a b 8) by (simpl; lia). change (2 ^ 8) with 256.
  rewrite (lor_add _ c 16) by lia. rewrite (lor_add _ d 24) by lia. lia.
Qed.
Lemma store_le_bytes n : n < 2 ^ 32 -> store_le n = le_bytes 4 n.
Proof.
  intros H. unfold store_le, w8. cbn [le_bytes].
  rewrite !land_255, !N.shiftr_div_pow2.
  repeat (f_equal; [lia|]). f_equal. lia.
Qed.
Lemma store_le_length n : length (store_le n) = 4%nat.
Proof. reflexivity. Qed.
Lemma store_le_ok n : bytes (store_le n).
Proof. unfold store_le. repeat constructor; apply w8_lt. Qed.

Lemma bytesn8 blk : bytesn 8 blk -> exists a b c d e g h i,
  blk = [a;b;c;d;e;g;h;i] /\ is_byte a /\ is_byte b /\ is_byte c /\ is_byte d /\ is_byte e /\ is_byte g /\ is_byte h /\ is_byte i.
Proof.
  intros [Hb Hl]. explode blk. forall_inv. repeat eexists; eauto.
Qed.

Lemma load_lo_val blk : bytesn 8 blk -> load_lo blk = le_val (firstn 4 blk).
Proof. intros H. destruct (bytesn8 blk H) as (a&b&c&d&e&g&h&i&->&?&?&?&?&?&?&?&?). unfold load_lo. apply load_le_val; assumption. Qed.
Lemma load_hi_val blk : bytesn 8 blk -> load_hi blk = le_val (skipn 4 blk).
Proof. intros H. destruct (bytesn8 blk H) as (a&b&c&d&e&g&h&i&->&?&?&?&?&?&?&?&?). unfold load_hi. apply load_le_val; assumption. Qed.
Lemma load_lo_lt blk : bytesn 8 blk -> load_lo blk < 2 ^ 32.
Proof.
  intros H. rewrite load_lo_val by assumption. destruct H as [Hb Hl].
  pose proof (le_val_lt (firstn 4 blk) (bytes_firstn _ _ Hb)) as Hlt.
  rewrite firstn_length, Hl in Hlt. exact Hlt.
Qed.
Lemma load_hi_lt blk : bytesn 8 blk -> load_hi blk < 2 ^ 32.
Proof.
  intros H. rewrite load_hi_val by assumption. destruct H as [Hb Hl].
  pose proof (le_val_lt (skipn 4 blk) (bytes_skipn _ _ Hb)) as Hlt.
  rewrite skipn_length, Hl in Hlt. exact Hlt.
Qed.
Lemma load_lo_store a b : a < 2 ^ 32 -> load_lo (store_le a ++ store_le b) = a.
Proof.
  intros H. rewrite load_lo_val.
  - rewrite firstn_app, store_le_length. change (4 - 4)%nat with 0%nat. rewrite app_nil_r.
    change 4%nat with (length (store_le a)) at 1. rewrite firstn_all, store_le_bytes by assumption.
    apply le_val_le_bytes_small. exact H.
  - split; [apply bytes_app; apply store_le_ok|reflexivity].
Qed.
Lemma load_hi_store a b : b < 2 ^ 32 -> load_hi (store_le a ++ store_le b) = b.
Proof.
  intros H. rewrite load_hi_val.
  - rewrite skipn_app, store_le_length. change (4 - 4)%nat with 0%nat. change (skipn 0 (store_le b)) with (store_le b).
    change 4%nat with (length (store_le a)) at 1. rewrite skipn_all, store_le_bytes by assumption.
    apply le_val_le_bytes_small. exact H.
  - split; [apply bytes_app; apply store_le_ok|reflexivity].
Qed.
Lemma store_load blk : bytesn 8 blk -> store_le (load_lo blk) ++ store_le (load_hi blk) = blk.
Proof.
  intros H. rewrite !store_le_bytes by (apply load_lo_lt || apply load_hi_lt; assumption).
  rewrite load_lo_val, load_hi_val by assumption. destruct H as [Hb Hl].
  rewrite !le_bytes_le_val_n; [apply firstn_skipn| |].
  - split; [apply bytes_skipn, Hb|rewrite skipn_length; lia].
  - split; [apply bytes_firstn, Hb|rewrite firstn_length; lia].
Qed.

Lemma block_out_ok (p : N * N) : bytesn 8 (let '(n1, n2) := p in store_le n2 ++ store_le n1).
Proof. destruct p. split; [apply bytes_app; apply store_le_ok|reflexivity]. Qed.
Lemma gostcrypt_bytesn c blk : bytesn 8 (gostcrypt c blk).
Proof. apply block_out_ok. Qed.
Lemma gostdecrypt_bytesn c blk : bytesn 8 (gostdecrypt c blk).
Proof. apply block_out_ok. Qed.

(** ** Feistel inversion *)
Lemma rounds_app c k a b n1 n2 : length a = (2 * k)%nat ->
  rounds c (a ++ b) n1 n2 = let '(x, y) := rounds c a n1 n2 in rounds c b x y.
Proof.
  revert a n1 n2; induction k as [|k IH]; intros a n1 n2 Ha.
  - destruct a; [reflexivity|discriminate].
  - destruct a as [|i [|j t]]; simpl in Ha; try lia. cbn [app rounds]. apply IH. lia.
Qed.
Lemma rounds_rev c k idx n1 n2 a b : length idx = (2 * k)%nat ->
  rounds c idx n1 n2 = (a, b) -> rounds c (rev idx) b a = (n2, n1).
Proof.
  revert idx n1 n2; induction k as [|k IH]; intros idx n1 n2 Hl He.
  - destruct idx; [|discriminate]. simpl in *. congruence.
  - destruct idx as [|i [|j t]]; simpl in Hl; try lia. cbn [rounds] in He.
    apply IH in He; [|lia]. cbn [rev]. rewrite <- app_assoc.
    rewrite (rounds_app c k) by (rewrite rev_length; lia). rewrite He. cbn [app rounds].
    set (n2' := N.lxor n2 _). rewrite lxor_cancel_r. f_equal. subst n2'. apply lxor_cancel_r.
Qed.

Lemma feistel_inverse c idx k blk (Hc : ctx_wf c) : length idx = (2 * k)%nat -> bytesn 8 blk ->
  let step idx blk := let '(n1, n2) := rounds c idx (load_lo blk) (load_hi blk) in store_le n2 ++ store_le n1 in
  step (rev idx) (step idx blk) = blk.
Proof.
  intros Hl Hb step. unfold step at 2.
  destruct (rounds c idx (load_lo blk) (load_hi blk)) as [a b] eqn:He.
  pose proof (rounds_lt _ _ _ _ _ _ Hc (load_lo_lt _ Hb) (load_hi_lt _ Hb) He) as [Ha Hb'].
  unfold step. rewrite load_lo_store, load_hi_store by assumption.
  rewrite (rounds_rev c k idx _ _ _ _ Hl He). apply store_load, Hb.
Qed.

Lemma gost_dec_enc c blk : ctx_wf c -> bytesn 8 blk -> gostdecrypt c (gostcrypt c blk) = blk.
Proof. intros Hc Hb. exact (feistel_inverse c enc_idx 16 blk Hc eq_refl Hb). Qed.
Lemma gost_enc_dec c blk : ctx_wf c -> bytesn 8 blk -> gostcrypt c (gostdecrypt c blk) = blk.
Proof. intros Hc Hb. exact (feistel_inverse c dec_idx 16 blk Hc eq_refl Hb). Qed.

(** ** tables *)
Lemma at_ktab hi lo sh i : i < 256 ->
  at_ (ktab hi lo sh) i =
  w32 (N.shiftl (N.lor (N.shiftl (at_ hi (N.shiftr i 4)) 4) (at_ lo (N.land i 15))) sh).
Proof.
  intros Hi. unfold at_ at 1, ktab. rewrite nth_map_seq by lia. cbv zeta.
  rewrite N2Nat.id. reflexivity.
Qed.
Lemma at_row r i : row_wf r -> at_ r i < 16.
Proof.
  intros [Hl H]. unfold at_. destruct (nth_in_or_default (N.to_nat i) r 0) as [Hin| ->]; [|reflexivity].
  rewrite Forall_forall in H. apply H, Hin.
Qed.
Lemma at_ktab_val hi lo sh x : row_wf hi -> row_wf lo -> sh <= 24 ->
  at_ (ktab hi lo sh) (N.land x 255) = (at_ hi ((x / 16) mod 16) * 16 + at_ lo (x mod 16)) * 2 ^ sh.
Proof.
  intros Hh Hlo Hsh. rewrite land_255, at_ktab by lia.
  rewrite land_15, N.shiftr_div_pow2. change (2 ^ 4) with 16.
  replace (x mod 256 / 16) with ((x / 16) mod 16) by lia.
  replace ((x mod 256) mod 16) with (x mod 16) by lia.
  pose proof (at_row hi ((x / 16) mod 16) Hh) as H1. pose proof (at_row lo (x mod 16) Hlo) as H2.
  rewrite lor_add' by (simpl; lia). change (2 ^ 4) with 16. rewrite N.shiftl_mul_pow2.
  unfold w32. rewrite N.mod_small; [lia|].
  assert (2 ^ sh <= 2 ^ 24) by (apply N.pow_le_mono_r; lia). nia.
Qed.

Lemma lor4 a b c d : b < 256 -> c < 256 -> d < 256 ->
  N.lor (N.lor (N.lor (a * 2 ^ 24) (b * 2 ^ 16)) (c * 2 ^ 8)) d = d + c * 2 ^ 8 + b * 2 ^ 16 + a * 2 ^ 24.
Proof.
  intros Hb Hc Hd.
  replace (N.lor (a * 2 ^ 24) (b * 2 ^ 16)) with ((b + a * 256) * 2 ^ 16)
    by (rewrite <- (N.shiftl_mul_pow2 a), lor_add' by lia; lia).
  replace (N.lor ((b + a * 256) * 2 ^ 16) (c * 2 ^ 8)) with ((c + (b + a * 256) * 256) * 2 ^ 8)
    by (rewrite <- (N.shiftl_mul_pow2 (b + a * 256)), lor_add' by lia; lia).
  rewrite <- N.shiftl_mul_pow2, lor_add' by lia. lia.
Qed.

Lemma rol11_lor y : y < 2 ^ 32 -> N.lor (w32 (N.shiftl y 11)) (N.shiftr y (32 - 11)) = rol11 y.
Proof.
  intros Hy. unfold rol11, w32. change (32 - 11) with 21. rewrite N.shiftr_div_pow2, N.shiftl_mul_pow2.
  replace ((y * 2 ^ 11) mod 2 ^ 32) with (y mod 2 ^ 21 * 2 ^ 11).
  2:{ change (2 ^ 32) with (2 ^ 21 * 2 ^ 11). rewrite N.mul_mod_distr_r by lia. reflexivity. }
  rewrite <- N.shiftl_mul_pow2, lor_add' by lia. rewrite N.shiftl_mul_pow2. lia.
Qed.

Lemma subst32_lt S x : (forall i v, (i < 8)%nat -> v < 16 -> S i v < 16) -> subst32 S x < 2 ^ 32.
Proof.
  intros H. unfold subst32. cbn [seq fold_right].
  assert (HS : forall i, (i < 8)%nat -> S i ((x / 16 ^ N.of_nat i) mod 16) < 16) by (intros i Hi; apply H; lia).
  pose proof (HS 0%nat ltac:(lia)). pose proof (HS 1%nat ltac:(lia)). pose proof (HS 2%nat ltac:(lia)).
  pose proof (HS 3%nat ltac:(lia)). pose proof (HS 4%nat ltac:(lia)). pose proof (HS 5%nat ltac:(lia)).
  pose proof (HS 6%nat ltac:(lia)). pose proof (HS 7%nat ltac:(lia)).
  change (16 ^ N.of_nat 0) with 1 in *. change (16 ^ N.of_nat 1) with 16 in *.
  change (16 ^ N.of_nat 2) with 256 in *. change (16 ^ N.of_nat 3) with 4096 in *.
  change (16 ^ N.of_nat 4) with 65536 in *. change (16 ^ N.of_nat 5) with 1048576 in *.
  change (16 ^ N.of_nat 6) with 16777216 in *. change (16 ^ N.of_nat 7) with 268435456 in *.
  generalize dependent (S 0%nat ((x / 1) mod 16)). generalize dependent (S 1%nat ((x / 16) mod 16)).
  generalize dependent (S 2%nat ((x / 256) mod 16)). generalize dependent (S 3%nat ((x / 4096) mod 16)).
  generalize dependent (S 4%nat ((x / 65536) mod 16)). generalize dependent (S 5%nat ((x / 1048576) mod 16)).
  generalize dependent (S 6%nat ((x / 16777216) mod 16)). generalize dependent (S 7%nat ((x / 268435456) mod 16)).
  clear. intros. lia.
Qed.

Lemma sb_fun_lt b i v : sb_wf b -> (i < 8)%nat -> sb_fun b i v < 16.
Proof.
  intros (H8 & H7 & H6 & H5 & H4 & H3 & H2 & H1) Hi. unfold sb_fun.
  do 8 (destruct i as [|i]; [apply at_row; assumption|]). lia.
Qed.

Lemma f_spec c b x : sb_wf b -> x < 2 ^ 32 ->
  f (kboxinit c b) x = rol11 (subst32 (sb_fun b) x).
Proof.
  intros Hb Hx. unfold f. cbv zeta.
  match goal with |- N.lor (w32 (N.shiftl ?e 11)) _ = _ => set (y := e) end.
  assert (Hy : y = subst32 (sb_fun b) x).
  { destruct Hb as (H8 & H7 & H6 & H5 & H4 & H3 & H2 & H1). subst y.
    unfold kboxinit; cbn [Model_Gost89.k87 Model_Gost89.k65 Model_Gost89.k43 Model_Gost89.k21].
    rewrite !at_ktab_val by (assumption || lia). rewrite !N.shiftr_div_pow2.
    rewrite !N.div_div by lia.
    unfold subst32. cbn [seq fold_right]. unfold sb_fun, sb_row. cbn [nth].
    change (16 ^ N.of_nat 0) with 1. change (16 ^ N.of_nat 1) with 16.
    change (16 ^ N.of_nat 2) with (2 ^ 8). change (16 ^ N.of_nat 3) with (2 ^ 8 * 16).
    change (16 ^ N.of_nat 4) with (2 ^ 16). change (16 ^ N.of_nat 5) with (2 ^ 16 * 16).
    change (16 ^ N.of_nat 6) with (2 ^ 24). change (16 ^ N.of_nat 7) with (2 ^ 24 * 16).
    rewrite N.div_1_r. fold (at_ (k1 b) (x mod 16)).
    repeat match goal with |- context [nth (N.to_nat ?v) ?r 0] => fold (at_ r v) end.
    repeat match goal with |- context [at_ (?k b) ?v] =>
      let Hk := fresh in assert (Hk : at_ (k b) v < 16) by (apply at_row; assumption);
      revert Hk; generalize (at_ (k b) v); intros ? Hk end.
    change (2 ^ 0) with 1. rewrite N.mul_1_r. rewrite lor4 by lia. lia. }
  rewrite Hy. apply rol11_lor. apply subst32_lt. intros i v Hi _. apply sb_fun_lt; assumption.
Qed.

(** ** contexts loaded with an S-box and a key *)
(** [c] works as GOST 28147-89 with S-box [S] and 32-byte key [k]. *)
Definition loaded (S : sbox) (k : list N) (c : gost_ctx) : Prop :=
  ctx_wf c /\
  forall x i, (i < 8)%nat -> x < 2 ^ 32 ->
    f c (keyed c x (N.of_nat i)) = F S (nth i (key_words k) 0) x.


Lemma sub32_add a b x : a < 2 ^ 32 -> b < 2 ^ 32 ->
  w32 (w32 (x + sub32 a b) + b) = (x + a) mod 2 ^ 32.
Proof.
  intros Ha Hb. unfold sub32, w32. rewrite (N.mod_small b) by assumption.
  rewrite N.add_mod_idemp_l by lia.
  rewrite <- (N.add_assoc x), <- (N.add_mod_idemp_r x) by lia.
  rewrite (N.add_mod_idemp_l _ b) by lia.
  replace (a + 2 ^ 32 - b + b) with (a + 1 * 2 ^ 32) by lia.
  rewrite N.mod_add by lia. rewrite N.add_mod_idemp_r by lia. reflexivity.
Qed.

Lemma word_of_val k i : bytesn 32 k -> (i < 8)%nat ->
  word_of k (N.of_nat i) = le_val (firstn 4 (skipn (4 * i) k)).
Proof.
  intros [Hk Hl] Hi. unfold word_of. explode k. forall_inv.
  do 8 (destruct i as [|i]; [apply load_le_val; assumption|]). lia.
Qed.
Lemma key_words_nth k i : (i < 8)%nat -> nth i (key_words k) 0 = le_val (firstn 4 (skipn (4 * i) k)).
Proof. intros Hi. unfold key_words. rewrite nth_map_seq by assumption. reflexivity. Qed.
Lemma key_words_u32 k i : bytes k -> nth i (key_words k) 0 < 2 ^ 32.
Proof.
  intros Hk. destruct (Nat.lt_ge_cases i 8) as [Hi|Hi].
  - rewrite key_words_nth by assumption.
    pose proof (le_val_lt _ (bytes_firstn 4 _ (bytes_skipn (4 * i) _ Hk))) as H.
    eapply N.lt_le_trans; [exact H|]. change (2 ^ 32) with (256 ^ 4).
    apply N.pow_le_mono_r; [lia|]. rewrite firstn_length. lia.
  - rewrite nth_overflow by (unfold key_words; rewrite map_length, seq_length; lia). lia.
Qed.

Lemma at_nat l i : at_ l (N.of_nat i) = nth i l 0.
Proof. unfold at_. rewrite Nat2N.id. reflexivity. Qed.

Lemma nth_u32 l i : Forall u32 l -> nth i l 0 < 2 ^ 32.
Proof. intros H. rewrite <- at_nat. apply at_u32, H. Qed.

Lemma map_idx8_nth (g : N -> N) i : (i < 8)%nat -> nth i (map g idx8) 0 = g (N.of_nat i).
Proof. intros Hi. do 8 (destruct i as [|i]; [reflexivity|]). lia. Qed.

Lemma keyed_key_impl rnd c k x i : mask_wf rnd -> bytesn 32 k -> (i < 8)%nat ->
  keyed (gost_key rnd c k) x (N.of_nat i) = (x + nth i (key_words k) 0) mod 2 ^ 32.
Proof.
  intros [Hl Hm] Hk Hi. unfold keyed, gost_key, gost_key_impl, set_mask. cbn [key mask].
  rewrite !at_nat, map_idx8_nth by assumption.
  rewrite word_of_val by assumption. rewrite <- key_words_nth by assumption.
  rewrite at_nat. apply sub32_add; [apply key_words_u32, Hk|apply nth_u32, Hm].
Qed.

Lemma sub32_u32 a b : u32 (sub32 a b).
Proof. apply w32_lt. Qed.

Definition tables_wf (c : gost_ctx) : Prop :=
  length (k87 c) = 256%nat /\ Forall u32 (k87 c) /\
  length (k65 c) = 256%nat /\ Forall u32 (k65 c) /\
  length (k43 c) = 256%nat /\ Forall u32 (k43 c) /\
  length (k21 c) = 256%nat /\ Forall u32 (k21 c).

Lemma gost_key_wf rnd c k : mask_wf rnd -> tables_wf c -> ctx_wf (gost_key rnd c k).
Proof.
  intros [Hl Hm] Ht. unfold ctx_wf, gost_key, gost_key_impl, set_mask. cbn [key mask Model_Gost89.k87 Model_Gost89.k65 Model_Gost89.k43 Model_Gost89.k21].
  split; [apply map_length|]. split; [|split; [assumption|split; assumption]].
  apply Forall_map. apply Forall_forall. intros i _. apply sub32_u32.
Qed.
Lemma kboxinit_tables c b : tables_wf (kboxinit c b).
Proof. repeat split; try apply ktab_length; apply ktab_u32. Qed.

(** The tables of [c] compute S-box [S]. *)
Definition has_sbox (S : sbox) (c : gost_ctx) : Prop :=
  tables_wf c /\ forall x, x < 2 ^ 32 -> f c x = rol11 (subst32 S x).

Lemma f_tables c c' x : k87 c = k87 c' -> k65 c = k65 c' -> k43 c = k43 c' -> k21 c = k21 c' -> f c x = f c' x.
Proof. intros H1 H2 H3 H4. unfold f. rewrite H1, H2, H3, H4. reflexivity. Qed.

Lemma kboxinit_has_sbox c b : sb_wf b -> has_sbox (sb_fun b) (kboxinit c b).
Proof. intros Hb. split; [apply kboxinit_tables|]. intros x Hx. apply f_spec; assumption. Qed.

Lemma gost_key_loaded S rnd c k : has_sbox S c -> mask_wf rnd -> bytesn 32 k -> loaded S k (gost_key rnd c k).
Proof.
  intros [Ht HS] Hm Hk. split; [apply gost_key_wf; assumption|].
  intros x i Hi Hx. rewrite keyed_key_impl by assumption. unfold F.
  rewrite <- HS by lia. reflexivity.
Qed.
Lemma zeros_mask : mask_wf (zeros 8).
Proof. split; [reflexivity|]. repeat constructor. Qed.
Lemma gost_key_nomask_loaded S c k : has_sbox S c -> bytesn 32 k -> loaded S k (gost_key_nomask c k).
Proof. intros HS Hk. apply (gost_key_loaded S (zeros 8)); auto using zeros_mask. Qed.
Lemma loaded_has_sbox_key S rnd c k : has_sbox S c -> has_sbox S (gost_key rnd c k).
Proof. intros [Ht HS]. split; [exact Ht|exact HS]. Qed.


(** ** rounds are Feistel steps *)
Lemma rounds_feistel S c (K : N -> N) k idx n1 n2 :
  ctx_wf c -> length idx = (2 * k)%nat ->
  (forall i x, In i idx -> x < 2 ^ 32 -> f c (keyed c x i) = F S (K i) x) ->
  n1 < 2 ^ 32 -> n2 < 2 ^ 32 ->
  rounds c idx n1 n2 = fold_left (feistel S) (map K idx) (n1, n2).
Proof.
  intros Hc. revert idx n1 n2; induction k as [|k IH]; intros idx n1 n2 Hl HK H1 H2.
  - destruct idx; [reflexivity|discriminate].
  - destruct idx as [|i [|j t]]; cbn [length] in Hl; try lia. cbn [rounds map fold_left].
    unfold feistel at 2 3; cbn [fst snd]. 
    rewrite <- (HK i n1) by (simpl; auto).
    set (n2' := N.lxor n2 _).
    assert (Hn2' : n2' < 2 ^ 32) by (apply lxor_lt; [assumption|apply f_lt, Hc]).
    rewrite <- (HK j n2') by (simpl; auto).
    apply IH; [lia| |apply lxor_lt; [assumption|apply f_lt, Hc]|assumption].
    intros i' x Hi' Hx. apply HK; [simpl; auto|assumption].
Qed.

Lemma loaded_rounds S k c idx m n1 n2 : loaded S k c -> length idx = (2 * m)%nat ->
  Forall (fun i => i < 8) idx -> n1 < 2 ^ 32 -> n2 < 2 ^ 32 ->
  rounds c idx n1 n2 = fold_left (feistel S) (map (fun i => nth (N.to_nat i) (key_words k) 0) idx) (n1, n2).
Proof.
  intros [Hw HL] Hl Hi H1 H2. apply (rounds_feistel _ _ _ m); auto.
  intros i x Hin Hx. rewrite Forall_forall in Hi. specialize (Hi i Hin).
  rewrite <- HL by lia. rewrite N2Nat.id. reflexivity.
Qed.

Lemma key_words_eta k : key_words k = [nth 0 (key_words k) 0; nth 1 (key_words k) 0; nth 2 (key_words k) 0;
  nth 3 (key_words k) 0; nth 4 (key_words k) 0; nth 5 (key_words k) 0; nth 6 (key_words k) 0; nth 7 (key_words k) 0].
Proof. reflexivity. Qed.

Lemma enc_idx_keys k : map (fun i => nth (N.to_nat i) (key_words k) 0) enc_idx = enc_keys (key_words k).
Proof. reflexivity. Qed.
Lemma dec_idx_keys k : map (fun i => nth (N.to_nat i) (key_words k) 0) dec_idx = dec_keys (key_words k).
Proof. reflexivity. Qed.
Lemma mac_idx_keys k : map (fun i => nth (N.to_nat i) (key_words k) 0) mac_idx = mac_keys (key_words k).
Proof. reflexivity. Qed.

Lemma Forall_idx (l : list N) : forallb (fun i => i <? 8) l = true -> Forall (fun i => i < 8) l.
Proof. rewrite forallb_forall, Forall_forall. intros H x Hx. specialize (H x Hx). lia. Qed.

Lemma split64_loads blk : bytesn 8 blk -> split64 blk = (load_lo blk, load_hi blk).
Proof. intros H. unfold split64. rewrite load_lo_val, load_hi_val by assumption. reflexivity. Qed.

Lemma gostcrypt_spec S k c blk : loaded S k c -> bytesn 8 blk -> gostcrypt c blk = encrypt S k blk.
Proof.
  intros HL Hb. unfold gostcrypt, encrypt, block_cipher.
  rewrite <- enc_idx_keys, split64_loads by assumption.
  pose proof (load_lo_lt _ Hb) as H1. pose proof (load_hi_lt _ Hb) as H2.
  rewrite <- (loaded_rounds S k c enc_idx 16) by (auto; apply Forall_idx; reflexivity).
  destruct (rounds c enc_idx (load_lo blk) (load_hi blk)) as [a b] eqn:He. cbn [fst snd].
  destruct (rounds_lt _ _ _ _ _ _ (proj1 HL) H1 H2 He) as [Ha Hb'].
  rewrite !store_le_bytes by assumption. reflexivity.
Qed.
Lemma gostdecrypt_spec S k c blk : loaded S k c -> bytesn 8 blk -> gostdecrypt c blk = decrypt S k blk.
Proof.
  intros HL Hb. unfold gostdecrypt, decrypt, block_cipher.
  rewrite <- dec_idx_keys, split64_loads by assumption.
  pose proof (load_lo_lt _ Hb) as H1. pose proof (load_hi_lt _ Hb) as H2.
  rewrite <- (loaded_rounds S k c dec_idx 16) by (auto; apply Forall_idx; reflexivity).
  destruct (rounds c dec_idx (load_lo blk) (load_hi blk)) as [a b] eqn:He. cbn [fst snd].
  destruct (rounds_lt _ _ _ _ _ _ (proj1 HL) H1 H2 He) as [Ha Hb'].
  rewrite !store_le_bytes by assumption. reflexivity.
Qed.
Lemma encrypt_bytesn S k b : bytesn 8 (encrypt S k b).
Proof. unfold encrypt, block_cipher. split; [apply bytes_app; apply le_bytes_bytes|rewrite app_length, !le_bytes_length; reflexivity]. Qed.
Lemma decrypt_bytesn S k b : bytesn 8 (decrypt S k b).
Proof. unfold decrypt, block_cipher. split; [apply bytes_app; apply le_bytes_bytes|rewrite app_length, !le_bytes_length; reflexivity]. Qed.

Lemma xorl_bytesn n a b : bytesn n a -> bytesn n b -> bytesn n (xorl a b).
Proof. intros [Ha Hla] [Hb Hlb]. split; [apply xorl_bytes; assumption|rewrite xorl_length; lia]. Qed.

Lemma mac_block_spec S k c st blk : loaded S k c -> bytesn 8 st -> bytesn 8 blk ->
  mac_block c st blk = mac_step S k st blk.
Proof.
  intros HL Hst Hb. pose proof (xorl_bytesn 8 _ _ Hst Hb) as Hx.
  unfold mac_block, mac_step. cbv zeta.
  rewrite <- mac_idx_keys, split64_loads by assumption.
  pose proof (load_lo_lt _ Hx) as H1. pose proof (load_hi_lt _ Hx) as H2.
  rewrite <- (loaded_rounds S k c mac_idx 8) by (auto; apply Forall_idx; reflexivity).
  destruct (rounds c mac_idx _ _) as [a b] eqn:He. cbn [fst snd].
  destruct (rounds_lt _ _ _ _ _ _ (proj1 HL) H1 H2 He) as [Ha Hb'].
  rewrite !store_le_bytes by assumption. reflexivity.
Qed.
Lemma mac_step_bytesn S k st blk : bytesn 8 (mac_step S k st blk).
Proof. unfold mac_step. split; [apply bytes_app; apply le_bytes_bytes|rewrite app_length, !le_bytes_length; reflexivity]. Qed.
Lemma mac_block_bytesn c st blk : bytesn 8 (mac_block c st blk).
Proof. unfold mac_block. cbv zeta. destruct (rounds _ _ _ _). split; [apply bytes_app; apply store_le_ok|reflexivity]. Qed.

(** ** key read back *)
Lemma get_bytes_val w : w < 2 ^ 32 -> get_bytes w = le_bytes 4 w.
Proof.
  intros H. unfold get_bytes, w8. cbn [le_bytes]. rewrite !land_255, !N.shiftr_div_pow2.
  repeat (f_equal; [lia|]). f_equal. lia.
Qed.
Lemma unmasked_sub a b : a < 2 ^ 32 -> b < 2 ^ 32 -> w32 (sub32 a b + b) = a.
Proof.
  intros Ha Hb. pose proof (sub32_add a b 0 Ha Hb) as H. rewrite !N.add_0_l in H.
  unfold sub32 in *. unfold w32 at 2 in H. unfold w32 at 2 in H.
  rewrite N.mod_mod in H by lia. fold (w32 (a + 2 ^ 32 - w32 b)) in H. rewrite H. apply N.mod_small, Ha.
Qed.


Lemma unmasked_gost_key rnd c k i : mask_wf rnd -> bytesn 32 k -> (i < 8)%nat ->
  unmasked (gost_key rnd c k) (N.of_nat i) = le_val (firstn 4 (skipn (4 * i) k)).
Proof.
  intros [Hl Hm] Hk Hi. unfold unmasked, gost_key, gost_key_impl, set_mask. cbn [key mask].
  rewrite !at_nat, map_idx8_nth by assumption. rewrite word_of_val by assumption.
  rewrite <- key_words_nth by assumption. rewrite at_nat.
  apply unmasked_sub; [apply key_words_u32, Hk|apply nth_u32, Hm].
Qed.

Lemma gost_get_key_spec rnd c k : mask_wf rnd -> bytesn 32 k -> gost_get_key (gost_key rnd c k) = k.
Proof.
  intros Hm Hk. unfold gost_get_key. change idx8 with (map N.of_nat (seq 0 8)). cbn [seq map flat_map].
  rewrite (unmasked_gost_key rnd c k 0), (unmasked_gost_key rnd c k 1), (unmasked_gost_key rnd c k 2),
    (unmasked_gost_key rnd c k 3), (unmasked_gost_key rnd c k 4), (unmasked_gost_key rnd c k 5),
    (unmasked_gost_key rnd c k 6), (unmasked_gost_key rnd c k 7) by (assumption || lia).
  destruct Hk as [Hb Hl]. explode k. forall_inv. cbn [Nat.mul Nat.add skipn firstn].
  rewrite !get_bytes_val by (cbn [le_val]; unfold is_byte in *; lia).
  rewrite !le_bytes_le_val_n by (split; [repeat constructor; assumption|reflexivity]).
  reflexivity.
Qed.

Lemma swap4_bytesn k : bytesn 32 k -> bytesn 32 (swap4 k).
Proof.
  intros [Hb Hl]. explode k. forall_inv. split; [|reflexivity].
  unfold swap4, chunks. cbn. repeat constructor; assumption.
Qed.
Lemma swap4_involutive k : bytesn 32 k -> swap4 (swap4 k) = k.
Proof. intros [Hb Hl]. explode k. reflexivity. Qed.

Lemma magma_key_swap rnd c k : bytesn 32 k -> magma_key rnd c k = gost_key rnd c (swap4 k).
Proof. intros [Hb Hl]. explode k. reflexivity. Qed.

Lemma magma_get_key_swap c : magma_get_key c = swap4 (gost_get_key c).
Proof. reflexivity. Qed.

Lemma magma_get_key_spec rnd c k : mask_wf rnd -> bytesn 32 k -> magma_get_key (magma_key rnd c k) = k.
Proof.
  intros Hm Hk. rewrite magma_key_swap by assumption. rewrite magma_get_key_swap.
  rewrite gost_get_key_spec; [apply swap4_involutive, Hk|exact Hm|apply swap4_bytesn, Hk].
Qed.
