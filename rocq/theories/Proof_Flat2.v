(** Proofs: degenerate S-boxes and keys seen through the interface. *)
From Coq Require Import Lia ZArith.
From Verif Require Import Base Lib Model_Gost89 Model_Params Model_Hash Model_Cipher Spec_Gost89 Spec_Params Spec_Hash Spec_Cipher Spec_Md Spec_Flat
  Proof_Gost89 Proof_Gost89Modes Proof_CipherApi Proof_MacBind Proof_Flat.
From Verif Require Import Model_Gf2m Model_Compress Model_Ec Model_Curves Model_Sign Model_Asn1 Model_Pmeth Model_Key Model_Ameth Model_Evp
  Spec_Gf2m Spec_Compress Spec_Curves Spec_Asn1 Spec_Sign Spec_Pmeth Spec_Key Proof_Evp.

Lemma swapped_bytesn b : bytesn 8 b -> bytesn 8 (halves_swapped b).
Proof.
  intros H. destruct (halves8 b H) as [[A1 A2] [B1 B2]]. unfold halves_swapped. split; [apply bytes_app; assumption|]. rewrite app_length, A2, B2. reflexivity.
Qed.
Lemma flat_stream rnd c0 k iv p enc ds : mask_wf rnd -> bytesn 32 k -> bytesn 8 iv -> bytesn 64 p -> flat_sbox p -> pieces ds ->
  snd (updates (start rnd c0 k iv (Some p) enc) ds) = cfb_stream enc halves_swapped iv (concat ds).
Proof.
  intros Hr Hk Hi Hp Hf Hd. destruct (cipher_stream rnd c0 k iv (Some p) enc ds Hr Hk Hi Hp Hd) as [E _]. cbn [the_sbox] in E. rewrite E.
  apply cfb_stream_ext; [|intros b Hb; rewrite (encrypt_flat (packed_sbox p)) by (try apply packed_flat; assumption); apply swapped_bytesn, Hb|exact Hi|].
  - intros b Hb. apply encrypt_flat; [apply packed_flat; exact Hf|exact Hb].
  - clear - Hd. induction Hd as [|d ds H _ IH]; [constructor|]. cbn [concat]. apply bytes_app; [apply H|exact IH].
Qed.
Lemma flat_mac c0 b rnd k fuel nb data : sb_wf b -> (forall i v w, (i < 8)%nat -> v < 16 -> w < 16 -> sb_fun b i v = sb_fun b i w) -> mask_wf rnd -> bytesn 32 k -> bytes data ->
  N.of_nat (length data) < 2 ^ 32 - 8 -> (length data / 8 < fuel)%nat -> (nb <= 8)%nat ->
  gost_mac fuel (gost_key rnd (gost_init c0 (Some b)) k) (8 * Z.of_nat nb) data = MacOk (firstn nb (xor_blocks (mac_blocks data))).
Proof.
  intros Hb Hf Hr Hk Hd Hl Hfu Hn. rewrite api_mac by assumption. do 2 f_equal. unfold mac_full, xor_blocks. apply mac_flat; [exact Hf| |apply zeros_bytesn].
  rewrite mac_blocks_eq. apply Forall_app. split; [apply pads_bytesn, Hd|apply tail1_bytesn].
Qed.
Lemma palindrome_key c0 b rnd k blk : sb_wf b -> mask_wf rnd -> bytesn 32 k -> bytesn 8 blk -> rev (key_words k) = key_words k ->
  let c := gost_key rnd (gost_init c0 (Some b)) k in gostdecrypt c blk = gostcrypt c blk /\ gostcrypt c (gostcrypt c blk) = blk.
Proof.
  intros Hb Hr Hk Hx Hp c. destruct (block_is_gost c0 b rnd k blk Hb Hr Hk Hx) as (E1 & E2 & _). fold c in E1, E2.
  assert (D : forall x, decrypt (sb_fun b) k x = encrypt (sb_fun b) k x) by (intros x; unfold decrypt, encrypt, dec_keys, enc_keys; rewrite Hp; reflexivity).
  assert (E : gostdecrypt c blk = gostcrypt c blk) by (rewrite E1, E2; apply D). split; [exact E|]. rewrite <- E.
  destruct (block_roundtrip_api c0 (Some b) rnd k blk Hr Hx) as [_ R]. exact R.
Qed.

(** ** one signature, two messages *)
Lemma flat_hash s q P A lo hi Q m m' : flat_sbox s -> is_byte lo -> is_byte hi -> bytes P -> length P = (q * 32)%nat -> bytesn 32 A ->
  m = P ++ A ++ xorl A (tweak lo hi) ++ Q -> m' = P ++ xorl A (tweak lo hi) ++ A ++ Q -> digest (packed_sbox s) m' = digest (packed_sbox s) m.
Proof. intros Hf Hl Hh HP Hq HA -> ->. symmetry. apply (digest_swap (packed_sbox s) q); auto. apply packed_flat, Hf. Qed.
Lemma messages_differ P A lo hi Q : bytesn 32 A -> is_byte lo -> is_byte hi -> (lo <> 0 \/ hi <> 0) -> P ++ A ++ xorl A (tweak lo hi) ++ Q <> P ++ xorl A (tweak lo hi) ++ A ++ Q.
Proof.
  intros HA Hl Hh Hz E. apply app_inv_head in E. pose proof (xorl_bytesn 32 A _ HA (tweak_ok lo hi Hl Hh)) as HB.
  assert (C : forall (a b x y : list N), length a = length b -> a ++ x = b ++ y -> a = b).
  { clear. induction a as [|u a IH]; intros [|v b] x y H H2; try discriminate; [reflexivity|]. injection H2 as -> H2. f_equal. apply (IH b x y); [injection H; auto|exact H2]. }
  apply C in E; [|rewrite (proj2 HA), (proj2 HB); reflexivity]. apply (tweak_differs A lo hi HA Hl Hh Hz). symmetry. exact E.
Qed.
Lemma flat_verify h h' c c' v v' x x' d2o t k s ds ds' q P A lo hi Q sig : bytesn 64 s -> flat_sbox s -> is_byte lo -> is_byte hi -> bytes P -> length P = (q * 32)%nat -> bytesn 32 A ->
  Forall bytes ds -> Forall bytes ds' -> hashable (length (concat ds)) ->
  concat ds = P ++ A ++ xorl A (tweak lo hi) ++ Q -> concat ds' = P ++ xorl A (tweak lo hi) ++ A ++ Q ->
  digest_verify h h' c c' d2o (PKEY t (Some (DKEY k (Some s)))) ds sig = digest_verify v v' x x' d2o (PKEY t (Some (DKEY k (Some s)))) ds' sig.
Proof.
  intros Hs Hf Hl Hh HP Hq HA Hd Hd' Hz E E'. assert (L : length (concat ds') = length (concat ds)) by (rewrite E, E', !app_length; lia).
  rewrite !digest_verify_ok by (try exact Hs; try rewrite L; assumption). cbn [effective]. rewrite (flat_hash s q P A lo hi Q (concat ds) (concat ds')) by assumption. reflexivity.
Qed.
Lemma flat_lifetime d2i d2o solve nid g t s fuel d0 q0 src k : reads_params d2i -> reads_octets d2o -> group_from_nid nid = Some g -> good_solver (c_p (g_curve g)) solve ->
  key_type t -> bytesn 64 s -> flat_sbox s -> ranged (g_order g) src -> generate_key fuel (ECKEY (Some (Binary g)) d0 q0) src = Done k ->
  (nid <> 1160 /\ nid <> 1168)%Z \/ (forall P, ek_pub k = Some P -> has_compressed_form (g_curve g) P) ->
  exists p8 pub kd kv, priv_encode (PKEY t (Some (DKEY k (Some s)))) = Ok p8 /\ pub_encode (PKEY t (Some (DKEY k (Some s)))) = Ok pub /\
    priv_decode d2i solve p8 = Some kd /\ pub_decode d2i d2o solve pub = Some kv /\
    forall h h' c c' v v' x x' fuel ds ds' siglen src len w q P A lo hi Q, is_byte lo -> is_byte hi -> bytes P -> length P = (q * 32)%nat -> bytesn 32 A ->
      Forall bytes ds -> Forall bytes ds' -> hashable (length (concat ds)) ->
      concat ds = P ++ A ++ xorl A (tweak lo hi) ++ Q -> concat ds' = P ++ xorl A (tweak lo hi) ++ A ++ Q -> ranged (g_order g) src ->
      digest_sign h h' c c' fuel kd ds siglen src = Some (Done (true, len, w)) ->
      digest_verify v v' x x' d2o kv ds w = Some true /\ digest_verify v v' x x' d2o kv ds' w = Some true.
Proof.
  intros R RO E GS KT Hs Hf RG GK NC.
  destruct (message_lifetime_gen d2i d2o solve nid g t (Some s) fuel d0 q0 src k R RO E GS KT Hs RG GK NC) as (p8 & pub & kd & kv & E1 & E2 & E3 & E4 & V).
  exists p8, pub, kd, kv. split; [exact E1|]. split; [exact E2|]. split; [exact E3|]. split; [exact E4|].
  intros h h' c c' v v' x x' fuel' ds ds' siglen src' len w q P A lo hi Q Hl Hh HP Hq HA Hd Hd' Hz M M' RG' SG.
  assert (L : length (concat ds') = length (concat ds)) by (rewrite M, M', !app_length; lia). cbn [effective] in V. split.
  - apply (V h h' c c' v v' x x' fuel' ds ds siglen src' len w); auto.
  - apply (V h h' c c' v v' x x' fuel' ds ds' siglen src' len w); auto; [apply (flat_hash s q P A lo hi Q); assumption|rewrite L; exact Hz].
Qed.
