(** Property theorems C121-C123: degenerate S-boxes and keys. *)
From Coq Require Import ZArith.
From Verif Require Import Base Model_Gost89 Model_Params Model_Hash Model_Cipher Spec_Gost89 Spec_Params Spec_Hash Spec_Cipher Spec_Md Spec_Flat.
From Verif Require Import Model_Gf2m Model_Compress Model_Ec Model_Curves Model_Sign Model_Asn1 Model_Pmeth Model_Key Model_Ameth Model_Evp
  Spec_Gf2m Spec_Compress Spec_Curves Spec_Asn1 Spec_Sign Spec_Pmeth Spec_Key Lib Proof_Flat2.
From Verif Require Prop_Cipher Prop_Gost89.
Import Prop_Cipher.

(** C121 is violated: with every S-box whose rows are constant, which the cipher accepts like any
    other (C14_import, C16), the output does not depend on the key: anyone can compute it, by
    cipher feedback with the exchange of the halves of a block as block function. *)
Theorem C121_no_key_refuted : forall rnd c0 k iv p enc ds, mask_wf rnd -> bytesn 32 k -> bytesn 8 iv -> bytesn 64 p -> flat_sbox p -> pieces ds ->
  snd (updates (start rnd c0 k iv (Some p) enc) ds) = cfb_stream enc halves_swapped iv (concat ds).
Proof. exact flat_stream. Qed.
Print Assumptions C121_no_key_refuted.
(** The MAC is then the xor of the blocks. *)
Theorem C121_mac_refuted : forall c0 b rnd k fuel nb data, sb_wf b -> (forall i v w, (i < 8)%nat -> v < 16 -> w < 16 -> sb_fun b i v = sb_fun b i w) ->
  mask_wf rnd -> bytesn 32 k -> bytes data -> N.of_nat (length data) < 2 ^ 32 - 8 -> (length data / 8 < fuel)%nat -> (nb <= 8)%nat ->
  gost_mac fuel (gost_key rnd (gost_init c0 (Some b)) k) (8 * Z.of_nat nb) data = MacOk (firstn nb (xor_blocks (mac_blocks data))).
Proof. exact flat_mac. Qed.
Print Assumptions C121_mac_refuted.
Lemma zeros_flat : flat_sbox (zeros 64).
Proof.
  assert (Z : forall n, nth n (zeros 64) 0 = 0) by (intros n; unfold zeros; destruct (nth_in_or_default n (repeat 0 64) 0) as [H|H]; [apply repeat_spec in H; exact H|exact H]).
  intros row v w _ _. unfold packed_sbox, sbox_entry. rewrite !Z. destruct (Nat.even (N.to_nat v)), (Nat.even (N.to_nat w)); reflexivity.
Qed.
Example C121_ex : bytesn 64 (zeros 64) /\ flat_sbox (zeros 64) /\
  snd (updates (start exmask fresh_ctx exk exiv (Some (zeros 64)) true) [[0x31;0x32];[0x33;0x34;0x35;0x36;0x37;0x38;0x39]]) =
  [50; 48; 50; 52; 50; 48; 50; 60; 11].
Proof. split; [split; [repeat constructor|reflexivity]|]. split; [exact zeros_flat|]. vm_compute. reflexivity. Qed.

(** C122 is violated: whoever owns a key with such an S-box can find, for every beginning of whole
    blocks and every end, pairs of different messages with the same digest... *)
Theorem C122_same_digest_refuted : forall s q P A lo hi Q m m', flat_sbox s -> is_byte lo -> is_byte hi -> bytes P -> length P = (q * 32)%nat -> bytesn 32 A ->
  m = P ++ A ++ xorl A (tweak lo hi) ++ Q -> m' = P ++ xorl A (tweak lo hi) ++ A ++ Q -> digest (packed_sbox s) m' = digest (packed_sbox s) m.
Proof. exact flat_hash. Qed.
Print Assumptions C122_same_digest_refuted.
Theorem C122_messages_differ : forall P A lo hi Q, bytesn 32 A -> is_byte lo -> is_byte hi -> (lo <> 0 \/ hi <> 0) ->
  P ++ A ++ xorl A (tweak lo hi) ++ Q <> P ++ xorl A (tweak lo hi) ++ A ++ Q.
Proof. exact messages_differ. Qed.
Print Assumptions C122_messages_differ.
(** ... and what is accepted as the signature of one is accepted as that of the other. *)
Theorem C122_two_messages_refuted : forall h h' c c' v v' x x' d2o t k s ds ds' q P A lo hi Q sig, bytesn 64 s -> flat_sbox s ->
  is_byte lo -> is_byte hi -> bytes P -> length P = (q * 32)%nat -> bytesn 32 A -> Forall bytes ds -> Forall bytes ds' -> hashable (length (concat ds)) ->
  concat ds = P ++ A ++ xorl A (tweak lo hi) ++ Q -> concat ds' = P ++ xorl A (tweak lo hi) ++ A ++ Q ->
  digest_verify h h' c c' d2o (PKEY t (Some (DKEY k (Some s)))) ds sig = digest_verify v v' x x' d2o (PKEY t (Some (DKEY k (Some s)))) ds' sig.
Proof. exact flat_verify. Qed.
Print Assumptions C122_two_messages_refuted.
(** The whole way: a key generated with such an S-box, stored, loaded by the signer and, as public
    key, by a verifier, who accepts the signature for both messages. *)
Theorem C122_lifetime_refuted : forall d2i d2o solve nid g t s fuel d0 q0 src k, reads_params d2i -> reads_octets d2o -> group_from_nid nid = Some g -> good_solver (c_p (g_curve g)) solve ->
  key_type t -> bytesn 64 s -> flat_sbox s -> ranged (g_order g) src -> generate_key fuel (ECKEY (Some (Binary g)) d0 q0) src = Done k ->
  (nid <> 1160 /\ nid <> 1168)%Z \/ (forall P, ek_pub k = Some P -> has_compressed_form (g_curve g) P) ->
  exists p8 pub kd kv, priv_encode (PKEY t (Some (DKEY k (Some s)))) = Ok p8 /\ pub_encode (PKEY t (Some (DKEY k (Some s)))) = Ok pub /\
    priv_decode d2i solve p8 = Some kd /\ pub_decode d2i d2o solve pub = Some kv /\
    forall h h' c c' v v' x x' fuel ds ds' siglen src len w q P A lo hi Q, is_byte lo -> is_byte hi -> bytes P -> length P = (q * 32)%nat -> bytesn 32 A ->
      Forall bytes ds -> Forall bytes ds' -> hashable (length (concat ds)) ->
      concat ds = P ++ A ++ xorl A (tweak lo hi) ++ Q -> concat ds' = P ++ xorl A (tweak lo hi) ++ A ++ Q -> ranged (g_order g) src ->
      digest_sign h h' c c' fuel kd ds siglen src = Some (Done (true, len, w)) ->
      digest_verify v v' x x' d2o kv ds w = Some true /\ digest_verify v v' x x' d2o kv ds' w = Some true.
Proof. exact flat_lifetime. Qed.
Print Assumptions C122_lifetime_refuted.
(** Two messages of 70 bytes; their digests under the S-box of zeros (equal) and under the default
    one (different), computed on the specification: prints (true, false). *)
Definition ex_A : list N := map N.of_nat (seq 65 32).
Definition ex_m (swap : bool) : list N := (if swap then xorl ex_A (tweak 32 0) ++ ex_A else ex_A ++ xorl ex_A (tweak 32 0)) ++ [1; 2; 3; 4; 5; 6].
Example C122_ex : bytesn 64 (zeros 64) /\ flat_sbox (zeros 64) /\ bytesn 32 ex_A /\ is_byte 32 /\ hashable (length (ex_m true)) /\ ex_m true <> ex_m false.
Proof.
  split; [split; [repeat constructor|reflexivity]|]. split; [exact zeros_flat|]. split; [split; [repeat constructor|reflexivity]|]. split; [reflexivity|]. split; [reflexivity|discriminate].
Qed.
Eval vm_compute in (be_val (digest (packed_sbox (zeros 64)) (ex_m true)) =? be_val (digest (packed_sbox (zeros 64)) (ex_m false)),
  be_val (digest (packed_sbox default_sbox) (ex_m true)) =? be_val (digest (packed_sbox default_sbox) (ex_m false))).

(** C123 is violated: for every key whose eight words read the same from both ends, encrypting
    a block twice gives it back, with every S-box. *)
Theorem C123_involution_refuted : forall c0 b rnd k blk, sb_wf b -> mask_wf rnd -> bytesn 32 k -> bytesn 8 blk -> rev (key_words k) = key_words k ->
  let c := gost_key rnd (gost_init c0 (Some b)) k in gostdecrypt c blk = gostcrypt c blk /\ gostcrypt c (gostcrypt c blk) = blk.
Proof. exact palindrome_key. Qed.
Print Assumptions C123_involution_refuted.
Definition ex_pal : list N := let a := map N.of_nat (seq 1 16) in a ++ concat (rev (chunks 4 a)).
Example C123_ex : bytesn 32 ex_pal /\ rev (key_words ex_pal) = key_words ex_pal.
Proof. split; [split; [repeat constructor|reflexivity]|reflexivity]. Qed.
