(** Properties C01-C09: the GOST 28147-89 library. *)
From Verif Require Import Base Model_Gost89 Spec_Gost89 Proof_Gost89 Proof_Gost89Modes.

(** Example data: a context with stale contents, a key, a mask, an S-box, a block. *)
Definition ex_c0 : gost_ctx := CTX (repeat 9 8) (repeat 7 8) (repeat 1 256) (repeat 2 256) (repeat 3 256) (repeat 4 256).
Definition ex_key : list N := map N.of_nat (seq 0 32).
Definition ex_mask : list N := [0xdeadbeef; 1; 2; 3; 0xffffffff; 5; 6; 7].
Definition ex_blk : list N := [7;6;5;4;3;2;1;0].

(** C01: for every S-box (also NULL, also with rows that are no permutations or not even
    4-bit), key bytes and mask, decryption inverts encryption and vice versa. *)
Theorem C01_block_roundtrip : forall c0 b rnd k blk, mask_wf rnd -> bytesn 8 blk ->
  let c := gost_key rnd (gost_init c0 b) k in
  gostdecrypt c (gostcrypt c blk) = blk /\ gostcrypt c (gostdecrypt c blk) = blk.
Proof. exact block_roundtrip_api. Qed.
Print Assumptions C01_block_roundtrip.
Example C01_ex : mask_wf ex_mask /\ bytesn 8 ex_blk /\
  gostcrypt (gost_key ex_mask (gost_init ex_c0 None) ex_key) ex_blk = [0; 29; 180; 203; 120; 87; 103; 158].
Proof. split; [split; [reflexivity|repeat constructor]|]. split; [split; [repeat constructor|reflexivity]|vm_compute; reflexivity]. Qed.

(** C01 for any well-typed context whatever its history. *)
Theorem C01_block_roundtrip_ctx : forall c blk, ctx_wf c -> bytesn 8 blk ->
  bytesn 8 (gostcrypt c blk) /\ bytesn 8 (gostdecrypt c blk) /\
  gostdecrypt c (gostcrypt c blk) = blk /\ gostcrypt c (gostdecrypt c blk) = blk.
Proof. exact block_roundtrip. Qed.
Print Assumptions C01_block_roundtrip_ctx.
Example C01_ctx_ex : ctx_wf (gost_key ex_mask (gost_init ex_c0 None) ex_key).
Proof. apply init_key_wf. split; [reflexivity|repeat constructor]. Qed.

(** C02: encryption and decryption are GOST 28147-89, for every value of the mask. *)
Theorem C02_block_is_gost_28147 : forall c0 b rnd k blk,
  sb_wf b -> mask_wf rnd -> bytesn 32 k -> bytesn 8 blk ->
  let c := gost_key rnd (gost_init c0 (Some b)) k in
  gostcrypt c blk = encrypt (sb_fun b) k blk /\
  gostdecrypt c blk = decrypt (sb_fun b) k blk /\
  snd (gost_enc_with_key (gost_init c0 (Some b)) k blk) = encrypt (sb_fun b) k blk.
Proof. exact block_is_gost. Qed.
Print Assumptions C02_block_is_gost_28147.
Example C02_ex : sb_wf GostR3411_94_TestParamSet /\ mask_wf ex_mask /\ bytesn 32 ex_key /\ bytesn 8 ex_blk /\
  encrypt (sb_fun GostR3411_94_TestParamSet) ex_key ex_blk = [0; 29; 180; 203; 120; 87; 103; 158].
Proof.
  split; [repeat split; repeat constructor|]. split; [split; [reflexivity|repeat constructor]|].
  split; [split; [repeat constructor|reflexivity]|]. split; [split; [repeat constructor|reflexivity]|].
  vm_compute; reflexivity.
Qed.

(** C03: the key that was set is the key that is read back; Magma order is the GOST order
    with each 4-byte group reversed. *)
Theorem C03_key_readback : forall rnd c k, mask_wf rnd -> bytesn 32 k ->
  gost_get_key (gost_key rnd c k) = k.
Proof. exact gost_get_key_spec. Qed.
Print Assumptions C03_key_readback.
Theorem C03_magma_key_readback : forall rnd c k, mask_wf rnd -> bytesn 32 k ->
  magma_get_key (magma_key rnd c k) = k.
Proof. exact magma_get_key_spec. Qed.
Print Assumptions C03_magma_key_readback.
Theorem C03_magma_is_swapped : forall rnd c k, bytesn 32 k ->
  magma_key rnd c k = gost_key rnd c (swap4 k).
Proof. exact magma_key_swap. Qed.
Print Assumptions C03_magma_is_swapped.
Example C03_ex : mask_wf ex_mask /\ bytesn 32 ex_key /\
  gost_get_key (gost_key ex_mask ex_c0 ex_key) = ex_key /\ magma_get_key (gost_key ex_mask ex_c0 ex_key) <> ex_key.
Proof.
  split; [split; [reflexivity|repeat constructor]|]. split; [split; [repeat constructor|reflexivity]|].
  split; [vm_compute; reflexivity|vm_compute; discriminate].
Qed.

(** C04: ECB over n blocks, in any buffers where the destination does not start inside the
    not yet read part of the source (in particular in place): blockwise result, nothing
    else written. *)
Theorem C04_ecb_encrypt : forall c m src dst blocks, let n := Z.to_nat blocks in
  dst <= src \/ src + 8 * N.of_nat n <= dst ->
  let m' := gost_enc c m src dst blocks in
  rd m' dst (8 * n) = concat (map (gostcrypt c) (chunks 8 (rd m src (8 * n)))) /\
  (forall x, x < dst \/ dst + 8 * N.of_nat n <= x -> m' x = m x).
Proof. exact gost_enc_ok. Qed.
Print Assumptions C04_ecb_encrypt.
Theorem C04_ecb_decrypt : forall c m src dst blocks, let n := Z.to_nat blocks in
  dst <= src \/ src + 8 * N.of_nat n <= dst ->
  let m' := gost_dec c m src dst blocks in
  rd m' dst (8 * n) = concat (map (gostdecrypt c) (chunks 8 (rd m src (8 * n)))) /\
  (forall x, x < dst \/ dst + 8 * N.of_nat n <= x -> m' x = m x).
Proof. exact gost_dec_ok. Qed.
Print Assumptions C04_ecb_decrypt.
Theorem C04_ecb_inverse : forall c l k, ctx_wf c -> length l = (8 * k)%nat -> bytes l ->
  concat (map (gostdecrypt c) (chunks 8 (concat (map (gostcrypt c) (chunks 8 l))))) = l.
Proof. exact ecb_roundtrip. Qed.
Print Assumptions C04_ecb_inverse.
Example C04_ex : let c := gost_key ex_mask (gost_init ex_c0 None) ex_key in
  let m := wr (fun _ => 0) 100 (ex_blk ++ ex_key) in
  rd (gost_dec c (gost_enc c m 100 100 5) 100 100 5) 100 40 = ex_blk ++ ex_key /\
  rd (gost_enc c m 100 100 5) 100 8 = [0; 29; 180; 203; 120; 87; 103; 158].
Proof. vm_compute. split; reflexivity. Qed.

(** C05: CFB over n blocks. *)
Theorem C05_cfb_encrypt : forall c iv m src dst blocks, let n := Z.to_nat blocks in
  dst <= src \/ src + 8 * N.of_nat n <= dst ->
  let m' := gost_enc_cfb c iv m src dst blocks in
  rd m' dst (8 * n) = concat (cfb_encrypt (gostcrypt c) iv (chunks 8 (rd m src (8 * n)))) /\
  (forall x, x < dst \/ dst + 8 * N.of_nat n <= x -> m' x = m x).
Proof. exact gost_enc_cfb_ok. Qed.
Print Assumptions C05_cfb_encrypt.
Theorem C05_cfb_decrypt : forall c iv m src dst blocks, let n := Z.to_nat blocks in
  dst <= src \/ src + 8 * N.of_nat n <= dst ->
  let m' := gost_dec_cfb c iv m src dst blocks in
  rd m' dst (8 * n) = concat (cfb_decrypt (gostcrypt c) iv (chunks 8 (rd m src (8 * n)))) /\
  (forall x, x < dst \/ dst + 8 * N.of_nat n <= x -> m' x = m x).
Proof. exact gost_dec_cfb_ok. Qed.
Print Assumptions C05_cfb_decrypt.
Theorem C05_cfb_inverse : forall E iv ps, (forall b, length (E b) = 8%nat) ->
  Forall (fun p => (length p <= 8)%nat) ps -> cfb_decrypt E iv (cfb_encrypt E iv ps) = ps.
Proof. exact cfb_dec_enc. Qed.
Print Assumptions C05_cfb_inverse.
Example C05_ex : let c := gost_key ex_mask (gost_init ex_c0 None) ex_key in
  let m := wr (fun _ => 0) 100 (ex_blk ++ ex_key) in
  rd (gost_dec_cfb c ex_blk (gost_enc_cfb c ex_blk m 100 100 5) 100 100 5) 100 40 = ex_blk ++ ex_key /\
  rd (gost_enc_cfb c ex_blk m 100 100 5) 100 8 = xorl ex_blk [0; 29; 180; 203; 120; 87; 103; 158].
Proof. vm_compute. split; reflexivity. Qed.

(** C06: MACs of whole bytes. *)
Theorem C06_mac : forall c0 b rnd k fuel nb data, sb_wf b -> mask_wf rnd -> bytesn 32 k -> bytes data ->
  N.of_nat (length data) < 2 ^ 32 - 8 -> (length data / 8 < fuel)%nat -> (nb <= 8)%nat ->
  gost_mac fuel (gost_key rnd (gost_init c0 (Some b)) k) (8 * Z.of_nat nb) data =
  MacOk (firstn nb (mac_full (sb_fun b) k (zeros 8) data)).
Proof. exact api_mac. Qed.
Print Assumptions C06_mac.
Theorem C06_mac_iv : forall c0 b rnd k fuel nb iv data,
  sb_wf b -> mask_wf rnd -> bytesn 32 k -> bytesn 8 iv -> bytes data ->
  N.of_nat (length data) < 2 ^ 32 - 8 -> (length data / 8 < fuel)%nat -> (nb <= 8)%nat ->
  gost_mac_iv fuel (gost_key rnd (gost_init c0 (Some b)) k) (8 * Z.of_nat nb) iv data =
  MacOk (firstn nb (mac_full (sb_fun b) k iv data)).
Proof. exact api_mac_iv. Qed.
Print Assumptions C06_mac_iv.
Example C06_ex : let c := gost_key ex_mask (gost_init ex_c0 None) ex_key in
  gost_mac 10 c 32 [1;2;3] = MacOk (firstn 4 (mac_full (sb_fun GostR3411_94_TestParamSet) ex_key (zeros 8) [1;2;3])) /\
  gost_mac 10 c 32 [1;2;3] <> gost_mac 10 c 32 [1;2;4].
Proof. vm_compute. split; [reflexivity|discriminate]. Qed.

(** C07: false of the code - lengths that are not whole bytes. *)
Theorem C07_mac_bits_refuted : exists buffer nbits, bytesn 8 buffer /\ (nbits <= 64)%nat /\
  get_mac buffer (Z.of_nat nbits) <> Some (mac_prefix_bits buffer nbits).
Proof. exact get_mac_bits_refuted. Qed.
Print Assumptions C07_mac_bits_refuted.
(** ... and what the code computes instead, for every length. *)
Theorem C07_mac_bits_actual : forall buffer nbits, bytesn 8 buffer -> (nbits <= 64)%nat ->
  get_mac buffer (Z.of_nat nbits) = Some (get_mac_actual buffer nbits).
Proof. exact get_mac_actual_ok. Qed.
Print Assumptions C07_mac_bits_actual.
Example C07_ex : get_mac [1;2;3;4;0xff;6;7;8] 34 = Some [1;2;3;4;0] /\ get_mac [1;2;3;4;0xff;6;7;8] 33 = Some [1;2;3;4;0xff].
Proof. split; reflexivity. Qed.

(** C08: false of the code - for data of 2^32-8 or more bytes the call reads past the data
    (and would not stop by itself). *)
Theorem C08_mac_length_refuted : exists data : list N, bytes data /\ N.of_nat (length data) < 2 ^ 32 /\
  forall c mac_len, (forall fuel m, gost_mac fuel c mac_len data <> MacOk m) /\
                    (exists fuel, gost_mac fuel c mac_len data = MacOOB).
Proof. exact mac_length_refuted. Qed.
Print Assumptions C08_mac_length_refuted.
(** Every length from 2^32-8 on is affected; every smaller length is fine (C06). *)
Theorem C08_mac_length_boundary : forall c data buf0 mac_len,
  2 ^ 32 - 8 <= N.of_nat (length data) < 2 ^ 32 ->
  (forall fuel m, gost_mac_iv fuel c mac_len buf0 data <> MacOk m) /\
  (forall fuel, 2 ^ 29 <= N.of_nat fuel -> gost_mac_iv fuel c mac_len buf0 data = MacOOB).
Proof. exact mac_from_wrap. Qed.
Print Assumptions C08_mac_length_boundary.

(** C09: key meshing. *)
Theorem C09_cryptopro_meshing : forall c0 b rnd k rnds iv,
  sb_wf b -> mask_wf rnd -> bytesn 32 k -> Forall mask_wf rnds -> bytesn 8 iv ->
  let S := sb_fun b in
  let r := mesh_many rnds (gost_key rnd (gost_init c0 (Some b)) k) iv in
  let s := mesh_key_iv S (length rnds) k iv in
  snd r = snd s /\
  forall blk, bytesn 8 blk -> gostcrypt (fst r) blk = encrypt S (fst s) blk /\
                              gostdecrypt (fst r) blk = decrypt S (fst s) blk.
Proof. exact api_mesh. Qed.
Print Assumptions C09_cryptopro_meshing.
Theorem C09_cryptopro_meshing_no_iv : forall c0 b rnd k rnd', sb_wf b -> mask_wf rnd -> bytesn 32 k -> mask_wf rnd' ->
  let S := sb_fun b in
  let r := cryptopro_key_meshing rnd' (gost_key rnd (gost_init c0 (Some b)) k) None in
  let k' := concat (map (decrypt S k) (chunks 8 mesh_C)) in
  snd r = None /\ forall blk, bytesn 8 blk -> gostcrypt (fst r) blk = encrypt S k' blk.
Proof. exact api_mesh_null. Qed.
Print Assumptions C09_cryptopro_meshing_no_iv.
Theorem C09_acpkm_meshing : forall c0 b rnd k rnds blk,
  sb_wf b -> mask_wf rnd -> bytesn 32 k -> Forall mask_wf rnds -> bytesn 8 blk ->
  let S := sb_fun b in
  gostcrypt (acpkm_many rnds (gost_key rnd (gost_init c0 (Some b)) k)) blk =
  encrypt S (acpkm_key S (length rnds) k) blk.
Proof. exact api_acpkm. Qed.
Print Assumptions C09_acpkm_meshing.
Example C09_ex : let c := gost_key ex_mask (gost_init ex_c0 None) ex_key in
  gost_get_key (fst (cryptopro_key_meshing (zeros 8) c (Some ex_blk))) =
  concat (map (decrypt (sb_fun GostR3411_94_TestParamSet) ex_key) (chunks 8 mesh_C)).
Proof. vm_compute. reflexivity. Qed.
