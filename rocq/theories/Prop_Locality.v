(** Property C113: what a damaged or repeated piece of a CFB stream does to the rest. *)
From Verif Require Import Base Model_Gost89 Spec_Gost89 Model_Params Spec_Params Model_Cipher Spec_Cipher Spec_Locality Proof_Locality Prop_Cipher.

(** C113: the first n output bytes depend on the first n input bytes only (either
    direction, any splittings, any masks), and there are as many output as input bytes:
    a stream can be produced and consumed while it grows, and a truncated ciphertext
    decrypts to the truncated message. *)
Theorem C113_prefix : forall rnd rnd' c0 c0' k iv sb enc ds ds' n,
  mask_wf rnd -> mask_wf rnd' -> bytesn 32 k -> bytesn 8 iv -> bytesn 64 (the_sbox sb) -> pieces ds -> pieces ds' ->
  firstn n (concat ds) = firstn n (concat ds') ->
  firstn n (snd (updates (start rnd c0 k iv sb enc) ds)) = firstn n (snd (updates (start rnd' c0' k iv sb enc) ds')) /\
  length (snd (updates (start rnd c0 k iv sb enc) ds)) = length (concat ds).
Proof. exact api_prefix. Qed.
Print Assumptions C113_prefix.

(** Every byte is the input byte xored with a byte of the encryption of the eight
    ciphertext bytes (or IV) before its block. *)
Theorem C113_byte : forall rnd c0 k iv sb enc ds j,
  mask_wf rnd -> bytesn 32 k -> bytesn 8 iv -> bytesn 64 (the_sbox sb) -> pieces ds -> (j < length (concat ds))%nat ->
  let out := snd (updates (start rnd c0 k iv sb enc) ds) in
  nth j out 0 = N.lxor (nth j (concat ds) 0)
    (nth (j mod 8) (encrypt (packed_sbox (the_sbox sb)) k (block_before iv (if enc then out else concat ds) (j / 8))) 0).
Proof. exact api_byte. Qed.
Print Assumptions C113_byte.

(** A ciphertext changed inside one block: in that block the same bits of the message
    change, the next block may change, nothing else does. *)
Theorem C113_error : forall rnd rnd' c0 c0' k iv sb ds ds' i j,
  mask_wf rnd -> mask_wf rnd' -> bytesn 32 k -> bytesn 8 iv -> bytesn 64 (the_sbox sb) -> pieces ds -> pieces ds' ->
  differ_in_block i (concat ds) (concat ds') ->
  let p := snd (updates (start rnd c0 k iv sb false) ds) in
  let p' := snd (updates (start rnd' c0' k iv sb false) ds') in
  ((j / 8 <> i)%nat -> (j / 8 <> S i)%nat -> nth j p 0 = nth j p' 0) /\
  ((j / 8 = i)%nat -> N.lxor (nth j p 0) (nth j p' 0) = N.lxor (nth j (concat ds) 0) (nth j (concat ds') 0)).
Proof. exact api_error. Qed.
Print Assumptions C113_error.
(** ... and the next block, if it is whole, does change. *)
Theorem C113_error_shows : forall rnd rnd' c0 c0' k iv sb ds ds' i,
  mask_wf rnd -> mask_wf rnd' -> bytesn 32 k -> bytesn 8 iv -> bytesn 64 (the_sbox sb) -> pieces ds -> pieces ds' ->
  differ_in_block i (concat ds) (concat ds') -> concat ds <> concat ds' -> (8 * (i + 2) <= length (concat ds))%nat ->
  let p := snd (updates (start rnd c0 k iv sb false) ds) in
  let p' := snd (updates (start rnd' c0' k iv sb false) ds') in
  exists j, (j / 8 = S i)%nat /\ nth j p 0 <> nth j p' 0.
Proof. exact api_error_shows. Qed.
Print Assumptions C113_error_shows.

(** From the second block on, decryption needs neither the IV nor what came before: the
    rest [t] of a ciphertext decrypts under the block [b] before it as IV. *)
Theorem C113_resynchronises : forall rnd rnd' c0 c0' k iv sb i a b t ds ds',
  mask_wf rnd -> mask_wf rnd' -> bytesn 32 k -> bytesn 8 iv -> bytesn 64 (the_sbox sb) -> pieces ds -> pieces ds' ->
  length a = (8 * i)%nat -> bytesn 8 b -> concat ds = a ++ b ++ t -> concat ds' = t ->
  skipn (8 * S i) (snd (updates (start rnd c0 k iv sb false) ds)) = snd (updates (start rnd' c0' k b sb false) ds').
Proof. exact api_resync. Qed.
Print Assumptions C113_resynchronises.

(** Two messages encrypted under the same key and IV: the ciphertexts give away the xor of
    the first blocks in which the messages differ. *)
Theorem C113_same_iv_leaks : forall rnd rnd' c0 c0' k iv sb ds ds' i j,
  mask_wf rnd -> mask_wf rnd' -> bytesn 32 k -> bytesn 8 iv -> bytesn 64 (the_sbox sb) -> pieces ds -> pieces ds' ->
  firstn (8 * i) (concat ds) = firstn (8 * i) (concat ds') -> (8 * i <= j < 8 * (i + 1))%nat ->
  (j < length (concat ds))%nat -> (j < length (concat ds'))%nat ->
  N.lxor (nth j (snd (updates (start rnd c0 k iv sb true) ds)) 0) (nth j (snd (updates (start rnd' c0' k iv sb true) ds')) 0) =
  N.lxor (nth j (concat ds) 0) (nth j (concat ds') 0).
Proof. exact api_reuse. Qed.
Print Assumptions C113_same_iv_leaks.

(** 29 bytes, byte 9 changed: byte 9 changes in the same bits, bytes 16 to 23 change. *)
Definition loc_a : list (list N) := [firstn 5 exm; skipn 5 exm].
Definition loc_b : list (list N) := [firstn 9 exm; [255] ++ skipn 10 exm].
Example C113_ex : pieces loc_a /\ pieces loc_b /\ differ_in_block 1 (concat loc_a) (concat loc_b) /\ concat loc_a <> concat loc_b /\
  let p := snd (updates (start exmask fresh_ctx exk exiv (Some exsb) false) loc_a) in
  let p' := snd (updates (start exmask fresh_ctx exk exiv (Some exsb) false) loc_b) in
  firstn 9 p = firstn 9 p' /\ N.lxor (nth 9 p 0) (nth 9 p' 0) = N.lxor 109 255 /\
  firstn 6 (skipn 10 p) = firstn 6 (skipn 10 p') /\ nth 16 p 0 <> nth 16 p' 0 /\ skipn 24 p = skipn 24 p'.
Proof.
  split; [repeat (constructor; [split; [repeat constructor|split; [discriminate|reflexivity]]|]); constructor|].
  split; [repeat (constructor; [split; [repeat constructor|split; [discriminate|reflexivity]]|]); constructor|].
  split; [split; [reflexivity|]|split; [discriminate|]].
  - intros j Hj. do 30 (destruct j as [|j]; [first [reflexivity|exfalso; apply Hj; reflexivity]|]). destruct j; reflexivity.
  - vm_compute. repeat split; discriminate.
Qed.
