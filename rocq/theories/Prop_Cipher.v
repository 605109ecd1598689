(** Properties C10-C17: the EVP cipher. *)
From Verif Require Import Base Model_Gost89 Spec_Gost89 Model_Params Spec_Params Model_Cipher Spec_Cipher Proof_CipherApi.

Definition exk : list N := map N.of_nat (seq 0 32).
Definition exiv : list N := [7;6;5;4;3;2;1;0].
Definition exmask : list N := [0xdeadbeef; 1; 2; 3; 0xffffffff; 5; 6; 7].
(** A custom S-box: the default one with its bytes in reverse order. *)
Definition exsb : list N := rev default_sbox.
Definition exm : list N := map N.of_nat (seq 100 29).

(** C10: output of any sequence of update calls is CFB of the concatenated input; the
    context before the initialisation ([c0]) is arbitrary. *)
Theorem C10_split_independent : forall rnd c0 k iv sb enc ds,
  mask_wf rnd -> bytesn 32 k -> bytesn 8 iv -> bytesn 64 (the_sbox sb) -> pieces ds ->
  let r := updates (start rnd c0 k iv sb enc) ds in
  snd r = cfb_stream enc (encrypt (packed_sbox (the_sbox sb)) k) iv (concat ds) /\
  snd (fst r) = map (fun d => Z.of_nat (length d)) ds.
Proof. exact cipher_stream. Qed.
Print Assumptions C10_split_independent.
Example C10_ex : mask_wf exmask /\ bytesn 32 exk /\ bytesn 8 exiv /\ bytesn 64 (the_sbox (Some exsb)) /\
  pieces [[1;2;3];[4;5;6;7;8;9;10;11;12;13;14;15;16;17;18;19;20];[21;22]] /\
  snd (updates (start exmask fresh_ctx exk exiv None true) [[0x31;0x32];[0x33;0x34;0x35;0x36]]) = [0x23;0xa8;0x38;0x29;0x32;0xae].
Proof.
  split; [split; [reflexivity|repeat constructor]|]. split; [split; [repeat constructor|reflexivity]|].
  split; [split; [repeat constructor|reflexivity]|]. split; [split; [repeat constructor|reflexivity]|].
  split; [repeat (constructor; [split; [repeat constructor|split; [discriminate|reflexivity]]|]); constructor|].
  vm_compute. reflexivity.
Qed.

(** C11: decryption with any splitting of the ciphertext recovers the message. *)
Theorem C11_roundtrip : forall rnd1 rnd2 c1 c2 k iv sb ds ds',
  mask_wf rnd1 -> mask_wf rnd2 -> bytesn 32 k -> bytesn 8 iv -> bytesn 64 (the_sbox sb) ->
  pieces ds -> pieces ds' ->
  concat ds' = snd (updates (start rnd1 c1 k iv sb true) ds) ->
  snd (updates (start rnd2 c2 k iv sb false) ds') = concat ds.
Proof. exact cipher_roundtrip. Qed.
Print Assumptions C11_roundtrip.
Example C11_ex :
  let ct := snd (updates (start exmask fresh_ctx exk exiv (Some exsb) true) [firstn 5 exm; skipn 5 exm]) in
  ct <> exm /\ snd (updates (start (zeros 8) fresh_ctx exk exiv (Some exsb) false) [firstn 20 ct; skipn 20 ct]) = exm.
Proof. vm_compute. split; [discriminate|reflexivity]. Qed.

(** C12: return values and extent of the writes. *)
Theorem C12_return_codes : forall c m dst src inl,
  (src = None -> inl = 0 -> do_cipher c m dst src inl = (c, m, 0%Z)) /\
  (src = None -> inl <> 0 -> do_cipher c m dst src inl = (c, m, (-1)%Z)) /\
  (src <> None -> inl = 0 -> do_cipher c m dst src inl = (c, m, (-1)%Z)).
Proof. exact do_cipher_codes. Qed.
Print Assumptions C12_return_codes.
Theorem C12_return_length : forall c m dst src inl, reachable c -> 0 < inl < 2 ^ 31 ->
  dst = src \/ dst + inl <= src \/ src + inl <= dst ->
  let r := do_cipher c m dst (Some src) inl in
  snd r = Z.of_N inl /\ (forall x, x < dst \/ dst + inl <= x -> snd (fst r) x = m x).
Proof. exact do_cipher_writes. Qed.
Print Assumptions C12_return_length.
Example C12_ex : reachable (start exmask fresh_ctx exk exiv (Some exsb) true).
Proof.
  exists [OpInit exmask (Some exk) (Some exiv) true; OpCtrl 4097%Z 64 (Some exsb)]. split; [|reflexivity].
  constructor; [split; [split; [reflexivity|repeat constructor]|split; intros ? [= <-]; split; [repeat constructor|reflexivity|repeat constructor|reflexivity]]|].
  constructor; [intros ? [= <-]; repeat constructor|constructor].
Qed.

(** C13: in place = separate buffers, for every context any history of calls can produce. *)
Theorem C13_in_place : forall c m dst src inl, reachable c -> 0 < inl < 2 ^ 31 ->
  dst = src \/ dst + inl <= src \/ src + inl <= dst ->
  let n := N.to_nat inl in
  let r := do_cipher c m dst (Some src) inl in
  let u := update c (rd m src n) in
  fst (fst r) = fst (fst u) /\ snd r = snd (fst u) /\ rd (snd (fst r)) dst n = snd u /\
  (forall x, x < dst \/ dst + inl <= x -> snd (fst r) x = m x).
Proof. exact do_cipher_layout. Qed.
Print Assumptions C13_in_place.
Example C13_ex : let c := start exmask fresh_ctx exk exiv None false in
  let m := wr (fun _ => 9) 50 exm in
  rd (snd (fst (do_cipher c m 50 (Some 50) 29))) 49 31 = [9] ++ snd (update c exm) ++ [9] /\ snd (update c exm) <> exm.
Proof. vm_compute. split; [reflexivity|discriminate]. Qed.

(** C14: exported parameters (after any processing) are the DER encoding, and importing
    them gives the stream of IV, S-box and key. *)
Theorem C14_export : forall rnd c0 k iv sb enc ds stale, mask_wf rnd -> bytesn 8 iv -> bytesn 64 (the_sbox sb) ->
  pieces ds -> rows16 stale ->
  set_asn1 (fst (fst (updates (start rnd c0 k iv sb enc) ds))) stale = ASN1 16%Z (der_params iv (the_sbox sb)).
Proof. exact export_ok. Qed.
Print Assumptions C14_export.
Theorem C14_import : forall rnd c0 k iv0 enc iv p ds, mask_wf rnd -> bytesn 32 k -> bytesn 8 iv -> bytesn 64 p ->
  (iv0 = None -> c_num c0 = 0 /\ length (c_iv c0) = 8%nat /\ length (c_buf c0) = 8%nat) ->
  (forall v, iv0 = Some v -> bytesn 8 v) -> pieces ds ->
  let r := get_asn1 (evp_init rnd c0 (Some k) iv0 enc) (ASN1 16%Z (der_params iv p)) in
  snd r = 1%Z /\ snd (updates (fst r) ds) = cfb_stream enc (encrypt (packed_sbox p) k) iv (concat ds).
Proof. exact import_stream. Qed.
Print Assumptions C14_import.
Example C14_ex : let c := fst (fst (updates (start exmask fresh_ctx exk exiv (Some exsb) true) [[1;2;3]])) in
  rows16 GostR3411_94_TestParamSet /\
  snd (updates (fst (get_asn1 (evp_init exmask fresh_ctx (Some exk) None true) (set_asn1 c GostR3411_94_TestParamSet))) [exm]) =
  snd (updates (start exmask fresh_ctx exk exiv (Some exsb) true) [exm]).
Proof. split; [repeat split|vm_compute; reflexivity]. Qed.

(** C15, the order that works: key first, IV afterwards (and parameters afterwards: C14). *)
Theorem C15_key_then_iv : forall rnd r2 c0 k iv0 enc0 iv enc ds, mask_wf rnd -> bytesn 32 k -> bytesn 8 iv -> pieces ds ->
  snd (updates (evp_init r2 (evp_init rnd c0 (Some k) iv0 enc0) None (Some iv) enc) ds) =
  cfb_stream enc (encrypt (packed_sbox default_sbox) k) iv (concat ds).
Proof. exact key_then_iv. Qed.
Print Assumptions C15_key_then_iv.
(** IV first and key afterwards works if the first piece has at least 8 bytes ... *)
Theorem C15_iv_then_key_long : forall rnd r1 c0 k iv enc0 enc d ds, mask_wf rnd -> bytesn 32 k -> bytesn 8 iv ->
  pieces (d :: ds) -> (8 <= length d)%nat ->
  snd (updates (evp_init rnd (evp_init r1 c0 None (Some iv) enc0) (Some k) None enc) (d :: ds)) =
  cfb_stream enc (encrypt (packed_sbox default_sbox) k) iv (concat (d :: ds)).
Proof. exact iv_then_key. Qed.
Print Assumptions C15_iv_then_key_long.
(** ... but not in general: with a short first piece the stale gamma is used. *)
Theorem C15_iv_then_key_refuted : ~ (forall rnd r1 k iv enc ds, mask_wf rnd -> bytesn 32 k -> bytesn 8 iv -> pieces ds ->
  snd (updates (evp_init rnd (evp_init r1 fresh_ctx None (Some iv) enc) (Some k) None enc) ds) =
  cfb_stream enc (encrypt (packed_sbox default_sbox) k) iv (concat ds)).
Proof. exact iv_then_key_bad. Qed.
Print Assumptions C15_iv_then_key_refuted.
(** Parameters first and key afterwards (the order used for enveloped data) loses the
    custom S-box, also for long pieces. *)
Theorem C15_params_then_key_refuted : ~ (forall rnd r1 k iv p enc d, mask_wf rnd -> bytesn 32 k -> bytesn 8 iv -> bytesn 64 p ->
  pieces [d] -> (8 <= length d)%nat ->
  let c1 := fst (get_asn1 (evp_init r1 fresh_ctx None None enc) (ASN1 16%Z (der_params iv p))) in
  snd (updates (evp_init rnd c1 (Some k) None enc) [d]) =
  cfb_stream enc (encrypt (packed_sbox p) k) iv d).
Proof. exact params_then_key_bad. Qed.
Print Assumptions C15_params_then_key_refuted.

(** C16 holds at block boundaries ... *)
Theorem C16_custom_sbox_restart_aligned : forall rnd c0 k iv sb enc ds p ds',
  mask_wf rnd -> bytesn 32 k -> bytesn 8 iv -> bytesn 64 p -> pieces ds -> pieces ds' ->
  (length (concat ds) mod 8 = 0)%nat ->
  let c := fst (fst (updates (start rnd c0 k iv sb enc) ds)) in
  let r := cipher_ctrl c 4097%Z 64 (Some p) in
  snd (fst r) = 1%Z /\ snd (updates (fst (fst r)) ds') = cfb_stream enc (encrypt (packed_sbox p) k) iv (concat ds').
Proof. exact ctrl_restart. Qed.
Print Assumptions C16_custom_sbox_restart_aligned.
Example C16_ex : (length (concat [[1;2;3];[4;5;6;7;8]]) mod 8 = 0)%nat /\ pieces [[1;2;3];[4;5;6;7;8]].
Proof. split; [reflexivity|]. repeat (constructor; [split; [repeat constructor|split; [discriminate|reflexivity]]|]). constructor. Qed.
(** ... and not elsewhere: the position in the block is not reset. *)
Theorem C16_custom_sbox_restart_refuted : ~ (forall rnd k iv enc ds p ds',
  mask_wf rnd -> bytesn 32 k -> bytesn 8 iv -> bytesn 64 p -> pieces ds -> pieces ds' ->
  let c := fst (fst (updates (start rnd fresh_ctx k iv None enc) ds)) in
  snd (updates (fst (fst (cipher_ctrl c 4097%Z 64 (Some p)))) ds') =
  cfb_stream enc (encrypt (packed_sbox p) k) iv (concat ds')).
Proof. exact ctrl_restart_bad. Qed.
Print Assumptions C16_custom_sbox_restart_refuted.

(** C17: exactly the well-formed values are accepted; on failure nothing changes; on
    success only the original IV is set from the value and the S-box selected. *)
Theorem C17_import_checks : forall c v,
  (a_type v = 16%Z /\ length (a_data v) = 78%nat /\
   nth 2 (a_data v) 0 = 4 /\ nth 3 (a_data v) 0 = 8 /\ nth 12 (a_data v) 0 = 4 /\ nth 13 (a_data v) 0 = 64 /\
   get_asn1 c v = (fst (fst (cipher_ctrl (set_oiv c (firstn 8 (skipn 4 (a_data v)))) 4097%Z 64 (Some (skipn 14 (a_data v))))), 1%Z))
  \/
  (~ (a_type v = 16%Z /\ length (a_data v) = 78%nat /\
      nth 2 (a_data v) 0 = 4 /\ nth 3 (a_data v) 0 = 8 /\ nth 12 (a_data v) 0 = 4 /\ nth 13 (a_data v) 0 = 64) /\
   get_asn1 c v = (c, (-1)%Z)).
Proof. exact get_asn1_cases. Qed.
Print Assumptions C17_import_checks.
Example C17_ex : snd (get_asn1 fresh_ctx (ASN1 16%Z (der_params exiv exsb))) = 1%Z /\
  snd (get_asn1 fresh_ctx (ASN1 16%Z (der_params exsb exiv))) = (-1)%Z.
Proof. vm_compute. split; reflexivity. Qed.
