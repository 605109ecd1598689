(** Properties C64-C65: Key-6 containers. *)
From Coq Require Import Lia ZArith.
From Verif Require Import Base Lib Spec_Gost89 Spec_Hash Spec_Params Spec_Md Model_Gost89 Model_Params Model_KeyStore Model_Utils Model_Key6 Spec_Key6 Proof_Key6.
From Verif Require Prop_Keylib.

(** C64: for every password and plaintext of whole blocks, every split of its encryption into
    data and pad, every mac, mask and memory contents, the decoder receives the plaintext and
    8 bytes of whatever the memory after it held. *)
Theorem C64_plaintext : forall spec grp (e : attr_env spec grp) p8 malloc r mac data pad password plain k h ks,
  bytes password -> hashable (length password) -> mask_wf (k6_mask r) -> bytes plain -> length plain = (8 * k)%nat ->
  data ++ match pad with None => [] | Some p => p end = key6_encrypt (key6_key password) plain -> apart r (length plain) ->
  exists slack, length slack = 8%nat /\ slack = rd (k6_mem r) (k6_res r + N.of_nat (length plain)) 8 /\
    parseKey6 e p8 malloc r (Some (key6_store mac data pad)) password h ks = keysFromPKCS8 e malloc h (p8 (plain ++ slack)) ks.
Proof. exact (fun spec grp => @parse_plain spec grp). Qed.
Print Assumptions C64_plaintext.
(** The same for a ciphertext of any size: the whole blocks are decrypted, the rest of what
    the decoder sees is unwritten memory. *)
Theorem C64_any_size : forall spec grp (e : attr_env spec grp) p8 malloc r mac data pad password h ks, let c := key6_cipher data pad in
  bytes password -> hashable (length password) -> mask_wf (k6_mask r) -> bytes c -> apart r (length c) ->
  let whole := (8 * (length c / 8))%nat in
  parseKey6 e p8 malloc r (Some (key6_store mac data pad)) password h ks =
    keysFromPKCS8 e malloc h (p8 (key6_decrypt (key6_key password) (firstn whole c) ++ rd (k6_mem r) (k6_res r + N.of_nat whole) (length c + 8 - whole))) ks.
Proof. exact (fun spec grp => @parse_bytes spec grp). Qed.
Print Assumptions C64_any_size.
(** Anything that is not such a container is refused and nothing changes. *)
Theorem C64_refused : forall spec grp (e : attr_env spec grp) p8 malloc r s password h ks,
  (forall st, s = Some st -> forall hd, is_header st = Some hd -> ih_type hd <> Some [1;3;6;1;4;1;19398;1;1;1;2] \/ is_data st = None \/ ih_params hd = None) ->
  parseKey6 e p8 malloc r s password h ks = Some (h, false, ks).
Proof. exact (fun spec grp => @parse_refused spec grp). Qed.
Print Assumptions C64_refused.

Definition ex_ctx : gost_ctx := CTX (repeat 0 8) (repeat 0 8) (repeat 0 256) (repeat 0 256) (repeat 0 256) (repeat 0 256).
Definition ex_run : k6_run := K6RUN 1000 2000 (fun a => a mod 256) (fun _ => ex_ctx) ex_ctx [1; 2; 3; 4; 5; 6; 7; 0xFFFFFFFF].
Definition ex_plain : list N := [0x30; 14; 2; 1; 0; 4; 9; 1; 2; 3; 4; 5; 6; 7; 8; 9].
Definition ex_p8 (l : list N) : option p8info := match l with 0x30 :: _ => Some (P8 (Some 7%nat) []) | _ => None end.
(** A 16 byte plaintext split after 5 bytes: one key comes out. *)
Example C64_ex : let c := key6_encrypt (key6_key [0x31; 0x32]) ex_plain in
  exists h' a, parseKey6 Prop_Keylib.ex_env ex_p8 (fun _ => 3%nat) ex_run (Some (key6_store [] (firstn 5 c) (Some (skipn 5 c)))) [0x31; 0x32] heap0 None = Some (h', true, Some a) /\
    ks_get h' Keys a 0 = Some (Ptr 7).
Proof.
  intros c.
  destruct (C64_plaintext N N Prop_Keylib.ex_env ex_p8 (fun _ => 3%nat) ex_run [] (firstn 5 c) (Some (skipn 5 c)) [0x31; 0x32] ex_plain 2 heap0 None)
    as (slack & Hl & _ & ->).
  - apply bytesb_ok. reflexivity.
  - reflexivity.
  - split; [reflexivity|]. apply Forall_forall. intros x H. apply N.ltb_lt. revert x H. apply forallb_forall. reflexivity.
  - apply bytesb_ok. reflexivity.
  - reflexivity.
  - apply firstn_skipn.
  - right. vm_compute. discriminate.
  - clear Hl. eexists. eexists. split; [reflexivity|]. reflexivity.
Qed.

(** C65 (refuted): the answer does not depend on the mac, so no change of it is detected. *)
Theorem C65_mac_ignored_refuted : forall spec grp (e : attr_env spec grp) p8 malloc r mac mac' data pad password h ks,
  parseKey6 e p8 malloc r (Some (key6_store mac data pad)) password h ks = parseKey6 e p8 malloc r (Some (key6_store mac' data pad)) password h ks.
Proof. exact (fun spec grp => @parse_mac spec grp). Qed.
Print Assumptions C65_mac_ignored_refuted.
(** ... and there are accepted containers. *)
Example C65_ex : let c := key6_encrypt (key6_key [0x31; 0x32]) ex_plain in
  exists h' a, parseKey6 Prop_Keylib.ex_env ex_p8 (fun _ => 3%nat) ex_run (Some (key6_store [1; 2; 3; 4] (firstn 5 c) (Some (skipn 5 c)))) [0x31; 0x32] heap0 None = Some (h', true, Some a).
Proof.
  intros c. destruct C64_ex as (h' & a & H & _). exists h', a. rewrite <- H. apply C65_mac_ignored_refuted.
Qed.
