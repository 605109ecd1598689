(** Property theorems C139 (authentication and key derivation with a password) and C140
    (password-based encryption) with the algorithms the engine registers. *)
From Coq Require Import ZArith.
From Verif Require Import Base Spec_Gost89 Model_Gost89 Model_Params Spec_Params Model_Cipher Spec_Cipher Model_Hash Spec_Hash Spec_Md Model_Pbe Spec_Pbe Lib Proof_Pbe Proof_Pbe2.
From Verif Require Prop_Cipher.
Import Prop_Cipher.

(** C139: whatever digest contexts exist and whatever was done with them before: an HMAC context
    keyed once gives, for every message of a series and however each message is cut in pieces, the
    HMAC of RFC 2104 over the GOST 34.311 digest; other digest contexts go on undisturbed. *)
Theorem C139_hmac : forall os st outs x K ms, legal no_slots os -> md_run md_empty os = Some (st, outs) ->
  NoDup [hm_md x; hm_i x; hm_o x] -> bytes K -> hashable (length K) -> Forall (Forall bytes) ms -> Forall (fun m => hashable (32 + length (concat m))) ms ->
  exists st', hmac_session st x K ms = Some (st', map (fun m => hmac_dstu K (concat m)) ms) /\ others_intact [hm_md x; hm_i x; hm_o x] os st'.
Proof. exact session_ok. Qed.
Print Assumptions C139_hmac.
(** C139: the key derived from a password is that of PBKDF2 (RFC 8018) over this HMAC, for every
    password, salt, iteration count and key length. *)
Theorem C139_pbkdf2 : forall os st outs x tpl pass salt iter keylen, legal no_slots os -> md_run md_empty os = Some (st, outs) ->
  NoDup [hm_md x; hm_i x; hm_o x; hm_md tpl; hm_i tpl; hm_o tpl] -> bytes pass -> hashable (length pass) -> bytes salt -> hashable (36 + length salt) -> N.of_nat keylen < 2 ^ 31 ->
  exists st', pbkdf2_hmac st x tpl pass salt iter keylen = Some (st', pbkdf2_dstu pass salt iter keylen) /\
    others_intact [hm_md x; hm_i x; hm_o x; hm_md tpl; hm_i tpl; hm_o tpl] os st'.
Proof. exact pbkdf2_run. Qed.
Print Assumptions C139_pbkdf2.

(** A context in the middle of a message of its own. *)
Definition exos : list md_op := [MAlloc 9 zero_dctx zero_ctx; MInit 9 None; MUpdate 9 [1;2;3]].
Definition exx : hmac_ctx := HMAC 0 1 2.
Definition ext : hmac_ctx := HMAC 3 4 5.
Definition expass : list N := [0x70;0x61;0x73;0x73;0x77;0x6f;0x72;0x64].
Lemma exos_legal : legal no_slots exos.
Proof. cbn [legal exos fst spec_op]. split; [exact I|]. split; [split; [discriminate|split; [repeat constructor|reflexivity]]|]. split; [split; [repeat constructor|reflexivity]|exact I]. Qed.
Example C139_ex : legal no_slots exos /\ after exos 9%nat = Active default_sbox [1;2;3] /\ NoDup [hm_md exx; hm_i exx; hm_o exx; hm_md ext; hm_i ext; hm_o ext] /\
  bytes expass /\ hashable (length expass) /\ hashable (36 + length exiv) /\ bytes exiv.
Proof.
  split; [exact exos_legal|]. split; [reflexivity|]. split; [repeat constructor; cbn; intuition discriminate|].
  split; [repeat constructor|]. split; [reflexivity|]. split; [reflexivity|repeat constructor].
Qed.
Definition leq (a b : list N) : bool := if list_eq_dec N.eq_dec a b then true else false.
(** A message in two pieces; a derived key. *)
Eval vm_compute in (match hmac_session md_empty exx expass [[[1;2];[3]]] with Some (_, [a]) => leq a (hmac_dstu expass [1;2;3]) | _ => false end).
Eval vm_compute in (match pbkdf2_hmac md_empty exx ext expass exiv 2 8 with Some (_, k) => leq k (pbkdf2_dstu expass exiv 2 8) | None => false end).

(** C140: what is written for an IV: the parameters name the IV, the default S-box, the salt, the
    count and the function of the engine. *)
Theorem C140_params : forall rnd stale iv salt iter, bytesn 8 iv -> rows16 stale ->
  pbe2_set rnd stale iv salt iter = PBE2 (ASN1 16%Z (der_params iv default_sbox)) salt iter PrfDstu34311.
Proof. exact set_ok. Qed.
Print Assumptions C140_params.
(** C140: data of a block or more is encrypted, and decrypted, with the key derived from the password. *)
Theorem C140_crypt : forall os st outs x tpl pass salt iter iv rnd0 stale r1 rnd enc data, legal no_slots os -> md_run md_empty os = Some (st, outs) ->
  NoDup [hm_md x; hm_i x; hm_o x; hm_md tpl; hm_i tpl; hm_o tpl] -> bytes pass -> hashable (length pass) -> bytes salt -> hashable (36 + length salt) ->
  bytesn 8 iv -> rows16 stale -> mask_wf rnd -> bytes data -> (8 <= length data)%nat -> N.of_nat (length data) < 2 ^ 31 ->
  pbe2_crypt r1 rnd st x tpl (pbe2_set rnd0 stale iv salt iter) pass enc data =
  Some (Some (cfb_stream enc (encrypt (packed_sbox default_sbox) (pbkdf2_dstu pass salt iter 32)) iv data)).
Proof. exact set_crypt. Qed.
Print Assumptions C140_crypt.
(** C140: whatever was encrypted with a password is decrypted with it, in the same process or in
    another one, whatever the digest contexts there. *)
Theorem C140_roundtrip : forall os st outs x tpl os' st' outs' x' tpl' pass salt iter iv rnd0 stale r1 r2 r3 r4 data,
  legal no_slots os -> md_run md_empty os = Some (st, outs) -> legal no_slots os' -> md_run md_empty os' = Some (st', outs') ->
  NoDup [hm_md x; hm_i x; hm_o x; hm_md tpl; hm_i tpl; hm_o tpl] -> NoDup [hm_md x'; hm_i x'; hm_o x'; hm_md tpl'; hm_i tpl'; hm_o tpl'] ->
  bytes pass -> hashable (length pass) -> bytes salt -> hashable (36 + length salt) -> bytesn 8 iv -> rows16 stale -> mask_wf r2 -> mask_wf r4 ->
  bytes data -> data <> [] -> N.of_nat (length data) < 2 ^ 31 ->
  let p := pbe2_set rnd0 stale iv salt iter in
  exists ct, pbe2_crypt r1 r2 st x tpl p pass true data = Some (Some ct) /\ length ct = length data /\ pbe2_crypt r3 r4 st' x' tpl' p pass false ct = Some (Some data).
Proof. exact set_roundtrip. Qed.
Print Assumptions C140_roundtrip.
(** C140 is violated: data shorter than a block is not protected at all.  The result does not depend
    on the password; every password decrypts it, and so does anyone without one. *)
Theorem C140_short_refuted : forall os st outs x tpl pass salt iter iv rnd0 stale r1 rnd enc data, legal no_slots os -> md_run md_empty os = Some (st, outs) ->
  NoDup [hm_md x; hm_i x; hm_o x; hm_md tpl; hm_i tpl; hm_o tpl] -> bytes pass -> hashable (length pass) -> bytes salt -> hashable (36 + length salt) ->
  bytesn 8 iv -> rows16 stale -> mask_wf rnd -> bytes data -> (0 < length data < 8)%nat ->
  pbe2_crypt r1 rnd st x tpl (pbe2_set rnd0 stale iv salt iter) pass enc data = Some (Some (xorl data (encrypt (packed_sbox default_sbox) (zeros 32) iv))).
Proof. exact short_any. Qed.
Print Assumptions C140_short_refuted.
(** C140 is violated: the S-box named in the parameters of somebody else's file is not the one used. *)
Theorem C140_sbox_refuted : forall os st outs x tpl pass salt iter iv sb r1 rnd enc data, legal no_slots os -> md_run md_empty os = Some (st, outs) ->
  NoDup [hm_md x; hm_i x; hm_o x; hm_md tpl; hm_i tpl; hm_o tpl] -> bytes pass -> hashable (length pass) -> bytes salt -> hashable (36 + length salt) ->
  bytesn 8 iv -> bytesn 64 sb -> mask_wf rnd -> bytes data -> (8 <= length data)%nat -> N.of_nat (length data) < 2 ^ 31 ->
  pbe2_crypt r1 rnd st x tpl (PBE2 (ASN1 16%Z (der_params iv sb)) salt iter PrfDstu34311) pass enc data =
  Some (Some (cfb_stream enc (encrypt (packed_sbox default_sbox) (pbkdf2_dstu pass salt iter 32)) iv data)).
Proof. exact foreign. Qed.
Print Assumptions C140_sbox_refuted.
Example C140_ex : bytesn 8 exiv /\ rows16 GostR3411_94_TestParamSet /\ mask_wf exmask /\ bytes exm /\ (8 <= length exm)%nat /\ bytesn 64 exsb /\ exsb <> default_sbox /\
  cfb_stream false (encrypt (packed_sbox exsb) exk) exiv exm <> cfb_stream false (encrypt (packed_sbox default_sbox) exk) exiv exm.
Proof.
  split; [split; [repeat constructor|reflexivity]|]. split; [repeat split; reflexivity|]. split; [split; [reflexivity|repeat constructor]|]. split; [repeat constructor|]. split; [cbn; lia|].
  split; [split; [repeat constructor|reflexivity]|]. split; vm_compute; discriminate.
Qed.
(** 3 bytes that another password opens. *)
Eval vm_compute in (let p := pbe2_set exmask GostR3411_94_TestParamSet exiv [7;7;7] 1 in let d := [1;2;3] in
  match pbe2_crypt exmask exmask md_empty exx ext p expass true d with
  | Some (Some ct) => match pbe2_crypt exmask exmask md_empty exx ext p [1] false ct with Some (Some b) => leq b d | _ => false end
  | _ => false end).
