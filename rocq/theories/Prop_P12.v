(** Properties C141 (private keys encrypted with the algorithms of the engine) and C142 (the MAC of
    PKCS#12 containers over the digest of the engine). *)
From Coq Require Import ZArith List Lia.
Import ListNotations.
From Verif Require Import Base Lib Model_Gost89 Model_Params Spec_Params Spec_Md
  Model_Gf2m Model_Compress Model_Ec Model_Curves Model_Sign Model_Asn1 Model_Pmeth Model_Key Model_Ameth Model_Evp
  Spec_Gf2m Spec_Compress Spec_Curves Spec_Asn1 Spec_Sign Spec_Pmeth Spec_Key.
From Verif Require Import Spec_Gost89 Model_Cipher Spec_Cipher Model_Hash Spec_Hash Model_Pbe Spec_Pbe Model_P12 Spec_P12.
From Verif Require Import Model_KeyStore Model_Utils Model_Pkcs12 Model_Iit Model_KeyFile Model_P8
  Spec_Keylib Spec_Pkcs12 Spec_Stored Spec_Iit Spec_Ber Spec_KeyFile Spec_P8 Proof_P12 Proof_P12b.
From Verif Require Prop_Pbe Prop_Cipher Prop_P8 Prop_Pkcs12.
Open Scope N_scope.

(** C141: a key is generated on a standard curve.  Any basic encoding of its PKCS#8 form, encrypted
    under a password by PBES2 with the engine's cipher and HMAC, is decrypted with the password, in
    this process or another, whatever the digest contexts there, to a key object whose signatures
    the exported public key accepts; and a PKCS#12 container with that bag, if it can be read,
    delivers the object. *)
Theorem C141_encrypted : forall solve nid g t sb fuel d0 q0 src k, group_from_nid nid = Some g -> good_solver (c_p (g_curve g)) solve ->
  key_type t -> sbox_ok sb -> ranged (g_order g) src -> generate_key fuel (ECKEY (Some (Binary g)) d0 q0) src = Done k ->
  (nid <> 1160 /\ nid <> 1168)%Z \/ (forall P, ek_pub k = Some P -> has_compressed_form (g_curve g) P) ->
  exists info pub kv, priv_encode (PKEY t (Some (DKEY k sb))) = Ok info /\ pub_encode (PKEY t (Some (DKEY k sb))) = Ok pub /\
  d2i_pub (enc_pub pub) = Some pub /\ pub_decode d2i_params d2i_octets solve pub = Some kv /\
  forall obj p8 der attrs, ber_p8 true info attrs der -> bytes der -> N.of_nat (length der) < 2 ^ 31 -> opens d2i_params solve d2i_p8 obj der (p8 der) ->
  forall os st outs x tpl os' st' outs' x' tpl' pass salt iter iv rnd0 stale r1 r2 r3 r4,
    legal no_slots os -> md_run md_empty os = Some (st, outs) -> legal no_slots os' -> md_run md_empty os' = Some (st', outs') ->
    NoDup [hm_md x; hm_i x; hm_o x; hm_md tpl; hm_i tpl; hm_o tpl] -> NoDup [hm_md x'; hm_i x'; hm_o x'; hm_md tpl'; hm_i tpl'; hm_o tpl'] ->
    bytes pass -> hashable (length pass) -> bytes salt -> hashable (36 + length salt) -> bytesn 8 iv -> rows16 stale -> mask_wf r2 -> mask_wf r4 ->
    let p := pbe2_set rnd0 stale iv salt iter in
  exists ct a, pbe2_crypt r1 r2 st x tpl p pass true der = Some (Some ct) /\
    shrouded p8 r3 r4 st' x' tpl' p pass ct = Some (ShroudedKeyBag (Some (Some a))) /\ signs_for d2i_octets g (obj a) kv /\
    forall m h ks safes bags, malloc_ok m -> readable (Some (P12 true (Some safes))) safes -> p12_fresh h (Some (P12 true (Some safes))) ->
      In (P7Data (Some bags)) safes \/ In (P7Enc (Some bags)) safes -> In (ShroudedKeyBag (Some (Some a))) bags ->
    exists h' store l, parsePKCS12 m h (Some (P12 true (Some safes))) ks = Some (h', true, Some store) /\ shows h' store Keys l /\ In a l.
Proof. exact life_pbe. Qed.
Print Assumptions C141_encrypted.
(** Key and curve: C93_ex; encodings: C135_ex; histories, passwords and parameters: C139_ex, C140_ex.
    What is left: a container. *)
Example C141_ex : let safes := [P7Other; P7Data (Some [CertBag (Some 3%nat); ShroudedKeyBag (Some (Some 7%nat))])] in
  readable (Some (P12 true (Some safes))) safes /\ p12_fresh heap0 (Some (P12 true (Some safes))) /\ bytes Prop_P8.ex_p8 /\ N.of_nat (length Prop_P8.ex_p8) < 2 ^ 31.
Proof.
  intros safes. split; [|split; [|split; [apply bytesb_ok; reflexivity|reflexivity]]].
  - split; [reflexivity|]. split; [repeat constructor|]. split; [discriminate|]. repeat constructor; discriminate.
  - intros s [= <-]. split; repeat constructor; cbn; intuition discriminate.
Qed.

(** C142: the key derived for a container is that of RFC 7292 over the GOST 34.311 digest, for every
    password, salt, purpose, iteration count and length, whatever was done with digests before. *)
Theorem C142_kdf : forall os st outs p P S id r n, legal no_slots os -> md_run md_empty os = Some (st, outs) -> bytes P -> bytes S -> hashable (length P + length S + 96) -> id < 256 -> (1 <= r)%nat ->
  exists st', key_gen st p P S id r n = Some (st', p12_kdf dstu34311 32 32 id P S r n) /\ others_intact [p] os st'.
Proof. exact kdf_run. Qed.
Print Assumptions C142_kdf.
(** C142: a container is accepted exactly when the stored MAC is the HMAC of its contents under the
    key derived from the password; other digest contexts go on undisturbed. *)
Theorem C142_mac : forall os st outs p x P S r c stored, legal no_slots os -> md_run md_empty os = Some (st, outs) -> NoDup [hm_md x; hm_i x; hm_o x] ->
  bytes P -> bytes S -> hashable (length P + length S + 96) -> (1 <= r)%nat -> bytes c -> hashable (32 + length c) ->
  exists st' ok, verify_mac st p x P S r c stored = Some (st', ok) /\ (ok = true <-> stored = p12_mac_of P S r c) /\ others_intact (p :: [hm_md x; hm_i x; hm_o x]) os st'.
Proof. exact mac_run. Qed.
Print Assumptions C142_mac.
(** C142: with a wrong MAC nothing is delivered and nothing changes; with the right one the result
    depends on the bags alone. *)
Theorem C142_parse : forall os st outs p x P S r c stored, legal no_slots os -> md_run md_empty os = Some (st, outs) -> NoDup [hm_md x; hm_i x; hm_o x] ->
  bytes P -> bytes S -> hashable (length P + length S + 96) -> (1 <= r)%nat -> bytes c -> hashable (32 + length c) ->
  exists st' ok, verify_mac st p x P S r c stored = Some (st', ok) /\
    forall m h ks safes, malloc_ok m -> p12_fresh h (Some (P12 ok safes)) ->
      (stored <> p12_mac_of P S r c -> parsePKCS12 m h (Some (P12 ok safes)) ks = Some (h, false, ks)) /\
      (stored = p12_mac_of P S r c -> exists h' done ks', parsePKCS12 m h (Some (P12 ok safes)) ks = Some (h', done, ks') /\
        (done = true <-> exists l, safes = Some l /\ Forall p7_ok l /\ items_of l <> [] /\ Forall (fun i : item => snd i <> None) (items_of l))).
Proof. exact parse_run. Qed.
Print Assumptions C142_parse.
(** C142: whoever makes a second container that is accepted with the MAC of the first has two messages
    with one digest. *)
Theorem C142_bind : forall os st outs os' st0 outs' p x p' x' P S r c c' stored st1 st1', legal no_slots os -> md_run md_empty os = Some (st, outs) -> legal no_slots os' -> md_run md_empty os' = Some (st0, outs') ->
  NoDup [hm_md x; hm_i x; hm_o x] -> NoDup [hm_md x'; hm_i x'; hm_o x'] -> bytes P -> bytes S -> hashable (length P + length S + 96) -> (1 <= r)%nat ->
  bytes c -> hashable (32 + length c) -> bytes c' -> hashable (32 + length c') ->
  verify_mac st p x P S r c stored = Some (st1, true) -> verify_mac st0 p' x' P S r c' stored = Some (st1', true) -> c = c' \/ collision.
Proof. exact bind_run. Qed.
Print Assumptions C142_bind.
Example C142_ex : legal no_slots Prop_Pbe.exos /\ NoDup [hm_md Prop_Pbe.exx; hm_i Prop_Pbe.exx; hm_o Prop_Pbe.exx] /\ bytes Prop_Pbe.expass /\ bytes Prop_Cipher.exiv /\
  hashable (length Prop_Pbe.expass + length Prop_Cipher.exiv + 96) /\ hashable (32 + length [1; 2; 3]).
Proof. split; [exact Prop_Pbe.exos_legal|]. split; [repeat constructor; cbn; intuition discriminate|]. split; [repeat constructor|]. split; [repeat constructor|]. split; reflexivity. Qed.
(** 34 bytes: two blocks, the second from I + B + 1. *)
Eval vm_compute in (match key_gen md_empty 0 Prop_Pbe.expass Prop_Cipher.exiv 1 2 34 with Some (_, k) => Prop_Pbe.leq k (p12_kdf dstu34311 32 32 1 Prop_Pbe.expass Prop_Cipher.exiv 2 34) | None => false end).
(** Carries through a block; copies of short and long strings. *)
Example C142_ex_advance : kg_next (repeat 255 32) (repeat 0 32) = repeat 0 32 /\ kg_next (repeat 0 30 ++ [255; 254]) (repeat 0 31 ++ [1]) = repeat 0 29 ++ [1; 0; 0] /\
  stretch 32 [1; 2; 3] = kg_fill [1; 2; 3] /\ length (kg_fill (repeat 7 33)) = 64%nat /\ kg_fill [] = [].
Proof. vm_compute. repeat split; reflexivity. Qed.
