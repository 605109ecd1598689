(** Property C129: a key kept in a container signs for the public key it was made with. *)
From Coq Require Import Lia ZArith.
From Verif Require Import Base Lib Model_Gost89 Model_Params Spec_Params Spec_Md
  Model_Gf2m Model_Compress Model_Ec Model_Curves Model_Sign Model_Asn1 Model_Pmeth Model_Key Model_Ameth Model_Evp
  Spec_Gf2m Spec_Compress Spec_Curves Spec_Asn1 Spec_Sign Spec_Pmeth Spec_Key.
From Verif Require Import Spec_Gost89 Model_KeyStore Model_Utils Model_Utf16 Model_Jks Model_Key6 Model_Pkcs12 Spec_Keylib Spec_Pkcs12 Spec_Jks Spec_Key6 Spec_Stored Proof_Stored.
From Verif Require Prop_Key6 Prop_Keylib Prop_Life Prop_Jks.

(** A key is generated on a standard curve (C93) and its PKCS#8 form encrypted under a password
    into a Key-6 container, with any padding, mac and attributes.  Reading the container with
    the password gives a store whose first key makes signatures that the exported public key
    accepts. *)
Theorem C129_key6 : forall d2i d2o solve nid g t sb fuel d0 q0 src k, reads_params d2i -> reads_octets d2o -> group_from_nid nid = Some g -> good_solver (c_p (g_curve g)) solve ->
  key_type t -> sbox_ok sb -> ranged (g_order g) src -> generate_key fuel (ECKEY (Some (Binary g)) d0 q0) src = Done k ->
  (nid <> 1160 /\ nid <> 1168)%Z \/ (forall P, ek_pub k = Some P -> has_compressed_form (g_curve g) P) ->
  exists info pub kv, priv_encode (PKEY t (Some (DKEY k sb))) = Ok info /\ pub_encode (PKEY t (Some (DKEY k sb))) = Ok pub /\
  pub_decode d2i d2o solve pub = Some kv /\
  forall read obj der attrs, is_der read der info attrs -> attrs_bytes attrs ->
  forall spec grp (e : attr_env spec grp) p8 malloc r mac data pad password padding b h ks, (forall u, opens d2i solve read obj (der ++ u) (p8 (der ++ u))) -> malloc_ok malloc ->
    bytes password -> hashable (length password) -> mask_wf (k6_mask r) -> bytes (der ++ padding) -> length (der ++ padding) = (8 * b)%nat ->
    data ++ match pad with None => [] | Some p => p end = key6_encrypt (key6_key password) (der ++ padding) -> apart r (length (der ++ padding)) ->
  exists h' st a others, parseKey6 e p8 malloc r (Some (key6_store mac data pad)) password h ks = Some (h', true, Some st) /\
    shows h' st Keys (a :: others) /\ shows h' st Certs [] /\ signs_for d2o g (obj a) kv.
Proof. exact stored_key6. Qed.
Print Assumptions C129_key6.
(** The same for a Java key store: any readable store one entry of which holds the key. *)
Theorem C129_jks : forall d2i d2o solve nid g t sb fuel d0 q0 src k, reads_params d2i -> reads_octets d2o -> group_from_nid nid = Some g -> good_solver (c_p (g_curve g)) solve ->
  key_type t -> sbox_ok sb -> ranged (g_order g) src -> generate_key fuel (ECKEY (Some (Binary g)) d0 q0) src = Done k ->
  (nid <> 1160 /\ nid <> 1168)%Z \/ (forall P, ek_pub k = Some P -> has_compressed_form (g_curve g) P) ->
  exists info pub kv, priv_encode (PKEY t (Some (DKEY k sb))) = Ok info /\ pub_encode (PKEY t (Some (DKEY k sb))) = Ok pub /\
  pub_decode d2i d2o solve pub = Some kv /\
  forall read obj der attrs, is_der read der info attrs ->
  forall spec grp (e : jks_env spec grp) magic l post storagePass store16 keyPass k0 keys certs k' h ks, env_ok e -> (forall j u, opens d2i solve read obj (der ++ u) (je_p8 e j (der ++ u))) ->
    is_magic magic -> N.of_nat (length l) < 2 ^ 32 -> Forall entry_fits l -> password16 e storagePass store16 -> entries_read e keyPass k0 l keys certs k' ->
  exists h' st, parseJKS e (enc_store magic l ++ digest_of e store16 (enc_store magic l) ++ post) storagePass keyPass (h, k0) ks = Some ((h', k'), true, Some st) /\
    shows h' st Keys keys /\
    forall alias stamp blob chain key16 salt padding, In (KeyEntry alias stamp blob chain) l -> password16 e keyPass key16 -> length salt = 20%nat ->
      je_sig e blob = Some (sun_key_protector, protect (je_sha1 e) key16 salt (der ++ padding)) -> exists a, In a keys /\ signs_for d2o g (obj a) kv.
Proof. exact stored_jks. Qed.
Print Assumptions C129_jks.
(** And for a PKCS#12 container one bag of which holds the key (OpenSSL decrypts the bags and
    calls the engine for the PKCS#8 structure inside). *)
Theorem C129_pkcs12 : forall d2i d2o solve nid g t sb fuel d0 q0 src k, reads_params d2i -> reads_octets d2o -> group_from_nid nid = Some g -> good_solver (c_p (g_curve g)) solve ->
  key_type t -> sbox_ok sb -> ranged (g_order g) src -> generate_key fuel (ECKEY (Some (Binary g)) d0 q0) src = Done k ->
  (nid <> 1160 /\ nid <> 1168)%Z \/ (forall P, ek_pub k = Some P -> has_compressed_form (g_curve g) P) ->
  exists info pub kv, priv_encode (PKEY t (Some (DKEY k sb))) = Ok info /\ pub_encode (PKEY t (Some (DKEY k sb))) = Ok pub /\
  pub_decode d2i d2o solve pub = Some kv /\
  forall obj m h p ks safes a, malloc_ok m -> p12_fresh h p -> readable p safes -> In (Keys, Some a) (items_of safes) -> Some (obj a) = priv_decode d2i solve info ->
  exists h' st l, parsePKCS12 m h p ks = Some (h', true, Some st) /\ shows h' st Keys l /\ In a l /\ signs_for d2o g (obj a) kv.
Proof. exact stored_pkcs12. Qed.
Print Assumptions C129_pkcs12.
(** Key, curve and decoders: C93_ex; password, memory and ciphertext: C64_ex, C59_ex.  What is
    left: a decoder and objects as described, for any key. *)
Example C129_ex : forall d2i solve info kd, priv_decode d2i solve info = Some kd ->
  let read x := if hd 0 x =? 0x30 then Some (info, Prop_Keylib.ex_attrs) else None in
  let p8 x := if hd 0 x =? 0x30 then Some (P8 (Some 7%nat) Prop_Keylib.ex_attrs) else None in
  is_der read Prop_Key6.ex_plain info Prop_Keylib.ex_attrs /\ attrs_bytes Prop_Keylib.ex_attrs /\ (forall x, opens d2i solve read (fun _ => kd) x (p8 x)) /\
  bytes (Prop_Key6.ex_plain ++ [0; 0; 0; 0; 0; 0; 0; 0]) /\ length (Prop_Key6.ex_plain ++ [0; 0; 0; 0; 0; 0; 0; 0]) = (8 * 3)%nat.
Proof.
  intros d2i solve info kd E read p8. split; [intros rest; reflexivity|]. split; [apply Prop_Keylib.C67_ex|].
  split; [|split; [apply bytesb_ok; reflexivity|reflexivity]].
  intros x. unfold opens, read, p8. destruct (hd 0 x =? 0x30); [|reflexivity]. eexists. split; [reflexivity|]. split; [reflexivity|].
  rewrite E. eexists. split; reflexivity.
Qed.
