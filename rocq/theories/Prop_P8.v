(** Property C135: private and public keys as bytes (OpenSSL's PKCS#8, SubjectPublicKeyInfo and
    X509_SIG decoders, which ameth.c, utils.c, key6.c and jks.c rely on). *)
From Coq Require Import ZArith List Lia.
Import ListNotations.
From Verif Require Import Base Lib Model_Gost89 Model_Params Spec_Params Spec_Md
  Model_Gf2m Model_Compress Model_Ec Model_Curves Model_Sign Model_Asn1 Model_Pmeth Model_Key Model_Ameth Model_Evp
  Spec_Gf2m Spec_Compress Spec_Curves Spec_Asn1 Spec_Sign Spec_Pmeth Spec_Key.
From Verif Require Import Spec_Gost89 Model_KeyStore Model_Utils Model_Utf16 Model_Jks Model_Key6 Model_Pkcs12 Model_Iit Model_KeyFile Model_P8
  Spec_Keylib Spec_Pkcs12 Spec_Jks Spec_Key6 Spec_Stored Spec_Iit Spec_Ber Spec_KeyFile Spec_P8 Proof_P8 Proof_P8b.
From Verif Require Proof_KeyFile.
Open Scope N_scope.

(** C135: every basic encoding of a private key is read as the key, the algorithm, the parameters
    and the attributes it encodes, whatever follows. *)
Theorem C135_p8_reads : forall i attrs w t, ber_p8 true i attrs w -> N.of_nat (length w) < 2 ^ 31 -> d2i_p8 (w ++ t) = Some (i, attrs).
Proof. exact d2i_p8_complete. Qed.
Print Assumptions C135_p8_reads.
(** What is read is what the bytes encode. *)
Theorem C135_p8_only : forall l i attrs, bytes l -> d2i_p8 l = Some (i, attrs) -> exists w t, l = w ++ t /\ ber_p8 false i attrs w.
Proof. exact d2i_p8_sound. Qed.
Print Assumptions C135_p8_only.
(** The same for public keys and for the encrypted keys of Java key stores. *)
Theorem C135_pub_reads : forall i w t, ber_pub true i w -> N.of_nat (length w) < 2 ^ 31 -> d2i_pub (w ++ t) = Some i.
Proof. exact d2i_pub_complete. Qed.
Print Assumptions C135_pub_reads.
Theorem C135_pub_only : forall l i, bytes l -> d2i_pub l = Some i -> exists w t, l = w ++ t /\ ber_pub false i w.
Proof. exact d2i_pub_sound. Qed.
Print Assumptions C135_pub_only.
Theorem C135_sig_reads : forall o s w t, ber_sig true o s w -> N.of_nat (length w) < 2 ^ 31 -> d2i_sig (w ++ t) = Some (o, s).
Proof. exact d2i_sig_complete. Qed.
Print Assumptions C135_sig_reads.
Theorem C135_sig_only : forall l o s, bytes l -> d2i_sig l = Some (o, s) -> exists w t, l = w ++ t /\ ber_sig false o s w.
Proof. exact d2i_sig_sound. Qed.
Print Assumptions C135_sig_only.
(** The bytes of an exported key are such an encoding, and are read back as what was exported. *)
Theorem C135_written_priv : forall pk i, priv_encode pk = Ok i -> N.of_nat (length (enc_p8 i)) < 2 ^ 31 -> ber_p8 true i [] (enc_p8 i) /\ forall t, d2i_p8 (enc_p8 i ++ t) = Some (i, []).
Proof. exact (fun pk i E L => conj (priv_der pk i E L) (fun t => written_priv pk i t E L)). Qed.
Print Assumptions C135_written_priv.
Theorem C135_written_pub : forall pk i, pub_encode pk = Ok i -> N.of_nat (length (enc_pub i)) < 2 ^ 31 -> ber_pub true i (enc_pub i) /\ forall t, d2i_pub (enc_pub i ++ t) = Some i.
Proof. exact (fun pk i E L => conj (pub_der pk i E L) (fun t => written_pub pk i t E L)). Qed.
Print Assumptions C135_written_pub.
(** A key generated on a standard curve, exported to bytes and imported from them: the imported
    private key makes signatures that the imported public key accepts. *)
Theorem C135_life : forall solve nid g t sb fuel d0 q0 src k, group_from_nid nid = Some g -> good_solver (c_p (g_curve g)) solve ->
  key_type t -> sbox_ok sb -> ranged (g_order g) src -> generate_key fuel (ECKEY (Some (Binary g)) d0 q0) src = Done k ->
  (nid <> 1160 /\ nid <> 1168)%Z \/ (forall P, ek_pub k = Some P -> has_compressed_form (g_curve g) P) ->
  exists info pub, priv_encode (PKEY t (Some (DKEY k sb))) = Ok info /\ pub_encode (PKEY t (Some (DKEY k sb))) = Ok pub /\
  forall r r', exists kd kv, d2i_p8 (enc_p8 info ++ r) = Some (info, []) /\ d2i_pub (enc_pub pub ++ r') = Some pub /\
    priv_decode d2i_params solve info = Some kd /\ pub_decode d2i_params d2i_octets solve pub = Some kv /\ signs_for d2i_octets g kd kv.
Proof. exact life_bytes. Qed.
Print Assumptions C135_life.
(** The same through a Key-6 file, bytes in and out: any basic encoding of the private key, with
    attributes, encrypted under the password; any basic encoding of the file; anything after it. *)
Theorem C135_key6 : forall solve nid g t sb fuel d0 q0 src k, group_from_nid nid = Some g -> good_solver (c_p (g_curve g)) solve ->
  key_type t -> sbox_ok sb -> ranged (g_order g) src -> generate_key fuel (ECKEY (Some (Binary g)) d0 q0) src = Done k ->
  (nid <> 1160 /\ nid <> 1168)%Z \/ (forall P, ek_pub k = Some P -> has_compressed_form (g_curve g) P) ->
  exists info pub kv, priv_encode (PKEY t (Some (DKEY k sb))) = Ok info /\ pub_encode (PKEY t (Some (DKEY k sb))) = Ok pub /\
  d2i_pub (enc_pub pub) = Some pub /\ pub_decode d2i_params d2i_octets solve pub = Some kv /\
  forall obj der attrs, ber_p8 true info attrs der -> N.of_nat (length der) < 2 ^ 31 -> attrs_bytes attrs ->
  forall spec grp (e : attr_env spec grp) p8 malloc r mac data pad password padding b file rest h ks, (forall u, opens d2i_params solve d2i_p8 obj (der ++ u) (p8 (der ++ u))) -> malloc_ok malloc ->
    bytes password -> hashable (length password) -> mask_wf (k6_mask r) -> bytes (der ++ padding) -> length (der ++ padding) = (8 * b)%nat ->
    data ++ match pad with None => [] | Some p => p end = key6_encrypt (key6_key password) (der ++ padding) -> apart r (length (der ++ padding)) ->
    ber_iit true key6_type mac pad data file -> N.of_nat (length file) < 2 ^ 31 ->
  exists h' st a others, parseKey6 e p8 malloc r (d2i_IITStore (file ++ rest)) password h ks = Some (h', true, Some st) /\
    shows h' st Keys (a :: others) /\ shows h' st Certs [] /\ signs_for d2i_octets g (obj a) kv.
Proof. exact life_key6. Qed.
Print Assumptions C135_key6.
(** And through a Java key store one entry of which holds the key. *)
Theorem C135_jks : forall solve nid g t sb fuel d0 q0 src k, group_from_nid nid = Some g -> good_solver (c_p (g_curve g)) solve ->
  key_type t -> sbox_ok sb -> ranged (g_order g) src -> generate_key fuel (ECKEY (Some (Binary g)) d0 q0) src = Done k ->
  (nid <> 1160 /\ nid <> 1168)%Z \/ (forall P, ek_pub k = Some P -> has_compressed_form (g_curve g) P) ->
  exists info pub kv, priv_encode (PKEY t (Some (DKEY k sb))) = Ok info /\ pub_encode (PKEY t (Some (DKEY k sb))) = Ok pub /\
  d2i_pub (enc_pub pub) = Some pub /\ pub_decode d2i_params d2i_octets solve pub = Some kv /\
  forall obj der attrs, ber_p8 true info attrs der -> N.of_nat (length der) < 2 ^ 31 ->
  forall spec grp (e : jks_env spec grp) magic l post storagePass store16 keyPass k0 keys certs k' h ks, env_ok e -> (forall j u, opens d2i_params solve d2i_p8 obj (der ++ u) (je_p8 e j (der ++ u))) ->
    (forall x, je_sig e x = d2i_sig x) ->
    is_magic magic -> N.of_nat (length l) < 2 ^ 32 -> Forall entry_fits l -> password16 e storagePass store16 -> entries_read e keyPass k0 l keys certs k' ->
  exists h' st, parseJKS e (enc_store magic l ++ digest_of e store16 (enc_store magic l) ++ post) storagePass keyPass (h, k0) ks = Some ((h', k'), true, Some st) /\
    shows h' st Keys keys /\
    forall alias stamp blob rest chain key16 salt padding, In (KeyEntry alias stamp (blob ++ rest) chain) l -> password16 e keyPass key16 -> length salt = 20%nat ->
      ber_sig true sun_key_protector (protect (je_sha1 e) key16 salt (der ++ padding)) blob -> N.of_nat (length blob) < 2 ^ 31 -> exists a, In a keys /\ signs_for d2i_octets g (obj a) kv.
Proof. exact life_jks. Qed.
Print Assumptions C135_jks.

(** A private key with end markers, the key in two parts, and an attribute with three values. *)
Definition ex_prm : list N := [0x30; 0x80; 6; 13; 0x2A; 0x86; 0x24; 2; 1; 1; 1; 1; 3; 1; 1; 2; 6; 0; 0].
Definition ex_alg : list N := [6; 11; 0x2A; 0x86; 0x24; 2; 1; 1; 1; 1; 3; 1; 1] ++ ex_prm.
Definition ex_attr : list N := [0x30; 19; 6; 2; 0x2A; 3; 0x31; 13; 4; 2; 5; 6; 3; 2; 4; 0xF7; 0x30; 3; 2; 1; 7].
Definition ex_p8 : list N := [0x30; 0x80; 2; 1; 0; 0x30; 0x80] ++ ex_alg ++ [0; 0; 0x24; 0x80; 4; 2; 1; 2; 4; 1; 3; 0; 0; 0xA0; 0x80] ++ ex_attr ++ [0; 0; 0; 0].
Definition ex_info : keyinfo := KEYINFO (ALGOR 1158 (Some ex_prm)) [1; 2; 3].
Definition ex_attrs : list (option attribute) := [Some (ATTR (Some [1; 2; 3]) [VOctet [5; 6]; VBit [0xF0]; VOther [0x30; 3; 2; 1; 7]])].
Lemma ex_name : oid_says [0x2A; 0x86; 0x24; 2; 1; 1; 1; 1; 3; 1; 1] type_le /\ ber_oid true [0x2A; 0x86; 0x24; 2; 1; 1; 1; 1; 3; 1; 1] [6; 11; 0x2A; 0x86; 0x24; 2; 1; 1; 1; 1; 3; 1; 1].
Proof.
  destruct (key_type_named 1158%Z eq_refl) as (o & O1 & [(_ & ->)|[(X & _)|(X & _)]] & O3); try discriminate X. split; [exact O1|]. split; [exact O3|].
  apply (prim_der 6 [0x2A; 0x86; 0x24; 2; 1; 1; 1; 1; 3; 1; 1]); [cbn; auto|reflexivity].
Qed.
Lemma ex_alg_ok : ber_algor true type_le (Some ex_prm) ([0x30; 0x80] ++ ex_alg ++ [0; 0]).
Proof.
  destruct ex_name as [A B]. exists [0x2A; 0x86; 0x24; 2; 1; 1; 1; 1; 3; 1; 1], [6; 11; 0x2A; 0x86; 0x24; 2; 1; 1; 1; 1; 3; 1; 1], [ex_prm]. split; [exact A|]. split; [exact B|]. split.
  - split; [reflexivity|]. apply (el_marked true (Some 16) [48] [6; 13; 0x2A; 0x86; 0x24; 2; 1; 1; 1; 1; 3; 1; 1; 2; 6]); [exact seq_id|].
    apply (els_cons true false [6; 13; 0x2A; 0x86; 0x24; 2; 1; 1; 1; 1; 3; 1; 1; 2; 6] []); [|discriminate|constructor].
    apply (el_known true None false [6] [13] [0x2A; 0x86; 0x24; 2; 1; 1; 1; 1; 3; 1; 1; 2; 6]); [|left; split; [cbn; lia|reflexivity]].
    exists 6, [], 6. repeat split. left. repeat split. discriminate.
  - exists [48]. split; [exact seq_id|]. right. reflexivity.
Qed.
Lemma ex_attr_ok : ber_attribute true (ATTR (Some [1; 2; 3]) [VOctet [5; 6]; VBit [0xF0]; VOther [0x30; 3; 2; 1; 7]]) ex_attr.
Proof.
  exists [1; 2; 3], [0x2A; 3], [6; 2; 0x2A; 3], [[4; 2; 5; 6]; [3; 2; 4; 0xF7]; [0x30; 3; 2; 1; 7]], [0x31; 13; 4; 2; 5; 6; 3; 2; 4; 0xF7; 0x30; 3; 2; 1; 7].
  assert (Hs : Forall subidentifier [[0x2A]; [3]]) by (repeat (apply Forall_cons; [apply sub1; reflexivity|]); constructor).
  split; [reflexivity|]. split.
  { split; [repeat constructor|]. exists [[0x2A]; [3]], 1, 2, [3]. split; [exact Hs|]. repeat split; discriminate. }
  split.
  { split; [exists [[0x2A]; [3]]; split; [discriminate|]; split; [exact Hs|reflexivity]|]. apply (prim_der 6 [0x2A; 3]); [cbn; auto|reflexivity]. }
  split; [apply Forall2_cons; [|apply Forall2_cons; [|apply Forall2_cons; [|constructor]]]|].
  - apply (octets_der [5; 6]). reflexivity.
  - exists 4, [0xF7]. split; [|apply (prim_der 3 [4; 0xF7]); [cbn; auto|reflexivity]]. split; [discriminate|]. split; [repeat constructor|]. right. exists [], 0xF7. split; reflexivity.
  - split; [reflexivity|]. left. apply (el_known true (Some 16) true [48] [3] [2; 1; 7]); [exact seq_id|left; split; [cbn; lia|reflexivity]].
  - split.
    + exists [0x31]. split; [exists 0x31, [], 17; repeat split; left; repeat split; discriminate|]. left. exists [13]. split; [left; split; [cbn; lia|reflexivity]|reflexivity].
    + apply (cons_der ([6; 2; 0x2A; 3] ++ [0x31; 13; 4; 2; 5; 6; 3; 2; 4; 0xF7; 0x30; 3; 2; 1; 7])). reflexivity.
Qed.
Example C135_ex : ber_p8 true ex_info ex_attrs ex_p8 /\ attrs_bytes ex_attrs.
Proof.
  split.
  - exists 0%Z, [2; 1; 0], type_le, ([0x30; 0x80] ++ ex_alg ++ [0; 0]), [0x24; 0x80; 4; 2; 1; 2; 4; 1; 3; 0; 0],
      [ATTR (Some [1; 2; 3]) [VOctet [5; 6]; VBit [0xF0]; VOther [0x30; 3; 2; 1; 7]]], [ex_attr], [[0xA0; 0x80] ++ ex_attr ++ [0; 0]].
    split; [exact int0_der|]. split; [left; split; reflexivity|]. split; [exact ex_alg_ok|]. split.
    { apply (ber_cons true 5 (Some 4) [4; 2; 1; 2; 4; 1; 3] [1; 2; 3]).
      - apply (parts_cons true 5 [1; 2] [4; 2; 1; 2] [3] [4; 1; 3]); [|discriminate|].
        + apply (ber_prim true 5 (Some 4) [4] [2] [1; 2]); [apply Proof_KeyFile.ident_short; reflexivity|left; split; [cbn; lia|reflexivity]].
        + apply (parts_cons true 5 [3] [4; 1; 3] [] []); [|discriminate|constructor].
          apply (ber_prim true 5 (Some 4) [4] [1] [3]); [apply Proof_KeyFile.ident_short; reflexivity|left; split; [cbn; lia|reflexivity]].
      - exists [0x24]. split; [exists 0x24, [], 4; repeat split; left; repeat split; discriminate|]. right. reflexivity. }
    split; [reflexivity|]. split; [constructor; [exact ex_attr_ok|constructor]|]. split.
    { right. exists ([0xA0; 0x80] ++ ex_attr ++ [0; 0]). split; [|reflexivity]. exists [0xA0]. split; [reflexivity|]. right. reflexivity. }
    exists [48]. split; [exact seq_id|]. right. reflexivity.
  - intros a v H1 H2; cbn in H1; repeat (destruct H1 as [H1|H1]; [injection H1 as <-; cbn in H2; repeat (destruct H2 as [H2|H2]; [subst v; apply bytesb_ok; reflexivity|]); contradiction|]); contradiction.
Qed.
Example C135_ex_read : d2i_p8 (ex_p8 ++ [9; 9]) = Some (ex_info, ex_attrs) /\ d2i_p8 (firstn (length ex_p8 - 1) ex_p8) = None.
Proof. vm_compute. split; reflexivity. Qed.
(** Public keys: the unused bits read as 0; parameters that are no SEQUENCE are not shown to the
    engine; another algorithm is not one of the engine's types; the string in parts is accepted. *)
Definition ex_pub (alg bits : list N) : list N := [0x30; 0x80; 0x30; 0x80] ++ alg ++ [0; 0] ++ bits ++ [0; 0].
Example C135_ex_pub :
  ber_pub true (KEYINFO (ALGOR 1158 (Some ex_prm)) [4; 0x80]) (ex_pub ex_alg [3; 3; 7; 4; 0xFF]) /\
  d2i_pub (ex_pub ex_alg [3; 3; 7; 4; 0xFF]) = Some (KEYINFO (ALGOR 1158 (Some ex_prm)) [4; 0x80]) /\
  d2i_pub (ex_pub (firstn 13 ex_alg ++ [5; 0]) [3; 3; 7; 4; 0xFF]) = Some (KEYINFO (ALGOR 1158 None) [4; 0x80]) /\
  d2i_pub (ex_pub [6; 2; 0x2A; 3] [0x23; 5; 4; 3; 0; 4; 1]) = Some (KEYINFO (ALGOR 0 None) [4; 1]) /\
  d2i_pub (ex_pub ex_alg [3; 3; 8; 4; 0xFF]) = None /\ d2i_pub (ex_pub ex_alg [4; 2; 4; 0xFF]) = None.
Proof.
  split; [|vm_compute; repeat split; reflexivity]. exists type_le, ([0x30; 0x80] ++ ex_alg ++ [0; 0]), [3; 3; 7; 4; 0xFF].
  split; [left; split; reflexivity|]. split; [exact ex_alg_ok|]. split.
  - exists 7, [4; 0xFF]. split; [|apply (prim_der 3 [7; 4; 0xFF]); [cbn; auto|reflexivity]]. split; [discriminate|]. split; [repeat constructor|]. right. exists [4], 0xFF. split; reflexivity.
  - exists [48]. split; [exact seq_id|]. right. reflexivity.
Qed.
(** An encrypted key. *)
Example C135_ex_sig : d2i_sig ([0x30; 25; 0x30; 14; 6; 10; 0x2B; 6; 1; 4; 1; 0x2A; 2; 0x11; 1; 1; 5; 0] ++ [0x24; 7; 4; 2; 1; 2; 4; 1; 3]) = Some (sun_key_protector, [1; 2; 3]) /\ d2i_sig [0x30; 0] = None.
Proof. vm_compute. split; reflexivity. Qed.
(** What the engine writes for a private key. *)
Example C135_ex_written : enc_p8 (KEYINFO (ALGOR 1159 (Some [0x30; 0])) [7]) = [0x30; 25; 2; 1; 0; 0x30; 17; 6; 13; 0x2A; 0x86; 0x24; 2; 1; 1; 1; 1; 3; 1; 1; 1; 1; 0x30; 0; 4; 1; 7] /\
  enc_pub (KEYINFO (ALGOR 1158 (Some [0x30; 0])) [4; 1; 9]) = [0x30; 23; 0x30; 15; 6; 11; 0x2A; 0x86; 0x24; 2; 1; 1; 1; 1; 3; 1; 1; 0x30; 0; 3; 4; 0; 4; 1; 9].
Proof. vm_compute. split; reflexivity. Qed.
