(** Property C110: secrets in memory that was given back. *)
From Verif Require Import Base Lib Model_Gost89 Model_KeyStore Model_Utils Model_Utf16 Model_Jks Model_Key6 Model_Wipe Spec_Md Spec_Keylib Spec_Jks Spec_Key6
  Proof_Wipe Prop_Keylib Prop_Jks.
From Verif Require Model_Gf2m Model_Asn1 Model_Sign Model_Pmeth Model_Ameth Prop_Key.

(** C110 is violated by every successful reading of a Java key store: the store password (in
    UTF-16) stays in released memory, and for every key in the store so do the key password
    and the key, as it was before it was protected. *)
Theorem C110_jks_refuted : forall spec grp (e : jks_env spec grp), env_ok e -> forall data storagePass keyPass h k ks h' k' ks', bytes data ->
  parseJKS e data storagePass keyPass (h, k) ks = Some ((h', k'), true, ks') ->
  exists magic l post store16, data = enc_store magic l ++ digest_of e store16 (enc_store magic l) ++ post /\ password16 e storagePass store16 /\
    let left := parseJKS_leaves e data storagePass keyPass (h, k) in
    In store16 left /\
    forall alias stamp blob chain key16 salt plain, In (KeyEntry alias stamp blob chain) l -> password16 e keyPass key16 ->
      je_sig e blob = Some (sun_key_protector, protect (je_sha1 e) key16 salt plain) -> length salt = 20%nat -> In key16 left /\ In plain left.
Proof. exact (fun spec grp => @jks_leaves spec grp). Qed.
Print Assumptions C110_jks_refuted.
Example C110_ex : let data := enc_store jks_magic ex_entries ++ digest_of ex_jks ex_pass16 (enc_store jks_magic ex_entries) in
  bytes data /\ (exists s p, parseJKS ex_jks data ex_pass ex_pass (heap0, 0%nat) None = Some (s, true, p)) /\
  parseJKS_leaves ex_jks data ex_pass ex_pass (heap0, 0%nat) = [0x30 :: repeat 1 30; ex_pass16; 0x30 :: repeat 2 30; ex_pass16; ex_pass16].
Proof.
  intros data. destruct C60_ex as [H _]. split; [exact H|]. split; [|vm_compute; reflexivity].
  eexists. eexists. vm_compute. reflexivity.
Qed.

(** After reading a Key-6 container, whatever comes of it, the key derived from the password
    stays on the stack.  ([key6_decrypt] with this key reads every container encrypted
    under the password, C64.) *)
Theorem C110_key6_refuted : forall r mac data pad password, bytes password -> hashable (length password) ->
  In (key6_key password) (parseKey6_leaves r (Some (key6_store mac data pad)) password).
Proof. exact key6_left. Qed.
Print Assumptions C110_key6_refuted.
Example C110_key6_ex : bytes [0x31; 0x32] /\ hashable (length [0x31; 0x32]).
Proof. split; [apply bytesb_ok|]; reflexivity. Qed.

(** Every private key loaded from PKCS#8 stays, as a big-endian number, in released memory. *)
Theorem C110_pkcs8_refuted : forall d2i solve p8 pk, Model_Ameth.priv_decode d2i solve p8 = Some pk ->
  exists key d b, Model_Pmeth.pk_key pk = Some key /\ Model_Sign.ek_priv (Model_Pmeth.dk_ec key) = Some d /\
    In b (priv_decode_leaves d2i solve p8) /\ be_val b = d.
Proof. exact priv_leaves. Qed.
Print Assumptions C110_pkcs8_refuted.
Example C110_pkcs8_ex : let p8 := Model_Ameth.KEYINFO (Model_Ameth.ALGOR 1158%Z (Some Prop_Key.toy_params)) [5; 0] in
  (exists pk, Model_Ameth.priv_decode Model_Asn1.d2i_params Model_Gf2m.solve_quad p8 = Some pk) /\
  priv_decode_leaves Model_Asn1.d2i_params Model_Gf2m.solve_quad p8 = [[0; 5]].
Proof. split; [eexists|]; vm_compute; reflexivity. Qed.

(** The library has a function that wipes a cipher context: nothing of key and masks is left in it. *)
Theorem C110_destroy : forall c rnd rnd' k k', gost_destroy (gost_key rnd c k) = gost_destroy (gost_key rnd' c k') /\
  key (gost_destroy c) = zeros 8 /\ mask (gost_destroy c) = zeros 8.
Proof. exact destroy_wipes. Qed.
Print Assumptions C110_destroy.
Example C110_destroy_ex : let c := gost_key (repeat 5 8) (CTX [] [] [] [] [] []) (repeat 7 32) in key c <> zeros 8 /\ mask c = repeat 5 8 /\ key (gost_destroy c) = zeros 8.
Proof. vm_compute. repeat split; discriminate || reflexivity. Qed.
