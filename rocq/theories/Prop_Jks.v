(** Properties of reading Java key stores. *)
From Verif Require Import Base Model_KeyStore Model_Utils Model_Utf16 Model_Jks Spec_Keylib Spec_Pkcs12 Spec_Jks Proof_Jks Prop_Pkcs12 Prop_Keylib.

(** A concrete environment for the examples: a toy digest, ASCII passwords, decoders that look
    at the first byte. *)
Definition ex_sha1 (x : list N) : list N := repeat (fold_left (fun a b => (a * 31 + b + 1) mod 256) x 7) 20.
Definition ex_jks : jks_env N N :=
  JENV ex_malloc ex_sha1 (fun p => (map (fun b => [0; b]) p, true))
    (fun k x => if hd 0 x =? 0x30 then Some (100 + k)%nat else None)
    (fun x => match x with 0x30 :: t => Some (sun_key_protector, t) | 0x31 :: t => Some ([1; 2; 3], t) | _ => None end)
    (fun k x => if hd 0 x =? 0x30 then Some (P8 (Some (10 + k)%nat) []) else None) ex_env.
Example ex_jks_ok : env_ok ex_jks.
Proof.
  split; [exact (proj1 C56_ex)|]. split; [intros x; apply repeat_length|].
  split; [intros p; induction p as [|b p IH]; cbn; constructor; [left; reflexivity|exact IH]|]. split; [reflexivity|].
  intros k x i. cbn. destruct (hd 0 x =? 48); [|discriminate]. intros [= <-] a s [].
Qed.
Definition ex_pass : list N := [0x70; 0x77].
Definition ex_pass16 : list N := [0; 0x70; 0; 0x77].
Example ex_pass_ok : password16 ex_jks ex_pass ex_pass16.
Proof. exists [[0; 0x70]; [0; 0x77]]. split; [reflexivity|]. split; [discriminate|reflexivity]. Qed.

(** C58: whatever is outside, a buffer of fewer than 12 bytes is read past its end; so is one
    that announces an entry and ends. *)
Theorem C58_short_refuted : forall spec grp (e : jks_env spec grp) data storagePass keyPass s ks, (length data < 12)%nat ->
  parseJKS e data storagePass keyPass s ks = None.
Proof. exact (fun spec grp => @jks_short spec grp). Qed.
Print Assumptions C58_short_refuted.
Theorem C58_truncated_refuted : forall spec grp (e : jks_env spec grp), env_ok e -> forall magic n post storagePass store16 keyPass s ks,
  is_magic magic -> 0 < n < 2 ^ 32 -> (length post < 4)%nat -> password16 e storagePass store16 ->
  parseJKS e (magic ++ [0; 0; 0; 2] ++ be_bytes 4 n ++ post) storagePass keyPass s ks = None.
Proof. exact (fun spec grp => @jks_truncated spec grp). Qed.
Print Assumptions C58_truncated_refuted.
Example C58_ex : parseJKS ex_jks (jks_magic ++ [0; 0; 0; 2] ++ be_bytes 4 1 ++ [0; 0]) ex_pass ex_pass (heap0, 0%nat) None = None /\
  parseJKS ex_jks [0xFE] ex_pass ex_pass (heap0, 0%nat) None = None.
Proof. vm_compute. split; reflexivity. Qed.

(** C59: parsing the serialisation of entries protected with the right password gives their
    keys and certificates, in order, in a new store; nothing else changes.  Bytes after the
    digest do not matter. *)
Theorem C59_round_trip : forall spec grp (e : jks_env spec grp), env_ok e -> forall magic l post storagePass store16 keyPass k keys certs k' h ks,
  is_magic magic -> N.of_nat (length l) < 2 ^ 32 -> Forall entry_fits l -> Forall (protected e) l -> password16 e storagePass store16 ->
  entries_read e keyPass k l keys certs k' ->
  exists h' a, parseJKS e (enc_store magic l ++ digest_of e store16 (enc_store magic l) ++ post) storagePass keyPass (h, k) ks = Some ((h', k'), true, Some a) /\
    shows h' a Keys keys /\ shows h' a Certs certs /\ hp_store h a = None /\ (forall j, j <> a -> hp_store h' j = hp_store h j) /\ hp_fk h' = hp_fk h /\ hp_fc h' = hp_fc h.
Proof. exact (fun spec grp e He magic l post sp s16 kp k ks cs k' h p Hm Hl Hf _ => jks_round_trip e He magic l post sp s16 kp k ks cs k' h p Hm Hl Hf). Qed.
Print Assumptions C59_round_trip.
Definition ex_key (n : N) (chain : list cert_part) : entry :=
  KeyEntry [0x61] [0;0;1;0x80;0;0;0;0] (0x30 :: protect ex_sha1 ex_pass16 (repeat n 20) (0x30 :: repeat n 30)) chain.
Definition ex_entries : list entry := [ex_key 1 [CERT [0x58] [0x30; 1]; CERT [] [0x30; 2; 3]]; ex_key 2 []].
Example C59_ex : Forall entry_fits ex_entries /\ Forall (protected ex_jks) ex_entries /\ entries_read ex_jks ex_pass 0 ex_entries [10; 13]%nat [101; 102]%nat 4 /\
  match parseJKS ex_jks (enc_store jks_magic ex_entries ++ digest_of ex_jks ex_pass16 (enc_store jks_magic ex_entries)) ex_pass ex_pass (heap0, 0%nat) None with
  | Some ((h, 4%nat), true, Some a) => ks_get h Keys a 0 = Some (Ptr 10) /\ ks_get h Keys a 1 = Some (Ptr 13) /\ ks_get h Certs a 1 = Some (Ptr 102) /\ ks_num h Certs a = Some 2%nat
  | _ => False
  end.
Proof.
  assert (F : forall n chain, N.of_nat (length chain) < 2 ^ 32 -> Forall cert_fits chain -> entry_fits (ex_key n chain)).
  { intros n chain H1 H2. split; [reflexivity|]. split; [reflexivity|]. split; [|split; assumption].
    rewrite <- (N.ltb_lt _ (2 ^ 32)). reflexivity. }
  split; [constructor; [apply F; [reflexivity|repeat (apply Forall_cons; [split; reflexivity|]); apply Forall_nil]|constructor; [apply F; [reflexivity|apply Forall_nil]|apply Forall_nil]]|].
  split; [repeat (apply Forall_cons; [eexists; reflexivity|]); apply Forall_nil|]. split; [|vm_compute; repeat split].
  assert (Hno : forall l, l = [] -> ~ exists k2, second_key ex_env l k2) by (intros l -> [k2 [ca [ka [s [g [d [H _]]]]]]]; discriminate).
  change [10; 13]%nat with ([10] ++ [13] ++ [])%nat. change [101; 102]%nat with ([101; 102] ++ [] ++ [])%nat.
  eapply entries_cons; [|eapply entries_cons; [|constructor]].
  - eapply (read_key ex_jks ex_pass 0 _ _ _ [CERT [0x58] [0x30; 1]; CERT [] [0x30; 2; 3]] ex_pass16 (repeat 1 20) (0x30 :: repeat 1 30) (P8 (Some 10%nat) [])); [exact ex_pass_ok|reflexivity|reflexivity|reflexivity| |].
    + exists 10%nat, []. split; [reflexivity|]. split; [reflexivity|]. right. split; [reflexivity|]. apply Hno. reflexivity.
    + repeat (econstructor; [reflexivity|]). constructor.
  - eapply (read_key ex_jks ex_pass 3 _ _ _ [] ex_pass16 (repeat 2 20) (0x30 :: repeat 2 30) (P8 (Some 13%nat) [])); [exact ex_pass_ok|reflexivity|reflexivity|reflexivity| |].
    + exists 13%nat, []. split; [reflexivity|]. split; [reflexivity|]. right. split; [reflexivity|]. apply Hno. reflexivity.
    + constructor.
Qed.

(** C60: success means that the data are a store with right magic and version, entries that
    could each be read, and the keyed digest of everything before; the key store shows
    exactly the objects of the entries. *)
Theorem C60_digest : forall spec grp (e : jks_env spec grp), env_ok e -> forall data storagePass keyPass h k ks h' k' ks', bytes data ->
  parseJKS e data storagePass keyPass (h, k) ks = Some ((h', k'), true, ks') ->
  exists magic l post store16 keys certs a, data = enc_store magic l ++ digest_of e store16 (enc_store magic l) ++ post /\
    is_magic magic /\ Forall entry_fits l /\ password16 e storagePass store16 /\ entries_read e keyPass k l keys certs k' /\
    ks' = Some a /\ shows h' a Keys keys /\ shows h' a Certs certs.
Proof. exact (fun spec grp => @jks_success spec grp). Qed.
Print Assumptions C60_digest.
(** C59_ex is a case of success; one changed byte of the digest is refused. *)
Example C60_ex : bytes (enc_store jks_magic ex_entries ++ digest_of ex_jks ex_pass16 (enc_store jks_magic ex_entries)) /\
  match parseJKS ex_jks (enc_store jks_magic ex_entries ++ repeat 0 20) ex_pass ex_pass (heap0, 0%nat) None with Some (_, false, _) => True | _ => False end.
Proof. split; [|vm_compute; exact I]. apply Forall_forall. intros x H. apply N.ltb_lt. revert x H. apply forallb_forall. vm_compute. reflexivity. Qed.

(** C61: a store whose first entry is a trusted certificate in the layout of the format is
    never read successfully, unless by chance the fifth byte of its timestamp is the tag of a
    sequence: alias length and timestamp are taken for type length and certificate. *)
Theorem C61_trusted_cert_refuted : forall spec grp (e : jks_env spec grp) magic n alias stamp c post storagePass keyPass s ks,
  (forall k x, hd 0 x <> 0x30 -> je_x509 e k x = None) -> is_magic magic -> 0 < n < 2 ^ 32 -> N.of_nat (length alias) < 2 ^ 16 -> length stamp = 8%nat -> nth 4 stamp 0 <> 0x30 ->
  match parseJKS e (magic ++ [0; 0; 0; 2] ++ be_bytes 4 n ++ enc_trusted alias stamp c ++ post) storagePass keyPass s ks with Some (_, true, _) => False | _ => True end.
Proof. exact (fun spec grp => @jks_trusted spec grp). Qed.
Print Assumptions C61_trusted_cert_refuted.
Example C61_ex : (forall k x, hd 0 x <> 0x30 -> je_x509 ex_jks k x = None) /\ je_x509 ex_jks 0 [0x30; 5] = Some 100%nat /\
  let data := jks_magic ++ [0; 0; 0; 2] ++ be_bytes 4 1 ++ enc_trusted [0x61] [0; 0; 0; 1; 0x80; 0; 0; 0] (CERT [0x58] [0x30; 5]) in
  match parseJKS ex_jks (data ++ digest_of ex_jks ex_pass16 data) ex_pass ex_pass (heap0, 0%nat) None with Some (_, false, _) => True | _ => False end.
Proof.
  split; [|split; [reflexivity|vm_compute; exact I]]. intros k x H. cbn. destruct (N.eqb_spec (hd 0 x) 48); [contradiction|reflexivity].
Qed.

(** C62: what was protected with the password is recovered and handed to the key decoder; data
    whose check digest differs are refused and change nothing. *)
Theorem C62_unprotect : forall spec grp (e : jks_env spec grp), env_ok e -> forall pwd16 salt plain, length salt = 20%nat ->
  kp_decrypt e (protect (je_sha1 e) pwd16 salt plain) pwd16 = Some (Some plain).
Proof. exact (fun spec grp e He pwd16 salt plain => kp_decrypt_protect e (proj1 (proj2 He)) salt plain pwd16). Qed.
Print Assumptions C62_unprotect.
Theorem C62_only_protected : forall spec grp (e : jks_env spec grp), env_ok e -> forall data pwd16 plain,
  kp_decrypt e data pwd16 = Some (Some plain) -> exists salt, length salt = 20%nat /\ data = protect (je_sha1 e) pwd16 salt plain.
Proof. exact (fun spec grp e He => kp_decrypt_inv e (proj1 (proj2 He))). Qed.
Print Assumptions C62_only_protected.
Theorem C62_refused : forall spec grp (e : jks_env spec grp), env_ok e -> forall pwd16 salt enc check k h a, length salt = 20%nat -> length check = 20%nat ->
  je_sha1 e (pwd16 ++ crypt (je_sha1 e) pwd16 salt enc) <> check -> from_key_protector e (salt ++ enc ++ check) pwd16 a (h, k) = Some ((h, k), false).
Proof. exact (fun spec grp => @fkp_refused spec grp). Qed.
Print Assumptions C62_refused.
Example C62_ex : kp_decrypt ex_jks (protect ex_sha1 ex_pass16 (repeat 9 20) [1;2;3;4;5;6;7;8;9;10;11;12;13;14;15;16;17;18;19;20;21]) ex_pass16 = Some (Some [1;2;3;4;5;6;7;8;9;10;11;12;13;14;15;16;17;18;19;20;21]) /\
  protect ex_sha1 ex_pass16 (repeat 9 20) [1;2] <> repeat 9 20 ++ [1; 2] ++ ex_sha1 (ex_pass16 ++ [1;2]) /\
  kp_decrypt ex_jks (repeat 9 20 ++ [1; 2] ++ repeat 0 20) ex_pass16 = Some None.
Proof. vm_compute. split; [reflexivity|split; [discriminate|reflexivity]]. Qed.

(** C63: a blob shorter than 40 bytes, or a correctly protected one that holds no key, is
    undefined behaviour (a write through NULL; KeyStoreFree(NULL)). *)
Theorem C63_short_blob_refuted : forall spec grp (e : jks_env spec grp) data pwd16 s a, (length data < 40)%nat -> from_key_protector e data pwd16 a s = None.
Proof. exact (fun spec grp => @fkp_short spec grp). Qed.
Print Assumptions C63_short_blob_refuted.
Theorem C63_no_key_refuted : forall spec grp (e : jks_env spec grp), env_ok e -> forall data pwd16 salt plain k h a,
  data = protect (je_sha1 e) pwd16 salt plain -> length salt = 20%nat ->
  match je_p8 e k plain with None => True | Some i => p8_pkey i = None end -> from_key_protector e data pwd16 a (h, k) = None.
Proof. exact (fun spec grp => @fkp_garbage spec grp). Qed.
Print Assumptions C63_no_key_refuted.
Example C63_ex : je_p8 ex_jks 0 [1; 2] = None /\
  let blob := 0x30 :: protect ex_sha1 ex_pass16 (repeat 9 20) [1; 2] in
  let data := enc_store jks_magic [KeyEntry [] (repeat 0 8) blob []] in
  parseJKS ex_jks (data ++ digest_of ex_jks ex_pass16 data) ex_pass ex_pass (heap0, 0%nat) None = None.
Proof. vm_compute. split; reflexivity. Qed.

(** C57 for Java key stores: a wrong digest leaves the caller's pointer at the freed store. *)
Theorem C57_jks_dangling_refuted : forall spec grp (e : jks_env spec grp), env_ok e -> forall magic d storagePass store16 keyPass h k ks,
  is_magic magic -> password16 e storagePass store16 -> (20 <= length d)%nat -> firstn 20 d <> digest_of e store16 (enc_store magic []) ->
  exists h' a, parseJKS e (enc_store magic [] ++ d) storagePass keyPass (h, k) ks = Some ((h', k), false, Some a) /\ hp_store h' a = None /\ ks_free h' (Some a) = None.
Proof. exact (fun spec grp => @jks_dangling spec grp). Qed.
Print Assumptions C57_jks_dangling_refuted.
(** So does an entry of unknown kind. *)
Theorem C57_jks_kind_dangling_refuted : forall spec grp (e : jks_env spec grp), env_ok e -> forall magic n tag post storagePass store16 keyPass h k ks,
  is_magic magic -> password16 e storagePass store16 -> 0 < n < 2 ^ 32 -> tag < 2 ^ 32 -> tag <> 1 -> tag <> 2 ->
  exists h' a, parseJKS e (magic ++ [0; 0; 0; 2] ++ be_bytes 4 n ++ be_bytes 4 tag ++ post) storagePass keyPass (h, k) ks = Some ((h', k), false, Some a) /\ hp_store h' a = None /\ ks_free h' (Some a) = None.
Proof. exact (fun spec grp => @jks_kind_dangling spec grp). Qed.
Print Assumptions C57_jks_kind_dangling_refuted.
Example C57_jks_ex : firstn 20 (repeat 0 20) <> digest_of ex_jks ex_pass16 (enc_store jks_magic []).
Proof. vm_compute. discriminate. Qed.

(** C76: a key entry whose algorithm is not known is skipped silently: the read succeeds and
    the key is missing. *)
Theorem C76_unknown_algorithm_refuted : forall spec grp (e : jks_env spec grp), env_ok e -> forall magic alias stamp blob algo x storagePass store16 keyPass key16 k h ks,
  is_magic magic -> entry_fits (KeyEntry alias stamp blob []) -> password16 e storagePass store16 -> password16 e keyPass key16 ->
  je_sig e blob = Some (algo, x) -> algo <> sun_key_protector -> algo <> sun_pbe ->
  let data := enc_store magic [KeyEntry alias stamp blob []] in
  exists h' a, parseJKS e (data ++ digest_of e store16 data) storagePass keyPass (h, k) ks = Some ((h', k), true, Some a) /\ shows h' a Keys [].
Proof. exact (fun spec grp => @jks_unknown spec grp). Qed.
Print Assumptions C76_unknown_algorithm_refuted.
Example C76_ex : entry_fits (KeyEntry [] (repeat 0 8) [0x31; 7] []) /\ je_sig ex_jks [0x31; 7] = Some ([1; 2; 3], [7]).
Proof. split; [|reflexivity]. split; [reflexivity|]. split; [reflexivity|]. split; [reflexivity|]. split; [reflexivity|constructor]. Qed.
