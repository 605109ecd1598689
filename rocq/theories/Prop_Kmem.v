(** Properties C105-C108: the memory of the container readers, when there is enough of it and
    when an allocation fails. *)
From Coq Require Import Lia Permutation.
From Verif Require Import Base Lib Spec_Gost89 Model_Gost89 Model_Params Model_Pkcs12 Model_KeyStore Model_Utils Model_Jks Model_Key6 Model_ReadBio Model_Kmem Spec_Keylib Spec_Pkcs12 Spec_Hash Spec_Params Spec_Md Spec_Key6 Spec_Jks Spec_Kmem.
From Verif Require Import Proof_Key6 Proof_Kmem4 Proof_Kmem5 Proof_Kmem6.
From Verif Require Prop_Keylib Prop_Pkcs12 Prop_Jks Prop_Key6.

Definition ex_enough : nat -> kheap -> option nat := kmalloc (fun _ => true).
Definition ex_mem : kheap := [(3%nat, KTemp); (5%nat, KPkey 40)].
Example ex_enough_ok : kallocator ex_enough /\ kenough ex_enough /\ kheap_ok ex_mem.
Proof. split; [apply kmalloc_ok|]. split; [intros n h; discriminate|]. repeat constructor; cbn; intuition discriminate. Qed.

(** ** C105: reading leaves a store or nothing *)
(** PKCS#12: whatever the container, with enough memory the read ends; a readable container
    leaves exactly one new store with its keys and certificates, any other leaves the memory
    as it was. *)
Theorem C105_pkcs12 : forall malloc p h n, kallocator malloc -> kenough malloc -> kheap_ok h ->
  match h_parsePKCS12 malloc p (h, n) with
  | KRet ((true, Some q), (h', _)) => exists safes, readable p safes /\ store_added q (objs Keys (items_of safes)) (objs Certs (items_of safes)) h h'
  | KRet ((false, _), (h', _)) => unchanged h h' /\ ~ exists safes, readable p safes
  | _ => False
  end.
Proof. exact pkcs12_enough. Qed.
Print Assumptions C105_pkcs12.
(** The same from a stream, whatever the chunks; the empty stream leaves nothing. *)
Theorem C105_pkcs12_stream : forall malloc (d : list N -> option pkcs12) evs data h n, kallocator malloc -> kenough malloc -> kheap_ok h -> delivers evs data ->
  match h_read_bio malloc (fun x => h_parsePKCS12 malloc (d x)) evs (h, n) with
  | KRet (Some (true, Some q), (h', _)) => exists safes, readable (d data) safes /\ store_added q (objs Keys (items_of safes)) (objs Certs (items_of safes)) h h'
  | KRet (Some (false, _), (h', _)) => unchanged h h' /\ ~ exists safes, readable (d data) safes
  | KRet (None, (h', _)) => unchanged h h' /\ data = []
  | _ => False
  end.
Proof. exact pkcs12_stream_enough. Qed.
Print Assumptions C105_pkcs12_stream.
(** A readable container with three keys and two certificates, and one whose second key cannot
    be decrypted: the first key, already in the store, is released. *)
Example C105_pkcs12_ex :
  match h_parsePKCS12 ex_enough (Some (P12 true (Some Prop_Pkcs12.ex_tree))) (ex_mem, 0%nat) with
  | KRet ((true, Some q), (h', _)) => klive h' q <> None /\ length h' = (2 + 8)%nat
  | _ => False
  end /\
  match h_parsePKCS12 ex_enough (Some (P12 true (Some [P7Data (Some [KeyBag (Some 7%nat); KeyBag None])]))) (ex_mem, 0%nat) with
  | KRet ((false, _), (h', _)) => h' = ex_mem
  | _ => False
  end /\
  delivers [RdData [1; 2] true; RdData [3] true; RdEnd] [1; 2; 3].
Proof.
  split; [vm_compute; split; [discriminate|reflexivity]|]. split; [vm_compute; reflexivity|].
  exists [[1; 2]; [3]], RdEnd, []. split; [reflexivity|]. split; [repeat constructor; discriminate|]. auto.
Qed.

(** Key-6: the same; what the decoder sees is determined by C64. *)
Theorem C105_key6 : forall spec grp (ae : attr_env spec grp) (p8 : list N -> option p8info), (forall x i, p8 x = Some i -> attrs_bytes (p8_attrs i)) ->
  forall malloc r mac data pad password h n, kallocator malloc -> kenough malloc -> kheap_ok h ->
  bytes password -> hashable (length password) -> mask_wf (k6_mask r) -> bytes (key6_cipher data pad) -> apart r (length (key6_cipher data pad)) ->
  let seen := key6_seen r data pad password in
  match h_parseKey6 malloc ae p8 r (Some (key6_store mac data pad)) password (h, n) with
  | KRet (Some q, (h', _)) => exists i l, p8 seen = Some i /\ keys_in ae i l /\ store_added q l [] h h'
  | KRet (None, (h', _)) => unchanged h h' /\ match p8 seen with None => True | Some i => p8_pkey i = None end
  | _ => False
  end.
Proof. exact (fun spec grp => @key6_enough spec grp). Qed.
Print Assumptions C105_key6.
Theorem C105_key6_stream : forall spec grp (ae : attr_env spec grp) (p8 : list N -> option p8info), (forall x i, p8 x = Some i -> attrs_bytes (p8_attrs i)) ->
  forall malloc (d : list N -> option iit_store) r mac data pad password evs input h n, kallocator malloc -> kenough malloc -> kheap_ok h ->
  delivers evs input -> d input = Some (key6_store mac data pad) ->
  bytes password -> hashable (length password) -> mask_wf (k6_mask r) -> bytes (key6_cipher data pad) -> apart r (length (key6_cipher data pad)) ->
  let seen := key6_seen r data pad password in
  match h_read_bio malloc (fun x => h_parseKey6 malloc ae p8 r (d x) password) evs (h, n) with
  | KRet (Some (Some q), (h', _)) => exists i l, p8 seen = Some i /\ keys_in ae i l /\ store_added q l [] h h'
  | KRet (Some None, (h', _)) => unchanged h h' /\ match p8 seen with None => True | Some i => p8_pkey i = None end
  | KRet (None, (h', _)) => unchanged h h' /\ input = []
  | _ => False
  end.
Proof. exact (fun spec grp => @key6_stream_enough spec grp). Qed.
Print Assumptions C105_key6_stream.
(** Anything that is not such a container leaves nothing. *)
Theorem C105_key6_refused : forall spec grp (ae : attr_env spec grp) (p8 : list N -> option p8info) malloc r s password h n, kallocator malloc -> kenough malloc -> kheap_ok h ->
  (forall st, s = Some st -> forall hd, is_header st = Some hd -> ih_type hd <> Some [1;3;6;1;4;1;19398;1;1;1;2] \/ is_data st = None \/ ih_params hd = None) ->
  match h_parseKey6 malloc ae p8 r s password (h, n) with KRet (None, (h', _)) => unchanged h h' | _ => False end.
Proof. exact (fun spec grp => @key6_refused_enough spec grp). Qed.
Print Assumptions C105_key6_refused.
(** A decoder that gives two keys: one in the structure, one in the attributes. *)
Definition ex_p8two (l : list N) : option p8info := if hd 0 l =? 0x30 then Some (P8 (Some 7%nat) Prop_Keylib.ex_attrs) else None.
Definition ex_cipher : list N := key6_encrypt (key6_key [0x31; 0x32]) Prop_Key6.ex_plain.
Lemma ex_cipher_ok : key6_decrypt (key6_key [0x31; 0x32]) ex_cipher = Prop_Key6.ex_plain /\ bytes ex_cipher /\ length ex_cipher = 16%nat.
Proof.
  destruct (enc_ok (key6_key [0x31; 0x32]) Prop_Key6.ex_plain 2) as [E [B L]]; [reflexivity|apply bytesb_ok; reflexivity|apply key6_key_bytesn|].
  split; [exact E|]. split; [exact B|exact L].
Qed.
Definition ex_head : list N := firstn 5 ex_cipher.
Definition ex_tail : list N := skipn 5 ex_cipher.
Example ex_key6_ok : bytes [0x31; 0x32] /\ hashable (length [0x31; 0x32]) /\ mask_wf (k6_mask Prop_Key6.ex_run) /\
  key6_cipher ex_head (Some ex_tail) = ex_cipher /\ bytes (key6_cipher ex_head (Some ex_tail)) /\ apart Prop_Key6.ex_run (length (key6_cipher ex_head (Some ex_tail))) /\ key6_cipher ex_head (Some ex_tail) <> [] /\
  (exists slack, key6_seen Prop_Key6.ex_run ex_head (Some ex_tail) [0x31; 0x32] = Prop_Key6.ex_plain ++ slack) /\
  (forall x i, ex_p8two x = Some i -> attrs_bytes (p8_attrs i)).
Proof.
  destruct ex_cipher_ok as [E [B L]]. assert (Ec : key6_cipher ex_head (Some ex_tail) = ex_cipher) by apply firstn_skipn.
  split; [apply bytesb_ok; reflexivity|]. split; [reflexivity|]. split.
  { split; [reflexivity|]. apply Forall_forall. intros x H. apply N.ltb_lt. revert x H. apply forallb_forall. reflexivity. }
  split; [exact Ec|]. rewrite Ec. split; [exact B|]. split; [rewrite L; right; vm_compute; discriminate|]. split; [intros H; rewrite H in L; discriminate|]. split.
  - unfold key6_seen. rewrite Ec, L. change (8 * (16 / 8))%nat with 16%nat. rewrite firstn_all2 by (rewrite L; reflexivity). rewrite E. eexists. reflexivity.
  - intros x i. unfold ex_p8two. destruct (hd 0 x =? 48); [|discriminate]. intros H. injection H as <-. exact (proj1 Prop_Keylib.C67_ex).
Qed.
Example C105_key6_ex : match h_parseKey6 ex_enough Prop_Keylib.ex_env ex_p8two Prop_Key6.ex_run (Some (key6_store [] ex_head (Some ex_tail))) [0x31; 0x32] (ex_mem, 0%nat) with
  | KRet (Some q, (h', _)) => store_added q [7%nat; 2003%nat] [] ex_mem h'
  | _ => False
  end.
Proof.
  destruct ex_key6_ok as [H1 [H2 [H3 [_ [H4 [H5 [_ [[slack Es] H6]]]]]]]], ex_enough_ok as [E1 [E2 E3]].
  pose proof (C105_key6 N N Prop_Keylib.ex_env ex_p8two H6 ex_enough Prop_Key6.ex_run [] ex_head (Some ex_tail) [0x31; 0x32] ex_mem 0 E1 E2 E3 H1 H2 H3 H4 H5) as T.
  cbv zeta in T. rewrite Es in T. change (ex_p8two (Prop_Key6.ex_plain ++ slack)) with (Some (P8 (Some 7%nat) Prop_Keylib.ex_attrs)) in T.
  destruct (h_parseKey6 _ _ _ _ _ _ (ex_mem, 0%nat)) as [| |[[q|] [h' n']]]; [exact T..| |].
  - destruct T as [i [l [[= <-] [[k1 [second [[= <-] [-> K]]]] S1]]]]. destruct K as [[k2 [-> K]]|[_ K]].
    + assert (E : k2 = 2003%nat); [|rewrite E in S1; exact S1]. cbn [p8_attrs] in K. apply (Proof_Keylib.pkeyFromAttributes_spec Prop_Keylib.ex_env) in K; [|exact (proj1 Prop_Keylib.C67_ex)].
      vm_compute in K. injection K as K. rewrite <- K. reflexivity.
    + destruct K. exists 2003%nat. exact (proj2 Prop_Keylib.C67_ex).
  - destruct T as [_ T]. discriminate.
Qed.

(** Java key stores: the round trip leaves exactly the store; whatever the data, success leaves
    exactly a store, and a failure leaves the memory as it was or one buffer more; the run
    is undefined only where C58 and C63 say that parsing is. *)
Theorem C105_jks_round_trip : forall spec grp (e : jks_env spec grp), env_ok e -> forall malloc magic l post storagePass store16 keyPass k keys certs k' h n,
  kallocator malloc -> kenough malloc -> kheap_ok h ->
  is_magic magic -> N.of_nat (length l) < 2 ^ 32 -> Forall entry_fits l -> password16 e storagePass store16 -> entries_read e keyPass k l keys certs k' ->
  exists q h' n', h_parseJKS malloc e (enc_store magic l ++ digest_of e store16 (enc_store magic l) ++ post) storagePass keyPass k (h, n) = KRet ((k', true, Some q), (h', n')) /\
    store_added q keys certs h h'.
Proof. exact (fun spec grp => @jks_good spec grp). Qed.
Print Assumptions C105_jks_round_trip.
Theorem C105_jks : forall spec grp (e : jks_env spec grp), env_ok e -> forall malloc data storagePass keyPass k h n, kallocator malloc -> kenough malloc -> kheap_ok h -> bytes data ->
  match h_parseJKS malloc e data storagePass keyPass k (h, n) with
  | KRet ((k', true, Some q), (h', _)) => exists magic l post store16 keys certs, data = enc_store magic l ++ digest_of e store16 (enc_store magic l) ++ post /\ is_magic magic /\
       password16 e storagePass store16 /\ entries_read e keyPass k l keys certs k' /\ store_added q keys certs h h'
  | KRet ((_, false, _), (h', _)) => unchanged h h' \/ one_buffer_left h h'
  | KUndef => parseJKS e data storagePass keyPass (heap0, k) None = None
  | _ => False
  end.
Proof. exact (fun spec grp => @jks_any spec grp). Qed.
Print Assumptions C105_jks.
Theorem C105_jks_stream : forall spec grp (e : jks_env spec grp), env_ok e -> forall malloc data storagePass keyPass k evs h n, kallocator malloc -> kenough malloc -> kheap_ok h -> bytes data -> delivers evs data ->
  match h_read_bio malloc (fun x => h_parseJKS malloc e x storagePass keyPass k) evs (h, n) with
  | KRet (Some (k', true, Some q), (h', _)) => exists magic l post store16 keys certs, data = enc_store magic l ++ digest_of e store16 (enc_store magic l) ++ post /\ is_magic magic /\
       password16 e storagePass store16 /\ entries_read e keyPass k l keys certs k' /\ store_added q keys certs h h'
  | KRet (Some (_, false, _), (h', _)) => unchanged h h' \/ one_buffer_left h h'
  | KRet (None, (h', _)) => unchanged h h' /\ data = []
  | KUndef => parseJKS e data storagePass keyPass (heap0, k) None = None
  | _ => False
  end.
Proof. exact (fun spec grp => @jks_stream spec grp). Qed.
Print Assumptions C105_jks_stream.
(** (Refuted) A Java key store with an entry that cannot be read (of unknown kind, with another
    password, or a broken certificate) is refused and one buffer stays allocated, whatever
    the entries before it. *)
Theorem C105_jks_leak_refuted : forall spec grp (e : jks_env spec grp), env_ok e -> forall malloc magic n l bad post storagePass store16 keyPass k keys certs k' h m,
  kallocator malloc -> kenough malloc -> kheap_ok h -> is_magic magic -> n < 2 ^ 32 -> N.of_nat (length l) < n -> Forall entry_fits l -> password16 e storagePass store16 ->
  entries_read e keyPass k l keys certs k' -> refused e keyPass k' bad ->
  exists x q h' m', h_parseJKS malloc e (magic ++ [0; 0; 0; 2] ++ be_bytes 4 n ++ concat (map enc_entry l) ++ bad ++ post) storagePass keyPass k (h, m) = KRet ((x, false, q), (h', m')) /\
    one_buffer_left h h'.
Proof. exact (fun spec grp => @jks_leaks spec grp). Qed.
Print Assumptions C105_jks_leak_refuted.
(** The store of C59_ex; and one with an entry of kind 3 after its entries. *)
Example C105_jks_ex :
  match h_parseJKS ex_enough Prop_Jks.ex_jks (enc_store jks_magic Prop_Jks.ex_entries ++ digest_of Prop_Jks.ex_jks Prop_Jks.ex_pass16 (enc_store jks_magic Prop_Jks.ex_entries)) Prop_Jks.ex_pass Prop_Jks.ex_pass 0 (ex_mem, 0%nat) with
  | KRet ((_, true, Some q), (h', _)) => length h' = (2 + 7)%nat
  | _ => False
  end /\
  refused Prop_Jks.ex_jks Prop_Jks.ex_pass 4 (be_bytes 4 3) /\
  match h_parseJKS ex_enough Prop_Jks.ex_jks (jks_magic ++ [0; 0; 0; 2] ++ be_bytes 4 3 ++ concat (map enc_entry Prop_Jks.ex_entries) ++ be_bytes 4 3) Prop_Jks.ex_pass Prop_Jks.ex_pass 0 (ex_mem, 0%nat) with
  | KRet ((_, false, _), (h', _)) => length h' = 3%nat
  | _ => False
  end.
Proof. split; [vm_compute; reflexivity|]. split; [apply refused_kind; [reflexivity|discriminate..]|vm_compute; reflexivity]. Qed.

(** Freeing the store gives back everything the read left. *)
Theorem C105_release : forall q keys certs h h' n, kheap_ok h' -> store_added q keys certs h h' ->
  match h_ks_free (Some q) (h', n) with KRet (_, (h'', _)) => unchanged h h'' | _ => False end.
Proof. exact release. Qed.
Print Assumptions C105_release.
Example C105_release_ex : match h_parsePKCS12 ex_enough (Some (P12 true (Some Prop_Pkcs12.ex_tree))) (ex_mem, 0%nat) with
  | KRet ((true, q), s) => match h_ks_free q s with KRet (_, (h'', _)) => h'' = ex_mem | _ => False end
  | _ => False
  end.
Proof. vm_compute. reflexivity. Qed.

(** ** C106: reading does not crash when memory runs out *)
(** (Refuted) Whatever the readable PKCS#12 container, if the allocation of the store fails the
    read writes through NULL. *)
Theorem C106_pkcs12_refuted : forall p safes h n, readable p safes -> exists k, (n <= k)%nat /\ h_parsePKCS12 (kfails_at k) p (h, n) = KUndef.
Proof. exact pkcs12_new_fails. Qed.
Print Assumptions C106_pkcs12_refuted.
(** (Refuted) So does the read of every Key-6 container with a nonempty ciphertext, if the third
    allocation fails. *)
Theorem C106_key6_refuted : forall spec grp (ae : attr_env spec grp) p8 r mac data pad password h n, key6_cipher data pad <> [] ->
  h_parseKey6 (kfails_at (n + 2)) ae p8 r (Some (key6_store mac data pad)) password (h, n) = KUndef.
Proof. exact (fun spec grp => @key6_source_fails spec grp). Qed.
Print Assumptions C106_key6_refuted.
(** (Refuted) So does the read of anything with the header of a Java key store, for every
    password that is not empty. *)
Theorem C106_jks_refuted : forall spec grp (e : jks_env spec grp) magic data num storagePass keyPass k c cs h n,
  slice data 0 4 = Some magic -> is_magic magic -> read32 data 8 = Some num -> slice data 4 4 = Some [0; 0; 0; 2] ->
  je_utf e storagePass = (c :: cs, true) -> (0 < length c <= length storagePass)%nat ->
  h_parseJKS (kfails_at (n + 2)) e data storagePass keyPass k (h, n) = KUndef.
Proof. exact (fun spec grp => @jks_buf_fails spec grp). Qed.
Print Assumptions C106_jks_refuted.
Example C106_ex : readable (Some (P12 true (Some Prop_Pkcs12.ex_tree))) Prop_Pkcs12.ex_tree /\ key6_cipher ex_head (Some ex_tail) <> [] /\
  h_parsePKCS12 (kfails_at 5) (Some (P12 true (Some Prop_Pkcs12.ex_tree))) (ex_mem, 0%nat) = KUndef /\
  h_parseJKS (kfails_at 2) Prop_Jks.ex_jks (enc_store jks_magic []) Prop_Jks.ex_pass Prop_Jks.ex_pass 0 (ex_mem, 0%nat) = KUndef.
Proof. split; [apply Prop_Pkcs12.C56_ex|]. split; [apply ex_key6_ok|]. split; vm_compute; reflexivity. Qed.
(** (Refuted) If the converter of a Java key store's password cannot be opened the read fails
    and leaves two buffers. *)
Theorem C106_jks_leak_refuted : forall spec grp (e : jks_env spec grp) magic data num storagePass keyPass k h n,
  slice data 0 4 = Some magic -> is_magic magic -> read32 data 8 = Some num -> slice data 4 4 = Some [0; 0; 0; 2] -> kheap_ok h -> storagePass <> [] ->
  exists h' n', h_parseJKS (kfails_at (n + 3)) e data storagePass keyPass k (h, n) = KRet ((k, false, None), (h', n')) /\ two_buffers_left h h'.
Proof. exact (fun spec grp => @jks_open_fails spec grp). Qed.
Print Assumptions C106_jks_leak_refuted.
Example C106_leak_ex : match h_parseJKS (kfails_at 3) Prop_Jks.ex_jks (enc_store jks_magic []) Prop_Jks.ex_pass Prop_Jks.ex_pass 0 (ex_mem, 0%nat) with
  | KRet ((_, false, None), (h', _)) => length h' = 4%nat | _ => False end.
Proof. vm_compute. reflexivity. Qed.
(** What holds of any allocator: a read that does end either failed, and left the memory as it
    was, or gave a store; and it fails only for want of memory or for the container. *)
Theorem C106_pkcs12_clean : forall malloc p h n, kallocator malloc -> kheap_ok h ->
  match h_parsePKCS12 malloc p (h, n) with
  | KRet ((true, Some q), (h', _)) => exists safes, readable p safes /\ store_added q (objs Keys (items_of safes)) (objs Certs (items_of safes)) h h'
  | KRet ((false, _), (h', _)) => unchanged h h' /\ (kenough malloc -> ~ exists safes, readable p safes)
  | KUndef => ~ kenough malloc
  | _ => False
  end.
Proof. exact pkcs12_any. Qed.
Print Assumptions C106_pkcs12_clean.
Theorem C106_pkcs12_stream_clean : forall malloc (d : list N -> option pkcs12) evs data h n, kallocator malloc -> kheap_ok h -> delivers evs data ->
  match h_read_bio malloc (fun x => h_parsePKCS12 malloc (d x)) evs (h, n) with
  | KRet (Some (true, Some q), (h', _)) => exists safes, readable (d data) safes /\ store_added q (objs Keys (items_of safes)) (objs Certs (items_of safes)) h h'
  | KRet (Some (false, _), (h', _)) => unchanged h h' /\ (kenough malloc -> ~ exists safes, readable (d data) safes)
  | KRet (None, (h', _)) => unchanged h h' /\ (kenough malloc -> data = [])
  | KUndef => ~ kenough malloc
  | _ => False
  end.
Proof. exact pkcs12_stream. Qed.
Print Assumptions C106_pkcs12_stream_clean.
(** Two allocations fail, at the decoder and at the first bags. *)
Example C106_clean_ex :
  match h_parsePKCS12 (kfails_at 0) (Some (P12 true (Some Prop_Pkcs12.ex_tree))) (ex_mem, 0%nat) with KRet ((false, _), (h', _)) => h' = ex_mem | _ => False end /\
  match h_parsePKCS12 (kfails_at 3) (Some (P12 true (Some Prop_Pkcs12.ex_tree))) (ex_mem, 0%nat) with KRet ((false, _), (h', _)) => h' = ex_mem | _ => False end.
Proof. vm_compute. split; reflexivity. Qed.

(** ** C107: what is reported read was read completely *)
(** (Refuted) For every Key-6 container with a second key in the attributes there is a failing
    allocation after which the read reports success and the store has only the first. *)
Theorem C107_key6_refuted : forall spec grp (ae : attr_env spec grp) (p8 : list N -> option p8info) r mac data pad password i k1 k2 h n,
  kheap_ok h -> key6_cipher data pad <> [] -> bytes password -> hashable (length password) -> mask_wf (k6_mask r) -> bytes (key6_cipher data pad) -> apart r (length (key6_cipher data pad)) ->
  p8 (key6_seen r data pad password) = Some i -> attrs_bytes (p8_attrs i) -> p8_pkey i = Some k1 -> second_key ae (p8_attrs i) k2 ->
  exists q h' n', h_parseKey6 (kfails_at (n + 8)) ae p8 r (Some (key6_store mac data pad)) password (h, n) = KRet (Some q, (h', n')) /\ store_added q [k1] [] h h'.
Proof. exact (fun spec grp => @key6_second_lost spec grp). Qed.
Print Assumptions C107_key6_refuted.
Example C107_ex : exists i, ex_p8two (key6_seen Prop_Key6.ex_run ex_head (Some ex_tail) [0x31; 0x32]) = Some i /\ attrs_bytes (p8_attrs i) /\ p8_pkey i = Some 7%nat /\ second_key Prop_Keylib.ex_env (p8_attrs i) 2003.
Proof. destruct ex_key6_ok as [_ [_ [_ [_ [_ [_ [_ [[slack ->] _]]]]]]]]. eexists. split; [reflexivity|]. split; [apply Prop_Keylib.C67_ex|]. split; [reflexivity|apply Prop_Keylib.C67_ex]. Qed.
(** Nothing but that second key can be missing, and nothing else can be there. *)
Theorem C107_key6_rest : forall spec grp (ae : attr_env spec grp) (p8 : list N -> option p8info), (forall x i, p8 x = Some i -> attrs_bytes (p8_attrs i)) ->
  forall malloc r mac data pad password h n, kallocator malloc -> kheap_ok h ->
  bytes password -> hashable (length password) -> mask_wf (k6_mask r) -> bytes (key6_cipher data pad) -> apart r (length (key6_cipher data pad)) ->
  let seen := key6_seen r data pad password in
  match h_parseKey6 malloc ae p8 r (Some (key6_store mac data pad)) password (h, n) with
  | KRet (Some q, (h', _)) => exists i l, p8 seen = Some i /\ store_added q l [] h h' /\ (keys_in ae i l \/ ~ kenough malloc /\ exists k1, p8_pkey i = Some k1 /\ l = [k1])
  | KRet (None, (h', _)) => unchanged h h' /\ (kenough malloc -> match p8 seen with None => True | Some i => p8_pkey i = None end)
  | KUndef => ~ kenough malloc
  | _ => False
  end.
Proof. exact (fun spec grp => @key6_any spec grp). Qed.
Print Assumptions C107_key6_rest.
(** A PKCS#12 store is complete: C106_pkcs12_clean. *)

(** ** C108: out of memory a password is not replaced by another *)
(** (Refuted) Of a store password of two or more characters of the basic plane, only the second
    half counts if a certain allocation fails: a store sealed with that half is accepted, one
    sealed with the whole password is refused (unless their digests collide). *)
Theorem C108_jks_refuted : forall spec grp (e : jks_env spec grp), env_ok e -> forall magic l digest post storagePass cs keyPass k keys certs k' h n,
  kheap_ok h -> is_magic magic -> N.of_nat (length l) < 2 ^ 32 -> Forall entry_fits l -> entries_read e keyPass k l keys certs k' ->
  je_utf e storagePass = (cs, true) -> Forall (fun c => length c = 2%nat) cs -> length cs = length storagePass -> (2 <= length cs)%nat -> length digest = 20%nat ->
  exists r q h' n', h_parseJKS (kfails_at (n + 4)) e (enc_store magic l ++ digest ++ post) storagePass keyPass k (h, n) = KRet ((k', r, Some q), (h', n')) /\
    if r : bool then digest = digest_of e (concat (skipn (length cs / 2) cs)) (enc_store magic l) /\ store_added q keys certs h h'
    else digest <> digest_of e (concat (skipn (length cs / 2) cs)) (enc_store magic l) /\ unchanged h h'.
Proof. exact (fun spec grp => @jks_half spec grp). Qed.
Print Assumptions C108_jks_refuted.
(** That half is not the password. *)
Theorem C108_half_differs : forall cs : list (list N), Forall (fun c => length c = 2%nat) cs -> (2 <= length cs)%nat -> concat (skipn (length cs / 2) cs) <> concat cs.
Proof. exact half_password_differs. Qed.
Print Assumptions C108_half_differs.
(** A store sealed with the password [w] is opened with [pw]; the one sealed with [pw] is not. *)
Example C108_ex : let data := enc_store jks_magic Prop_Jks.ex_entries in
  je_utf Prop_Jks.ex_jks Prop_Jks.ex_pass = ([[0; 0x70]; [0; 0x77]], true) /\
  match h_parseJKS (kfails_at 4) Prop_Jks.ex_jks (data ++ digest_of Prop_Jks.ex_jks [0; 0x77] data) Prop_Jks.ex_pass Prop_Jks.ex_pass 0 (ex_mem, 0%nat) with
  | KRet ((_, true, _), _) => True | _ => False end /\
  match h_parseJKS (kfails_at 4) Prop_Jks.ex_jks (data ++ digest_of Prop_Jks.ex_jks Prop_Jks.ex_pass16 data) Prop_Jks.ex_pass Prop_Jks.ex_pass 0 (ex_mem, 0%nat) with
  | KRet ((_, false, _), _) => True | _ => False end.
Proof. vm_compute. repeat split. Qed.
(** What does hold: a converted password consists of some of the characters, in order, and at
    least one. *)
Theorem C108_some_characters : forall malloc cs ok size s,
  match h_toUTF16BE malloc (cs, ok) size s with
  | KRet (Some (_, out), _) => exists l, some_of l cs /\ l <> [] /\ out = concat l
  | _ => True
  end.
Proof. exact utf16_some. Qed.
Print Assumptions C108_some_characters.
Example C108_some_ex : match h_toUTF16BE (kfails_at 4) ([[0; 1]; [0; 2]; [0; 3]; [0; 4]], true) 4 ([], 0%nat) with KRet (Some (_, out), _) => out = [0; 3; 0; 4] | _ => False end.
Proof. vm_compute. reflexivity. Qed.
