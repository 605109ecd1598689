(** Property C136: reading containers from open files (keylib/pkcs12.c, jks.c, key6.c). *)
From Coq Require Import List Lia Permutation.
Import ListNotations.
From Verif Require Import Base Lib Spec_Md Model_Gost89 Spec_Gost89 Spec_Params Spec_Hash Model_KeyStore Model_Utils Model_Jks Model_Key6 Model_Pkcs12 Model_ReadBio Model_Kmem Model_File Spec_Keylib Spec_Key6 Spec_Pkcs12 Spec_Jks Spec_Kmem Spec_File Proof_File.
From Verif Require Prop_Kmem Prop_Pkcs12 Prop_Jks Prop_Key6 Prop_Keylib.
Open Scope N_scope.

(** C136: a PKCS#12 container in an open file, from the position on.  Whatever memory there is,
    the file stays open and is not read beyond its end; what is parsed is all that can be read;
    a container that is not read leaves the memory as it was. *)
Theorem C136_pkcs12 : forall malloc, kallocator malloc -> forall (d : list N -> option pkcs12) f h n, kheap_ok h ->
  match h_read_file malloc (fun x => h_parsePKCS12 malloc (d x)) f (h, n) with
  | KRet (Some (true, Some q), f', (h', _)) => read_through f f' /\ exists safes, readable (d (f_left f)) safes /\ store_added q (objs Keys (items_of safes)) (objs Certs (items_of safes)) h h'
  | KRet (Some (false, _), f', (h', _)) => read_through f f' /\ unchanged h h' /\ (kenough malloc -> ~ exists safes, readable (d (f_left f)) safes)
  | KRet (None, f', (h', _)) => read_some f f' /\ unchanged h h' /\ (kenough malloc -> f_left f = [])
  | KUndef => ~ kenough malloc
  | _ => False
  end.
Proof. exact pkcs12_file. Qed.
Print Assumptions C136_pkcs12.
(** Key-6. *)
Theorem C136_key6 : forall malloc, kallocator malloc -> forall spec grp (ae : attr_env spec grp) (p8 : list N -> option p8info), (forall x i, p8 x = Some i -> attrs_bytes (p8_attrs i)) ->
  forall (d : list N -> option iit_store) r mac data pad password f h n, kheap_ok h -> d (f_left f) = Some (key6_store mac data pad) ->
  bytes password -> hashable (length password) -> mask_wf (k6_mask r) -> bytes (key6_cipher data pad) -> apart r (length (key6_cipher data pad)) ->
  let seen := key6_seen r data pad password in
  match h_read_file malloc (fun x => h_parseKey6 malloc ae p8 r (d x) password) f (h, n) with
  | KRet (Some (Some q), f', (h', _)) => read_through f f' /\ exists i l, p8 seen = Some i /\ store_added q l [] h h' /\ (keys_in ae i l \/ ~ kenough malloc /\ exists k1, p8_pkey i = Some k1 /\ l = [k1])
  | KRet (Some None, f', (h', _)) => read_through f f' /\ unchanged h h' /\ (kenough malloc -> match p8 seen with None => True | Some i => p8_pkey i = None end)
  | KRet (None, f', (h', _)) => read_some f f' /\ unchanged h h' /\ (kenough malloc -> f_left f = [])
  | KUndef => ~ kenough malloc
  | _ => False
  end.
Proof. exact (fun malloc HA spec grp => @key6_file malloc HA spec grp). Qed.
Print Assumptions C136_key6.
(** Java key stores, with enough memory. *)
Theorem C136_jks : forall malloc, kallocator malloc -> forall spec grp (e : jks_env spec grp), env_ok e -> forall sp kp k f h n, kenough malloc -> kheap_ok h -> bytes (f_left f) ->
  match h_read_file malloc (fun x => h_parseJKS malloc e x sp kp k) f (h, n) with
  | KRet (Some (k', true, Some q), f', (h', _)) => read_through f f' /\ exists magic l post store16 keys certs, f_left f = enc_store magic l ++ digest_of e store16 (enc_store magic l) ++ post /\ is_magic magic /\
       password16 e sp store16 /\ entries_read e kp k l keys certs k' /\ store_added q keys certs h h'
  | KRet (Some (_, false, _), f', (h', _)) => read_through f f' /\ (unchanged h h' \/ one_buffer_left h h')
  | KRet (None, f', (h', _)) => read_through f f' /\ unchanged h h' /\ f_left f = []
  | KUndef => parseJKS e (f_left f) sp kp (heap0, k) None = None
  | _ => False
  end.
Proof. exact (fun malloc HA spec grp => @jks_file malloc HA spec grp). Qed.
Print Assumptions C136_jks.

(** 2500 bytes after a header of 3: three reads, the file at its end and open; a file that cannot
    be read beyond byte 1030 gives the 1027 bytes before; nothing left to read; no memory for the
    second chunk: the file stays where it is. *)
Definition ex_bytes : list N := repeat 7 2503.
Definition ex_parse (x : list N) : KM (nat * N) := kret (length x, hd 0 x).
Definition ex_after {A : Type} (r : kres (A * file * (kheap * nat))) : option (A * nat * bool * nat) :=
  match r with KRet (a, f, (h, _)) => Some (a, f_pos f, f_open f, length h) | _ => None end.
Example C136_ex :
  ex_after (h_read_file Prop_Kmem.ex_enough ex_parse (FILE ex_bytes 3 None true) (Prop_Kmem.ex_mem, 0%nat)) = Some (Some (2500%nat, 7), 2503%nat, true, 2%nat) /\
  ex_after (h_read_file Prop_Kmem.ex_enough ex_parse (FILE ex_bytes 3 (Some 1030%nat) true) (Prop_Kmem.ex_mem, 0%nat)) = Some (Some (1027%nat, 7), 1030%nat, true, 2%nat) /\
  ex_after (h_read_file Prop_Kmem.ex_enough ex_parse (FILE ex_bytes 2503 None true) (Prop_Kmem.ex_mem, 0%nat)) = Some (None, 2503%nat, true, 2%nat) /\
  ex_after (h_read_file (kfails_at 4) ex_parse (FILE ex_bytes 3 None true) (Prop_Kmem.ex_mem, 0%nat)) = Some (None, 2051%nat, true, 2%nat) /\
  ex_after (h_read_file (kfails_at 0) ex_parse (FILE ex_bytes 3 None true) (Prop_Kmem.ex_mem, 0%nat)) = Some (None, 3%nat, true, 2%nat).
Proof. vm_compute. repeat split. Qed.
(** The container of C105 in a file. *)
Example C136_ex_pkcs12 :
  match h_read_file Prop_Kmem.ex_enough (fun _ => h_parsePKCS12 Prop_Kmem.ex_enough (Some (P12 true (Some Prop_Pkcs12.ex_tree)))) (FILE ex_bytes 0 None true) (Prop_Kmem.ex_mem, 0%nat) with
  | KRet (Some (true, Some q), f', (h', _)) => klive h' q <> None /\ length h' = (2 + 8)%nat /\ f_pos f' = 2503%nat | _ => False end.
Proof. vm_compute. repeat split. discriminate. Qed.
