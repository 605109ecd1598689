(** The JKS format, and what reading a store should give. *)
From Verif Require Import Base Model_Utils Model_Utf16 Model_Jks Spec_Keylib.

(** ** Layout.  The timestamp is eight bytes. *)
Record cert_part := CERT { c_type : list N; c_der : list N }.
Inductive entry :=
| KeyEntry (alias stamp blob : list N) (chain : list cert_part)
| BareCert (c : cert_part). (* what jks.c takes a tag 2 entry to be *)
Definition enc_cert (c : cert_part) : list N :=
  be_bytes 2 (N.of_nat (length (c_type c))) ++ c_type c ++ be_bytes 4 (N.of_nat (length (c_der c))) ++ c_der c.
Definition enc_entry (x : entry) : list N :=
  match x with
  | KeyEntry alias stamp blob chain =>
      be_bytes 4 1 ++ be_bytes 2 (N.of_nat (length alias)) ++ alias ++ stamp ++ be_bytes 4 (N.of_nat (length blob)) ++ blob ++
      be_bytes 4 (N.of_nat (length chain)) ++ concat (map enc_cert chain)
  | BareCert c => be_bytes 4 2 ++ enc_cert c
  end.
(** The trusted certificate entry of the JKS format: alias and timestamp come first. *)
Definition enc_trusted (alias stamp : list N) (c : cert_part) : list N :=
  be_bytes 4 2 ++ be_bytes 2 (N.of_nat (length alias)) ++ alias ++ stamp ++ enc_cert c.
Definition cert_fits (c : cert_part) : Prop := N.of_nat (length (c_type c)) < 2 ^ 16 /\ N.of_nat (length (c_der c)) < 2 ^ 32.
Definition entry_fits (x : entry) : Prop :=
  match x with
  | KeyEntry alias stamp blob chain =>
      N.of_nat (length alias) < 2 ^ 16 /\ length stamp = 8%nat /\ N.of_nat (length blob) < 2 ^ 32 /\ N.of_nat (length chain) < 2 ^ 32 /\ Forall cert_fits chain
  | BareCert c => cert_fits c
  end.
Definition jks_magic : list N := [0xFE; 0xED; 0xFE; 0xED].
Definition jceks_magic : list N := [0xCE; 0xCE; 0xCE; 0xCE].
Definition is_magic (m : list N) : Prop := m = jks_magic \/ m = jceks_magic.
(** Everything before the final digest. *)
Definition enc_store (magic : list N) (l : list entry) : list N :=
  magic ++ [0; 0; 0; 2] ++ be_bytes 4 (N.of_nat (length l)) ++ concat (map enc_entry l).
Definition aphrodite : list N := [77;105;103;104;116;121;32;65;112;104;114;111;100;105;116;101].

(** ** Key protection: a stream of SHA-1 values *)
Fixpoint key_blocks (sha1 : list N -> list N) (pwd d : list N) (n : nat) : list (list N) :=
  match n with O => [] | S m => let d' := sha1 (pwd ++ d) in d' :: key_blocks sha1 pwd d' m end.
Definition crypt (sha1 : list N -> list N) (pwd salt text : list N) : list N :=
  xorl text (firstn (length text) (concat (key_blocks sha1 pwd salt (length text)))).
Definition protect (sha1 : list N -> list N) (pwd salt plain : list N) : list N :=
  salt ++ crypt sha1 pwd salt plain ++ sha1 (pwd ++ plain).

Section Jks.
Context {spec grp : Type} (e : jks_env spec grp).
(** Assumptions on what is outside: fresh addresses, SHA-1 values of twenty bytes, iconv
    makes characters of two or four bytes, and nothing from nothing. *)
Definition env_ok : Prop :=
  Model_KeyStore.malloc_ok (je_malloc e) /\ (forall x, length (je_sha1 e x) = 20%nat) /\
  (forall p, Forall char_ok (fst (je_utf e p))) /\ je_utf e [] = ([], true) /\
  (forall k x i, je_p8 e k x = Some i -> attrs_bytes (p8_attrs i)).
(** The password in UTF-16: valid and not empty. *)
Definition password16 (p p16 : list N) : Prop := exists cs, je_utf e p = (cs, true) /\ cs <> [] /\ p16 = concat cs.

(** The final digest. *)
Definition digest_of (pwd16 head : list N) : list N := je_sha1 e (pwd16 ++ aphrodite ++ head).

(** ** Which objects an entry gives: [k] counts the objects made before *)
Inductive chain_read : nat -> list cert_part -> list nat -> Prop :=
| chain_nil : forall k, chain_read k [] []
| chain_cons : forall k c t x xs, je_x509 e k (c_der c) = Some x -> chain_read (S k) t xs -> chain_read k (c :: t) (x :: xs).
(** The keys in a PKCS#8 structure. *)
Definition keys_of (i : p8info) (l : list nat) : Prop :=
  exists k1 second, p8_pkey i = Some k1 /\ l = k1 :: second /\
    ((exists k2, second = [k2] /\ second_key (je_attr e) (p8_attrs i) k2) \/ (second = [] /\ ~ exists k2, second_key (je_attr e) (p8_attrs i) k2)).
Inductive entry_read (keyPass : list N) : nat -> entry -> list nat -> list nat -> nat -> Prop :=
| read_key : forall k alias stamp blob chain pwd16 salt plain i ks cs, password16 keyPass pwd16 ->
    je_sig e blob = Some (sun_key_protector, protect (je_sha1 e) pwd16 salt plain) -> length salt = 20%nat ->
    je_p8 e k plain = Some i -> keys_of i ks -> chain_read (S k) chain cs ->
    entry_read keyPass k (KeyEntry alias stamp blob chain) ks cs (S k + length chain)
| read_unknown : forall k alias stamp blob chain pwd16 algo x cs, password16 keyPass pwd16 ->
    je_sig e blob = Some (algo, x) -> algo <> sun_key_protector -> algo <> sun_pbe -> chain_read k chain cs ->
    entry_read keyPass k (KeyEntry alias stamp blob chain) [] cs (k + length chain)
| read_bare : forall k c x, je_x509 e k (c_der c) = Some x -> entry_read keyPass k (BareCert c) [] [x] (S k).
Inductive entries_read (keyPass : list N) : nat -> list entry -> list nat -> list nat -> nat -> Prop :=
| entries_nil : forall k, entries_read keyPass k [] [] [] k
| entries_cons : forall k x l ks cs k1 ks' cs' k2, entry_read keyPass k x ks cs k1 -> entries_read keyPass k1 l ks' cs' k2 ->
    entries_read keyPass k (x :: l) (ks ++ ks') (cs ++ cs') k2.
(** An entry protected with the key protector algorithm. *)
Definition protected (x : entry) : Prop :=
  match x with KeyEntry _ _ blob _ => exists d, je_sig e blob = Some (sun_key_protector, d) | BareCert _ => False end.
End Jks.
