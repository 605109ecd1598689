(** Model of keylib/pkcs12.c. *)
From Verif Require Import Base Model_KeyStore.

(** A PKCS12_SAFEBAG with what OpenSSL makes of it under the given password: for a key bag
    the result of EVP_PKCS82PKEY, for a shrouded key bag the result of PKCS12_decrypt_skey and
    then EVP_PKCS82PKEY, for a certificate bag the result of PKCS12_SAFEBAG_get1_cert
    (None = NULL); numbers are the objects created. *)
Inductive bag :=
| KeyBag (pkey : option nat)
| ShroudedKeyBag (pkcs8 : option (option nat))
| CertBag (x509 : option nat)
| SafeContentsBag (bags : list bag)
| OtherBag.
(** A PKCS7: NULL, data or encrypted data with the bags OpenSSL unpacks (None = NULL), or
    another type.  Simplification: unpacking twice gives the same bags. *)
Inductive pkcs7 := P7Null | P7Data (bags : option (list bag)) | P7Enc (bags : option (list bag)) | P7Other.
(** A PKCS12 structure: the results of PKCS12_verify_mac and PKCS12_unpack_authsafes. *)
Record pkcs12 := P12 { p12_mac : bool; p12_safes : option (list pkcs7) }.

(** pkcs12.c:16-33 countKeysCertsInBag and 35-44 countKeysCertsInBags. *)
Fixpoint count_bag (b : bag) (kc : nat * nat) : bool * (nat * nat) :=
  match b with
  | KeyBag _ | ShroudedKeyBag _ => (true, (S (fst kc), snd kc))
  | CertBag _ => (true, (fst kc, S (snd kc)))
  | SafeContentsBag l =>
      (fix go (l : list bag) (kc : nat * nat) : bool * (nat * nat) :=
         match l with
         | [] => (true, kc)
         | b :: t => let '(r, kc') := count_bag b kc in if r then go t kc' else (false, kc')
         end) l kc
  | OtherBag => (true, kc)
  end.
(** pkcs12.c:35-44 countKeysCertsInBags *)
Fixpoint count_bags (l : list bag) (kc : nat * nat) : bool * (nat * nat) :=
  match l with
  | [] => (true, kc)
  | b :: t => let '(r, kc') := count_bag b kc in if r then count_bags t kc' else (false, kc')
  end.
(** pkcs12.c:46-78 countKeysCerts. *)
Fixpoint count_safes (l : list pkcs7) (kc : nat * nat) : bool * (nat * nat) :=
  match l with
  | [] => (true, kc)
  | P7Null :: t | P7Other :: t => count_safes t kc
  | P7Data None :: _ | P7Enc None :: _ => (false, kc)
  | P7Data (Some b) :: t | P7Enc (Some b) :: t =>
      let '(r, kc') := count_bags b kc in if r then count_safes t kc' else (false, kc')
  end.

(** Memory, key and certificate positions, and the int returned. *)
Definition bag_res := option (heap * (nat * nat) * bool).
(** pkcs12.c:94, 106: KeyStoreSetKey(ks, ( *keyPos)++, pkey); 113 for certificates. *)
Definition put_key (h : heap) (ks : nat) (kc : nat * nat) (n : nat) : bag_res :=
  match ks_set h Keys ks (fst kc) (Ptr n) with None => None | Some h' => Some (h', (S (fst kc), snd kc), true) end.
(** pkcs12.c:113 *)
Definition put_cert (h : heap) (ks : nat) (kc : nat * nat) (n : nat) : bag_res :=
  match ks_set h Certs ks (snd kc) (Ptr n) with None => None | Some h' => Some (h', (fst kc, S (snd kc)), true) end.

(** pkcs12.c:80-119 fromBag and 121-130 fromBags. *)
Fixpoint from_bag (b : bag) (h : heap) (ks : nat) (kc : nat * nat) : bag_res :=
  match b with
  | KeyBag None => Some (h, kc, false)
  | KeyBag (Some n) => put_key h ks kc n
  | ShroudedKeyBag None => Some (h, kc, false)
  | ShroudedKeyBag (Some None) => Some (h, kc, false)
  | ShroudedKeyBag (Some (Some n)) => put_key h ks kc n
  | CertBag None => Some (h, kc, false)
  | CertBag (Some n) => put_cert h ks kc n
  | SafeContentsBag l =>
      (fix go (l : list bag) (h : heap) (kc : nat * nat) : bag_res :=
         match l with
         | [] => Some (h, kc, true)
         | b :: t => match from_bag b h ks kc with
                     | None => None
                     | Some (h', kc', true) => go t h' kc'
                     | Some (h', kc', false) => Some (h', kc', false)
                     end
         end) l h kc
  | OtherBag => Some (h, kc, true)
  end.
(** pkcs12.c:121-130 fromBags *)
Fixpoint from_bags (l : list bag) (h : heap) (ks : nat) (kc : nat * nat) : bag_res :=
  match l with
  | [] => Some (h, kc, true)
  | b :: t => match from_bag b h ks kc with
              | None => None
              | Some (h', kc', true) => from_bags t h' ks kc'
              | Some (h', kc', false) => Some (h', kc', false)
              end
  end.
(** pkcs12.c:132-164 fromSafes. *)
Fixpoint from_safes (l : list pkcs7) (h : heap) (ks : nat) (kc : nat * nat) : bag_res :=
  match l with
  | [] => Some (h, kc, true)
  | P7Null :: t | P7Other :: t => from_safes t h ks kc
  | P7Data None :: _ | P7Enc None :: _ => Some (h, kc, false)
  | P7Data (Some b) :: t | P7Enc (Some b) :: t =>
      match from_bags b h ks kc with
      | None => None
      | Some (h', kc', true) => from_safes t h' ks kc'
      | Some (h', kc', false) => Some (h', kc', false)
      end
  end.

(** pkcs12.c:166-215 parsePKCS12, from the result of d2i_PKCS12: memory, return value, and
    the caller's pointer afterwards. *)
Definition parsePKCS12 (malloc : heap -> nat) (h : heap) (p : option pkcs12) (ks : ptr) : option (heap * bool * ptr) :=
  match p with
  | None => Some (h, false, ks)
  | Some p =>
      if negb (p12_mac p) then Some (h, false, ks)
      else match p12_safes p with
           | None => Some (h, false, ks)
           | Some safes =>
               let '(r, (numKeys, numCerts)) := count_safes safes (0, 0)%nat in
               if negb r || (Nat.eqb numKeys 0 && Nat.eqb numCerts 0) then Some (h, false, ks)
               else
                 let a := malloc h in
                 match from_safes safes (ks_new h a numKeys numCerts) a (0, 0)%nat with
                 | None => None
                 | Some (h1, _, false) => match ks_free h1 (Some a) with
                                          | None => None
                                          | Some h2 => Some (h2, false, Some a)
                                          end
                 | Some (h1, _, true) => Some (h1, true, Some a)
                 end
           end
  end.
