(** Model of keylib/ with every allocation and release: key stores, PKCS#8 data, the three
    containers and the stream readers.  An allocation may fail.  The values are those of
    Model_Utf16, Model_Utils, Model_Jks, Model_Key6, Model_Pkcs12 and Model_ReadBio. *)
From Coq Require Import ZArith.
From Verif Require Import Base Model_Utf16 Model_Utils Model_Jks Model_Key6 Model_Pkcs12 Model_ReadBio.

(** A slot or a pointer field: not yet written, or a pointer (None = NULL). *)
Inductive kcell := Unset | At (p : option nat).
(** Allocated objects: buffers, digest contexts, ASN1_OBJECT, iconv descriptors and decoded
    structures; a memory BIO with its buffer; EVP_PKEY and X509 (with the number of what was
    decoded); arrays of pointers; struct KeyStore_st (keystore.c:8-14). *)
Inductive kobj := KTemp | KBio (buf : nat) | KPkey (v : nat) | KCert (v : nat) | KArr (l : list kcell)
                | KStore (keyNum : nat) (keys : kcell) (certNum : nat) (certs : kcell).
(** Address and contents; an address is live if it is listed. *)
Definition kheap := list (nat * kobj).
(** Contents of a live address. *)
Fixpoint klive (h : kheap) (p : nat) : option kobj :=
  match h with [] => None | (q, o) :: t => if Nat.eqb p q then Some o else klive t p end.
(** Memory given back. *)
Fixpoint krelease (h : kheap) (p : nat) : kheap :=
  match h with [] => [] | (q, o) :: t => if Nat.eqb p q then t else (q, o) :: krelease t p end.
(** A write to a live address. *)
Fixpoint kstore (h : kheap) (p : nat) (o : kobj) : kheap :=
  match h with [] => [] | (q, x) :: t => if Nat.eqb p q then (q, o) :: t else (q, x) :: kstore t p o end.
(** The heap and the number of allocations so far. *)
Definition kmem := (kheap * nat)%type.
(** Undefined behaviour, still running, or returned. *)
Inductive kres (A : Type) := KUndef | KLoop | KRet (a : A).
Arguments KUndef {A}. Arguments KLoop {A}. Arguments KRet {A} a.
(** A call of the code, run on memory. *)
Definition KM (A : Type) := kmem -> kres (A * kmem).
(** Return. *)
Definition kret {A} (a : A) : KM A := fun m => KRet (a, m).
(** Undefined behaviour. *)
Definition kundef {A} : KM A := fun _ => KUndef.
(** One call after another. *)
Definition kbind {A B} (x : KM A) (f : A -> KM B) : KM B :=
  fun m => match x m with KUndef => KUndef | KLoop => KLoop | KRet (a, m') => f a m' end.
Declare Scope kmem_scope.
Delimit Scope kmem_scope with kmem.
Notation "x <- m ;; k" := (kbind m (fun x => k)) (at level 61, m at next level, right associativity) : kmem_scope.
Notation "' pat <- m ;; k" := (kbind m (fun x => match x with pat => k end)) (at level 61, pat pattern, m at next level, right associativity) : kmem_scope.
Notation "m ;;; k" := (kbind m (fun _ => k)) (at level 61, right associativity) : kmem_scope.
Open Scope kmem_scope.

(** A read through a pointer. *)
Definition kget (p : nat) : KM kobj := fun '(h, n) => match klive h p with Some o => KRet (o, (h, n)) | None => KUndef end.
(** A write through a pointer. *)
Definition kput (p : nat) (o : kobj) : KM unit := fun '(h, n) => match klive h p with Some _ => KRet (tt, (kstore h p o, n)) | None => KUndef end.
(** OPENSSL_free and the like, not NULL. *)
Definition kfree (p : nat) : KM unit := fun '(h, n) => match klive h p with Some _ => KRet (tt, (krelease h p, n)) | None => KUndef end.
(** OPENSSL_free and the like; NULL is allowed. *)
Definition kfree_opt (p : option nat) : KM unit := match p with Some p => kfree p | None => kret tt end.
(** A pointer that is used without a test. *)
Definition kderef (p : option nat) : KM nat := match p with Some p => kret p | None => kundef end.
(** A pointer read from memory that may not have been written. *)
Definition kcell_ptr (c : kcell) : KM (option nat) := match c with Unset => kundef | At p => kret p end.
(** An array of pointers (keystore.c:11, 13). *)
Definition karr (p : nat) : KM (list kcell) := o <- kget p ;; match o with KArr l => kret l | _ => kundef end.
(** The fields of a KeyStore (keystore.c:8-14). *)
Definition kstore_of (p : nat) : KM (nat * kcell * (nat * kcell)) := o <- kget p ;; match o with KStore n k m c => kret (n, k, (m, c)) | _ => kundef end.

Section Kmem.
(** The allocator: the address given by the n-th allocation, None if it fails. *)
Variable malloc : nat -> kheap -> option nat.
Definition knew (o : kobj) : KM (option nat) :=
  fun '(h, n) => match malloc n h with None => KRet (None, (h, S n)) | Some p => KRet (Some p, ((p, o) :: h, S n)) end.
(** An allocation inside an OpenSSL object. *)
Definition ktry : KM bool := fun '(h, n) => KRet (match malloc n h with None => false | Some _ => true end, (h, S n)).
(** A call of OpenSSL that makes an object if there is something to make it of. *)
Definition kmake (o : option kobj) : KM (option nat) := match o with None => kret None | Some o => knew o end.
(** OPENSSL_malloc(size); of 0 bytes it is NULL. *)
Definition kbuffer (size : nat) : KM (option nat) := match size with O => kret None | S _ => knew KTemp end.

(** BIO_new(BIO_s_mem()): the BIO and its buffer.  BIO_free(NULL) does nothing. *)
Definition bio_new : KM (option nat) :=
  buf <- knew KTemp ;;
  match buf with
  | None => kret None
  | Some buf => bio <- knew (KBio buf) ;; match bio with None => kfree buf ;;; kret None | Some bio => kret (Some bio) end
  end.
(** BIO_free of a memory BIO (jks.c:80, 99, 110, 115 and the readers). *)
Definition bio_free (bio : option nat) : KM unit :=
  match bio with
  | None => kret tt
  | Some bio => o <- kget bio ;; match o with KBio buf => kfree buf ;;; kfree bio | _ => kundef end
  end.

(** * keylib/jks.c:50-117 toUTF16BE *)
(** jks.c:67-85: the conversion loop.  [acc] is the content of the BIO.  BIO_write to NULL fails, to a
    BIO it fails if there is no memory; its result is not looked at.  iconv writes through [buf].
    If OPENSSL_realloc fails the old block stays.  Result: the buffer, and None for return 0. *)
Fixpoint h_conv_loop (fuel : nat) (cs : list (list N)) (ok : bool) (bufSize : nat) (buf res : option nat) (acc : list N) : KM (option nat * option (list N)) :=
  match fuel with
  | O => fun _ => KLoop
  | S f =>
      match cs, ok with
      | [], true => kret (buf, Some acc) (* ss == 0 *)
      | _, _ =>
          let '(o, r, s) := iconv_call cs ok bufSize in
          acc <- match o with
                 | [] => kret acc
                 | _ => kderef buf ;;; match res with None => kret acc | Some _ => w <- ktry ;; kret (if w : bool then acc ++ o else acc) end
                 end ;;
          match s with
          | IcDone => kret (buf, Some acc)
          | IcBad => kret (buf, None)
          | IcE2BIG =>
              buf' <- knew KTemp ;;
              match buf' with
              | None => h_conv_loop f r ok (2 * bufSize) None res acc
              | Some _ => kfree_opt buf ;;; h_conv_loop f r ok (2 * bufSize) buf' res acc
              end
          end
      end
  end.
(** jks.c:50-117: the address and the contents of *dest, None for return 0.  iconv_open needs
    memory; if it fails OPENSSL_free is applied to the BIO.  jks.c:86-104 flushes the converter:
    utf-16be has no state, nothing is written.  The memory for *dest is used without a test. *)
Definition h_toUTF16BE (u : utf) (size : nat) : KM (option (nat * list N)) :=
  res <- bio_new ;;
  buf <- kbuffer (2 * size) ;;
  cd <- knew KTemp ;;
  match cd with
  | None => kfree_opt res ;;; kret None
  | Some cd =>
      '(buf, acc) <- h_conv_loop (length (fst u) + 3) (fst u) (snd u) size buf res [] ;;
      match acc with
      | None => kfree cd ;;; kfree_opt buf ;;; bio_free res ;;; kret None
      | Some acc =>
          kfree_opt buf ;;; kfree cd ;;;
          match acc with
          | [] => bio_free res ;;; kret None
          | _ => dest <- knew KTemp ;; d <- kderef dest ;; bio_free res ;;; kret (Some (d, acc))
          end
      end
  end.
(** jks.c:119-129 twoHash, 131-142 whiteHash: whether the digest was computed.  The result of
    EVP_MD_CTX_new is not tested; EVP_DigestInit_ex needs memory. *)
Definition h_hash : KM bool := ctx0 <- knew KTemp ;; ctx <- kderef ctx0 ;; ok <- ktry ;; kfree ctx ;;; kret ok.

(** * keylib/keystore.c *)
(** keystore.c:20-31 / 32-43: one of the two arrays; its memory is used without a test. *)
Definition h_half (n : nat) : KM kcell :=
  match n with
  | O => kret (At None)
  | S _ => a <- knew (KArr (repeat Unset n)) ;; p <- kderef a ;; kput p (KArr (repeat (At None) n)) ;;; kret (At (Some p))
  end.
(** keystore.c:16-45 KeyStoreNew *)
Definition h_ks_new (keyNum certNum : nat) : KM nat :=
  res0 <- knew (KStore 0 Unset 0 Unset) ;; res <- kderef res0 ;;
  keys <- h_half keyNum ;; certs <- h_half certNum ;;
  kput res (KStore keyNum keys certNum certs) ;;; kret res.
(** keystore.c:100-103 KeyStoreSetKey, 105-108 KeyStoreSetCert: no check of pos. *)
Fixpoint set_cell (l : list kcell) (i : nat) (v : kcell) : option (list kcell) :=
  match l, i with
  | [], _ => None
  | _ :: t, O => Some (v :: t)
  | x :: t, S k => match set_cell t k v with Some t => Some (x :: t) | None => None end
  end.
(** keystore.c:102, 107: the write. *)
Definition h_set_cell (c : kcell) (pos p : nat) : KM unit :=
  a0 <- kcell_ptr c ;; a <- kderef a0 ;; l <- karr a ;;
  match set_cell l pos (At (Some p)) with None => kundef | Some l => kput a (KArr l) end.
(** keystore.c:100-103 KeyStoreSetKey *)
Definition h_set_key (ks pos p : nat) : KM unit := '((_, keys), _) <- kstore_of ks ;; h_set_cell keys pos p.
(** keystore.c:105-108 KeyStoreSetCert *)
Definition h_set_cert (ks pos p : nat) : KM unit := '(_, (_, certs)) <- kstore_of ks ;; h_set_cell certs pos p.
(** keystore.c:50-59 (keys) and 60-69 (certs) for two different stores: the array of the first
    afterwards.  If OPENSSL_clear_realloc fails NULL is written through. *)
Definition h_append_half (to : kcell) (n : nat) (from : kcell) : KM kcell :=
  match n with
  | O => kret to
  | S _ =>
      old0 <- kcell_ptr to ;; old <- match old0 with None => kret [] | Some a => karr a end ;;
      a0 <- knew (KArr (old ++ repeat Unset n)) ;; a <- kderef a0 ;; kfree_opt old0 ;;;
      from0 <- kcell_ptr from ;; f <- kderef from0 ;; l <- karr f ;;
      if Nat.ltb (length l) n then kundef
      else kput a (KArr (old ++ firstn n l)) ;;; kput f (KArr (repeat (At None) n ++ skipn n l)) ;;; kret (At (Some a))
  end.
(** keystore.c:47-70 KeyStoreAppend *)
Definition h_append (to from : nat) : KM unit :=
  '((fn, fk), (fm, fc)) <- kstore_of from ;; '((tn, tk), (tm, tc)) <- kstore_of to ;;
  tk <- h_append_half tk fn fk ;; tc <- h_append_half tc fm fc ;;
  kput to (KStore (tn + fn) tk (tm + fm) tc).
(** keystore.c:77-78, 83-84: EVP_PKEY_free and X509_free of the slots; the object has the right kind. *)
Definition is_pkey (o : kobj) : bool := match o with KPkey _ => true | _ => false end.
(** keystore.c:84: X509_free gets an X509. *)
Definition is_cert (o : kobj) : bool := match o with KCert _ => true | _ => false end.
(** keystore.c:77-78, 83-84: the loops. *)
Fixpoint h_free_cells (kind : kobj -> bool) (l : list kcell) : KM unit :=
  match l with
  | [] => kret tt
  | c :: t =>
      p <- kcell_ptr c ;;
      match p with None => kret tt | Some p => o <- kget p ;; if kind o then kfree p else kundef end ;;;
      h_free_cells kind t
  end.
(** keystore.c:75-80, 81-86 *)
Definition h_free_half (kind : kobj -> bool) (n : nat) (c : kcell) : KM unit :=
  a <- kcell_ptr c ;;
  match a with
  | None => kret tt
  | Some a => l <- karr a ;; if Nat.ltb (length l) n then kundef else h_free_cells kind (firstn n l) ;;; kfree a
  end.
(** keystore.c:72-88 KeyStoreFree *)
Definition h_ks_free (ks : option nat) : KM unit :=
  ks <- kderef ks ;; '((n, k), (m, c)) <- kstore_of ks ;;
  h_free_half is_pkey n k ;;; h_free_half is_cert m c ;;; kfree ks.

(** * keylib/utils.c *)
(** utils.c:241-253: OBJ_cmp dereferences both objects. *)
Fixpoint h_attr_loop (l : list (option attribute)) (o1 o2 : option nat) (curveAttr keyAttr : option attribute) : KM (option attribute * option attribute) :=
  match l with
  | [] => kret (curveAttr, keyAttr)
  | None :: t => h_attr_loop t o1 o2 curveAttr keyAttr
  | Some a :: t =>
      match at_obj a with
      | None => h_attr_loop t o1 o2 curveAttr keyAttr
      | Some o =>
          kderef o1 ;;;
          if oid_eqb o dstu4145CurveOID then h_attr_loop t o1 o2 (Some a) keyAttr
          else kderef o2 ;;;
               if oid_eqb o dstu4145KeyOID then h_attr_loop t o1 o2 curveAttr (Some a) else h_attr_loop t o1 o2 curveAttr keyAttr
      end
  end.
Section Attr.
Context {spec grp : Type} (ae : attr_env spec grp).
(** utils.c:228-263 pkeyFromAttributes.  Simplification: makePKey is one allocation (Model_Iit
    takes it apart). *)
Definition h_pkeyFromAttributes (l : list (option attribute)) : KM (option nat) :=
  o1 <- knew KTemp ;; o2 <- knew KTemp ;;
  '(curveAttr, keyAttr) <- h_attr_loop l o1 o2 None None ;;
  kfree_opt o2 ;;; kfree_opt o1 ;;;
  match curveAttr, keyAttr with
  | Some c, Some k => kmake (option_map KPkey (makePKey ae c k))
  | _, _ => kret None
  end.
(** utils.c:265-296 keysFromPKCS8 for what d2i_PKCS8_PRIV_KEY_INFO makes of the data: the store, None
    for return 0 (then *ks is not written). *)
Definition h_keysFromPKCS8 (info : option p8info) : KM (option nat) :=
  match info with
  | None => kret None
  | Some i =>
      pkcs8 <- knew KTemp ;;
      match pkcs8 with
      | None => kret None
      | Some pkcs8 =>
          pkey1 <- kmake (option_map KPkey (p8_pkey i)) ;;
          match pkey1 with
          | None => kfree pkcs8 ;;; kret None
          | Some pkey1 =>
              pkey2 <- h_pkeyFromAttributes (p8_attrs i) ;; kfree pkcs8 ;;;
              match pkey2 with
              | None => ks <- h_ks_new 1 0 ;; h_set_key ks 0 pkey1 ;;; kret (Some ks)
              | Some pkey2 => ks <- h_ks_new 2 0 ;; h_set_key ks 0 pkey1 ;;; h_set_key ks 1 pkey2 ;;; kret (Some ks)
              end
          end
      end
  end.
End Attr.

(** * keylib/jks.c.  [k] counts the objects made by decoders, as in Model_Jks. *)
Section Jks.
Context {spec grp : Type} (e : jks_env spec grp).
(** jks.c:144-166 parseCert *)
Definition h_parse_cert (data : list N) (off : N) (ks : nat) (k : nat) : KM (nat * option N) :=
  match read16 data off with
  | None => kundef
  | Some typeLength =>
      match read32 data (off + 2 + typeLength) with
      | None => kundef
      | Some dataLength =>
          match slice data (off + 2 + typeLength + 4) dataLength with
          | None => kundef
          | Some der =>
              x509 <- kmake (option_map KCert (je_x509 e k der)) ;;
              match x509 with
              | None => kret (S k, None)
              | Some x509 =>
                  tks <- h_ks_new 0 1 ;; h_set_cert tks 0 x509 ;;; h_append ks tks ;;; h_ks_free (Some tks) ;;;
                  kret (S k, Some (off + 2 + typeLength + 4 + dataLength))
              end
          end
      end
  end.
(** jks.c:186-200: the rounds; [decrypted] is written in each.  None: a digest failed. *)
Fixpoint h_rounds (rounds : nat) (pwd16 digest rem : list N) (decrypted : option nat) : KM (option (list N)) :=
  match rounds with
  | O => kret (Some [])
  | S r =>
      ok <- h_hash ;;
      if negb ok then kret None
      else
        let digest' := two_hash e pwd16 digest in
        match kp_inner digest' rem with
        | None => kundef
        | Some (o, rem') => kderef decrypted ;;; t <- h_rounds r pwd16 digest' rem' decrypted ;; kret (option_map (app o) t)
        end
  end.
(** jks.c:168-232 fromKeyProtector; see Model_Jks.kp_decrypt for sizes below 40. *)
Definition h_from_key_protector (data pwd16 : list N) (ks : nat) (k : nat) : KM (nat * bool) :=
  let size := N.of_nat (length data) in
  if size <? 40 then kundef
  else
    let encryptedLength := size - 20 - 20 in
    let rounds := if 0 <? encryptedLength mod 20 then 1 + encryptedLength / 20 else encryptedLength / 20 in
    let salt := firstn 20 data in
    let encrypted := firstn (N.to_nat encryptedLength) (skipn 20 data) in
    let check := skipn (N.to_nat (20 + encryptedLength)) data in
    decrypted <- kbuffer (N.to_nat encryptedLength) ;;
    plain <- h_rounds (N.to_nat rounds) pwd16 salt encrypted decrypted ;;
    match plain with
    | None => kfree_opt decrypted ;;; kret (k, false)
    | Some plain =>
        ok <- h_hash ;;
        if negb (ok && cmp_bytes (two_hash e pwd16 plain) check) then kfree_opt decrypted ;;; kret (k, false)
        else
          tks <- h_keysFromPKCS8 (je_attr e) (je_p8 e k plain) ;;
          match tks with
          | Some t => h_append ks t ;;; h_ks_free (Some t) ;;; kfree_opt decrypted ;;; kret (S k, true)
          | None => h_ks_free None ;;; kfree_opt decrypted ;;; kret (S k, false)
          end
    end.
(** jks.c:246-302 decryptKey *)
Definition h_decrypt_key (data password : list N) (ks : nat) (k : nat) : KM (nat * bool) :=
  pwd <- h_toUTF16BE (je_utf e password) (length password) ;;
  match pwd with
  | None => kret (k, false)
  | Some (p, pwd16) =>
      match je_sig e data with
      | None => kfree p ;;; kret (k, false)
      | Some (algo, keyData) =>
          epkInfo <- knew KTemp ;;
          match epkInfo with
          | None => kfree p ;;; kret (k, false)
          | Some epkInfo =>
              keyProtector <- knew KTemp ;; pbes1 <- knew KTemp ;;
              kderef keyProtector ;;;
              '(k, r) <- (if oid_eqb algo keyProtectorOID then h_from_key_protector keyData pwd16 ks k
                          else kderef pbes1 ;;; if oid_eqb algo pbes1OID then kret (k, false) else kret (k, true)) ;;
              kfree_opt pbes1 ;;; kfree_opt keyProtector ;;; kfree epkInfo ;;; kfree p ;;; kret (k, r)
          end
      end
  end.
(** jks.c:316-321 *)
Fixpoint h_parse_certs (n : nat) (data : list N) (off : N) (ks : nat) (k : nat) : KM (nat * option N) :=
  match n with
  | O => kret (k, Some off)
  | S m => '(k, off1) <- h_parse_cert data off ks k ;;
           match off1 with None => kret (k, None) | Some off1 => h_parse_certs m data off1 ks k end
  end.
(** jks.c:304-323 parseKey *)
Definition h_parse_key (data : list N) (off : N) (keyPass : list N) (ks : nat) (k : nat) : KM (nat * option N) :=
  match read16 data off with
  | None => kundef
  | Some nameLength =>
      match read32 data (off + 2 + nameLength + 8) with
      | None => kundef
      | Some dataLength =>
          match read32 data (off + 2 + nameLength + 8 + 4 + dataLength) with
          | None => kundef
          | Some certNum =>
              match slice data (off + 2 + nameLength + 8 + 4) dataLength with
              | None => kundef
              | Some blob =>
                  '(k, ok) <- h_decrypt_key blob keyPass ks k ;;
                  if ok : bool then h_parse_certs (N.to_nat certNum) data (off + 2 + nameLength + 8 + 4 + dataLength + 4) ks k
                  else kret (k, None)
              end
          end
      end
  end.
(** jks.c:325-336 parseEntry *)
Definition h_parse_entry (data : list N) (off : N) (keyPass : list N) (ks : nat) (k : nat) : KM (nat * option N) :=
  match read32 data off with
  | None => kundef
  | Some tag => if tag =? 1 then h_parse_key data (off + 4) keyPass ks k
                else if tag =? 2 then h_parse_cert data (off + 4) ks k
                else kret (k, None)
  end.
(** jks.c:367-372 *)
Fixpoint h_parse_entries (n : nat) (data : list N) (off : N) (keyPass : list N) (ks : nat) (k : nat) : KM (nat * option N) :=
  match n with
  | O => kret (k, Some off)
  | S m => '(k, off1) <- h_parse_entry data off keyPass ks k ;;
           match off1 with None => kret (k, None) | Some off1 => h_parse_entries m data off1 keyPass ks k end
  end.
(** jks.c:338-396 parseJKS: the number of objects made, what is returned, what was written to *ks
    (None: nothing). *)
Definition h_parseJKS (data storagePass keyPass : list N) (k : nat) : KM (nat * bool * option nat) :=
  match slice data 0 4, read32 data 8 with
  | Some magic, Some entries =>
      if negb (oid_eqb magic [0xFE; 0xED; 0xFE; 0xED]) && negb (oid_eqb magic [0xCE; 0xCE; 0xCE; 0xCE])
      then kret (k, false, None)
      else match slice data 4 4 with
      | None => kundef
      | Some version =>
          if negb (oid_eqb version [0; 0; 0; 2]) then kret (k, false, None)
          else
            pwd <- h_toUTF16BE (je_utf e storagePass) (length storagePass) ;;
            match pwd with
            | None => kret (k, false, None)
            | Some (pwd, pwd16) =>
                ks <- h_ks_new 0 0 ;;
                '(k, p) <- h_parse_entries (N.to_nat entries) data 12 keyPass ks k ;;
                match p with
                | None => h_ks_free (Some ks) ;;; kret (k, false, Some ks)
                | Some p =>
                    match slice data 0 p with
                    | None => kundef
                    | Some head =>
                        ok <- h_hash ;;
                        if negb ok then h_ks_free (Some ks) ;;; kfree pwd ;;; kret (k, false, Some ks)
                        else
                          kfree pwd ;;;
                          match cmp_digest (white_hash e pwd16 head) data p with
                          | None => kundef
                          | Some true => kret (k, true, Some ks)
                          | Some false => h_ks_free (Some ks) ;;; kret (k, false, Some ks)
                          end
                    end
                end
            end
      end
  | _, _ => kundef
  end.
End Jks.

(** * keylib/key6.c *)
Section Key6.
Context {spec grp : Type} (ae : attr_env spec grp).
Variable p8 : list N -> option p8info.
(** key6.c:42-66 decryptKey6 *)
Definition h_decryptKey6 (r : k6_run) (data : list N) (pad : option (list N)) (password : list N) : KM (option nat) :=
  let sourceSize := (length data + match pad with None => 0 | Some p => length p end)%nat in
  source <- kbuffer sourceSize ;; res0 <- knew KTemp ;;
  match sourceSize with O => kret tt | S _ => kderef source ;;; kret tt end ;;;
  res <- kderef res0 ;;
  match decrypt_bytes r data pad password with
  | None => kundef
  | Some bytes => kfree_opt source ;;; ks <- h_keysFromPKCS8 ae (p8 bytes) ;; kfree res ;;; kret ks
  end.
(** key6.c:68-104 parseKey6 *)
Definition h_parseKey6 (r : k6_run) (d2i : option iit_store) (password : list N) : KM (option nat) :=
  match d2i with
  | None => kret None
  | Some store =>
      st <- knew KTemp ;;
      match st with
      | None => kret None
      | Some st =>
          match is_header store, is_data store with
          | Some hd, Some data =>
              match ih_type hd, ih_params hd with
              | Some ty, Some pa =>
                  correctType0 <- knew KTemp ;; correctType <- kderef correctType0 ;; kfree correctType ;;;
                  if negb (oid_eqb ty iitStoreOID) then kfree st ;;; kret None
                  else
                    res <- match ip_pad pa with
                           | None => h_decryptKey6 r data None password
                           | Some pad => h_decryptKey6 r data (Some pad) password
                           end ;;
                    kfree st ;;; kret res
              | _, _ => kfree st ;;; kret None
              end
          | _, _ => kfree st ;;; kret None
          end
      end
  end.
End Key6.

(** * keylib/pkcs12.c *)
(** pkcs12.c:46-78 countKeysCerts: the bags are unpacked and released. *)
Fixpoint h_count_safes (l : list pkcs7) (kc : nat * nat) : KM (bool * (nat * nat)) :=
  match l with
  | [] => kret (true, kc)
  | P7Null :: t | P7Other :: t => h_count_safes t kc
  | P7Data b :: t | P7Enc b :: t =>
      match b with
      | None => kret (false, kc)
      | Some b =>
          bags <- knew KTemp ;;
          match bags with
          | None => kret (false, kc)
          | Some bags => let '(r, kc) := count_bags b kc in kfree bags ;;; if r then h_count_safes t kc else kret (false, kc)
          end
      end
  end.
(** pkcs12.c:80-119 fromBag, 121-130 fromBags *)
Fixpoint h_from_bag (b : bag) (ks : nat) (kc : nat * nat) : KM (nat * nat * bool) :=
  match b with
  | KeyBag o =>
      pkey <- kmake (option_map KPkey o) ;;
      match pkey with None => kret (kc, false) | Some p => h_set_key ks (fst kc) p ;;; kret (S (fst kc), snd kc, true) end
  | ShroudedKeyBag o =>
      match o with
      | None => kret (kc, false)
      | Some o =>
          pkcs8 <- knew KTemp ;;
          match pkcs8 with
          | None => kret (kc, false)
          | Some pkcs8 =>
              pkey <- kmake (option_map KPkey o) ;;
              match pkey with
              | None => kfree pkcs8 ;;; kret (kc, false)
              | Some p => h_set_key ks (fst kc) p ;;; kfree pkcs8 ;;; kret (S (fst kc), snd kc, true)
              end
          end
      end
  | CertBag o =>
      x509 <- kmake (option_map KCert o) ;;
      match x509 with None => kret (kc, false) | Some p => h_set_cert ks (snd kc) p ;;; kret (fst kc, S (snd kc), true) end
  | SafeContentsBag l =>
      (fix go (l : list bag) (kc : nat * nat) : KM (nat * nat * bool) :=
         match l with
         | [] => kret (kc, true)
         | b :: t => '(kc, r) <- h_from_bag b ks kc ;; if r : bool then go t kc else kret (kc, false)
         end) l kc
  | OtherBag => kret (kc, true)
  end.
(** pkcs12.c:121-130 fromBags *)
Fixpoint h_from_bags (l : list bag) (ks : nat) (kc : nat * nat) : KM (nat * nat * bool) :=
  match l with
  | [] => kret (kc, true)
  | b :: t => '(kc, r) <- h_from_bag b ks kc ;; if r : bool then h_from_bags t ks kc else kret (kc, false)
  end.
(** pkcs12.c:132-164 fromSafes *)
Fixpoint h_from_safes (l : list pkcs7) (ks : nat) (kc : nat * nat) : KM bool :=
  match l with
  | [] => kret true
  | P7Null :: t | P7Other :: t => h_from_safes t ks kc
  | P7Data b :: t | P7Enc b :: t =>
      match b with
      | None => kret false
      | Some b =>
          bags <- knew KTemp ;;
          match bags with
          | None => kret false
          | Some bags => '(kc, r) <- h_from_bags b ks kc ;; kfree bags ;;; if r : bool then h_from_safes t ks kc else kret false
          end
      end
  end.
(** pkcs12.c:166-215 parsePKCS12: what is returned and what was written to *ks (None: nothing).
    PKCS12_verify_mac needs memory. *)
Definition h_parsePKCS12 (p : option pkcs12) : KM (bool * option nat) :=
  match p with
  | None => kret (false, None)
  | Some p =>
      pkcs12 <- knew KTemp ;;
      match pkcs12 with
      | None => kret (false, None)
      | Some pkcs12 =>
          mac <- ktry ;;
          if negb (mac && p12_mac p) then kfree pkcs12 ;;; kret (false, None)
          else
            safes <- kmake (option_map (fun _ => KTemp) (p12_safes p)) ;;
            match safes, p12_safes p with
            | Some safes, Some l =>
                '(r, (numKeys, numCerts)) <- h_count_safes l (0, 0)%nat ;;
                if negb r || (Nat.eqb numKeys 0 && Nat.eqb numCerts 0) then kfree safes ;;; kfree pkcs12 ;;; kret (false, None)
                else
                  ks <- h_ks_new numKeys numCerts ;;
                  r <- h_from_safes l ks (0, 0)%nat ;;
                  if negb r then h_ks_free (Some ks) ;;; kfree safes ;;; kfree pkcs12 ;;; kret (false, Some ks)
                  else kfree safes ;;; kfree pkcs12 ;;; kret (true, Some ks)
            | _, _ => kfree pkcs12 ;;; kret (false, None)
            end
      end
  end.

(** * The stream readers: pkcs12.c:228-264, jks.c:409-445, key6.c:117-153.  BIO_write_ex to NULL
    fails; BIO_get_mem_data of NULL is 0.  Whether a write succeeds is decided by memory, not by
    the event.  Result: None for return 0 without parsing. *)
Fixpoint h_read_loop (evs : list rd_event) (mem : option nat) (got : list N) (total : N) : KM (option (list N)) :=
  match evs with
  | [] => fun _ => KLoop
  | RdEnd :: _ | RdError :: _ => kret (if 0 <? total then Some got else None)
  | RdData b _ :: t =>
      if N.of_nat (length b) =? 0 then kret (Some got)
      else
        w <- match mem with None => kret false | Some _ => ktry end ;;
        if negb w then kret None else h_read_loop t mem (got ++ b) (total + N.of_nat (length b))
  end.
(** pkcs12.c:228-264, jks.c:409-445, key6.c:117-153 *)
Definition h_read_bio {A} (parse : list N -> KM A) (evs : list rd_event) : KM (option A) :=
  mem <- bio_new ;;
  got <- h_read_loop evs mem [] 0 ;;
  match got with
  | None | Some [] => bio_free mem ;;; kret None
  | Some got => res <- parse got ;; bio_free mem ;;; kret (Some res)
  end.
End Kmem.
