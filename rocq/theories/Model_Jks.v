(** Model of keylib/jks.c. *)
From Verif Require Import Base Model_KeyStore Model_Utils Model_Utf16.

(** jks.c:20-21 *)
Definition pbes1OID : oid := [1;3;6;1;4;1;42;2;19;1].
(** jks.c:21 *)
Definition keyProtectorOID : oid := [1;3;6;1;4;1;42;2;17;1;1].

(** What is outside: malloc, SHA-1, iconv, and the decoders of OpenSSL.  The decoders that
    make objects (d2i_X509; d2i_PKCS8_PRIV_KEY_INFO with EVP_PKCS82PKEY) also get the number
    of the call, because every call makes a new object. *)
Record jks_env (spec grp : Type) := JENV {
  je_malloc : heap -> nat;
  je_sha1 : list N -> list N;
  je_utf : list N -> utf;
  je_x509 : nat -> list N -> option nat;
  je_sig : list N -> option (oid * list N); (* d2i_X509_SIG: algorithm and digest field *)
  je_p8 : nat -> list N -> option p8info;
  je_attr : attr_env spec grp }.
Arguments je_malloc {spec grp}. Arguments je_sha1 {spec grp}. Arguments je_utf {spec grp}. Arguments je_x509 {spec grp}.
Arguments je_sig {spec grp}. Arguments je_p8 {spec grp}. Arguments je_attr {spec grp}. Arguments JENV {spec grp}.

(** Memory and the number of object-making calls so far. *)
Definition jst := (heap * nat)%type.

(** [len] bytes of the buffer at [off]; None when some lie outside: undefined.  A range
    handed to a decoder also has to lie inside (jks.c leaves the bound to the decoder; a
    decoder that stops earlier would not read outside, this is coarser). *)
Definition slice (data : list N) (off len : N) : option (list N) :=
  if off + len <=? N.of_nat (length data)
  then Some (firstn (N.to_nat len) (skipn (N.to_nat off) data)) else None.
(** jks.c:36-41 read16, 43-48 read32 followed by ntohs / ntohl.  Offsets are size_t; they
    cannot wrap while the reads succeed. *)
Definition read16 (data : list N) (off : N) : option N := match slice data off 2 with Some b => Some (be_val b) | None => None end.
(** jks.c:43-48 with ntohl *)
Definition read32 (data : list N) (off : N) : option N := match slice data off 4 with Some b => Some (be_val b) | None => None end.

Section Jks.
Context {spec grp : Type} (e : jks_env spec grp).

(** jks.c:50-117, with enough fuel for its loop. *)
Definition to_utf16 (pwd : list N) : option (option (list N)) :=
  toUTF16BE (length (fst (je_utf e pwd)) + 3) (je_utf e pwd) (length pwd).
(** jks.c:119-129 twoHash.  Simplification: the digest calls succeed. *)
Definition two_hash (d1 d2 : list N) : list N := je_sha1 e (d1 ++ d2).
(** jks.c:131-142 whiteHash; "Mighty Aphrodite". *)
Definition mighty : list N := [77;105;103;104;116;121;32;65;112;104;114;111;100;105;116;101].
(** jks.c:131-142 whiteHash *)
Definition white_hash (d1 d2 : list N) : list N := je_sha1 e (d1 ++ mighty ++ d2).

(** jks.c:144-166 parseCert; [off] is the position of [data], result the new position (None
    = NULL).  The caller's counters certPos are not used for anything. *)
Definition parse_cert (data : list N) (off : N) (ks : nat) (s : jst) : option (jst * option N) :=
  match read16 data off with
  | None => None
  | Some typeLength =>
      match read32 data (off + 2 + typeLength) with
      | None => None
      | Some dataLength =>
          match slice data (off + 2 + typeLength + 4) dataLength with
          | None => None
          | Some der =>
              let '(h, k) := s in
              match je_x509 e k der with
              | None => Some ((h, S k), None)
              | Some x509 =>
                  let tks := je_malloc e h in
                  match ks_set (ks_new h tks 0 1) Certs tks 0 (Ptr x509) with
                  | None => None
                  | Some h2 =>
                      match ks_append h2 ks tks with
                      | None => None
                      | Some h3 => match ks_free h3 (Some tks) with
                                   | None => None
                                   | Some h4 => Some ((h4, S k), Some (off + 2 + typeLength + 4 + dataLength))
                                   end
                      end
                  end
              end
          end
      end
  end.

(** jks.c:193-199: the inner loop over the digest; [rem] is encrypted[pos..].  Writing when
    nothing remains would be outside decrypted: None. *)
Fixpoint kp_inner (digest rem : list N) : option (list N * list N) :=
  match digest with
  | [] => Some ([], rem)
  | d :: ds =>
      match rem with
      | [] => None
      | c :: rem' =>
          let p := N.lxor c d in
          match rem' with
          | [] => Some ([p], [])
          | _ => match kp_inner ds rem' with None => None | Some (o, r) => Some (p :: o, r) end
          end
      end
  end.
(** jks.c:186-200: the rounds. *)
Fixpoint kp_rounds (rounds : nat) (pwd16 digest rem : list N) : option (list N) :=
  match rounds with
  | O => Some []
  | S r =>
      let digest' := two_hash pwd16 digest in
      match kp_inner digest' rem with
      | None => None
      | Some (o, rem') => match kp_rounds r pwd16 digest' rem' with None => None | Some t => Some (o ++ t) end
      end
  end.
(** jks.c:208-213: the comparison of the check digest. *)
Fixpoint cmp_bytes (a b : list N) : bool :=
  match a, b with [], _ => true | x :: s, y :: t => if x =? y then cmp_bytes s t else false | _, _ => false end.
(** jks.c:168-213: None = undefined, Some None = return 0, Some (Some d) = decrypted.  With
    size < 40 encryptedLength wraps round to more than 2^64 - 41: the salt or the first
    encrypted byte is read outside, or decrypted is NULL and written. *)
Definition kp_decrypt (data pwd16 : list N) : option (option (list N)) :=
  let size := N.of_nat (length data) in
  if size <? 40 then None
  else
    let encryptedLength := size - 20 - 20 in
    let rounds := if 0 <? encryptedLength mod 20 then 1 + encryptedLength / 20 else encryptedLength / 20 in
    let salt := firstn 20 data in
    let encrypted := firstn (N.to_nat encryptedLength) (skipn 20 data) in
    let check := skipn (N.to_nat (20 + encryptedLength)) data in
    match kp_rounds (N.to_nat rounds) pwd16 salt encrypted with
    | None => None
    | Some decrypted =>
        if cmp_bytes (two_hash pwd16 decrypted) check then Some (Some decrypted) else Some None
    end.
(** jks.c:168-232 fromKeyProtector. *)
Definition from_key_protector (data pwd16 : list N) (ks : nat) (s : jst) : option (jst * bool) :=
  match kp_decrypt data pwd16 with
  | None => None
  | Some None => Some (s, false)
  | Some (Some decrypted) =>
      let '(h, k) := s in
      match keysFromPKCS8 (je_attr e) (je_malloc e) h (je_p8 e k decrypted) None with
      | None => None
      | Some (h1, r, tks) =>
          if r then
            match tks with
            | None => None
            | Some t =>
                match ks_append h1 ks t with
                | None => None
                | Some h2 => match ks_free h2 (Some t) with
                             | None => None
                             | Some h3 => Some ((h3, S k), true)
                             end
                end
            end
          else match ks_free h1 tks with None => None | Some h2 => Some ((h2, S k), false) end
      end
  end.
(** jks.c:234-244 fromPBES1: not implemented, fails. *)
Definition from_pbes1 (s : jst) : option (jst * bool) := Some (s, false).

(** jks.c:246-302 decryptKey. *)
Definition decrypt_key (data password : list N) (ks : nat) (s : jst) : option (jst * bool) :=
  match to_utf16 password with
  | None => None
  | Some None => Some (s, false)
  | Some (Some pwd16) =>
      match je_sig e data with
      | None => Some (s, false)
      | Some (algo, keyData) =>
          if oid_eqb algo keyProtectorOID then from_key_protector keyData pwd16 ks s
          else if oid_eqb algo pbes1OID then from_pbes1 s
          else Some (s, true)
      end
  end.

(** jks.c:316-321: the loop over the certificate chain. *)
Fixpoint parse_certs (n : nat) (data : list N) (off : N) (ks : nat) (s : jst) : option (jst * option N) :=
  match n with
  | O => Some (s, Some off)
  | S m => match parse_cert data off ks s with
           | None => None
           | Some (s1, None) => Some (s1, None)
           | Some (s1, Some off1) => parse_certs m data off1 ks s1
           end
  end.
(** jks.c:304-323 parseKey. *)
Definition parse_key (data : list N) (off : N) (keyPass : list N) (ks : nat) (s : jst) : option (jst * option N) :=
  match read16 data off with
  | None => None
  | Some nameLength =>
      match read32 data (off + 2 + nameLength + 8) with
      | None => None
      | Some dataLength =>
          match read32 data (off + 2 + nameLength + 8 + 4 + dataLength) with
          | None => None
          | Some certNum =>
              match slice data (off + 2 + nameLength + 8 + 4) dataLength with
              | None => None
              | Some blob =>
                  match decrypt_key blob keyPass ks s with
                  | None => None
                  | Some (s1, false) => Some (s1, None)
                  | Some (s1, true) => parse_certs (N.to_nat certNum) data (off + 2 + nameLength + 8 + 4 + dataLength + 4) ks s1
                  end
              end
          end
      end
  end.
(** jks.c:325-336 parseEntry. *)
Definition parse_entry (data : list N) (off : N) (keyPass : list N) (ks : nat) (s : jst) : option (jst * option N) :=
  match read32 data off with
  | None => None
  | Some tag => if tag =? 1 then parse_key data (off + 4) keyPass ks s
                else if tag =? 2 then parse_cert data (off + 4) ks s
                else Some (s, None)
  end.
(** jks.c:367-372 *)
Fixpoint parse_entries (n : nat) (data : list N) (off : N) (keyPass : list N) (ks : nat) (s : jst) : option (jst * option N) :=
  match n with
  | O => Some (s, Some off)
  | S m => match parse_entry data off keyPass ks s with
           | None => None
           | Some (s1, None) => Some (s1, None)
           | Some (s1, Some off1) => parse_entries m data off1 keyPass ks s1
           end
  end.
(** jks.c:388-393: the comparison of the digest with the bytes at [off]. *)
Fixpoint cmp_digest (digest data : list N) (off : N) : option bool :=
  match digest with
  | [] => Some true
  | d :: t => match slice data off 1 with
              | Some [b] => if d =? b then cmp_digest t data (off + 1) else Some false
              | _ => None
              end
  end.

(** jks.c:338-396 parseJKS: memory, result, the caller's pointer.  The host is little-endian:
    the constants 0xedfeedfe, 0xcececece and 0x02000000 are these bytes in memory.  The
    parameter size is not used by the code. *)
Definition parseJKS (data storagePass keyPass : list N) (s : jst) (ks : ptr) : option (jst * bool * ptr) :=
  match slice data 0 4, read32 data 8 with
  | Some magic, Some entries =>
      if negb (oid_eqb magic [0xFE; 0xED; 0xFE; 0xED]) && negb (oid_eqb magic [0xCE; 0xCE; 0xCE; 0xCE])
      then Some (s, false, ks)
      else match slice data 4 4 with
      | None => None
      | Some version =>
          if negb (oid_eqb version [0; 0; 0; 2]) then Some (s, false, ks)
          else match to_utf16 storagePass with
          | None => None
          | Some None => Some (s, false, ks)
          | Some (Some pwd16) =>
              let '(h, k) := s in
              let a := je_malloc e h in
              match parse_entries (N.to_nat entries) data 12 keyPass a (ks_new h a 0 0, k) with
              | None => None
              | Some ((h1, k1), None) =>
                  match ks_free h1 (Some a) with None => None | Some h2 => Some ((h2, k1), false, Some a) end
              | Some ((h1, k1), Some p) =>
                  match slice data 0 p with
                  | None => None
                  | Some head =>
                      match cmp_digest (white_hash pwd16 head) data p with
                      | None => None
                      | Some true => Some ((h1, k1), true, Some a)
                      | Some false => match ks_free h1 (Some a) with None => None | Some h2 => Some ((h2, k1), false, Some a) end
                      end
                  end
              end
          end
      end
  | _, _ => None
  end.
End Jks.
