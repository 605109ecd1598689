(** What keylib/jks.c, keylib/key6.c and engine/ameth.c leave behind in memory they give
    back: the contents of heap blocks released with OPENSSL_free or BN_free (which do not
    clear them, unlike OPENSSL_clear_free and BN_clear_free) and of the local variables of
    functions that have returned.

    Simplification: only what is named below is recorded; more stays in memory than this
    (the conversion buffer of toUTF16BE, jks.c:105, and the digest locals of jks.c). *)
From Verif Require Import Base Model_Gost89 Model_Params Model_KeyStore Model_Utils Model_Jks Model_Key6.
From Verif Require Model_Asn1 Model_Ameth.

Section Jks.
Context {spec grp : Type} (e : jks_env spec grp).
(** jks.c:168-232 fromKeyProtector: decrypted, released at 190, 204, 211 or 230, whatever the
    check digest says. *)
Definition from_key_protector_leaves (data pwd16 : list N) : list (list N) :=
  let size := N.of_nat (length data) in
  if size <? 40 then []
  else
    let encryptedLength := size - 20 - 20 in
    let rounds := if 0 <? encryptedLength mod 20 then 1 + encryptedLength / 20 else encryptedLength / 20 in
    match kp_rounds e (N.to_nat rounds) pwd16 (firstn 20 data) (firstn (N.to_nat encryptedLength) (skipn 20 data)) with
    | None => []
    | Some decrypted => [decrypted]
    end.
(** jks.c:246-302 decryptKey: pwd16, released at 264, 280, 291 or 298. *)
Definition decrypt_key_leaves (data password : list N) : list (list N) :=
  match to_utf16 e password with
  | Some (Some pwd16) =>
      match je_sig e data with
      | Some (algo, keyData) => if oid_eqb algo keyProtectorOID then from_key_protector_leaves keyData pwd16 else []
      | None => []
      end ++ [pwd16]
  | _ => []
  end.
(** jks.c:304-323 parseKey. *)
Definition parse_key_leaves (data : list N) (off : N) (keyPass : list N) : list (list N) :=
  match read16 data off with
  | None => []
  | Some nameLength =>
      match read32 data (off + 2 + nameLength + 8) with
      | None => []
      | Some dataLength =>
          match slice data (off + 2 + nameLength + 8 + 4) dataLength with
          | None => []
          | Some blob => decrypt_key_leaves blob keyPass
          end
      end
  end.
(** jks.c:325-336 parseEntry. *)
Definition parse_entry_leaves (data : list N) (off : N) (keyPass : list N) : list (list N) :=
  match read32 data off with
  | None => []
  | Some tag => if tag =? 1 then parse_key_leaves data (off + 4) keyPass else []
  end.
(** jks.c:367-372: the entries one after the other, as [parse_entries] reads them. *)
Fixpoint parse_entries_leave (n : nat) (data : list N) (off : N) (keyPass : list N) (ks : nat) (s : jst) : list (list N) :=
  match n with
  | O => []
  | S m => parse_entry_leaves data off keyPass ++
           match parse_entry e data off keyPass ks s with
           | Some (s1, Some off1) => parse_entries_leave m data off1 keyPass ks s1
           | _ => []
           end
  end.
(** jks.c:338-396 parseJKS: pwd16 is released at 383 or 386; if an entry fails (374-378) it is
    not released at all. *)
Definition parseJKS_leaves (data storagePass keyPass : list N) (s : jst) : list (list N) :=
  match slice data 0 4, read32 data 8 with
  | Some magic, Some entries =>
      if negb (oid_eqb magic [0xFE; 0xED; 0xFE; 0xED]) && negb (oid_eqb magic [0xCE; 0xCE; 0xCE; 0xCE]) then []
      else match slice data 4 4 with
      | None => []
      | Some version =>
          if negb (oid_eqb version [0; 0; 0; 2]) then []
          else match to_utf16 e storagePass with
          | Some (Some pwd16) =>
              let '(h, k) := s in
              let a := je_malloc e h in
              let s1 := (ks_new h a 0 0, k) in
              parse_entries_leave (N.to_nat entries) data 12 keyPass a s1 ++
              match parse_entries e (N.to_nat entries) data 12 keyPass a s1 with
              | Some (_, Some _) => [pwd16]
              | _ => []
              end
          | _ => []
          end
      end
  | _, _ => []
  end.
End Jks.

(** key6.c:42-66 decryptKey6: its local variable key (the cipher context with the key
    schedule stays there too); source and res are cleared. *)
Definition decryptKey6_leaves (r : k6_run) (password : list N) : list (list N) :=
  match pkdf (k6_junk r) password with Some key => [key] | None => [] end.
(** key6.c:68-104 parseKey6. *)
Definition parseKey6_leaves (r : k6_run) (d2i : option iit_store) (password : list N) : list (list N) :=
  match d2i with
  | None => []
  | Some store =>
      match is_header store, is_data store with
      | Some hd, Some _ =>
          match ih_type hd, ih_params hd with
          | Some ty, Some _ => if negb (oid_eqb ty iitStoreOID) then [] else decryptKey6_leaves r password
          | _, _ => []
          end
      | _, _ => []
      end
  end.

(** ameth.c:182-273 dstu_asn1_priv_decode: bn_bytes, released at 270 (prk with the same
    number is released by BN_free at 267). *)
Definition priv_decode_leaves (d2i : list N -> option Model_Asn1.params) (solve : N -> N -> option N) (p8 : Model_Ameth.keyinfo) : list (list N) :=
  let nid := Model_Ameth.al_nid (Model_Ameth.ki_alg p8) in
  if negb (Model_Ameth.is_dstu nid) then []
  else match Model_Ameth.al_params (Model_Ameth.ki_alg p8) with
  | None => []
  | Some prm =>
      match Model_Ameth.param_decode d2i solve nid prm with
      | None => []
      | Some _ => match Model_Ameth.ki_key p8 with [] => [] | b => [rev b] end
      end
  end.
