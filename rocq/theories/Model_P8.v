(** Model of the structures OpenSSL reads keys from and writes them to, around engine/ameth.c and
    keylib: PKCS8_PRIV_KEY_INFO (crypto/asn1/p8_pkey.c), X509_PUBKEY (crypto/x509/x_pubkey.c),
    X509_SIG (x_sig.c), with X509_ALGOR (x_algor.c), X509_ATTRIBUTE (x_attrib.c) and values of any
    type.  Simplification: as in Model_Asn1 memory suffices and inputs are shorter than 2^31 bytes. *)
From Coq Require Import ZArith.
From Verif Require Import Base Model_Asn1 Model_Utils Model_Gf2m Model_Compress Model_Ec Model_Curves Model_Sign Model_Pmeth Model_Key Model_Ameth Model_Iit Model_KeyFile.

(** asn1_find_end (tasn_dec.c): what follows an encoding of indefinite length, [more] of which are
    open inside it.  Every turn reads two bytes or more. *)
Fixpoint find_end (fuel more : nat) (l : list N) : option (list N) :=
  match fuel, l with
  | O, _ | _, [] => None
  | S f, _ =>
      if is_eoc l then match more with O => Some (skipn 2 l) | S m => find_end f m (skipn 2 l) end
      else match get_header l with
           | None => None
           | Some (h, t) => match h_len h with Some n => find_end f more (skipn (N.to_nat n) t) | None => find_end f (S more) t end
           end
  end.

(** ASN1_TYPE: the universal tag (None: V_ASN1_OTHER), the string kept, and where it came from.
    (Kept for INTEGER and the like too, where OpenSSL keeps a number.) *)
Record any := ANY { an_type : option N; an_data : list N; an_enc : list N }.
(** asn1_d2i_ex_primitive: SEQUENCE, SET and other classes are kept with their header. *)
Definition kept (type : option N) : bool := match type with None => true | Some n => (n =? 16) || (n =? 17) end.
(** asn1_d2i_ex_primitive: BOOLEAN, INTEGER, NULL, OBJECT and ENUMERATED are not constructed. *)
Definition never_cst (n : N) : bool := (n =? 1) || (n =? 2) || (n =? 5) || (n =? 6) || (n =? 10).
(** asn1_ex_c2i: the contents are such as the type has. *)
Definition c2i_ok (type : option N) (c : list N) : bool :=
  match type with
  | None => true
  | Some n =>
      if n =? 6 then oid_ok c
      else if n =? 5 then (length c =? 0)%nat
      else if n =? 1 then (length c =? 1)%nat
      else if n =? 3 then match c with [] => false | u :: _ => u <=? 7 end
      else if (n =? 2) || (n =? 10) then match int_value c with Some _ => true | None => false end
      else if n =? 30 then (length c mod 2 =? 0)%nat
      else if n =? 28 then (length c mod 4 =? 0)%nat
      else true
  end.
(** The content of a string that is not kept whole, in parts or not. *)
Definition get_content (h : header) (t : list N) : option (list N * list N) :=
  if h_cst h then
    match h_len h with
    | Some n => let c := firstn (N.to_nat n) t in
                match collect (S (length c)) max_string_nest false c with Some (s, _) => Some (s, skipn (N.to_nat n) t) | None => None end
    | None => collect (S (length t)) max_string_nest true t
    end
  else match h_len h with Some n => Some (firstn (N.to_nat n) t, skipn (N.to_nat n) t) | None => None end.
(** asn1_d2i_ex_primitive for V_ASN1_ANY. *)
Definition get_any (l : list N) : option (any * list N) :=
  match get_header l with
  | None => None
  | Some (h, t) =>
      let type := if h_class h =? 0 then Some (h_tag h) else None in
      let enc r := firstn (length l - length r) l in
      match type with
      | Some n =>
          if kept type then
            if h_cst h then
              match (match h_len h with Some n => Some (skipn (N.to_nat n) t) | None => find_end (S (length t)) 0 t end) with
              | Some r => Some (ANY type (enc r) (enc r), r)
              | None => None
              end
            else None
          else if h_cst h && never_cst n then None
          else match get_content h t with
               | Some (c, r) => if c2i_ok type c then Some (ANY type c (enc r), r) else None
               | None => None
               end
      | None =>
          match (match h_len h with Some n => Some (skipn (N.to_nat n) t) | None => find_end (S (length t)) 0 t end) with
          | Some r => Some (ANY None (enc r) (enc r), r)
          | None => None
          end
      end
  end.
(** c2i_ASN1_BIT_STRING: the first octet counts the unused bits of the last, which are cleared. *)
Definition bits (c : list N) : list N :=
  match c with
  | [] => []
  | u :: s => match rev s with [] => [] | b :: t => rev (N.land b (N.shiftl 255 u) :: t) end
  end.
(** d2i_ASN1_BIT_STRING *)
Definition get_bits (l : list N) : option (list N * list N) :=
  match get_header l with
  | None => None
  | Some (h, t) =>
      if negb (is_tag 3 h) then None
      else match get_content h t with
           | Some (c, r) => if c2i_ok (Some 3) c then Some (bits c, r) else None
           | None => None
           end
  end.
(** The values of attributes as utils.c:34-54, 158-163 look at them. *)
Definition any_val (a : any) : asn1_val :=
  match an_type a with
  | Some 4 => VOctet (an_data a)
  | Some 3 => VBit (bits (an_data a))
  | _ => VOther (an_enc a)
  end.

(** asn1_template_noexp_d2i for SET OF: items up to the end, or up to an end marker. *)
Fixpoint get_items {A} (item : list N -> option (A * list N)) (fuel : nat) (inf : bool) (l : list N) : option (list A * list N) :=
  match fuel with
  | O => None
  | S f =>
      match l with
      | [] => if inf then None else Some ([], [])
      | _ =>
          if is_eoc l then if inf then Some ([], skipn 2 l) else None
          else match item l with
               | None => None
               | Some (x, t) => match get_items item f inf t with Some (xs, t) => Some (x :: xs, t) | None => None end
               end
      end
  end.
(** asn1_template_noexp_d2i for SET OF; the bit for "constructed" is not looked at. *)
Definition get_set_of {A} (class tag : N) (item : list N -> option (A * list N)) (l : list N) : option (list A * list N) :=
  match get_header l with
  | None => None
  | Some (h, t) =>
      if (h_tag h =? tag) && (h_class h =? class) then
        match h_len h with
        | Some n => let c := firstn (N.to_nat n) t in
                    match get_items item (S (length c)) false c with Some (xs, _) => Some (xs, skipn (N.to_nat n) t) | None => None end
        | None => get_items item (S (length t)) true t
        end
      else None
  end.

(** x_algor.c X509_ALGOR: the parameters may be missing. *)
Definition get_algor : list N -> option ((list N * option any) * list N) :=
  get_seq (fun l =>
    match get_oid l with
    | None => None
    | Some (o, []) => Some ((o, None), [])
    | Some (o, l) => if is_eoc l then Some ((o, None), l)
                     else match get_any l with Some (a, l) => Some ((o, Some a), l) | None => None end
    end).
(** x_attrib.c X509_ATTRIBUTE *)
Definition get_attribute : list N -> option (attribute * list N) :=
  get_seq (fun l =>
    match get_oid l with
    | None => None
    | Some (o, l) => match get_set_of 0 17 get_any l with
                     | Some (vs, l) => Some (ATTR (Some (oid_numbers o)) (map any_val vs), l)
                     | None => None
                     end
    end).

(** Content octets of the key types' identifiers: 1.2.804.2.1.1.1.1.3.1.1 and, below it, .1.1
    (obj_dat.h). *)
Definition key_oid (nid : Z) : list N :=
  [0x2A; 0x86; 0x24; 2; 1; 1; 1; 1; 3; 1; 1] ++ if (nid =? NID_dstu4145le)%Z then [] else [1; 1].
(** OBJ_obj2nid; all other identifiers are 0 here: they are not the engine's (ameth.c:202, 428). *)
Definition key_obj2nid (o : list N) : Z :=
  if list_eq_dec N.eq_dec o (key_oid NID_dstu4145le) then NID_dstu4145le
  else if list_eq_dec N.eq_dec o (key_oid NID_dstu4145be) then NID_dstu4145be else 0%Z.
(** What the engine asks of the algorithm (ameth.c:200-221, 419-441). *)
Definition algor_of (a : list N * option any) : algor :=
  ALGOR (key_obj2nid (fst a))
    (match snd a with Some v => match an_type v with Some 16 => Some (an_data v) | _ => None end | None => None end).

(** p8_pkey.c PKCS8_PRIV_KEY_INFO; the version is not looked at. *)
Definition get_p8 : list N -> option ((keyinfo * list (option attribute)) * list N) :=
  get_seq (fun l =>
    match get_int l with
    | None => None
    | Some (_, l) =>
      match get_algor l with
      | None => None
      | Some (a, l) =>
        match get_octets l with
        | None => None
        | Some (k, l) =>
            let info := KEYINFO (algor_of a) k in
            match l with
            | [] => Some ((info, []), [])
            | _ => if is_eoc l then Some ((info, []), l)
                   else match get_set_of 2 0 get_attribute l with
                        | Some (attrs, l) => Some ((info, map Some attrs), l)
                        | None => None
                        end
            end
        end
      end
    end).
(** d2i_PKCS8_PRIV_KEY_INFO (utils.c:268) *)
Definition d2i_p8 (l : list N) : option (keyinfo * list (option attribute)) := match get_p8 l with Some (x, _) => Some x | None => None end.
(** i2d_PKCS8_PRIV_KEY_INFO after PKCS8_pkey_set0 (ameth.c:335): version 0, no attributes. *)
Definition enc_algor (a : algor) : list N :=
  tlv 0x30 (enc_oid (key_oid (al_nid a)) ++ match al_params a with Some p => p | None => [] end).
(** i2d_PKCS8_PRIV_KEY_INFO. *)
Definition enc_p8 (i : keyinfo) : list N := tlv 0x30 (enc_int 0 ++ enc_algor (ki_alg i) ++ enc_octets (ki_key i)).

(** x_pubkey.c X509_PUBKEY *)
Definition get_pub : list N -> option (keyinfo * list N) :=
  get_seq (fun l =>
    match get_algor l with
    | None => None
    | Some (a, l) => match get_bits l with Some (k, l) => Some (KEYINFO (algor_of a) k, l) | None => None end
    end).
(** d2i_X509_PUBKEY *)
Definition d2i_pub (l : list N) : option keyinfo := match get_pub l with Some (x, _) => Some x | None => None end.
(** i2d_X509_PUBKEY after X509_PUBKEY_set0_param (ameth.c:602): no unused bits. *)
Definition enc_pub (i : keyinfo) : list N := tlv 0x30 (enc_algor (ki_alg i) ++ tlv 3 (0 :: ki_key i)).

(** x_sig.c X509_SIG (jks.c:261-268): the algorithm's numbers and the string. *)
Definition get_sig : list N -> option ((oid * list N) * list N) :=
  get_seq (fun l =>
    match get_algor l with
    | None => None
    | Some (a, l) => match get_octets l with Some (s, l) => Some ((oid_numbers (fst a), s), l) | None => None end
    end).
(** d2i_X509_SIG *)
Definition d2i_sig (l : list N) : option (oid * list N) := match get_sig l with Some (x, _) => Some x | None => None end.
