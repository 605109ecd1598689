(** Model of dstulib/asn1.c: what OpenSSL's template engine (crypto/asn1/tasn_dec.c, tasn_enc.c,
    asn1_lib.c) makes of the templates.  The encoder writes DER.  The decoder reads BER: long
    tags and lengths, indefinite lengths, octet strings in parts.  Simplification: there is
    enough memory, and inputs are shorter than 2^31 bytes (their length is an int). *)
From Coq Require Import ZArith.
From Verif Require Import Base Model_Gf2m Model_Utils.

(** ASN1_put_object: identifier and length octets, shortest form. *)
Definition der_len (n : N) : list N :=
  if n <? 128 then [n] else let k := num_bytes n in (128 + k) :: be_bytes (N.to_nat k) n.
(** Identifier, length, contents: what the templates of asn1.c:9-57 are encoded with. *)
Definition tlv (tag : N) (content : list N) : list N := tag :: der_len (N.of_nat (length content)) ++ content.
(** ASN1_object_size(0, length, tag) for a tag below 31: -1 is returned for sizes above INT_MAX
    (simplification: not modelled, the callers' sizes are small). *)
Definition object_size (length : N) : N := 1 + (if length <? 128 then 1 else 1 + num_bytes length) + length.

(** asn1_get_length (asn1_lib.c): the length (None: indefinite) and what follows.  Leading zeros
    are skipped, the value fits a long; a byte must follow the octets of a long form. *)
Definition get_len (l : list N) : option (option N * list N) :=
  match l with
  | [] => None
  | b :: t =>
      if b <? 128 then Some (Some b, t)
      else let i := N.to_nat (b - 128) in
           if (i =? 0)%nat then Some (None, t)
           else if (length t <? i + 1)%nat then None
           else let v := be_val (firstn i t) in
                if 2 ^ 63 <=? v then None else Some (Some v, skipn i t)
  end.
(** ASN1_get_object: a tag number of several bytes, at most INT_MAX. *)
Fixpoint get_long_tag (acc : N) (l : list N) : option (N * list N) :=
  match l with
  | [] => None
  | b :: t =>
      if b <? 128 then Some (128 * acc + b, t)
      else let acc := 128 * acc + (b - 128) in
           if 2 ^ 24 - 1 <? acc then None else get_long_tag acc t
  end.
(** Tag number, class (0 is universal), constructed or not, length. *)
Record header := HEADER { h_tag : N; h_class : N; h_cst : bool; h_len : option N }.
(** ASN1_get_object and asn1_check_tlen (tasn_dec.c) without the comparison of tags: a definite
    length is at most what is left, an indefinite one needs a constructed encoding. *)
Definition get_header (l : list N) : option (header * list N) :=
  match l with
  | [] => None
  | b :: t =>
      match (if b mod 32 =? 31 then get_long_tag 0 t else Some (b mod 32, t)) with
      | None => None
      | Some (tag, t) =>
          match get_len t with
          | None => None
          | Some (n, t) =>
              let h := HEADER tag (b / 64) (N.testbit b 5) n in
              match n with
              | None => if h_cst h then Some (h, t) else None
              | Some n => if N.of_nat (length t) <? n then None else Some (h, t)
              end
          end
      end
  end.
(** asn1_check_tlen: the tag is the expected universal one. *)
Definition is_tag (tag : N) (h : header) : bool := (h_tag h =? tag) && (h_class h =? 0).
(** asn1_d2i_ex_primitive for types that have no constructed encoding: content and what follows. *)
Definition get_tlv (tag : N) (l : list N) : option (list N * list N) :=
  match get_header l with
  | None => None
  | Some (h, t) =>
      if is_tag tag h && negb (h_cst h) then
        match h_len h with
        | Some n => Some (firstn (N.to_nat n) t, skipn (N.to_nat n) t)
        | None => None
        end
      else None
  end.
(** asn1_check_eoc: the end of an indefinite encoding. *)
Definition is_eoc (l : list N) : bool := match l with 0 :: 0 :: _ => true | _ => false end.
(** asn1_collect: the parts of a constructed string, of any tag, nested up to [depth] deep
    (ASN1_MAX_STRING_NEST less the present depth), up to the end of [l] or, if [inf], up to an end
    marker: the data and what follows.  Every turn reads a header, so the length of [l] bounds
    the turns. *)
Fixpoint collect (fuel depth : nat) (inf : bool) (l : list N) : option (list N * list N) :=
  match fuel with
  | O => None
  | S f =>
      match l with
      | [] => if inf then None else Some ([], [])
      | _ =>
          if is_eoc l then if inf then Some ([], skipn 2 l) else None
          else match get_header l with
          | None => None
          | Some (h, t) =>
              match (if h_cst h then
                       match depth with
                       | O => None
                       | S d =>
                           match h_len h with
                           | Some n => match collect f d false (firstn (N.to_nat n) t) with
                                       | Some (s, _) => Some (s, skipn (N.to_nat n) t)
                                       | None => None
                                       end
                           | None => collect f d true t
                           end
                       end
                     else match h_len h with
                          | Some n => Some (firstn (N.to_nat n) t, skipn (N.to_nat n) t)
                          | None => None
                          end) with
              | None => None
              | Some (s, t) => match collect f depth inf t with Some (s', t) => Some (s ++ s', t) | None => None end
              end
          end
      end
  end.
(** ASN1_MAX_STRING_NEST (tasn_dec.c) *)
Definition max_string_nest : nat := 5.

(** i2d_ASN1_OCTET_STRING, d2i_ASN1_OCTET_STRING (the pointer to what follows is not used). *)
Definition enc_octets (c : list N) : list N := tlv 4 c.
(** d2i_ASN1_OCTET_STRING (asn1_d2i_ex_primitive) with the rest of the input. *)
Definition get_octets (l : list N) : option (list N * list N) :=
  match get_header l with
  | None => None
  | Some (h, t) =>
      if negb (is_tag 4 h) then None
      else if h_cst h then
        match h_len h with
        | Some n => let c := firstn (N.to_nat n) t in
                    match collect (S (length c)) max_string_nest false c with
                    | Some (s, _) => Some (s, skipn (N.to_nat n) t)
                    | None => None
                    end
        | None => collect (S (length t)) max_string_nest true t
        end
      else match h_len h with
           | Some n => Some (firstn (N.to_nat n) t, skipn (N.to_nat n) t)
           | None => None
           end
  end.
(** d2i_ASN1_OCTET_STRING, called at ameth.c:467 and pmeth.c:360. *)
Definition d2i_octets (l : list N) : option (list N) := match get_octets l with Some (c, _) => Some c | None => None end.

(** INTEGER: two's complement, shortest form (i2c_ibuf, c2i_ibuf). *)
Definition int_content (x : Z) : list N :=
  let k := N.size (Z.to_N (if x <? 0 then - x - 1 else x)%Z) / 8 + 1 in
  be_bytes (N.to_nat k) (Z.to_N (x mod 256 ^ Z.of_N k)%Z).
(** ASN1_INTEGER members of asn1.c:11-13, 20, 28, 37, 39: encoder. *)
Definition enc_int (x : Z) : list N := tlv 2 (int_content x).
(** c2i_ibuf: the value of the content octets; not shortest form is refused. *)
Definition int_value (c : list N) : option Z :=
  match c with
  | [] => None
  | [b] => Some (if b <? 128 then Z.of_N b else (Z.of_N b - 256)%Z)
  | b :: b' :: _ =>
      if ((b =? 0) && (b' <? 128)) || ((b =? 255) && (128 <=? b')) then None
      else Some (if b <? 128 then Z.of_N (be_val c) else (Z.of_N (be_val c) - 256 ^ Z.of_nat (length c))%Z)
  end.
(** ASN1_INTEGER members of asn1.c:11-13, 20, 28, 37, 39: decoder. *)
Definition get_int (l : list N) : option (Z * list N) :=
  match get_tlv 2 l with
  | Some (c, l) => match int_value c with Some x => Some (x, l) | None => None end
  | None => None
  end.

(** OBJECT IDENTIFIER, held as its content octets (c2i_ASN1_OBJECT: the last subidentifier is
    complete, none starts with 0x80). *)
Fixpoint subids_ok (start : bool) (c : list N) : bool :=
  match c with
  | [] => start
  | b :: t => if start && (b =? 128) then false else subids_ok (b <? 128) t
  end.
(** c2i_ASN1_OBJECT: the contents are not empty and well formed. *)
Definition oid_ok (c : list N) : bool := match c with [] => false | _ => subids_ok true c end.
(** The ASN1_OBJECT member of asn1.c:47: encoder. *)
Definition enc_oid (c : list N) : list N := tlv 6 c.
(** The ASN1_OBJECT member of asn1.c:47: decoder. *)
Definition get_oid (l : list N) : option (list N * list N) :=
  match get_tlv 6 l with
  | Some (c, l) => if oid_ok c then Some (c, l) else None
  | None => None
  end.

(** A SEQUENCE (asn1_item_embed_d2i): the fields must use up its content, or an end marker
    follows them.  (Before a field the engine also stops at the end of the data or at an end
    marker; a field that may not be missing is refused there anyway.) *)
Definition get_seq {A} (fields : list N -> option (A * list N)) (l : list N) : option (A * list N) :=
  match get_header l with
  | None => None
  | Some (h, t) =>
      if is_tag 16 h && h_cst h then
        match h_len h with
        | Some n => match fields (firstn (N.to_nat n) t) with
                    | Some (x, []) => Some (x, skipn (N.to_nat n) t)
                    | _ => None
                    end
        | None => match fields t with
                  | Some (x, t) => if is_eoc t then Some (x, skipn 2 t) else None
                  | None => None
                  end
        end
      else None
  end.

(** asn1.c:9-14 DSTU_Pentanomial and 18-22 DSTU_Polynomial; a CHOICE tries its alternatives in
    order. *)
Definition enc_middle (p : middle) : list N :=
  match p with
  | Trinomial k => enc_int k
  | Pentanomial k j l => tlv 0x30 (enc_int k ++ enc_int j ++ enc_int l)
  end.
(** asn1.c:9-14, decoder. *)
Definition get_pentanomial (l : list N) : option (middle * list N) :=
  match get_int l with
  | Some (k, l) => match get_int l with
                   | Some (j, l) => match get_int l with Some (x, l) => Some (Pentanomial k j x, l) | None => None end
                   | None => None
                   end
  | None => None
  end.
(** asn1.c:18-22, decoder. *)
Definition get_middle (l : list N) : option (middle * list N) :=
  match get_header l with
  | None => None
  | Some (h, _) =>
      if is_tag 2 h then match get_int l with Some (k, l) => Some (Trinomial k, l) | None => None end
      else get_seq get_pentanomial l
  end.
(** asn1.c:26-30 DSTU_BinaryField *)
Definition enc_field (f : bfield) : list N := tlv 0x30 (enc_int (bf_m f) ++ enc_middle (bf_poly f)).
(** asn1.c:26-30, decoder. *)
Definition get_field : list N -> option (bfield * list N) :=
  get_seq (fun l => match get_int l with
                    | Some (m, l) => match get_middle l with Some (p, l) => Some (BF m p, l) | None => None end
                    | None => None
                    end).
(** asn1.c:34-41 DSTU_CustomCurveSpec *)
Record custom := CUSTOM { cu_field : bfield; cu_a : Z; cu_b : list N; cu_n : Z; cu_bp : list N }.
(** asn1.c:34-41, encoder. *)
Definition enc_custom (c : custom) : list N :=
  tlv 0x30 (enc_field (cu_field c) ++ enc_int (cu_a c) ++ enc_octets (cu_b c) ++ enc_int (cu_n c) ++ enc_octets (cu_bp c)).
(** asn1.c:34-41, decoder. *)
Definition get_custom : list N -> option (custom * list N) :=
  get_seq (fun l =>
    match get_field l with
    | None => None
    | Some (f, l) =>
      match get_int l with
      | None => None
      | Some (a, l) =>
        match get_octets l with
        | None => None
        | Some (b, l) =>
          match get_int l with
          | None => None
          | Some (n, l) => match get_octets l with Some (bp, l) => Some (CUSTOM f a b n bp, l) | None => None end
          end
        end
      end
    end).
(** asn1.c:45-49 DSTU_CurveSpec *)
Inductive curvespec := Named (o : list N) | Custom (c : custom).
(** asn1.c:45-49, encoder. *)
Definition enc_curvespec (c : curvespec) : list N := match c with Named o => enc_oid o | Custom c => enc_custom c end.
(** asn1.c:45-49, decoder. *)
Definition get_curvespec (l : list N) : option (curvespec * list N) :=
  match get_header l with
  | None => None
  | Some (h, _) =>
      if is_tag 6 h then match get_oid l with Some (o, l) => Some (Named o, l) | None => None end
      else match get_custom l with Some (c, l) => Some (Custom c, l) | None => None end
  end.
(** asn1.c:53-57 DSTU_AlgorithmParameters *)
Record params := PARAMS { ap_curve : curvespec; ap_sbox : option (list N) }.
(** asn1.c:53-57, encoder. *)
Definition enc_params (p : params) : list N :=
  tlv 0x30 (enc_curvespec (ap_curve p) ++ match ap_sbox p with Some s => enc_octets s | None => [] end).
(** asn1.c:53-57, decoder: the S-box may be missing. *)
Definition get_params : list N -> option (params * list N) :=
  get_seq (fun l =>
    match get_curvespec l with
    | None => None
    | Some (c, []) => Some (PARAMS c None, [])
    | Some (c, l) => if is_eoc l then Some (PARAMS c None, l)
                     else match get_octets l with Some (s, l) => Some (PARAMS c (Some s), l) | None => None end
    end).
(** d2i_DSTU_AlgorithmParameters *)
Definition d2i_params (l : list N) : option params := match get_params l with Some (p, _) => Some p | None => None end.

(** Content octets of 1.2.804.2.1.1.1.1.3.1.1.2.i, the standard curves (obj_dat.h). *)
Definition curve_oid (i : N) : list N := [0x2A; 0x86; 0x24; 2; 1; 1; 1; 1; 3; 1; 1; 2; i].
(** OBJ_nid2obj for the standard curves, NID 1160 to 1169. *)
Definition curve_nid2obj (nid : Z) : option (list N) :=
  if ((1160 <=? nid) && (nid <=? 1169))%Z then Some (curve_oid (Z.to_N (nid - 1160))) else None.
(** OBJ_obj2nid; all other identifiers are 0 here, which like their own numbers name none of
    the curves. *)
Definition curve_obj2nid (o : list N) : Z :=
  match find (fun i => if list_eq_dec N.eq_dec (curve_oid (N.of_nat i)) o then true else false) (seq 0 10) with
  | Some i => 1160 + Z.of_nat i
  | None => 0
  end%Z.
