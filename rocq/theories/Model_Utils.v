(** Model of keylib/utils.c: private numbers, field polynomials, keys from PKCS#8 data. *)
From Coq Require Import ZArith.
From Verif Require Import Base Model_KeyStore.

(** An ASN1_TYPE inside an attribute: OCTET STRING, BIT STRING (its octets), or anything
    else (its encoding). *)
Inductive asn1_val := VOctet (s : list N) | VBit (s : list N) | VOther (s : list N).
(** An object identifier as its numbers. *)
Definition oid := list N.
(** X509_ATTRIBUTE: its object (None = NULL) and its values. *)
Record attribute := ATTR { at_obj : option oid; at_vals : list asn1_val }.

(** utils.c:57-60: the bits of one byte swapped. *)
Definition swap_bits (b : N) : N :=
  let b := N.lor (N.shiftr (N.land b 0xF0) 4) (N.shiftl (N.land b 0x0F) 4) in
  let b := N.lor (N.shiftr (N.land b 0xCC) 2) (N.shiftl (N.land b 0x33) 2) in
  N.lor (N.shiftr (N.land b 0xAA) 1) (N.shiftl (N.land b 0x55) 1).

(** utils.c:54-63: buf[length - i - 1] = swapped data[i]: [buf] grows at the front. *)
Fixpoint swap_loop (data buf : list N) : list N :=
  match data with [] => buf | b :: t => swap_loop t (swap_bits b :: buf) end.

(** utils.c:40-50: the first OCTET or BIT STRING among the values. *)
Fixpoint first_string (vs : list asn1_val) : option (list N) :=
  match vs with
  | [] => None
  | VOctet s :: _ => Some s
  | VBit s :: _ => Some s
  | VOther _ :: t => first_string t
  end.
(** utils.c:26-70 getPrivateKeyNum.  Simplification: BN_bin2bn and the allocation succeed. *)
Definition getPrivateKeyNum (a : attribute) : option N :=
  match first_string (at_vals a) with
  | None => None
  | Some data => Some (be_val (swap_loop data []))
  end.

(** DSTU_BinaryField (dstulib/asn1.h): degree and the middle exponents. *)
Inductive middle := Trinomial (k : Z) | Pentanomial (k j l : Z).
(** dstulib/asn1.h: DSTU_BinaryField. *)
Record bfield := BF { bf_m : Z; bf_poly : middle }.

(** ASN1_INTEGER_get (OpenSSL): -1 if the value does not fit long; then converted to int. *)
Definition asn1_get (x : Z) : Z :=
  let v := if ((- 2 ^ 63 <=? x) && (x <? 2 ^ 63))%Z then x else (-1)%Z in
  ((v + 2 ^ 31) mod 2 ^ 32 - 2 ^ 31)%Z.

(** BN_GF2m_arr2poly (OpenSSL): sets the bits listed before -1; BN_set_bit fails on a
    negative index.  Simplification: memory is sufficient. *)
Fixpoint arr2poly (p : list Z) (acc : N) : option N :=
  match p with
  | [] => None
  | x :: t => if (x =? -1)%Z then Some acc
              else if (x <? 0)%Z then None
              else arr2poly t (N.lor acc (N.shiftl 1 (Z.to_N x)))
  end.

(** utils.c:72-96 makePoly. *)
Definition makePoly (f : bfield) : option N :=
  arr2poly (asn1_get (bf_m f) ::
            match bf_poly f with
            | Trinomial k => [asn1_get k; 0; -1]
            | Pentanomial k j l => [asn1_get k; asn1_get j; asn1_get l; 0; -1]
            end)%Z 0.

(** dstulib/key.c:231-259 and 275: the same from group_from_asn1. *)
Definition poly_of_spec (f : bfield) : option N :=
  let m := asn1_get (bf_m f) in
  if (m <=? 0)%Z then None
  else match bf_poly f with
       | Trinomial k => let k := asn1_get k in
                        if (k <=? 0)%Z then None else arr2poly [m; k; 0; -1]%Z 0
       | Pentanomial k j l =>
           let l := asn1_get l in
           if (l <=? 0)%Z then None
           else let j := asn1_get j in
           if (j <=? 0)%Z then None
           else let k := asn1_get k in
           if (k <=? 0)%Z then None
           else arr2poly [m; l; j; k; 0; -1]%Z 0
       end.

(** OIDs compared by OBJ_cmp: utils.c:23-24. *)
Definition dstu4145CurveOID : oid := [1;3;6;1;4;1;19398;1;1;2;2].
(** utils.c:24 *)
Definition dstu4145KeyOID : oid := [1;3;6;1;4;1;19398;1;1;2;3].
(** OBJ_cmp = 0 (OpenSSL). *)
Fixpoint oid_eqb (a b : oid) : bool :=
  match a, b with [], [] => true | x :: s, y :: t => (x =? y) && oid_eqb s t | _, _ => false end.

(** utils.c:241-253: the loop over the attributes (NULL entries skipped). *)
Fixpoint attr_loop (l : list (option attribute)) (curveAttr keyAttr : option attribute) : option attribute * option attribute :=
  match l with
  | [] => (curveAttr, keyAttr)
  | None :: t => attr_loop t curveAttr keyAttr
  | Some a :: t =>
      match at_obj a with
      | None => attr_loop t curveAttr keyAttr
      | Some o => if oid_eqb o dstu4145CurveOID then attr_loop t (Some a) keyAttr
                  else if oid_eqb o dstu4145KeyOID then attr_loop t curveAttr (Some a)
                  else attr_loop t curveAttr keyAttr
      end
  end.

(** What is not modelled here, as functions: decoding a DSTU_AttrCurveSpec, building the
    group from it (makeECGROUPFromSpec), and building the EVP_PKEY from group and number
    (utils.c:191-225). *)
Record attr_env (spec grp : Type) := AENV {
  ae_unpack : asn1_val -> option spec;
  ae_group : spec -> option grp;
  ae_pkey : grp -> N -> option nat }.
Arguments ae_unpack {spec grp}. Arguments ae_group {spec grp}. Arguments ae_pkey {spec grp}. Arguments AENV {spec grp}.

Section Attr.
Context {spec grp : Type} (e : attr_env spec grp).
(** utils.c:158-163 *)
Fixpoint first_spec (vs : list asn1_val) : option spec :=
  match vs with [] => None | v :: t => match ae_unpack e v with Some s => Some s | None => first_spec t end end.
(** utils.c:148-171 makeECGROUP *)
Definition makeECGROUP (a : attribute) : option grp :=
  match first_spec (at_vals a) with None => None | Some s => ae_group e s end.
(** utils.c:173-226 makePKey *)
Definition makePKey (curveAttr keyAttr : attribute) : option nat :=
  match getPrivateKeyNum keyAttr, makeECGROUP curveAttr with
  | Some d, Some g => ae_pkey e g d
  | _, _ => None
  end.
(** utils.c:228-263 pkeyFromAttributes *)
Definition pkeyFromAttributes (l : list (option attribute)) : option nat :=
  match attr_loop l None None with
  | (Some c, Some k) => makePKey c k
  | _ => None
  end.
End Attr.

(** What d2i_PKCS8_PRIV_KEY_INFO returned: the result of EVP_PKCS82PKEY (None = NULL) and the
    attributes. *)
Record p8info := P8 { p8_pkey : option nat; p8_attrs : list (option attribute) }.

(** utils.c:265-296 keysFromPKCS8: memory, result, and the caller's pointer afterwards. *)
Definition keysFromPKCS8 {spec grp} (e : attr_env spec grp) (malloc : heap -> nat) (h : heap) (info : option p8info) (ks : ptr) : option (heap * bool * ptr) :=
  match info with
  | None => Some (h, false, ks)
  | Some i =>
      match p8_pkey i with
      | None => Some (h, false, ks)
      | Some pkey1 =>
          let a := malloc h in
          match pkeyFromAttributes e (p8_attrs i) with
          | None => match ks_set (ks_new h a 1 0) Keys a 0 (Ptr pkey1) with
                    | None => None
                    | Some h1 => Some (h1, true, Some a)
                    end
          | Some pkey2 =>
              match ks_set (ks_new h a 2 0) Keys a 0 (Ptr pkey1) with
              | None => None
              | Some h1 => match ks_set h1 Keys a 1 (Ptr pkey2) with
                           | None => None
                           | Some h2 => Some (h2, true, Some a)
                           end
              end
          end
      end
  end.
