(** Model of keylib/iit_asn1.c and keylib/attrcurvespec_asn1.c: the decoders OpenSSL makes of these
    templates, and the Key-6 reader on the bytes of a file. *)
From Coq Require Import ZArith.
From Verif Require Import Base Model_Utils Model_Asn1 Model_Key6 Model_Iit.

(** The numbers of an object identifier given by its content octets; after a prefix with the
    value [acc]. *)
Fixpoint sub_numbers (acc : N) (c : list N) : list N :=
  match c with
  | [] => []
  | b :: t => if b <? 128 then (128 * acc + b) :: sub_numbers 0 t else sub_numbers (128 * acc + (b - 128)) t
  end.
(** The first number stands for two (X.690, 8.19.4).  OBJ_cmp (utils.c:248-251, key6.c:84) compares
    content octets; for those a decoder accepts that is to compare the numbers. *)
Definition oid_numbers (c : list N) : oid :=
  match sub_numbers 0 c with
  | [] => []
  | s :: t => (if s <? 40 then [0; s] else if s <? 80 then [1; s - 40] else [2; s - 80]) ++ t
  end.

(** iit_asn1.c:5-9 IITParams: the pad may be missing. *)
Definition get_iit_params : list N -> option (iit_params * list N) :=
  get_seq (fun l =>
    match get_octets l with
    | None => None
    | Some (mac, []) => Some (IITP mac None, [])
    | Some (mac, l) => if is_eoc l then Some (IITP mac None, l)
                       else match get_octets l with Some (pad, l) => Some (IITP mac (Some pad), l) | None => None end
    end).
(** iit_asn1.c:11-15 IITHeader *)
Definition get_iit_header : list N -> option (iit_header * list N) :=
  get_seq (fun l =>
    match get_oid l with
    | None => None
    | Some (o, l) => match get_iit_params l with Some (p, l) => Some (IITH (Some (oid_numbers o)) (Some p), l) | None => None end
    end).
(** iit_asn1.c:17-21 IITStore *)
Definition get_iit_store : list N -> option (iit_store * list N) :=
  get_seq (fun l =>
    match get_iit_header l with
    | None => None
    | Some (h, l) => match get_octets l with Some (d, l) => Some (IITS (Some h) (Some d), l) | None => None end
    end).
(** iit_asn1.c:23 d2i_IITStore *)
Definition d2i_IITStore (l : list N) : option iit_store := match get_iit_store l with Some (s, _) => Some s | None => None end.

(** attrcurvespec_asn1.c:5-10 DSTU_AttrCurveSpec *)
Definition get_attr_spec : list N -> option (attr_spec * list N) :=
  get_seq (fun l =>
    match get_custom l with
    | None => None
    | Some (c, l) =>
      match get_octets l with
      | None => None
      | Some (dke, l) => match get_octets l with Some (dke1, l) => Some (ASPEC c dke dke1, l) | None => None end
      end
    end).
(** ASN1_TYPE_unpack_sequence (utils.c:160): a value that is a SEQUENCE is kept with its header. *)
Definition unpack_attr_spec (v : asn1_val) : option attr_spec :=
  match v with VOther s => match get_attr_spec s with Some (a, _) => Some a | None => None end | _ => None end.
