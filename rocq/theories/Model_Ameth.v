(** Model of engine/ameth.c: keys in PKCS#8 and SubjectPublicKeyInfo, comparison of keys.
    Memory is sufficient.  The PKCS#8 and X.509 structures are those of OpenSSL; the engine sees
    the algorithm's number, its parameters if they are a SEQUENCE, and the key octets. *)
From Coq Require Import ZArith.
From Verif Require Import Base Model_Gf2m Model_Compress Model_Ec Model_Curves Model_Sign Model_Asn1 Model_Pmeth Model_Key.

Record algor := ALGOR { al_nid : Z; al_params : option (list N) }.
(** PKCS8_PRIV_KEY_INFO and X509_PUBKEY. *)
Record keyinfo := KEYINFO { ki_alg : algor; ki_key : list N }.

(** The tests of the key type at ameth.c:202, 286, 428, 529. *)
Definition is_dstu (nid : Z) : bool := (nid =? NID_dstu4145le)%Z || (nid =? NID_dstu4145be)%Z.
(** ameth.c:42, 77, 473, 582 and pmeth.c:291, 372: the byte order goes with the type. *)
Definition is_le (nid : Z) : bool := (nid =? NID_dstu4145le)%Z.

(** ameth.c:28-66 dstu_asn1_param_decode for a key of the given type; [d2i] is
    d2i_DSTU_AlgorithmParameters. *)
Definition param_decode (d2i : list N -> option params) (solve : N -> N -> option N) (type : Z) (der : list N) : option dstu_key :=
  match d2i der with None => None | Some p => key_from_asn1 solve p (is_le type) end.
(** ameth.c:68-89 dstu_asn1_param_encode *)
Definition param_encode (pk : pkey) : result (list N) :=
  match pk_key pk with
  | None => Error
  | Some key => bind (asn1_from_key key (is_le (pk_type pk))) (fun p => Ok (enc_params p))
  end.

(** ameth.c:275-356 dstu_asn1_priv_encode.  OPENSSL_malloc(0) is NULL. *)
Definition priv_encode (pk : pkey) : result keyinfo :=
  if negb (is_dstu (pk_type pk)) then Error
  else bind (param_encode pk) (fun prm =>
       match pk_key pk with
       | None => Error
       | Some key =>
           match ek_priv (dk_ec key) with
           | None => Error
           | Some d => if d =? 0 then Error else Ok (KEYINFO (ALGOR (pk_type pk) (Some prm)) (rev (be_bytes (N.to_nat (num_bytes d)) d)))
           end
       end).
(** ameth.c:182-273 dstu_asn1_priv_decode: the key made.  On failure OpenSSL discards it. *)
Definition priv_decode (d2i : list N -> option params) (solve : N -> N -> option N) (p8 : keyinfo) : option pkey :=
  let nid := al_nid (ki_alg p8) in
  if negb (is_dstu nid) then None
  else match al_params (ki_alg p8) with
  | None => None
  | Some prm =>
      match param_decode d2i solve nid prm with
      | None => None
      | Some key =>
          match ki_key p8 with
          | [] => None
          | bytes =>
              let prk := be_val (rev bytes) in
              match add_public_key (ECKEY (ek_group (dk_ec key)) (Some prk) (ek_pub (dk_ec key))) with
              | None => None
              | Some ec => Some (PKEY nid (Some (DKEY ec (dk_sbox key))))
              end
          end
      end
  end.

(** ameth.c:519-629 dstu_asn1_pub_encode.  OPENSSL_malloc(0) is NULL. *)
Definition pub_encode (pk : pkey) : result keyinfo :=
  if negb (is_dstu (pk_type pk)) then Error
  else bind (param_encode pk) (fun prm =>
       match pk_key pk with
       | None => Error
       | Some key =>
           match ek_group (dk_ec key), ek_pub (dk_ec key) with
           | Some (Binary g), Some Q =>
               let c := g_curve g in
               if field_size c =? 0 then Error
               else match compress c Q (field_size c) with
               | None => Error
               | Some out => Ok (KEYINFO (ALGOR (pk_type pk) (Some prm)) (enc_octets (if is_le (pk_type pk) then rev out else out)))
               end
           | _, _ => Error
           end
       end).
(** ameth.c:394-517 dstu_asn1_pub_decode; [d2o] is d2i_ASN1_OCTET_STRING. *)
Definition pub_decode (d2i : list N -> option params) (d2o : list N -> option (list N)) (solve : N -> N -> option N) (pub : keyinfo) : option pkey :=
  let nid := al_nid (ki_alg pub) in
  match al_params (ki_alg pub) with
  | None => None
  | Some prm =>
      if negb (is_dstu nid) then None
      else match param_decode d2i solve nid prm with
      | None => None
      | Some key =>
          match ek_group (dk_ec key) with
          | Some (Binary g) =>
              match d2o (ki_key pub) with
              | None => None
              | Some s =>
                  match in_order (is_le nid) s with
                  | None => None
                  | Some s =>
                      match expand solve s (g_curve g) with
                      | None => None
                      | Some Q => Some (PKEY nid (Some (DKEY (ECKEY (ek_group (dk_ec key)) (ek_priv (dk_ec key)) (Some Q)) (dk_sbox key))))
                      end
                  end
              end
          | _ => None
          end
      end
  end.

(** ameth.c:91-132 dstu_asn1_param_copy between two different keys: the target afterwards. *)
Definition param_copy (to from : pkey) : option pkey :=
  match pk_key from with
  | None => None
  | Some fk =>
      match ek_group (dk_ec fk) with
      | None => None
      | Some g =>
          let '(t, tk) := match pk_key to with
                          | Some k => (pk_type to, k)
                          | None => (pk_type from, DKEY (ECKEY None None None) None)
                          end in
          Some (PKEY t (Some (DKEY (ECKEY (Some g) (ek_priv (dk_ec tk)) (ek_pub (dk_ec tk)))
                                   (match dk_sbox fk with Some s => Some s | None => dk_sbox tk end))))
      end
  end.

(** EC_GROUP_cmp; a NULL argument is dereferenced.  Of other than binary groups only the order
    is modelled. *)
Definition group_cmp (a b : option egroup) : result Z :=
  match a, b with
  | Some (Binary g), Some (Binary h) => Ok (if group_eqb g h then 0%Z else 1%Z)
  | Some (OtherField n), Some (OtherField n') => Ok (if n =? n' then 0%Z else 1%Z)
  | Some _, Some _ => Ok 1%Z
  | _, _ => Undefined
  end.
(** ameth.c:134-158 dstu_asn1_param_cmp *)
Definition param_cmp (a b : pkey) : result Z :=
  match pk_key a, pk_key b with
  | Some first, Some second =>
      let groups := bind (group_cmp (ek_group (dk_ec first)) (ek_group (dk_ec second))) (fun r => Ok (if (r =? 0)%Z then 1 else 0)%Z) in
      match dk_sbox first, dk_sbox second with
      | None, None => groups
      | Some s, Some s' => if list_eq_dec N.eq_dec s s' then groups else Ok 0%Z
      | _, _ => Ok 0%Z
      end
  | _, _ => Ok (-2)%Z
  end.
(** ameth.c:631-647 dstu_asn1_pub_cmp; EC_POINT_cmp dereferences its arguments. *)
Definition pub_cmp (a b : pkey) : result Z :=
  match pk_key a, pk_key b with
  | Some first, Some second =>
      match ek_group (dk_ec first), ek_pub (dk_ec first), ek_pub (dk_ec second) with
      | Some _, Some P, Some Q => Ok (if point_eqb P Q then 1%Z else 0%Z)
      | _, _, _ => Undefined
      end
  | _, _ => Ok (-2)%Z
  end.
(** EVP_PKEY_cmp_parameters, EVP_PKEY_cmp, EVP_PKEY_copy_parameters (OpenSSL 1.1.1, p_lib.c) with
    the engine's methods.  ameth.c:738-740 sets no param_missing method, so no key counts as
    missing its parameters.  The type 0 is EVP_PKEY_NONE. *)
Definition evp_cmp_parameters (a b : pkey) : result Z :=
  if negb (pk_type a =? pk_type b)%Z then Ok (-1)%Z else if is_dstu (pk_type a) then param_cmp a b else Ok (-2)%Z.
(** EVP_PKEY_cmp (OpenSSL): calls ameth.c:134-158 and 631-647. *)
Definition evp_cmp (a b : pkey) : result Z :=
  if negb (pk_type a =? pk_type b)%Z then Ok (-1)%Z
  else if is_dstu (pk_type a) then bind (param_cmp a b) (fun r => if (r <=? 0)%Z then Ok r else pub_cmp a b)
  else Ok (-2)%Z.
(** EVP_PKEY_copy_parameters (OpenSSL): calls ameth.c:91-132. *)
Definition evp_copy_parameters (to from : pkey) : result pkey :=
  let to := if (pk_type to =? 0)%Z then PKEY (pk_type from) None else to in
  if negb (pk_type to =? pk_type from)%Z then Error
  else bind (evp_cmp_parameters to from) (fun r => if (r =? 1)%Z then Ok to else Error).

(** ameth.c:358-367 dstu_asn1_pkey_bits, for binary groups. *)
Definition pkey_bits (pk : pkey) : N := match pkey_group pk with Some (Binary g) => degree (c_p (g_curve g)) | _ => 0 end.
