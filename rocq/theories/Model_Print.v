(** Model of the printing methods and of the control method of keys in engine/ameth.c, with every
    allocation and release. *)
From Coq Require Import ZArith.
From Verif Require Import Base Model_Gf2m Model_Compress Model_Ec Model_Sign Model_Asn1 Model_Pmeth Model_Key Model_Ameth Model_Ctx.

(** EVP_PKEY_print_params, EVP_PKEY_print_private, EVP_PKEY_print_public *)
Inductive kind := Params | Private | Public.

Section Print.
Variable malloc : nat -> heap -> option nat.
(** What OpenSSL prints for an EC_KEY with the given indentation; None: it fails.  It sees the
    EC_KEY only. *)
Variable ec_print : kind -> eckey -> Z -> option (list N).

(** ameth.c:160-180 dstu_asn1_param_print, 691-707 dstu_asn1_priv_print, 709-725
    dstu_asn1_pub_print: the text printed, None if 0 is returned.  EVP_PKEY_set1_EC_KEY may fail;
    if it succeeds the EVP_PKEY made shares the EC_KEY, and EVP_PKEY_free gives the share back.
    The three bodies are the same but for the call that prints. *)
Definition h_print (what : kind) (pkey : evp_key) (indent : Z) : M (option (list N)) :=
  pk <- new malloc OTemp ;;
  match pk with
  | None => ret None
  | Some pk =>
      dstu_key <- deref (snd pkey) ;; '(e, _) <- get_key dstu_key ;; ec <- rd e ;;
      ok <- try malloc ;;
      match (if ok : bool then ec else None) with
      | None => ret None
      | Some ec => v <- get_ec ec ;; ok <- try malloc ;; free pk ;;; ret (if ok : bool then ec_print what v indent else None)
      end
  end.
End Print.

(** X509_ALGOR: the object's number and the parameter (None: absent; otherwise its ASN.1 type). *)
Record algid := ALGID { al_obj : Z; al_param : option Z }.
(** asn1.h, used at ameth.c:649-689. *)
Definition V_ASN1_NULL : Z := 5.
(** OpenSSL: X509_ALGOR_set0(alg, OBJ_nid2obj(nid), V_ASN1_NULL, 0); an absent parameter is
    allocated first, and if that fails nothing is changed. *)
Definition algor_set0 (malloc : nat -> bool) (n : nat) (a : algid) (nid : Z) : algid * nat :=
  match al_param a with
  | Some _ => (ALGID nid (Some V_ASN1_NULL), n)
  | None => if malloc n then (ALGID nid (Some V_ASN1_NULL), S n) else (a, S n)
  end.
(** The parts of PKCS7_SIGNER_INFO and CMS_SignerInfo used: digest and signature algorithm. *)
Record signer := SIGNER { si_digest : algid; si_sig : algid }.
(** x509.h, evp.h: the control numbers of the ASN.1 methods. *)
Definition ASN1_PKEY_CTRL_PKCS7_SIGN : Z := 1.
(** evp.h, used at ameth.c:649-689. *)
Definition ASN1_PKEY_CTRL_DEFAULT_MD_NID : Z := 3.
(** evp.h, used at ameth.c:649-689. *)
Definition ASN1_PKEY_CTRL_CMS_SIGN : Z := 5.
(** The argument of a control call: NULL, a signer, an int. *)
Inductive cptr := PNull | PSigner (s : signer) | PInt (v : Z).
(** ameth.c:649-689 dstu_asn1_pkey_ctrl.  [base] is EVP_PKEY_base_id of the key; [malloc n] tells
    whether the n-th allocation succeeds.  The result, what the argument points to afterwards and
    the number of allocations; None: undefined behaviour.  The results of X509_ALGOR_set0 are not
    looked at. *)
Definition asn1_ctrl (malloc : nat -> bool) (base : Z) (op arg1 : Z) (arg2 : cptr) : option (Z * cptr) :=
  if ((op =? ASN1_PKEY_CTRL_PKCS7_SIGN) || (op =? ASN1_PKEY_CTRL_CMS_SIGN))%Z then
    if (arg1 =? 0)%Z then
      match arg2 with
      | PSigner s =>
          let '(alg1, n) := algor_set0 malloc 0 (si_digest s) NID_dstu34311 in
          if (base =? 0)%Z then Some ((-1)%Z, PSigner (SIGNER alg1 (si_sig s)))
          else let '(alg2, _) := algor_set0 malloc n (si_sig s) base in Some (1%Z, PSigner (SIGNER alg1 alg2))
      | _ => None
      end
    else Some (1%Z, arg2)
  else if (op =? ASN1_PKEY_CTRL_DEFAULT_MD_NID)%Z then
    match arg2 with PInt _ => Some (2%Z, PInt NID_dstu34311) | _ => None end
  else Some (0%Z, arg2).
