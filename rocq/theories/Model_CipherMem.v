(** Model of engine/cipher.c:176-207 dstu_cipher_set_asn1_parameters with memory that may run out,
    and of 209-229 dstu_cipher_get_asn1_parameters on what d2i_ASN1_TYPE reads. *)
From Coq Require Import ZArith.
From Verif Require Import Base Model_Gost89 Model_Params Model_Cipher Model_Kmem Model_Asn1 Model_P8.

(** ASN1_TYPE: the value and the two blocks it is kept in, the ASN1_STRING and its data; None is
    V_ASN1_UNDEF, as ASN1_TYPE_new leaves it. *)
Definition asn1_holder := option (asn1_value * (nat * nat)).

Section CipherMem.
Variable malloc : nat -> kheap -> option nat.
(** ASN1_STRING_dup (asn1_lib.c): ASN1_STRING_new, then ASN1_STRING_copy. *)
Definition h_string_dup : KM (option (nat * nat)) :=
  s <- knew malloc KTemp ;;
  match s with
  | None => kret None
  | Some s => d <- knew malloc KTemp ;; match d with None => kfree s ;;; kret None | Some d => kret (Some (s, d)) end
  end.
(** ASN1_TYPE_set (a_type.c): the former value is freed. *)
Definition h_type_free (a : asn1_holder) : KM unit := match a with None => kret tt | Some (_, (s, d)) => kfree d ;;; kfree s end.
(** ASN1_TYPE_set1 (a_type.c) for a SEQUENCE; the result and the holder after it. *)
Definition h_type_set1 (a : asn1_holder) (v : asn1_value) : KM (bool * asn1_holder) :=
  dup <- h_string_dup ;;
  match dup with None => kret (false, a) | Some m => h_type_free a ;;; kret (true, Some (v, m)) end.
(** cipher.c:176-207; [stale] as in set_asn1. *)
Definition h_set_asn1 (c : cipher_ctx) (stale : subst_block) (a : asn1_holder) : KM (Z * asn1_holder) :=
  '(ok, a) <- h_type_set1 a (set_asn1 c stale) ;;
  kret ((if ok then 1 else -1)%Z, a).
End CipherMem.

(** The ASN1_TYPE of a decoded value, for cipher.c:209-229; V_ASN1_OTHER is -3 (asn1.h). *)
Definition any_value (a : any) : asn1_value := ASN1 (match an_type a with Some n => Z.of_N n | None => (-3)%Z end) (an_data a).
(** d2i_ASN1_TYPE, then EVP_CIPHER_asn1_to_param (evp_lib.c) calling cipher.c:209-229; None: nothing
    can be decoded, and what follows the value. *)
Definition read_params (c : cipher_ctx) (l : list N) : option (cipher_ctx * Z * list N) :=
  match get_any l with None => None | Some (a, t) => let '(c, r) := get_asn1 c (any_value a) in Some (c, r, t) end.
