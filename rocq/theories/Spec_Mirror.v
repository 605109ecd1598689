(** The same key in the other byte order. *)
From Coq Require Import ZArith.
From Verif Require Import Base Model_Asn1 Model_Utils Model_Pmeth Model_Key Model_Ameth Spec_Asn1.

(** Parameters in the other byte order: the two strings of a described curve are reversed, all
    else is the same. *)
Definition reversed_curve (c c' : curvespec) : Prop :=
  match c, c' with
  | Named o, Named o' => o' = o
  | Custom s, Custom s' => s' = CUSTOM (cu_field s) (cu_a s) (rev (cu_b s)) (cu_n s) (rev (cu_bp s))
  | _, _ => False
  end.
Definition reversed_params (p p' : params) : Prop := reversed_curve (ap_curve p) (ap_curve p') /\ ap_sbox p' = ap_sbox p.
(** The strings of a described curve are not empty. *)
Definition no_empty_string (p : params) : Prop := match ap_curve p with Named _ => True | Custom s => cu_b s <> [] /\ cu_bp s <> [] end.
(** Algorithm identifiers of keys of the big-endian type (the first) and the little-endian one
    (the second), with the given parameters in the byte order of the first. *)
Definition reversed_algorithm (p : params) (a a' : algor) : Prop :=
  al_nid a = 1159%Z /\ al_nid a' = 1158%Z /\
  exists p' w w', al_params a = Some w /\ al_params a' = Some w' /\ der_params p w /\ der_params p' w' /\ reversed_params p p'.
(** Both refused, or the same key read with the two types. *)
Definition same_key (k k' : option pkey) : Prop :=
  match k, k' with
  | Some k, Some k' => pk_type k = 1159%Z /\ pk_type k' = 1158%Z /\ pk_key k' = pk_key k
  | None, None => True
  | _, _ => False
  end.
(** Parameters of the small curve, its coefficient b = 2 written with two bytes. *)
Definition wide (le : bool) : params := PARAMS (Custom (CUSTOM (BF 5 (Trinomial 2)) 1 (if le then [2; 0] else [0; 2]) 17 [2])) None.
