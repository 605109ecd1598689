(** Basic encodings of the structures that hold keys: PKCS#8 (RFC 5208), SubjectPublicKeyInfo
    (RFC 5280) and the encrypted form of Java key stores. *)
From Coq Require Import ZArith.
From Verif Require Import Base Model_Asn1 Model_Utils Model_Ameth Spec_Asn1 Spec_Ber Spec_KeyFile.

(** A complete encoding of any kind; contents of known length are not looked into. *)
Inductive ber_element (strict : bool) : option N -> bool -> list N -> Prop :=
| el_known tag cst id l c : identifier strict tag cst id -> definite strict (length c) l -> ber_element strict tag cst (id ++ l ++ c)
| el_marked tag id c : identifier strict tag true id -> ber_elements strict c -> ber_element strict tag true (id ++ [128] ++ c ++ [0; 0])
with ber_elements (strict : bool) : list N -> Prop :=
| els_nil : ber_elements strict []
| els_cons cst w w' : ber_element strict None cst w -> (forall t, w <> 0 :: 0 :: t) -> ber_elements strict w' -> ber_elements strict (w ++ w').

(** X.690, 8.6: a bit string, the count of unused bits and the octets; these bits read as 0. *)
Definition bits_say (u : N) (s v : list N) : Prop :=
  u <= 7 /\ bytes s /\ (s = [] /\ v = [] \/ exists t b, s = t ++ [b] /\ v = t ++ [b - b mod 2 ^ u]).
Definition ber_bits (strict : bool) (v w : list N) : Prop :=
  exists u s, bits_say u s v /\ if strict then ber_primitive true 3 (u :: s) w else ber_string false 6 (Some 3) (u :: s) w.
(** Values that are neither strings nor sequences: sets, numbers, names, NULL, truth values, text. *)
Definition ber_other (w : list N) : Prop :=
  ber_element true (Some 17) true w \/ (exists z, ber_integer true z w) \/ (exists c, ber_oid true c w) \/
  ber_primitive true 5 [] w \/ (exists b, ber_primitive true 1 [b] w) \/ exists n c, In n [12; 19; 20; 22; 23; 24] /\ ber_primitive true n c w.
(** X.690, 8.2 to 8.19: truth values, numbers, NULL and names are not in parts; sequences and sets are. *)
Definition form_ok (n : N) (cst : bool) : Prop := (In n [1; 2; 5; 6; 10] -> cst = false) /\ (n = 16 \/ n = 17 -> cst = true).
Definition any_element (w : list N) : Prop := 64 <= hd 0 w /\ (exists cst, ber_element false None cst w) \/ exists n cst, ber_element false (Some n) cst w /\ form_ok n cst.
(** The value of an attribute: an octet string, a bit string, or something else, kept as it is. *)
Definition ber_value (strict : bool) (v : asn1_val) (w : list N) : Prop :=
  match v with
  | VOctet s => ber_octets strict s w
  | VBit s => ber_bits strict s w
  | VOther x => x = w /\ if strict then ber_element true (Some 16) true w \/ ber_other w else any_element w
  end.
(** A set of the given tag ([0] is 0xA0). *)
Definition ber_set (strict : bool) (parts : list (list N)) (w : list N) : Prop :=
  if strict then ber_constructed true (Some 17) (concat parts) w
  else ber_constructed false (Some 17) (concat parts) w \/ ber_primitive false 17 (concat parts) w.
Definition zero_tag (strict : bool) (id : list N) : Prop :=
  if strict then id = [0xA0] else exists b more, id = b :: more /\ 128 <= b < 192 /\ (b mod 32 = 0 /\ more = [] \/ b mod 32 = 31 /\ long_tag 0 more).
Definition ber_zero (strict : bool) (parts : list (list N)) (w : list N) : Prop :=
  exists id, zero_tag strict id /\ ((exists l, definite strict (length (concat parts)) l /\ w = id ++ l ++ concat parts) \/ w = id ++ [128] ++ concat parts ++ [0; 0]).
Definition ber_attribute (strict : bool) (a : attribute) (w : list N) : Prop :=
  exists o c wo vs ws, at_obj a = Some o /\ oid_says c o /\ ber_oid strict c wo /\ Forall2 (ber_value strict) (at_vals a) vs /\ ber_set strict vs ws /\ ber_sequence strict [wo; ws] w.

(** The names of the two key types. *)
Definition type_le : list N := [1; 2; 804; 2; 1; 1; 1; 1; 3; 1; 1].
Definition type_be : list N := type_le ++ [1; 1].
Definition names_type (o : list N) (nid : Z) : Prop :=
  (nid = 1158%Z /\ o = type_le \/ nid = 1159%Z /\ o = type_be \/ nid = 0%Z /\ o <> type_le /\ o <> type_be).
(** An algorithm: its name and, if there are parameters, their encoding.  The engine is shown
    them if they are a SEQUENCE. *)
Definition not_sequence (w : list N) : Prop := 64 <= hd 0 w \/ exists n cst, n <> 16 /\ ber_element false (Some n) cst w.
Definition ber_parameters (strict : bool) (prm : option (list N)) (ws : list (list N)) : Prop :=
  match prm with
  | Some p => ws = [p] /\ ber_element strict (Some 16) true p
  | None => ws = [] \/ exists w v, ws = [w] /\ ber_value strict v w /\ if strict then forall x, v = VOther x -> ber_other x else not_sequence w
  end.
Definition ber_algor (strict : bool) (o : list N) (prm : option (list N)) (w : list N) : Prop :=
  exists c wo ws, oid_says c o /\ ber_oid strict c wo /\ ber_parameters strict prm ws /\ ber_sequence strict (wo :: ws) w.
(** A private key (any version), with attributes or without. *)
Definition ber_p8 (strict : bool) (i : keyinfo) (attrs : list (option attribute)) (w : list N) : Prop :=
  exists version wv o wa wk l wl ws, ber_integer strict version wv /\ names_type o (al_nid (ki_alg i)) /\ ber_algor strict o (al_params (ki_alg i)) wa /\ ber_octets strict (ki_key i) wk /\
    attrs = map Some l /\ Forall2 (ber_attribute strict) l wl /\ (l = [] /\ ws = [] \/ exists v, ber_zero strict wl v /\ ws = [v]) /\ ber_sequence strict (wv :: wa :: wk :: ws) w.
(** A public key. *)
Definition ber_pub (strict : bool) (i : keyinfo) (w : list N) : Prop :=
  exists o wa wk, names_type o (al_nid (ki_alg i)) /\ ber_algor strict o (al_params (ki_alg i)) wa /\ ber_bits strict (ki_key i) wk /\ ber_sequence strict [wa; wk] w.
(** An encrypted key: the algorithm and the string. *)
Definition ber_sig (strict : bool) (o s w : list N) : Prop :=
  exists prm wa ws, ber_algor strict o prm wa /\ ber_octets strict s ws /\ ber_sequence strict [wa; ws] w.
