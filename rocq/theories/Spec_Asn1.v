(** Distinguished encodings, independently of the encoder. *)
From Coq Require Import ZArith.
From Verif Require Import Base Model_Utils Model_Asn1.

(** [w] is the distinguished encoding of a value with the given tag and content (X.690, 8.1.3
    and 10.1): tag, the length in the shortest form, the content. *)
Definition der_value (tag : N) (c w : list N) : Prop :=
  exists l, w = tag :: l ++ c /\
    ((length c < 128)%nat /\ l = [N.of_nat (length c)] \/
     (128 <= length c)%nat /\ exists digits, bytes digits /\ hd 0 digits <> 0 /\ be_val digits = N.of_nat (length c) /\
       l = (128 + N.of_nat (length digits)) :: digits).
Definition der_octets : list N -> list N -> Prop := der_value 4.
(** INTEGER (8.3): two's complement, the first nine bits not all equal. *)
Definition twos_complement (c : list N) : Z :=
  if hd 0 c <? 128 then Z.of_N (be_val c) else (Z.of_N (be_val c) - 256 ^ Z.of_nat (length c))%Z.
Definition shortest (c : list N) : Prop :=
  c <> [] /\ forall b b' t, c = b :: b' :: t -> ~ (b = 0 /\ b' < 128) /\ ~ (b = 255 /\ 128 <= b').
Definition der_integer (x : Z) (w : list N) : Prop := exists c, bytes c /\ shortest c /\ twos_complement c = x /\ der_value 2 c w.
(** SEQUENCE of the given parts. *)
Definition der_sequence (parts : list (list N)) (w : list N) : Prop := der_value 0x30 (concat parts) w.

(** The structures of DSTU 4145 keys: a field polynomial is an INTEGER or a SEQUENCE of three;
    a field has degree and polynomial; a curve is named by an object identifier (given by its
    content) or has field, a, b, order and base point; an S-box may follow. *)
Definition der_middle (p : middle) (w : list N) : Prop :=
  match p with
  | Trinomial k => der_integer k w
  | Pentanomial k j l => exists wk wj wl, der_integer k wk /\ der_integer j wj /\ der_integer l wl /\ der_sequence [wk; wj; wl] w
  end.
Definition der_field (f : bfield) (w : list N) : Prop :=
  exists wm wp, der_integer (bf_m f) wm /\ der_middle (bf_poly f) wp /\ der_sequence [wm; wp] w.
Definition der_custom (c : custom) (w : list N) : Prop :=
  exists wf wa wb wn wbp, der_field (cu_field c) wf /\ der_integer (cu_a c) wa /\ der_octets (cu_b c) wb /\ der_integer (cu_n c) wn /\ der_octets (cu_bp c) wbp /\
    der_sequence [wf; wa; wb; wn; wbp] w.
Definition der_params (p : params) (w : list N) : Prop :=
  exists wc ws, match ap_curve p with Named o => der_value 6 o wc | Custom c => der_custom c wc end /\
    match ap_sbox p with Some s => exists v, der_octets s v /\ ws = [v] | None => ws = [] end /\ der_sequence (wc :: ws) w.

(** What is asked of a decoder of octet strings: it reads distinguished encodings, whatever
    follows them.  (Of other strings it may accept some; OpenSSL's does.) *)
Definition reads_octets (d2i : list N -> option (list N)) : Prop :=
  forall c w t, N.of_nat (length c) < 2 ^ 31 -> der_octets c w -> d2i (w ++ t) = Some c.

(** Structures whose parts are byte strings that fit in memory. *)
Definition string_ok (s : list N) : Prop := bytes s /\ N.of_nat (length s) < 2 ^ 31.
Definition integer_ok (x : Z) : Prop := (- 2 ^ (2 ^ 31) < x < 2 ^ (2 ^ 31))%Z.
Definition middle_ok (p : middle) : Prop := match p with Trinomial k => integer_ok k | Pentanomial k j l => integer_ok k /\ integer_ok j /\ integer_ok l end.
Definition custom_ok (c : custom) : Prop :=
  integer_ok (bf_m (cu_field c)) /\ middle_ok (bf_poly (cu_field c)) /\ integer_ok (cu_a c) /\ string_ok (cu_b c) /\ integer_ok (cu_n c) /\ string_ok (cu_bp c).
Definition params_ok (p : params) : Prop :=
  match ap_curve p with Named o => oid_ok o = true /\ string_ok o | Custom c => custom_ok c end /\
  match ap_sbox p with Some s => string_ok s | None => True end.
(** A decoder of parameters that reads distinguished encodings, whatever follows them. *)
Definition reads_params (d2i : list N -> option params) : Prop := forall p w t, params_ok p -> der_params p w -> d2i (w ++ t) = Some p.
