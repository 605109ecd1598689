(** Specifications for the small parts of keylib: stream reading, UTF-16, private numbers,
    field polynomials, keys from PKCS#8. *)
From Coq Require Import ZArith.
From Verif Require Import Base Model_Utils.

(** The attribute types of IIT keys, 1.3.6.1.4.1.19398.1.1.2.2 for the curve and ...3 for the
    private number; Sun's key protector 1.3.6.1.4.1.42.2.17.1.1 and its password-based
    encryption 1.3.6.1.4.1.42.2.19.1. *)
Definition iit_curve_oid : oid := [1;3;6;1;4;1;19398;1;1;2;2].
Definition iit_key_oid : oid := [1;3;6;1;4;1;19398;1;1;2;3].
Definition sun_key_protector : oid := [1;3;6;1;4;1;42;2;17;1;1].
Definition sun_pbe : oid := [1;3;6;1;4;1;42;2;19;1].

(** The binary digits of an octet, most significant first. *)
Definition octet_digits (b : N) : list bool := map (N.testbit b) [7;6;5;4;3;2;1;0].
(** The number whose i-th digit (from the least significant) is the i-th of the list. *)
Fixpoint from_digits (l : list bool) : N :=
  match l with [] => 0 | d :: t => N.b2n d + 2 * from_digits t end.
(** The digits of the octet string, in order, read with the first as the least significant. *)
Definition reversed_number (s : list N) : N := from_digits (flat_map octet_digits s).

(** The polynomial x^a + x^b + ... over GF(2) as a number; equal exponents merge. *)
Definition poly_with (exps : list Z) (p : N) : Prop := forall i, N.testbit p i = true <-> In (Z.of_N i) exps.
Definition exponents (f : bfield) : list Z :=
  bf_m f :: match bf_poly f with Trinomial k => [k] | Pentanomial k j l => [k; j; l] end ++ [0%Z].
(** Exponents are positive ints. *)
Definition good_exponent (x : Z) : Prop := (0 < x < 2 ^ 31)%Z.
Definition good_field (f : bfield) : Prop :=
  good_exponent (bf_m f) /\ match bf_poly f with Trinomial k => good_exponent k | Pentanomial k j l => good_exponent k /\ good_exponent j /\ good_exponent l end.

(** The last attribute of the given type. *)
Definition typed (o : oid) (a : option attribute) : list attribute :=
  match a with Some x => match at_obj x with Some o' => if list_eq_dec N.eq_dec o' o then [x] else [] | None => [] end | None => [] end.
Definition last_typed (o : oid) (l : list (option attribute)) : option attribute :=
  hd_error (rev (flat_map (typed o) l)).
Definition strings (vs : list asn1_val) : list (list N) :=
  flat_map (fun v => match v with VOctet s | VBit s => [s] | VOther _ => [] end) vs.
Definition specs {spec grp} (e : attr_env spec grp) (vs : list asn1_val) : list spec :=
  flat_map (fun v => match ae_unpack e v with Some s => [s] | None => [] end) vs.
(** The second key [k] can be made from the attributes: the last curve attribute has a
    value that decodes, the first such gives a group; the last key attribute has a string,
    the first such gives the number; and group and number give the key. *)
Definition second_key {spec grp} (e : attr_env spec grp) (l : list (option attribute)) (k : nat) : Prop :=
  exists ca ka s g d, last_typed iit_curve_oid l = Some ca /\ last_typed iit_key_oid l = Some ka /\
    hd_error (specs e (at_vals ca)) = Some s /\ ae_group e s = Some g /\
    hd_error (strings (at_vals ka)) = Some d /\ ae_pkey e g (reversed_number d) = Some k.
(** The strings in the attributes are strings of octets. *)
Definition attrs_bytes (l : list (option attribute)) : Prop :=
  forall a s, In (Some a) l -> In s (strings (at_vals a)) -> bytes s.

(** A UTF-16BE character takes two or four octets. *)
Definition char_ok (c : list N) : Prop := length c = 2%nat \/ length c = 4%nat.

(** All stored numbers fit a C int. *)
Definition int_field (f : bfield) : Prop := Forall (fun x => - 2 ^ 31 <= x < 2 ^ 31)%Z (exponents f).
