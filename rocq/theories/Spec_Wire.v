(** What the octets of a key must say (DSTU 4145 and its ASN.1 module). *)
From Coq Require Import ZArith.
From Verif Require Import Base Model_Params Model_Gf2m Model_Compress Model_Ec Model_Curves Model_Sign Model_Asn1 Model_Pmeth Model_Utils Model_Ameth Spec_Gf2m Spec_Compress Spec_Curves Spec_Asn1 Spec_Keylib Spec_Key.

(** Octet strings in keys of type 1158 (dstu4145le) are little-endian. *)
Definition big_endian (t : Z) (s : list N) : list N := if (t =? 1158)%Z then rev s else s.
(** Content octets of the object identifier 1.2.804.2.1.1.1.1.3.1.1.2.i of the i-th standard
    curve. *)
Definition standard_oid (i : N) : list N := [40 * 1 + 2; 128 + 804 / 128; 804 mod 128; 2; 1; 1; 1; 1; 3; 1; 1; 2; i].
Definition standard_group (i : N) : option group := group_from_nid (1160 + Z.of_N i).
(** A string of the length of a field element that stands for the point. *)
Definition point_string (t : Z) (c : curve) (s : list N) (P : point) : Prop :=
  bytesn (N.to_nat (field_size c)) s /\ exists x y, P = Some (x, y) /\ stands_for c (big_endian t s) x y.
(** The structure describes the curve: polynomial x^m + x^k + 1 or x^m + x^l + x^j + x^k + 1 with
    m > l > j > k > 0, the coefficients, the order and the base point. *)
Definition custom_says (t : Z) (c : custom) (g : group) : Prop :=
  let cv := g_curve g in let m := Z.of_N (degree (c_p cv)) in
  bf_m (cu_field c) = m /\ match bf_poly (cu_field c) with Trinomial k => 0 < k < m | Pentanomial k j l => 0 < k < j /\ j < l < m end%Z /\
  poly_with (Spec_Keylib.exponents (cu_field c)) (c_p cv) /\
  cu_a c = Z.of_N (c_a cv) /\ bytesn (N.to_nat (field_size cv)) (cu_b c) /\ be_val (big_endian t (cu_b c)) = c_b cv /\
  cu_n c = Z.of_N (g_order g) /\ point_string t cv (cu_bp c) (g_gen g).
(** Standard curves are named, others described; the S-box is given if it is not the default. *)
Definition params_say (t : Z) (p : params) (g : group) (sb : option (list N)) : Prop :=
  match ap_curve p with
  | Named o => exists i, i < 10 /\ o = standard_oid i /\ standard_group i = Some g
  | Custom c => (forall i, standard_group i <> Some g) /\ custom_says t c g
  end /\ ap_sbox p = (if list_eq_dec N.eq_dec (effective sb) default_sbox then None else Some (effective sb)).
