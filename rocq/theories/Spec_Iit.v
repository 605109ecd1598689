(** What IIT attributes say about a key. *)
From Coq Require Import ZArith.
From Verif Require Import Base Model_Gf2m Model_Compress Model_Ec Model_Sign Model_Asn1 Model_Utils Model_Key Model_Ctx Model_Iit Spec_Keylib.

(** The group that a custom curve structure describes when its strings are read big-endian: the
    field polynomial has exactly the exponents given, a and b are reduced by it, the base point is
    the one its compressed form stands for, the order is positive and not too long. *)
Definition described (solve : N -> N -> option N) (c : custom) (g : group) : Prop :=
  let p := c_p (g_curve g) in
  poly_with (Spec_Keylib.exponents (cu_field c)) p /\ (weight p = 3 \/ weight p = 5) /\
  c_a (g_curve g) = pmod (Z.abs_N (cu_a c)) p /\ c_b (g_curve g) = pmod (be_val (cu_b c)) p /\
  expand solve (cu_bp c) (g_curve g) = Some (g_gen g) /\
  (0 < cu_n c)%Z /\ Z.of_N (g_order g) = cu_n c /\ num_bits (g_order g) <= num_bits p + 1 /\ g_cofactor g = 1.

(** The first value of the curve attribute that is a curve structure. *)
Definition curve_specs (unpack : asn1_val -> option attr_spec) (a : attribute) : list attr_spec :=
  flat_map (fun v => match unpack v with Some s => [s] | None => [] end) (at_vals a).
(** The exponents are ints and not negative. *)
Definition plain_field (f : bfield) : Prop := Forall (fun x => 0 <= x < 2 ^ 31)%Z (Spec_Keylib.exponents f).
(** Strings of octets. *)
Definition octets (a : attribute) : Prop := forall s, In s (strings (at_vals a)) -> bytes s.
(** A heap: no address is used twice. *)
Definition heap_ok (h : heap) : Prop := NoDup (map fst h).
