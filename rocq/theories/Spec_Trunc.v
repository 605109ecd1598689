(** Specification: curve parameters whose exponents differ by multiples of 2^32. *)
From Coq Require Import ZArith.
From Verif Require Import Base Model_Utils Model_Asn1.

(** Two numbers of 64 bits that agree in their low 32 bits. *)
Definition same_low (x y : Z) : Prop :=
  ((- 2 ^ 63 <= x < 2 ^ 63) /\ (- 2 ^ 63 <= y < 2 ^ 63) /\ exists i, y = x + i * 2 ^ 32)%Z.
(** Two descriptions of a field of the same form, number by number. *)
Definition same_field (f f' : bfield) : Prop :=
  same_low (bf_m f) (bf_m f') /\
  match bf_poly f, bf_poly f' with
  | Trinomial k, Trinomial k' => same_low k k'
  | Pentanomial k j l, Pentanomial k' j' l' => same_low k k' /\ same_low j j' /\ same_low l l'
  | _, _ => False
  end.
