(** Exponents of encoded curves beyond 32 bits (dstulib/key.c, keylib/utils.c). *)
From Coq Require Import Lia ZArith.
From Verif Require Import Base Model_Gf2m Model_Ec Model_Utils Model_Sign Model_Asn1 Model_Pmeth Model_Key Spec_Trunc Spec_Toy Proof_Trunc.

(** C51 does not hold of the exponents of any custom curve: parameters that differ in them by
    multiples of 2^32, of either sign, are the same curve to both readers, or are refused alike. *)
Theorem C51_truncated_refuted : forall solve f f' a b n bp s le, same_field f f' ->
  key_from_asn1 solve (PARAMS (Custom (CUSTOM f a b n bp)) s) le = key_from_asn1 solve (PARAMS (Custom (CUSTOM f' a b n bp)) s) le /\
  makePoly f = makePoly f'.
Proof. exact (fun solve f f' a b n bp s le h => conj (key_low solve f f' a b n bp s le h) (proj2 (poly_low f f' h))). Qed.
Print Assumptions C51_truncated_refuted.
Example C51_truncated_ex : same_field (BF 5 (Trinomial 2)) (BF (5 - 7 * 2 ^ 32) (Trinomial (2 + 2 ^ 40))) /\
  same_field (BF 163 (Pentanomial 3 6 7)) (BF (163 + 2 ^ 32) (Pentanomial (3 - 2 ^ 62) 6 (7 + 2 ^ 33))) /\
  ~ same_field (BF 5 (Trinomial 2)) (BF (5 + 2 ^ 63) (Trinomial 2)) /\
  key_from_asn1 solve_quad (PARAMS (Custom (CUSTOM (BF (5 - 7 * 2 ^ 32) (Trinomial (2 + 2 ^ 40))) 1 [2] 17 [2])) None) true =
    Some (DKEY (ECKEY (Some (Binary toy_group)) None None) None).
Proof.
  split; [|split; [|split]].
  - unfold same_field, same_low; cbn [bf_m bf_poly]. split; (split; [lia|split; [lia|]]); [exists (-7)%Z | exists (2 ^ 8)%Z]; lia.
  - unfold same_field, same_low; cbn [bf_m bf_poly].
    repeat split; try lia; [exists 1%Z | exists (- 2 ^ 30)%Z | exists 0%Z | exists 2%Z]; lia.
  - intros [(_ & h & _) _]. cbn [bf_m] in h. lia.
  - vm_compute. reflexivity.
Qed.
