(** What DSTU 4145 asks of signatures and keys. *)
From Verif Require Import Base Model_Gf2m Model_Compress Model_Ec Model_Sign.

(** The contract of BN_rand_range: what it returns is below the bound. *)
Definition ranged (n : N) (src : source) : Prop := forall i v, src i = Some v -> v < n.

(** The field element of a digest: its little-endian value, the bits beyond the field's degree m
    dropped; a digest of zeros stands for 1. *)
Definition field_of_digest (m : N) (digest : list N) : N := if le_val digest =? 0 then 1 else le_val digest mod 2 ^ m.
(** The integer of a field element: its lowest bits, one less than the order has. *)
Definition int_of_field (n v : N) : N := v mod 2 ^ (N.size n - 1).

(** The pair (s, r) is a signature of the digest for the public key Q. *)
Definition valid_signature (g : group) (Q : point) (digest : list N) (s r : N) : Prop :=
  let c := g_curve g in
  1 <= s < g_order g /\ 1 <= r < g_order g /\
  exists x y, padd c (pmul c s (g_gen g)) (pmul c r Q) = Some (x, y) /\
    int_of_field (g_order g) (gmul (c_p c) (field_of_digest (degree (c_p c)) digest) x) = r.

(** The signature that the nonce e gives with private key d. *)
Definition signature_of (g : group) (d e : N) (digest : list N) (s r : N) : Prop :=
  let c := g_curve g in
  exists x y, pmul c e (g_gen g) = Some (x, y) /\
    r = int_of_field (g_order g) (gmul (c_p c) (field_of_digest (degree (c_p c)) digest) x) /\
    s = (e + d * r) mod g_order g.

(** A key pair: the public key is minus d times the base point. *)
Definition key_pair (g : group) (d : N) (Q : point) : Prop := Q = pneg (pmul (g_curve g) d (g_gen g)).
