(** What is expected of encoded keys. *)
From Coq Require Import ZArith.
From Verif Require Import Base Model_Params Model_Gf2m Model_Compress Model_Ec Model_Sign Model_Pmeth Spec_Gf2m Spec_Compress Spec_Curves.

(** The S-box a key uses: the default one if it has none. *)
Definition effective (sbox : option (list N)) : list N := match sbox with Some s => s | None => default_sbox end.
(** S-boxes have 64 bytes. *)
Definition sbox_ok (sbox : option (list N)) : Prop := match sbox with Some s => bytesn 64 s | None => True end.
(** What OpenSSL guarantees of a binary group: three or five terms in the polynomial, an order
    that is not much longer than it.  The size is bounded by memory. *)
Definition api_group (g : group) : Prop :=
  (weight (c_p (g_curve g)) = 3 \/ weight (c_p (g_curve g)) = 5) /\ 1 <= g_order g /\
  N.size (g_order g) <= N.size (c_p (g_curve g)) + 1 /\ degree (c_p (g_curve g)) < 2 ^ 30.
(** Points whose compressed form exists: all but infinity and, on the line x = 1, those whose y
    has trace 0 (C37). *)
Definition has_compressed_form (c : curve) (P : point) : Prop :=
  match P with None => False | Some (x, y) => x <> 1 \/ trace_of (c_p c) y = 1 end.
(** The same group with the cofactor 1. *)
Definition cofactor_one (g : group) : group := GROUP (g_curve g) (g_gen g) (g_order g) 1.
(** A key with curve and public key. *)
Definition complete (pk : pkey) : Prop := forall k, pk_key pk = Some k -> ek_group (dk_ec k) <> None /\ ek_pub (dk_ec k) <> None.
