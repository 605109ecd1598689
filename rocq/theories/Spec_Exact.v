(** When a MAC of a number of bits that is not a multiple of 8 comes out right. *)
From Verif Require Import Base.

(** [nbits] bits are asked for: either whole bytes, or a byte and its lowest bit where the byte
    has no other bits, or the wanted bits of the last byte are all 0. *)
Definition lucky_length (buffer : list N) (nbits : nat) : Prop :=
  let r := N.of_nat (nbits mod 8) in let last := nth (nbits / 8) buffer 0 in
  r = 0 \/ (r = 1 /\ last <= 1) \/ (2 <= r /\ last mod 2 ^ r = 0).
