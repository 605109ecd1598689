(** Specification of the CFB stream cipher and its parameters. *)
From Verif Require Import Base Spec_Gost89.

(** CFB of a whole message with block function [E]; [enc] is the direction. *)
Definition cfb_stream (enc : bool) (E : list N -> list N) (iv msg : list N) : list N :=
  concat ((if enc then cfb_encrypt else cfb_decrypt) E iv (chunks 8 msg)).

(** DER tag-length-value with a one-byte length (contents shorter than 128 bytes). *)
Definition der (tag : N) (contents : list N) : list N := tag :: N.of_nat (length contents) :: contents.
(** SEQUENCE { OCTET STRING iv, OCTET STRING sbox } *)
Definition der_params (iv sbox : list N) : list N := der 0x30 (der 4 iv ++ der 4 sbox).

(** A message cut in pieces for successive calls: byte strings, none empty, each short
    enough for an int length. *)
Definition pieces (ds : list (list N)) : Prop :=
  Forall (fun d => bytes d /\ d <> [] /\ N.of_nat (length d) < 2 ^ 31) ds.
