(** Running the DSTU 4145 bit generator backwards, from its state alone. *)
From Verif Require Import Base Spec_Rbg.

(** D: the block cipher's decryption under the generator's key; I: the encrypted time;
    s: the state.  The bit given out last came from x = D(s) xor I; before it the state was
    D(x) xor I. *)
Section Back.
Variable D : list N -> list N.
Variable I : list N.
Definition last_x (s : list N) : list N := xorl (D s) I.
Definition last_bit (s : list N) : N := nth 0 (last_x s) 0 mod 2.
Definition before (s : list N) : list N := xorl (D (last_x s)) I.
(** The state [n] bits ago. *)
Fixpoint ago (n : nat) (s : list N) : list N :=
  match n with O => s | S k => ago k (before s) end.
(** The last [n] bits, in the order they were given out. *)
Fixpoint last_bits (n : nat) (s : list N) : list N :=
  match n with O => [] | S k => last_bits k (before s) ++ [last_bit s] end.
(** The last [n] bytes, in the order they were given out. *)
Fixpoint last_bytes (n : nat) (s : list N) : list N :=
  match n with O => [] | S k => last_bytes k (ago 8 s) ++ [bits_val (last_bits 8 s)] end.
End Back.
