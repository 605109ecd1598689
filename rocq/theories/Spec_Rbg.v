(** The DSTU 4145 bit generator and what callers of the random functions may rely on. *)
From Verif Require Import Base.

(** E: the block cipher under the generator's key; I: the encrypted time; s: the state.
    Each bit: x = E(I xor s), the bit is the lowest bit of x, then s := E(x xor I). *)
Section Gen.
Variable E : list N -> list N.
Variable I : list N.
Definition gen_x (s : list N) : list N := E (xorl I s).
Definition gen_next (s : list N) : list N := E (xorl (gen_x s) I).
Definition gen_bit (s : list N) : N := nth 0 (gen_x s) 0 mod 2.
(** The state after [n] bits. *)
Fixpoint gen_after (n : nat) (s : list N) : list N :=
  match n with O => s | S k => gen_after k (gen_next s) end.
(** The first [n] bits. *)
Fixpoint gen_bits (n : nat) (s : list N) : list N :=
  match n with O => [] | S k => gen_bit s :: gen_bits k (gen_next s) end.
(** The number with these bits, least significant first. *)
Fixpoint bits_val (l : list N) : N := match l with [] => 0 | b :: t => b + 2 * bits_val t end.
(** Byte number [n] of the stream is made of bits 8n .. 8n+7; the first [n] bytes. *)
Definition gen_byte (s : list N) (n : nat) : N := bits_val (gen_bits 8 (gen_after (8 * n) s)).
Definition gen_stream (s : list N) (n : nat) : list N := map (gen_byte s) (seq 0 n).
End Gen.
