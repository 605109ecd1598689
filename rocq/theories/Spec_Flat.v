(** Degenerate S-boxes.  Independent of the model. *)
From Verif Require Import Base Spec_Gost89 Spec_Params.

(** Every row of the packed S-box has one value only. *)
Definition flat_sbox (p : list N) : Prop := forall row v w, v < 16 -> w < 16 -> packed_sbox p row v = packed_sbox p row w.
(** The halves of a block exchanged. *)
Definition halves_swapped (b : list N) : list N := skipn 4 b ++ firstn 4 b.
(** The xor of 8-byte blocks. *)
Definition xor_blocks (bs : list (list N)) : list N := fold_left xorl bs (zeros 8).
(** A 32-byte difference: the 16-bit word (lo, hi) at the words 1, 5, 11, 14 and 15. *)
Definition tweak (lo hi : N) : list N :=
  [0;0; lo;hi; 0;0; 0;0;  0;0; lo;hi; 0;0; 0;0;  0;0; 0;0; 0;0; lo;hi;  0;0; 0;0; lo;hi; lo;hi].
