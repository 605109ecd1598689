(** Specification for the packed S-box format. *)
From Verif Require Import Base.

(** Packed format: eight groups of 8 bytes, group [row] holds the sixteen 4-bit values of
    that row, two per byte, even entries in the high half. *)
Definition sbox_entry (p : list N) (row e : nat) : N :=
  let b := nth (8 * row + e / 2) p 0 in if Nat.even e then b / 16 else b mod 16.
(** The substitution given by a packed S-box. *)
Definition packed_sbox (p : list N) : nat -> N -> N := fun row v => sbox_entry p row (N.to_nat v).

(** The S-box DKE No. 1 of the Ukrainian profile of GOST 28147, nodes K8 down to K1. *)
Definition DKE1 : list (list N) :=
  [[10; 9;13; 6;14;11; 4; 5;15; 1; 3;12; 7; 0; 8; 2];
   [ 8; 0;12; 4; 9; 6; 7;11; 2; 3; 1;15; 5;14;10;13];
   [15; 6; 5; 8;14;11;10; 4;12; 0; 3; 7; 2; 9; 1;13];
   [ 3; 8;13; 9; 6;11;15; 0; 2; 5;12;10; 4;14; 1; 7];
   [15; 8;14; 9; 7; 2; 0;13;12; 6; 1; 5;11; 4; 3;10];
   [ 2; 8; 9; 7; 5;15; 0;11;12; 1;13;14;10; 3; 6; 4];
   [ 3; 8;11; 5; 6; 4;14;10; 2;12; 1; 7; 9;15;13; 0];
   [ 1; 2; 3;14; 6;13;11; 8;15;10;12; 5; 7; 9; 0; 4]].
