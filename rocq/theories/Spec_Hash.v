(** GOST 34.311-95 (GOST R 34.11-94) over integers, as the standard writes it, and the
    behaviour of digest contexts.  Independent of the model. *)
From Verif Require Import Base Spec_Gost89.

(** Digit i (from 0, least significant) of X in base 2^w. *)
Definition part (w i X : N) : N := (X / 2 ^ (w * i)) mod 2 ^ w.

(** A(x4||x3||x2||x1) = (x1 xor x2)||x4||x3||x2, 64-bit parts. *)
Definition trA (X : N) : N :=
  N.lxor (part 64 0 X) (part 64 1 X) * 2 ^ 192 + part 64 3 X * 2 ^ 128 + part 64 2 X * 2 ^ 64 + part 64 1 X.

(** P moves byte phi(n) to byte n, phi(i+1+4(k-1)) = 8i+k (counted from 1), i<4, 1<=k<=8. *)
Definition phi (n : N) : N := 8 * (n mod 4) + n / 4.
Definition trP (X : N) : N :=
  fold_right (fun n acc => part 8 (phi (N.of_nat n)) X * 2 ^ (8 * N.of_nat n) + acc) 0 (seq 0 32).

(** C3 = 1^8 0^8 1^16 0^24 1^16 0^8 (0^8 1^8)^2 1^8 0^8 (0^8 1^8)^4 (1^8 0^8)^4. *)
Definition C3 : N := 0xff00ffff000000ffff0000ff00ffff0000ff00ff00ff00ffff00ff00ff00ff00.

(** The four keys. *)
Definition keys4 (H M : N) : N * N * N * N :=
  let U1 := H in let V1 := M in
  let U2 := trA U1 in let V2 := trA (trA V1) in
  let U3 := N.lxor (trA U2) C3 in let V3 := trA (trA V2) in
  let U4 := trA U3 in let V4 := trA (trA V3) in
  (trP (N.lxor U1 V1), trP (N.lxor U2 V2), trP (N.lxor U3 V3), trP (N.lxor U4 V4)).

(** The 64-bit block cipher on integers. *)
Definition E64 (S : sbox) (K x : N) : N := le_val (encrypt S (le_bytes 32 K) (le_bytes 8 x)).

(** psi on 16-bit parts: (g1+g2+g3+g4+g13+g16)||g16||...||g2. *)
Definition psi (X : N) : N :=
  N.lxor (N.lxor (N.lxor (N.lxor (N.lxor (part 16 0 X) (part 16 1 X)) (part 16 2 X)) (part 16 3 X)) (part 16 12 X)) (part 16 15 X)
    * 2 ^ 240 + X / 2 ^ 16.

(** Step hash function. *)
Definition chi (S : sbox) (H M : N) : N :=
  let '(k1, k2, k3, k4) := keys4 H M in
  let X := E64 S k4 (part 64 3 H) * 2 ^ 192 + E64 S k3 (part 64 2 H) * 2 ^ 128
         + E64 S k2 (part 64 1 H) * 2 ^ 64 + E64 S k1 (part 64 0 H) in
  N.iter 61 psi (N.lxor H (psi (N.lxor M (N.iter 12 psi X)))).

(** The message as 256-bit integers, the last one padded with zeros at the high end; the
    empty message is one zero block. *)
Definition msg_blocks (m : list N) : list N :=
  match chunks 32 m with [] => [0] | bs => map le_val bs end.

(** Hash of a byte string with zero starting value. *)
Definition gost34311 (S : sbox) (m : list N) : N :=
  let bs := msg_blocks m in
  let H := fold_left (chi S) bs 0 in
  let L := (8 * N.of_nat (length m)) mod 2 ^ 256 in
  let Sum := fold_left (fun a b => (a + b) mod 2 ^ 256) bs 0 in
  chi S (chi S H L) Sum.

Definition digest (S : sbox) (m : list N) : list N := le_bytes 32 (gost34311 S m).
