(** Which ciphertext bytes a byte of a CFB stream depends on. *)
From Verif Require Import Base.

(** The eight bytes that come before block [i] of the ciphertext [ct]: the IV for block 0,
    the ciphertext block i-1 otherwise. *)
Definition block_before (iv ct : list N) (i : nat) : list N := firstn 8 (skipn (8 * i) (iv ++ ct)).

(** Two strings of the same length that differ at most inside block [i]. *)
Definition differ_in_block (i : nat) (a b : list N) : Prop :=
  length a = length b /\ forall j, (j / 8 <> i)%nat -> nth j a 0 = nth j b 0.
