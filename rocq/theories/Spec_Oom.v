(** Memory of which one allocation fails. *)
From Coq Require Import ZArith.
From Verif Require Import Base Model_Ctx Spec_Ctx.

Definition fails_at (k : nat) : nat -> heap -> option nat := some_malloc (fun n => negb (Nat.eqb n k)).
