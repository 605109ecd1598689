(** What the engine promises about lookups when memory may run out. *)
From Coq Require Import ZArith.
From Verif Require Import Base Model_Err Model_Engine Spec_Engine.

(** Memory for method objects is new when there is some. *)
Definition malloc_fresh (malloc : mheap -> option nat) : Prop := forall h p, malloc h = Some p -> live h p = None.
(** The call reports that it failed: it returns 0 and hands out nothing. *)
Definition refused (a : answer) : Prop := a_ret a = 0%Z /\ a_meth a = Some None.
(** The call claims to have succeeded and hands out NULL. *)
Definition empty_success (a : answer) : Prop := a_ret a = 1%Z /\ a_meth a = Some None.
(** A lookup of a digest or a cipher. *)
Definition algorithm_lookup (o : eng_op) : Prop := match o with GDigests _ _ _ | GCiphers _ _ _ => True | _ => False end.
(** A lookup of a key method. *)
Definition key_lookup (o : eng_op) : Prop := match o with GPkey _ _ _ => True | _ => False end.
(** A bind of this engine, or a lookup of an encoding method of one of its key types. *)
Definition fragile (o : eng_op) : Prop :=
  match o with GBind id _ => id = true | GAsn1 out _ n => out = true /\ (n = 1158 \/ n = 1159)%Z | _ => False end.
