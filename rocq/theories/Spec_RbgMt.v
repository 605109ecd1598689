(** What it means that calls of several threads behave as if made one after the other. *)
From Verif Require Import Base Model_Rbg Model_RbgMt.

(** [order]: the calls completed so far, each with its thread. *)
Definition of_thread {A} (i : nat) (l : list (nat * A)) : list A := map snd (filter (fun e => Nat.eqb (fst e) i) l).
(** The results these calls have when one thread makes them in this order. *)
Definition results (order : list (nat * (env * rop))) : list (nat * rout) := combine (map fst order) (snd (brun rbg0 (map snd order))).
(** For every thread: what it was to do is what it did, in its order, and what it has yet to do;
    the results it saw are those of the one thread. *)
Definition linear (reqs : list (list (env * rop))) (w : mworld) (order : list (nat * (env * rop))) : Prop :=
  (forall i, nth_error reqs i = None <-> mw_threads w i = None) /\
  forall i t, mw_threads w i = Some t ->
    nth_error reqs i = Some (of_thread i order ++ m_todo t) /\ m_done t = of_thread i (results order).
(** The calls of a program. *)
Definition calls (reqs : list (list (env * rop))) (eo : env * rop) : Prop := exists q, In q reqs /\ In eo q.
(** All threads have made all their calls. *)
Definition finished (w : mworld) : Prop := forall i t, mw_threads w i = Some t -> m_todo t = [] /\ m_pc t = QStart.
