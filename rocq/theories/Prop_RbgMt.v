(** Property theorems C119 and C120: the random functions called from several threads. *)
From Verif Require Import Base Model_Gost89 Model_Rbg Model_RbgMt Spec_RbgMt Proof_RbgMt.

(** C119: status, bytes and cleanup called by any number of threads under any schedule, whether
    or not the system generator delivers at each call: as long as the run is defined, the
    completed calls can be put in one order that keeps the order of each thread, in which one
    thread alone would get exactly the results the threads got.  A call completed at some time
    is before every call completed later: the order at a later time continues the one before. *)
Theorem C119_linearizable : forall reqs s1 s2 w1 w2, mrun (mwith reqs) s1 = Some w1 -> mrun w1 s2 = Some w2 ->
  exists o1 o2, linear reqs w1 o1 /\ linear reqs w2 (o1 ++ o2).
Proof. exact linearizable. Qed.
Print Assumptions C119_linearizable.
(** If nobody cleans up and the lock can be created, every schedule is defined and from every
    point all calls can still complete: no deadlock. *)
Theorem C119_defined : forall reqs, (forall e o, calls reqs (e, o) -> e_lock e = true /\ o <> RCleanup) ->
  forall sched, exists w, mrun (mwith reqs) sched = Some w /\ exists rest w', mrun w rest = Some w' /\ finished w'.
Proof. exact stays_defined. Qed.
Print Assumptions C119_defined.

Definition ex_mt (ready : bool) : env := ENV true ready (Some (map N.of_nat (seq 1 40))) [1;2;3;4;5;6;7;8].
(** Three threads; the first to ask finds the system generator not ready. *)
Definition ex_reqs : list (list (env * rop)) := [[(ex_mt false, RBytes 1%Z)]; [(ex_mt true, RStatus); (ex_mt true, RBytes 1%Z)]; [(ex_mt true, RBytes 1%Z)]].
Example C119_ex : forall e o, calls ex_reqs (e, o) -> e_lock e = true /\ o <> RCleanup.
Proof.
  intros e o (q & [<-|[<-|[<-|[]]]] & H); cbn [In] in H; repeat (destruct H as [H|H]); try contradiction; inversion H; split; reflexivity || discriminate.
Qed.
(** Run in turns they all end, the first with a failure and a zero, the others with different bytes. *)
Definition ex_turns (n : nat) : list nat := flat_map (fun _ => [0; 1; 2])%nat (seq 0 n).
Example C119_ex_run : option_map (fun w => map (fun i => option_map m_done (mw_threads w i)) [0; 1; 2]%nat) (mrun (mwith ex_reqs) (ex_turns 120)) =
  Some [Some [ROUT false [0]]; Some [ROUT true []; ROUT true [89]]; Some [ROUT true [241]]].
Proof. vm_compute. reflexivity. Qed.

(** C120 is violated: whenever one thread is to clean up and another is to make any call at all,
    some schedule ends in a use of a freed or missing lock. *)
Theorem C120_cleanup_refuted : forall reqs i j qi qj e, i <> j -> nth_error reqs i = Some qi -> nth_error reqs j = Some qj ->
  In (e, RCleanup) qi -> qj <> [] -> exists sched, mrun (mwith reqs) sched = None.
Proof. exact cleanup_beside. Qed.
Print Assumptions C120_cleanup_refuted.
Example C120_ex : nth_error [[(ex_mt true, RBytes 1%Z)]; [(ex_mt true, RStatus); (ex_mt true, RCleanup)]] 1 = Some [(ex_mt true, RStatus); (ex_mt true, RCleanup)].
Proof. reflexivity. Qed.
(** The last call of a thread may be waiting for the lock when it is freed. *)
Example C120_ex_run : mrun (mwith [[(ex_mt true, RStatus)]; [(ex_mt true, RCleanup)]]) [1; 0; 1; 0; 1; 1; 0; 1; 1; 1]%nat <> None /\
  mrun (mwith [[(ex_mt true, RStatus)]; [(ex_mt true, RCleanup)]]) [1; 0; 1; 0; 1; 1; 0; 1; 1; 1; 0]%nat = None.
Proof. vm_compute. split; [discriminate|reflexivity]. Qed.
