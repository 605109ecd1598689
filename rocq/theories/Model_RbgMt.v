(** engine/rbg.c called from several threads, with all its functions and the life of its lock. *)
From Verif Require Import Base Model_Gost89 Model_Params Model_Rbg.

(** rbg.c:20-21: not yet created, NULL because CRYPTO_THREAD_lock_new failed, live and held by a
    thread or by none, freed (rbg.c:162; the pointer is kept). *)
Inductive mlock := KNone | KNull | KLive (owner : option nat) | KFreed.

(** Where a thread is.  A step is one access to the shared variables; the seeding (rbg.c:54-77
    within 95-111) is one step, as it runs under the lock or, if the lock is NULL, in a thread
    that will crash. *)
Inductive mpc :=
| QStart                                     (** before dstu_lock: rbg.c:115, 130, 154 *)
| QStatus                                    (** rbg.c:117 *)
| QCheck                                     (** rbg.c:132 *)
| QSeed                                      (** rbg.c:134 *)
| QLoop (rv : bool) (left : nat) (out : list N)             (** rbg.c:138, out = bytes written *)
| QX (rv : bool) (left : nat) (out : list N) (j : nat) (b : N)            (** rbg.c:84-86 *)
| QS (rv : bool) (left : nat) (out : list N) (j : nat) (b : N) (x : list N)  (** rbg.c:88-89 *)
| QE (rv : bool) (left : nat) (out : list N) (j : nat) (b : N) (x : list N)  (** rbg.c:90-92 *)
| QClean (k : nat)                           (** rbg.c:156-159, the k-th of them *)
| QUnlock (o : rout)                         (** rbg.c:119, 147, 161 *)
| QFree.                                     (** rbg.c:162 *)

(** A thread: where it is, the calls it has yet to make (the first is the one it is in), the
    results of those made.  The result of cleanup, which returns nothing, is noted at its
    unlock. *)
Record mthread := MT { m_pc : mpc; m_todo : list (env * rop); m_done : list rout }.
(** The statics, the lock, the threads. *)
Record mworld := MW { mw_r : rbg; mw_lock : mlock; mw_threads : nat -> option mthread }.
(** A thread changed. *)
Definition mset (ts : nat -> option mthread) (i : nat) (t : mthread) : nat -> option mthread :=
  fun j => if Nat.eqb j i then Some t else ts j.

(** rbg.c:156-159: the four stores of cleanup. *)
Definition clean_store (k : nat) (r : rbg) : rbg :=
  match k with
  | O => RBG (zeros 8) (r_s r) (r_c r) (r_init r)
  | 1%nat => RBG (r_I r) (zeros 8) (r_c r) (r_init r)
  | 2%nat => RBG (r_I r) (r_s r) zero_gost (r_init r)
  | _ => RBG (r_I r) (r_s r) (r_c r) false
  end.

(** The first statement after the lock: rbg.c:117, 132, 156. *)
Definition entry (o : rop) : mpc := match o with RStatus => QStatus | RBytes _ => QCheck | RCleanup => QClean 0 end.

(** rbg.c:31-36 dstu_lock by thread i; its result is not looked at.  None: a freed lock is used.
    Some None: the thread has to wait.  The lock is created once (CRYPTO_THREAD_run_once). *)
Definition mlock_take (l : mlock) (e : env) (i : nat) : option (option mlock) :=
  match l with
  | KNone => Some (Some (if e_lock e then KLive (Some i) else KNull))
  | KNull => Some (Some KNull)
  | KLive None => Some (Some (KLive (Some i)))
  | KLive (Some _) => Some None
  | KFreed => None
  end.
(** rbg.c:38-41 dstu_unlock by thread i.  None: NULL, a freed lock, or one the thread does not hold. *)
Definition mlock_give (l : mlock) (i : nat) : option mlock :=
  match l with
  | KLive (Some j) => if Nat.eqb i j then Some (KLive None) else None
  | _ => None
  end.
(** rbg.c:162 CRYPTO_THREAD_lock_free.  None: the lock is held by a thread, or was freed before.
    free(NULL) does nothing. *)
Definition mlock_free (l : mlock) : option mlock :=
  match l with KLive None => Some KFreed | KNull => Some KNull | _ => None end.

(** One step of thread [i]; a thread that cannot run does nothing.  None is undefined behaviour. *)
Definition mstep (w : mworld) (i : nat) : option mworld :=
  match mw_threads w i with
  | None => Some w
  | Some t =>
      let r := mw_r w in
      match m_pc t, m_todo t with
      | QFree, _ =>
          match mlock_free (mw_lock w) with
          | None => None
          | Some l => Some (MW r l (mset (mw_threads w) i (MT QStart (m_todo t) (m_done t))))
          end
      | _, [] => Some w
      | p, (e, o) :: rest =>
          let go r' p' := Some (MW r' (mw_lock w) (mset (mw_threads w) i (MT p' (m_todo t) (m_done t)))) in
          match p with
          | QStart =>
              match mlock_take (mw_lock w) e i with
              | None => None
              | Some None => Some w
              | Some (Some l) => Some (MW r l (mset (mw_threads w) i (MT (entry o) (m_todo t) (m_done t))))
              end
          | QStatus => let '(r', rv) := status_nolock r e in go r' (QUnlock (ROUT rv []))
          | QCheck => go r (if r_init r then QLoop true (loop_bound (match o with RBytes n => n | _ => 0%Z end)) [] else QSeed)
          | QSeed => let '(r', rv) := status_nolock r e in go r' (QLoop rv (loop_bound (match o with RBytes n => n | _ => 0%Z end)) [])
          | QLoop rv O out => go r (QUnlock (ROUT rv out))
          | QLoop rv (S k) out => go r (QX rv k out 0%nat 0)
          | QX rv k out j b => go r (QS rv k out j b (bit_x r))
          | QS rv k out j b x => go (bit_s r x) (QE rv k out j b x)
          | QE rv k out j b x =>
              let b' := w8 (N.lor b (N.shiftl (low_bit x) (N.of_nat j))) in
              go (bit_e r) (if Nat.eqb j 7 then QLoop rv k (out ++ [b']) else QX rv k out (S j) b')
          | QClean k => go (clean_store k r) (if Nat.eqb k 3 then QUnlock (ROUT true []) else QClean (S k))
          | QUnlock out =>
              match mlock_give (mw_lock w) i with
              | None => None
              | Some l =>
                  Some (MW r l (mset (mw_threads w) i (MT (match o with RCleanup => QFree | _ => QStart end) rest (m_done t ++ [out]))))
              end
          | QFree => Some w
          end
      end
  end.
(** A schedule is any list of thread numbers. *)
Fixpoint mrun (w : mworld) (sched : list nat) : option mworld :=
  match sched with
  | [] => Some w
  | i :: t => match mstep w i with None => None | Some w' => mrun w' t end
  end.
(** The program start: threads 0 .. length reqs - 1, each with the calls it will make. *)
Definition mwith (reqs : list (list (env * rop))) : mworld :=
  MW rbg0 KNone (fun i => match nth_error reqs i with Some q => Some (MT QStart q []) | None => None end).
