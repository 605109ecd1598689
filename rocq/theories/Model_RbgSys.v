(** Model of engine/rbg.c together with the system generator it is seeded from, and of the
    copy of its memory that a forked process gets. *)
From Verif Require Import Base Model_Rbg.

(** RAND_OpenSSL(): any state and any functions over it (add, seed, status, bytes; rbg.c:46,
    51, 62, 97).  The entropy estimate given with add is part of nothing the engine does. *)
Record sysgen (S : Type) := SYS {
  sg_add : S -> list N -> S * bool;
  sg_seed : S -> list N -> S * bool;
  sg_status : S -> S * bool;
  sg_bytes : S -> nat -> S * option (list N) }.
Arguments SYS {S}. Arguments sg_add {S}. Arguments sg_seed {S}. Arguments sg_status {S}. Arguments sg_bytes {S}.

(** A process: the lock, the statics of rbg.c:16-21 and the system generator. *)
Record proc (S : Type) := PROC { p_lock : lock_state; p_r : rbg; p_sys : S }.
Arguments PROC {S}. Arguments p_lock {S}. Arguments p_r {S}. Arguments p_sys {S}.
(** A process that has made no call. *)
Definition start {S} (s : S) : proc S := PROC LNone rbg0 s.
(** Whether a lock can be made, and the 8 bytes left by time(), at one call. *)
Definition moment := (bool * list N)%type.
(** The calls through the table rbg.c:165-173. *)
Inductive pop := PAdd (buf : list N) | PSeedWith (buf : list N) | PRand (o : rop).

(** What rbg.c:97 and 62 would get from the system generator. *)
Definition answers {S} (sys : sysgen S) (s : S) (m : moment) : env :=
  let (s1, st) := sg_status sys s in ENV (fst m) st (snd (sg_bytes sys s1 40)) (snd m).
(** The system generator after rbg.c:95-111. *)
Definition sys_status {S} (sys : sysgen S) (s : S) (init : bool) : S :=
  let (s1, st) := sg_status sys s in if st && negb init then fst (sg_bytes sys s1 40) else s1.
(** The system generator after a call: dstu_rbg_bytes asks it only before it is initialised
    (rbg.c:132), cleanup does not. *)
Definition sys_after {S} (sys : sysgen S) (s : S) (r : rbg) (o : rop) : S :=
  match o with
  | RStatus => sys_status sys s (r_init r)
  | RBytes _ => if r_init r then s else sys_status sys s false
  | RCleanup => s
  end.
(** One call.  rbg.c:44-52: add and seed go to the system generator only, without the lock. *)
Definition pcall {S} (sys : sysgen S) (p : proc S) (m : moment) (o : pop) : option (proc S * rout) :=
  match o with
  | PAdd b => let (s, v) := sg_add sys (p_sys p) b in Some (PROC (p_lock p) (p_r p) s, ROUT v [])
  | PSeedWith b => let (s, v) := sg_seed sys (p_sys p) b in Some (PROC (p_lock p) (p_r p) s, ROUT v [])
  | PRand o =>
      match rcall (p_lock p) (p_r p) (answers sys (p_sys p) m) o with
      | None => None
      | Some (l, r, out) => Some (PROC l r (sys_after sys (p_sys p) (p_r p) o), out)
      end
  end.
(** A history of calls. *)
Fixpoint prun {S} (sys : sysgen S) (p : proc S) (h : list (moment * pop)) : option (proc S * list rout) :=
  match h with
  | [] => Some (p, [])
  | (m, o) :: t =>
      match pcall sys p m o with
      | None => None
      | Some (p1, out) =>
          match prun sys p1 t with
          | None => None
          | Some (p2, outs) => Some (p2, out :: outs)
          end
      end
  end.
(** fork() between two calls: the child has a copy of the statics (rbg.c:16-21; nothing in
    rbg.c asks for the process number).  The system generator may do something else about
    it: [s] is any state. *)
Definition forked {S} (p : proc S) (s : S) : proc S := PROC (p_lock p) (p_r p) s.
