(** Model of engine/rbg.c. *)
From Verif Require Import Base Model_Gost89 Model_Params.

(** rbg.c:20-21 dstu_rand_lock and the once-flag: the lock is not yet created, creation
    failed (NULL), live, or freed. *)
Inductive lock_state := LNone | LNull | LLive | LFreed.

(** rbg.c:16-19 the statics.  I and s are u4[2], held as their 8 bytes. *)
Record rbg := RBG { r_I : list N; r_s : list N; r_c : gost_ctx; r_init : bool }.
(** The static cryptor (rbg.c:18) at the start and after rbg.c:158. *)
Definition zero_gost : gost_ctx := CTX (zeros 8) (zeros 8) (zeros 256) (zeros 256) (zeros 256) (zeros 256).
(** Static storage is zero at program start; OPENSSL_cleanse leaves the same. *)
Definition rbg0 : rbg := RBG (zeros 8) (zeros 8) zero_gost false.

(** What the world answers during one call: whether CRYPTO_THREAD_lock_new succeeds (if it
    is called), RAND_OpenSSL()->status() non-zero, the 40 seed bytes delivered by
    RAND_OpenSSL()->bytes (None = it fails), and the 8 bytes of [curr] after time(). *)
Record env := ENV { e_lock : bool; e_status : bool; e_seed : option (list N); e_time : list N }.

(** rbg.c:54-77 dstu_rbg_init: new state, return value. *)
Definition rbg_init (r : rbg) (e : env) : rbg * bool :=
  match e_seed e with
  | None => (r, false)
  | Some seed =>
      let c := gost_init (r_c r) (Some (unpack_sbox default_sbox)) in
      let c := gost_key_nomask c (firstn 32 seed) in
      (RBG (gostcrypt c (e_time e)) (firstn 8 (skipn 32 seed)) c true, true)
  end.

(** rbg.c:79-93 dstu_rbg_get_bit.  x[0] & 1 is bit 0 of the first byte (little-endian
    host: simplification).  The three assignments to shared or local words are the
    functions below, so that the concurrent model can interleave them. *)
Definition bit_x (r : rbg) : list N := gostcrypt (r_c r) (xorl (r_I r) (r_s r)).
(** A write to s (rbg.c:17). *)
Definition set_s (r : rbg) (v : list N) : rbg := RBG (r_I r) v (r_c r) (r_init r).
(** rbg.c:88-89 *)
Definition bit_s (r : rbg) (x : list N) : rbg := set_s r (xorl x (r_I r)).
(** rbg.c:90 *)
Definition bit_e (r : rbg) : rbg := set_s r (gostcrypt (r_c r) (r_s r)).
(** rbg.c:92 *)
Definition low_bit (x : list N) : N := N.land (nth 0 x 0) 1.
(** rbg.c:79-93 dstu_rbg_get_bit *)
Definition get_bit (r : rbg) : rbg * N :=
  let x := bit_x r in (bit_e (bit_s r x), low_bit x).

(** rbg.c:141-144 the loop over j = 8-k..7: *(buf + i) |= get_bit() << j. *)
Fixpoint byte_bits (k : nat) (r : rbg) (j b : N) : rbg * N :=
  match k with
  | O => (r, b)
  | S k' => let '(r', v) := get_bit r in byte_bits k' r' (j + 1) (w8 (N.lor b (N.shiftl v j)))
  end.
(** rbg.c:140-144: one byte. *)
Definition get_byte (r : rbg) : rbg * N := byte_bits 8 r 0 0.
(** rbg.c:138-145 the loop over i: [n] bytes written from buf on. *)
Fixpoint get_bytes_loop (n : nat) (r : rbg) : rbg * list N :=
  match n with
  | O => (r, [])
  | S k => let '(r1, b) := get_byte r in
           let '(r2, l) := get_bytes_loop k r1 in (r2, b :: l)
  end.

(** rbg.c:95-111 dstu_rbg_status_nolock. *)
Definition status_nolock (r : rbg) (e : env) : rbg * bool :=
  if e_status e && negb (r_init r) then rbg_init r e else (r, e_status e).

(** rbg.c:138: i < (unsigned)num. *)
Definition loop_bound (num : Z) : nat := Z.to_nat (num mod 2 ^ 32).
(** rbg.c:132-145, between lock and unlock, of dstu_rbg_bytes: new state, return value and
    the bytes written at buf, buf+1, ... *)
Definition bytes_body (r : rbg) (e : env) (num : Z) : rbg * bool * list N :=
  let '(r1, rv) := if r_init r then (r, true) else status_nolock r e in
  let '(r2, l) := get_bytes_loop (loop_bound num) r1 in
  (r2, rv, l).

(** Calls through the RAND_METHOD table rbg.c:165-173 (add and seed only go to the system
    generator and are part of the world). *)
Inductive rop := RStatus | RBytes (num : Z) | RCleanup.
(** A call, what it returns and the bytes it writes to the caller's buffer. *)
Record rout := ROUT { o_ret : bool; o_data : list N }.

(** The bodies of rbg.c:113-163 without lock and unlock.  Cleanup (152-163) returns void. *)
Definition body (r : rbg) (e : env) (o : rop) : rbg * rout :=
  match o with
  | RStatus => let '(r', b) := status_nolock r e in (r', ROUT b [])
  | RBytes n => let '(r', b, l) := bytes_body r e n in (r', ROUT b l)
  | RCleanup => (rbg0, ROUT true [])
  end.

(** rbg.c:31-36 dstu_lock in a sequential program: the new lock state; None is undefined
    behaviour (locking a freed lock). *)
Definition lock (l : lock_state) (e : env) : option lock_state :=
  match l with
  | LNone => Some (if e_lock e then LLive else LNull)
  | LNull => Some LNull
  | LLive => Some LLive
  | LFreed => None
  end.
(** rbg.c:38-41 dstu_unlock: CRYPTO_THREAD_unlock(NULL) dereferences NULL. *)
Definition unlock (l : lock_state) : option lock_state :=
  match l with LLive => Some LLive | _ => None end.

(** One whole call.  Cleanup frees the lock after the unlock and keeps the pointer. *)
Definition rcall (l : lock_state) (r : rbg) (e : env) (o : rop) : option (lock_state * rbg * rout) :=
  match lock l e with
  | None => None
  | Some l1 =>
      let '(r', out) := body r e o in
      match unlock l1 with
      | None => None
      | Some l2 => Some (match o with RCleanup => LFreed | _ => l2 end, r', out)
      end
  end.
(** A history of calls, from any state. *)
Fixpoint rrun (l : lock_state) (r : rbg) (h : list (env * rop)) : option (lock_state * rbg * list rout) :=
  match h with
  | [] => Some (l, r, [])
  | (e, o) :: t =>
      match rcall l r e o with
      | None => None
      | Some (l1, r1, out) =>
          match rrun l1 r1 t with
          | None => None
          | Some (l2, r2, outs) => Some (l2, r2, out :: outs)
          end
      end
  end.
(** The same without the lock (what happens if using the freed lock has no effect). *)
Fixpoint brun (r : rbg) (h : list (env * rop)) : rbg * list rout :=
  match h with
  | [] => (r, [])
  | (e, o) :: t => let '(r1, out) := body r e o in
                   let '(r2, outs) := brun r1 t in (r2, out :: outs)
  end.

(** * Threads.  Each thread makes a list of requests (dstu_rbg_bytes calls).  A step of a
    thread is one access to the shared variables. *)
Inductive pc :=
| PStart                                     (** before dstu_lock, rbg.c:130 *)
| PCheck                                     (** rbg.c:132 *)
| PSeed                                      (** rbg.c:134 *)
| PLoop (rv : bool) (left : nat) (out : list N)             (** rbg.c:138, out = bytes written *)
| PX (rv : bool) (left : nat) (out : list N) (j : nat) (b : N)            (** rbg.c:84-86 *)
| PS (rv : bool) (left : nat) (out : list N) (j : nat) (b : N) (x : list N)  (** rbg.c:88-89 *)
| PE (rv : bool) (left : nat) (out : list N) (j : nat) (b : N) (x : list N)  (** rbg.c:90-92 *)
| PUnlock (rv : bool) (out : list N).                       (** rbg.c:147 *)

Record thread := TH { t_pc : pc; t_todo : list (env * Z); t_done : list (bool * list N) }.
(** Shared: the statics, the lock's owner, the threads. *)
Record world := W { w_r : rbg; w_owner : option nat; w_threads : nat -> option thread }.
(** A thread takes a step. *)
Definition tset (ts : nat -> option thread) (i : nat) (t : thread) : nat -> option thread :=
  fun j => if Nat.eqb j i then Some t else ts j.

(** One step of thread [i]; a thread that cannot run (finished, or the lock is taken) does
    nothing.  The lock exists (created by CRYPTO_THREAD_run_once). *)
Definition tstep (w : world) (i : nat) : world :=
  match w_threads w i with
  | None => w
  | Some t =>
      match t_todo t with
      | [] => w
      | (e, num) :: rest =>
          let r := w_r w in
          let go r' p := W r' (w_owner w) (tset (w_threads w) i (TH p (t_todo t) (t_done t))) in
          match t_pc t with
          | PStart =>
              match w_owner w with
              | Some _ => w
              | None => W r (Some i) (tset (w_threads w) i (TH PCheck (t_todo t) (t_done t)))
              end
          | PCheck => go r (if r_init r then PLoop true (loop_bound num) [] else PSeed)
          | PSeed => let '(r', rv) := status_nolock r e in go r' (PLoop rv (loop_bound num) [])
          | PLoop rv O out => go r (PUnlock rv out)
          | PLoop rv (S k) out => go r (PX rv k out 0%nat 0)
          | PX rv k out j b => go r (PS rv k out j b (bit_x r))
          | PS rv k out j b x => go (bit_s r x) (PE rv k out j b x)
          | PE rv k out j b x =>
              let b' := w8 (N.lor b (N.shiftl (low_bit x) (N.of_nat j))) in
              go (bit_e r) (if Nat.eqb j 7 then PLoop rv k (out ++ [b']) else PX rv k out (S j) b')
          | PUnlock rv out =>
              W r None (tset (w_threads w) i (TH PStart rest (t_done t ++ [(rv, out)])))
          end
      end
  end.
(** A schedule is any list of thread numbers. *)
Definition trun (w : world) (sched : list nat) : world := fold_left tstep sched w.
(** Threads 0 .. length reqs - 1, each with its list of requests, all about to start. *)
Definition twith (reqs : list (list (env * Z))) : world :=
  W rbg0 None (fun i => match nth_error reqs i with Some q => Some (TH PStart q []) | None => None end).
