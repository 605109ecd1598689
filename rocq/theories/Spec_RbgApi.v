(** What a caller of the random functions sees, in terms of the world's answers only. *)
From Verif Require Import Base Spec_Gost89 Model_Params Spec_Params Model_Rbg Spec_Rbg.

(** Seeds have 40 bytes and the time buffer 8. *)
Definition env_ok (e : env) : Prop := (forall sd, e_seed e = Some sd -> bytesn 40 sd) /\ bytesn 8 (e_time e).
(** The system generator is ready and delivers a seed. *)
Definition seeds (e : env) : bool := e_status e && match e_seed e with Some _ => true | None => false end.

(** Seeded after a history: some call since the start or the last cleanup could seed. *)
Definition seeded_after (h : list (env * rop)) : bool :=
  fold_left (fun s eo => match snd eo with RCleanup => false | _ => s || seeds (fst eo) end) h false.

(** The stream selected by a seed and a time: key = bytes 0..31 of the seed, initial state
    = bytes 32..39, I = the time encrypted. *)
Definition rbg_stream (seed time : list N) (n : nat) : list N :=
  let E := encrypt (packed_sbox default_sbox) (firstn 32 seed) in
  gen_stream E (E time) (skipn 32 seed) n.

(** The result of one call without seeding failure: success and as many bytes as asked for. *)
Definition served (eo : env * rop) (out : rout) : Prop :=
  match snd eo with
  | RBytes n => o_ret out = true /\ length (o_data out) = Z.to_nat n
  | _ => o_data out = []
  end.
(** Requests that ask for an int number of bytes, not negative. *)
Definition op_size_ok (o : rop) : Prop := match o with RBytes n => (0 <= n < 2 ^ 31)%Z | _ => True end.
Definition no_cleanup (h : list (env * rop)) : Prop := Forall (fun eo => snd eo <> RCleanup) h.
(** The lock could be created (or nothing is called) and nothing follows a cleanup. *)
Definition defined_history (h : list (env * rop)) : Prop :=
  match h with
  | [] => True
  | (e, _) :: _ => e_lock e = true /\ no_cleanup (removelast h)
  end.

(** Threads: every request finds the system generator ready, and asks for 0 <= n < 2^31
    bytes. *)
Definition good_request (q : env * Z) : Prop :=
  env_ok (fst q) /\ seeds (fst q) = true /\ (0 <= snd q < 2 ^ 31)%Z.
(** [order] lists (thread, bytes) of the requests completed so far in a world: for every
    thread the requests it completed, in its order, all successful and of the size asked. *)
Definition completed (reqs : list (list (env * Z))) (w : world) (order : list (nat * list N)) : Prop :=
  (forall i o, In (i, o) order -> (i < length reqs)%nat) /\
  forall i q, nth_error reqs i = Some q ->
    exists t n, w_threads w i = Some t /\
      t_done t = map (fun p => (true, snd p)) (filter (fun p => Nat.eqb (fst p) i) order) /\
      length (t_done t) = n /\ t_todo t = skipn n q /\
      map (fun d => Z.of_nat (length (snd d))) (t_done t) = map snd (firstn n q).
