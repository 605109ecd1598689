(** Properties C24-C29: the random bit generator. *)
From Verif Require Import Base Model_Gost89 Model_Params Model_Rbg Spec_Rbg Spec_RbgApi Proof_Rbg Proof_RbgThreads.

Definition ex_seed : list N := map N.of_nat (seq 100 40).
Definition ex_env (lock st : bool) : env := ENV lock st (Some ex_seed) [1;2;3;4;5;6;7;8].
Definition ex_noseed : env := ENV true true None (zeros 8).

(** C24: after any calls that found no seed ([h0]), the first call that finds one, and any
    further calls ([h1]), however the requests are cut: every request succeeds with as many
    bytes as asked for, and all bytes together are the beginning of the stream that seed and
    time select.  (What the world answers to the later calls does not matter.) *)
Theorem C24_one_stream : forall h0 e o h1 seed,
  defined_history (h0 ++ (e, o) :: h1) -> no_cleanup (h0 ++ (e, o) :: h1) ->
  Forall op_size_ok (map snd ((e, o) :: h1)) ->
  Forall (fun eo => seeds (fst eo) = false) h0 -> seeds e = true -> e_seed e = Some seed -> env_ok e ->
  exists l r outs0 outs1, rrun LNone rbg0 (h0 ++ (e, o) :: h1) = Some (l, r, outs0 ++ outs1) /\
    length outs0 = length h0 /\ Forall2 served ((e, o) :: h1) outs1 /\
    let d := concat (map o_data outs1) in d = rbg_stream seed (e_time e) (length d).
Proof. exact rbg_stream_ok. Qed.
Print Assumptions C24_one_stream.
Example C24_ex : let h0 := [(ex_noseed, RBytes 3); (ex_env true false, RStatus)] in
  let h1 := [(ex_noseed, RBytes 5); (ex_noseed, RBytes 0); (ex_env false false, RStatus); (ex_env true true, RBytes 7)] in
  let e := ex_env true true in
  defined_history (h0 ++ (e, RBytes 2) :: h1) /\ no_cleanup (h0 ++ (e, RBytes 2) :: h1) /\
  Forall op_size_ok (map snd ((e, RBytes 2) :: h1)) /\ Forall (fun eo => seeds (fst eo) = false) h0 /\ seeds e = true /\ env_ok e.
Proof.
  cbn [app]. split; [split; [reflexivity|repeat constructor; discriminate]|].
  split; [repeat constructor; discriminate|]. split; [repeat constructor; discriminate|]. split; [repeat constructor|]. split; [reflexivity|].
  split; [intros sd E; inversion E|]; split; repeat constructor.
Qed.
(** The stream is not constant (prints true). *)
Eval vm_compute in (negb (Nat.eqb (length (nodup N.eq_dec (rbg_stream ex_seed [1;2;3;4;5;6;7;8] 2))) 1)).

(** C25: threads 0, 1, ... each make the requests of their list, interleaved in any way at
    every access to the shared variables.  At any moment the completed requests can be put
    in one order, compatible with every thread's own order, such that the bytes handed out
    are consecutive pieces of the stream selected by the seed one request brought. *)
Theorem C25_concurrent_stream : forall reqs sched, (forall q, In q reqs -> Forall good_request q) ->
  exists order, completed reqs (trun (twith reqs) sched) order /\
    (order = [] \/ exists q e n seed, In q reqs /\ In (e, n) q /\ e_seed e = Some seed /\
       let d := concat (map snd order) in d = rbg_stream seed (e_time e) (length d)).
Proof. exact threads_stream. Qed.
Print Assumptions C25_concurrent_stream.
(** ... and no thread is ever blocked for good. *)
Theorem C25_progress : forall reqs sched, (forall q, In q reqs -> Forall good_request q) ->
  exists sched', forall i t, w_threads (trun (twith reqs) (sched ++ sched')) i = Some t -> t_todo t = [].
Proof. exact threads_progress. Qed.
Print Assumptions C25_progress.
Example C25_ex : forall q, In q [[(ex_env true true, 3%Z); (ex_env true true, 0%Z)]; [(ex_env true true, 200000%Z)]; []] -> Forall good_request q.
Proof.
  assert (G : forall n, (0 <= n < 2 ^ 31)%Z -> good_request (ex_env true true, n)).
  { intros n Hn. split; [split; [intros sd E; inversion E|]; split; repeat constructor|]. split; [reflexivity|exact Hn]. }
  intros q [<-|[<-|[<-|[]]]]; repeat (apply Forall_cons || apply Forall_nil); apply G; split; (reflexivity || discriminate).
Qed.
(** Two threads, one of them stopped in the middle of a byte: the other waits. *)
Example C25_ex_run : let w := trun (twith [[(ex_env true true, 1%Z)]; [(ex_env true true, 1%Z)]]) [1;1;0;1;0;1;0;0;0;0]%nat in
  w_owner w = Some 1%nat /\ option_map t_pc (w_threads w 0%nat) = Some PStart.
Proof. vm_compute. split; reflexivity. Qed.

(** C26: a request reports success exactly if some call since the start or the last cleanup
    (the request itself included) found the system generator ready and able to deliver a
    seed.  In particular only cleanup can end the seeded state. *)
Theorem C26_success_iff_seeded : forall h e n l r outs,
  rrun LNone rbg0 (h ++ [(e, RBytes n)]) = Some (l, r, outs) ->
  exists outs0 out, outs = outs0 ++ [out] /\ o_ret out = seeded_after (h ++ [(e, RBytes n)]).
Proof.
  exact (fun h e n l r outs E => match brun_last h e (RBytes n) with
    | ex_intro _ o0 (ex_intro _ o (conj A (conj _ (conj B _)))) =>
        ex_intro _ o0 (ex_intro _ o (conj (eq_trans (eq_sym (f_equal snd (rrun_brun _ _ _ _ _ _ E))) A) B)) end).
Qed.
Print Assumptions C26_success_iff_seeded.
(** The same for the bodies of the functions without the lock, so also for histories that
    go on after a cleanup. *)
Theorem C26_success_iff_seeded_after_cleanup : forall h e n,
  exists outs out, snd (brun rbg0 (h ++ [(e, RBytes n)])) = outs ++ [out] /\ o_ret out = seeded_after (h ++ [(e, RBytes n)]).
Proof.
  exact (fun h e n => match brun_last h e (RBytes n) with
    | ex_intro _ o0 (ex_intro _ o (conj A (conj _ (conj B _)))) => ex_intro _ o0 (ex_intro _ o (conj A B)) end).
Qed.
Print Assumptions C26_success_iff_seeded_after_cleanup.
Example C26_ex : seeded_after [(ex_env true true, RStatus); (ex_noseed, RBytes 4)] = true /\
  seeded_after [(ex_env true true, RStatus); (ex_noseed, RCleanup); (ex_noseed, RBytes 4)] = false /\
  seeded_after [(ex_env true false, RBytes 4)] = false.
Proof. repeat split. Qed.

(** C27 is violated: every request that reports failure has filled the whole buffer, always
    with zeros. *)
Theorem C27_failed_request_refuted : forall h e n l r outs,
  rrun LNone rbg0 (h ++ [(e, RBytes n)]) = Some (l, r, outs) ->
  exists outs0 out, outs = outs0 ++ [out] /\ (o_ret out = false -> o_data out = zeros (loop_bound n)).
Proof.
  exact (fun h e n l r outs E => match brun_last h e (RBytes n) with
    | ex_intro _ o0 (ex_intro _ o (conj A (conj _ (conj _ (conj _ B))))) =>
        ex_intro _ o0 (ex_intro _ o (conj (eq_trans (eq_sym (f_equal snd (rrun_brun _ _ _ _ _ _ E))) A) B)) end).
Qed.
Print Assumptions C27_failed_request_refuted.
Example C27_ex : exists l r, rrun LNone rbg0 [(ex_noseed, RBytes 4)] = Some (l, r, [ROUT false [0;0;0;0]]).
Proof. eexists. eexists. vm_compute. reflexivity. Qed.

(** C28: which histories are free of undefined behaviour: exactly those where the lock could
    be created and nothing is called after a cleanup. *)
Theorem C28_safe_iff : forall h, rrun LNone rbg0 h <> None <-> defined_history h.
Proof. exact rrun_defined. Qed.
Print Assumptions C28_safe_iff.
(** So the property is violated. *)
Theorem C28_use_after_cleanup_refuted : forall e1 e2 o, rrun LNone rbg0 [(e1, RCleanup); (e2, o)] = None.
Proof. exact cleanup_then_any. Qed.
Print Assumptions C28_use_after_cleanup_refuted.
Example C28_ex : defined_history [(ex_env true true, RStatus); (ex_noseed, RBytes 4); (ex_noseed, RCleanup)] /\
  ~ defined_history [(ex_env true true, RCleanup); (ex_env true true, RBytes 4)].
Proof. split; [split; [reflexivity|repeat constructor; discriminate]|]. intros [_ H]. inversion H as [|? ? H1 H2]. apply H1. reflexivity. Qed.

(** C29: the number of bytes a request writes, for every int.  It is the number asked for
    if that is not negative... *)
Theorem C29_writes : forall h e n, (- 2 ^ 31 <= n < 2 ^ 31)%Z ->
  exists outs out, snd (brun rbg0 (h ++ [(e, RBytes n)])) = outs ++ [out] /\
    Z.of_nat (length (o_data out)) = (if 0 <=? n then n else n + 2 ^ 32)%Z.
Proof. exact bytes_written. Qed.
Print Assumptions C29_writes.
(** ... and at least 2^31 bytes for every negative number. *)
Theorem C29_negative_refuted : forall h e n, (- 2 ^ 31 <= n < 0)%Z ->
  exists outs out, snd (brun rbg0 (h ++ [(e, RBytes n)])) = outs ++ [out] /\ (2 ^ 31 <= Z.of_nat (length (o_data out)))%Z.
Proof. exact bytes_negative. Qed.
Print Assumptions C29_negative_refuted.
Example C29_ex : (- 2 ^ 31 <= -1 < 0)%Z.
Proof. split; [discriminate|reflexivity]. Qed.
