(** Properties C127 and C128: data added to the generator, and forked processes. *)
From Coq Require Import Lia ZArith Znumtheory.
From Verif Require Import Base Lib Model_Rbg Spec_RbgApi Model_RbgSys Spec_RbgSys
  Model_Gf2m Model_Compress Model_Ec Model_Curves Model_Sign Spec_Gf2m Spec_Compress Spec_Curves Spec_Sign Spec_Toy Proof_Toy Proof_RbgSys Prop_Sign Prop_SignBind.

(** C127 "Data a program adds to the generator influences the bytes it draws later": the code
    violates it.  Once some call has succeeded, two continuations with the same requests get
    the same bytes, whatever data one of them adds between the requests (with RAND_add or
    RAND_seed, and whatever the clock and the status calls), for every system generator. *)
Theorem C127_added_data_refuted : forall S (sys : sysgen S) s0 h0 p outs0 h1 h2 p1 outs1 p2 outs2,
  prun sys (start s0) h0 = Some (p, outs0) -> ready h0 outs0 ->
  prun sys p h1 = Some (p1, outs1) -> prun sys p h2 = Some (p2, outs2) ->
  requests h1 = requests h2 -> drawn outs1 = drawn outs2.
Proof. exact @added_data. Qed.
Print Assumptions C127_added_data_refuted.
(** And nothing is drawn from the system generator again: once ready, it changes by added data and
    status calls only, whatever is asked for and however much. *)
Theorem C127_never_reseeded_refuted : forall S (sys : sysgen S) s0 h0 p outs0 h1 p1 outs1,
  prun sys (start s0) h0 = Some (p, outs0) -> ready h0 outs0 -> prun sys p h1 = Some (p1, outs1) -> p_sys p1 = touched sys (p_sys p) h1.
Proof. exact @never_reseeded. Qed.
Print Assumptions C127_never_reseeded_refuted.
(** What holds: data added before the first request reaches the system generator, and the
    seed is what this delivers afterwards. *)
Theorem C127_before_first_request : forall S (sys : sysgen S) s0 h0 s1 s2 seed time n,
  only_adds h0 -> sg_status sys (added sys s0 h0) = (s1, true) -> sg_bytes sys s1 40 = (s2, Some seed) ->
  bytesn 40 seed -> bytesn 8 time -> (0 <= n < 2 ^ 31)%Z ->
  exists p outs, prun sys (start s0) (h0 ++ [((true, time), PRand (RBytes n))]) = Some (p, outs) /\
    drawn outs = rbg_stream seed time (Z.to_nat n) /\ p_sys p = s2.
Proof. exact @first_request. Qed.
Print Assumptions C127_before_first_request.

(** A system generator that collects what is added and delivers it, filled up with zeros. *)
Definition ex_sys : sysgen (list N) := SYS (fun s b => (b ++ s, true)) (fun s b => (b ++ s, true))
  (fun s => (s, true)) (fun s n => (s, Some (firstn n (s ++ zeros n)))).
Definition ex_m : moment := (true, [1;2;3;4;5;6;7;8]).
Example C127_ex : exists p outs0 p1 outs1 p2 outs2,
  prun ex_sys (start [9]) [(ex_m, PSeedWith [7]); (ex_m, PRand (RBytes 2))] = Some (p, outs0) /\
  ready [(ex_m, PSeedWith [7]); (ex_m, PRand (RBytes 2))] outs0 /\
  prun ex_sys p [(ex_m, PRand (RBytes 3)); (ex_m, PRand (RBytes 1))] = Some (p1, outs1) /\
  prun ex_sys p [(ex_m, PAdd [1;2;3]); (ex_m, PRand (RBytes 3)); (ex_m, PRand RStatus); (ex_m, PSeedWith [4]); (ex_m, PRand (RBytes 1))] = Some (p2, outs2) /\
  only_adds [(ex_m, PSeedWith [7])] /\ sg_status ex_sys (added ex_sys [9] [(ex_m, PSeedWith [7])]) = ([7; 9], true) /\
  sg_bytes ex_sys [7; 9] 40 = ([7; 9], Some (7 :: 9 :: zeros 38)).
Proof.
  destruct (ready_request ex_sys [7; 9] ex_m 2 [7; 9] [7; 9] (7 :: 9 :: zeros 38) eq_refl eq_refl eq_refl) as (p & l & E & Hl).
  destruct (run_live ex_sys [(ex_m, PRand (RBytes 3)); (ex_m, PRand (RBytes 1))] p Hl) as (p1 & outs1 & E1); [repeat constructor; discriminate|].
  destruct (run_live ex_sys [(ex_m, PAdd [1;2;3]); (ex_m, PRand (RBytes 3)); (ex_m, PRand RStatus); (ex_m, PSeedWith [4]); (ex_m, PRand (RBytes 1))] p Hl)
    as (p2 & outs2 & E2); [repeat constructor; discriminate|].
  exists p, [ROUT true []; ROUT true l], p1, outs1, p2, outs2. split.
  { assert (E0 : pcall ex_sys (start [9]) ex_m (PSeedWith [7]) = Some (start [7; 9], ROUT true [])) by reflexivity.
    cbn [prun]. rewrite E0, E. reflexivity. }
  split; [exists ex_m, (RBytes 2), (ROUT true l); split; [right; left; reflexivity|]; split; [discriminate|reflexivity]|].
  split; [exact E1|]. split; [exact E2|]. split; [repeat constructor|]. split; reflexivity.
Qed.
(** The bytes of two such continuations, and of a program that added other data before its
    first request (prints (true, false)). *)
Eval vm_compute in (
  let get h := match prun ex_sys (start [9]) h with Some (_, outs) => drawn outs | None => [] end in
  let a := get [(ex_m, PSeedWith [7]); (ex_m, PRand (RBytes 2)); (ex_m, PRand (RBytes 2))] in
  let b := get [(ex_m, PSeedWith [7]); (ex_m, PRand (RBytes 2)); (ex_m, PSeedWith [5]); (ex_m, PAdd [6;6]); (ex_m, PRand (RBytes 2))] in
  let c := get [(ex_m, PSeedWith [5]); (ex_m, PRand (RBytes 2)); (ex_m, PRand (RBytes 2))] in
  (forallb (fun x => fst x =? snd x) (combine a b), forallb (fun x => fst x =? snd x) (combine a c))).

(** C128 "After fork() the two processes draw different bytes": the code violates it.  If any
    call has succeeded before the fork, parent and child draw the same bytes, for every later
    history of either (the sizes of the requests may differ, data may be added, the system
    generator may be seeded anew in the child). *)
Theorem C128_fork_refuted : forall S (sys : sysgen S) s0 h0 p outs0 s' h1 h2 p1 outs1 p2 outs2,
  prun sys (start s0) h0 = Some (p, outs0) -> ready h0 outs0 ->
  prun sys p h1 = Some (p1, outs1) -> prun sys (forked p s') h2 = Some (p2, outs2) ->
  let n := Nat.min (length (drawn outs1)) (length (drawn outs2)) in
  firstn n (drawn outs1) = firstn n (drawn outs2).
Proof. exact @fork_same. Qed.
Print Assumptions C128_fork_refuted.
(** So two signatures made by parent and child, each the first thing the process does with the
    generator, give away the private key: it is the one solution of a linear equation of the
    four numbers.  [need] and [pick]: the nonce number k is any function of the first bytes
    a process draws. *)
Theorem C128_fork_reveals_key_refuted : forall S (sys : sysgen S) s0 h0 p outs0 s' need pick src1 src2 g d Q t1 t2 sig1 sig2 d',
  prun sys (start s0) h0 = Some (p, outs0) -> ready h0 outs0 ->
  (forall k, exists l, gets sys p (need k) l /\ src1 k = pick k l) ->
  (forall k, exists l, gets sys (forked p s') (need k) l /\ src2 k = pick k l) ->
  well_formed g -> prime (Z.of_N (g_order g)) -> d < g_order g -> d' < g_order g -> ranged (g_order g) src1 ->
  let key := ECKEY (Some (Binary g)) (Some d) Q in let n := g_order g in
  do_sign 1 key t1 src1 = Done sig1 -> do_sign 1 key t2 src2 = Done sig2 ->
  let size := N.to_nat (num_bytes n) in
  let s1 := be_val (firstn size sig1) in let r1 := be_val (skipn size sig1) in
  let s2 := be_val (firstn size sig2) in let r2 := be_val (skipn size sig2) in
  r1 <> r2 -> ((s1 + d' * r2) mod n = (s2 + d' * r1) mod n <-> d' = d).
Proof. exact @fork_key. Qed.
Print Assumptions C128_fork_reveals_key_refuted.
(** A run with a fork, and nonces taken from the bytes drawn after it (the signatures of the
    two digests with the nonce 3 are those of C116_ex). *)
Definition ex_pick (k : nat) (l : list N) : option N := if (length l =? 1)%nat then Some 3 else Some 4.
Example C128_ex : exists p outs0 p1 outs1 p2 outs2,
  prun ex_sys (start [9]) [(ex_m, PRand (RBytes 2))] = Some (p, outs0) /\ ready [(ex_m, PRand (RBytes 2))] outs0 /\
  prun ex_sys p [(ex_m, PRand (RBytes 3)); (ex_m, PRand (RBytes 1))] = Some (p1, outs1) /\
  prun ex_sys (forked p [1;1]) [(ex_m, PAdd [1;2;3]); (ex_m, PRand (RBytes 7))] = Some (p2, outs2) /\
  (forall k, exists l, gets ex_sys p 1 l /\ Some 3 = ex_pick k l) /\
  (forall k, exists l, gets ex_sys (forked p [1;1]) 1 l /\ Some 3 = ex_pick k l) /\
  do_sign 1 toy_key [11] (fun _ => Some 3) = Done [12; 12] /\ do_sign 1 toy_key [13] (fun _ => Some 3) = Done [13; 2].
Proof.
  destruct (ready_request ex_sys [9] ex_m 2 [9] [9] (9 :: zeros 39) eq_refl eq_refl eq_refl) as (p & l & E & Hl).
  assert (E0 : prun ex_sys (start [9]) [(ex_m, PRand (RBytes 2))] = Some (p, [ROUT true l])) by (cbn [prun]; now rewrite E).
  assert (R0 : ready [(ex_m, PRand (RBytes 2))] [ROUT true l])
    by (exists ex_m, (RBytes 2), (ROUT true l); split; [left; reflexivity|]; split; [discriminate|reflexivity]).
  pose proof (run_ready _ _ _ _ _ E0 R0) as Hi.
  destruct (run_live ex_sys [(ex_m, PRand (RBytes 3)); (ex_m, PRand (RBytes 1))] p Hl) as (p1 & outs1 & E1); [repeat constructor; discriminate|].
  destruct (run_live ex_sys [(ex_m, PAdd [1;2;3]); (ex_m, PRand (RBytes 7))] (forked p [1;1]) Hl) as (p2 & outs2 & E2); [repeat constructor; discriminate|].
  exists p, [ROUT true l], p1, outs1, p2, outs2. split; [exact E0|]. split; [exact R0|]. split; [exact E1|]. split; [exact E2|].
  split; [intros k; destruct (gets_some ex_sys p ex_m 1 Hl Hi) as (b & G & L); exists b; split; [exact G|unfold ex_pick; now rewrite L]|].
  split; [intros k; destruct (gets_some ex_sys (forked p [1;1]) ex_m 1 Hl Hi) as (b & G & L); exists b; split; [exact G|unfold ex_pick; now rewrite L]|].
  split; apply C116_ex.
Qed.
