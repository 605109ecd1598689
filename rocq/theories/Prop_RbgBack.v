(** Properties C111 and C112: what the generator's memory tells about the past, and its cycle. *)
From Verif Require Import Base Model_Gost89 Model_Params Model_Rbg Spec_Rbg Spec_RbgApi Spec_RbgBack Proof_RbgBack.

Definition exb_seed : list N := map N.of_nat (seq 100 40).
Definition exb_env : env := ENV true true (Some exb_seed) [1;2;3;4;5;6;7;8].
Definition exb_other : env := ENV true true (Some (map N.of_nat (seq 60 40))) [1;2;3;4;5;6;7;8].

(** C111 is violated: after any calls that found no seed ([h0]), the call that found one and
    any further calls ([h1]), the generator's memory [r] alone (its cipher context, I and s)
    gives back all bytes delivered since seeding, and the whole 40-byte seed. *)
Theorem C111_past_output_refuted : forall h0 e o h1 seed,
  defined_history (h0 ++ (e, o) :: h1) -> no_cleanup (h0 ++ (e, o) :: h1) ->
  Forall op_size_ok (map snd ((e, o) :: h1)) ->
  Forall (fun eo => seeds (fst eo) = false) h0 -> seeds e = true -> e_seed e = Some seed -> env_ok e ->
  exists l r outs0 outs1, rrun LNone rbg0 (h0 ++ (e, o) :: h1) = Some (l, r, outs0 ++ outs1) /\
    length outs0 = length h0 /\ Forall2 served ((e, o) :: h1) outs1 /\
    let d := concat (map o_data outs1) in
    let D := gostdecrypt (r_c r) in
    last_bytes D (r_I r) (length d) (r_s r) = d /\
    concat (map (le_bytes 4) (key (r_c r))) ++ ago D (r_I r) (8 * length d) (r_s r) = seed.
Proof. exact history_back. Qed.
Print Assumptions C111_past_output_refuted.
Example C111_ex : let h := [(exb_env, RBytes 2); (exb_other, RBytes 0); (exb_other, RBytes 7)] in
  defined_history h /\ no_cleanup h /\ Forall op_size_ok (map snd h) /\ seeds exb_env = true /\ env_ok exb_env.
Proof.
  split; [split; [reflexivity|repeat constructor; discriminate]|].
  split; [repeat constructor; discriminate|]. split; [repeat constructor; discriminate|]. split; [reflexivity|].
  split; [intros sd E; inversion E|]; split; repeat constructor.
Qed.
(** The bytes of a run, and what is computed from the memory it leaves (prints true). *)
Eval vm_compute in (match rrun LNone rbg0 [(exb_env, RBytes 2); (exb_other, RBytes 3)] with
  | Some (_, r, outs) => let d := concat (map o_data outs) in
      if list_eq_dec N.eq_dec (last_bytes (gostdecrypt (r_c r)) (r_I r) 5 (r_s r)) d then
        negb (Nat.eqb (length (nodup N.eq_dec d)) 1) else false
  | None => false end).

(** C112: two processes that were seeded with different seeds and then make the same
    requests never get into the same generator state. *)
Theorem C112_seeds_stay_apart : forall h0 e o h1 seed h0' e' h1' seed' l r outs l' r' outs',
  let ok h0 e h1 seed := defined_history (h0 ++ (e, o) :: h1) /\ no_cleanup (h0 ++ (e, o) :: h1) /\
    Forall op_size_ok (map snd ((e, o) :: h1)) /\
    Forall (fun eo => seeds (fst eo) = false) h0 /\ seeds e = true /\ e_seed e = Some seed /\ env_ok e in
  ok h0 e h1 seed -> ok h0' e' h1' seed' -> map snd h1 = map snd h1' -> seed <> seed' ->
  rrun LNone rbg0 (h0 ++ (e, o) :: h1) = Some (l, r, outs) ->
  rrun LNone rbg0 (h0' ++ (e', o) :: h1') = Some (l', r', outs') -> r <> r'.
Proof. exact states_apart. Qed.
Print Assumptions C112_seeds_stay_apart.
(** The stream of every seed and time repeats from its beginning after at most 2^64 bytes:
    the generator never falls from its start into some other, shorter cycle. *)
Theorem C112_stream_is_a_cycle : forall seed time, bytesn 40 seed -> bytesn 8 time ->
  exists p, 0 < p <= 2 ^ 64 /\
    forall n, rbg_stream seed time (N.to_nat p + n) = rbg_stream seed time (N.to_nat p) ++ rbg_stream seed time n.
Proof. exact stream_period. Qed.
Print Assumptions C112_stream_is_a_cycle.
Example C112_ex : env_ok exb_env /\ env_ok exb_other /\ e_seed exb_env <> e_seed exb_other /\
  bytesn 40 exb_seed /\ bytesn 8 [1;2;3;4;5;6;7;8].
Proof. repeat split; try (intros; discriminate); repeat constructor; match goal with H : _ = Some _ |- _ => inversion H; repeat constructor end. Qed.
