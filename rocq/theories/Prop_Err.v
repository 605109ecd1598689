(** Property C74: error strings. *)
From Coq Require Import ZArith.
From Verif Require Import Base Model_Err Spec_Err Proof_Err.

(** C74: after any history every table is registered exactly once if the last load or unload
    was a load and not at all otherwise (so never twice, and never removed when absent:
    histories are closed under prefixes); every call to OpenSSL is for one library number,
    which is not 0; the reports reach OpenSSL in order, with that number. *)
Theorem C74_error_strings : forall next_lib, (forall n, next_lib n <> 0) -> forall ops, let log := er_log (err_run next_lib ops) in
  (forall t, balance t log = if loaded_last ops then 1 else 0)%Z /\
  Forall (event_for (next_lib 0%nat)) log /\
  puts log = map (fun fr => (next_lib 0%nat, fst fr, snd fr)) (reports ops).
Proof. exact err_api. Qed.
Print Assumptions C74_error_strings.
Example C74_ex : let lib n := 128 + N.of_nat n in
  let ops := [OUnload; OError 1 2; OLoad; OLoad; OError 3 4; OUnload; OUnload; OLoad] in
  (forall n, lib n <> 0) /\ loaded_last ops = true /\
  er_log (err_run lib ops) =
    [EPut 128 1 2; ELoad 128 TFuncts 0; ELoad 128 TReasons 0; ELoad 0 TName 128; EPut 128 3 4;
     EUnload 128 TFuncts 0; EUnload 128 TReasons 0; EUnload 0 TName 128;
     ELoad 128 TFuncts 0; ELoad 128 TReasons 0; ELoad 0 TName 128].
Proof. split; [intros n; apply N.neq_0_lt_0; apply N.lt_le_trans with 128; [reflexivity|apply N.le_add_r]|]. split; reflexivity. Qed.
