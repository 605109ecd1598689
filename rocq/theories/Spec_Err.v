(** What a user of the error strings relies on, read off the calls OpenSSL sees. *)
From Coq Require Import ZArith.
From Verif Require Import Base Model_Err.
#[local] Open Scope Z_scope.

Definition table_eqb (a b : table) : bool :=
  match a, b with TFuncts, TFuncts | TReasons, TReasons | TName, TName => true | _, _ => false end.
(** How many times more a table was loaded than unloaded. *)
Definition balance (t : table) (log : list err_event) : Z :=
  fold_right (fun e a => match e with ELoad _ u _ => if table_eqb t u then a + 1 else a | EUnload _ u _ => if table_eqb t u then a - 1 else a | EPut _ _ _ => a end) 0 log.
(** Whether the last load or unload of a history was a load. *)
Definition loaded_last (ops : list err_op) : bool :=
  fold_left (fun b o => match o with OLoad => true | OUnload => false | OError _ _ => b end) ops false.
(** The reports among the calls of a history. *)
Definition reports (ops : list err_op) : list (N * N) :=
  concat (map (fun o => match o with OError f r => [(f, r)] | _ => [] end) ops).
Definition puts (log : list err_event) : list (N * N * N) :=
  concat (map (fun e => match e with EPut l f r => [(l, f, r)] | _ => [] end) log).
(** A call made for library [c]: strings under [c], the name table under 0 naming [c]. *)
Definition event_for (c : N) (e : err_event) : Prop :=
  match e with
  | ELoad l t n | EUnload l t n => match t with TName => l = 0%N /\ n = c | _ => l = c end
  | EPut l _ _ => l = c
  end.
