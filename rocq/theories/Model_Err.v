(** Model of engine/err.c: the engine's error strings. *)
From Verif Require Import Base.

(** The three tables: engine/err.c:65-85 (functions), 87-99 (reasons), 103-107 (library name). *)
Inductive table := TFuncts | TReasons | TName.
(** What OpenSSL sees: ERR_load_strings / ERR_unload_strings with the library number passed
    and, for the name table, the library its entry is for; ERR_PUT_error. *)
Inductive err_event :=
| ELoad (lib : N) (t : table) (name_of : N)
| EUnload (lib : N) (t : table) (name_of : N)
| EPut (lib : N) (func reason : N).

(** err.c:109-110 DSTU_lib_error_code, DSTU_error_init; DSTU_lib_name->error (103-107) as the
    library it names; how often ERR_get_next_error_library was called; what was done so far,
    oldest first. *)
Record err_state := ERRS { er_code : N; er_init : bool; er_name : N; er_calls : nat; er_log : list err_event }.
(** The statics of err.c:109-110 at the start. *)
Definition err0 : err_state := ERRS 0 true 0 0 [].

Section Err.
(** ERR_get_next_error_library (OpenSSL): the n-th call's answer. *)
Variable next_lib : nat -> N.
(** err.c:114-115, 146-147 *)
Definition err_code (s : err_state) : err_state :=
  if er_code s =? 0 then ERRS (next_lib (er_calls s)) (er_init s) (er_name s) (S (er_calls s)) (er_log s) else s.
(** err.c:112-128 ERR_load_DSTU_strings (OPENSSL_NO_ERR not defined).  ERR_load_strings also
    ors the library number into the table, which with one number changes nothing later. *)
Definition err_load (s0 : err_state) : err_state :=
  let s := err_code s0 in
  if er_init s then
    let c := er_code s in
    ERRS c false c (er_calls s) (er_log s ++ [ELoad c TFuncts 0; ELoad c TReasons 0; ELoad 0 TName c])
  else s.
(** err.c:130-142 ERR_unload_DSTU_strings *)
Definition err_unload (s : err_state) : err_state :=
  if negb (er_init s) then
    let c := er_code s in
    ERRS c true (er_name s) (er_calls s) (er_log s ++ [EUnload c TFuncts 0; EUnload c TReasons 0; EUnload 0 TName (er_name s)])
  else s.
(** err.c:144-149 ERR_DSTU_error *)
Definition err_error (s0 : err_state) (f r : N) : err_state :=
  let s := err_code s0 in
  ERRS (er_code s) (er_init s) (er_name s) (er_calls s) (er_log s ++ [EPut (er_code s) f r]).

(** The calls of err.h. *)
Inductive err_op := OLoad | OUnload | OError (f r : N).
(** One call of err.c:112-149. *)
Definition err_step (s : err_state) (o : err_op) : err_state :=
  match o with OLoad => err_load s | OUnload => err_unload s | OError f r => err_error s f r end.
(** A history of calls. *)
Definition err_run (ops : list err_op) : err_state := fold_left err_step ops err0.
End Err.
