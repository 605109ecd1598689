(** Model of the three stream readers: keylib/pkcs12.c:228-264 readPKCS12_bio,
    keylib/jks.c:409-445 readJKS_bio, keylib/key6.c:117-153 readKey6_bio.  The three bodies
    are the same except for the parse function called at the end. *)
From Verif Require Import Base.

(** One round of the loop as the environment decides it: BIO_read_ex succeeds with some bytes
    and BIO_write_ex to the memory BIO succeeds or not; or BIO_read_ex returns 0, at the end
    of the stream or on an error (the code cannot tell). *)
Inductive rd_event := RdData (b : list N) (write_ok : bool) | RdEnd | RdError.

(** The loop; [mem] is the content of the memory BIO.  Running out of events means the stream
    blocks for ever: None. *)
Fixpoint read_loop (evs : list rd_event) (mem : list N) (total : N) : option (option (list N)) :=
  match evs with
  | [] => None
  | RdEnd :: _ | RdError :: _ => if 0 <? total then Some (Some mem) else Some None
  | RdData b w :: t =>
      if N.of_nat (length b) =? 0 then Some (Some mem)
      else if negb w then Some None
      else read_loop t (mem ++ b) (total + N.of_nat (length b))
  end.
(** The whole function: Some None = returns 0 without parsing, Some (Some r) = the parse
    function's answer. *)
Definition read_bio {A} (parse : list N -> A) (evs : list rd_event) : option (option A) :=
  match read_loop evs [] 0 with
  | None => None
  | Some None => Some None
  | Some (Some mem) => if N.of_nat (length mem) =? 0 then Some None else Some (Some (parse mem))
  end.
