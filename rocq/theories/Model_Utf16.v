(** Model of keylib/jks.c:50-117 toUTF16BE. *)
From Verif Require Import Base.

(** What iconv(utf-8 -> utf-16be) makes of the source: the converted characters in order
    (each two or four bytes), and whether the source ends there (true) or an invalid or
    incomplete sequence follows (false). *)
Definition utf := (list (list N) * bool)%type.
(** How a call of iconv ends (jks.c:71-76). *)
Inductive iconv_status := IcDone | IcE2BIG | IcBad.
(** One call of iconv with [room] bytes of output space: characters written, the rest. *)
Fixpoint iconv_call (cs : list (list N)) (ok : bool) (room : nat) : list N * list (list N) * iconv_status :=
  match cs with
  | [] => ([], [], if ok then IcDone else IcBad)
  | c :: t => if (length c <=? room)%nat
              then let '(o, r, s) := iconv_call t ok (room - length c) in (c ++ o, r, s)
              else ([], cs, IcE2BIG)
  end.
(** jks.c:67-85: the conversion loop; [res] is the memory BIO, bufSize the size offered.
    Result: None = not finished within the fuel; Some None = return 0. *)
Fixpoint conv_loop (fuel : nat) (cs : list (list N)) (ok : bool) (bufSize : nat) (res : list N) : option (option (list N)) :=
  match fuel with
  | O => None
  | S f =>
      match cs, ok with
      | [], true => Some (Some res) (* ss == 0 *)
      | _, _ =>
          let '(o, r, s) := iconv_call cs ok bufSize in
          let res' := res ++ o in
          match s with
          | IcDone => Some (Some res')
          | IcBad => Some None
          | IcE2BIG => conv_loop f r ok (2 * bufSize) res'
          end
      end
  end.
(** jks.c:86-104 flushes the converter (utf-16be has no state: nothing is written);
    107-116: an empty result is a failure.  Simplification: iconv_open and allocations
    succeed. *)
Definition toUTF16BE (fuel : nat) (u : utf) (size : nat) : option (option (list N)) :=
  match conv_loop fuel (fst u) (snd u) size [] with
  | None => None
  | Some None => Some None
  | Some (Some []) => Some None
  | Some (Some r) => Some (Some r)
  end.
