(** Model of the readers of open files: keylib/pkcs12.c:217-226 readPKCS12, keylib/jks.c:398-407
    readJKS, keylib/key6.c:106-115 readKey6. *)
From Verif Require Import Base Model_ReadBio Model_Kmem.
Import ListNotations.

(** FILE: the contents, the position, where reading fails if it does, and whether it is open. *)
Record file := FILE { f_data : list N; f_pos : nat; f_fails : option nat; f_open : bool }.
(** What can be read from the position on. *)
Definition f_left (f : file) : list N := skipn (f_pos f) (match f_fails f with Some p => firstn p (f_data f) | None => f_data f end).
(** BIO_read_ex of a file BIO (bss_file.c file_read): fread gives as many bytes as there are, up
    to the size; at the end, or where reading fails, none. *)
Definition file_read (size : nat) (f : file) : rd_event * file :=
  match firstn size (f_left f) with
  | [] => (match f_fails f with Some _ => RdError | None => RdEnd end, f)
  | b => (RdData b true, FILE (f_data f) (f_pos f + length b) (f_fails f) (f_open f))
  end.
(** BIO_free of a file BIO closes the file if this was asked for when it was made. *)
Definition BIO_NOCLOSE : N := 0.
(** BIO_free. *)
Definition bio_close (flag : N) (f : file) : file := if flag =? BIO_NOCLOSE then f else FILE (f_data f) (f_pos f) (f_fails f) false.
(** The buffer of the readers (pkcs12.c:230, jks.c:411, key6.c:119). *)
Definition read_size : nat := 1024.

Section File.
Variable malloc : nat -> kheap -> option nat.
(** pkcs12.c:237-254, jks.c:418-435, key6.c:126-143: the loop of h_read_loop on a file.  Every
    round but the last reads at least one byte; [fuel] is more than there are. *)
Fixpoint h_file_loop (fuel : nat) (f : file) (mem : option nat) (got : list N) (total : N) : KM (option (list N) * file) :=
  match fuel with
  | O => fun _ => KLoop
  | S fuel =>
      let '(ev, f) := file_read read_size f in
      match ev with
      | RdEnd | RdError => kret (if 0 <? total then Some got else None, f)
      | RdData b _ =>
          if N.of_nat (length b) =? 0 then kret (Some got, f)
          else
            w <- match mem with None => kret false | Some _ => ktry malloc end ;;
            if negb w then kret (None, f) else h_file_loop fuel f mem (got ++ b) (total + N.of_nat (length b))
      end
  end.
(** pkcs12.c:228-264, jks.c:409-445, key6.c:117-153 with a file BIO. *)
Definition h_read_file_bio {A} (parse : list N -> KM A) (f : file) : KM (option A * file) :=
  mem <- bio_new malloc ;;
  '(got, f) <- h_file_loop (S (length (f_data f))) f mem [] 0 ;;
  match got with
  | None | Some [] => bio_free mem ;;; kret (None, f)
  | Some got => res <- parse got ;; bio_free mem ;;; kret (Some res, f)
  end.
(** pkcs12.c:217-226, jks.c:398-407, key6.c:106-115: BIO_new_fp(fp, 0), the reader, BIO_free.
    Result: None for return 0 without parsing. *)
Definition h_read_file {A} (parse : list N -> KM A) (f : file) : KM (option A * file) :=
  bio <- knew malloc KTemp ;;
  match bio with
  | None => kret (None, f)
  | Some bio => '(res, f) <- h_read_file_bio parse f ;; kfree bio ;;; kret (res, bio_close 0 f)
  end.
End File.
