(** What reading does to an open file. *)
From Verif Require Import Base Model_ReadBio Model_Kmem Model_File.

(** The same file, still open if it was, its position moved. *)
Definition same_file (f f' : file) : Prop := f_data f' = f_data f /\ f_fails f' = f_fails f /\ f_open f' = f_open f.
(** It was read to the end, or to where reading fails. *)
Definition read_through (f f' : file) : Prop := same_file f f' /\ f_pos f' = (f_pos f + length (f_left f))%nat /\ f_left f' = [].
(** It was read up to some position. *)
Definition read_some (f f' : file) : Prop := same_file f f' /\ (f_pos f <= f_pos f' <= f_pos f + length (f_left f))%nat.
