(** What a program sees of the random functions: what it asked for and what it got. *)
From Verif Require Import Base Model_Rbg Model_RbgSys.

(** Some status or bytes call of the history reported success. *)
Definition ready (h : list (moment * pop)) (outs : list rout) : Prop :=
  exists m o out, In ((m, PRand o), out) (combine h outs) /\ o <> RCleanup /\ o_ret out = true.
(** The numbers of bytes asked for, in their order. *)
Definition requests (h : list (moment * pop)) : list Z :=
  flat_map (fun c => match snd c with PRand (RBytes n) => [n] | _ => [] end) h.
(** All bytes delivered. *)
Definition drawn (outs : list rout) : list N := concat (map o_data outs).
(** Only data is added. *)
Definition only_adds (h : list (moment * pop)) : Prop :=
  Forall (fun c => match snd c with PRand _ => False | _ => True end) h.
(** The system generator after the data of a history. *)
Definition added {S} (sys : sysgen S) (s : S) (h : list (moment * pop)) : S :=
  fold_left (fun s c => match snd c with PAdd b => fst (sg_add sys s b) | PSeedWith b => fst (sg_seed sys s b) | _ => s end) h s.
(** The system generator after the data and the status calls of a history; nothing is drawn from it. *)
Definition touched {S} (sys : sysgen S) (s : S) (h : list (moment * pop)) : S :=
  fold_left (fun s c => match snd c with PAdd b => fst (sg_add sys s b) | PSeedWith b => fst (sg_seed sys s b) | PRand RStatus => fst (sg_status sys s) | _ => s end) h s.
(** A request for [n] bytes in this state delivers [l]. *)
Definition gets {S} (sys : sysgen S) (p : proc S) (n : nat) (l : list N) : Prop :=
  exists m p', pcall sys p m (PRand (RBytes (Z.of_nat n))) = Some (p', ROUT true l).
