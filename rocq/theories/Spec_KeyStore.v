(** A key store as two lists.  Slots hold an object or nothing. *)
From Verif Require Import Base Model_KeyStore.

Definition slots := list (option nat).
(** keys and certificates of every store that exists *)
Definition shelf := nat -> option (slots * slots).
Definition sh0 : shelf := fun _ => None.
Definition shset (s : shelf) (i : nat) (v : option (slots * slots)) : shelf := fun j => if Nat.eqb j i then v else s j.
Definition pick (d : side) (p : slots * slots) : slots := match d with Keys => fst p | Certs => snd p end.
Definition place (d : side) (p : slots * slots) (l : slots) : slots * slots := match d with Keys => (l, snd p) | Certs => (fst p, l) end.

(** l with entry number i replaced *)
Fixpoint set_nth (l : slots) (i : nat) (v : option nat) : slots :=
  match l, i with
  | [], _ => []
  | _ :: t, O => v :: t
  | x :: t, S k => x :: set_nth t k v
  end.
Definition cell_of (o : option nat) : cell := match o with Some n => Ptr n | None => Null end.

(** The effect of a call on the lists, and its result. *)
Definition sh_step (s : shelf) (o : kop) : shelf * kout :=
  match o with
  | KNew i k c => (shset s i (Some (repeat None k, repeat None c)), ONone)
  | KAppend t f =>
      match s t, s f with
      | Some (tk, tc), Some (fk, fc) =>
          if Nat.eqb t f then (shset s t (Some (repeat None (length tk) ++ tk, repeat None (length tc) ++ tc)), ONone)
          else (shset (shset s t (Some (tk ++ fk, tc ++ fc))) f (Some (repeat None (length fk), repeat None (length fc))), ONone)
      | _, _ => (s, ONone)
      end
  | KFree i => (shset s i None, ONone)
  | KSet d i pos obj =>
      match s i with
      | Some p => (shset s i (Some (place d p (set_nth (pick d p) pos (Some obj)))), ONone)
      | None => (s, ONone)
      end
  | KNum d i => (s, ONum (match s i with Some p => length (pick d p) | None => 0%nat end))
  | KGet d i pos => (s, OCell (match s i with Some p => cell_of (nth pos (pick d p) None) | None => Null end))
  end.
Fixpoint sh_run (s : shelf) (os : list kop) : shelf * list kout :=
  match os with
  | [] => (s, [])
  | o :: t => let '(s1, r) := sh_step s o in let '(s2, rs) := sh_run s1 t in (s2, r :: rs)
  end.

(** The objects handed to stores in a history. *)
Fixpoint handed (d : side) (os : list kop) : list nat :=
  match os with
  | [] => []
  | KSet d' _ _ obj :: t => match d, d' with Keys, Keys | Certs, Certs => obj :: handed d t | _, _ => handed d t end
  | _ :: t => handed d t
  end.

(** What a caller must respect: only existing stores are used, allocation gives an unused
    address, positions written exist. *)
Definition kop_ok (s : shelf) (o : kop) : Prop :=
  match o with
  | KNew i _ _ => s i = None
  | KAppend t f => s t <> None /\ s f <> None
  | KFree i => s i <> None
  | KSet d i pos _ => exists p, s i = Some p /\ (pos < length (pick d p))%nat
  | KNum _ i | KGet _ i _ => s i <> None
  end.
Fixpoint legal_from (s : shelf) (os : list kop) : Prop :=
  match os with [] => True | o :: t => kop_ok s o /\ legal_from (fst (sh_step s o)) t end.
(** A legal history in which no object is handed over twice. *)
Definition legal (os : list kop) : Prop := legal_from sh0 os /\ NoDup (handed Keys os) /\ NoDup (handed Certs os).
(** ... and no occupied slot is overwritten. *)
Definition kop_free_slot (s : shelf) (o : kop) : Prop :=
  match o with KSet d i pos _ => exists p, s i = Some p /\ nth_error (pick d p) pos = Some None | _ => True end.
Fixpoint tidy_from (s : shelf) (os : list kop) : Prop :=
  match os with [] => True | o :: t => kop_free_slot s o /\ tidy_from (fst (sh_step s o)) t end.
Definition tidy (os : list kop) : Prop := tidy_from sh0 os.

(** The objects in the slots of the stores numbered in [ids]. *)
Definition objects (l : slots) : list nat := flat_map (fun o => match o with Some n => [n] | None => [] end) l.
Definition held (d : side) (s : shelf) (ids : list nat) : list nat :=
  flat_map (fun i => match s i with Some p => objects (pick d p) | None => [] end) ids.
(** [ids] lists every existing store once. *)
Definition covers (s : shelf) (ids : list nat) : Prop := NoDup ids /\ forall i, s i <> None -> In i ids.
(** The keys or certificates released so far. *)
Definition freed (d : side) (h : heap) : list nat := match d with Keys => hp_fk h | Certs => hp_fc h end.
