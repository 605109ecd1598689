(** Digest contexts as seen by a caller: a context holds an S-box and the bytes fed to it. *)
From Verif Require Import Base Spec_Gost89 Model_Params Spec_Params Model_Hash Spec_Hash.

(** Absent: no context memory; Raw: memory not (or no longer) initialised for hashing, or with an
    S-box changed in mid-message; Active: packed S-box and the message so far. *)
Inductive slot := Absent | Raw | Active (sb msg : list N).
Definition slots := nat -> slot.
Definition sset (a : slots) (p : nat) (v : slot) : slots := fun q => if Nat.eqb q p then v else a q.

(** The S-box a digest initialisation selects: the key's if there is one. *)
Definition selected (k : md_key) : list N :=
  match k with Some (Some (Some (Some s))) => s | _ => default_sbox end.

Definition present (s : slot) : Prop := s <> Absent.
Definition is_active (s : slot) : Prop := match s with Active _ _ => True | _ => False end.

(** A message of up to 2^60 - 1 bytes. *)
Definition hashable (n : nat) : Prop := N.of_nat n < 2 ^ 60.

(** What a caller must respect. *)
Definition legal_op (a : slots) (o : md_op) : Prop :=
  match o with
  | MAlloc _ _ _ => True
  | MInit p k => present (a p) /\ bytesn 64 (selected k)
  | MUpdate p d => bytes d /\ match a p with Active _ m => hashable (length m + length d) | _ => False end
  | MFinal p => is_active (a p)
  | MCopy t f => t <> f
  | MCleanup _ => True
  | MCtrl p _ p1 p2 => present (a p) /\ (forall s, p2 = Some s -> p1 = 64%Z -> bytesn 64 s)
  | MFree _ => True
  end.

(** The effect of a call on the contexts, and the digest it delivers. *)
Definition spec_op (a : slots) (o : md_op) : slots * option (list N) :=
  match o with
  | MAlloc p _ _ => (sset a p Raw, None)
  | MInit p k => (sset a p (Active (selected k) []), None)
  | MUpdate p d => (match a p with Active sb m => sset a p (Active sb (m ++ d)) | _ => a end, None)
  | MFinal p => (a, match a p with Active sb m => Some (digest (packed_sbox sb) m) | _ => None end)
  | MCopy t f => (match a t, a f with Absent, _ => a | _, Absent => a | _, s => sset a t s end, None)
  | MCleanup p => (match a p with Absent => a | _ => sset a p Raw end, None)
  | MCtrl p cmd p1 p2 =>
      (if (cmd =? 4097%Z)%Z && (p1 =? 64)%Z then
         match p2 with
         | None => a
         | Some s => match a p with
                     | Active _ [] => sset a p (Active s [])
                     | _ => sset a p Raw
                     end
         end
       else a, None)
  | MFree p => (sset a p Absent, None)
  end.

Fixpoint legal (a : slots) (os : list md_op) : Prop :=
  match os with [] => True | o :: t => legal_op a o /\ legal (fst (spec_op a o)) t end.
Fixpoint spec_outs (a : slots) (os : list md_op) : list (list N) :=
  match os with
  | [] => []
  | o :: t => let r := spec_op a o in
              match snd r with Some d => d :: spec_outs (fst r) t | None => spec_outs (fst r) t end
  end.
Definition no_slots : slots := fun _ => Absent.
