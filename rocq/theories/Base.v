(** Shared definitions: bytes, machine words, byte strings.  No proofs here. *)
From Coq Require Export List NArith ZArith Bool Arith.
Export ListNotations.
#[global] Open Scope N_scope.

(** [unsigned char], [uint32_t], [uint64_t] values are [N] below the bound. *)
Definition is_byte (b : N) : Prop := b < 256.
Definition bytes (l : list N) : Prop := Forall is_byte l.
(** A byte string of exactly [n] bytes. *)
Definition bytesn (n : nat) (l : list N) : Prop := bytes l /\ length l = n.

(** boolean versions, for examples *)
Definition bytesb (l : list N) : bool := forallb (fun b => b <? 256) l.

(** Reduction to a C unsigned type of 8, 32 or 64 bits. *)
Definition w8 (x : N) : N := x mod 2 ^ 8.
Definition w32 (x : N) : N := x mod 2 ^ 32.
Definition w64 (x : N) : N := x mod 2 ^ 64.

(** Bytewise xor of two strings (length of the shorter). *)
Fixpoint xorl (a b : list N) : list N :=
  match a, b with
  | x :: a', y :: b' => N.lxor x y :: xorl a' b'
  | _, _ => []
  end.

(** Cut a string in pieces of [n] bytes; a shorter last piece is kept. *)
Fixpoint chunks_fuel (fuel : nat) (n : nat) (l : list N) : list (list N) :=
  match fuel with
  | O => []
  | S k => match l with
           | [] => []
           | _ => firstn n l :: chunks_fuel k n (skipn n l)
           end
  end.
Definition chunks (n : nat) (l : list N) : list (list N) := chunks_fuel (length l) n l.

(** Little- and big-endian integers. *)
Fixpoint le_val (l : list N) : N :=
  match l with [] => 0 | b :: t => b + 256 * le_val t end.
Definition be_val (l : list N) : N := le_val (rev l).
(** [n]-byte little-endian digits. *)
Fixpoint le_bytes (n : nat) (x : N) : list N :=
  match n with O => [] | S k => x mod 256 :: le_bytes k (x / 256) end.
Definition be_bytes (n : nat) (x : N) : list N := rev (le_bytes n x).

Definition zeros (n : nat) : list N := repeat 0 n.

(** Byte addressed memory.  Addresses do not wrap (simplification: an object never
    spans the end of the address space in C). *)
Definition mem := N -> N.
Definition upd (m : mem) (a v : N) : mem := fun x => if x =? a then v else m x.
Fixpoint rd (m : mem) (a : N) (n : nat) : list N :=
  match n with O => [] | S k => m a :: rd m (a + 1) k end.
Fixpoint wr (m : mem) (a : N) (l : list N) : mem :=
  match l with [] => m | x :: t => wr (upd m a x) (a + 1) t end.
