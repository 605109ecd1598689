(** The key derivation of PKCS#12 (RFC 7292, appendix B.2) and its MAC. *)
From Verif Require Import Base Spec_Pbe.

(** Copies of a string, cut to a multiple of [v] bytes; the empty string stays empty. *)
Definition stretch (v : nat) (s : list N) : list N := match s with [] => [] | _ => firstn (v * ((length s + v - 1) / v)) (concat (repeat s v)) end.
(** H applied r times (r at least one). *)
Fixpoint hash_times (H : list N -> list N) (r : nat) (m : list N) : list N := match r with O | 1%nat => H m | S r => H (hash_times H r m) end.
(** I_j := (I_j + B + 1) mod 2^(8v), numbers with the most significant byte first. *)
Definition advance (v : nat) (I B : list N) : list N := concat (map (fun Ij => be_bytes v ((be_val Ij + be_val B + 1) mod 256 ^ N.of_nat v)) (chunks v I)).
(** A_1, A_2, ... for H with blocks of [v] bytes; B is A_i cut to [v] bytes. *)
Fixpoint p12_blocks (H : list N -> list N) (v r : nat) (D I : list N) (c : nat) : list (list N) :=
  match c with O => [] | S c => let A := hash_times H r (D ++ I) in A :: p12_blocks H v r D (advance v I (firstn v (stretch v A))) c end.
Definition p12_kdf (H : list N -> list N) (u v : nat) (id : N) (P S : list N) (r n : nat) : list N :=
  firstn n (concat (p12_blocks H v r (repeat id v) (stretch v S ++ stretch v P) ((n + u - 1) / u))).
(** The MAC of contents under a password. *)
Definition p12_mac_of (P S : list N) (r : nat) (content : list N) : list N := hmac_dstu (p12_kdf dstu34311 32 32 3 P S r 32) content.
(** Two different messages with one digest. *)
Definition collision : Prop := exists m m', bytes m /\ bytes m' /\ m <> m' /\ dstu34311 m = dstu34311 m'.
