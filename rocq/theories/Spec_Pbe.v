(** HMAC (RFC 2104) and PBKDF2 (RFC 8018, 5.2). *)
From Verif Require Import Base Spec_Gost89 Model_Params Spec_Params Model_Hash Spec_Hash Spec_Md Spec_Cipher.

(** H: the hash function, B: its block length. *)
Definition hmac (H : list N -> list N) (B : nat) (K text : list N) : list N :=
  let K := if (B <? length K)%nat then H K else K in
  let K := K ++ zeros (B - length K) in
  H (map (N.lxor 0x5c) K ++ H (map (N.lxor 0x36) K ++ text)).

(** U_1, U_2, ... and their exclusive or. *)
Fixpoint U (PRF : list N -> list N -> list N) (P S : list N) (i : N) (j : nat) : list N :=
  match j with
  | O | 1%nat => PRF P (S ++ be_bytes 4 i)
  | S j => PRF P (U PRF P S i j)
  end.
Definition F (PRF : list N -> list N -> list N) (P S : list N) (c : nat) (i : N) : list N :=
  fold_left xorl (map (U PRF P S i) (seq 2 (c - 1))) (U PRF P S i 1).
(** dkLen bytes of T_1 || T_2 || ... for a function with hLen bytes. *)
Definition pbkdf2 (PRF : list N -> list N -> list N) (hLen : nat) (P S : list N) (c dkLen : nat) : list N :=
  firstn dkLen (concat (map (fun i => F PRF P S c (N.of_nat i)) (seq 1 ((dkLen + hLen - 1) / hLen)))).

(** The digest of the engine when there is no key. *)
Definition dstu34311 : list N -> list N := digest (packed_sbox default_sbox).
Definition hmac_dstu : list N -> list N -> list N := hmac dstu34311 32.
Definition pbkdf2_dstu (P S : list N) (c dkLen : nat) : list N := pbkdf2 hmac_dstu 32 P S c dkLen.

(** The digest contexts after a history of calls. *)
Definition after (os : list md_op) : slots := fold_left (fun a o => fst (spec_op a o)) os no_slots.
(** Every digest context outside [mine] that was in use still delivers the digest of what it was fed. *)
Definition others_intact (mine : list nat) (os : list md_op) (st : md_state) : Prop :=
  forall p sb m, ~ In p mine -> after os p = Active sb m -> exists st', md_final st p = Some (st', digest (packed_sbox sb) m).
