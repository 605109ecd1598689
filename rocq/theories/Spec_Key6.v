(** What a Key-6 container means: GOST 28147 in simple substitution (block by block) under the
    key obtained by applying the GOST 34.311 digest 10000 times to the password. *)
From Verif Require Import Base Spec_Gost89 Spec_Hash Spec_Params Spec_Md Model_Params Model_Key6.

(** [times n f x] = f (f (... x)) *)
Fixpoint times {A} (n : nat) (f : A -> A) (x : A) : A := match n with O => x | S k => f (times k f x) end.
Definition key6_sbox : nat -> N -> N := packed_sbox default_sbox.
Definition key6_key (password : list N) : list N := times (N.to_nat 10000) (digest key6_sbox) password.
Definition key6_encrypt (key plain : list N) : list N := concat (map (encrypt key6_sbox key) (chunks 8 plain)).
Definition key6_decrypt (key cipher : list N) : list N := concat (map (decrypt key6_sbox key) (chunks 8 cipher)).
(** A store as the format has it: the type, any mac, the ciphertext in one or two parts. *)
Definition key6_store (mac data : list N) (pad : option (list N)) : iit_store :=
  IITS (Some (IITH (Some [1;3;6;1;4;1;19398;1;1;1;2]) (Some (IITP mac pad)))) (Some data).
Definition key6_cipher (data : list N) (pad : option (list N)) : list N := data ++ match pad with None => [] | Some p => p end.
(** The two allocations do not overlap. *)
Definition apart (r : k6_run) (n : nat) : Prop :=
  k6_res r + N.of_nat (n + 8) <= k6_src r \/ k6_src r + N.of_nat n <= k6_res r.
