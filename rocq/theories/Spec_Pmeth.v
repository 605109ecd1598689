(** What the public interface of keys is expected to do. *)
From Coq Require Import ZArith.
From Verif Require Import Base Model_Gf2m Model_Compress Model_Ec Model_Sign Model_Pmeth.

(** The two key types. *)
Definition le_type : Z := 1158.
Definition be_type : Z := 1159.
Definition key_type (t : Z) : Prop := t = le_type \/ t = be_type.
(** A key of the given type with private key d (None: only the public part). *)
Definition key_of (t : Z) (g : group) (d : option N) (Q : point) (sbox : option (list N)) : pkey :=
  PKEY t (Some (DKEY (ECKEY (Some (Binary g)) d (Some Q)) sbox)).

(** The pair (s, r) in the body of a signature: s then r in big-endian; for the little-endian
    type r then s in little-endian. *)
Definition s_of (t : Z) (body : list N) : N :=
  let half := (length body / 2)%nat in if (t =? le_type)%Z then le_val (skipn half body) else be_val (firstn half body).
Definition r_of (t : Z) (body : list N) : N :=
  let half := (length body / 2)%nat in if (t =? le_type)%Z then le_val (firstn half body) else be_val (skipn half body).
(** A body with a zero byte added to both halves; s and r stay the same. *)
Definition padded (t : Z) (body : list N) : list N :=
  let half := (length body / 2)%nat in
  if (t =? le_type)%Z then firstn half body ++ [0] ++ skipn half body ++ [0] else [0] ++ firstn half body ++ [0] ++ skipn half body.

(** Hexadecimal digits of either case. *)
Definition is_hex (ch v : N) : Prop :=
  48 <= ch <= 57 /\ v = ch - 48 \/ 65 <= ch <= 70 /\ v = ch - 65 + 10 \/ 97 <= ch <= 102 /\ v = ch - 97 + 10.
(** The text names the bytes, two digits each. *)
Inductive hex_text : list N -> list N -> Prop :=
  | hex_nil : hex_text [] []
  | hex_cons hi lo a b t s : is_hex hi a -> is_hex lo b -> hex_text t s -> hex_text (hi :: lo :: t) (16 * a + b :: s).
