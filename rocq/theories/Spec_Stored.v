(** Keys in containers and what they are worth afterwards. *)
From Coq Require Import ZArith.
From Verif Require Import Base Spec_Md Model_Gf2m Model_Compress Model_Ec Model_Curves Model_Sign Model_Asn1 Model_Pmeth Model_Key Model_Ameth Model_Evp Spec_Sign Model_Utils.

(** [der] encodes this PKCS#8 structure for the decoder [read], which ignores what follows. *)
Definition is_der (read : list N -> option (keyinfo * list (option attribute))) (der : list N) (info : keyinfo) (attrs : list (option attribute)) : Prop :=
  forall rest, read (der ++ rest) = Some (info, attrs).
(** What OpenSSL makes of the bytes [x]: the structure, and from it, with EVP_PKCS82PKEY, which
    calls the engine, a key object; [obj] tells which key an object is. *)
Definition opens (d2i : list N -> option params) (solve : N -> N -> option N) (read : list N -> option (keyinfo * list (option attribute)))
    (obj : nat -> pkey) (x : list N) (i : option p8info) : Prop :=
  match read x with
  | None => i = None
  | Some (info, attrs) =>
      exists p, i = Some p /\ p8_attrs p = attrs /\
        match priv_decode d2i solve info with
        | None => p8_pkey p = None
        | Some pk => exists a, p8_pkey p = Some a /\ obj a = pk
        end
  end.
(** Every signature the key [pk] makes of a message, given in any pieces, is accepted with [kv]
    for the message in any pieces. *)
Definition signs_for (d2o : list N -> option (list N)) (g : group) (pk kv : pkey) : Prop :=
  forall h h' c c' v v' x x' fuel ds ds' siglen src len w, Forall bytes ds -> Forall bytes ds' -> concat ds' = concat ds -> hashable (length (concat ds)) -> ranged (g_order g) src ->
    digest_sign h h' c c' fuel pk ds siglen src = Some (Done (true, len, w)) -> digest_verify v v' x x' d2o kv ds' w = Some true.
