(** What OpenSSL 1.1.1 does for keylib/pkcs12.c:166-215 with the algorithms of the engine: the MAC of
    a container (pkcs12/p12_key.c, p12_mutl.c) and the shrouded key bag (p12_decr.c).
    Simplification: memory suffices; the password is the one OPENSSL_utf82uni made of the caller's;
    decoding of the container's outer structure is not modelled. *)
From Coq Require Import ZArith.
From Verif Require Import Base Model_Hash Model_Pbe Model_Utils Model_KeyStore Model_Pkcs12.

(** p12_key.c: v and u, the block and the digest length (md.c:94, 86). *)
Definition kg_v : nat := 32.
Definition kg_u : nat := 32.
(** p12_key.c: for (i = 0; i < Slen; i++) p++ = salt[i % saltlen]. *)
Definition kg_fill (s : list N) : list N := map (fun i => nth (i mod length s) s 0) (seq 0 (kg_v * ((length s + kg_v - 1) / kg_v))).
(** One digest: EVP_DigestInit_ex, EVP_DigestUpdate for each part, EVP_DigestFinal_ex. *)
Fixpoint md_updates (st : md_state) (p : nat) (ds : list (list N)) : option md_state :=
  match ds with [] => Some st | d :: t => match md_update st p d with None => None | Some st => md_updates st p t end end.
(** the three calls *)
Definition md_once (st : md_state) (p : nat) (ds : list (list N)) : option (md_state * list N) :=
  match evp_md_init st p with
  | None => None
  | Some st => match md_updates st p ds with None => None | Some st => evp_md_final st p end
  end.
(** p12_key.c: for (j = 1; j < iter; j++): the digest of the digest. *)
Fixpoint kg_iter (n : nat) (st : md_state) (p : nat) (Ai : list N) : option (md_state * list N) :=
  match n with
  | O => Some (st, Ai)
  | S n => match md_once st p [Ai] with None => None | Some (st, Ai) => kg_iter n st p Ai end
  end.
(** p12_key.c: c += Ij[k] + B[k]; Ij[k] = (unsigned char)c; c >>= 8, from the last byte to the first:
    [a] and [b] are given last byte first. *)
Fixpoint kg_carry (c : N) (a b : list N) : list N :=
  match a, b with
  | x :: a, y :: b => let c := c + x + y in N.land c 255 :: kg_carry (N.shiftr c 8) a b
  | _, _ => []
  end.
(** The loop over the blocks of I. *)
Definition kg_next (I B : list N) : list N := concat (map (fun Ij => rev (kg_carry 1 (rev Ij) (rev B))) (chunks kg_v I)).
(** The outer loop, [n] bytes being wanted; every turn makes a byte or more. *)
Fixpoint kg_loop (fuel : nat) (st : md_state) (p : nat) (D I : list N) (iter n : nat) : option (md_state * list N) :=
  match fuel with
  | O => None
  | S fuel =>
      match md_once st p [D; I] with
      | None => None
      | Some (st, Ai) =>
          match kg_iter (iter - 1) st p Ai with
          | None => None
          | Some (st, Ai) =>
              let out := firstn (Nat.min n kg_u) Ai in
              if (n <=? kg_u)%nat then Some (st, out)
              else
                let B := map (fun j => nth (j mod kg_u) Ai 0) (seq 0 kg_v) in
                match kg_loop fuel st p D (kg_next I B) iter (n - kg_u) with
                | None => None
                | Some (st, t) => Some (st, out ++ t)
                end
          end
      end
  end.
(** p12_key.c PKCS12_key_gen_uni; the context is freed at the end. *)
Definition key_gen (st : md_state) (p : nat) (pass salt : list N) (id : N) (iter n : nat) : option (md_state * list N) :=
  match kg_loop (S n) st p (repeat id kg_v) (kg_fill salt ++ kg_fill pass) iter n with
  | None => None
  | Some (st, k) => Some (md_free st p, k)
  end.

(** PKCS12_MAC_ID (pkcs12.h). *)
Definition PKCS12_MAC_ID : N := 3.
(** p12_mutl.c pkcs12_gen_mac: HMAC of the contents under the derived key.  [p], [x]: the contexts. *)
Definition gen_mac (st : md_state) (p : nat) (x : hmac_ctx) (pass salt : list N) (iter : nat) (content : list N) : option (md_state * list N) :=
  match key_gen st p pass salt PKCS12_MAC_ID iter kg_u with
  | None => None
  | Some (st, key) =>
      match hmac_init st x key with
      | None => None
      | Some st =>
          match hmac_updates st x [content] with
          | None => None
          | Some st => match hmac_final st x with None => None | Some (st, mac) => Some (fold_left md_free [hm_i x; hm_o x; hm_md x] st, mac) end
          end
      end
  end.
(** p12_mutl.c PKCS12_verify_mac: the stored MAC has the length and the bytes of the computed one. *)
Definition verify_mac (st : md_state) (p : nat) (x : hmac_ctx) (pass salt : list N) (iter : nat) (content stored : list N) : option (md_state * bool) :=
  match gen_mac st p x pass salt iter content with
  | None => None
  | Some (st, mac) => Some (st, Nat.eqb (length stored) (length mac) && if list_eq_dec N.eq_dec stored mac then true else false)
  end.

(** PKCS12_decrypt_skey, then EVP_PKCS82PKEY (pkcs12.c:97-110): the bag as pkcs12.c sees it, the
    encrypted key having the parameters [pe] and the contents [ct]; [p8]: what the decoder of
    PKCS#8 structures and EVP_PKCS82PKEY make of bytes. *)
Definition shrouded (p8 : list N -> option p8info) (r1 rnd : list N) (st : md_state) (x tpl : hmac_ctx) (pe : pbe2) (pass ct : list N) : option bag :=
  match pbe2_crypt r1 rnd st x tpl pe pass false ct with
  | None => None
  | Some None => Some (ShroudedKeyBag None)
  | Some (Some out) => Some (ShroudedKeyBag (option_map p8_pkey (p8 out)))
  end.
