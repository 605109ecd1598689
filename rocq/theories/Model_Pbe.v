(** Password-based encryption with the algorithms of the engine (registered at engine/dstu.c:206): HMAC
    (OpenSSL 1.1.1 crypto/hmac/hmac.c) and PBKDF2 (crypto/evp/p5_crpt2.c) over the digest of
    engine/md.c, and PBES2 (crypto/asn1/p5_pbev2.c, p5_crpt2.c) with the cipher of engine/cipher.c.
    Simplification: memory suffices. *)
From Coq Require Import ZArith.
From Verif Require Import Base Model_Gost89 Model_Params Model_Cipher Model_Hash.

(** EVP_DigestInit_ex (evp/digest.c): the structure is allocated cleared unless it is there; md.c:25-39. *)
Definition evp_md_init (st : md_state) (p : nat) : option md_state :=
  md_init (match md_d st p with None => md_alloc st p zero_dctx zero_ctx | Some _ => st end) p None.
(** EVP_DigestFinal_ex: md.c:46-49, then 63-69. *)
Definition evp_md_final (st : md_state) (p : nat) : option (md_state * list N) :=
  match md_final st p with None => None | Some (st, d) => Some (md_cleanup st p, d) end.
(** EVP_MD_CTX_copy_ex: the structure is copied, then md.c:51-61. *)
Definition evp_md_copy (st : md_state) (to from : nat) : option md_state :=
  match md_d st from, md_c st from with
  | Some h, Some c => Some (md_copy (md_alloc st to h c) to from)
  | _, _ => None
  end.

(** HMAC_CTX (hmac_local.h): the three digest contexts. *)
Record hmac_ctx := HMAC { hm_md : nat; hm_i : nat; hm_o : nat }.
(** HMAC_MAX_MD_CBLOCK_SIZE. *)
Definition max_cblock : nat := 144.
(** EVP_MD_block_size: md.c:94. *)
Definition md_block_size : nat := 32.
(** hmac.c: the key as it is, or its digest if it is longer than a block. *)
Definition hmac_key (st : md_state) (x : hmac_ctx) (key : list N) : option (md_state * list N) :=
  if (md_block_size <? length key)%nat then
    match evp_md_init st (hm_md x) with
    | None => None
    | Some st => match md_update st (hm_md x) key with None => None | Some st => evp_md_final st (hm_md x) end
    end
  else Some (st, key).
(** hmac.c: one of the two inner contexts. *)
Definition hmac_pad (st : md_state) (p : nat) (b : N) (key : list N) : option md_state :=
  match evp_md_init st p with
  | None => None
  | Some st => md_update st p (firstn md_block_size (map (N.lxor b) key))
  end.
(** HMAC_Init_ex with a key. *)
Definition hmac_init (st : md_state) (x : hmac_ctx) (key : list N) : option md_state :=
  match hmac_key st x key with
  | None => None
  | Some (st, k) =>
      let k := k ++ zeros (max_cblock - length k) in
      match hmac_pad st (hm_i x) 0x36 k with
      | None => None
      | Some st => match hmac_pad st (hm_o x) 0x5c k with None => None | Some st => evp_md_copy st (hm_md x) (hm_i x) end
      end
  end.
(** HMAC_Init_ex without a key: start again with the same one. *)
Definition hmac_again (st : md_state) (x : hmac_ctx) : option md_state := evp_md_copy st (hm_md x) (hm_i x).
(** HMAC_Update, several times. *)
Fixpoint hmac_updates (st : md_state) (x : hmac_ctx) (ds : list (list N)) : option md_state :=
  match ds with [] => Some st | d :: t => match md_update st (hm_md x) d with None => None | Some st => hmac_updates st x t end end.
(** HMAC_Final. *)
Definition hmac_final (st : md_state) (x : hmac_ctx) : option (md_state * list N) :=
  match evp_md_final st (hm_md x) with
  | None => None
  | Some (st, buf) =>
      match evp_md_copy st (hm_md x) (hm_o x) with
      | None => None
      | Some st => match md_update st (hm_md x) buf with None => None | Some st => evp_md_final st (hm_md x) end
      end
  end.
(** A caller that authenticates messages one after another with one key: HMAC_Init_ex with the key,
    HMAC_Update and HMAC_Final for each message, HMAC_Init_ex without a key after it. *)
Fixpoint hmac_messages (st : md_state) (x : hmac_ctx) (ms : list (list (list N))) : option (md_state * list (list N)) :=
  match ms with
  | [] => Some (st, [])
  | m :: t =>
      match hmac_updates st x m with
      | None => None
      | Some st =>
          match hmac_final st x with
          | None => None
          | Some (st, d) =>
              match hmac_again st x with
              | None => None
              | Some st => match hmac_messages st x t with None => None | Some (st, l) => Some (st, d :: l) end
              end
          end
      end
  end.
Definition hmac_session (st : md_state) (x : hmac_ctx) (key : list N) (ms : list (list (list N))) : option (md_state * list (list N)) :=
  match hmac_init st x key with None => None | Some st => hmac_messages st x ms end.
(** HMAC_CTX_copy. *)
Definition hmac_copy (st : md_state) (to from : hmac_ctx) : option md_state :=
  match evp_md_copy st (hm_i to) (hm_i from) with
  | None => None
  | Some st => match evp_md_copy st (hm_o to) (hm_o from) with None => None | Some st => evp_md_copy st (hm_md to) (hm_md from) end
  end.
(** One use of the template: copy, updates, final. *)
Definition hmac_once (st : md_state) (x tpl : hmac_ctx) (ds : list (list N)) : option (md_state * list N) :=
  match hmac_copy st x tpl with
  | None => None
  | Some st => match hmac_updates st x ds with None => None | Some st => hmac_final st x end
  end.

(** p5_crpt2.c PKCS5_PBKDF2_HMAC: the rounds after the first, [p] being the output so far. *)
Fixpoint pbkdf_rounds (n : nat) (st : md_state) (x tpl : hmac_ctx) (digtmp p : list N) : option (md_state * list N) :=
  match n with
  | O => Some (st, p)
  | S n => match hmac_once st x tpl [digtmp] with
           | None => None
           | Some (st, digtmp) => pbkdf_rounds n st x tpl digtmp (xorl p (firstn (length p) digtmp))
           end
  end.
(** The loop over the blocks of the key; every turn makes a byte or more. *)
Fixpoint pbkdf_blocks (fuel : nat) (st : md_state) (x tpl : hmac_ctx) (salt : list N) (iter : nat) (tklen : nat) (i : N) : option (md_state * list N) :=
  match tklen with
  | O => Some (st, [])
  | _ =>
      match fuel with
      | O => None
      | S fuel =>
          let cplen := if (32 <? tklen)%nat then 32%nat else tklen in
          let itmp := [N.land (N.shiftr i 24) 255; N.land (N.shiftr i 16) 255; N.land (N.shiftr i 8) 255; N.land i 255] in
          match hmac_once st x tpl [salt; itmp] with
          | None => None
          | Some (st, digtmp) =>
              match pbkdf_rounds (iter - 1) st x tpl digtmp (firstn cplen digtmp) with
              | None => None
              | Some (st, p) =>
                  match pbkdf_blocks fuel st x tpl salt iter (tklen - cplen) (i + 1) with
                  | None => None
                  | Some (st, t) => Some (st, p ++ t)
                  end
              end
          end
      end
  end.
(** PKCS5_PBKDF2_HMAC: the template, the blocks; both contexts are freed. *)
Definition pbkdf2_hmac (st : md_state) (x tpl : hmac_ctx) (pass salt : list N) (iter keylen : nat) : option (md_state * list N) :=
  match hmac_init st tpl pass with
  | None => None
  | Some st =>
      match pbkdf_blocks keylen st x tpl salt iter keylen 1 with
      | None => None
      | Some (st, key) => Some (fold_left md_free [hm_i x; hm_o x; hm_md x; hm_i tpl; hm_o tpl; hm_md tpl] st, key)
      end
  end.

(** The pseudo-random function named in the parameters. *)
Inductive prf := PrfDstu34311 | PrfDefault.
(** PBE2PARAM: cipher parameters, salt, iteration count and function. *)
Record pbe2 := PBE2 { pb_scheme : asn1_value; pb_salt : list N; pb_iter : nat; pb_prf : prf }.
(** p5_pbev2.c PKCS5_pbe2_set_iv: the cipher is given the IV, asked for its parameters
    (cipher.c:176-207) and for its function (cipher.c:166-170). *)
Definition pbe2_set (rnd : list N) (stale : subst_block) (iv salt : list N) (iter : nat) : pbe2 :=
  let c := evp_init rnd fresh_ctx None (Some iv) false in
  let '(c', r, stored) := cipher_ctrl c EVP_CTRL_PBE_PRF_NID 0 (Some (zeros 4)) in
  PBE2 (set_asn1 c stale) salt iter (if (0 <? r)%Z && stored then PrfDstu34311 else PrfDefault).
(** p5_crpt2.c PKCS5_v2_PBE_keyivgen, then EVP_CipherUpdate of all the data (p12_decr.c
    PKCS12_pbe_crypt): the cipher without key and IV, the parameters, the derived key.  Result: None
    for an undefined outcome or another function; Some None for failure.  [r1], [rnd]: the masks. *)
Definition pbe2_crypt (r1 rnd : list N) (st : md_state) (x tpl : hmac_ctx) (p : pbe2) (pass : list N) (enc : bool) (data : list N) : option (option (list N)) :=
  match pb_prf p with
  | PrfDefault => None
  | PrfDstu34311 =>
      let '(c, r) := get_asn1 (evp_init r1 fresh_ctx None None enc) (pb_scheme p) in
      if (r <=? 0)%Z then Some None
      else match pbkdf2_hmac st x tpl pass (pb_salt p) (pb_iter p) 32 with
           | None => None
           | Some (_, key) => let '(_, n, out) := update (evp_init rnd c (Some key) None enc) data in if (n <? 0)%Z then Some None else Some (Some out)
           end
  end.
