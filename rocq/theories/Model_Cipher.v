(** Model of engine/cipher.c: the EVP_CIPHER "dstu28147-cfb". *)
From Verif Require Import Base Model_Gost89 Model_Params.

(** The parts of EVP_CIPHER_CTX the code uses: encrypting flag, num, iv (current), oiv
    (original iv), buf (gamma) and the cipher data (gost_ctx).  OpenSSL's accessors just
    read and write these fields. *)
Record cipher_ctx := CIPH { c_enc : bool; c_num : N; c_iv : list N; c_oiv : list N; c_buf : list N; c_g : gost_ctx }.

(** EVP_CIPHER_CTX_set_num (cipher.c:88, 139). *)
Definition set_num (c : cipher_ctx) (n : N) := CIPH (c_enc c) n (c_iv c) (c_oiv c) (c_buf c) (c_g c).
(** Writes to the array of EVP_CIPHER_CTX_iv_noconst (cipher.c:75, 79, 103, 109). *)
Definition set_iv (c : cipher_ctx) (v : list N) := CIPH (c_enc c) (c_num c) v (c_oiv c) (c_buf c) (c_g c).
(** Writes to the original IV (cipher.c:26-48). *)
Definition set_oiv (c : cipher_ctx) (v : list N) := CIPH (c_enc c) (c_num c) (c_iv c) v (c_buf c) (c_g c).
(** Writes to the array of EVP_CIPHER_CTX_buf_noconst (cipher.c:91, 113). *)
Definition set_buf (c : cipher_ctx) (v : list N) := CIPH (c_enc c) (c_num c) (c_iv c) (c_oiv c) v (c_g c).
(** Writes to the cipher data (cipher.c:54). *)
Definition set_g (c : cipher_ctx) (g : gost_ctx) := CIPH (c_enc c) (c_num c) (c_iv c) (c_oiv c) (c_buf c) g.
(** ctx->encrypt = enc: done by EVP_CipherInit_ex before it calls the init function. *)
Definition set_enc (c : cipher_ctx) (e : bool) := CIPH e (c_num c) (c_iv c) (c_oiv c) (c_buf c) (c_g c).

(** gostcrypt(gctx, iv, buf) *)
Definition refill (c : cipher_ctx) : cipher_ctx := set_buf c (gostcrypt (c_g c) (c_iv c)).

(** cipher.c:26-48 dstu_cipher_init (always returns 1).  [key], [iv]: None = NULL;
    [rnd] is the key mask drawn by gost_key. *)
Definition cipher_init (rnd : list N) (c : cipher_ctx) (key iv : option (list N)) : cipher_ctx :=
  let c1 := set_g c (gost_init (c_g c) (Some (unpack_sbox default_sbox))) in
  let c2 := match key with Some k => set_g c1 (gost_key rnd (c_g c1) k) | None => c1 end in
  match iv with
  | Some v => set_num (refill (set_iv (set_oiv c2 v) v)) 0
  | None => c2
  end.

(** EVP_CipherInit_ex(ctx, ..., key, iv, enc) as far as this cipher is concerned: the
    flags CUSTOM_IV and ALWAYS_CALL_INIT (cipher.c:237) make it set the direction and call
    the init function in every case. *)
Definition evp_init (rnd : list N) (c : cipher_ctx) (key iv : option (list N)) (enc : bool) : cipher_ctx :=
  cipher_init rnd (set_enc c enc) key iv.

(** cipher.c:70-84 and 123-137: [k] iterations of the byte loop starting at buffer index
    [off].  Returns context (iv changed) and memory. *)
Fixpoint byte_loop (k : nat) (c : cipher_ctx) (m : mem) (src dst : N) (off : nat) : cipher_ctx * mem :=
  match k with
  | O => (c, m)
  | S k' =>
      let v := N.lxor (m src) (nth off (c_buf c) 0) in
      let c' := if c_enc c then set_iv c (lset (c_iv c) off v)
                else set_iv c (lset (c_iv c) off (m src)) in
      byte_loop k' c' (upd m dst v) (src + 1) (dst + 1) (S off)
  end.

(** size_t to int conversion at the call of gost_enc_cfb/gost_dec_cfb
    (implementation-defined; modulo 2^32 on all supported compilers). *)
Definition to_int (x : N) : Z :=
  let y := Z.of_N (x mod 2 ^ 32) in if (y <? 2 ^ 31)%Z then y else (y - 2 ^ 32)%Z.

(** cipher.c:66-92: use up the gamma bytes left from the previous call. *)
Definition head_part (c : cipher_ctx) (m : mem) (src dst inl : N) : cipher_ctx * mem * N * N * N :=
  if c_num c =? 0 then (c, m, src, dst, inl)
  else
    let to_use := if c_num c <? inl then c_num c else inl in
    let '(c1, m1) := byte_loop (N.to_nat to_use) c m src dst (N.to_nat (8 - c_num c)) in
    let c2 := set_num c1 (c_num c - to_use) in
    let c3 := if c_num c - to_use =? 0 then refill c2 else c2 in
    (c3, m1, src + to_use, dst + to_use, inl - to_use).

(** cipher.c:94-119: whole blocks. *)
Definition block_part (c : cipher_ctx) (m : mem) (src dst inl : N) : cipher_ctx * mem * N * N * N :=
  let blocks := N.shiftr inl 3 in
  if blocks =? 0 then (c, m, src, dst, inl)
  else
    let '(c1, m1) :=
      if c_enc c then
        let m1 := gost_enc_cfb (c_g c) (c_iv c) m src dst (to_int blocks) in
        (set_iv c (rd m1 (dst + blocks * 8 - 8) 8), m1)
      else
        let tmpiv := c_iv c in
        let c1 := set_iv c (rd m (src + blocks * 8 - 8) 8) in
        (c1, gost_dec_cfb (c_g c) tmpiv m src dst (to_int blocks)) in
    (refill c1, m1, src + blocks * 8, dst + blocks * 8, inl - blocks * 8).

(** cipher.c:121-140: remaining bytes. *)
Definition tail_part (c : cipher_ctx) (m : mem) (src dst inl : N) : cipher_ctx * mem * N :=
  if inl =? 0 then (c, m, dst)
  else let '(c1, m1) := byte_loop (N.to_nat inl) c m src dst 0 in
       (set_num c1 (8 - inl), m1, dst + inl).

(** cipher.c:50-143 dstu_cipher_do_cipher.  [src]: None = NULL.  [dst] is a valid
    pointer.  The iv and buf arrays are inside the context and do not overlap the caller's
    buffers.  Result: context, memory, return value (out - out_start as an int). *)
Definition do_cipher (c : cipher_ctx) (m : mem) (dst : N) (src : option N) (inl : N) : cipher_ctx * mem * Z :=
  match src with
  | None => if inl =? 0 then (c, m, 0%Z) else (c, m, (-1)%Z)
  | Some s =>
      if inl =? 0 then (c, m, (-1)%Z)
      else
        let '(c1, m1, s1, d1, l1) := head_part c m s dst inl in
        let '(c2, m2, s2, d2, l2) := if l1 =? 0 then (c1, m1, s1, d1, l1) else block_part c1 m1 s1 d1 l1 in
        let '(c3, m3, d3) := tail_part c2 m2 s2 d2 l2 in
        (c3, m3, to_int (d3 - dst))
  end.

(** One update call of a caller that holds [data] in one buffer and gives another one for
    the result.  Result: context, return value, output bytes. *)
Definition update (c : cipher_ctx) (data : list N) : cipher_ctx * Z * list N :=
  let n := N.of_nat (length data) in
  let '(c', m', r) := do_cipher c (wr (fun _ => 0) 0 data) n (Some 0) n in
  (c', r, rd m' n (length data)).
(** A sequence of update calls: final context, all return values, all output. *)
Fixpoint updates (c : cipher_ctx) (ds : list (list N)) : cipher_ctx * list Z * list N :=
  match ds with
  | [] => (c, [], [])
  | d :: t => let '(c1, r, o) := update c d in
              let '(c2, rs, os) := updates c1 t in (c2, r :: rs, o ++ os)
  end.

(** control.h:5 DSTU_SET_CUSTOM_SBOX = EVP_MD_CTRL_ALG_CTRL + 1; EVP_CTRL_PBE_PRF_NID. *)
Definition DSTU_SET_CUSTOM_SBOX : Z := 0x1001.
(** evp.h, used at cipher.c:151-174. *)
Definition EVP_CTRL_PBE_PRF_NID : Z := 7.

(** cipher.c:151-174 dstu_cipher_ctrl.  [p2]: None = NULL, else the bytes it points to (at
    least p1 of them).  Result: context, return value, whether the PRF identifier was
    stored through p2. *)
Definition cipher_ctrl (c : cipher_ctx) (cmd p1 : Z) (p2 : option (list N)) : cipher_ctx * Z * bool :=
  if (cmd =? DSTU_SET_CUSTOM_SBOX)%Z then
    match p2 with
    | None => (c, 0%Z, false)
    | Some p =>
        if negb (p1 =? 64)%Z then (c, 0%Z, false)
        else
          let c1 := set_g c (gost_init (c_g c) (Some (unpack_sbox p))) in
          (refill (set_iv c1 (c_oiv c1)), 1%Z, false)
    end
  else if (cmd =? EVP_CTRL_PBE_PRF_NID)%Z then
    match p2 with None => (c, 0%Z, false) | Some _ => (c, 1%Z, true) end
  else (c, 0%Z, false).

(** ASN1_TYPE holding a string type: type and contents. *)
Record asn1_value := ASN1 { a_type : Z; a_data : list N }.
(** asn1.h, used at cipher.c:176-229. *)
Definition V_ASN1_SEQUENCE : Z := 16.

(** cipher.c:176-207 dstu_cipher_set_asn1_parameters: the value stored in the ASN1_TYPE
    when ASN1_TYPE_set1 succeeds (result 1); [stale] is the uninitialised local sbox. *)
Definition set_asn1 (c : cipher_ctx) (stale : subst_block) : asn1_value :=
  ASN1 V_ASN1_SEQUENCE
    ([0x30; 76; 4; 8] ++ c_oiv c ++ [4; 64] ++ pack_sbox (dstu_get_sbox (c_g c) stale)).

(** cipher.c:209-229 dstu_cipher_get_asn1_parameters. *)
Definition get_asn1 (c : cipher_ctx) (v : asn1_value) : cipher_ctx * Z :=
  if negb (a_type v =? V_ASN1_SEQUENCE)%Z then (c, (-1)%Z)
  else if negb (Nat.eqb (length (a_data v)) 78) then (c, (-1)%Z)
  else if negb ((nth 2 (a_data v) 0 =? 4) && (nth 3 (a_data v) 0 =? 8)) then (c, (-1)%Z)
  else if negb ((nth 12 (a_data v) 0 =? 4) && (nth 13 (a_data v) 0 =? 64)) then (c, (-1)%Z)
  else
    let c1 := set_oiv c (firstn 8 (skipn 4 (a_data v))) in
    let '(c2, r, _) := cipher_ctrl c1 DSTU_SET_CUSTOM_SBOX 64 (Some (skipn 14 (a_data v))) in
    if (r =? 0)%Z then (c2, (-1)%Z) else (c2, 1%Z).

(** A typical start of a session: initialise with key and IV, then optionally select a
    custom S-box (packed form). *)
Definition start (rnd : list N) (c0 : cipher_ctx) (k iv : list N) (sb : option (list N)) (enc : bool) : cipher_ctx :=
  let c := evp_init rnd c0 (Some k) (Some iv) enc in
  match sb with
  | None => c
  | Some p => fst (fst (cipher_ctrl c DSTU_SET_CUSTOM_SBOX 64 (Some p)))
  end.

(** The packed S-box such a session uses. *)
Definition the_sbox (sb : option (list N)) : list N := match sb with None => default_sbox | Some p => p end.

(** A context as EVP_CIPHER_CTX_new leaves it (all zero). *)
Definition fresh_ctx : cipher_ctx :=
  CIPH false 0 (zeros 8) (zeros 8) (zeros 8)
       (CTX (zeros 8) (zeros 8) (zeros 256) (zeros 256) (zeros 256) (zeros 256)).

(** Any history of calls on one context. *)
Inductive cipher_op :=
| OpInit (rnd : list N) (key iv : option (list N)) (enc : bool)
| OpUpdate (data : list N)
| OpCtrl (cmd p1 : Z) (p2 : option (list N))
| OpGet (v : asn1_value).
(** What the API demands: keys of 32 and IVs of 8 bytes, S-boxes of 64 bytes, data of at
    most INT_MAX bytes. *)
Definition op_ok (o : cipher_op) : Prop :=
  match o with
  | OpInit rnd key iv _ => mask_wf rnd /\ (forall k, key = Some k -> bytesn 32 k) /\ (forall v, iv = Some v -> bytesn 8 v)
  | OpUpdate d => bytes d /\ N.of_nat (length d) < 2 ^ 31
  | OpCtrl _ _ p2 => forall p, p2 = Some p -> bytes p
  | OpGet v => bytes (a_data v)
  end.
(** One call of the history, as in cipher.c:26-229; the context afterwards. *)
Definition run_op (c : cipher_ctx) (o : cipher_op) : cipher_ctx :=
  match o with
  | OpInit rnd key iv enc => evp_init rnd c key iv enc
  | OpUpdate d => fst (fst (update c d))
  | OpCtrl cmd p1 p2 => fst (fst (cipher_ctrl c cmd p1 p2))
  | OpGet v => fst (get_asn1 c v)
  end.
(** The contexts that histories of the calls of cipher.c:26-229 lead to. *)
Definition reachable (c : cipher_ctx) : Prop :=
  exists ops, Forall op_ok ops /\ c = fold_left run_op ops fresh_ctx.
