(** Model of dstulib/gost/gosthash.c and of engine/md.c.
    [None] as the result of a function is undefined behaviour (NULL or freed cipher
    context, signed overflow, write outside a local buffer, loop fuel exhausted). *)
From Verif Require Import Base Model_Gost89 Model_Params.

(** gosthash.c:32-39 swap_bytes: k[i + 4*j] = w[8*i + j], all i < 4, j < 8.  Position n is
    written once, with i = n mod 4, j = n / 4. *)
Definition swap_bytes (w : list N) : list N :=
  map (fun n => nth (8 * (n mod 4) + n / 4) w 0) (seq 0 32).

(** gosthash.c:42-50 circle_xor8 (the result does not depend on k aliasing w: the first
    8 bytes are saved and the rest moved with memmove). *)
Definition circle_xor8 (w : list N) : list N :=
  let hd := firstn 24 (skipn 8 w) in hd ++ xorl (firstn 8 w) (firstn 8 hd).

(** gosthash.c:53-61 transform_3. acc is an unsigned short: two bytes. *)
Definition transform_3 (d : list N) : list N :=
  let x i := nth i d 0 in
  let acc := N.lor (N.lxor (N.lxor (N.lxor (N.lxor (N.lxor (x 0%nat) (x 2%nat)) (x 4%nat)) (x 6%nat)) (x 24%nat)) (x 30%nat))
                   (N.shiftl (N.lxor (N.lxor (N.lxor (N.lxor (N.lxor (x 1%nat) (x 3%nat)) (x 5%nat)) (x 7%nat)) (x 25%nat)) (x 31%nat)) 8) in
  firstn 30 (skipn 2 d) ++ [N.land acc 255; w8 (N.shiftr acc 8)].

(** gosthash.c:64-74 add_blocks: the new left block and the carry. *)
Fixpoint add_blocks (left right : list N) (carry : N) : list N * N :=
  match left, right with
  | x :: l, y :: r =>
      let sum := x + y + carry in
      let '(t, c) := add_blocks l r (N.shiftr sum 8) in
      (N.land sum 255 :: t, c)
  | _, _ => ([], carry)
  end.

(** gosthash.c:108-123: the complemented bytes of U. *)
Definition flipped : list nat := [31;29;28;24;23;20;18;17;14;12;10;8;7;5;3;1]%nat.
(** gosthash.c:108-123 *)
Definition complement (u : list N) : list N :=
  map (fun n => if existsb (Nat.eqb n) flipped then 255 - nth n u 0 else nth n u 0) (seq 0 32).

(** n-fold application, for the constant-count loops at gosthash.c:138 and 143. *)
Fixpoint iter {A} (n : nat) (g : A -> A) (x : A) : A :=
  match n with O => x | S k => iter k g (g x) end.

(** gosthash.c:89-147 hash_step: new cipher context and new H.  H is read before it is
    overwritten (the four encryptions read H and write S). *)
Definition hash_step (c : gost_ctx) (H M : list N) : gost_ctx * list N :=
  let W := xorl H M in
  let '(c, s0) := gost_enc_with_key c (swap_bytes W) (sub_bytes H 0 8) in
  let U := circle_xor8 H in
  let V := circle_xor8 M in
  let V := circle_xor8 V in
  let W := xorl U V in
  let '(c, s1) := gost_enc_with_key c (swap_bytes W) (sub_bytes H 8 8) in
  let U := circle_xor8 U in
  let U := complement U in
  let V := circle_xor8 V in
  let V := circle_xor8 V in
  let W := xorl U V in
  let '(c, s2) := gost_enc_with_key c (swap_bytes W) (sub_bytes H 16 8) in
  let U := circle_xor8 U in
  let V := circle_xor8 V in
  let V := circle_xor8 V in
  let W := xorl U V in
  let '(c, s3) := gost_enc_with_key c (swap_bytes W) (sub_bytes H 24 8) in
  let S := s0 ++ s1 ++ s2 ++ s3 in
  let S := iter 12 transform_3 S in
  let S := xorl S M in
  let S := transform_3 S in
  let S := xorl S H in
  let S := iter 61 transform_3 S in
  (c, S).

(** gosthash.h: struct gost_hash_ctx.  [h_cipher] is the pointer (None = NULL), an index
    in a memory of cipher contexts; [h_len] is a long long. *)
Record hash_ctx := HC {
  h_len : Z; h_cipher : option nat; h_left : nat;
  h_H : list N; h_S : list N; h_rem : list N }.

(** Memory of cipher contexts: None = not allocated. *)
Definition cmem := nat -> option gost_ctx.
(** A write to the memory of cipher contexts. *)
Definition cset (cm : cmem) (p : nat) (v : option gost_ctx) : cmem :=
  fun q => if Nat.eqb q p then v else cm q.

(** limits.h; ghosthash_len (gosthash.h) is long long. *)
Definition LLONG_MAX : Z := (2 ^ 63 - 1)%Z.

(** hash_step(ctx->cipher_ctx, H, M) through the pointer. *)
Definition step_at (cm : cmem) (p : option nat) (H M : list N) : option (cmem * list N) :=
  match p with
  | None => None
  | Some p => match cm p with
              | None => None
              | Some c => let '(c', H') := hash_step c H M in Some (cset cm p (Some c'), H')
              end
  end.

(** gosthash.c:216-218 and 222-225: step, control sum, length. *)
Definition absorb (cm : cmem) (h : hash_ctx) (blk : list N) : option (cmem * hash_ctx) :=
  match step_at cm (h_cipher h) (h_H h) blk with
  | None => None
  | Some (cm', H') =>
      let len' := (h_len h + 32)%Z in
      if (LLONG_MAX <? len')%Z then None
      else Some (cm', HC len' (h_cipher h) (h_left h) H' (fst (add_blocks (h_S h) blk 0)) (h_rem h))
  end.

(** gosthash.c:221-228: while (length >= 32).  Returns the unprocessed rest. *)
Fixpoint whole_blocks (fuel : nat) (cm : cmem) (h : hash_ctx) (block : list N)
  : option (cmem * hash_ctx * list N) :=
  match fuel with
  | O => None
  | S k =>
      if (32 <=? length block)%nat then
        match absorb cm h (firstn 32 block) with
        | None => None
        | Some (cm', h') => whole_blocks k cm' h' (skipn 32 block)
        end
      else Some (cm, h, block)
  end.

(** gosthash.c:209-210, 219, 230: remainder and left. *)
Definition set_rem (h : hash_ctx) (left : nat) (r : list N) : hash_ctx :=
  HC (h_len h) (h_cipher h) left (h_H h) (h_S h) r.

(** gosthash.c:199-233 hash_block (always returns 1). *)
Definition hash_block (cm : cmem) (h : hash_ctx) (block : list N) : option (cmem * hash_ctx) :=
  let loop cm h block :=
    match whole_blocks (S (length block)) cm h block with
    | None => None
    | Some (cm, h, rest) =>
        Some (cm, match rest with
                  | [] => h
                  | _ => set_rem h (length rest) (rest ++ skipn (length rest) (h_rem h))
                  end)
    end in
  if (0 <? h_left h)%nat then
    let add_bytes := Nat.min (32 - h_left h) (length block) in
    let rem' := firstn (h_left h) (h_rem h) ++ firstn add_bytes block ++ skipn (h_left h + add_bytes) (h_rem h) in
    let h1 := set_rem h (h_left h + add_bytes) rem' in
    if (h_left h1 <? 32)%nat then Some (cm, h1)
    else match absorb cm h1 rem' with
         | None => None
         | Some (cm', h2) => loop cm' (set_rem h2 0 (h_rem h2)) (skipn add_bytes block)
         end
  else loop cm h block.

(** gosthash.c:261-264: while (fin_len > 0) { *bptr++ = fin_len & 0xFF; fin_len >>= 8 }
    into the 32-byte buffer; fuel = bytes of the buffer left. *)
Fixpoint len_bytes (fuel : nat) (x : Z) : option (list N) :=
  if (0 <? x)%Z then
    match fuel with
    | O => None
    | S k => match len_bytes k (Z.shiftr x 8) with
             | None => None
             | Some t => Some (Z.to_N (Z.land x 255) :: t)
             end
    end
  else Some [].

(** gosthash.c:240-269 finish_hash: the digest; of the caller's state only the key of the
    cipher context changes.  fin_len <<= 3 on a signed type: undefined if the result does
    not fit. *)
Definition finish_hash (cm : cmem) (h : hash_ctx) : option (cmem * list N) :=
  let pad :=
    if (0 <? h_left h)%nat then
      let buf := firstn (h_left h) (h_rem h) ++ zeros (32 - h_left h) in
      match step_at cm (h_cipher h) (h_H h) buf with
      | None => None
      | Some (cm, H) =>
          let fin_len := (h_len h + Z.of_nat (h_left h))%Z in
          if (LLONG_MAX <? fin_len)%Z then None
          else Some (cm, H, fst (add_blocks (h_S h) buf 0), fin_len)
      end
    else Some (cm, h_H h, h_S h, h_len h) in
  match pad with
  | None => None
  | Some (cm, H, Sum, fin_len) =>
      let e := if (fin_len =? 0)%Z then step_at cm (h_cipher h) H (zeros 32) else Some (cm, H) in
      match e with
      | None => None
      | Some (cm, H) =>
          let bits := (fin_len * 8)%Z in
          if (LLONG_MAX <? bits)%Z then None else
          match len_bytes 32 bits with
          | None => None
          | Some l =>
              match step_at cm (h_cipher h) H (l ++ zeros (32 - length l)) with
              | None => None
              | Some (cm, H) => step_at cm (h_cipher h) H Sum
              end
          end
      end
  end.

(** gosthash.c:153-163 init_gost_hash_ctx: [p] is where malloc put the cipher context,
    with contents [junk]; None as allocation result is the return 0 case, not modelled here. *)
Definition init_gost_hash_ctx (cm : cmem) (p : nat) (junk : gost_ctx) (b : subst_block) : cmem * hash_ctx :=
  (cset cm p (Some (gost_init junk (Some b))), HC 0 (Some p) 0 (zeros 32) (zeros 32) (zeros 32)).

(** gosthash.c:183-192 start_hash: the return value and the context. *)
Definition start_hash (h : hash_ctx) : Z * hash_ctx :=
  match h_cipher h with
  | None => (0%Z, h)
  | Some _ => (1%Z, HC 0 (h_cipher h) 0 (zeros 32) (zeros 32) (h_rem h))
  end.

(** gosthash.c:171-178 done_gost_hash_ctx. *)
Definition done_gost_hash_ctx (cm : cmem) (h : hash_ctx) : cmem :=
  match h_cipher h with None => cm | Some p => cset cm p None end.

(** A sequence of hash_block calls. *)
Fixpoint hash_blocks (cm : cmem) (h : hash_ctx) (ds : list (list N)) : option (cmem * hash_ctx) :=
  match ds with
  | [] => Some (cm, h)
  | d :: t => match hash_block cm h d with None => None | Some (cm', h') => hash_blocks cm' h' t end
  end.

(** * engine/md.c *)

(** md.c:19-23 struct dstu_digest_ctx is the pair dctx, cctx.  The structure of EVP context
    [p] has its dctx in [md_d p] and its cctx at index [p] of the cipher memory, so that a
    pointer to the cctx of structure [p] is [Some p]. *)
Record md_state := MD { md_d : nat -> option hash_ctx; md_c : cmem }.
(** A write to the structure of a context (md.c:19-23). *)
Definition dset (d : nat -> option hash_ctx) (p : nat) (v : option hash_ctx) :=
  fun q => if Nat.eqb q p then v else d q.

(** memset(c, 0, ...) of the cipher context (md.c:67). *)
Definition zero_ctx : gost_ctx := CTX (zeros 8) (zeros 8) (zeros 256) (zeros 256) (zeros 256) (zeros 256).
(** memset of the hash context (md.c:35, 67). *)
Definition zero_dctx : hash_ctx := HC 0 None 0 (zeros 32) (zeros 32) (zeros 32).

(** The key reachable from the digest context: EVP_PKEY_CTX (None = NULL), its EVP_PKEY,
    its DSTU_KEY, its sbox. *)
Definition md_key := option (option (option (option (list N)))).
(** md.c:32 sbox_source. *)
Definition sbox_source (k : md_key) : list N :=
  match k with
  | Some (Some (Some (Some s))) => s
  | _ => default_sbox
  end.

(** md.c:25-39 dstu_md_init. None: md_data is NULL. *)
Definition md_init (st : md_state) (p : nat) (k : md_key) : option md_state :=
  match md_c st p with
  | None => None
  | Some c =>
      let cm := cset (md_c st) p (Some (gost_init c (Some (unpack_sbox (sbox_source k))))) in
      Some (MD (dset (md_d st) p (Some (HC 0 (Some p) 0 (zeros 32) (zeros 32) (zeros 32)))) cm)
  end.

(** md.c:41-44 dstu_md_update. *)
Definition md_update (st : md_state) (p : nat) (data : list N) : option md_state :=
  match md_d st p with
  | None => None
  | Some h => match hash_block (md_c st) h data with
              | None => None
              | Some (cm, h') => Some (MD (dset (md_d st) p (Some h')) cm)
              end
  end.

(** md.c:46-49 dstu_md_final. *)
Definition md_final (st : md_state) (p : nat) : option (md_state * list N) :=
  match md_d st p with
  | None => None
  | Some h => match finish_hash (md_c st) h with
              | None => None
              | Some (cm, dg) => Some (MD (md_d st) cm, dg)
              end
  end.

(** md.c:51-61 dstu_md_copy. *)
Definition md_copy (st : md_state) (to from : nat) : md_state :=
  match md_d st to, md_d st from, md_c st from with
  | Some _, Some h, Some c =>
      MD (dset (md_d st) to (Some (HC (h_len h) (Some to) (h_left h) (h_H h) (h_S h) (h_rem h))))
         (cset (md_c st) to (Some c))
  | _, _, _ => st
  end.

(** md.c:63-69 dstu_md_cleanup. *)
Definition md_cleanup (st : md_state) (p : nat) : md_state :=
  match md_d st p with
  | None => st
  | Some _ => MD (dset (md_d st) p (Some zero_dctx)) (cset (md_c st) p (Some zero_ctx))
  end.

(** control.h: DSTU_SET_CUSTOM_SBOX = EVP_MD_CTRL_ALG_CTRL + 1. *)
Definition MD_SET_CUSTOM_SBOX : Z := 0x1001.
(** md.c:71-87 dstu_md_ctrl: p2 = None is NULL. *)
Definition md_ctrl (st : md_state) (p : nat) (cmd p1 : Z) (p2 : option (list N)) : option (md_state * Z) :=
  if (cmd =? MD_SET_CUSTOM_SBOX)%Z then
    match p2 with
    | None => Some (st, 0%Z)
    | Some s =>
        if (p1 =? 64)%Z then
          match md_c st p with
          | None => None
          | Some c => Some (MD (md_d st) (cset (md_c st) p (Some (gost_init c (Some (unpack_sbox s))))), 1%Z)
          end
        else Some (st, 0%Z)
    end
  else Some (st, 0%Z).

(** EVP allocates md_data (EVP_DigestInit_ex, EVP_MD_CTX_copy_ex) with any contents: in the
    latter case a copy of the source structure, pointer included. *)
Definition md_alloc (st : md_state) (p : nat) (h : hash_ctx) (c : gost_ctx) : md_state :=
  MD (dset (md_d st) p (Some h)) (cset (md_c st) p (Some c)).
(** ... and frees it (EVP_MD_CTX_free). *)
Definition md_free (st : md_state) (p : nat) : md_state :=
  MD (dset (md_d st) p None) (cset (md_c st) p None).

(** The calls of a history: the methods of md.c:25-87 and the allocations of OpenSSL. *)
Inductive md_op :=
| MAlloc (p : nat) (h : hash_ctx) (c : gost_ctx)
| MInit (p : nat) (k : md_key)
| MUpdate (p : nat) (data : list N)
| MFinal (p : nat)
| MCopy (to from : nat)
| MCleanup (p : nat)
| MCtrl (p : nat) (cmd p1 : Z) (p2 : option (list N))
| MFree (p : nat).

(** One call: new state and, for MFinal, the digest. *)
Definition md_step (st : md_state) (o : md_op) : option (md_state * option (list N)) :=
  match o with
  | MAlloc p h c => Some (md_alloc st p h c, None)
  | MInit p k => match md_init st p k with Some s => Some (s, None) | None => None end
  | MUpdate p d => match md_update st p d with Some s => Some (s, None) | None => None end
  | MFinal p => match md_final st p with Some (s, dg) => Some (s, Some dg) | None => None end
  | MCopy t f => Some (md_copy st t f, None)
  | MCleanup p => Some (md_cleanup st p, None)
  | MCtrl p cmd p1 p2 => match md_ctrl st p cmd p1 p2 with Some (s, _) => Some (s, None) | None => None end
  | MFree p => Some (md_free st p, None)
  end.
(** A history: the digests delivered, in order; None if some call is undefined. *)
Fixpoint md_run (st : md_state) (os : list md_op) : option (md_state * list (list N)) :=
  match os with
  | [] => Some (st, [])
  | o :: t => match md_step st o with
              | None => None
              | Some (st', out) =>
                  match md_run st' t with
                  | None => None
                  | Some (st'', outs) => Some (st'', match out with Some d => d :: outs | None => outs end)
                  end
              end
  end.
(** No context. *)
Definition md_empty : md_state := MD (fun _ => None) (fun _ => None).
