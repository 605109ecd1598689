(** Model of dstulib/gost/gost89.c. *)
From Verif Require Import Base.

(** dstulib/gost/gost89.h: typedef struct { byte k8[16], ..., k1[16]; } gost_subst_block.
    Each row is a list of 16 bytes. *)
Record subst_block := SB {
  k8 : list N; k7 : list N; k6 : list N; k5 : list N;
  k4 : list N; k3 : list N; k2 : list N; k1 : list N }.

(** dstulib/gost/gost89.h: struct gost_ctx { word32 key[8]; word32 mask[8];
    word32 k87[256],k65[256],k43[256],k21[256]; }. *)
Record gost_ctx := CTX {
  key : list N; mask : list N;
  k87 : list N; k65 : list N; k43 : list N; k21 : list N }.

(** Array read.  All indices used below are constants or masked with 255 / 15, hence in
    range for arrays of the declared size; [ctx_wf]/[sb_wf] fix those sizes. *)
Definition at_ (l : list N) (i : N) : N := nth (N.to_nat i) l 0.

(** A word32 (gost89.h). *)
Definition u32 (x : N) : Prop := x < 2 ^ 32.

(** What the C types guarantee about a context. *)
Definition ctx_wf (c : gost_ctx) : Prop :=
  length (key c) = 8%nat /\ Forall u32 (key c) /\
  length (mask c) = 8%nat /\ Forall u32 (mask c) /\
  length (k87 c) = 256%nat /\ Forall u32 (k87 c) /\
  length (k65 c) = 256%nat /\ Forall u32 (k65 c) /\
  length (k43 c) = 256%nat /\ Forall u32 (k43 c) /\
  length (k21 c) = 256%nat /\ Forall u32 (k21 c).

(** An S-box with eight rows of sixteen 4-bit entries. *)
Definition row_wf (r : list N) : Prop := length r = 16%nat /\ Forall (fun x => x < 16) r.
(** A gost_subst_block (gost89.h) with 4-bit entries. *)
Definition sb_wf (b : subst_block) : Prop :=
  row_wf (k8 b) /\ row_wf (k7 b) /\ row_wf (k6 b) /\ row_wf (k5 b) /\
  row_wf (k4 b) /\ row_wf (k3 b) /\ row_wf (k2 b) /\ row_wf (k1 b).

(** gost89.c:255-266 kboxinit, one table: for i in 0..255,
    (hi[i >> 4] << 4 | lo[i & 15]) << sh, stored in a word32. *)
Definition ktab (hi lo : list N) (sh : N) : list N :=
  map (fun n => let i := N.of_nat n in
         w32 (N.shiftl (N.lor (N.shiftl (at_ hi (N.shiftr i 4)) 4) (at_ lo (N.land i 15))) sh))
      (seq 0 256).

(** gost89.c:255-266 kboxinit: fills the four tables, leaves key and mask. *)
Definition kboxinit (c : gost_ctx) (b : subst_block) : gost_ctx :=
  CTX (key c) (mask c)
      (ktab (k8 b) (k7 b) 24) (ktab (k6 b) (k5 b) 16)
      (ktab (k4 b) (k3 b) 8) (ktab (k2 b) (k1 b) 0).

(** gost89.c:269-275 f. *)
Definition f (c : gost_ctx) (x : N) : N :=
  let y := N.lor (N.lor (N.lor
             (at_ (k87 c) (N.land (N.shiftr x 24) 255))
             (at_ (k65 c) (N.land (N.shiftr x 16) 255)))
             (at_ (k43 c) (N.land (N.shiftr x 8) 255)))
             (at_ (k21 c) (N.land x 255)) in
  N.lor (w32 (N.shiftl y 11)) (N.shiftr y (32 - 11)).

(** gost89.c:281 etc.: in[0] | (in[1] << 8) | (in[2] << 16) | ((word32) in[3] << 24).
    (in[2] << 16 is an int below 2^24; no overflow.) *)
Definition load_le (a b c d : N) : N :=
  N.lor (N.lor (N.lor a (N.shiftl b 8)) (N.shiftl c 16)) (N.shiftl d 24).

(** gost89.c:321-324 etc.: the four stores of a word. *)
Definition store_le (n : N) : list N :=
  [w8 (N.land n 255); w8 (N.land (N.shiftr n 8) 255);
   w8 (N.land (N.shiftr n 16) 255); w8 (N.shiftr n 24)].

(** gost89.c:281: the first word of a block. *)
Definition load_lo (blk : list N) : N := load_le (at_ blk 0) (at_ blk 1) (at_ blk 2) (at_ blk 3).
(** gost89.c:282: the second word of a block. *)
Definition load_hi (blk : list N) : N := load_le (at_ blk 4) (at_ blk 5) (at_ blk 6) (at_ blk 7).

(** c->key[i] + x + c->mask[i] in word32 arithmetic. *)
Definition keyed (c : gost_ctx) (x : N) (i : N) : N :=
  w32 (w32 (x + at_ (key c) i) + at_ (mask c) i).

(** gost89.c:285-319: pairs of lines
      n2 ^= f(c, n1 + c->key[i] + c->mask[i]);
      n1 ^= f(c, n2 + c->key[j] + c->mask[j]);
    for the listed key indices, in order. *)
Fixpoint rounds (c : gost_ctx) (idx : list N) (n1 n2 : N) : N * N :=
  match idx with
  | i :: j :: t =>
      let n2' := N.lxor n2 (f c (keyed c n1 i)) in
      let n1' := N.lxor n1 (f c (keyed c n2' j)) in
      rounds c t n1' n2'
  | _ => (n1, n2)
  end.

(** Key index order of gost89.c:285-319. *)
Definition enc_idx : list N :=
  [0;1;2;3;4;5;6;7; 0;1;2;3;4;5;6;7; 0;1;2;3;4;5;6;7; 7;6;5;4;3;2;1;0].
(** Key index order of gost89.c:338-372. *)
Definition dec_idx : list N :=
  [0;1;2;3;4;5;6;7; 7;6;5;4;3;2;1;0; 7;6;5;4;3;2;1;0; 7;6;5;4;3;2;1;0].
(** Key index order of gost89.c:545-561 (mac_block). *)
Definition mac_idx : list N := [0;1;2;3;4;5;6;7; 0;1;2;3;4;5;6;7].

(** gost89.c:278-329 gostcrypt: in[8] -> out[8].  All input bytes are read before the
    first store, so in == out is allowed; see [gostcrypt_mem] for the memory version. *)
Definition gostcrypt (c : gost_ctx) (blk : list N) : list N :=
  let '(n1, n2) := rounds c enc_idx (load_lo blk) (load_hi blk) in
  store_le n2 ++ store_le n1.

(** gost89.c:332-382 gostdecrypt. *)
Definition gostdecrypt (c : gost_ctx) (blk : list N) : list N :=
  let '(n1, n2) := rounds c dec_idx (load_lo blk) (load_hi blk) in
  store_le n2 ++ store_le n1.

(** The same two functions on memory: read 8 bytes at [a], write 8 bytes at [b]. *)
Definition gostcrypt_mem (c : gost_ctx) (m : mem) (a b : N) : mem :=
  wr m b (gostcrypt c (rd m a 8)).
(** gost89.c:332-382 on memory. *)
Definition gostdecrypt_mem (c : gost_ctx) (m : mem) (a b : N) : mem :=
  wr m b (gostdecrypt c (rd m a 8)).

(** gost89.c:386-394 gost_enc and 397-405 gost_dec: the loop runs max(blocks,0) times. *)
Fixpoint ecb_loop (blockf : mem -> N -> N -> mem) (n : nat) (m : mem) (src dst : N) : mem :=
  match n with
  | O => m
  | S k => ecb_loop blockf k (blockf m src dst) (src + 8) (dst + 8)
  end.
(** gost89.c:386-394 *)
Definition gost_enc (c : gost_ctx) (m : mem) (src dst : N) (blocks : Z) : mem :=
  ecb_loop (gostcrypt_mem c) (Z.to_nat blocks) m src dst.
(** gost89.c:397-405 *)
Definition gost_dec (c : gost_ctx) (m : mem) (src dst : N) (blocks : Z) : mem :=
  ecb_loop (gostdecrypt_mem c) (Z.to_nat blocks) m src dst.

(** gost89.c:419-421: for (j...) cur_iv[j] = out[j] = in[j] ^ gamma[j];
    cur_iv and gamma are locals, so only in/out are in memory.  Returns memory and the
    new cur_iv. *)
Fixpoint cfb_enc_bytes (m : mem) (src dst : N) (gamma : list N) : mem * list N :=
  match gamma with
  | [] => (m, [])
  | g :: t => let v := N.lxor (m src) g in
              let '(m', iv') := cfb_enc_bytes (upd m dst v) (src + 1) (dst + 1) t in
              (m', v :: iv')
  end.
(** gost89.c:437-439: out[j] = (cur_iv[j] = in[j]) ^ gamma[j]. *)
Fixpoint cfb_dec_bytes (m : mem) (src dst : N) (gamma : list N) : mem * list N :=
  match gamma with
  | [] => (m, [])
  | g :: t => let v := m src in
              let '(m', iv') := cfb_dec_bytes (upd m dst (N.lxor v g)) (src + 1) (dst + 1) t in
              (m', v :: iv')
  end.

(** gost89.c:408-423 gost_enc_cfb / 426-441 gost_dec_cfb.  [iv] is copied first. *)
Fixpoint cfb_loop (bytef : mem -> N -> N -> list N -> mem * list N)
         (c : gost_ctx) (n : nat) (iv : list N) (m : mem) (src dst : N) : mem :=
  match n with
  | O => m
  | S k => let gamma := gostcrypt c iv in
           let '(m', iv') := bytef m src dst gamma in
           cfb_loop bytef c k iv' m' (src + 8) (dst + 8)
  end.
(** gost89.c:408-423 *)
Definition gost_enc_cfb (c : gost_ctx) (iv : list N) (m : mem) (src dst : N) (blocks : Z) : mem :=
  cfb_loop cfb_enc_bytes c (Z.to_nat blocks) iv m src dst.
(** gost89.c:426-441 *)
Definition gost_dec_cfb (c : gost_ctx) (iv : list N) (m : mem) (src dst : N) (blocks : Z) : mem :=
  cfb_loop cfb_dec_bytes c (Z.to_nat blocks) iv m src dst.

(** word32 subtraction. *)
Definition sub32 (a b : N) : N := w32 (a + 2 ^ 32 - w32 b).

(** gost89.c:455-457: a little-endian word of the key. *)
Definition word_of (k : list N) (i : N) : N :=
  load_le (at_ k (4 * i)) (at_ k (4 * i + 1)) (at_ k (4 * i + 2)) (at_ k (4 * i + 3)).
(** The indices of the loops at gost89.c:454, 480, 491 and 503. *)
Definition idx8 : list N := [0;1;2;3;4;5;6;7].

(** gost89.c:451-459 gost_key_impl: key[i] = word(k) - mask[i]. *)
Definition gost_key_impl (c : gost_ctx) (k : list N) : gost_ctx :=
  CTX (map (fun i => sub32 (word_of k i) (at_ (mask c) i)) idx8) (mask c)
      (k87 c) (k65 c) (k43 c) (k21 c).

(** RAND_priv_bytes into the mask (gost89.c:464) or memset (gost89.c:471). *)
Definition set_mask (c : gost_ctx) (mk : list N) : gost_ctx :=
  CTX (key c) mk (k87 c) (k65 c) (k43 c) (k21 c).

(** gost89.c:462-466 gost_key.  [rnd] is whatever the eight mask words hold after
    RAND_priv_bytes, whose result the code ignores: on failure it may be the old mask or
    anything else, so [rnd] is universally quantified in the theorems. *)
Definition gost_key (rnd : list N) (c : gost_ctx) (k : list N) : gost_ctx :=
  gost_key_impl (set_mask c rnd) k.

(** gost89.c:469-473 gost_key_nomask. *)
Definition gost_key_nomask (c : gost_ctx) (k : list N) : gost_ctx :=
  gost_key_impl (set_mask c (zeros 8)) k.

(** gost89.c:444-449 gost_enc_with_key. *)
Definition gost_enc_with_key (c : gost_ctx) (k blk : list N) : gost_ctx * list N :=
  let c' := gost_key_nomask c k in (c', gostcrypt c' blk).

(** gost89.c:476-485 magma_key: big-endian words. *)
Definition word_of_be (k : list N) (i : N) : N :=
  load_le (at_ k (4 * i + 3)) (at_ k (4 * i + 2)) (at_ k (4 * i + 1)) (at_ k (4 * i)).
(** gost89.c:476-485 magma_key *)
Definition magma_key (rnd : list N) (c : gost_ctx) (k : list N) : gost_ctx :=
  CTX (map (fun i => sub32 (word_of_be k i) (at_ rnd i)) idx8) rnd
      (k87 c) (k65 c) (k43 c) (k21 c).

(** gost89.c:488-497 gost_get_key. *)
Definition unmasked (c : gost_ctx) (i : N) : N := w32 (at_ (key c) i + at_ (mask c) i).
(** gost89.c:492-495: the bytes of a word. *)
Definition get_bytes (w : N) : list N :=
  [w8 (N.land w 255); w8 (N.land (N.shiftr w 8) 255);
   w8 (N.land (N.shiftr w 16) 255); w8 (N.land (N.shiftr w 24) 255)].
(** gost89.c:488-497 gost_get_key *)
Definition gost_get_key (c : gost_ctx) : list N :=
  flat_map (fun i => get_bytes (unmasked c i)) idx8.
(** gost89.c:500-509 magma_get_key. *)
Definition magma_get_key (c : gost_ctx) : list N :=
  flat_map (fun i => rev (get_bytes (unmasked c i))) idx8.

(** gost89.c:25-49 GostR3411_94_TestParamSet, the table used for b == NULL. *)
Definition GostR3411_94_TestParamSet : subst_block := SB
  [0x1; 0xF; 0xD; 0x0; 0x5; 0x7; 0xA; 0x4; 0x9; 0x2; 0x3; 0xE; 0x6; 0xB; 0x8; 0xC]
  [0xD; 0xB; 0x4; 0x1; 0x3; 0xF; 0x5; 0x9; 0x0; 0xA; 0xE; 0x7; 0x6; 0x8; 0x2; 0xC]
  [0x4; 0xB; 0xA; 0x0; 0x7; 0x2; 0x1; 0xD; 0x3; 0x6; 0x8; 0x5; 0x9; 0xC; 0xF; 0xE]
  [0x6; 0xC; 0x7; 0x1; 0x5; 0xF; 0xD; 0x8; 0x4; 0xA; 0x9; 0xE; 0x0; 0x3; 0xB; 0x2]
  [0x7; 0xD; 0xA; 0x1; 0x0; 0x8; 0x9; 0xF; 0xE; 0x4; 0x6; 0xC; 0xB; 0x2; 0x5; 0x3]
  [0x5; 0x8; 0x1; 0xD; 0xA; 0x3; 0x4; 0x2; 0xE; 0xF; 0xC; 0x7; 0x6; 0x0; 0x9; 0xB]
  [0xE; 0xB; 0x4; 0xC; 0x6; 0xD; 0xF; 0xA; 0x2; 0x3; 0x8; 0x1; 0x0; 0x7; 0x5; 0x9]
  [0x4; 0xA; 0x9; 0x2; 0xD; 0x8; 0x0; 0xE; 0x6; 0xB; 0x1; 0xC; 0x7; 0xF; 0x5; 0x3].

(** gost89.c:512-518 gost_init. *)
Definition gost_init (c : gost_ctx) (b : option subst_block) : gost_ctx :=
  kboxinit c (match b with Some b => b | None => GostR3411_94_TestParamSet end).

(** gost89.c:521-525 gost_destroy: OPENSSL_cleanse zeroes key and mask. *)
Definition gost_destroy (c : gost_ctx) : gost_ctx :=
  CTX (zeros 8) (zeros 8) (k87 c) (k65 c) (k43 c) (k21 c).

(** gost89.c:532-571 mac_block: returns the new buffer.  Note the store order n1, n2. *)
Definition mac_block (c : gost_ctx) (buffer block : list N) : list N :=
  let b := xorl buffer block in
  let '(n1, n2) := rounds c mac_idx (load_lo b) (load_hi b) in
  store_le n1 ++ store_le n2.

(** gost89.c:574-584 get_mac.  [None]: buffer[i] is read beyond its 8 bytes (undefined
    behaviour).  nbits is an int; a negative nbits gives nbytes < 0 and no full byte.
    (1 < rembits) is 0 or 1, so the C mask is -1 for one remaining bit and 0 otherwise;
    buffer[i] & -1 = buffer[i]. *)
Definition get_mac (buffer : list N) (nbits : Z) : option (list N) :=
  let nbytes := Z.shiftr nbits 3 in
  let rembits := Z.land nbits 7 in
  let msk := if (rembits =? 0)%Z then 0%Z else ((if (1 <? rembits)%Z then 1 else 0) - 1)%Z in
  let n := Z.to_nat nbytes in
  if (8 <? nbytes)%Z then None
  else if (rembits =? 0)%Z then Some (firstn n buffer)
  else match nth_error buffer n with
       | None => None
       | Some b => Some (firstn n buffer ++ [Z.to_N (Z.land (Z.of_N b) msk)])
       end.

(** Outcome of a MAC call: the MAC, a read outside data[0..data_len), or the loop did
    not finish within the given fuel. *)
Inductive mac_out := MacOk (mac : list N) | MacOOB | MacFuel.

(** 8 bytes data[i..i+7]; None if that leaves the data. *)
Definition data_blk (data : list N) (i : N) : option (list N) :=
  if i + 8 <=? N.of_nat (length data)
  then Some (firstn 8 (skipn (N.to_nat i) data)) else None.

(** gost89.c:596-597: for (i = 0; i + 8 <= data_len; i += 8) with unsigned 32-bit i. *)
Inductive loop_out := LDone (i : N) (buffer : list N) | LOOB | LFuel.
(** gost89.c:596-597 *)
Fixpoint mac_loop (fuel : nat) (c : gost_ctx) (data : list N) (data_len i : N)
         (buffer : list N) : loop_out :=
  match fuel with
  | O => LFuel
  | S k =>
      if w32 (i + 8) <=? data_len then
        match data_blk data i with
        | None => LOOB
        | Some blk => mac_loop k c data data_len (w32 (i + 8)) (mac_block c buffer blk)
        end
      else LDone i buffer
  end.

(** gost89.c:590-610 gost_mac and 613-635 gost_mac_iv: they differ only in the initial
    buffer (zero or iv).  [data] is the caller's object, of data_len bytes. *)
Definition mac_from (fuel : nat) (c : gost_ctx) (mac_len : Z) (buf0 data : list N)
  : mac_out :=
  let data_len := N.of_nat (length data) in
  match mac_loop fuel c data data_len 0 buf0 with
  | LOOB => MacOOB
  | LFuel => MacFuel
  | LDone i buffer =>
      let '(i, buffer) :=
        if i <? data_len then
          let rest := skipn (N.to_nat i) data in
          (w32 (i + 8), mac_block c buffer (rest ++ zeros (8 - length rest)))
        else (i, buffer) in
      let buffer := if i =? 8 then mac_block c buffer (zeros 8) else buffer in
      match get_mac buffer mac_len with Some m => MacOk m | None => MacOOB end
  end.
(** gost89.c:590-610 gost_mac *)
Definition gost_mac fuel c mac_len data := mac_from fuel c mac_len (zeros 8) data.
(** gost89.c:613-635 gost_mac_iv *)
Definition gost_mac_iv fuel c mac_len iv data := mac_from fuel c mac_len iv data.

(** gost89.c:240-245 *)
Definition CryptoProKeyMeshingKey : list N :=
  [0x69; 0x00; 0x72; 0x22; 0x64; 0xC9; 0x04; 0x23;
   0x8D; 0x3A; 0xDB; 0x96; 0x46; 0xE9; 0x2A; 0xC4;
   0x18; 0xFE; 0xAC; 0x94; 0x00; 0xED; 0x07; 0x12;
   0xC0; 0x86; 0xDC; 0xC2; 0xEF; 0x4C; 0xA9; 0x2B].
(** gost89.c:247-252 *)
Definition ACPKM_D_const : list N :=
  [0x80; 0x81; 0x82; 0x83; 0x84; 0x85; 0x86; 0x87;
   0x88; 0x89; 0x8A; 0x8B; 0x8C; 0x8D; 0x8E; 0x8F;
   0x90; 0x91; 0x92; 0x93; 0x94; 0x95; 0x96; 0x97;
   0x98; 0x99; 0x9A; 0x9B; 0x9C; 0x9D; 0x9E; 0x9F].

(** [l] bytes starting at [i]. *)
Definition sub_bytes (l : list N) (i n : nat) : list N := firstn n (skipn i l).

(** gost89.c:643 gost_dec(ctx, CryptoProKeyMeshingKey, newkey, 4): the constant array is
    placed at address 0 and the local array newkey at address 32. *)
Definition dec4 (c : gost_ctx) (src : list N) : list N :=
  rd (gost_dec c (wr (fun _ => 0) 0 src) 0 32 4) 32 32.

(** gost89.c:638-654 cryptopro_key_meshing (iv may be NULL). *)
Definition cryptopro_key_meshing (rnd : list N) (c : gost_ctx) (iv : option (list N))
  : gost_ctx * option (list N) :=
  let newkey := dec4 c CryptoProKeyMeshingKey in
  let c' := gost_key rnd c newkey in
  (c', match iv with Some v => Some (gostcrypt c' v) | None => None end).

(** gost89.c:656-675 acpkm_magma_key_meshing. *)
Definition acpkm_magma_key_meshing (rnd : list N) (c : gost_ctx) : gost_ctx :=
  let newkey := flat_map (fun i =>
      let buf := map (fun j => nth (8 * i + 7 - j) ACPKM_D_const 0) (seq 0 8) in
      let keybuf := gostcrypt c buf in
      sub_bytes keybuf 4 4 ++ sub_bytes keybuf 0 4) (seq 0 4) in
  gost_key rnd c newkey.

(** The S-box rows of a C substitution block, row 0 = k1 (least significant nibble). *)
Definition sb_row (b : subst_block) (i : nat) : list N :=
  nth i [k1 b; k2 b; k3 b; k4 b; k5 b; k6 b; k7 b; k8 b] [].
(** The rows of a gost_subst_block (gost89.h) as functions. *)
Definition sb_fun (b : subst_block) : nat -> N -> N := fun i v => nth (N.to_nat v) (sb_row b i) 0.


(** Eight mask words, any values. *)
Definition mask_wf (rnd : list N) : Prop := length rnd = 8%nat /\ Forall u32 rnd.

(** Repeated CryptoPro meshing, as a caller does it (one mask per call). *)
Fixpoint mesh_many (rnds : list (list N)) (c : gost_ctx) (iv : list N) : gost_ctx * list N :=
  match rnds with
  | [] => (c, iv)
  | r :: t => match cryptopro_key_meshing r c (Some iv) with
              | (c', Some iv') => mesh_many t c' iv'
              | (c', None) => mesh_many t c' iv
              end
  end.
(** Repeated ACPKM meshing. *)
Fixpoint acpkm_many (rnds : list (list N)) (c : gost_ctx) : gost_ctx :=
  match rnds with [] => c | r :: t => acpkm_many t (acpkm_magma_key_meshing r c) end.
