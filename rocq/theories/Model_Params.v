(** Model of the byte-level helpers of dstulib/params.c (the curve tables are in
    Model_Curves.v). *)
From Verif Require Import Base Model_Gost89.

(** l[i] = v for an array held as a list; out of range writes are dropped, which never
    happens below: all indices are below the array size. *)
Fixpoint lset (l : list N) (i : nat) (v : N) : list N :=
  match l, i with
  | [], _ => []
  | _ :: t, O => v :: t
  | x :: t, S k => x :: lset t k v
  end.

(** params.c:335-364 unpack_sbox, one row: for i in 0..7 the byte at [off + i] gives
    entries 2i (high nibble) and 2i+1 (low nibble). *)
Definition unpack_row (p : list N) (off : nat) : list N :=
  flat_map (fun i => let b := nth (off + i) p 0 in
                     [N.land 0x0f (N.shiftr b 4); N.land 0x0f b]) (seq 0 8).
(** params.c:335-364 unpack_sbox: row k1 from bytes 0..7, ..., row k8 from bytes 56..63. *)
Definition unpack_sbox (p : list N) : subst_block :=
  SB (unpack_row p 56) (unpack_row p 48) (unpack_row p 40) (unpack_row p 32)
     (unpack_row p 24) (unpack_row p 16) (unpack_row p 8) (unpack_row p 0).

(** params.c:366-380 pack_sbox, one row (stored in an unsigned char). *)
Definition pack_row (r : list N) : list N :=
  map (fun i => w8 (N.lor (N.land (N.shiftl (nth (2 * i) r 0) 4) 0xf0)
                          (N.land (nth (2 * i + 1) r 0) 0x0f))) (seq 0 8).
(** params.c:366-380 pack_sbox. *)
Definition pack_sbox (b : subst_block) : list N :=
  pack_row (k1 b) ++ pack_row (k2 b) ++ pack_row (k3 b) ++ pack_row (k4 b) ++
  pack_row (k5 b) ++ pack_row (k6 b) ++ pack_row (k7 b) ++ pack_row (k8 b).

(** params.c:314-333 dstu_get_sbox, one iteration: eight array stores. *)
Definition get_sbox_step (c : gost_ctx) (b : subst_block) (i : nat) : subst_block :=
  let hi := N.to_nat (N.shiftr (N.of_nat i) 4) in
  let lo := N.to_nat (N.land (N.of_nat i) 15) in
  SB (lset (k8 b) hi (N.land (N.shiftr (nth i (k87 c) 0) 28) 0xf))
     (lset (k7 b) lo (N.land (N.shiftr (nth i (k87 c) 0) 24) 0xf))
     (lset (k6 b) hi (N.land (N.shiftr (nth i (k65 c) 0) 20) 0xf))
     (lset (k5 b) lo (N.land (N.shiftr (nth i (k65 c) 0) 16) 0xf))
     (lset (k4 b) hi (N.land (N.shiftr (nth i (k43 c) 0) 12) 0xf))
     (lset (k3 b) lo (N.land (N.shiftr (nth i (k43 c) 0) 8) 0xf))
     (lset (k2 b) hi (N.land (N.shiftr (nth i (k21 c) 0) 4) 0xf))
     (lset (k1 b) lo (N.land (nth i (k21 c) 0) 0xf)).
(** A structure whose eight arrays have their declared size (any contents). *)
Definition rows16 (b : subst_block) : Prop :=
  length (k8 b) = 16%nat /\ length (k7 b) = 16%nat /\ length (k6 b) = 16%nat /\ length (k5 b) = 16%nat /\
  length (k4 b) = 16%nat /\ length (k3 b) = 16%nat /\ length (k2 b) = 16%nat /\ length (k1 b) = 16%nat.
(** params.c:314-333 dstu_get_sbox: [b0] is the caller's (uninitialised) structure. *)
Definition dstu_get_sbox (c : gost_ctx) (b0 : subst_block) : subst_block :=
  fold_left (get_sbox_step c) (seq 0 256) b0.

(** params.c:382-392 default_sbox. *)
Definition default_sbox : list N :=
  [0xa9; 0xd6; 0xeb; 0x45; 0xf1; 0x3c; 0x70; 0x82;
   0x80; 0xc4; 0x96; 0x7b; 0x23; 0x1f; 0x5e; 0xad;
   0xf6; 0x58; 0xeb; 0xa4; 0xc0; 0x37; 0x29; 0x1d;
   0x38; 0xd9; 0x6b; 0xf0; 0x25; 0xca; 0x4e; 0x17;
   0xf8; 0xe9; 0x72; 0x0d; 0xc6; 0x15; 0xb4; 0x3a;
   0x28; 0x97; 0x5f; 0x0b; 0xc1; 0xde; 0xa3; 0x64;
   0x38; 0xb5; 0x64; 0xea; 0x2c; 0x17; 0x9f; 0xd0;
   0x12; 0x3e; 0x6d; 0xb8; 0xfa; 0xc5; 0x79; 0x04].

(** params.c:603-606 is_default_sbox: !memcmp. *)
Definition is_default_sbox (s : list N) : bool :=
  if list_eq_dec N.eq_dec default_sbox s then true else false.

(** params.c:569-581 reverse_bytes: for (i = 0; i < size / 2; i++) swap bytes[i] and
    bytes[size - 1 - i].  [k] iterations remain. *)
Fixpoint reverse_loop (k : nat) (m : mem) (a : N) (size i : N) : mem :=
  match k with
  | O => m
  | S k' =>
      let tmp := m (a + i) in
      let m1 := upd m (a + i) (m (a + (size - 1 - i))) in
      let m2 := upd m1 (a + (size - 1 - i)) tmp in
      reverse_loop k' m2 a size (i + 1)
  end.
(** size is an int; C division truncates towards zero, so a negative size does nothing. *)
Definition reverse_bytes (m : mem) (a : N) (size : Z) : mem :=
  reverse_loop (Z.to_nat (Z.quot size 2)) m a (Z.to_N size) 0.

(** params.c:583-591 reverse_bytes_copy. *)
Fixpoint reverse_copy_loop (k : nat) (m : mem) (dst src : N) (size i : N) : mem :=
  match k with
  | O => m
  | S k' => reverse_copy_loop k' (upd m (dst + i) (m (src + (size - 1 - i)))) dst src size (i + 1)
  end.
(** params.c:583-591 reverse_bytes_copy *)
Definition reverse_bytes_copy (m : mem) (dst src : N) (size : Z) : mem :=
  reverse_copy_loop (Z.to_nat size) m dst src (Z.to_N size) 0.

(** BN_num_bytes of a non-negative BIGNUM: (BN_num_bits + 7) / 8. *)
Definition BN_num_bytes (x : N) : nat := N.to_nat ((N.size x + 7) / 8).
(** BN_bn2bin: minimal big-endian bytes (none for 0); returns BN_num_bytes. *)
Definition BN_bn2bin (x : N) : list N := be_bytes (BN_num_bytes x) x.

(** params.c:608-616 bn_encode: return value and, if written, the whole buffer. *)
Definition bn_encode (x : N) (length : Z) : Z * option (list N) :=
  let bn_size := Z.of_nat (BN_num_bytes x) in
  if (length <? bn_size)%Z then (0%Z, None)
  else (bn_size, Some (zeros (Z.to_nat (length - bn_size)) ++ BN_bn2bin x)).
