(** GOST 28147-89 (DSTU GOST 28147:2009) as in the standard, over integers.
    Independent of the model. *)
From Verif Require Import Base.

(** Eight substitution rows; row 1 acts on the least significant nibble. *)
Definition sbox := nat -> N -> N.

(** Substitute the eight 4-bit digits of a 32-bit number. *)
Definition subst32 (S : sbox) (x : N) : N :=
  fold_right (fun i acc => S i ((x / 16 ^ N.of_nat i) mod 16) * 16 ^ N.of_nat i + acc) 0 (seq 0 8).

(** Cyclic shift of a 32-bit number by 11 towards the high end. *)
Definition rol11 (y : N) : N := (y * 2 ^ 11) mod 2 ^ 32 + y / 2 ^ 21.

(** Round function. *)
Definition F (S : sbox) (k x : N) : N := rol11 (subst32 S ((x + k) mod 2 ^ 32)).

(** One Feistel round: (A,B) becomes (B xor F(A), A). *)
Definition feistel (S : sbox) (ab : N * N) (k : N) : N * N :=
  (N.lxor (snd ab) (F S k (fst ab)), fst ab).

(** The 256-bit key as eight little-endian words. *)
Definition key_words (k : list N) : list N :=
  map (fun i => le_val (firstn 4 (skipn (4 * i) k))) (seq 0 8).

(** Round-key sequence for encryption, decryption and MAC. *)
Definition enc_keys (w : list N) : list N := w ++ w ++ w ++ rev w.
Definition dec_keys (w : list N) : list N := w ++ rev w ++ rev w ++ rev w.
Definition mac_keys (w : list N) : list N := w ++ w.

(** A block as two little-endian words, low word first. *)
Definition split64 (b : list N) : N * N := (le_val (firstn 4 b), le_val (skipn 4 b)).

(** After the last round the halves are not exchanged. *)
Definition block_cipher (S : sbox) (ks : list N) (b : list N) : list N :=
  let r := fold_left (feistel S) ks (split64 b) in
  le_bytes 4 (snd r) ++ le_bytes 4 (fst r).

Definition encrypt (S : sbox) (k b : list N) : list N := block_cipher S (enc_keys (key_words k)) b.
Definition decrypt (S : sbox) (k b : list N) : list N := block_cipher S (dec_keys (key_words k)) b.

(** One step of the MAC chain: xor the block in, 16 rounds (the halves exchanged after
    every round). *)
Definition mac_step (S : sbox) (k : list N) (st blk : list N) : list N :=
  let r := fold_left (feistel S) (mac_keys (key_words k)) (split64 (xorl st blk)) in
  le_bytes 4 (fst r) ++ le_bytes 4 (snd r).

(** Data padded with zeros to whole 8-byte blocks; one block or less (but not no data)
    gets one more zero block. *)
Definition mac_blocks (data : list N) : list (list N) :=
  let bs := map (fun b => b ++ zeros (8 - length b)) (chunks 8 data) in
  match bs with [b] => [b; zeros 8] | _ => bs end.

Definition mac_full (S : sbox) (k iv data : list N) : list N :=
  fold_left (mac_step S k) (mac_blocks data) iv.

(** Cipher feedback with 8-byte blocks: C_i = P_i xor E(C_(i-1)). The last block may be short. *)
Fixpoint cfb_encrypt (E : list N -> list N) (iv : list N) (ps : list (list N)) : list (list N) :=
  match ps with
  | [] => []
  | p :: t => let c := xorl p (E iv) in c :: cfb_encrypt E c t
  end.
Fixpoint cfb_decrypt (E : list N -> list N) (iv : list N) (cs : list (list N)) : list (list N) :=
  match cs with
  | [] => []
  | c :: t => xorl c (E iv) :: cfb_decrypt E c t
  end.

(** The first [nbits] bits of a MAC: whole bytes, then the low bits of the next byte. *)
Definition mac_prefix_bits (full : list N) (nbits : nat) : list N :=
  firstn (nbits / 8) full ++
  (if Nat.eqb (nbits mod 8) 0 then [] else [nth (nbits / 8) full 0 mod 2 ^ N.of_nat (nbits mod 8)]).

(** Magma (RFC 8891) is GOST 28147-89 with all bytes of a block reversed. *)
Definition magma_block (S : sbox) (k b : list N) : list N := rev (encrypt S k (rev b)).

(** Reverse each 4-byte group. *)
Definition swap4 (l : list N) : list N := concat (map (@rev N) (chunks 4 l)).

(** RFC 4357 2.3.2: the constant C. *)
Definition mesh_C : list N :=
  [0x69; 0x00; 0x72; 0x22; 0x64; 0xC9; 0x04; 0x23;
   0x8D; 0x3A; 0xDB; 0x96; 0x46; 0xE9; 0x2A; 0xC4;
   0x18; 0xFE; 0xAC; 0x94; 0x00; 0xED; 0x07; 0x12;
   0xC0; 0x86; 0xDC; 0xC2; 0xEF; 0x4C; 0xA9; 0x2B].
(** RFC 8645: the constant D = 80..9F. *)
Definition acpkm_D : list N := map (fun i => 0x80 + N.of_nat i) (seq 0 32).

(** What the code does: one leftover bit keeps the whole byte, two or more give a zero byte. *)
Definition get_mac_actual (buffer : list N) (nbits : nat) : list N :=
  firstn (nbits / 8) buffer ++
  match (nbits mod 8)%nat with
  | O => []
  | 1%nat => [nth (nbits / 8) buffer 0]
  | _ => [0]
  end.

(** Key and IV after n CryptoPro meshings: K' = D_K(C), IV' = E_K'(IV). *)
Fixpoint mesh_key_iv (S : sbox) (n : nat) (k iv : list N) : list N * list N :=
  match n with
  | O => (k, iv)
  | Datatypes.S n' => let k' := concat (map (decrypt S k) (chunks 8 mesh_C)) in
            mesh_key_iv S n' k' (encrypt S k' iv)
  end.
(** Key after n ACPKM meshings (in GOST byte order). *)
Fixpoint acpkm_key (S : sbox) (n : nat) (k : list N) : list N :=
  match n with O => k | Datatypes.S n' => acpkm_key S n' (swap4 (concat (map (magma_block S k) (chunks 8 acpkm_D)))) end.
