(** A reference for the cipher: one record of what the standard needs, one byte at a time.  It
    knows nothing of masks, expanded tables, buffers in memory and blocks processed in bulk. *)
From Coq Require Import ZArith.
From Verif Require Import Base Spec_Gost89 Spec_Params Spec_Cipher Model_Params Model_Cipher Model_CipherHist.

(** Direction; key; S-box (packed form); the IV of the message; the feedback register; the
    gamma; how many bytes of the gamma are used. *)
Record ref := REF { r_enc : bool; r_key : list N; r_sbox : list N; r_start : list N; r_reg : list N; r_gamma : list N; r_pos : nat }.
(** The block cipher of the standard with the key and the S-box of the record. *)
Definition r_block (r : ref) (b : list N) : list N := encrypt (packed_sbox (r_sbox r)) (r_key r) b.
(** The next gamma. *)
Definition ref_next (r : ref) : ref := REF (r_enc r) (r_key r) (r_sbox r) (r_start r) (r_reg r) (r_block r (r_reg r)) (r_pos r).
(** One byte: xor with the gamma; the ciphertext byte goes to the register; a full register
    gives the next gamma. *)
Definition ref_byte (r : ref) (b : N) : ref * N :=
  let v := N.lxor b (nth (r_pos r) (r_gamma r) 0) in
  let reg := firstn (r_pos r) (r_reg r) ++ [if r_enc r then v else b] ++ skipn (S (r_pos r)) (r_reg r) in
  let r1 := REF (r_enc r) (r_key r) (r_sbox r) (r_start r) reg (r_gamma r) (S (r_pos r) mod 8) in
  (if Nat.eqb (r_pos r) 7 then ref_next r1 else r1, v).
Fixpoint ref_bytes (r : ref) (l : list N) : ref * list N :=
  match l with
  | [] => (r, [])
  | b :: t => let '(r1, v) := ref_byte r b in let '(r2, vs) := ref_bytes r1 t in (r2, v :: vs)
  end.
(** An update call: nothing but an error for no data.  The first byte of a piece of 8 or more
    bytes that starts a block uses a fresh gamma (it differs from the old one only if the key or
    the S-box was changed since). *)
Definition ref_update (r : ref) (d : list N) : ref * canswer :=
  match d with
  | [] => (r, AOut (-1) [])
  | _ => let '(r1, o) := ref_bytes (if Nat.eqb (r_pos r) 0 && Nat.leb 8 (length d) then ref_next r else r) d in
         (r1, AOut (Z.of_nat (length d)) o)
  end.
(** Initialisation: always the default S-box; key and IV if given; only an IV starts a message. *)
Definition ref_init (r : ref) (key iv : option (list N)) (enc : bool) : ref :=
  let k := match key with Some k => k | None => r_key r end in
  match iv with
  | Some v => ref_next (REF enc k default_sbox v v (r_gamma r) 0)
  | None => REF enc k default_sbox (r_start r) (r_reg r) (r_gamma r) (r_pos r)
  end.
(** Another S-box: back to the IV, but not to the start of a block. *)
Definition ref_set_sbox (r : ref) (p : list N) : ref :=
  ref_next (REF (r_enc r) (r_key r) p (r_start r) (r_start r) (r_gamma r) (r_pos r)).
(** The two controls. *)
Definition ref_ctrl (r : ref) (cmd p1 : Z) (p2 : option (list N)) : ref * canswer :=
  match p2 with
  | None => (r, ACode 0 false)
  | Some p => if (cmd =? 4097%Z)%Z then if (p1 =? 64)%Z then (ref_set_sbox r p, ACode 1 false) else (r, ACode 0 false)
              else if (cmd =? 7%Z)%Z then (r, ACode 1 true) else (r, ACode 0 false)
  end.
(** Import of parameters: 78 bytes with the octet string headers in place. *)
Definition ref_import (r : ref) (v : asn1_value) : ref * canswer :=
  let d := a_data v in
  if (a_type v =? 16%Z)%Z && Nat.eqb (length d) 78 && (nth 2 d 0 =? 4) && (nth 3 d 0 =? 8) && (nth 12 d 0 =? 4) && (nth 13 d 0 =? 64)
  then (ref_set_sbox (REF (r_enc r) (r_key r) (r_sbox r) (firstn 8 (skipn 4 d)) (r_reg r) (r_gamma r) (r_pos r)) (skipn 14 d), ACode 1 false)
  else (r, ACode (-1) false).
(** A call, and a history, on any number of records. *)
Definition ref_call (w : nat -> ref) (o : ccall) : (nat -> ref) * canswer :=
  match o with
  | CInit i _ key iv enc => (cset w i (ref_init (w i) key iv enc), ACode 1 false)
  | CUpdate i d => let '(r, a) := ref_update (w i) d in (cset w i r, a)
  | CFinal i => (w, AOut 0 [])
  | CCtrl i cmd p1 p2 => let '(r, a) := ref_ctrl (w i) cmd p1 p2 in (cset w i r, a)
  | CImport i v => let '(r, a) := ref_import (w i) v in (cset w i r, a)
  | CExport i _ => (w, AValue (ASN1 16%Z (der_params (r_start (w i)) (r_sbox (w i)))))
  | CCopy i j => (cset w j (w i), ANone)
  end.
Fixpoint ref_calls (w : nat -> ref) (l : list ccall) : (nat -> ref) * list canswer :=
  match l with
  | [] => (w, [])
  | o :: t => let '(w1, a) := ref_call w o in let '(w2, l2) := ref_calls w1 t in (w2, a :: l2)
  end.
(** The start: the all-zero key, an all-zero IV, an all-zero gamma. *)
Definition ref0 : ref := REF false (zeros 32) default_sbox (zeros 8) (zeros 8) (zeros 8) 0.

(** Cipher feedback that starts in the middle of a block: [n] bytes of the block are behind,
    [gamma] is used for the rest of it, [reg] gives the first [n] bytes of the register. *)
Definition cfb_resume (enc : bool) (E : list N -> list N) (n : nat) (reg gamma msg : list N) : list N :=
  let a := firstn (8 - n) msg in
  let o := xorl a (skipn n gamma) in
  o ++ cfb_stream enc E (firstn n reg ++ (if enc then o else a)) (skipn (8 - n) msg).
