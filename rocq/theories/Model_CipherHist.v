(** Histories of calls on any number of cipher contexts (engine/cipher.c), with everything the
    calls return. *)
From Coq Require Import ZArith.
From Verif Require Import Base Model_Gost89 Model_Params Model_Cipher.

(** The calls a program makes on its contexts, numbered.  [rnd] (the key mask drawn by gost_key)
    and [stale] (what the local variable sbox of cipher.c:179 held before) are not chosen by the
    caller. *)
Inductive ccall :=
| CInit (i : nat) (rnd : list N) (key iv : option (list N)) (enc : bool)  (* cipher.c:26-48 *)
| CUpdate (i : nat) (data : list N)                                      (* cipher.c:50-143 *)
| CFinal (i : nat)                                                       (* cipher.c:60-61: EVP_CipherFinal_ex passes NULL and 0 *)
| CCtrl (i : nat) (cmd p1 : Z) (p2 : option (list N))                    (* cipher.c:151-174 *)
| CImport (i : nat) (v : asn1_value)                                     (* cipher.c:209-229 *)
| CExport (i : nat) (stale : subst_block)                                (* cipher.c:176-207 *)
| CCopy (i j : nat).                                                     (* EVP_CIPHER_CTX_copy of i to j *)

(** What a call answers: return value and output bytes, return value and whether the PRF
    identifier was stored, or the exported value (cipher.c:47, 142, 151-174, 203-206, 225-228). *)
Inductive canswer := AOut (r : Z) (o : list N) | ACode (r : Z) (stored : bool) | AValue (v : asn1_value) | ANone.

(** One context replaced: the engine keeps no state of its own besides the contexts
    (cipher.c:26-229 uses only its ctx argument). *)
Definition cset {A} (w : nat -> A) (i : nat) (x : A) : nat -> A := fun j => if Nat.eqb j i then x else w j.

(** One call.  EVP_CIPHER_CTX_copy copies the structure and, as the cipher does not set
    EVP_CIPH_CUSTOM_COPY (cipher.c:237), the gost_ctx byte by byte (size: cipher.c:241). *)
Definition ccall_run (w : nat -> cipher_ctx) (o : ccall) : (nat -> cipher_ctx) * canswer :=
  match o with
  | CInit i rnd key iv enc => (cset w i (evp_init rnd (w i) key iv enc), ACode 1 false)
  | CUpdate i d => let '(c, r, out) := update (w i) d in (cset w i c, AOut r out)
  | CFinal i => let '(c, _, r) := do_cipher (w i) (fun _ => 0) 0 None 0 in (cset w i c, AOut r [])
  | CCtrl i cmd p1 p2 => let '(c, r, b) := cipher_ctrl (w i) cmd p1 p2 in (cset w i c, ACode r b)
  | CImport i v => let '(c, r) := get_asn1 (w i) v in (cset w i c, ACode r false)
  | CExport i stale => (w, AValue (set_asn1 (w i) stale))
  | CCopy i j => (cset w j (w i), ANone)
  end.
(** A history (cipher.c:26-229): the contexts afterwards and the answers. *)
Fixpoint ccalls (w : nat -> cipher_ctx) (l : list ccall) : (nat -> cipher_ctx) * list canswer :=
  match l with
  | [] => (w, [])
  | o :: t => let '(w1, a) := ccall_run w o in let '(w2, l2) := ccalls w1 t in (w2, a :: l2)
  end.
(** A context for which the cipher was selected and nothing more: EVP_CipherInit_ex(ctx, cipher,
    NULL, NULL, NULL, 0), cipher.c:26-48 on zeroed memory (EVP_CIPHER_CTX_new and the zeroed
    cipher data). *)
Definition selected : cipher_ctx := evp_init (zeros 8) fresh_ctx None None false.

(** What the API demands of the caller (evp.h): keys of 32 and IVs of 8 bytes, data of at most
    INT_MAX bytes, p2 of the S-box control pointing to the 64 bytes announced by p1; and [stale]
    is some structure of eight rows of 16 (gost89.h). *)
Definition ccall_ok (o : ccall) : Prop :=
  match o with
  | CInit _ rnd key iv _ => mask_wf rnd /\ (forall k, key = Some k -> bytesn 32 k) /\ (forall v, iv = Some v -> bytesn 8 v)
  | CUpdate _ d => bytes d /\ N.of_nat (length d) < 2 ^ 31
  | CCtrl _ cmd p1 p2 => cmd = DSTU_SET_CUSTOM_SBOX -> p1 = 64%Z -> forall p, p2 = Some p -> bytesn 64 p
  | CImport _ v => bytes (a_data v)
  | CExport _ stale => rows16 stale
  | CFinal _ | CCopy _ _ => True
  end.

(** The order in which the EnvelopedData functions of OpenSSL (cms_enc.c, pk7_doit.c) open a message
    with this cipher: select it (cipher.c:26-48 without key and IV), import the parameters of the
    message (cipher.c:209-229), give the key without an IV (cipher.c:26-48), update in pieces. *)
Definition opened (rnd r1 : list N) (k : list N) (prm : asn1_value) (ds : list (list N)) : list N :=
  snd (updates (evp_init rnd (fst (get_asn1 (evp_init r1 fresh_ctx None None false) prm)) (Some k) None false) ds).
