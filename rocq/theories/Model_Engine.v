(** Model of engine/dstu.c: the engine's method objects, lookups, bind and finish. *)
From Coq Require Import ZArith.
From Verif Require Import Base Model_Err.

(** Identifiers (OpenSSL obj_mac.h). *)
Definition NID_dstu28147_cfb : Z := 1154.
(** obj_mac.h, used at dstu.c:26. *)
Definition NID_dstu34311 : Z := 1157.
(** obj_mac.h, used at dstu.c:22. *)
Definition NID_dstu4145le : Z := 1158.
(** obj_mac.h, used at dstu.c:22. *)
Definition NID_dstu4145be : Z := 1159.

(** Method objects: what dstu_digest_new (engine/md.c:89-109), dstu_cipher_new
    (engine/cipher.c), dstu_pkey_meth_new (engine/pmeth.c:416-443) and dstu_asn1_meth_new
    (engine/ameth.c:727-750) make; the last two for an identifier. *)
Inductive method := MDigest | MCipher | MPkey (nid : Z) | MAsn1 (nid : Z).
(** engine/dstu.c:20-31 *)
Definition dstu_nids : list Z := [NID_dstu4145le; NID_dstu4145be].
(** dstu.c:24-27 *)
Definition digest_nids : list Z := [NID_dstu34311].
(** dstu.c:28-31 *)
Definition cipher_nids : list Z := [NID_dstu28147_cfb].

(** Allocated method objects: address and contents, newest first; an address is live if it
    is listed. *)
Definition mheap := list (nat * method).
(** Contents of a live address. *)
Fixpoint live (h : mheap) (p : nat) : option method :=
  match h with [] => None | (q, m) :: t => if Nat.eqb p q then Some m else live t p end.
(** The EVP_*_meth_free functions: the address is no longer live. *)
Fixpoint release (h : mheap) (p : nat) : mheap :=
  match h with [] => [] | (q, m) :: t => if Nat.eqb p q then t else (q, m) :: release t p end.

(** dstu.c:37-40: the static pointers (None = NULL); the error state of err.c. *)
Record eng := ENG { g_heap : mheap; g_md : option nat; g_cipher : option nat;
                    g_pm : list (option nat); g_am : list (option nat); g_err : err_state }.
(** The statics of dstu.c:37-40 at the start. *)
Definition eng0 : eng := ENG [] None None [None; None] [None; None] err0.

(** An answer of a lookup: the return value, what was stored through the method pointer
    (None = not written, Some None = NULL), and the list stored through nids. *)
Record answer := ANS { a_ret : Z; a_meth : option (option nat); a_nids : option (list Z) }.

Section Engine.
(** OpenSSL's allocation of a method object: None when it fails. *)
Variable malloc : mheap -> option nat.
Variable next_lib : nat -> N.

Definition mnew (h : mheap) (m : method) : mheap * option nat :=
  match malloc h with None => (h, None) | Some p => ((p, m) :: h, Some p) end.
(** free of NULL does nothing; of an address that is not live: None, undefined. *)
Definition mfree (h : mheap) (p : option nat) : option mheap :=
  match p with None => Some h | Some a => match live h a with None => None | Some _ => Some (release h a) end end.

(** dstu.c:42-47 dstu_md_get *)
Definition md_get (s : eng) : eng * option nat :=
  match g_md s with
  | Some p => (s, Some p)
  | None => let '(h, p) := mnew (g_heap s) MDigest in (ENG h p (g_cipher s) (g_pm s) (g_am s) (g_err s), p)
  end.
(** dstu.c:49-54 dstu_cipher_get *)
Definition cipher_get (s : eng) : eng * option nat :=
  match g_cipher s with
  | Some p => (s, Some p)
  | None => let '(h, p) := mnew (g_heap s) MCipher in (ENG h (g_md s) p (g_pm s) (g_am s) (g_err s), p)
  end.
(** dstu.c:58-67, 74-83: the search with creation on first use; [mk] builds the method. *)
Fixpoint slot_get (h : mheap) (mk : Z -> method) (nid : Z) (nids : list Z) (slots : list (option nat)) : mheap * list (option nat) * option nat :=
  match nids, slots with
  | n :: ns, sl :: sls =>
      if (nid =? n)%Z then
        match sl with
        | Some p => (h, slots, Some p)
        | None => let '(h', p) := mnew h (mk nid) in (h', p :: sls, p)
        end
      else let '(h', sls', p) := slot_get h mk nid ns sls in (h', sl :: sls', p)
  | _, _ => (h, slots, None)
  end.
(** dstu.c:56-70 dstu_pkey_meth_get, 72-86 dstu_asn1_meth_get *)
Definition pkey_meth_get (s : eng) (nid : Z) : eng * option nat :=
  let '(h, pm, p) := slot_get (g_heap s) MPkey nid dstu_nids (g_pm s) in (ENG h (g_md s) (g_cipher s) pm (g_am s) (g_err s), p).
(** dstu.c:72-86 dstu_asn1_meth_get, when the object is there or can be made *)
Definition asn1_found (s : eng) (nid : Z) : eng * option nat :=
  let '(h, am, p) := slot_get (g_heap s) MAsn1 nid dstu_nids (g_am s) in (ENG h (g_md s) (g_cipher s) (g_pm s) am (g_err s), p).
(** dstu.c:72-86 dstu_asn1_meth_get.  dstu_asn1_meth_new (ameth.c:727-750) does not test what
    EVP_PKEY_asn1_new returns and stores into it: undefined if it could not be allocated, that is
    if a key type of the table gets no object. *)
Definition asn1_meth_get (s : eng) (nid : Z) : option (eng * option nat) :=
  let '(s', p) := asn1_found s nid in
  match p with
  | Some _ => Some (s', p)
  | None => if existsb (Z.eqb nid) dstu_nids then None else Some (s', None)
  end.

(** dstu.c:105-126 dstu_digests: [out] and [nids] say whether these pointers are not NULL. *)
Definition digests (s : eng) (out nids : bool) (nid : Z) : eng * answer :=
  if out && negb (nid =? 0)%Z then
    if (NID_dstu34311 =? nid)%Z then let '(s', p) := md_get s in (s', ANS 1 (Some p) None)
    else (s, ANS 0 None None)
  else if negb nids then (s, ANS (-1) None None)
  else (s, ANS 1 None (Some digest_nids)).
(** dstu.c:128-149 dstu_ciphers *)
Definition ciphers (s : eng) (out nids : bool) (nid : Z) : eng * answer :=
  if out && negb (nid =? 0)%Z then
    if (NID_dstu28147_cfb =? nid)%Z then let '(s', p) := cipher_get s in (s', ANS 1 (Some p) None)
    else (s, ANS 0 None None)
  else if negb nids then (s, ANS (-1) None None)
  else (s, ANS 1 None (Some cipher_nids)).
(** dstu.c:151-166 dstu_pkey_meths: with both pointers NULL it stores through NULL. *)
Definition pkey_meths (s : eng) (out nids : bool) (nid : Z) : option (eng * answer) :=
  if negb out then (if nids then Some (s, ANS (Z.of_nat (length dstu_nids)) None (Some dstu_nids)) else None)
  else let '(s', p) := pkey_meth_get s nid in
       Some (s', ANS (match p with Some _ => 1 | None => 0 end) (Some p) None).
(** dstu.c:168-183 dstu_asn1_meths *)
Definition asn1_meths (s : eng) (out nids : bool) (nid : Z) : option (eng * answer) :=
  if negb out then (if nids then Some (s, ANS (Z.of_nat (length dstu_nids)) None (Some dstu_nids)) else None)
  else match asn1_meth_get s nid with
       | None => None
       | Some (s', p) => Some (s', ANS (match p with Some _ => 1 | None => 0 end) (Some p) None)
       end.

(** dstu.c:94-103 dstu_engine_finish: the two static pointers keep their values. *)
Definition engine_finish (s : eng) : option (eng * Z) :=
  match mfree (g_heap s) (g_cipher s) with
  | None => None
  | Some h1 => match mfree h1 (g_md s) with
               | None => None
               | Some h2 => Some (ENG h2 (g_md s) (g_cipher s) (g_pm s) (g_am s) (err_unload (g_err s)), 1%Z)
               end
  end.

(** Reading a method object: undefined when it is not live (NULL included). *)
Definition deref (h : mheap) (p : option nat) : option method :=
  match p with None => None | Some a => live h a end.

(** What the library calls inside dstu_bind answer: the ENGINE_set_* and ENGINE_register_*
    calls together, EVP_add_digest, EVP_add_cipher, EVP_PBE_alg_add_type. *)
Record bind_env := BENV { b_setup : bool; b_digest : bool; b_cipher : bool; b_pbe : bool }.
(** err.h, used at dstu.c:185-215. *)
Definition DSTU_F_BIND_DSTU : N := 100.
(** OpenSSL err.h, used at dstu.c:185-215. *)
Definition ERR_R_EVP_LIB : N := 6.
(** dstu.c:207-210 *)
Definition bind_fail (s : eng) : option (eng * Z) :=
  Some (ENG (g_heap s) (g_md s) (g_cipher s) (g_pm s) (g_am s) (err_error next_lib (g_err s) DSTU_F_BIND_DSTU ERR_R_EVP_LIB), 0%Z).
(** dstu.c:185-215 dstu_bind; [id_ok] is the test of the identifier.  EVP_add_digest and
    EVP_add_cipher read the object they are given. *)
Definition bind (s : eng) (id_ok : bool) (b : bind_env) : option (eng * Z) :=
  if negb id_ok then Some (s, 0%Z)
  else if negb (b_setup b) then bind_fail s
  else let '(s1, md) := md_get s in
    match deref (g_heap s1) md with
    | None => None
    | Some _ =>
        if negb (b_digest b) then bind_fail s1
        else let '(s2, ci) := cipher_get s1 in
          match deref (g_heap s2) ci with
          | None => None
          | Some _ =>
              if negb (b_cipher b) then bind_fail s2
              else if negb (b_pbe b) then bind_fail s2
              else Some (ENG (g_heap s2) (g_md s2) (g_cipher s2) (g_pm s2) (g_am s2) (err_load next_lib (g_err s2)), 1%Z)
          end
    end.

(** OpenSSL's engine_pkey_meths_free / engine_pkey_asn1_meths_free, run when the engine
    object is destroyed: every advertised method is looked up and freed. *)
Fixpoint free_all (get : eng -> Z -> option (eng * option nat)) (s : eng) (nids : list Z) : option eng :=
  match nids with
  | [] => Some s
  | n :: t => match get s n with
              | None => None
              | Some (s1, p) =>
                  match mfree (g_heap s1) p with
                  | None => None
                  | Some h => free_all get (ENG h (g_md s1) (g_cipher s1) (g_pm s1) (g_am s1) (g_err s1)) t
                  end
              end
  end.
(** Both, for the tables of dstu.c:151-183. *)
Definition engine_destroy (s : eng) : option eng :=
  match free_all (fun s n => Some (pkey_meth_get s n)) s dstu_nids with None => None | Some s1 => free_all asn1_meth_get s1 dstu_nids end.

(** The calls of a history; GUse is OpenSSL or the application reading a method object. *)
Inductive eng_op :=
| GBind (id_ok : bool) (b : bind_env) | GInit
| GDigests (out nids : bool) (nid : Z) | GCiphers (out nids : bool) (nid : Z)
| GPkey (out nids : bool) (nid : Z) | GAsn1 (out nids : bool) (nid : Z)
| GUse (p : nat) | GFinish | GDestroy.
(** One call of the history (dstu.c:88-215). *)
Definition eng_step (s : eng) (o : eng_op) : option (eng * answer) :=
  match o with
  | GBind i b => match bind s i b with None => None | Some (s', r) => Some (s', ANS r None None) end
  | GInit => Some (s, ANS 1 None None) (* dstu.c:88-92 *)
  | GDigests o n i => Some (digests s o n i)
  | GCiphers o n i => Some (ciphers s o n i)
  | GPkey o n i => pkey_meths s o n i
  | GAsn1 o n i => asn1_meths s o n i
  | GUse p => match live (g_heap s) p with None => None | Some _ => Some (s, ANS 1 None None) end
  | GFinish => match engine_finish s with None => None | Some (s', r) => Some (s', ANS r None None) end
  | GDestroy => match engine_destroy s with None => None | Some s' => Some (s', ANS 1 None None) end
  end.
Fixpoint eng_run (s : eng) (ops : list eng_op) : option (eng * list answer) :=
  match ops with
  | [] => Some (s, [])
  | o :: t => match eng_step s o with
              | None => None
              | Some (s1, a) => match eng_run s1 t with None => None | Some (s2, l) => Some (s2, a :: l) end
              end
  end.

(** * Concurrent first lookups: dstu.c:62-64 (79-81) as separate steps of threads sharing one
    slot.  [nobj] counts the objects made (each address is new). *)
Inductive lpc := LCheck | LNew | LStore (p : nat) | LRead | LDone (p : option nat).
(** The shared slot (dstu.c:39-40), the objects made, where each thread is. *)
Record lworld := LW { lw_slot : option nat; lw_nobj : nat; lw_pc : nat -> lpc }.
(** One step of a thread through dstu.c:62-64. *)
Definition lstep (w : lworld) (i : nat) : lworld :=
  let set pc := fun j => if Nat.eqb j i then pc else lw_pc w j in
  match lw_pc w i with
  | LCheck => LW (lw_slot w) (lw_nobj w) (set (match lw_slot w with None => LNew | Some _ => LRead end))
  | LNew => LW (lw_slot w) (S (lw_nobj w)) (set (LStore (lw_nobj w)))
  | LStore p => LW (Some p) (lw_nobj w) (set LRead)
  | LRead => LW (lw_slot w) (lw_nobj w) (set (LDone (lw_slot w)))
  | LDone _ => w
  end.
(** The steps of a schedule. *)
Definition lrun (w : lworld) (sched : list nat) : lworld := fold_left lstep sched w.
(** All threads before dstu.c:62. *)
Definition lstart (slot : option nat) (n : nat) : lworld := LW slot n (fun _ => LCheck).
End Engine.
