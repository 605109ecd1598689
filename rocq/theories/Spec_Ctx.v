(** What a program sees of key contexts and keys: values only, no memory. *)
From Coq Require Import ZArith.
From Verif Require Import Base Model_Gf2m Model_Compress Model_Ec Model_Params Model_Curves Model_Sign Model_Asn1 Model_Pmeth Model_Key Model_Ameth Model_Ctx.

(** The options of a context: the curve and the S-box last set, if any. *)
Record opts := OPTS { o_type : Z; o_curve : option egroup; o_sbox : option (list N) }.
Record state := ST { s_ctx : nat -> option opts; s_key : nat -> option pkey }.
Definition state0 : state := ST (fun _ => None) (fun _ => None).
Definition upd {A} (f : nat -> option A) (k : nat) (v : option A) : nat -> option A := fun x => if Nat.eqb x k then v else f x.
(** The curve of the keys made: the one last set, else the standard curve of degree 257. *)
Definition curve_of (o : opts) : option egroup :=
  match o_curve o with Some g => Some g | None => option_map Binary (group_from_nid 1166) end.

(** The same text. *)
Definition same_text (a b : list N) : bool := if list_eq_dec N.eq_dec a b then true else false.

Section Spec.
Variable sn2nid : list N -> Z.
Variable d2i : list N -> option params.
Variable d2o : list N -> option (list N).
Variable solve : N -> N -> option N.

(** The options after a control call; None: the call is refused. *)
Definition set_option (o : opts) (type p1 : Z) (p2 : carg) : option opts :=
  match p2 with
  | ABytes s => if (type =? 4097%Z)%Z && (p1 =? 64)%Z then Some (OPTS (o_type o) (o_curve o) (Some (firstn 64 s))) else
                if existsb (Z.eqb type) [3; 4; 5; 7; 11]%Z then Some o else None
  | AGroup g => if (type =? 4098%Z)%Z then Some (OPTS (o_type o) (Some g) (o_sbox o)) else
                if existsb (Z.eqb type) [3; 4; 5; 7; 11]%Z then Some o else None
  | AMd nid => if ((type =? 1%Z) && (nid =? 1157%Z))%Z || existsb (Z.eqb type) [3; 4; 5; 7; 11]%Z then Some o else None
  | ANull => if existsb (Z.eqb type) [3; 4; 5; 7; 11]%Z then Some o else None
  end.
Definition set_string (o : opts) (type value : list N) : option opts :=
  if same_text type [99; 117; 114; 118; 101] (* "curve" *) then
    match group_from_nid (sn2nid value) with Some g => Some (OPTS (o_type o) (Some (Binary g)) (o_sbox o)) | None => None end
  else if same_text type [115; 98; 111; 120] (* "sbox" *) then
    match sbox_option value with Some s => Some (OPTS (o_type o) (o_curve o) (Some s)) | None => None end
  else None.
(** The key made from the options and the random source. *)
Definition generated (o : opts) (fuel : nat) (src : source) : option pkey :=
  match generate_key fuel (ECKEY (curve_of o) None None) src with
  | Done ec => Some (PKEY (o_type o) (Some (DKEY ec (o_sbox o))))
  | _ => None
  end.

Definition set_ctx (s : state) (c : nat) (o : option opts) : state := ST (upd (s_ctx s) c o) (s_key s).
Definition set_pkey (s : state) (k : nat) (o : option pkey) : state := ST (s_ctx s) (upd (s_key s) k o).
Definition on_ctx {B} (s : state) (c : nat) (f : opts -> option B) : option B := match s_ctx s c with Some o => f o | None => None end.
Definition on_key {B} (s : state) (k : nat) (f : pkey -> option B) : option B := match s_key s k with Some pk => f pk | None => None end.
Definition of_result {A} (r : result A) : option A := match r with Ok a => Some a | _ => None end.

(** A call that succeeds: its answer and the state afterwards.  None: the call fails. *)
Definition success (s : state) (o : op) : option (answer * state) :=
  match o with
  | CtxNew c nid => Some (Bool true, set_ctx s c (Some (OPTS nid None None)))
  | CtxDup dst src => on_ctx s src (fun o => Some (Bool true, set_ctx s dst (Some o)))
  | CtxFree c => Some (Bool true, set_ctx s c None)
  | Ctrl c type p1 p2 => on_ctx s c (fun o => option_map (fun o' => (Bool true, set_ctx s c (Some o'))) (set_option o type p1 p2))
  | CtrlStr c type value => on_ctx s c (fun o => option_map (fun o' => (Bool true, set_ctx s c (Some o'))) (set_string o type value))
  | Keygen c k fuel src => on_ctx s c (fun o => option_map (fun pk => (Bool true, set_pkey s k (Some pk))) (generated o fuel src))
  | KeyNew k => Some (Bool true, set_pkey s k (Some (PKEY 0 None)))
  | KeyFree k => Some (Bool true, set_pkey s k None)
  | ParamDecode k type der => option_map (fun key => (Bool true, set_pkey s k (Some (PKEY type (Some key))))) (param_decode d2i solve type der)
  | PrivDecode k p8 => option_map (fun pk => (Bool true, set_pkey s k (Some pk))) (priv_decode d2i solve p8)
  | PubDecode k pub => option_map (fun pk => (Bool true, set_pkey s k (Some pk))) (pub_decode d2i d2o solve pub)
  | ParamEncode k => on_key s k (fun pk => option_map (fun der => (Bytes der, s)) (of_result (param_encode pk)))
  | PrivEncode k => on_key s k (fun pk => option_map (fun i => (Info i, s)) (of_result (priv_encode pk)))
  | PubEncode k => on_key s k (fun pk => option_map (fun i => (Info i, s)) (of_result (pub_encode pk)))
  | Sign k fuel tbs src => on_key s k (fun pk =>
      match pkey_sign fuel (Some pk) true (pkey_size pk) tbs src with Done (true, _, out) => Some (Bytes out, s) | _ => None end)
  | Verify k sig tbs => on_key s k (fun pk => if pkey_verify d2o (Some pk) sig tbs then Some (Bool true, s) else None)
  end.
(** After a call that fails nothing has changed, except that key generation frees the key. *)
Definition after_failure (s : state) (o : op) : state := match o with Keygen _ k _ _ => set_pkey s k None | _ => s end.

(** With too little memory two calls may also succeed in a degraded way: verification of a
    signature whose DER wrapping could not be removed, and encoding of a private key without its
    parameters. *)
Definition degraded (s : state) (o : op) (a : answer) : Prop :=
  match o with
  | Verify k sig tbs => exists pk, s_key s k = Some pk /\ pkey_verify (fun _ => None) (Some pk) sig tbs = true /\ a = Bool true
  | PrivEncode k => exists i, option_map fst (success s o) = Some (Info i) /\ a = Info (KEYINFO (ALGOR (al_nid (ki_alg i)) None) (ki_key i))
  | _ => False
  end.
(** The answers a call may give; [full]: no allocation fails. *)
Definition permitted (full : Prop) (s : state) (o : op) (a : answer) : Prop :=
  option_map fst (success s o) = Some a \/
  (a = Bool false /\ (success s o = None \/ ~ full)) \/
  (~ full /\ degraded s o a).
(** The state after a call, by its answer. *)
Definition next (s : state) (o : op) (a : answer) : state :=
  match a with
  | Bool false => after_failure s o
  | _ => match success s o with Some (_, s') => s' | None => s end
  end.
Fixpoint follow (s : state) (l : list op) (answers : list answer) : state :=
  match l, answers with o :: t, a :: u => follow (next s o a) t u | _, _ => s end.
Fixpoint all_permitted (full : Prop) (s : state) (l : list op) (answers : list answer) : Prop :=
  match l, answers with
  | [], [] => True
  | o :: t, a :: u => permitted full s o a /\ all_permitted full (next s o a) t u
  | _, _ => False
  end.

(** What the program must respect: handles exist, or are new; arguments are of the kind the
    control call expects; keys are encoded with enough memory and unless Model_Key says that
    this is undefined. *)
Definition defined {A} (r : result A) : Prop := match r with Undefined => False | _ => True end.
Definition legal (full : Prop) (s : state) (o : op) : Prop :=
  match o with
  | CtxNew c _ => s_ctx s c = None
  | CtxDup dst src => s_ctx s dst = None /\ s_ctx s src <> None
  | CtxFree c | CtrlStr c _ _ => s_ctx s c <> None
  | Ctrl c type p1 p2 => s_ctx s c <> None /\
      (type = 4097%Z -> p2 = ANull \/ p1 <> 64%Z \/ exists b, p2 = ABytes b /\ (64 <= length b)%nat) /\
      (type = 4098%Z -> p2 = ANull \/ exists g, p2 = AGroup g) /\
      (type = 1%Z -> exists nid, p2 = AMd nid)
  | Keygen c _ _ _ => s_ctx s c <> None
  | KeyNew k | ParamDecode k _ _ | PrivDecode k _ | PubDecode k _ => s_key s k = None
  | KeyFree k | Sign k _ _ _ | Verify k _ _ => s_key s k <> None
  | ParamEncode k | PrivEncode k | PubEncode k => full /\ exists pk, s_key s k = Some pk /\ defined (param_encode pk)
  end.
End Spec.

(** An allocator: what it gives was not live. *)
Definition allocator (malloc : nat -> heap -> option nat) : Prop := forall n h p, malloc n h = Some p -> live h p = None.
Definition never_fails (malloc : nat -> heap -> option nat) : Prop := forall n h, malloc n h <> None.
(** An allocator that gives addresses above all live ones; the n-th allocation fails unless [ok n]. *)
Definition above (h : heap) : nat := fold_right (fun p m => Nat.max (S (fst p)) m) 0%nat h.
Definition some_malloc (ok : nat -> bool) : nat -> heap -> option nat := fun n h => if ok n then Some (above h) else None.
(** A key with its EC_KEY and its S-box, if any, as cells. *)
Definition sbox_cells (s : option (nat * list N)) : heap := match s with Some (p, v) => [(p, OSbox v)] | None => [] end.
Definition ec_cells (e : option (nat * eckey)) : heap := match e with Some (p, v) => [(p, OEc v)] | None => [] end.
Definition key_cells (key : nat) (e : nat * eckey) (s : option (nat * list N)) : heap :=
  (key, OKey (Ptr (Some (fst e))) (Ptr (option_map fst s))) :: ec_cells (Some e) ++ sbox_cells s.
Definition or_else {A} (new : option A) (old : A) : A := match new with Some x => x | None => old end.
