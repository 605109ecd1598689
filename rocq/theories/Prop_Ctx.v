(** Properties of keys and key contexts as objects in memory (dstulib/key.c, engine/pmeth.c,
    engine/ameth.c). *)
From Coq Require Import ZArith List Permutation.
Import ListNotations.
From Verif Require Import Base Model_Params Model_Gf2m Model_Compress Model_Ec Model_Curves Model_Sign Model_Asn1 Model_Pmeth Model_Key Model_Ameth Model_Ctx
  Spec_Sign Spec_Key Spec_Toy Spec_Ctx Spec_Hist Proof_Key Proof_Key3 Proof_Ctx5 Proof_Ctx6 Proof_Ctx7 Proof_Ctx8 Prop_Key.
Open Scope N_scope.

(** A history on the small curve: two contexts, the second copied from the first and then changed
    on its own; a key from each. *)
Definition unknown_name : list N -> Z := fun _ => 0%Z.
Definition fives : source := fun _ => Some 5.
Definition plenty := some_malloc (fun _ => true).
Definition zeros64 : list N := repeat 0 64.
Definition story : list op :=
  [CtxNew 0 1158%Z; Ctrl 0 4098%Z 0 (AGroup (Binary toy_group)); CtxDup 1 0; Ctrl 1 4097%Z 64 (ABytes zeros64); CtrlStr 0 [99; 117; 114; 118; 101] [1];
   Keygen 0 0 9 fives; Keygen 1 1 9 fives; PrivEncode 0; PubEncode 1; Sign 0 9 [1] fives; Verify 0 [1; 2] [3]; ParamDecode 2 1159%Z toy_params; ParamEncode 2; PrivEncode 2].
Definition frees : list op := [KeyFree 0; KeyFree 1; KeyFree 2; CtxFree 0; CtxFree 1].
Definition answers_of (r : step (list answer * world)) : option (list answer) := match r with Ret (a, _) => Some a | _ => None end.
Definition memory_of (r : step (list answer * world)) : option heap := match r with Ret (_, w) => Some (fst (w_mem w)) | _ => None end.
Definition sbox_params : list N := [48; 88; 48; 20; 48; 6; 2; 1; 5; 2; 1; 2; 2; 1; 1; 4; 1; 2; 2; 1; 17; 4; 1; 2; 4; 64] ++ zeros64.
Definition toy_run := run plenty unknown_name d2i_params d2i_octets solve_quad world0.

(** The first key has the curve of its context and no S-box; the second also the S-box set on the
    copy. *)
Example story_ex : answers_of (toy_run story) = Some
  [Bool true; Bool true; Bool true; Bool true; Bool false; Bool true; Bool true;
   Info (KEYINFO (ALGOR 1158%Z (Some toy_params)) [5]); Info (KEYINFO (ALGOR 1158%Z (Some sbox_params)) [4; 1; 20]);
   Bytes [4; 2; 5; 13]; Bool false; Bool true; Bytes toy_params; Bool false] /\
  option_map (@length _) (memory_of (toy_run story)) = Some 13%nat /\ option_map (@length _) (memory_of (toy_run (story ++ frees))) = Some 1%nat /\
  memory_of (toy_run (firstn 13 story ++ frees)) = Some [].
Proof. vm_compute. repeat split. Qed.
Example plenty_ex : allocator plenty /\ never_fails plenty.
Proof. split; [apply above_allocator|intros n h; discriminate]. Qed.

(** C53: whatever the program does, and whatever allocations fail, the answers are those of the
    specification Spec_Ctx, in which contexts and keys are plain values without memory, so that
    no two of them can influence each other. *)
Theorem C53_history : forall malloc sn2nid d2i d2o solve, allocator malloc -> forall l ans w,
  run malloc sn2nid d2i d2o solve world0 l = Ret (ans, w) -> all_permitted sn2nid d2i d2o solve (never_fails malloc) state0 l ans.
Proof. exact (fun malloc sn2nid d2i d2o solve HA l ans w E => proj1 (history_permitted malloc sn2nid d2i d2o solve HA l ans w E)). Qed.
Print Assumptions C53_history.
(** The options of a context are those last set on it, or on the context it was copied from
    before it was copied. *)
Theorem C53_options : forall malloc sn2nid d2i d2o solve, allocator malloc -> forall l ans w,
  run malloc sn2nid d2i d2o solve world0 l = Ret (ans, w) -> forall c o, s_ctx (follow sn2nid d2i d2o solve state0 l ans) c = Some o ->
  o_curve o = last_curve sn2nid (rev (combine l ans)) c /\ o_sbox o = last_sbox (rev (combine l ans)) c.
Proof. exact history_options. Qed.
Print Assumptions C53_options.
(** A generated key has the curve last set, by default the standard curve of degree 257, and the
    S-box last set, by default none. *)
Theorem C53_keygen : forall malloc sn2nid d2i d2o solve, allocator malloc -> forall l ans w c k fuel src w',
  run malloc sn2nid d2i d2o solve world0 l = Ret (ans, w) -> exec malloc sn2nid d2i d2o solve w (Keygen c k fuel src) = Ret (Bool true, w') ->
  exists t d Q, s_key (next sn2nid d2i d2o solve (follow sn2nid d2i d2o solve state0 l ans) (Keygen c k fuel src) (Bool true)) k =
    Some (PKEY t (Some (DKEY (ECKEY (match last_curve sn2nid (rev (combine l ans)) c with Some g => Some g | None => option_map Binary (group_from_nid 1166) end) (Some d) Q)
                             (last_sbox (rev (combine l ans)) c)))).
Proof. exact keygen_options. Qed.
Print Assumptions C53_keygen.
Example C53_ex : let h := rev (combine (firstn 5 story) [Bool true; Bool true; Bool true; Bool true; Bool false]) in
  last_curve unknown_name h 0 = Some (Binary toy_group) /\ last_sbox h 0 = None /\ last_curve unknown_name h 1 = Some (Binary toy_group) /\ last_sbox h 1 = Some zeros64 /\
  (exists w, toy_run (firstn 5 story) = Ret ([Bool true; Bool true; Bool true; Bool true; Bool false], w) /\
     match exec plenty unknown_name d2i_params d2i_octets solve_quad w (Keygen 1 1 9 fives) with Ret (a, _) => a = Bool true | _ => False end).
Proof. intros h. split; [vm_compute; reflexivity|]. split; [vm_compute; reflexivity|]. split; [vm_compute; reflexivity|]. split; [vm_compute; reflexivity|]. eexists. split; [vm_compute; reflexivity|vm_compute; reflexivity]. Qed.

(** C81: no history of legal calls uses memory that was freed or never written, frees twice or
    dereferences NULL. *)
Theorem C81_safe : forall malloc sn2nid d2i d2o solve, allocator malloc -> forall l ans w,
  run malloc sn2nid d2i d2o solve world0 l = Ret (ans, w) -> forall o, legal (never_fails malloc) (follow sn2nid d2i d2o solve state0 l ans) o ->
  exec malloc sn2nid d2i d2o solve w o <> Undef.
Proof. exact (fun malloc sn2nid d2i d2o solve HA l ans w E => proj2 (history_permitted malloc sn2nid d2i d2o solve HA l ans w E)). Qed.
Print Assumptions C81_safe.
(** Every call returns, unless the random source keeps a key generation or a signature waiting. *)
Theorem C81_returns : forall malloc sn2nid d2i d2o solve w o, exec malloc sn2nid d2i d2o solve w o = Loop ->
  (exists c k fuel src, o = Keygen c k fuel src) \/ (exists k fuel tbs src, o = Sign k fuel tbs src).
Proof. exact exec_loop. Qed.
Print Assumptions C81_returns.
(** When all contexts and keys have been freed no memory is left, provided no encoding of a
    private key failed. *)
Theorem C81_freed : forall malloc sn2nid d2i d2o solve, allocator malloc -> forall l ans w,
  run malloc sn2nid d2i d2o solve world0 l = Ret (ans, w) ->
  (forall c, s_ctx (follow sn2nid d2i d2o solve state0 l ans) c = None) -> (forall k, s_key (follow sn2nid d2i d2o solve state0 l ans) k = None) ->
  (forall k, ~ In (PrivEncode k, Bool false) (combine l ans)) -> fst (w_mem w) = [].
Proof. exact history_memory. Qed.
Print Assumptions C81_freed.
(** Setting the EC_KEY or the S-box of a key releases exactly what it replaces; freeing a key
    releases exactly what it owns. *)
Theorem C81_set : forall key e s e' s' F h n, Permutation h (key_cells key e s ++ ec_cells e' ++ sbox_cells s' ++ F) -> NoDup (map fst h) ->
  exists h' n', key_set key (option_map fst e') (option_map fst s') (h, n) = Ret (tt, (h', n')) /\
    Permutation h' (key_cells key (or_else e' e) (match s' with Some _ => s' | None => s end) ++ F).
Proof. exact set_replaces. Qed.
Print Assumptions C81_set.
Theorem C81_key_free : forall key e s F h n, Permutation h (key_cells key e s ++ F) -> NoDup (map fst h) ->
  exists h' n', key_free (Some key) (h, n) = Ret (tt, (h', n')) /\ Permutation h' F.
Proof. exact free_frees. Qed.
Print Assumptions C81_key_free.
Example C81_set_ex : let e := ECKEY None None None in let h := [(1, OKey (Ptr (Some 2)) (Ptr (Some 3))); (2, OEc e); (3, OSbox zeros64); (4, OEc e); (5, OSbox zeros64)]%nat in
  NoDup (map fst h) /\ h = key_cells 1 (2%nat, e) (Some (3%nat, zeros64)) ++ ec_cells (Some (4%nat, e)) ++ sbox_cells (Some (5%nat, zeros64)) ++ [] /\
  key_set 1 (Some 4%nat) (Some 5%nat) (h, 0%nat) = Ret (tt, ([(1, OKey (Ptr (Some 4)) (Ptr (Some 5))); (4, OEc e); (5, OSbox zeros64)]%nat, 0%nat)).
Proof. split; [repeat constructor; cbn; intuition discriminate|]. split; reflexivity. Qed.
(** C81 does not hold: encoding a key that has parameters but no private number leaks the encoded
    parameters (ameth.c:299-313), once per call. *)
Theorem C81_leak_refuted : forall malloc sn2nid d2i d2o solve, allocator malloc -> forall type der key prm n, never_fails malloc ->
  is_dstu type = true -> param_decode d2i solve type der = Some key -> param_encode (PKEY type (Some key)) = Ok prm ->
  exists ans w, run malloc sn2nid d2i d2o solve world0 (ParamDecode 0 type der :: repeat (PrivEncode 0) n ++ [KeyFree 0]) = Ret (ans, w) /\
    w_ctx w = [] /\ w_key w = [] /\ length (fst (w_mem w)) = n.
Proof. exact leak. Qed.
Print Assumptions C81_leak_refuted.
Example C81_ex : is_dstu 1159%Z = true /\ param_decode d2i_params solve_quad 1159%Z toy_params = Some (toy_dkey None) /\
  param_encode (PKEY 1159%Z (Some (toy_dkey None))) = Ok toy_params /\
  option_map (@length _) (memory_of (toy_run (ParamDecode 0 1159%Z toy_params :: repeat (PrivEncode 0) 7 ++ [KeyFree 0]))) = Some 7%nat.
Proof. vm_compute. repeat split. Qed.
Example C81_legal_ex : let s := follow unknown_name d2i_params d2i_octets solve_quad state0 (firstn 5 story) [Bool true; Bool true; Bool true; Bool true; Bool false] in
  legal (never_fails plenty) s (Keygen 0 0 9 fives) /\ legal (never_fails plenty) s (CtxDup 2 0) /\ legal (never_fails plenty) s (Ctrl 1 4097%Z 64 (ABytes zeros64)).
Proof.
  split; [discriminate|]. split; [split; [reflexivity|discriminate]|]. split; [discriminate|]. split; [intros _; right; right; exists zeros64; split; [reflexivity|apply le_n]|]. split; intros X; discriminate X.
Qed.

(** C84: with too little memory a call fails and changes nothing.  It does not hold of encoding:
    once memory is exhausted, encoding the parameters of any key that has a curve writes through
    NULL, because the result of DSTU_AlgorithmParameters_new is not checked (key.c:80-99). *)
Theorem C84_crash_refuted : forall malloc sn2nid d2i d2o solve, allocator malloc -> forall l ans w k t key g,
  run malloc sn2nid d2i d2o solve world0 l = Ret (ans, w) -> s_key (follow sn2nid d2i d2o solve state0 l ans) k = Some (PKEY t (Some key)) -> ek_group (dk_ec key) = Some g ->
  exec (fun _ _ => None) sn2nid d2i d2o solve w (ParamEncode k) = Undef.
Proof. exact encode_crash. Qed.
Print Assumptions C84_crash_refuted.
(** And one failing allocation makes the encoding of a private key succeed without parameters:
    the receiver cannot use it. *)
Theorem C84_degraded_refuted : exists ok, allocator (some_malloc ok) /\
  answers_of (run (some_malloc ok) unknown_name d2i_params d2i_octets solve_quad world0 [PrivDecode 0 (KEYINFO (ALGOR 1158%Z (Some toy_params)) [5]); PrivEncode 0]) =
    Some [Bool true; Info (KEYINFO (ALGOR 1158%Z None) [5])] /\
  priv_decode d2i_params solve_quad (KEYINFO (ALGOR 1158%Z None) [5]) = None.
Proof. exists (fun n => negb (Nat.eqb n 14)). split; [apply above_allocator|]. vm_compute. split; reflexivity. Qed.
Print Assumptions C84_degraded_refuted.
(** All other calls fail cleanly: they do not crash, and their answer is the one with enough memory
    or failure.  Only verification may answer otherwise, see Spec_Ctx.degraded. *)
Theorem C84_fails_cleanly : forall malloc sn2nid d2i d2o solve, allocator malloc -> forall l ans w o, run malloc sn2nid d2i d2o solve world0 l = Ret (ans, w) ->
  (forall k, o <> ParamEncode k /\ o <> PrivEncode k /\ o <> PubEncode k) -> legal True (follow sn2nid d2i d2o solve state0 l ans) o ->
  exec malloc sn2nid d2i d2o solve w o <> Undef /\
  forall a w', exec malloc sn2nid d2i d2o solve w o = Ret (a, w') ->
    option_map fst (success sn2nid d2i d2o solve (follow sn2nid d2i d2o solve state0 l ans) o) = Some a \/ a = Bool false \/ exists k sig tbs, o = Verify k sig tbs.
Proof. exact no_crash. Qed.
Print Assumptions C84_fails_cleanly.
(** Memory ends during a key generation: it fails, and what it had allocated is freed. *)
Example C84_ex : let m := some_malloc (fun n => (n <? 9)%nat) in allocator m /\
  forall w, run m unknown_name d2i_params d2i_octets solve_quad world0 (firstn 4 story) = Ret (repeat (Bool true) 4, w) ->
    match exec m unknown_name d2i_params d2i_octets solve_quad w (Keygen 1 0 9 fives) with Ret (a, w') => a = Bool false /\ fst (w_mem w') = fst (w_mem w) | _ => False end.
Proof. split; [apply above_allocator|]. intros w X. vm_compute in X. injection X as <-. vm_compute. split; reflexivity. Qed.

(** C85: a control call with a NULL argument is refused.  It does not hold of the digest: NULL is
    passed to EVP_MD_type, which dereferences it (pmeth.c:160). *)
Theorem C85_null_digest_refuted : forall malloc sn2nid d2i d2o solve, allocator malloc -> forall l ans w c o p1, run malloc sn2nid d2i d2o solve world0 l = Ret (ans, w) ->
  s_ctx (follow sn2nid d2i d2o solve state0 l ans) c = Some o -> exec malloc sn2nid d2i d2o solve w (Ctrl c 1%Z p1 ANull) = Undef.
Proof. exact null_digest. Qed.
Print Assumptions C85_null_digest_refuted.
(** Every other control call accepts NULL exactly if it takes no argument. *)
Theorem C85_null : forall malloc sn2nid d2i d2o solve, allocator malloc -> forall l ans w c o type p1, run malloc sn2nid d2i d2o solve world0 l = Ret (ans, w) ->
  s_ctx (follow sn2nid d2i d2o solve state0 l ans) c = Some o -> type <> 1%Z -> exists r w', exec malloc sn2nid d2i d2o solve w (Ctrl c type p1 ANull) = Ret (Bool r, w') /\
    (r = true <-> In type [3%Z; 4%Z; 5%Z; 7%Z; 11%Z]).
Proof. exact null_control. Qed.
Print Assumptions C85_null.
Example C85_ex : answers_of (toy_run (firstn 4 story ++ [Ctrl 0 4098%Z 0 ANull; Ctrl 0 7%Z 0 ANull])) = Some (repeat (Bool true) 4 ++ [Bool false; Bool true]) /\
  toy_run (firstn 4 story ++ [Ctrl 0 1%Z 0 ANull]) = Undef.
Proof. vm_compute. split; reflexivity. Qed.
