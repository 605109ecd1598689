(** C133: what the parameter-copying method of the keys does to memory. *)
From Coq Require Import ZArith Lia Permutation.
From Verif Require Import Base Model_Gf2m Model_Compress Model_Ec Model_Params Model_Curves Model_Sign Model_Asn1 Model_Pmeth Model_Key Model_Ameth Model_Ctx Spec_Ctx Spec_Copy Proof_Copy.

(** Between two different keys, whichever allocations fail, the copy ends in one of the listed
    outcomes; the source and everything else in memory are as before. *)
Theorem C133_copy malloc : allocator malloc -> forall tt ft tk te ts fk fe fs F h n,
  Permutation h (key_cells tk te ts ++ key_cells fk fe fs ++ F) -> NoDup (map fst h) ->
  exists ok T L h' n', h_param_copy malloc (tt, Some tk) (ft, Some fk) (h, n) = Ret ((ok, (tt, Some tk)), (h', n')) /\
    copied (never_fails malloc) tk te fe ts fs ok T L /\ Permutation h' (T ++ L ++ key_cells fk fe fs ++ F).
Proof. exact (param_copy_any malloc). Qed.
Print Assumptions C133_copy.

(** The same for an EVP_PKEY without a key: nothing is lost. *)
Theorem C133_new malloc : allocator malloc -> forall tt ft fk fe fs F h n,
  Permutation h (key_cells fk fe fs ++ F) -> NoDup (map fst h) ->
  exists ok to T h' n', h_param_copy malloc (tt, None) (ft, Some fk) (h, n) = Ret ((ok, to), (h', n')) /\
    copied_new (never_fails malloc) tt ft fe fs ok to T /\ Permutation h' (T ++ key_cells fk fe fs ++ F).
Proof. exact (param_copy_new malloc). Qed.
Print Assumptions C133_new.

(** An S-box of the target is lost whenever the source has one and memory does not run out. *)
Theorem C133_sbox_leak_refuted malloc : allocator malloc -> never_fails malloc -> forall tt ft tk te t fk fe s g F h n,
  Permutation h (key_cells tk te (Some t) ++ key_cells fk fe (Some s) ++ F) -> NoDup (map fst h) -> ek_group (snd fe) = Some g ->
  exists p h' n', h_param_copy malloc (tt, Some tk) (ft, Some fk) (h, n) = Ret ((true, (tt, Some tk)), (h', n')) /\
    Permutation h' (key_cells tk (with_group te (Some g)) (Some (p, snd s)) ++ sbox_cells (Some t) ++ key_cells fk fe (Some s) ++ F).
Proof. exact (param_copy_leaks malloc). Qed.
Print Assumptions C133_sbox_leak_refuted.

(** When the first allocation fails the target has lost its own group. *)
Theorem C133_group_lost_refuted malloc : allocator malloc -> forall tt ft tk te ts fk fe fs g F h n,
  Permutation h (key_cells tk te ts ++ key_cells fk fe fs ++ F) -> NoDup (map fst h) -> ek_group (snd fe) = Some g ->
  malloc n h = None ->
  exists h' n', h_param_copy malloc (tt, Some tk) (ft, Some fk) (h, n) = Ret ((false, (tt, Some tk)), (h', n')) /\
    Permutation h' (key_cells tk (with_group te None) ts ++ key_cells fk fe fs ++ F).
Proof. exact (param_copy_loses malloc). Qed.
Print Assumptions C133_group_lost_refuted.

(** Copying a key to itself is undefined. *)
Theorem C133_self_refuted malloc : allocator malloc -> forall t t' k e s g F h n,
  Permutation h (key_cells k e s ++ F) -> NoDup (map fst h) -> ek_group (snd e) = Some g ->
  h_param_copy malloc (t, Some k) (t', Some k) (h, n) = Undef.
Proof. exact (param_copy_self malloc). Qed.
Print Assumptions C133_self_refuted.

(** Memory with a key on one curve and its S-box, and a key on another curve with an S-box of
    its own: the copy with enough memory, with none, and without memory for the S-box. *)
Definition first_free (fails : nat -> bool) (n : nat) (h : heap) : option nat := if fails n then None else Some (S (fold_right Nat.max 0%nat (map fst h))).
Definition two_keys (g g' : egroup) : heap :=
  key_cells 1 (2%nat, ECKEY (Some g) (Some 5) None) (Some (3%nat, [7%N])) ++ key_cells 4 (5%nat, ECKEY (Some g') None None) (Some (6%nat, [9%N])).
Example C133_ex : forall g g', NoDup (map fst (two_keys g g')) /\
  h_param_copy (first_free (fun _ => false)) (1%Z, Some 1%nat) (1%Z, Some 4%nat) (two_keys g g', 0%nat) =
    Ret ((true, (1%Z, Some 1%nat)), ([(7, OSbox [9%N]); (1, OKey (Ptr (Some 2)) (Ptr (Some 7))); (2, OEc (ECKEY (Some g') (Some 5%N) None)); (3, OSbox [7%N]);
      (4, OKey (Ptr (Some 5)) (Ptr (Some 6))); (5, OEc (ECKEY (Some g') None None)); (6, OSbox [9%N])]%nat, 2%nat)) /\
  h_param_copy (first_free (fun _ => true)) (1%Z, Some 1%nat) (1%Z, Some 4%nat) (two_keys g g', 0%nat) =
    Ret ((false, (1%Z, Some 1%nat)), (key_cells 1 (2%nat, ECKEY None (Some 5) None) (Some (3%nat, [7%N])) ++ key_cells 4 (5%nat, ECKEY (Some g') None None) (Some (6%nat, [9%N])), 1%nat)) /\
  h_param_copy (first_free (Nat.eqb 1)) (1%Z, Some 1%nat) (1%Z, Some 4%nat) (two_keys g g', 0%nat) =
    Ret ((false, (1%Z, Some 1%nat)), ([(1, OKey (Ptr (Some 2)) (Ptr None)); (2, OEc (ECKEY (Some g') (Some 5%N) None)); (3, OSbox [7%N]);
      (4, OKey (Ptr (Some 5)) (Ptr (Some 6))); (5, OEc (ECKEY (Some g') None None)); (6, OSbox [9%N])]%nat, 2%nat)) /\
  h_param_copy (first_free (Nat.eqb 0)) (1%Z, None) (2%Z, Some 4%nat) (two_keys g g', 0%nat) = Ret ((false, (2%Z, None)), (two_keys g g', 2%nat)).
Proof. intros g g'. split; [repeat constructor; cbn; intuition discriminate|]. repeat split. Qed.
