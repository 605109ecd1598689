(** Properties C71-C73: the engine's lookups, finish, and concurrent lookups. *)
From Coq Require Import ZArith Lia.
From Verif Require Import Base Model_Err Model_Engine Spec_Engine Proof_Engine.

(** C71: every history of binds, inits and lookups is defined; each advertised identifier
    gets its method, always at the same place and alive for the whole history; other
    identifiers are refused; lists are the advertised ones. *)
Theorem C71_lookups : forall malloc, malloc_good malloc -> forall next_lib ops, Forall before_finish ops ->
  exists s l addr, eng_run malloc next_lib eng0 ops = Some (s, l) /\ Forall2 (right_answer (g_heap s) addr) ops l.
Proof. exact lookups_ok. Qed.
Print Assumptions C71_lookups.
(** Binding reports success exactly if the name is the engine's and every registration succeeded. *)
Theorem C71_bind : forall malloc next_lib s id_ok b s' r, bind malloc next_lib s id_ok b = Some (s', r) ->
  r = (if id_ok && b_setup b && b_digest b && b_cipher b && b_pbe b then 1 else 0)%Z.
Proof. exact bind_reports. Qed.
Print Assumptions C71_bind.
Example C71_ex_bind : (exists s', bind (fun h => Some (length h)) (fun n => 128 + N.of_nat n) eng0 true (BENV true true false true) = Some (s', 0%Z)) /\
  exists s', bind (fun h => Some (length h)) (fun n => 128 + N.of_nat n) eng0 true (BENV true true true true) = Some (s', 1%Z).
Proof. split; eexists; vm_compute; reflexivity. Qed.
(** Without memory the digest lookup reports success with a NULL method (refuted). *)
Theorem C71_no_memory_refuted : forall malloc s nids, g_md s = None -> malloc (g_heap s) = None ->
  digests malloc s true nids 1157 = (s, ANS 1 (Some None) None).
Proof. exact digest_oom. Qed.
Print Assumptions C71_no_memory_refuted.
Definition ex_malloc (h : mheap) : option nat := Some (S (list_max (map fst h))).
Lemma ex_malloc_good : malloc_good ex_malloc.
Proof.
  intros h. eexists. split; [reflexivity|]. apply live_none. intros H.
  pose proof (proj1 (list_max_le (map fst h) (list_max (map fst h))) (le_n _)) as F. rewrite Forall_forall in F. specialize (F _ H). lia.
Qed.
Definition ex_ops : list eng_op :=
  [GPkey true false 1159; good_bind; GDigests false true 0; GDigests true false 1157; GDigests true true 1158; GCiphers true false 1154;
   GPkey false true 0; GPkey true false 1159; GPkey true false 1157; GAsn1 true true 1158; GAsn1 true true 1159; GDigests true false 1157].
Example C71_ex : Forall before_finish ex_ops /\
  match eng_run ex_malloc (fun n => 128 + N.of_nat n) eng0 ex_ops with
  | None => False
  | Some (s, l) => map (fun a => (a_ret a, a_meth a)) l =
      [(1, Some (Some 1%nat)); (1, None); (1, None); (1, Some (Some 2%nat)); (0, None); (1, Some (Some 3%nat)); (2, None); (1, Some (Some 1%nat)); (0, Some None);
       (1, Some (Some 4%nat)); (1, Some (Some 5%nat)); (1, Some (Some 2%nat))]%Z
  end.
Proof.
  split; [|vm_compute; reflexivity].
  unfold ex_ops. repeat (apply Forall_cons; [first [exact I|left; reflexivity|right; reflexivity]|]). apply Forall_nil.
Qed.
Example C71_ex_memory : digests (fun _ => None) eng0 true false 1157 = (eng0, ANS 1 (Some None) None).
Proof. reflexivity. Qed.

(** C72 (refuted): up to and including the first finish everything is defined ... *)
Theorem C72_until_finish : forall malloc, malloc_good malloc -> forall next_lib ops, Forall before_finish ops ->
  exists s l, eng_run malloc next_lib eng0 ops = Some (s, l) /\
  (forall a p, In a l -> a_meth a = Some (Some p) -> eng_step malloc next_lib s (GUse p) <> None) /\
  eng_step malloc next_lib s GFinish <> None.
Proof. exact until_finish. Qed.
Print Assumptions C72_until_finish.
(** ... but whenever the engine was bound before, after it: finishing again frees twice,
    binding again reads freed memory, and a digest lookup hands out a freed object. *)
Theorem C72_after_finish_refuted : forall malloc, malloc_good malloc -> forall next_lib ops b, Forall before_finish ops -> In good_bind ops -> b_setup b = true ->
  eng_run malloc next_lib eng0 (ops ++ [GFinish]) <> None /\
  eng_run malloc next_lib eng0 (ops ++ [GFinish; GFinish]) = None /\
  eng_run malloc next_lib eng0 (ops ++ [GFinish; GBind true b]) = None /\
  exists s l p, eng_run malloc next_lib eng0 (ops ++ [GFinish; GDigests true false 1157]) = Some (s, l ++ [ANS 1 (Some (Some p)) None]) /\ live (g_heap s) p = None.
Proof. exact bind_then_finish. Qed.
Print Assumptions C72_after_finish_refuted.
(** Once OpenSSL has destroyed the engine object (it frees the key methods it looks up), the
    engine still hands out the freed key methods, and a second destruction frees them again. *)
Theorem C72_after_destroy_refuted : forall malloc, malloc_good malloc -> forall next_lib ops n, Forall before_finish ops -> n = 1158%Z \/ n = 1159%Z ->
  eng_run malloc next_lib eng0 (ops ++ [GDestroy; GDestroy]) = None /\
  (exists s l p, eng_run malloc next_lib eng0 (ops ++ [GDestroy; GPkey true false n]) = Some (s, l ++ [ANS 1 (Some (Some p)) None]) /\ live (g_heap s) p = None) /\
  (exists s l p, eng_run malloc next_lib eng0 (ops ++ [GDestroy; GAsn1 true false n]) = Some (s, l ++ [ANS 1 (Some (Some p)) None]) /\ live (g_heap s) p = None).
Proof. exact after_destroy. Qed.
Print Assumptions C72_after_destroy_refuted.
Example C72_ex : malloc_good ex_malloc /\ Forall before_finish [good_bind] /\
  eng_run ex_malloc (fun _ => 128) eng0 [good_bind; GFinish; GFinish] = None /\
  eng_run ex_malloc (fun _ => 128) eng0 [good_bind; GPkey true false 1158; GFinish; GDestroy] <> None.
Proof. split; [exact ex_malloc_good|]. split; [repeat (apply Forall_cons; [cbn; auto|]); apply Forall_nil|]. split; [vm_compute; reflexivity|vm_compute; discriminate]. Qed.

(** C73 (refuted): any two threads can get different objects for the same identifier; the
    schedule alternates them through the test of the empty slot. *)
Theorem C73_race_refuted : forall i j n, i <> j -> let w := lrun (lstart None n) [i; j; i; j; i; i; j; j] in
  lw_pc w i = LDone (Some n) /\ lw_pc w j = LDone (Some (S n)) /\ lw_slot w = Some (S n).
Proof. exact race. Qed.
Print Assumptions C73_race_refuted.
(** Once a first lookup has filled the slot all threads get that object, for any schedule. *)
Theorem C73_after_first : forall i sched p n q, lw_pc (lrun (lstart (Some p) n) sched) i = LDone q -> q = Some p.
Proof. exact single_done. Qed.
Print Assumptions C73_after_first.
Example C73_ex : let w := lrun (lstart (Some 4%nat) 5) [0; 1; 2; 0; 2; 1; 1]%nat in lw_pc w 0%nat = LDone (Some 4%nat) /\ lw_pc w 1%nat = LDone (Some 4%nat) /\ lw_nobj w = 5%nat.
Proof. repeat split. Qed.
