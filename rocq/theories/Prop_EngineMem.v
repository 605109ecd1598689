(** Property C131: the engine's lookups when memory may run out. *)
From Coq Require Import ZArith Lia.
From Verif Require Import Base Model_Err Model_Engine Spec_Engine Spec_EngineMem Proof_Engine Proof_EngineMem.

(** C131 (refuted): whatever the allocator answers, a history of binds, inits and lookups that
    is defined gives only right answers, refusals of key methods, and - the first violation -
    claims of success with NULL; and a history is undefined only because of a bind or of a
    lookup of an encoding method that got no memory - the second. *)
Theorem C131_any_memory : forall malloc, malloc_fresh malloc -> forall next_lib ops, Forall before_finish ops ->
  match eng_run malloc next_lib eng0 ops with
  | Some (s, l) => exists addr, Forall2 (fun o a => right_answer (g_heap s) addr o a \/ wanted o <> None /\ ((algorithm_lookup o /\ empty_success a) \/ (key_lookup o /\ refused a))) ops l
  | None => exists pre o post s l, ops = pre ++ o :: post /\ eng_run malloc next_lib eng0 pre = Some (s, l) /\ eng_step malloc next_lib s o = None /\ fragile o /\
      (malloc (g_heap s) = None \/ exists p, malloc (g_heap s) = Some p /\ malloc ((p, MDigest) :: g_heap s) = None)
  end.
Proof. exact any_memory. Qed.
Print Assumptions C131_any_memory.
(** Both happen whenever the memory ends before the object is made: lookups claim success with NULL. *)
Theorem C131_null_success_refuted : forall malloc s nids, malloc (g_heap s) = None ->
  (g_md s = None -> digests malloc s true nids 1157 = (s, ANS 1 (Some None) None)) /\
  (g_cipher s = None -> ciphers malloc s true nids 1154 = (s, ANS 1 (Some None) None)).
Proof. intros malloc s nids H. split; intros H1; [apply digest_oom|apply cipher_oom]; assumption. Qed.
Print Assumptions C131_null_success_refuted.
(** The first lookup of an encoding method after any history writes through NULL. *)
Theorem C131_asn1_crash_refuted : forall malloc, malloc_fresh malloc -> forall next_lib ops s l nids n, Forall before_finish ops -> eng_run malloc next_lib eng0 ops = Some (s, l) ->
  (forall b, ~ In (GAsn1 true b n) ops) -> n = 1158%Z \/ n = 1159%Z -> malloc (g_heap s) = None -> eng_run malloc next_lib eng0 (ops ++ [GAsn1 true nids n]) = None.
Proof. exact asn1_oom. Qed.
Print Assumptions C131_asn1_crash_refuted.
(** A bind reads the digest through NULL. *)
Theorem C131_bind_crash_refuted : forall malloc next_lib s b, g_md s = None -> malloc (g_heap s) = None -> b_setup b = true -> bind malloc next_lib s true b = None.
Proof. exact bind_oom. Qed.
Print Assumptions C131_bind_crash_refuted.
(** An allocator with room for two objects: the key method is found, the digest too, then the
    cipher lookup claims success with NULL, the other key method is refused, what was made is
    still found, and the lookup of an encoding method crashes. *)
Definition two_only (h : mheap) : option nat := if (length h <? 2)%nat then Some (S (list_max (map fst h))) else None.
Definition short_ops : list eng_op := [GPkey true false 1159; GDigests true false 1157; GCiphers true false 1154; GPkey true false 1158; GDigests true true 1157].
Example C131_ex : Forall before_finish short_ops /\
  match eng_run two_only (fun _ => 128) eng0 short_ops with
  | None => False
  | Some (s, l) => map (fun a => (a_ret a, a_meth a)) l =
      [(1, Some (Some 1%nat)); (1, Some (Some 2%nat)); (1, Some None); (0, Some None); (1, Some (Some 2%nat))]%Z /\ two_only (g_heap s) = None
  end /\ eng_run two_only (fun _ => 128) eng0 (short_ops ++ [GAsn1 true false 1159]) = None.
Proof.
  split; [|split; [vm_compute; split; reflexivity|vm_compute; reflexivity]].
  unfold short_ops. repeat (apply Forall_cons; [first [exact I|left; reflexivity|right; reflexivity]|]). apply Forall_nil.
Qed.
(** That allocator never hands out memory in use. *)
Example C131_ex_fresh : malloc_fresh two_only.
Proof.
  intros h p E. unfold two_only in E. destruct (length h <? 2)%nat; [|discriminate]. injection E as <-. apply live_none. intros H.
  pose proof (proj1 (list_max_le (map fst h) (list_max (map fst h))) (le_n _)) as F. rewrite Forall_forall in F. specialize (F _ H). lia.
Qed.
