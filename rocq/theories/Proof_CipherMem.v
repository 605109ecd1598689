(** Storing cipher parameters when memory may run out. *)
From Coq Require Import List Lia Permutation ZArith.
Import ListNotations.
From Verif Require Import Base Lib Model_Gost89 Model_Params Model_Cipher Model_Kmem Model_CipherMem Spec_Kmem Spec_CipherMem Proof_Kmem Proof_Kmem2 Proof_Kmem4.

Section M.
Variable malloc : nat -> kheap -> option nat.
Hypothesis HA : kallocator malloc.
Lemma set_tri c stale a F : tri 0 False False (h_set_asn1 malloc c stale a) (cells a ++ F)
  (fun r F' => (fst r = 1%Z /\ exists s d, snd r = Some (set_asn1 c stale, (s, d)) /\ F' = (d, KTemp) :: (s, KTemp) :: F) \/ (fst r = (-1)%Z /\ snd r = a /\ F' = cells a ++ F /\ ~ full malloc 0)).
Proof.
  unfold h_set_asn1, h_type_set1, h_string_dup. repeat t1; try (right; auto; fail).
  destruct a as [[v [s0 d0]]|]; cbn [h_type_free cells app]; repeat t1; left; (split; [reflexivity|]); exists p, p0; split; reflexivity.
Qed.
Lemma set_run c stale a h F n : kheap_ok h -> Permutation (cells a ++ F) h ->
  match h_set_asn1 malloc c stale a (h, n) with
  | KRet ((1%Z, Some (v, (s, d))), (h', _)) => v = set_asn1 c stale /\ Permutation ((d, KTemp) :: (s, KTemp) :: F) h'
  | KRet (((-1)%Z, a'), (h', _)) => a' = a /\ Permutation h h' /\ ~ kenough malloc
  | _ => False
  end.
Proof.
  intros Hh Hp. pose proof (set_tri c stale a F n h (Nat.le_0_l n) Hh (Permutation_sym Hp)) as T. destruct (h_set_asn1 malloc c stale a (h, n)) as [| |[[z a'] [h' n']]]; [exact T..|].
  destruct T as [_ [_ [F' [P [(E & s & d & E2 & ->)|(E & E2 & -> & E3)]]]]]; cbn [fst snd] in *; subst z a'.
  - split; [reflexivity|symmetry; exact P].
  - split; [reflexivity|]. split; [rewrite P, <- Hp; reflexivity|apply not_enough, E3].
Qed.
End M.
