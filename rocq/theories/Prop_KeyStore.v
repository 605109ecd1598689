(** Properties of the key store container. *)
From Verif Require Import Base Model_KeyStore Spec_KeyStore Proof_KeyStore.
From Coq Require Import Permutation.

(** C54: every legal history runs without undefined behaviour and returns what the two-list
    description returns. *)
Theorem C54_two_lists : forall os, legal os -> exists h, krun heap0 os = Some (h, snd (sh_run sh0 os)).
Proof. exact store_lists. Qed.
Print Assumptions C54_two_lists.

Definition ex_hist : list kop :=
  [KNew 1 2 1; KNew 2 1 0; KSet Keys 1 0 10; KSet Keys 1 1 11; KSet Certs 1 0 10; KSet Keys 2 0 12;
   KAppend 2 1; KNum Keys 2; KGet Keys 2 0; KGet Keys 2 1; KGet Keys 2 2; KGet Keys 2 3; KGet Keys 1 0; KNum Keys 1; KGet Certs 2 0].
Example C54_ex : legal (ex_hist ++ [KFree 1; KFree 2]) /\
  skipn 7 (snd (sh_run sh0 ex_hist)) =
    [ONum 3; OCell (Ptr 12); OCell (Ptr 10); OCell (Ptr 11); OCell Null; OCell Null; ONum 2; OCell (Ptr 10)].
Proof.
  split; [|reflexivity]. split; [|split; cbn; repeat constructor; cbn; intuition discriminate].
  cbn. repeat (split; [first [reflexivity | discriminate | split; discriminate | eexists; split; [reflexivity|cbn; repeat constructor]]|]). exact I.
Qed.

(** C55: no object is released twice or while it is in a slot; and when slots are not
    overwritten, every object handed over is either released or in a slot, exactly once. *)
Theorem C55_released_once : forall os h outs, legal os -> krun heap0 os = Some (h, outs) ->
  forall d ids, covers (fst (sh_run sh0 os)) ids ->
    NoDup (freed d h ++ held d (fst (sh_run sh0 os)) ids) /\
    incl (freed d h ++ held d (fst (sh_run sh0 os)) ids) (handed d os) /\
    (tidy os -> Permutation (handed d os) (freed d h ++ held d (fst (sh_run sh0 os)) ids)).
Proof. exact store_accounts. Qed.
Print Assumptions C55_released_once.
(** When no store is left, every object has been released, exactly once. *)
Theorem C55_all_released : forall os h outs, legal os -> tidy os -> krun heap0 os = Some (h, outs) ->
  (forall i, fst (sh_run sh0 os) i = None) -> forall d, Permutation (handed d os) (freed d h).
Proof. exact all_released. Qed.
Print Assumptions C55_all_released.
Example C55_ex : tidy (ex_hist ++ [KFree 1; KFree 2]) /\ handed Keys (ex_hist ++ [KFree 1; KFree 2]) = [10; 11; 12]%nat /\
  (forall i, fst (sh_run sh0 (ex_hist ++ [KFree 1; KFree 2])) i = None) /\
  exists h outs, krun heap0 (ex_hist ++ [KFree 1; KFree 2]) = Some (h, outs) /\ freed Keys h = [12; 10; 11]%nat.
Proof.
  split; [|split; [reflexivity|split]].
  - cbn. repeat (split; [first [exact I | eexists; split; reflexivity]|]). exact I.
  - intros i. cbn. unfold shset. repeat (destruct (Nat.eqb i _); [reflexivity|]). reflexivity.
  - eexists. eexists. split; vm_compute; reflexivity.
Qed.
