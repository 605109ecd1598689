(** DSTU_KEY_set and DSTU_KEY_free on their own. *)
From Coq Require Import ZArith List Permutation.
Import ListNotations.
From Verif Require Import Base Model_Compress Model_Ec Model_Params Model_Curves Model_Sign Model_Asn1 Model_Pmeth Model_Key Model_Ameth Model_Ctx Spec_Ctx Proof_Ctx Proof_Ctx6.

Lemma set_replaces : forall key e s e' s' F h n, Permutation h (key_cells key e s ++ ec_cells e' ++ sbox_cells s' ++ F) -> NoDup (map fst h) ->
  exists h' n', key_set key (option_map fst e') (option_map fst s') (h, n) = Ret (tt, (h', n')) /\
    Permutation h' (key_cells key (or_else e' e) (match s' with Some _ => s' | None => s end) ++ F).
Proof.
  intros key [e ev] s e' s' F h n P ND.
  set (post := fun (_ : unit) h' => Permutation h' (key_cells key (or_else e' (e, ev)) (match s' with Some _ => s' | None => s end))).
  assert (HA : allocator (fun _ _ => None)) by (intros ? ? ? X; discriminate X).
  assert (W : wpu False (key_set key (option_map fst e') (option_map fst s')) post (key_cells key (e, ev) s ++ ec_cells e' ++ sbox_cells s')).
  { unfold post. destruct s as [[s sv]|], e' as [[e' ev']|], s' as [[s' sv']|]; unfold key_set, key_cells, ec_cells, sbox_cells, or_else; cbn; wps HA; cbn; wps HA; cbn; try perm. }
  destruct (W h n F) as [E|[([] & _)|(a & h' & n' & Q & E & HQ & P' & _)]].
  - rewrite <- !app_assoc. exact P.
  - exact ND.
  - exfalso. assert (NL : noloop (key_set key (option_map fst e') (option_map fst s'))) by nl. exact (NL _ _ E).
  - exists h', n'. destruct a. split; [exact E|]. eapply perm_trans; [exact P'|]. apply Permutation_app_tail. exact HQ.
Qed.
Lemma free_frees : forall key e s F h n, Permutation h (key_cells key e s ++ F) -> NoDup (map fst h) ->
  exists h' n', key_free (Some key) (h, n) = Ret (tt, (h', n')) /\ Permutation h' F.
Proof.
  intros key [e ev] s F h n P ND. assert (HA : allocator (fun _ _ => None)) by (intros ? ? ? X; discriminate X).
  assert (W : wpu False (key_free (Some key)) (fun _ h' => h' = []) (key_cells key (e, ev) s)).
  { destruct s as [[s sv]|]; unfold key_free, key_cells, ec_cells, sbox_cells; cbn; wps HA; cbn; wps HA; reflexivity. }
  destruct (W h n F P ND) as [E|[([] & _)|(a & h' & n' & Q & E & HQ & P' & _)]].
  - exfalso. assert (NL : noloop (key_free (Some key))) by nl. exact (NL _ _ E).
  - exists h', n'. destruct a. subst Q. split; [exact E|exact P'].
Qed.
