(** Copying parameters from key to key in memory (engine/ameth.c). *)
From Coq Require Import ZArith Lia Permutation.
From Verif Require Import Base Model_Gf2m Model_Compress Model_Ec Model_Params Model_Curves Model_Sign Model_Asn1 Model_Pmeth Model_Key Model_Ameth Model_Ctx Spec_Ctx Spec_Copy Proof_Ctx Proof_Ctx5 Proof_Ctx6 Proof_Ctx7 Proof_Ctx8.

Lemma wp_apart U A (m : M A) post pre p o q o' rest1 rest : Permutation pre ((p, o) :: rest1) -> Permutation rest1 ((q, o') :: rest) -> (Nat.eqb p q = false -> wpu U m post pre) -> wpu U m post pre.
Proof.
  intros PA PB H h n F P1 ND. assert (P := perm_trans PA (perm_skip (p, o) PB)). apply H; [|exact P1|exact ND]. apply Nat.eqb_neq. intros ->.
  assert (P2 : Permutation (map fst h) (map fst (((q, o) :: (q, o') :: rest) ++ F))) by (apply Permutation_map; eapply perm_trans; [exact P1|apply Permutation_app_tail; exact P]).
  apply (Permutation_NoDup P2) in ND. cbn in ND. inversion ND as [|? ? X Y]. apply X. left. reflexivity.
Qed.
Ltac apart := match goal with |- wpu _ (if Nat.eqb ?a ?b then _ else _) _ _ => let D := fresh "D" in eapply (wp_apart _ _ _ _ _ a _ b); [cell|cell|intros D; rewrite D] end.
Ltac wpk HA := repeat (cbn [app fst snd option_map negb key_ec]; first [wps1 HA | apart | match goal with |- wpu _ (bindM (key_new _) _) _ _ => apply wp_bind | |- wpu _ (key_ec _) _ _ => unf | |- wpu _ (assign _ _ _ _) _ _ => unf | |- wpu _ (pkey_free _) _ _ => unf; cbn | |- wpu _ (key_free _) _ _ => unf; cbn | |- wpu _ (key_new _) _ _ => unf end]); cbn [app fst snd option_map negb].
Ltac cpd c := solve [eexists _, _; split; [eapply c; eauto; fail|split; [reflexivity|unfold key_cells, ec_cells, sbox_cells, with_group; cbn; perm]]].
Ltac cpn c := solve [eexists; split; [eapply c; eauto; fail|unfold key_cells, ec_cells, sbox_cells; cbn; perm]].
Lemma copy_wp malloc : allocator malloc -> forall tt ft tk te ts fk fe fs,
  wpu False (h_param_copy malloc (tt, Some tk) (ft, Some fk))
    (fun r Q => exists T L, copied (never_fails malloc) tk te fe ts fs (fst r) T L /\ snd r = (tt, Some tk) /\ Permutation Q (T ++ L ++ key_cells fk fe fs))
    (key_cells tk te ts ++ key_cells fk fe fs).
Proof.
  intros HA tt ft tk [te tev] ts fk [fe fev] fs. unfold h_param_copy. cbn [snd fst].
  destruct ts as [[ts tsv]|], fs as [[fs fsv]|]; unfold key_cells, ec_cells, sbox_cells; cbn [fst snd option_map app]; wpk HA;
    (destruct (ek_group fev) as [g|] eqn:G; wpk HA).
  all: first [cpd no_group | cpd group_lost | cpd no_sbox | cpd sbox_lost | cpd both].
Qed.
Lemma copy_new_wp malloc : allocator malloc -> forall tt ft fk fe fs,
  wpu False (h_param_copy malloc (tt, None) (ft, Some fk))
    (fun r Q => exists T, copied_new (never_fails malloc) tt ft fe fs (fst r) (snd r) T /\ Permutation Q (T ++ key_cells fk fe fs))
    (key_cells fk fe fs).
Proof.
  intros HA tt ft fk [fe fev] fs. unfold h_param_copy. cbn [snd fst].
  destruct fs as [[fs fsv]|]; unfold key_cells, ec_cells, sbox_cells; cbn [fst snd option_map app]; wpk HA;
    (destruct (ek_group fev) as [g|] eqn:G; wpk HA).
  all: first [cpn new_no_group | cpn new_none | cpn new_without | cpn new_no_sbox | cpn new_sbox_lost | cpn new_both].
Qed.

Theorem param_copy_any malloc : allocator malloc -> forall tt ft tk te ts fk fe fs F h n,
  Permutation h (key_cells tk te ts ++ key_cells fk fe fs ++ F) -> NoDup (map fst h) ->
  exists ok T L h' n', h_param_copy malloc (tt, Some tk) (ft, Some fk) (h, n) = Ret ((ok, (tt, Some tk)), (h', n')) /\
    copied (never_fails malloc) tk te fe ts fs ok T L /\ Permutation h' (T ++ L ++ key_cells fk fe fs ++ F).
Proof.
  intros HA tt ft tk te ts fk fe fs F h n P ND. rewrite app_assoc in P.
  destruct (copy_wp malloc HA tt ft tk te ts fk fe fs h n F P ND) as [E|[([] & _)|(a & h' & n' & Q & E & (T & L & HC & Ha & HP) & P' & _)]].
  - exfalso. assert (NL : noloop (h_param_copy malloc (tt, Some tk) (ft, Some fk))) by nl. exact (NL _ _ E).
  - destruct a as [ok to]. cbn [fst snd] in *. subst to. exists ok, T, L, h', n'. split; [exact E|]. split; [exact HC|].
    rewrite !app_assoc in *. eapply perm_trans; [exact P'|]. apply Permutation_app_tail. exact HP.
Qed.
Theorem param_copy_new malloc : allocator malloc -> forall tt ft fk fe fs F h n,
  Permutation h (key_cells fk fe fs ++ F) -> NoDup (map fst h) ->
  exists ok to T h' n', h_param_copy malloc (tt, None) (ft, Some fk) (h, n) = Ret ((ok, to), (h', n')) /\
    copied_new (never_fails malloc) tt ft fe fs ok to T /\ Permutation h' (T ++ key_cells fk fe fs ++ F).
Proof.
  intros HA tt ft fk fe fs F h n P ND.
  destruct (copy_new_wp malloc HA tt ft fk fe fs h n F P ND) as [E|[([] & _)|(a & h' & n' & Q & E & (T & HC & HP) & P' & _)]].
  - exfalso. assert (NL : noloop (h_param_copy malloc (tt, None) (ft, Some fk))) by nl. exact (NL _ _ E).
  - destruct a as [ok to]. cbn [fst snd] in *. exists ok, to, T, h', n'. split; [exact E|]. split; [exact HC|].
    rewrite !app_assoc in *. eapply perm_trans; [exact P'|]. apply Permutation_app_tail. exact HP.
Qed.
Theorem param_copy_nothing malloc : forall to ft h n, h_param_copy malloc to (ft, None) (h, n) = Ret ((false, to), (h, n)).
Proof. reflexivity. Qed.

Theorem param_copy_leaks malloc : allocator malloc -> never_fails malloc -> forall tt ft tk te t fk fe s g F h n,
  Permutation h (key_cells tk te (Some t) ++ key_cells fk fe (Some s) ++ F) -> NoDup (map fst h) -> ek_group (snd fe) = Some g ->
  exists p h' n', h_param_copy malloc (tt, Some tk) (ft, Some fk) (h, n) = Ret ((true, (tt, Some tk)), (h', n')) /\
    Permutation h' (key_cells tk (with_group te (Some g)) (Some (p, snd s)) ++ sbox_cells (Some t) ++ key_cells fk fe (Some s) ++ F).
Proof.
  intros HA NF tt ft tk te t fk fe s g F h n P ND G.
  destruct (param_copy_any malloc HA tt ft tk te (Some t) fk fe (Some s) F h n P ND) as (ok & T & L & h' & n' & E & HC & P').
  inversion HC; subst; try congruence; try contradiction.
  match goal with H : Some _ = Some _ |- _ => injection H as <- end.
  assert (g0 = g) by congruence. subst g0. exists p, h', n'. auto.
Qed.
Lemma cell_live h pre p o rest : Permutation h pre -> NoDup (map fst h) -> Permutation pre ((p, o) :: rest) -> live h p = Some o.
Proof. intros P ND Q. apply (wp_live pre p o rest h [] Q); [rewrite app_nil_r; exact P|exact ND]. Qed.
Theorem param_copy_loses malloc : allocator malloc -> forall tt ft tk te ts fk fe fs g F h n,
  Permutation h (key_cells tk te ts ++ key_cells fk fe fs ++ F) -> NoDup (map fst h) -> ek_group (snd fe) = Some g ->
  malloc n h = None ->
  exists h' n', h_param_copy malloc (tt, Some tk) (ft, Some fk) (h, n) = Ret ((false, (tt, Some tk)), (h', n')) /\
    Permutation h' (key_cells tk (with_group te None) ts ++ key_cells fk fe fs ++ F).
Proof.
  intros HA tt ft tk [te tev] ts fk [fe fev] fs g F h n P ND G MN. cbn [snd] in G.
  assert (P1 := P). rewrite app_assoc in P1. unfold key_cells, ec_cells in P1. cbn [fst snd app] in P1.
  assert (L1 : live h tk = Some (OKey (Ptr (Some te)) (Ptr (option_map fst ts)))) by (eapply (cell_live _ _ _ _ _ P1 ND); cell).
  assert (L2 : live h te = Some (OEc tev)) by (eapply (cell_live _ _ _ _ _ P1 ND); cell).
  assert (P2 : Permutation h (((fk, OKey (Ptr (Some fe)) (Ptr (option_map fst fs))) :: (fe, OEc fev) :: sbox_cells fs) ++ (key_cells tk (te, tev) ts ++ F))).
  { eapply perm_trans; [exact P|]. rewrite !app_assoc. apply Permutation_app_tail. eapply perm_trans; [apply Permutation_app_comm|]. apply Permutation_refl. }
  assert (L3 : live h fk = Some (OKey (Ptr (Some fe)) (Ptr (option_map fst fs)))) by (eapply (cell_live _ _ _ _ _ P2 ND); cell).
  assert (L4 : live h fe = Some (OEc fev)) by (eapply (cell_live _ _ _ _ _ P2 ND); cell).
  assert (NE : Nat.eqb te fe = false).
  { apply Nat.eqb_neq. intros <-.
    assert (X : Permutation (map fst h) (te :: te :: map fst (((tk, OKey (Ptr (Some te)) (Ptr (option_map fst ts))) :: sbox_cells ts) ++ ((fk, OKey (Ptr (Some te)) (Ptr (option_map fst fs))) :: sbox_cells fs) ++ F))).
    { change (te :: te :: map fst ?l) with (map fst ((te, OEc tev) :: (te, OEc fev) :: l)). apply Permutation_map. eapply perm_trans; [exact P|].
      unfold key_cells, ec_cells. cbn [fst snd app]. destruct ts as [[]|], fs as [[]|]; cbn [sbox_cells app option_map fst]; perm. }
    apply (Permutation_NoDup X) in ND. inversion ND as [|? ? Y _]. apply Y. left. reflexivity. }
  set (R := ((tk, OKey (Ptr (Some te)) (Ptr (option_map fst ts))) :: sbox_cells ts) ++ key_cells fk (fe, fev) fs ++ F).
  assert (PR : Permutation h ((te, OEc tev) :: R)).
  { eapply perm_trans; [exact P|]. unfold R, key_cells, ec_cells. cbn [fst snd app]. destruct ts as [[]|], fs as [[]|]; cbn [sbox_cells app option_map fst]; perm. }
  exists (store h te (OEc (ECKEY None (ek_priv tev) (ek_pub tev)))), (S n). split.
  - unfold h_param_copy, key_ec, get_key, get_ec, bindM, get, ret, deref, rd. cbn. rewrite L3; cbn. rewrite L4; cbn. rewrite G; cbn. rewrite L1; cbn. rewrite NE; cbn.
    unfold set_group, get_ec, bindM, get, ret, try, put. rewrite L2; cbn. rewrite MN; cbn. rewrite L2. reflexivity.
  - eapply perm_trans; [apply (store_perm _ _ _ _ L2)|].
    assert (PQ : Permutation (release h te) R) by (apply (Permutation_cons_inv (a := (te, OEc tev))); eapply perm_trans; [apply Permutation_sym, release_perm; exact L2|exact PR]).
    eapply perm_trans; [apply perm_skip; exact PQ|]. unfold R, key_cells, ec_cells, with_group. cbn [fst snd app]. destruct ts as [[]|], fs as [[]|]; cbn [sbox_cells app option_map fst]; perm.
Qed.
Theorem param_copy_self malloc : allocator malloc -> forall t t' k e s g F h n,
  Permutation h (key_cells k e s ++ F) -> NoDup (map fst h) -> ek_group (snd e) = Some g ->
  h_param_copy malloc (t, Some k) (t', Some k) (h, n) = Undef.
Proof.
  intros HA t t' k [e ev] s g F h n P ND G. cbn [snd] in G. unfold key_cells, ec_cells in P. cbn [fst snd app] in P.
  assert (L1 : live h k = Some (OKey (Ptr (Some e)) (Ptr (option_map fst s)))) by (eapply (cell_live _ _ _ _ _ P ND); cell).
  assert (L2 : live h e = Some (OEc ev)) by (eapply (cell_live _ _ _ _ _ P ND); cell).
  unfold h_param_copy, key_ec, get_key, get_ec, bindM, get, ret, deref, rd. cbn. rewrite L1; cbn. rewrite L2; cbn. rewrite G; cbn. rewrite L1; cbn. rewrite Nat.eqb_refl. reflexivity.
Qed.
