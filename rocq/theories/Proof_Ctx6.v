(** Termination, and the memory that encoding a private key leaks. *)
From Coq Require Import ZArith Lia Permutation.
From Verif Require Import Base Lib Model_Gf2m Model_Compress Model_Ec Model_Params Model_Curves Model_Sign Model_Asn1 Model_Pmeth Model_Key Model_Ameth Model_Ctx Spec_Ctx Proof_Ctx Proof_Ctx2 Proof_Ctx3 Proof_Ctx4 Proof_Ctx5.

Definition noloop {A} (m : M A) : Prop := forall h n, m (h, n) <> Loop.
Lemma nl_ret : forall A (a : A), noloop (ret a).
Proof. discriminate. Qed.
Lemma nl_undef : forall A, noloop (@undef A).
Proof. discriminate. Qed.
Lemma nl_bind : forall A B (m : M A) (f : A -> M B), noloop m -> (forall a, noloop (f a)) -> noloop (bindM m f).
Proof. intros A B m f H K h n. unfold bindM. specialize (H h n). destruct (m (h, n)) as [| |[a [h' n']]]; [discriminate|contradiction|apply K]. Qed.
Lemma nl_get : forall p, noloop (get p).
Proof. intros p h n. cbn. destruct (live h p); discriminate. Qed.
Lemma nl_put : forall p o, noloop (put p o).
Proof. intros p o h n. cbn. destruct (live h p); discriminate. Qed.
Lemma nl_free : forall p, noloop (free p).
Proof. intros p h n. cbn. destruct (live h p); discriminate. Qed.
Lemma nl_new : forall malloc o, noloop (new malloc o).
Proof. intros malloc o h n. cbn. destruct (malloc n h); discriminate. Qed.
Lemma nl_try : forall malloc, noloop (try malloc).
Proof. intros malloc h n. cbn. discriminate. Qed.
Ltac nl := repeat match goal with
  | |- noloop (bindM _ _) => apply nl_bind; [|intros ?]
  | |- noloop (ret _) => apply nl_ret
  | |- noloop undef => apply nl_undef
  | |- noloop (get _) => apply nl_get
  | |- noloop (put _ _) => apply nl_put
  | |- noloop (free _) => apply nl_free
  | |- noloop (new _ _) => apply nl_new
  | |- noloop (try _) => apply nl_try
  | |- noloop (match ?x with _ => _ end) => destruct x
  | |- noloop (if ?x then _ else _) => destruct x
  | |- noloop ((fun _ => _) _) => cbv beta
  | |- noloop (let _ := _ in _) => cbv zeta
  | |- noloop ?m => let c := (match m with ?c _ _ _ _ _ _ => c | ?c _ _ _ _ _ => c | ?c _ _ _ _ => c | ?c _ _ _ => c | ?c _ _ => c | ?c _ => c end) in progress (let m' := eval unfold c in m in change (noloop m'))
  end.
Section Loops.
Variable malloc : nat -> heap -> option nat.
Variable sn2nid : list N -> Z.
Variable d2i : list N -> option params.
Variable d2o : list N -> option (list N).
Variable solve : N -> N -> option N.
Lemma exec_loop : forall w o, exec malloc sn2nid d2i d2o solve w o = Loop -> (exists c k fuel src, o = Keygen c k fuel src) \/ (exists k fuel tbs src, o = Sign k fuel tbs src).
Proof.
  assert (forall A B (m : M A) (f : A -> mem -> B) w, noloop m -> call w m f <> Loop) as C.
  { intros A B m f w H. unfold call. destruct (w_mem w) as [h n]. specialize (H h n). destruct (m (h, n)) as [| |[a h']]; [discriminate|contradiction|discriminate]. }
  intros w o E. destruct o; try (left; do 4 eexists; reflexivity); try (right; do 4 eexists; reflexivity); exfalso; cbn [exec] in E; unfold no_ctx, no_key, with_ctx, with_key in E;
    repeat match type of E with (match ?x with _ => _ end) = _ => destruct x end; try discriminate; revert E; apply C; nl.
Qed.
End Loops.
Section Leak.
Variable malloc : nat -> heap -> option nat.
Variable sn2nid : list N -> Z.
Variable d2i : list N -> option params.
Variable d2o : list N -> option (list N).
Variable solve : N -> N -> option N.
Hypothesis HA : allocator malloc.
Notation exec := (exec malloc sn2nid d2i d2o solve).
Notation run := (run malloc sn2nid d2i d2o solve).
Notation follow := (follow sn2nid d2i d2o solve).

(** With enough memory, a legal call other than signing and key generation gives the answer of
    the specification. *)
Lemma exec_success : forall w s L o a s', never_fails malloc -> R w s L -> legal (never_fails malloc) s o -> (forall c k f r, o <> Keygen c k f r) -> (forall k f t r, o <> Sign k f t r) -> (forall k, o <> PrivEncode k) ->
  success sn2nid d2i d2o solve s o = Some (a, s') -> a <> Bool false -> exists w', exec w o = Ret (a, w') /\ R w' s' L.
Proof.
  intros w s L o a s' HF HR HL N1 N2 N3 HS Na. destruct (exec_good malloc sn2nid d2i d2o solve HA w s L o HR) as [X|[[X _]|(a' & w' & L' & X & Pm & HR' & _ & K)]].
  - destruct (exec_loop _ _ _ _ _ _ _ X) as [(c & k & f & r & Y)|(k & f & t & r & Y)]; [exfalso; exact (N1 _ _ _ _ Y)|exfalso; exact (N2 _ _ _ _ Y)].
  - contradiction.
  - assert (a' = a) as ->.
    { destruct Pm as [Pm|[[_ [Pm|Pm]]|[Pm _]]]; [rewrite HS in Pm; cbn in Pm; congruence|congruence|contradiction|contradiction]. }
    exists w'. split; [exact X|]. destruct K as [->|(k & K & _)]; [|exfalso; exact (N3 _ K)]. cbn [app] in HR'. unfold next in HR'. rewrite HS in HR'. destruct a as [[|]| |]; [exact HR'|contradiction|exact HR'|exact HR'].
Qed.
(** One more block for each attempt to encode a key without private number. *)
Lemma priv_encode_leak : forall w s L cs ks k t y prm, never_fails malloc -> inv w s L cs ks -> assoc ks k = Some (t, Some y) -> is_dstu t = true -> param_encode (pkey_of t (Some y)) = Ok prm ->
  ek_priv (y_val y) = None -> exists w' b, exec w (PrivEncode k) = Ret (Bool false, w') /\ inv w' s ((b, OTemp) :: L) cs ks.
Proof.
  intros w s L cs ks k t y prm HF HI E T Ep Ed.
  assert (wpu False (h_priv_encode malloc (evp_of t (Some y))) (fun r h => r = None /\ exists b, Permutation h ((b, OTemp) :: foot_k y ++ cells_c cs ++ cells_k (without ks k) ++ L)) (foot_ok (Some y) ++ cells_c cs ++ cells_k (without ks k) ++ L)) as Wp.
  { set (F := cells_c cs ++ cells_k (without ks k) ++ L). clearbody F. unfold h_priv_encode. cbn [evp_of fst]. rewrite T. cbn [negb]. wps HA; [|exfalso; exact (OOM HF)].
    eapply wp_perm; [apply perm_mid|]. apply (param_encode_wp False malloc HA t (Some y)); [intros O; exact (O HF)|intros X; congruence| | |].
    - intros s0 b E0. destruct (ok_length_pos sn2nid d2i d2o _ _ _ E0) as [-> _]. cbn [option_map snd]. cbn [foot_ok]. eapply wp_perm; [apply perm_mid|]. apply wp_bind. apply (read_key_wp False y). cbn [val_k dk_ec]. rewrite Ed.
      eapply wp_perm with (pre' := (p, OStr None) :: (b, OTemp) :: foot_k y ++ F).
      { eapply perm_trans; [apply Permutation_sym; apply perm_mid|]. eapply perm_trans; [apply perm_skip; apply Permutation_sym; apply perm_mid|]. apply perm_swap. }
      wps HA. split; [reflexivity|]. exists b. apply Permutation_refl.
    - intros [X|X]; [congruence|contradiction].
    - intros X. contradiction. }
  cbn [Model_Ctx.exec]. unfold with_key. rewrite (key_handle _ _ _ _ _ k HI), E. cbn [option_map fst snd].
  assert (noloop (h_priv_encode malloc (evp_of t (Some y)))) as NL by nl.
  assert (w_mem w = (fst (w_mem w), snd (w_mem w))) as Ew by (destruct (w_mem w); reflexivity).
  specialize (Wp (fst (w_mem w)) (snd (w_mem w)) [] ltac:(rewrite app_nil_r; apply (key_split _ _ _ _ _ _ _ _ HI E)) (i_nd _ _ _ _ _ HI)).
  destruct Wp as [X|[[[] _]|(a & h' & n' & Q & X & [-> [b PQ]] & P & ND)]]; [exfalso; exact (NL _ _ X)|].
  exists (W (h', n') (w_ctx w) (w_key w)), b. split.
  - unfold call. rewrite Ew. change (fst (fst (w_mem w), snd (w_mem w))) with (fst (w_mem w)). change (@pair heap nat) with (@pair (list (nat * obj)) nat). rewrite X. reflexivity.
  - rewrite app_nil_r in P. eapply inv_key_back; [exact HI|exact E| |exact ND]. eapply perm_trans; [exact P|]. eapply perm_trans; [exact PQ|]. cbn [foot_ok].
    eapply perm_trans; [apply perm_mid|]. apply Permutation_app_head. eapply perm_trans; [apply perm_mid|]. apply Permutation_app_head. apply perm_mid.
Qed.
Lemma leak : forall type der key prm n, never_fails malloc -> is_dstu type = true -> param_decode d2i solve type der = Some key -> param_encode (PKEY type (Some key)) = Ok prm ->
  exists ans w, run world0 (ParamDecode 0 type der :: repeat (PrivEncode 0) n ++ [KeyFree 0]) = Ret (ans, w) /\ w_ctx w = [] /\ w_key w = [] /\ length (fst (w_mem w)) = n.
Proof.
  intros type der key prm n HF T Ek Ep.
  destruct (exec_success world0 state0 [] (ParamDecode 0 type der) (Bool true) (set_pkey state0 0 (Some (PKEY type (Some key)))) HF R0 eq_refl ltac:(discriminate) ltac:(discriminate) ltac:(discriminate) ltac:(cbn; rewrite Ek; reflexivity) ltac:(discriminate))
    as (w1 & E1 & (cs & ks & HI)).
  assert (cs = []) as ->.
  { destruct cs as [|[c x] t]; [reflexivity|]. pose proof (i_sc _ _ _ _ _ HI c) as S. cbn in S. rewrite Nat.eqb_refl in S. destruct S as (o & S & _). discriminate. }
  pose proof (i_sk _ _ _ _ _ HI 0%nat) as S. cbn in S. destruct (assoc ks 0) as [[t y]|] eqn:E; [|discriminate]. cbn [option_map fst snd] in S. injection S as S1 S2. subst t. destruct y as [y|]; [|discriminate]. cbn in S2. injection S2 as S2.
  assert (without ks 0 = []) as Ewo.
  { destruct (without ks 0) as [|[q z] t] eqn:Ewq; [reflexivity|]. exfalso. assert (In q (map fst (without ks 0))) as Hq by (rewrite Ewq; left; reflexivity).
    apply without_in in Hq as [Hq Hq0]. pose proof (i_sk _ _ _ _ _ HI q) as Sq. cbn in Sq. unfold upd in Sq. apply Nat.eqb_neq in Hq0. rewrite Hq0 in Sq.
    destruct (assoc ks q) eqn:Ea; [discriminate|]. exact (assoc_none _ _ _ Ea Hq). }
  assert (ek_priv (y_val y) = None) as Ed.
  { unfold param_decode in Ek. destruct (d2i der) as [p|]; [|discriminate]. unfold key_from_asn1 in Ek. destruct (match ap_sbox p with Some _ => _ | None => _ end); [|discriminate].
    destruct (match ap_curve p with Named _ => _ | Custom _ => _ end); [|discriminate]. injection Ek as <-. unfold val_k in S2. injection S2 as S3 _. rewrite <- S3. reflexivity. }
  assert (param_encode (pkey_of type (Some y)) = Ok prm) as Ep' by (unfold pkey_of; cbn [option_map]; rewrite <- S2; exact Ep).
  assert (forall n w L, inv w (set_pkey state0 0 (Some (PKEY type (Some key)))) L [] ks -> exists ans w', run w (repeat (PrivEncode 0) n ++ [KeyFree 0]) = Ret (ans, w') /\ w_ctx w' = [] /\ w_key w' = [] /\ length (fst (w_mem w')) = (n + length L)%nat) as G.
  { clear n w1 E1 HI. induction n as [|n IH]; intros w L HI.
    - cbn [repeat app Model_Ctx.run]. destruct (exec_success w _ L (KeyFree 0) (Bool true) _ HF (ex_intro _ [] (ex_intro _ ks HI)) ltac:(discriminate) ltac:(discriminate) ltac:(discriminate) ltac:(discriminate) eq_refl ltac:(discriminate)) as (w' & E' & (cs' & ks' & HI')).
      exists [Bool true], w'. rewrite E'. split; [reflexivity|].
      assert (cs' = []) as ->. { destruct cs' as [|[c x] t]; [reflexivity|]. pose proof (i_sc _ _ _ _ _ HI' c) as S. cbn in S. rewrite Nat.eqb_refl in S. destruct S as (o & S & _). discriminate. }
      assert (ks' = []) as ->. { destruct ks' as [|[c x] t]; [reflexivity|]. pose proof (i_sk _ _ _ _ _ HI' c) as S. cbn in S. rewrite Nat.eqb_refl in S. unfold upd in S. cbn in S. destruct (Nat.eqb c 0); discriminate. }
      split; [apply (i_ctx _ _ _ _ _ HI')|]. split; [apply (i_key _ _ _ _ _ HI')|]. apply (Permutation_length (i_heap _ _ _ _ _ HI')).
    - destruct (priv_encode_leak w _ L [] ks 0 type y prm HF HI E T Ep' Ed) as (w' & b & E' & HI'). destruct (IH w' _ HI') as (ans & w2 & E2 & C1 & C2 & C3). exists (Bool false :: ans), w2.
      cbn [repeat app Model_Ctx.run]. rewrite E', E2. split; [reflexivity|]. split; [exact C1|]. split; [exact C2|]. rewrite C3. cbn [length]. lia. }
  destruct (G n w1 [] HI) as (ans & w2 & E2 & C1 & C2 & C3). exists (Bool true :: ans), w2. cbn [Model_Ctx.run]. rewrite E1, E2. split; [reflexivity|]. split; [exact C1|]. split; [exact C2|]. rewrite C3. cbn. lia.
Qed.

(** Without memory, encoding crashes. *)
Lemma encode_crash : forall l ans w k t key g, run world0 l = Ret (ans, w) -> s_key (follow state0 l ans) k = Some (PKEY t (Some key)) -> ek_group (dk_ec key) = Some g ->
  Model_Ctx.exec (fun _ _ => None) sn2nid d2i d2o solve w (ParamEncode k) = Undef.
Proof.
  intros l ans w k t key g E Ek Eg. destruct (run_good malloc sn2nid d2i d2o solve HA _ _ _ _ _ _ R0 E) as (_ & L' & (cs & ks & HI) & _).
  rewrite (i_sk _ _ _ _ _ HI k) in Ek. destruct (assoc ks k) as [[t' y]|] eqn:Ea; [|discriminate]. cbn [option_map fst snd] in Ek. injection Ek as -> Ey. destruct y as [y|]; [|discriminate]. injection Ey as Ey.
  cbn [Model_Ctx.exec]. unfold with_key. rewrite (key_handle _ _ _ _ _ k HI), Ea. cbn [option_map fst snd evp_of].
  pose proof (read_key_wp False y (fun a _ => a = val_k y) (cells_c cs ++ cells_k (without ks k) ++ L' ++ []) eq_refl) as Wp.
  assert (noloop (read_key (y_ptr y))) as NL by nl.
  specialize (Wp (fst (w_mem w)) (snd (w_mem w)) [] ltac:(rewrite app_nil_r; apply (key_split _ _ _ _ _ _ _ _ HI Ea)) (i_nd _ _ _ _ _ HI)).
  assert (w_mem w = (fst (w_mem w), snd (w_mem w))) as Ew by (destruct (w_mem w); reflexivity).
  destruct Wp as [X|[[[] _]|(a & h' & n' & Q & X & -> & P & ND)]]; [exfalso; exact (NL _ _ X)|].
  assert (read_key (y_ptr y) (w_mem w) = Ret (val_k y, (h', n'))) as X' by (rewrite Ew; exact X).
  unfold call, h_param_encode, evp_of. cbn [snd fst option_map]. unfold bindM, h_asn1_from_key, bindM. cbv beta iota zeta. rewrite X', Ey, Eg. reflexivity.
Qed.
End Leak.

(** It is an allocator. *)
Lemma above_fresh : forall h p, live h p <> None -> (p < above h)%nat.
Proof.
  induction h as [|[q o] t IH]; intros p H; [contradiction|].
  assert (above ((q, o) :: t) = Nat.max (S q) (above t)) as -> by reflexivity. cbn [live] in H. destruct (Nat.eqb_spec p q) as [E|E]; [subst; lia|].
  assert (p < above t)%nat as L; [apply IH|lia]. intros X. apply H. cbn [live] in *. rewrite ?Nat.eqb_refl in *. destruct (Nat.eqb_spec q p) as [E2|E2]; [congruence|]. exact X.
Qed.
Lemma above_allocator : forall f, allocator (some_malloc f).
Proof.
  intros f n h p E. unfold some_malloc in E. destruct (f n); [|discriminate]. injection E as <-. destruct (live h (above h)) eqn:L; [|reflexivity].
  exfalso. pose proof (above_fresh h (above h) ltac:(congruence)). lia.
Qed.
