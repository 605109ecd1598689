(** Every call refines Spec_Ctx; histories. *)
From Coq Require Import ZArith Lia Permutation.
From Verif Require Import Base Lib Model_Gf2m Model_Compress Model_Ec Model_Params Model_Curves Model_Sign Model_Asn1 Model_Pmeth Model_Key Model_Ameth Model_Ctx Spec_Ctx Proof_Ctx Proof_Ctx2 Proof_Ctx3 Proof_Ctx4.

Section Step.
Variable malloc : nat -> heap -> option nat.
Variable sn2nid : list N -> Z.
Variable d2i : list N -> option params.
Variable d2o : list N -> option (list N).
Variable solve : N -> N -> option N.
Hypothesis HA : allocator malloc.
Let full := never_fails malloc.
Notation exec := (exec malloc sn2nid d2i d2o solve).
Notation run := (run malloc sn2nid d2i d2o solve).
Notation success := (success sn2nid d2i d2o solve).
Notation next := (next sn2nid d2i d2o solve).
Notation permitted := (permitted sn2nid d2i d2o solve).
Notation good := (good malloc sn2nid d2i d2o solve).

Definition concl (s : state) (o : op) (L : heap) (r : answer * world) : Prop :=
  exists L', permitted full s o (fst r) /\ R (snd r) (next s o (fst r)) (L' ++ L) /\ Forall (fun c => snd c = OTemp) L' /\
    (L' = [] \/ exists k, o = PrivEncode k /\ fst r = Bool false).
Lemma call_good : forall A (m : M A) (f : A -> mem -> answer * world) w s o L pre, Permutation (fst (w_mem w)) pre -> NoDup (map fst (fst (w_mem w))) ->
  wpu (~ legal full s o) m (fun a Q => forall h n, Permutation h Q -> NoDup (map fst h) -> concl s o L (f a (h, n))) pre -> good s o L (call w m f).
Proof.
  intros A m f w s o L pre P ND H. eapply call_wp with (F := []); [rewrite app_nil_r; exact P|exact ND|exact H|].
  intros a Q h n HQ P' ND'. rewrite app_nil_r in P'. exact (HQ h n P' ND').
Qed.
Lemma concl_ok : forall s o L a w s', success s o = Some (a, s') -> a <> Bool false -> R w s' L -> concl s o L (a, w).
Proof.
  intros s o L a w s' E Na H. exists []. cbn [fst snd app]. split; [left; rewrite E; reflexivity|]. split; [|split; [constructor|left; reflexivity]].
  unfold Spec_Ctx.next. rewrite E. destruct a as [[|]| |]; try exact H. contradiction.
Qed.
Lemma concl_fail : forall s o L w, success s o = None \/ ~ full -> R w (after_failure s o) L -> concl s o L (Bool false, w).
Proof.
  intros s o L w E H. exists []. cbn [fst snd app]. split; [right; left; auto|]. split; [exact H|]. split; [constructor|left; reflexivity].
Qed.
Lemma good_undef : forall s o L, ~ legal full s o -> good s o L Undef.
Proof. intros s o L H. right. left. auto. Qed.
Lemma good_ret : forall s o L r, concl s o L r -> good s o L (Ret r).
Proof. intros s o L [a w] (L' & H1 & H2 & H3 & H4). right. right. exists a, w, L'. auto. Qed.

Lemma ctx_state : forall w s L cs ks c x, inv w s L cs ks -> assoc cs c = Some x -> exists o, s_ctx s c = Some o /\ rel x o.
Proof. intros w s L cs ks c x I E. pose proof (i_sc _ _ _ _ _ I c) as H. rewrite E in H. exact H. Qed.
Lemma no_ctx_state : forall w s L cs ks c, inv w s L cs ks -> assoc cs c = None -> s_ctx s c = None.
Proof. intros w s L cs ks c I E. pose proof (i_sc _ _ _ _ _ I c) as H. rewrite E in H. exact H. Qed.
Lemma key_state : forall w s L cs ks k t y, inv w s L cs ks -> assoc ks k = Some (t, y) -> s_key s k = Some (pkey_of t y).
Proof. intros w s L cs ks k t y I E. rewrite (i_sk _ _ _ _ _ I k), E. reflexivity. Qed.
Lemma no_key_state : forall w s L cs ks k, inv w s L cs ks -> assoc ks k = None -> s_key s k = None.
Proof. intros w s L cs ks k I E. rewrite (i_sk _ _ _ _ _ I k), E. reflexivity. Qed.

Lemma good_ctx_new : forall w s L c nid, R w s L -> good s (CtxNew c nid) L (exec w (CtxNew c nid)).
Proof.
  intros w s L c nid (cs & ks & I). cbn [Model_Ctx.exec]. unfold no_ctx. rewrite (ctx_handle _ _ _ _ _ c I). destruct (assoc cs c) as [x|] eqn:E; cbn [option_map].
  - apply good_undef. cbn. destruct (ctx_state _ _ _ _ _ _ _ I E) as (o & Eo & _). congruence.
  - eapply call_good; [apply (i_heap _ _ _ _ _ I)|apply (i_nd _ _ _ _ _ I)|]. apply (pkey_init_wp _ malloc HA).
    + intros p h n P ND. eapply concl_ok; [reflexivity|discriminate|]. exists ((c, CX p nid None None) :: cs), ks.
      apply (inv_ctx_new w s L cs ks c (CX p nid None None)); try assumption. split; [reflexivity|]. split; [reflexivity|]. left. reflexivity.
    + intros O h n P ND. apply concl_fail; [right; exact O|]. exists cs, ks. eapply inv_same; eassumption.
Qed.
Lemma good_ctx_dup : forall w s L dst src, R w s L -> good s (CtxDup dst src) L (exec w (CtxDup dst src)).
Proof.
  intros w s L dst src (cs & ks & I). cbn [Model_Ctx.exec]. unfold no_ctx, with_ctx. rewrite (ctx_handle _ _ _ _ _ dst I), (ctx_handle _ _ _ _ _ src I).
  destruct (assoc cs dst) as [x|] eqn:E; cbn [option_map].
  { apply good_undef. cbn. destruct (ctx_state _ _ _ _ _ _ _ I E) as (o & Eo & _). intros [X _]. congruence. }
  destruct (assoc cs src) as [x|] eqn:E1; cbn [option_map].
  2: { apply good_undef. cbn. rewrite (no_ctx_state _ _ _ _ _ _ I E1). tauto. }
  destruct (ctx_state _ _ _ _ _ _ _ I E1) as (o & Eo & Rx). pose proof (no_ctx_state _ _ _ _ _ _ I E) as En.
  eapply call_good; [apply (ctx_split _ _ _ _ _ _ _ I E1)|apply (i_nd _ _ _ _ _ I)|]. unfold pkey_copy. apply wp_bind. apply (ctx_copy_wp _ malloc HA x).
  - intros x' X1 X2 X3 h P. apply wp_ret. intros h' n P' ND. eapply concl_ok; [cbn [Spec_Ctx.success]; unfold on_ctx; rewrite Eo; reflexivity|discriminate|].
    exists ((dst, x') :: cs), ks. apply (inv_ctx_new w s L cs ks dst x'); try assumption.
    + destruct Rx as (R1 & R2 & R3). split; [congruence|]. split; [congruence|]. destruct (o_curve o); [congruence|]. destruct R3 as [R3|R3]; [left|right; congruence].
      rewrite R3 in X2. destruct (x_group x'); [discriminate|reflexivity].
    + eapply perm_trans; [exact P'|]. eapply perm_trans; [exact P|]. apply Permutation_app_head.
      rewrite app_assoc. rewrite (app_assoc (cells_c cs)). apply Permutation_sym. eapply perm_trans; [apply Permutation_app_tail; apply Permutation_app_tail; apply (flat_map_split cx foot_c cs src x (i_nc _ _ _ _ _ I) E1)|].
      rewrite <- !app_assoc. apply Permutation_refl.
  - intros O h P. apply wp_ret. intros h' n P' ND. apply concl_fail; [right; exact O|]. exists cs, ks. eapply inv_same; [exact I| |exact ND].
    eapply perm_trans; [exact P'|]. eapply perm_trans; [exact P|]. eapply perm_trans; [apply Permutation_sym; apply (ctx_split _ _ _ _ _ _ _ I E1)|apply (i_heap _ _ _ _ _ I)].
Qed.
Lemma good_ctx_free : forall w s L c, R w s L -> good s (CtxFree c) L (exec w (CtxFree c)).
Proof.
  intros w s L c (cs & ks & I). cbn [Model_Ctx.exec]. unfold with_ctx. rewrite (ctx_handle _ _ _ _ _ c I). destruct (assoc cs c) as [x|] eqn:E; cbn [option_map].
  2: { apply good_undef. cbn. rewrite (no_ctx_state _ _ _ _ _ _ I E). tauto. }
  eapply call_good; [apply (ctx_split _ _ _ _ _ _ _ I E)|apply (i_nd _ _ _ _ _ I)|]. unfold pkey_cleanup. apply ctx_free_wp.
  intros h n P ND. eapply concl_ok; [reflexivity|discriminate|]. exists (without cs c), ks. apply inv_ctx_free; assumption.
Qed.
Lemma ctrl_args : forall m c type p1 p2 a m', pkey_ctrl malloc (Some c) type p1 p2 m = Ret (a, m') ->
  (type = DSTU_SET_CUSTOM_SBOX -> p2 = ANull \/ p1 <> 64%Z \/ exists b, p2 = ABytes b /\ (64 <= length b)%nat) /\
  (type = DSTU_SET_CURVE -> p2 = ANull \/ exists g, p2 = AGroup g) /\
  (type = EVP_PKEY_CTRL_MD -> exists nid, p2 = AMd nid).
Proof.
  intros m c type p1 p2 a m' H. unfold pkey_ctrl in H.
  destruct (Z.eqb_spec type DSTU_SET_CUSTOM_SBOX) as [E1|E1].
  { split; [intros _|split; intros X; rewrite X in E1; discriminate].
    destruct p2 as [|b|g|n]; [left; reflexivity| | |]; right; (destruct (Z.eqb_spec 64 p1) as [E2|E2]; [|left; congruence]); cbn [negb] in H; try discriminate.
    destruct (Nat.ltb_spec (length b) 64) as [Lt|Ge]; [discriminate|]. right. exists b. auto. }
  destruct (Z.eqb_spec type DSTU_SET_CURVE) as [E2|E2].
  { split; [intros X; contradiction|]. split; [intros _|intros X; rewrite X in E2; discriminate]. destruct p2; try discriminate; [left; reflexivity|right; eexists; reflexivity]. }
  destruct (Z.eqb_spec type EVP_PKEY_CTRL_MD) as [E3|E3].
  { split; [intros X; contradiction|]. split; [intros X; contradiction|]. intros _. destruct p2; try discriminate. eexists. reflexivity. }
  tauto.
Qed.
Lemma inv_ctx_back : forall w s L cs ks c x h n, inv w s L cs ks -> assoc cs c = Some x -> Permutation h (foot_c x ++ cells_c (without cs c) ++ cells_k ks ++ L) -> NoDup (map fst h) ->
  inv (W (h, n) (w_ctx w) (w_key w)) s L cs ks.
Proof.
  intros w s L cs ks c x h n I E P ND. eapply inv_same; [exact I| |exact ND]. eapply perm_trans; [exact P|].
  eapply perm_trans; [apply Permutation_sym; apply (ctx_split _ _ _ _ _ _ _ I E)|apply (i_heap _ _ _ _ _ I)].
Qed.
Lemma inv_key_back : forall w s L cs ks k t y h n L', inv w s L cs ks -> assoc ks k = Some (t, y) -> Permutation h (foot_ok y ++ cells_c cs ++ cells_k (without ks k) ++ L') -> NoDup (map fst h) ->
  inv (W (h, n) (w_ctx w) (w_key w)) s L' cs ks.
Proof.
  intros w s L cs ks k t y h n L' I E P ND. eapply inv_same; [exact I| |exact ND]. eapply perm_trans; [exact P|].
  eapply perm_trans; [apply Permutation_app_swap_app|]. apply Permutation_app_head. rewrite app_assoc. apply Permutation_app_tail. apply Permutation_sym.
  apply (flat_map_split (Z * option kx) (fun p => foot_ok (snd p)) ks k (t, y)); [apply (i_nk _ _ _ _ _ I)|exact E].
Qed.
Lemma good_ctrl : forall w s L c type p1 p2, R w s L -> good s (Ctrl c type p1 p2) L (exec w (Ctrl c type p1 p2)).
Proof.
  intros w s L c type p1 p2 (cs & ks & I). cbn [Model_Ctx.exec]. unfold with_ctx. rewrite (ctx_handle _ _ _ _ _ c I). destruct (assoc cs c) as [x|] eqn:E; cbn [option_map].
  2: { apply good_undef. cbn. rewrite (no_ctx_state _ _ _ _ _ _ I E). tauto. }
  destruct (ctx_state _ _ _ _ _ _ _ I E) as (o & Eo & Rx).
  destruct (pkey_ctrl malloc (Some (x_ptr x)) type p1 p2 (w_mem w)) as [| |[a m']] eqn:Em.
  - assert (call w (pkey_ctrl malloc (Some (x_ptr x)) type p1 p2) (fun (r : bool) h => (Bool r, W h (w_ctx w) (w_key w))) = Undef) as -> by (unfold call; rewrite Em; reflexivity).
    apply good_undef. intros (_ & A1 & A2 & A3).
    assert (Permutation (fst (w_mem w)) (foot_c x ++ cells_c (without cs c) ++ cells_k ks ++ L)) as P by apply (ctx_split _ _ _ _ _ _ _ I E).
    pose proof (pkey_ctrl_wp False malloc HA x o type p1 p2 (fun _ _ => True) (cells_c (without cs c) ++ cells_k ks ++ L) Rx A1 A2 A3 (fun _ _ _ _ _ _ _ => Logic.I) (fun _ => Logic.I)) as Wp.
    specialize (Wp (fst (w_mem w)) (snd (w_mem w)) [] ltac:(rewrite app_nil_r; exact P) (i_nd _ _ _ _ _ I)).
    assert (pkey_ctrl malloc (Some (x_ptr x)) type p1 p2 (fst (w_mem w), snd (w_mem w)) = Undef) as Em' by (destruct (w_mem w); exact Em).
    destruct Wp as [X|[[X _]|(a & h' & n' & Q & X & _)]]; [|exact X|]; pose proof (eq_trans (eq_sym Em') X); discriminate.
  - left. unfold call. rewrite Em. reflexivity.
  - destruct (ctrl_args _ _ _ _ _ _ _ Em) as (A1 & A2 & A3). clear Em.
    eapply call_good; [apply (ctx_split _ _ _ _ _ _ _ I E)|apply (i_nd _ _ _ _ _ I)|]. apply (pkey_ctrl_wp _ malloc HA x o); try assumption.
    + intros x' o' X1 X2 X3 h P h' n P' ND. eapply concl_ok; [cbn [Spec_Ctx.success]; unfold on_ctx; rewrite Eo, X2; reflexivity|discriminate|].
      exists (replace cs c x'), ks. exact (inv_ctx_set w s L cs ks c x x' o' h' n I E X1 X3 (perm_trans P' P) ND).
    + intros X h n P ND. apply concl_fail; [|exists cs, ks; exact (inv_ctx_back _ _ _ _ _ _ _ _ _ I E P ND)]. destruct X as [X|X]; [left; cbn [Spec_Ctx.success]; unfold on_ctx; rewrite Eo, X; reflexivity|right; exact X].
Qed.
Lemma good_ctrl_str : forall w s L c type value, R w s L -> good s (CtrlStr c type value) L (exec w (CtrlStr c type value)).
Proof.
  intros w s L c type value (cs & ks & I). cbn [Model_Ctx.exec]. unfold with_ctx. rewrite (ctx_handle _ _ _ _ _ c I). destruct (assoc cs c) as [x|] eqn:E; cbn [option_map].
  2: { apply good_undef. cbn. rewrite (no_ctx_state _ _ _ _ _ _ I E). tauto. }
  destruct (ctx_state _ _ _ _ _ _ _ I E) as (o & Eo & Rx).
  eapply call_good; [apply (ctx_split _ _ _ _ _ _ _ I E)|apply (i_nd _ _ _ _ _ I)|]. apply (pkey_ctrl_str_wp _ malloc sn2nid d2i d2o HA x o); try assumption.
  + intros x' o' X1 X2 X3 h P h' n P' ND. eapply concl_ok; [cbn [Spec_Ctx.success]; unfold on_ctx; rewrite Eo, X2; reflexivity|discriminate|].
    exists (replace cs c x'), ks. exact (inv_ctx_set w s L cs ks c x x' o' h' n I E X1 X3 (perm_trans P' P) ND).
  + intros X h P h' n P' ND. apply concl_fail; [|exists cs, ks; exact (inv_ctx_back _ _ _ _ _ _ _ _ _ I E (perm_trans P' P) ND)]. destruct X as [X|X]; [left; cbn [Spec_Ctx.success]; unfold on_ctx; rewrite Eo, X; reflexivity|right; exact X].
Qed.

(** A call that makes a key. *)
Lemma finish_wp : forall U k (m : M (bool * evp_key)) (post : bool * evp_key -> heap -> Prop) pre (T : Z -> kx -> Prop) (Fl : Prop) F,
  (forall t y h, T t y -> Permutation h (foot_k y ++ F) -> post (true, evp_of t (Some y)) h) ->
  (forall pk h, Fl -> Permutation h F -> post (false, pk) h) ->
  wpu U m (fun r h => (exists t y, r = (true, evp_of t (Some y)) /\ T t y /\ Permutation h (foot_k y ++ F)) \/
                      (exists t y, r = (false, evp_of t y) /\ Fl /\ Permutation h (foot_ok y ++ F))) pre ->
  wpu U (finish k m) post pre.
Proof.
  intros U k m post pre T Fl F H1 H2 H. unfold finish. apply wp_bind. eapply wp_mono; [exact H|]. intros r h [(t & y & -> & Ht & P)|(t & y & -> & Hf & P)].
  - apply wp_ret. apply H1; assumption.
  - eapply wp_perm; [exact P|]. apply wp_bind. apply pkey_free_wp. apply wp_ret. apply H2; [exact Hf|apply Permutation_refl].
Qed.
Lemma made_true : forall w s L cs ks o k t y h n, inv w s L cs ks -> success s o = Some (Bool true, set_pkey s k (Some (pkey_of t (Some y)))) ->
  Permutation h (foot_k y ++ cells_c cs ++ cells_k (without ks k) ++ L) -> NoDup (map fst h) -> concl s o L (set_key w k (true, evp_of t (Some y)) (h, n)).
Proof.
  intros w s L cs ks o k t y h n I E P ND. eapply concl_ok; [exact E|discriminate|]. exists cs, ((k, (t, Some y)) :: without ks k). apply (inv_key_set w s L cs ks k t (Some y)); assumption.
Qed.
Lemma made_false : forall w s L cs ks o k pk h n, inv w s L cs ks -> success s o = None \/ ~ full -> after_failure s o = set_pkey s k None \/ (after_failure s o = s /\ assoc ks k = None) ->
  Permutation h (cells_c cs ++ cells_k (without ks k) ++ L) -> NoDup (map fst h) -> concl s o L (set_key w k (false, pk) (h, n)).
Proof.
  intros w s L cs ks o k pk h n I E Ef P ND. apply concl_fail; [exact E|]. exists cs, (without ks k). destruct Ef as [Ef|[Ef En]]; rewrite Ef; cbn [set_key snd].
  - apply inv_key_free; assumption.
  - pose proof (key_handle _ _ _ _ _ k I) as Hk. rewrite En in Hk. cbn in Hk. rewrite (without_none _ _ _ Hk). rewrite (without_none _ _ _ En) in *. eapply inv_same; eassumption.
Qed.
Lemma good_keygen : forall w s L c k fuel src, R w s L -> good s (Keygen c k fuel src) L (exec w (Keygen c k fuel src)).
Proof.
  intros w s L c k fuel src (cs & ks & I). cbn [Model_Ctx.exec]. unfold with_ctx. rewrite (ctx_handle _ _ _ _ _ c I). destruct (assoc cs c) as [x|] eqn:E; cbn [option_map].
  2: { apply good_undef. cbn. rewrite (no_ctx_state _ _ _ _ _ _ I E). tauto. }
  destruct (ctx_state _ _ _ _ _ _ _ I E) as (o & Eo & Rx). rewrite (key_handle _ _ _ _ _ k I).
  set (ty := match assoc ks k with Some p => p | None => (0%Z, None) end).
  assert (match option_map (fun p => evp_of (fst p) (snd p)) (assoc ks k) with Some pk => pk | None => (0%Z, None) end = evp_of (fst ty) (snd ty)) as Ety
    by (unfold ty; destruct (assoc ks k) as [[t y]|]; reflexivity).
  cbv zeta. rewrite Ety.
  assert (Permutation (fst (w_mem w)) (foot_c x ++ foot_ok (snd ty) ++ cells_c (without cs c) ++ cells_k (without ks k) ++ L)) as P.
  { eapply perm_trans; [apply (ctx_split _ _ _ _ _ _ _ I E)|]. apply Permutation_app_head. eapply perm_trans; [|apply Permutation_app_swap_app]. apply Permutation_app_head.
    rewrite app_assoc. apply Permutation_app_tail. unfold ty. destruct (assoc ks k) as [[t y]|] eqn:Ek.
    - apply (flat_map_split (Z * option kx) (fun p => foot_ok (snd p)) ks k (t, y)); [apply (i_nk _ _ _ _ _ I)|exact Ek].
    - rewrite (without_none _ _ _ Ek). apply Permutation_refl. }
  eapply call_good; [exact P|apply (i_nd _ _ _ _ _ I)|]. destruct ty as [t0 y0]. cbn [fst snd].
  unfold finish. apply wp_bind. apply (keygen_wp _ malloc HA x o); [exact Rx| |].
  - intros x' y X1 X2 X3 h Ph. apply wp_ret. intros h' n P' ND. cbn [set_key].
    eapply concl_ok; [cbn [Spec_Ctx.success]; unfold on_ctx; rewrite Eo, X3; reflexivity|discriminate|]. exists (replace cs c x'), ((k, (o_type o, Some y)) :: without ks k).
    eapply (inv_gen_set w s L cs ks c x x' o k (o_type o) (Some y)); try eassumption. eapply perm_trans; [exact P'|]. exact Ph.
  - intros x' y X1 X2 X3 h Ph. eapply wp_perm; [exact Ph|]. eapply wp_perm; [apply Permutation_app_swap_app|]. apply wp_bind. apply pkey_free_wp. apply wp_ret. intros h' n P' ND. cbn [set_key].
    apply concl_fail; [destruct X3 as [X3|X3]; [left; cbn [Spec_Ctx.success]; unfold on_ctx; rewrite Eo, X3; reflexivity|right; exact X3]|].
    exists (replace cs c x'), (without ks k). eapply (inv_gen_free w s L cs ks c x x' o k); eassumption.
Qed.
Lemma good_key_new : forall w s L k, R w s L -> good s (KeyNew k) L (exec w (KeyNew k)).
Proof.
  intros w s L k (cs & ks & I). cbn [Model_Ctx.exec]. unfold no_key. pose proof (key_handle _ _ _ _ _ k I) as Hk. rewrite Hk. destruct (assoc ks k) as [[t y]|] eqn:E; cbn [option_map].
  - apply good_undef. cbn. rewrite (key_state _ _ _ _ _ _ _ _ I E). discriminate.
  - apply good_ret. eapply concl_ok; [reflexivity|discriminate|]. exists cs, ((k, (0%Z, None)) :: without ks k). cbn in Hk. rewrite <- (without_none _ _ _ Hk).
    pose proof (inv_key_set w s L cs ks k 0 None (fst (w_mem w)) (snd (w_mem w)) I) as K. rewrite (without_none _ _ _ Hk) in *. destruct (w_mem w) as [h n] eqn:Em. cbn [fst snd] in K.
    apply K; pose proof (i_heap _ _ _ _ _ I) as P; pose proof (i_nd _ _ _ _ _ I) as ND; rewrite Em in P, ND; [|exact ND]. rewrite (without_none _ _ _ E). exact P.
Qed.
Lemma good_key_free : forall w s L k, R w s L -> good s (KeyFree k) L (exec w (KeyFree k)).
Proof.
  intros w s L k (cs & ks & I). cbn [Model_Ctx.exec]. unfold with_key. rewrite (key_handle _ _ _ _ _ k I). destruct (assoc ks k) as [[t y]|] eqn:E; cbn [option_map].
  2: { apply good_undef. cbn. rewrite (no_key_state _ _ _ _ _ _ I E). tauto. }
  eapply call_good; [apply (key_split _ _ _ _ _ _ _ _ I E)|apply (i_nd _ _ _ _ _ I)|]. cbn [fst snd]. apply pkey_free_wp.
  intros h n P ND. eapply concl_ok; [reflexivity|discriminate|]. exists cs, (without ks k). apply inv_key_free; assumption.
Qed.
Lemma new_key_perm : forall w s L cs ks k, inv w s L cs ks -> assoc ks k = None -> Permutation (fst (w_mem w)) (cells_c cs ++ cells_k (without ks k) ++ L).
Proof. intros w s L cs ks k I E. rewrite (without_none _ _ _ E). apply (i_heap _ _ _ _ _ I). Qed.
Lemma good_param_decode : forall w s L k type der, R w s L -> good s (ParamDecode k type der) L (exec w (ParamDecode k type der)).
Proof.
  intros w s L k type der (cs & ks & I). cbn [Model_Ctx.exec]. unfold no_key. rewrite (key_handle _ _ _ _ _ k I). destruct (assoc ks k) as [[t y]|] eqn:E; cbn [option_map].
  { apply good_undef. cbn. rewrite (key_state _ _ _ _ _ _ _ _ I E). discriminate. }
  eapply call_good; [apply (new_key_perm _ _ _ _ _ _ I E)|apply (i_nd _ _ _ _ _ I)|].
  apply (finish_wp _ k _ _ _ (fun t y => t = type /\ param_decode d2i solve type der = Some (val_k y)) (param_decode d2i solve type der = None \/ ~ full) (cells_c cs ++ cells_k (without ks k) ++ L)).
  - intros t y h [-> Ht] P h' n P' ND. eapply made_true; [exact I| |exact (perm_trans P' P)|exact ND]. cbn. rewrite Ht. reflexivity.
  - intros pk h Hf P h' n P' ND. eapply made_false; [exact I| |right; split; [reflexivity|exact E]|exact (perm_trans P' P)|exact ND]. destruct Hf as [X|X]; [left; cbn; rewrite X; reflexivity|right; exact X].
  - change (type, None) with (evp_of type None). apply (param_decode_wp _ malloc d2i solve HA).
    + intros y Ey h P. left. exists type, y. auto.
    + intros X. right. exists type, None. split; [reflexivity|]. split; [exact X|apply Permutation_refl].
Qed.
Lemma good_priv_decode : forall w s L k p8, R w s L -> good s (PrivDecode k p8) L (exec w (PrivDecode k p8)).
Proof.
  intros w s L k p8 (cs & ks & I). cbn [Model_Ctx.exec]. unfold no_key. rewrite (key_handle _ _ _ _ _ k I). destruct (assoc ks k) as [[t y]|] eqn:E; cbn [option_map].
  { apply good_undef. cbn. rewrite (key_state _ _ _ _ _ _ _ _ I E). discriminate. }
  eapply call_good; [apply (new_key_perm _ _ _ _ _ _ I E)|apply (i_nd _ _ _ _ _ I)|].
  apply (finish_wp _ k _ _ _ (fun t y => priv_decode d2i solve p8 = Some (pkey_of t (Some y))) (priv_decode d2i solve p8 = None \/ ~ full) (cells_c cs ++ cells_k (without ks k) ++ L)).
  - intros t y h Ht P h' n P' ND. eapply made_true; [exact I| |exact (perm_trans P' P)|exact ND]. cbn. rewrite Ht. reflexivity.
  - intros pk h Hf P h' n P' ND. eapply made_false; [exact I| |right; split; [reflexivity|exact E]|exact (perm_trans P' P)|exact ND]. destruct Hf as [X|X]; [left; cbn; rewrite X; reflexivity|right; exact X].
  - change (al_nid (ki_alg p8), None) with (evp_of (al_nid (ki_alg p8)) None). apply (priv_decode_wp _ malloc d2i solve HA).
    + intros t y Ey h P. left. exists t, y. auto.
    + intros t y X h P. right. exists t, y. auto.
Qed.
Lemma good_pub_decode : forall w s L k pub, R w s L -> good s (PubDecode k pub) L (exec w (PubDecode k pub)).
Proof.
  intros w s L k pub (cs & ks & I). cbn [Model_Ctx.exec]. unfold no_key. rewrite (key_handle _ _ _ _ _ k I). destruct (assoc ks k) as [[t y]|] eqn:E; cbn [option_map].
  { apply good_undef. cbn. rewrite (key_state _ _ _ _ _ _ _ _ I E). discriminate. }
  eapply call_good; [apply (new_key_perm _ _ _ _ _ _ I E)|apply (i_nd _ _ _ _ _ I)|].
  apply (finish_wp _ k _ _ _ (fun t y => pub_decode d2i d2o solve pub = Some (pkey_of t (Some y))) (pub_decode d2i d2o solve pub = None \/ ~ full) (cells_c cs ++ cells_k (without ks k) ++ L)).
  - intros t y h Ht P h' n P' ND. eapply made_true; [exact I| |exact (perm_trans P' P)|exact ND]. cbn. rewrite Ht. reflexivity.
  - intros pk h Hf P h' n P' ND. eapply made_false; [exact I| |right; split; [reflexivity|exact E]|exact (perm_trans P' P)|exact ND]. destruct Hf as [X|X]; [left; cbn; rewrite X; reflexivity|right; exact X].
  - change (al_nid (ki_alg pub), None) with (evp_of (al_nid (ki_alg pub)) None). apply (pub_decode_wp _ malloc d2i d2o solve HA).
    + intros t y Ey h P. left. exists t, y. auto.
    + intros t y X h P. right. exists t, y. auto.
Qed.

(** Calls on a key that leave it as it is. *)
Lemma not_legal_mem : forall s k, ~ full -> ~ legal full s (PrivEncode k).
Proof. intros s k O [X _]. exact (O X). Qed.
Lemma not_legal_enc : forall s k t y, s_key s k = Some (pkey_of t y) -> param_encode (pkey_of t y) = Undefined -> ~ legal full s (PrivEncode k).
Proof. intros s k t y E X [_ (pk & Ep & D)]. rewrite E in Ep. injection Ep as <-. rewrite X in D. exact D. Qed.
Lemma good_param_encode : forall w s L k, R w s L -> good s (ParamEncode k) L (exec w (ParamEncode k)).
Proof.
  intros w s L k (cs & ks & I). cbn [Model_Ctx.exec]. unfold with_key. rewrite (key_handle _ _ _ _ _ k I). destruct (assoc ks k) as [[t y]|] eqn:E; cbn [option_map].
  2: { apply good_undef. intros [_ (pk & Ep & _)]. rewrite (no_key_state _ _ _ _ _ _ I E) in Ep. discriminate. }
  pose proof (key_state _ _ _ _ _ _ _ _ I E) as Es.
  eapply call_good; [apply (key_split _ _ _ _ _ _ _ _ I E)|apply (i_nd _ _ _ _ _ I)|]. cbn [fst snd]. apply wp_bind. apply (param_encode_wp _ malloc HA t y).
  - intros O. exact (not_legal_mem s k O).
  - exact (not_legal_enc s k t y Es).
  - intros sr b Er. wps HA. intros h n P ND. eapply concl_ok; [cbn [Spec_Ctx.success]; unfold on_key; rewrite Es, Er; reflexivity|discriminate|]. exists cs, ks. eapply inv_key_back; eassumption.
  - intros X. wps HA. intros h n P ND. apply concl_fail; [|exists cs, ks; eapply inv_key_back; eassumption].
    destruct X as [X|X]; [left; cbn [Spec_Ctx.success]; unfold on_key; rewrite Es, X; reflexivity|right; exact X].
  - intros O _. wps HA. intros h n P ND. apply concl_fail; [right; exact O|exists cs, ks; eapply inv_key_back; eassumption].
Qed.
Lemma good_priv_encode : forall w s L k, R w s L -> good s (PrivEncode k) L (exec w (PrivEncode k)).
Proof.
  intros w s L k (cs & ks & I). cbn [Model_Ctx.exec]. unfold with_key. rewrite (key_handle _ _ _ _ _ k I). destruct (assoc ks k) as [[t y]|] eqn:E; cbn [option_map].
  2: { apply good_undef. intros [_ (pk & Ep & _)]. rewrite (no_key_state _ _ _ _ _ _ I E) in Ep. discriminate. }
  pose proof (key_state _ _ _ _ _ _ _ _ I E) as Es.
  eapply call_good; [apply (key_split _ _ _ _ _ _ _ _ I E)|apply (i_nd _ _ _ _ _ I)|]. cbn [fst snd]. apply (priv_encode_wp _ malloc sn2nid d2i d2o HA t y).
  - intros O. exact (not_legal_mem s k O).
  - exact (not_legal_enc s k t y Es).
  - intros i Ei h P h' n P' ND. eapply concl_ok; [cbn [Spec_Ctx.success]; unfold on_key; rewrite Es, Ei; reflexivity|discriminate|]. exists cs, ks. eapply inv_key_back; [exact I|exact E|exact (perm_trans P' P)|exact ND].
  - intros i O Ei h P h' n P' ND. exists []. cbn [as_answer fst snd app]. split; [|split; [|split; [constructor|left; reflexivity]]].
    + right. right. split; [exact O|]. exists i. cbn [Spec_Ctx.success]. unfold on_key. rewrite Es, Ei. auto.
    + unfold Spec_Ctx.next. cbn [Spec_Ctx.success]. unfold on_key. rewrite Es, Ei. cbn. exists cs, ks. eapply inv_key_back; [exact I|exact E|exact (perm_trans P' P)|exact ND].
  - intros L' HL X h P h' n P' ND. exists L'. cbn [as_answer fst snd app]. split; [|split; [|split; [exact HL|right; exists k; auto]]].
    + right. left. split; [reflexivity|]. destruct X as [X|X]; [left; cbn [Spec_Ctx.success]; unfold on_key; rewrite Es, X; reflexivity|right; exact X].
    + exists cs, ks. eapply inv_key_back; [exact I|exact E| |exact ND]. eapply perm_trans; [exact P'|]. eapply perm_trans; [exact P|].
      eapply perm_trans; [apply Permutation_app_swap_app|]. apply Permutation_app_head. eapply perm_trans; [apply Permutation_app_swap_app|]. apply Permutation_app_head. apply Permutation_app_swap_app.
Qed.
Lemma good_pub_encode : forall w s L k, R w s L -> good s (PubEncode k) L (exec w (PubEncode k)).
Proof.
  intros w s L k (cs & ks & I). cbn [Model_Ctx.exec]. unfold with_key. rewrite (key_handle _ _ _ _ _ k I). destruct (assoc ks k) as [[t y]|] eqn:E; cbn [option_map].
  2: { apply good_undef. intros [_ (pk & Ep & _)]. rewrite (no_key_state _ _ _ _ _ _ I E) in Ep. discriminate. }
  pose proof (key_state _ _ _ _ _ _ _ _ I E) as Es.
  eapply call_good; [apply (key_split _ _ _ _ _ _ _ _ I E)|apply (i_nd _ _ _ _ _ I)|]. cbn [fst snd]. apply (pub_encode_wp _ malloc sn2nid d2i d2o HA t y).
  - intros O. exact (not_legal_mem s k O).
  - exact (not_legal_enc s k t y Es).
  - intros i Ei h P h' n P' ND. eapply concl_ok; [cbn [Spec_Ctx.success]; unfold on_key; rewrite Es, Ei; reflexivity|discriminate|]. exists cs, ks. eapply inv_key_back; [exact I|exact E|exact (perm_trans P' P)|exact ND].
  - intros X h P h' n P' ND. apply concl_fail; [|exists cs, ks; eapply inv_key_back; [exact I|exact E|exact (perm_trans P' P)|exact ND]].
    destruct X as [X|X]; [left; cbn [Spec_Ctx.success]; unfold on_key; rewrite Es, X; reflexivity|right; exact X].
Qed.
Lemma good_sign : forall w s L k fuel tbs src, R w s L -> good s (Sign k fuel tbs src) L (exec w (Sign k fuel tbs src)).
Proof.
  intros w s L k fuel tbs src (cs & ks & I). cbn [Model_Ctx.exec]. unfold with_key. rewrite (key_handle _ _ _ _ _ k I). destruct (assoc ks k) as [[t y]|] eqn:E; cbn [option_map].
  2: { apply good_undef. cbn. rewrite (no_key_state _ _ _ _ _ _ I E). tauto. }
  pose proof (key_state _ _ _ _ _ _ _ _ I E) as Es.
  eapply call_good; [apply (key_split _ _ _ _ _ _ _ _ I E)|apply (i_nd _ _ _ _ _ I)|]. cbn [fst snd]. apply (sign_wp _ malloc HA t y).
  - intros out Eo h P h' n P' ND. eapply concl_ok; [cbn [Spec_Ctx.success]; unfold on_key; rewrite Es, Eo; reflexivity|discriminate|]. exists cs, ks. eapply inv_key_back; [exact I|exact E|exact (perm_trans P' P)|exact ND].
  - intros X h P h' n P' ND. apply concl_fail; [|exists cs, ks; eapply inv_key_back; [exact I|exact E|exact (perm_trans P' P)|exact ND]].
    destruct X as [(a & b & X)|X]; [left; cbn [Spec_Ctx.success]; unfold on_key; rewrite Es, X; reflexivity|right; exact X].
Qed.
Lemma good_verify : forall w s L k sig tbs, R w s L -> good s (Verify k sig tbs) L (exec w (Verify k sig tbs)).
Proof.
  intros w s L k sig tbs (cs & ks & I). cbn [Model_Ctx.exec]. unfold with_key. rewrite (key_handle _ _ _ _ _ k I). destruct (assoc ks k) as [[t y]|] eqn:E; cbn [option_map].
  2: { apply good_undef. cbn. rewrite (no_key_state _ _ _ _ _ _ I E). tauto. }
  pose proof (key_state _ _ _ _ _ _ _ _ I E) as Es.
  eapply call_good; [apply (key_split _ _ _ _ _ _ _ _ I E)|apply (i_nd _ _ _ _ _ I)|]. cbn [fst snd]. apply (verify_wp _ malloc sn2nid d2i d2o solve HA t y).
  intros r Hr h P h' n P' ND.
  assert (R (W (h', n) (w_ctx w) (w_key w)) s L) as HR by (exists cs, ks; eapply inv_key_back; [exact I|exact E|exact (perm_trans P' P)|exact ND]).
  destruct r.
  - destruct Hr as [Hr|[O [Hr|Hr]]]; [|discriminate|].
    + eapply concl_ok; [cbn [Spec_Ctx.success]; unfold on_key; rewrite Es, <- Hr; reflexivity|discriminate|exact HR].
    + exists []. cbn [fst snd app]. split; [|split; [|split; [constructor|left; reflexivity]]].
      * right. right. split; [exact O|]. exists (pkey_of t y). auto.
      * unfold Spec_Ctx.next. cbn [Spec_Ctx.success]. unfold on_key. rewrite Es. destruct (pkey_verify d2o _ _ _); exact HR.
  - apply concl_fail; [|exact HR]. destruct Hr as [Hr|[O _]]; [left; cbn [Spec_Ctx.success]; unfold on_key; rewrite Es, <- Hr; reflexivity|right; exact O].
Qed.
Theorem exec_good : forall w s L o, R w s L -> good s o L (exec w o).
Proof.
  intros w s L o H. destruct o; [apply good_ctx_new|apply good_ctx_dup|apply good_ctx_free|apply good_ctrl|apply good_ctrl_str|apply good_keygen|apply good_key_new|apply good_key_free|
    apply good_param_decode|apply good_priv_decode|apply good_pub_decode|apply good_param_encode|apply good_priv_encode|apply good_pub_encode|apply good_sign|apply good_verify]; exact H.
Qed.

(** Histories. *)
Notation follow := (follow sn2nid d2i d2o solve).
Notation all_permitted := (all_permitted sn2nid d2i d2o solve).
Lemma run_good : forall l w s L ans w', R w s L -> run w l = Ret (ans, w') ->
  all_permitted full s l ans /\ exists L', R w' (follow s l ans) (L' ++ L) /\ Forall (fun c => snd c = OTemp) L' /\ ((forall k, ~ In (PrivEncode k, Bool false) (combine l ans)) -> L' = []).
Proof.
  induction l as [|o t IH]; intros w s L ans w' H E.
  - injection E as <- <-. split; [exact Logic.I|]. exists []. auto.
  - cbn [Model_Ctx.run] in E. destruct (exec_good w s L o H) as [X|[[_ X]|(a & w1 & L1 & X & Pm & H1 & F1 & K1)]]; rewrite X in E; [discriminate|discriminate|].
    destruct (run w1 t) as [| |[l' w2]] eqn:Er; [discriminate|discriminate|]. injection E as <- <-.
    destruct (IH _ _ _ _ _ H1 Er) as (A & L2 & H2 & F2 & K2). split; [split; [exact Pm|exact A]|]. exists (L2 ++ L1). rewrite <- app_assoc. split; [exact H2|].
    split; [apply Forall_app; auto|]. intros N. cbn [combine] in N. rewrite K2 by (intros k Hk; apply (N k); right; exact Hk).
    destruct K1 as [->|(k & -> & ->)]; [reflexivity|]. exfalso. apply (N k). left. reflexivity.
Qed.
Lemma R0 : R world0 state0 [].
Proof. exists [], []. constructor; try reflexivity; constructor. Qed.
Theorem history_permitted : forall l ans w, run world0 l = Ret (ans, w) ->
  all_permitted full state0 l ans /\ forall o, legal full (follow state0 l ans) o -> exec w o <> Undef.
Proof.
  intros l ans w E. destruct (run_good _ _ _ _ _ _ R0 E) as (A & L' & H & _). split; [exact A|]. intros o Ho X.
  destruct (exec_good _ _ _ o H) as [Y|[[Y _]|(a & w1 & L1 & Y & _)]]; [congruence|contradiction|congruence].
Qed.
Theorem history_memory : forall l ans w, run world0 l = Ret (ans, w) ->
  (forall c, s_ctx (follow state0 l ans) c = None) -> (forall k, s_key (follow state0 l ans) k = None) ->
  (forall k, ~ In (PrivEncode k, Bool false) (combine l ans)) -> fst (w_mem w) = [].
Proof.
  intros l ans w E Hc Hk N. destruct (run_good _ _ _ _ _ _ R0 E) as (_ & L' & (cs & ks & I) & _ & K). rewrite (K N) in I. clear K N E L'.
  assert (cs = []) as ->.
  { destruct cs as [|[c x] t]; [reflexivity|]. pose proof (i_sc _ _ _ _ _ I c) as S. cbn in S. rewrite Nat.eqb_refl in S. destruct S as (o & S & _). rewrite Hc in S. discriminate. }
  assert (ks = []) as ->.
  { destruct ks as [|[k p] t]; [reflexivity|]. pose proof (i_sk _ _ _ _ _ I k) as S. cbn in S. rewrite Nat.eqb_refl, Hk in S. discriminate. }
  apply Permutation_nil. apply Permutation_sym. exact (i_heap _ _ _ _ _ I).
Qed.
End Step.
