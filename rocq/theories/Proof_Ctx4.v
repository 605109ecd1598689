(** Histories of calls refine the values of Spec_Ctx. *)
From Coq Require Import ZArith Lia Permutation.
From Verif Require Import Base Lib Model_Gf2m Model_Compress Model_Ec Model_Params Model_Curves Model_Sign Model_Asn1 Model_Pmeth Model_Key Model_Ameth Model_Ctx Spec_Ctx Proof_Ctx Proof_Ctx2 Proof_Ctx3.

Lemma assoc_map : forall A B (f : A -> B) l k, assoc (map (fun '(c, x) => (c, f x)) l) k = option_map f (assoc l k).
Proof. intros A B f l k. induction l as [|[c x] t IH]; [reflexivity|]. cbn. destruct (Nat.eqb k c); [reflexivity|exact IH]. Qed.
Lemma without_map : forall A B (f : A -> B) l k, without (map (fun '(c, x) => (c, f x)) l) k = map (fun '(c, x) => (c, f x)) (without l k).
Proof. intros A B f l k. induction l as [|[c x] t IH]; [reflexivity|]. cbn. destruct (Nat.eqb k c); [exact IH|]. cbn. rewrite IH. reflexivity. Qed.
Lemma assoc_none : forall A (l : list (nat * A)) k, assoc l k = None -> ~ In k (map fst l).
Proof.
  intros A l k. induction l as [|[c x] t IH]; cbn; [intros _ []|]. destruct (Nat.eqb_spec k c) as [E|E]; [discriminate|]. intros H [X|X]; [congruence|exact (IH H X)].
Qed.
Lemma without_none : forall A (l : list (nat * A)) k, assoc l k = None -> without l k = l.
Proof. intros A l k. induction l as [|[c x] t IH]; cbn; [reflexivity|]. destruct (Nat.eqb k c); [discriminate|]. intros H. rewrite (IH H). reflexivity. Qed.
Lemma assoc_without : forall A (l : list (nat * A)) k c, assoc (without l k) c = if Nat.eqb c k then None else assoc l c.
Proof.
  intros A l k c. induction l as [|[q x] t IH]; cbn; [destruct (Nat.eqb c k); reflexivity|]. destruct (Nat.eqb_spec k q) as [E|E].
  - rewrite IH. subst q. destruct (Nat.eqb c k); reflexivity.
  - cbn. rewrite IH. destruct (Nat.eqb_spec c q) as [E1|E1]; [|reflexivity]. subst q. destruct (Nat.eqb_spec c k); [congruence|reflexivity].
Qed.
Lemma without_in : forall A (l : list (nat * A)) k q, In q (map fst (without l k)) -> In q (map fst l) /\ q <> k.
Proof.
  intros A l k q. induction l as [|[c x] t IH]; cbn; [intros []|]. destruct (Nat.eqb_spec k c) as [E|E]; [intros H; destruct (IH H); auto|].
  cbn. intros [H|H]; [subst; auto|]. destruct (IH H). auto.
Qed.
Lemma without_nodup : forall A (l : list (nat * A)) k, NoDup (map fst l) -> NoDup (map fst (without l k)).
Proof.
  intros A l k. induction l as [|[c x] t IH]; cbn; [auto|]. intros ND. inversion ND as [|? ? N1 N2]; subst. destruct (Nat.eqb k c); [auto|]. cbn.
  constructor; [|auto]. intros H. apply without_in in H. tauto.
Qed.
Lemma flat_map_split : forall A (f : A -> heap) (l : list (nat * A)) k x, NoDup (map fst l) -> assoc l k = Some x ->
  Permutation (flat_map (fun p => f (snd p)) l) (f x ++ flat_map (fun p => f (snd p)) (without l k)).
Proof.
  intros A f l k x. induction l as [|[c y] t IH]; cbn; [discriminate|]. intros ND. inversion ND as [|? ? N1 N2]; subst. destruct (Nat.eqb_spec k c) as [E|E].
  - intros H. injection H as ->. subst c. rewrite without_none; [apply Permutation_refl|]. destruct (assoc t k) as [z|] eqn:Ez; [|reflexivity].
    exfalso. apply N1. clear - Ez. induction t as [|[c x] t IH]; [discriminate|]. cbn in *. destruct (Nat.eqb_spec k c); [auto|right; auto].
  - intros H. cbn. eapply perm_trans; [apply Permutation_app_head; exact (IH N2 H)|]. apply Permutation_app_swap_app.
Qed.
(** Keys and contexts with their cells. *)
Definition cells_c (cs : list (nat * cx)) : heap := flat_map (fun p => foot_c (snd p)) cs.
Definition cells_k (ks : list (nat * (Z * option kx))) : heap := flat_map (fun p => foot_ok (snd (snd p))) ks.

Section Refine.
Variable malloc : nat -> heap -> option nat.
Variable sn2nid : list N -> Z.
Variable d2i : list N -> option params.
Variable d2o : list N -> option (list N).
Variable solve : N -> N -> option N.
Hypothesis HA : allocator malloc.
Let full := never_fails malloc.
Notation exec := (exec malloc sn2nid d2i d2o solve).
Notation run := (run malloc sn2nid d2i d2o solve).
Notation success := (success sn2nid d2i d2o solve).
Notation next := (next sn2nid d2i d2o solve).
Notation permitted := (permitted sn2nid d2i d2o solve).

Record inv (w : world) (s : state) (L : heap) (cs : list (nat * cx)) (ks : list (nat * (Z * option kx))) : Prop := INV {
  i_ctx : w_ctx w = map (fun '(c, x) => (c, Some (x_ptr x))) cs;
  i_key : w_key w = map (fun '(k, p) => (k, evp_of (fst p) (snd p))) ks;
  i_nc : NoDup (map fst cs);
  i_nk : NoDup (map fst ks);
  i_heap : Permutation (fst (w_mem w)) (cells_c cs ++ cells_k ks ++ L);
  i_nd : NoDup (map fst (fst (w_mem w)));
  i_sc : forall c, match assoc cs c with Some x => exists o, s_ctx s c = Some o /\ rel x o | None => s_ctx s c = None end;
  i_sk : forall k, s_key s k = option_map (fun p => pkey_of (fst p) (snd p)) (assoc ks k)
}.
Definition R w s L := exists cs ks, inv w s L cs ks.
Definition good (s : state) (o : op) (L : heap) (r : step (answer * world)) : Prop :=
  r = Loop \/ (~ legal full s o /\ r = Undef) \/
  exists a w' L', r = Ret (a, w') /\ permitted full s o a /\ R w' (next s o a) (L' ++ L) /\ Forall (fun c => snd c = OTemp) L' /\ (L' = [] \/ exists k, o = PrivEncode k /\ a = Bool false).

(** A call in its memory. *)
Lemma call_wp : forall A (m : M A) (f : A -> mem -> answer * world) w s o L pre F post,
  Permutation (fst (w_mem w)) (pre ++ F) -> NoDup (map fst (fst (w_mem w))) ->
  wpu (~ legal full s o) m post pre ->
  (forall a Q h n, post a Q -> Permutation h (Q ++ F) -> NoDup (map fst h) ->
     exists L', permitted full s o (fst (f a (h, n))) /\ R (snd (f a (h, n))) (next s o (fst (f a (h, n)))) (L' ++ L) /\ Forall (fun c => snd c = OTemp) L' /\
       (L' = [] \/ exists k, o = PrivEncode k /\ fst (f a (h, n)) = Bool false)) ->
  good s o L (call w m f).
Proof.
  intros A m f w s o L pre F post P ND H K. assert (w_mem w = (fst (w_mem w), snd (w_mem w))) as E by (destruct (w_mem w); reflexivity).
  generalize dependent (snd (w_mem w)). generalize dependent (fst (w_mem w)). intros h P ND n E.
  assert (call w m f = match m (h, n) with Undef => Undef | Loop => Loop | Ret (a, h) => Ret (f a h) end) as -> by (unfold call; rewrite E; reflexivity).
  change (@pair heap nat h n) with (@pair (list (nat * obj)) nat h n).
  destruct (H h n F P ND) as [E1|[[U1 E1]|(a & h' & n' & Q & E1 & HQ & P' & ND')]]; rewrite E1.
  - left. reflexivity.
  - right. left. auto.
  - right. right. destruct (K a Q h' n' HQ P' ND') as (L' & K1 & K2 & K3 & K4). exists (fst (f a (h', n'))), (snd (f a (h', n'))), L'. split; [f_equal; apply surjective_pairing|]. auto.
Qed.

(** Handles. *)
Lemma ctx_handle : forall w s L cs ks c, inv w s L cs ks -> assoc (w_ctx w) c = option_map (fun x => Some (x_ptr x)) (assoc cs c).
Proof. intros w s L cs ks c I. rewrite (i_ctx _ _ _ _ _ I). apply (assoc_map cx (option nat) (fun x => Some (x_ptr x))). Qed.
Lemma key_handle : forall w s L cs ks k, inv w s L cs ks -> assoc (w_key w) k = option_map (fun p => evp_of (fst p) (snd p)) (assoc ks k).
Proof. intros w s L cs ks k I. rewrite (i_key _ _ _ _ _ I). apply (assoc_map (Z * option kx) evp_key (fun p => evp_of (fst p) (snd p))). Qed.
Lemma ctx_split : forall w s L cs ks c x, inv w s L cs ks -> assoc cs c = Some x ->
  Permutation (fst (w_mem w)) (foot_c x ++ cells_c (without cs c) ++ cells_k ks ++ L).
Proof.
  intros w s L cs ks c x I E. eapply perm_trans; [apply (i_heap _ _ _ _ _ I)|]. rewrite (app_assoc (foot_c x)). apply Permutation_app_tail.
  apply (flat_map_split cx foot_c). apply (i_nc _ _ _ _ _ I). exact E.
Qed.
Lemma key_split : forall w s L cs ks k t y, inv w s L cs ks -> assoc ks k = Some (t, y) ->
  Permutation (fst (w_mem w)) (foot_ok y ++ cells_c cs ++ cells_k (without ks k) ++ L).
Proof.
  intros w s L cs ks k t y I E. eapply perm_trans; [apply (i_heap _ _ _ _ _ I)|]. eapply perm_trans; [|apply Permutation_app_swap_app]. apply Permutation_app_head. rewrite (app_assoc (foot_ok y)). apply Permutation_app_tail.
  apply (flat_map_split (Z * option kx) (fun p => foot_ok (snd p)) ks k (t, y)); [apply (i_nk _ _ _ _ _ I)|exact E].
Qed.
(** New memory, the same handles. *)
Lemma inv_same : forall w s L cs ks h n L', inv w s L cs ks -> Permutation h (cells_c cs ++ cells_k ks ++ L') -> NoDup (map fst h) -> inv (W (h, n) (w_ctx w) (w_key w)) s L' cs ks.
Proof. intros w s L cs ks h n L' I P ND. destruct I. constructor; assumption. Qed.
(** Another context and perhaps another key for the handles. *)
Definition replace (cs : list (nat * cx)) (c : nat) (x' : cx) : list (nat * cx) := map (fun '(q, z) => (q, if Nat.eqb q c then x' else z)) cs.
Lemma replace_fst : forall cs c x', map fst (replace cs c x') = map fst cs.
Proof. intros cs c x'. induction cs as [|[q z] t IH]; [reflexivity|]. cbn. f_equal. exact IH. Qed.
Lemma replace_assoc : forall cs c x x', assoc cs c = Some x -> forall q, assoc (replace cs c x') q = if Nat.eqb q c then Some x' else assoc cs q.
Proof.
  intros cs c x x' E q. induction cs as [|[r z] t IH]; [discriminate|]. cbn in *. destruct (Nat.eqb_spec c r) as [E1|E1].
  - subst r. destruct (Nat.eqb_spec q c) as [E2|E2]; [subst q; rewrite Nat.eqb_refl; reflexivity|]. clear IH E. induction t as [|[r z'] t IH]; [reflexivity|]. cbn.
    destruct (Nat.eqb_spec q r) as [E3|E3]; [|exact IH]. subst r. destruct (Nat.eqb_spec q c); [contradiction|reflexivity].
  - destruct (Nat.eqb_spec q r) as [E2|E2]; [subst r; destruct (Nat.eqb_spec q c); [congruence|reflexivity]|]. apply IH. exact E.
Qed.
Lemma replace_ptr : forall cs c x x', NoDup (map fst cs) -> assoc cs c = Some x -> x_ptr x' = x_ptr x ->
  map (fun '(c, x) => (c, Some (x_ptr x))) cs = map (fun '(c, x) => (c, Some (x_ptr x))) (replace cs c x').
Proof.
  intros cs c x x' ND E Ex. unfold replace. rewrite map_map. apply map_ext_in. intros [q z] Hin. destruct (Nat.eqb_spec q c) as [E1|E1]; [|reflexivity]. subst q.
  rewrite Ex. replace z with x; [reflexivity|]. induction cs as [|[r y] t IH]; [destruct Hin|]. cbn in *. inversion ND as [|? ? N1 N2]; subst. destruct Hin as [Hin|Hin].
  + injection Hin as -> ->. rewrite Nat.eqb_refl in E. congruence.
  + destruct (Nat.eqb_spec c r) as [E1|E1]; [exfalso; subst r; apply N1; apply (in_map fst _ _ Hin)|]. auto.
Qed.
Lemma replace_cells : forall cs c x x', NoDup (map fst cs) -> assoc cs c = Some x -> Permutation (cells_c (replace cs c x')) (foot_c x' ++ cells_c (without cs c)).
Proof.
  intros cs c x x' ND E. eapply perm_trans; [apply (flat_map_split cx foot_c _ c x'); [rewrite replace_fst; exact ND|rewrite (replace_assoc _ _ _ _ E), Nat.eqb_refl; reflexivity]|].
  apply Permutation_app_head. clear. unfold cells_c. induction cs as [|[q z] t IH]; [apply Permutation_refl|]. cbn. rewrite (Nat.eqb_sym c q).
  destruct (Nat.eqb q c) eqn:Eq; [exact IH|]. cbn [flat_map snd]. apply Permutation_app_head. exact IH.
Qed.
Lemma inv_ctx_set : forall w s L cs ks c x x' o h n, inv w s L cs ks -> assoc cs c = Some x -> x_ptr x' = x_ptr x -> rel x' o ->
  Permutation h (foot_c x' ++ cells_c (without cs c) ++ cells_k ks ++ L) -> NoDup (map fst h) ->
  inv (W (h, n) (w_ctx w) (w_key w)) (set_ctx s c (Some o)) L (replace cs c x') ks.
Proof.
  intros w s L cs ks c x x' o h n I E Ex Rx P ND. destruct I. constructor; cbn [w_ctx w_key w_mem fst s_ctx s_key set_ctx]; try assumption.
  - rewrite i_ctx0. eapply replace_ptr; eassumption.
  - rewrite replace_fst. exact i_nc0.
  - eapply perm_trans; [exact P|]. rewrite (app_assoc (foot_c x')). apply Permutation_app_tail. apply Permutation_sym. eapply replace_cells; eassumption.
  - intros q. rewrite (replace_assoc _ _ _ _ E). unfold upd. destruct (Nat.eqb_spec q c) as [E1|E1]; [exists o; auto|]. apply i_sc0.
Qed.
Lemma inv_ctx_new : forall w s L cs ks c x o h n, inv w s L cs ks -> assoc cs c = None -> rel x o ->
  Permutation h (foot_c x ++ cells_c cs ++ cells_k ks ++ L) -> NoDup (map fst h) ->
  inv (W (h, n) ((c, Some (x_ptr x)) :: w_ctx w) (w_key w)) (set_ctx s c (Some o)) L ((c, x) :: cs) ks.
Proof.
  intros w s L cs ks c x o h n I E Rx P ND. destruct I. constructor; cbn [w_ctx w_key w_mem fst s_ctx s_key set_ctx].
  - rewrite i_ctx0. reflexivity.
  - exact i_key0.
  - cbn. constructor; [apply assoc_none; exact E|exact i_nc0].
  - exact i_nk0.
  - cbn [cells_c flat_map snd]. rewrite <- app_assoc. exact P.
  - exact ND.
  - intros q. cbn. unfold upd. destruct (Nat.eqb q c); [exists o; auto|apply i_sc0].
  - exact i_sk0.
Qed.
Lemma inv_ctx_free : forall w s L cs ks c h n, inv w s L cs ks ->
  Permutation h (cells_c (without cs c) ++ cells_k ks ++ L) -> NoDup (map fst h) ->
  inv (W (h, n) (without (w_ctx w) c) (w_key w)) (set_ctx s c None) L (without cs c) ks.
Proof.
  intros w s L cs ks c h n I P ND. destruct I. constructor; cbn [w_ctx w_key w_mem fst s_ctx s_key set_ctx]; try assumption.
  - rewrite i_ctx0. apply (without_map cx (option nat) (fun x => Some (x_ptr x))).
  - apply without_nodup. exact i_nc0.
  - intros q. rewrite assoc_without. unfold upd. destruct (Nat.eqb q c); [reflexivity|apply i_sc0].
Qed.
(** A key set or removed. *)
Lemma inv_key_set : forall w s L cs ks k t y h n, inv w s L cs ks ->
  Permutation h (foot_ok y ++ cells_c cs ++ cells_k (without ks k) ++ L) -> NoDup (map fst h) ->
  inv (W (h, n) (w_ctx w) ((k, evp_of t y) :: without (w_key w) k)) (set_pkey s k (Some (pkey_of t y))) L cs ((k, (t, y)) :: without ks k).
Proof.
  intros w s L cs ks k t y h n I P ND. destruct I. constructor; cbn [w_ctx w_key w_mem fst s_ctx s_key set_pkey]; try assumption.
  - cbn. rewrite i_key0. rewrite (without_map (Z * option kx) evp_key (fun p => evp_of (fst p) (snd p))). reflexivity.
  - cbn. constructor; [|apply without_nodup; exact i_nk0]. intros H. apply without_in in H. tauto.
  - cbn [cells_k flat_map snd]. eapply perm_trans; [exact P|]. eapply perm_trans; [|apply Permutation_app_comm with (l := (foot_ok y ++ cells_k (without ks k)) ++ L)].
    rewrite <- !app_assoc. apply Permutation_app_head. eapply perm_trans; [apply Permutation_app_comm|]. rewrite <- app_assoc. apply Permutation_refl.
  - intros q. cbn. unfold upd. destruct (Nat.eqb_spec q k) as [E|E]; [reflexivity|]. rewrite assoc_without. apply Nat.eqb_neq in E. rewrite E. apply i_sk0.
Qed.
Lemma inv_key_free : forall w s L cs ks k h n, inv w s L cs ks ->
  Permutation h (cells_c cs ++ cells_k (without ks k) ++ L) -> NoDup (map fst h) ->
  inv (W (h, n) (w_ctx w) (without (w_key w) k)) (set_pkey s k None) L cs (without ks k).
Proof.
  intros w s L cs ks k h n I P ND. destruct I. constructor; cbn [w_ctx w_key w_mem fst s_ctx s_key set_pkey]; try assumption.
  - rewrite i_key0. apply (without_map (Z * option kx) evp_key (fun p => evp_of (fst p) (snd p))).
  - apply without_nodup. exact i_nk0.
  - intros q. unfold upd. rewrite assoc_without. destruct (Nat.eqb q k); [reflexivity|apply i_sk0].
Qed.
Lemma inv_gen_set : forall w s L cs ks c x x' o k t y h n, inv w s L cs ks -> assoc cs c = Some x -> s_ctx s c = Some o -> x_ptr x' = x_ptr x -> rel x' o ->
  Permutation h (foot_c x' ++ foot_ok y ++ cells_c (without cs c) ++ cells_k (without ks k) ++ L) -> NoDup (map fst h) ->
  inv (W (h, n) (w_ctx w) ((k, evp_of t y) :: without (w_key w) k)) (set_pkey s k (Some (pkey_of t y))) L (replace cs c x') ((k, (t, y)) :: without ks k).
Proof.
  intros w s L cs ks c x x' o k t y h n I E Eo Ex Rx P ND. destruct I. constructor; cbn [w_ctx w_key w_mem fst s_ctx s_key set_pkey]; try assumption.
  - rewrite i_ctx0. eapply replace_ptr; eassumption.
  - cbn. rewrite i_key0. rewrite (without_map (Z * option kx) evp_key (fun p => evp_of (fst p) (snd p))). reflexivity.
  - rewrite replace_fst. exact i_nc0.
  - cbn. constructor; [|apply without_nodup; exact i_nk0]. intros H. apply without_in in H. tauto.
  - eapply perm_trans; [exact P|]. eapply perm_trans; [|apply Permutation_app_tail; apply Permutation_sym; eapply replace_cells; eassumption].
    cbn [cells_k flat_map snd]. rewrite <- !app_assoc. apply Permutation_app_head. apply Permutation_app_swap_app.
  - intros q. rewrite (replace_assoc _ _ _ _ E). destruct (Nat.eqb_spec q c) as [E1|E1]; [subst q; exists o; auto|]. apply i_sc0.
  - intros q. cbn. unfold upd. destruct (Nat.eqb_spec q k) as [E0|E0]; [reflexivity|]. rewrite assoc_without. apply Nat.eqb_neq in E0. rewrite E0. apply i_sk0.
Qed.
Lemma inv_gen_free : forall w s L cs ks c x x' o k h n, inv w s L cs ks -> assoc cs c = Some x -> s_ctx s c = Some o -> x_ptr x' = x_ptr x -> rel x' o ->
  Permutation h (foot_c x' ++ cells_c (without cs c) ++ cells_k (without ks k) ++ L) -> NoDup (map fst h) ->
  inv (W (h, n) (w_ctx w) (without (w_key w) k)) (set_pkey s k None) L (replace cs c x') (without ks k).
Proof.
  intros w s L cs ks c x x' o k h n I E Eo Ex Rx P ND. destruct I. constructor; cbn [w_ctx w_key w_mem fst s_ctx s_key set_pkey]; try assumption.
  - rewrite i_ctx0. eapply replace_ptr; eassumption.
  - rewrite i_key0. apply (without_map (Z * option kx) evp_key (fun p => evp_of (fst p) (snd p))).
  - rewrite replace_fst. exact i_nc0.
  - apply without_nodup. exact i_nk0.
  - eapply perm_trans; [exact P|]. eapply perm_trans; [|apply Permutation_app_tail; apply Permutation_sym; eapply replace_cells; eassumption].
    rewrite <- !app_assoc. apply Permutation_refl.
  - intros q. rewrite (replace_assoc _ _ _ _ E). destruct (Nat.eqb_spec q c) as [E1|E1]; [subst q; exists o; auto|]. apply i_sc0.
  - intros q. unfold upd. rewrite assoc_without. destruct (Nat.eqb q k); [reflexivity|apply i_sk0].
Qed.
End Refine.
