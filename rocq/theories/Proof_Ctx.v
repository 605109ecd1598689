(** Reasoning about the heap of Model_Ctx: the cells a call uses, and a frame. *)
From Coq Require Import ZArith Lia Permutation.
From Verif Require Import Base Model_Gf2m Model_Compress Model_Ec Model_Params Model_Curves Model_Sign Model_Asn1 Model_Pmeth Model_Key Model_Ameth Model_Ctx Spec_Ctx.

Lemma live_in : forall h p o, NoDup (map fst h) -> In (p, o) h -> live h p = Some o.
Proof.
  induction h as [|[q x] t IH]; intros p o ND HI; [destruct HI|]. cbn in *. inversion ND as [|? ? N1 N2]; subst.
  destruct HI as [HI|HI]; [injection HI as -> ->; rewrite Nat.eqb_refl; reflexivity|].
  destruct (Nat.eqb_spec p q) as [E|E]; [exfalso; apply N1; rewrite <- E; apply (in_map fst _ _ HI)|]. apply IH; assumption.
Qed.
Lemma live_none : forall h p, live h p = None -> ~ In p (map fst h).
Proof.
  induction h as [|[q x] t IH]; intros p E; [intros []|]. cbn in *. destruct (Nat.eqb_spec p q) as [Hpq|Hn]; [discriminate|].
  intros [H|H]; [congruence|exact (IH _ E H)].
Qed.
Lemma release_perm : forall h p o, live h p = Some o -> Permutation h ((p, o) :: release h p).
Proof.
  induction h as [|[q x] t IH]; intros p o E; [discriminate|]. cbn in *. destruct (Nat.eqb_spec p q) as [Hpq|Hn].
  - subst. injection E as ->. apply Permutation_refl.
  - eapply perm_trans; [apply perm_skip; exact (IH _ _ E)|]. apply perm_swap.
Qed.
Lemma store_perm : forall h p o o', live h p = Some o -> Permutation (store h p o') ((p, o') :: release h p).
Proof.
  induction h as [|[q x] t IH]; intros p o o' E; [discriminate|]. cbn in *. destruct (Nat.eqb_spec p q) as [Hpq|Hn].
  - subst. apply Permutation_refl.
  - eapply perm_trans; [apply perm_skip; exact (IH _ _ o' E)|]. apply perm_swap.
Qed.
Lemma nodup_perm : forall (h h' : heap), Permutation h h' -> NoDup (map fst h) -> NoDup (map fst h').
Proof. intros h h' P ND. eapply Permutation_NoDup; [apply Permutation_map; exact P|exact ND]. Qed.

Section WP.
Variable malloc : nat -> heap -> option nat.
Hypothesis HA : allocator malloc.
Let full := never_fails malloc.

(** Whether undefined behaviour is allowed. *)
Variable U : Prop.
(** From a heap with the cells [pre] and any others, the call ends, unless it runs for ever,
    with cells and a result as [post] says, and the others unchanged. *)
Definition wpu {A} (m : M A) (post : A -> heap -> Prop) (pre : heap) : Prop :=
  forall h n F, Permutation h (pre ++ F) -> NoDup (map fst h) ->
  m (h, n) = Loop \/ (U /\ m (h, n) = Undef) \/ exists a h' n' Q, m (h, n) = Ret (a, (h', n')) /\ post a Q /\ Permutation h' (Q ++ F) /\ NoDup (map fst h').

Local Notation wp := wpu.
Lemma wp_ret : forall A (a : A) (post : A -> heap -> Prop) pre, post a pre -> wp (ret a) post pre.
Proof. intros A a post pre H h n F P ND. right. right. exists a, h, n, pre. auto. Qed.
Lemma wp_bind : forall A B (m : M A) (f : A -> M B) (post : B -> heap -> Prop) pre, wp m (fun a h => wp (f a) post h) pre -> wp (bindM m f) post pre.
Proof.
  intros A B m f post pre H h n F P ND. unfold bindM. destruct (H h n F P ND) as [E|[[Hu E]|(a & h' & n' & Q & E & HQ & P' & ND')]].
  - left. rewrite E. reflexivity.
  - right. left. rewrite E. auto.
  - rewrite E. exact (HQ h' n' F P' ND').
Qed.
Lemma wp_mono : forall A (m : M A) (p q : A -> heap -> Prop) pre, wp m p pre -> (forall a h, p a h -> q a h) -> wp m q pre.
Proof.
  intros A m p q pre H I h n F P ND. destruct (H h n F P ND) as [E|[[Hu E]|(a & h' & n' & Q & E & HQ & R)]]; [left; exact E|right; left; auto|].
  right. right. exists a, h', n', Q. split; [exact E|]. split; [exact (I _ _ HQ)|exact R].
Qed.
Lemma wp_perm : forall A (m : M A) (post : A -> heap -> Prop) pre pre', Permutation pre pre' -> wp m post pre' -> wp m post pre.
Proof. intros A m post pre pre' P H h n F P1 ND. apply H; [|exact ND]. eapply perm_trans; [exact P1|]. apply Permutation_app_tail. exact P. Qed.
(** The frame rule. *)
Lemma wp_frame : forall A (m : M A) (p : A -> heap -> Prop) pre F (q : A -> heap -> Prop), wp m p pre -> (forall a h, p a h -> q a (h ++ F)) -> wp m q (pre ++ F).
Proof.
  intros A m p pre F q H I h n G P ND. rewrite <- app_assoc in P. destruct (H h n (F ++ G) P ND) as [E|[[Hu E]|(a & h' & n' & Q & E & HQ & P' & ND')]]; [left; exact E|right; left; auto|].
  right. right. exists a, h', n', (Q ++ F). split; [exact E|]. split; [exact (I _ _ HQ)|]. rewrite <- app_assoc. auto.
Qed.
Lemma wp_live : forall pre p o rest h F, Permutation pre ((p, o) :: rest) -> Permutation h (pre ++ F) -> NoDup (map fst h) -> live h p = Some o.
Proof.
  intros pre p o rest h F P1 P2 ND. apply live_in; [exact ND|]. eapply Permutation_in; [apply Permutation_sym; exact P2|].
  apply in_or_app. left. eapply Permutation_in; [apply Permutation_sym; exact P1|]. left. reflexivity.
Qed.
Lemma wp_get : forall p o rest (post : obj -> heap -> Prop) pre, Permutation pre ((p, o) :: rest) -> post o pre -> wp (get p) post pre.
Proof.
  intros p o rest post pre P H h n F P2 ND. right. right. exists o, h, n, pre. unfold get. rewrite (wp_live _ _ _ _ _ _ P P2 ND). auto.
Qed.
Lemma wp_put : forall p o o' rest (post : unit -> heap -> Prop) pre, Permutation pre ((p, o) :: rest) -> post tt ((p, o') :: rest) -> wp (put p o') post pre.
Proof.
  intros p o o' rest post pre P H h n F P2 ND. pose proof (wp_live _ _ _ _ _ _ P P2 ND) as L. right. right.
  exists tt, (store h p o'), n, ((p, o') :: rest). unfold put. rewrite L. split; [reflexivity|]. split; [exact H|].
  assert (Permutation ((p, o) :: release h p) ((p, o) :: rest ++ F)) as P3
    by (eapply perm_trans; [apply Permutation_sym; apply release_perm; exact L|]; eapply perm_trans; [exact P2|]; exact (Permutation_app_tail F P)).
  apply Permutation_cons_inv in P3.
  assert (Permutation (store h p o') (((p, o') :: rest) ++ F)) as P4 by (eapply perm_trans; [apply (store_perm _ _ _ _ L)|]; apply perm_skip; exact P3).
  split; [exact P4|]. apply (nodup_perm _ _ (Permutation_sym P4)). cbn.
  assert (Permutation h ((p, o) :: rest ++ F)) as P5 by (eapply perm_trans; [exact P2|]; exact (Permutation_app_tail F P)).
  apply (nodup_perm _ _ P5) in ND. exact ND.
Qed.
Lemma wp_free : forall p o rest (post : unit -> heap -> Prop) pre, Permutation pre ((p, o) :: rest) -> post tt rest -> wp (free p) post pre.
Proof.
  intros p o rest post pre P H h n F P2 ND. pose proof (wp_live _ _ _ _ _ _ P P2 ND) as L. right. right.
  exists tt, (release h p), n, rest. unfold free. rewrite L. split; [reflexivity|]. split; [exact H|].
  assert (Permutation ((p, o) :: release h p) ((p, o) :: rest ++ F)) as P3
    by (eapply perm_trans; [apply Permutation_sym; apply release_perm; exact L|]; eapply perm_trans; [exact P2|]; exact (Permutation_app_tail F P)).
  apply Permutation_cons_inv in P3. split; [exact P3|].
  pose proof (nodup_perm _ _ (release_perm _ _ _ L) ND) as ND'. cbn in ND'. inversion ND'; assumption.
Qed.
Lemma wp_new : forall o (post : option nat -> heap -> Prop) pre, (forall p, post (Some p) ((p, o) :: pre)) -> (~ full -> post None pre) -> wp (new malloc o) post pre.
Proof.
  intros o post pre H1 H2 h n F P ND. right. right. unfold new. destruct (malloc n h) as [p|] eqn:E.
  - exists (Some p), ((p, o) :: h), (S n), ((p, o) :: pre). split; [reflexivity|]. split; [apply H1|]. split; [apply perm_skip; exact P|].
    cbn. constructor; [|exact ND]. apply live_none. exact (HA _ _ _ E).
  - exists None, h, (S n), pre. split; [reflexivity|]. split; [apply H2; intros Fu; exact (Fu _ _ E)|]. auto.
Qed.
Lemma wp_try : forall (post : bool -> heap -> Prop) pre, post true pre -> (~ full -> post false pre) -> wp (try malloc) post pre.
Proof.
  intros post pre H1 H2 h n F P ND. right. right. unfold try. destruct (malloc n h) as [p|] eqn:E.
  - exists true, h, (S n), pre. auto.
  - exists false, h, (S n), pre. split; [reflexivity|]. split; [apply H2; intros Fu; exact (Fu _ _ E)|]. auto.
Qed.
Lemma wp_loop : forall A (post : A -> heap -> Prop) pre, wp (fun _ => Loop) post pre.
Proof. intros A post pre h n F P ND. left. reflexivity. Qed.
Lemma wp_undef : forall A (post : A -> heap -> Prop) pre, U -> wp undef post pre.
Proof. intros A post pre HU h n F P ND. right. left. auto. Qed.
End WP.

(** Finds the cell at an address. *)
Lemma cell_skip : forall (a c : nat * obj) l r, Permutation l (c :: r) -> Permutation (a :: l) (c :: a :: r).
Proof. intros a c l r P. eapply perm_trans; [apply perm_skip; exact P|]. apply perm_swap. Qed.
Ltac cell := first [ apply Permutation_refl | apply cell_skip; cell ].
(** Permutations of lists of cells ending alike. *)
Lemma perm_find : forall (a : nat * obj) l r r', Permutation r (a :: r') -> Permutation l r' -> Permutation (a :: l) r.
Proof. intros a l r r' P Q. eapply perm_trans; [apply perm_skip; exact Q|]. apply Permutation_sym. exact P. Qed.
Ltac perm := first [ apply Permutation_refl | eapply perm_find; [cell | perm] ].
(** Unfolds the call that comes first. *)
Ltac unf := match goal with |- wpu ?U ?m ?Q ?h => let c := (match m with ?c _ _ _ _ => c | ?c _ _ _ => c | ?c _ _ => c | ?c _ => c end) in let m' := eval unfold c in m in change (wpu U m' Q h) end.
Ltac wps1 HA := match goal with
  | |- wpu _ (bindM (key_new _) _) _ _ => fail 1
  | |- wpu _ (bindM _ _) _ _ => apply wp_bind
  | |- wpu _ (ret _) _ _ => apply wp_ret
  | |- wpu _ (get _) _ _ => eapply wp_get; [cell|]
  | |- wpu _ (put _ _) _ _ => eapply wp_put; [cell|]
  | |- wpu _ (free _) _ _ => eapply wp_free; [cell|]
  | |- wpu _ (new _ _) _ _ => apply (wp_new _ HA _); [let p := fresh "p" in intros p | let OOM := fresh "OOM" in intros OOM]
  | |- wpu _ (try _) _ _ => apply wp_try; [|let OOM := fresh "OOM" in intros OOM]
  | |- wpu _ (fun _ => Loop) _ _ => apply wp_loop
    | |- wpu _ (get_ctx _) _ _ => unf
    | |- wpu _ (get_key _) _ _ => unf
    | |- wpu _ (get_ec _) _ _ => unf
    | |- wpu _ (get_group _) _ _ => unf
    | |- wpu _ (get_sbox _) _ _ => unf
    | |- wpu _ (free_group _) _ _ => unf
    | |- wpu _ (free_ec _) _ _ => unf
    | |- wpu _ (free_sbox _) _ _ => unf
    | |- wpu _ (free_str _) _ _ => unf
    | |- wpu _ (give_str _) _ _ => unf
    | |- wpu _ (give _) _ _ => unf
    | |- wpu _ (rd (Ptr _)) _ _ => unf
    | |- wpu _ (deref (Some _)) _ _ => unf
    | |- wpu _ (free_opt _ (Some _)) _ _ => unf
    | |- wpu _ (free_opt _ None) _ _ => unf
    | |- wpu _ (copy_sbox _ _) _ _ => unf
    | |- wpu _ (set_group _ _ _) _ _ => unf
  end.
Ltac wps HA := repeat (cbn [app fst snd option_map negb]; wps1 HA); cbn [app fst snd option_map negb].

(** The cells of a context and of a key. *)
Definition opt_cell {A} (mk : A -> obj) (o : option (nat * A)) : heap := match o with Some (p, a) => [(p, mk a)] | None => [] end.
Record cx := CX { x_ptr : nat; x_type : Z; x_group : option (nat * egroup); x_sbox : option (nat * list N) }.
Definition foot_c (x : cx) : heap :=
  (x_ptr x, OCtx (x_type x) (Ptr (option_map fst (x_group x))) (Ptr (option_map fst (x_sbox x)))) :: opt_cell OGroup (x_group x) ++ opt_cell OSbox (x_sbox x).
Record kx := KX { y_ptr : nat; y_ec : nat; y_val : eckey; y_sbox : option (nat * list N) }.
Definition foot_k (y : kx) : heap :=
  (y_ptr y, OKey (Ptr (Some (y_ec y))) (Ptr (option_map fst (y_sbox y)))) :: (y_ec y, OEc (y_val y)) :: opt_cell OSbox (y_sbox y).
Definition val_k (y : kx) : dstu_key := DKEY (y_val y) (option_map snd (y_sbox y)).

Section Funcs.
Variable U : Prop.
Local Notation wp := (wpu U).
Variable malloc : nat -> heap -> option nat.
Hypothesis HA : allocator malloc.
Let full := never_fails malloc.

Lemma key_new_wp : forall (post : option nat -> heap -> Prop) pre,
  (forall p e, post (Some p) (foot_k (KX p e (ECKEY None None None) None) ++ pre)) -> (~ full -> post None pre) -> wp (key_new malloc) post pre.
Proof.
  intros post pre H1 H2. unfold key_new. wps HA; try (apply H2; assumption). apply H1.
Qed.
Lemma key_free_wp : forall y (post : unit -> heap -> Prop) F, post tt F -> wp (key_free (Some (y_ptr y))) post (foot_k y ++ F).
Proof.
  intros [p e v [[s sv]|]] post F H; unfold key_free, foot_k, opt_cell; cbn; wps HA; cbn; wps HA; exact H.
Qed.
Lemma pkey_free_wp : forall t (y : option kx) (post : unit -> heap -> Prop) F, post tt F -> wp (pkey_free (t, option_map y_ptr y)) post ((match y with Some y => foot_k y | None => [] end) ++ F).
Proof. intros t [y|] post F H; unfold pkey_free; cbn; [apply key_free_wp; exact H|]. wps HA. exact H. Qed.
Lemma ctx_free_wp : forall x (post : unit -> heap -> Prop) F, post tt F -> wp (ctx_free (Some (x_ptr x))) post (foot_c x ++ F).
Proof.
  intros [p t [[g gv]|] [[s sv]|]] post F H; unfold ctx_free, foot_c, opt_cell; cbn; wps HA; cbn; wps HA; exact H.
Qed.
Ltac oom H := apply H; [solve [auto]|perm].
Lemma ctx_copy_wp : forall x (post : option nat -> heap -> Prop) F,
  (forall x', x_type x' = x_type x -> option_map snd (x_group x') = option_map snd (x_group x) -> option_map snd (x_sbox x') = option_map snd (x_sbox x) ->
     forall h, Permutation h (foot_c x' ++ foot_c x ++ F) -> post (Some (x_ptr x')) h) ->
  (~ full -> forall h, Permutation h (foot_c x ++ F) -> post None h) ->
  wp (ctx_copy malloc (x_ptr x)) post (foot_c x ++ F).
Proof.
  intros [p t [[g gv]|] [[s sv]|]] post F H1 H2; unfold ctx_copy, ctx_new, foot_c, opt_cell; cbn; wps HA; cbn; wps HA.
  all: try (apply H2; [assumption|]; perm).
  - apply (H1 (CX p0 t (Some (p1, gv)) (Some (p2, sv))) eq_refl eq_refl eq_refl). unfold foot_c, opt_cell. cbn. perm.
  - apply (H1 (CX p0 t (Some (p1, gv)) None) eq_refl eq_refl eq_refl). unfold foot_c, opt_cell. cbn. perm.
  - apply (H1 (CX p0 t None (Some (p1, sv))) eq_refl eq_refl eq_refl). unfold foot_c, opt_cell. cbn. perm.
  - apply (H1 (CX p0 t None None) eq_refl eq_refl eq_refl). unfold foot_c, opt_cell. cbn. perm.
Qed.
Lemma pkey_init_wp : forall nid (post : option nat -> heap -> Prop) pre,
  (forall p, post (Some p) (foot_c (CX p nid None None) ++ pre)) -> (~ full -> post None pre) -> wp (pkey_init malloc nid) post pre.
Proof. intros nid post pre H1 H2. unfold pkey_init, ctx_new. wps HA; [apply H1|apply H2; assumption]. Qed.

(** A context and its options. *)
Definition rel (x : cx) (o : opts) : Prop :=
  x_type x = o_type o /\ option_map snd (x_sbox x) = o_sbox o /\
  match o_curve o with
  | Some g => option_map snd (x_group x) = Some g
  | None => x_group x = None \/ option_map snd (x_group x) = default_group
  end.
Lemma default_nid : group_from_nid 1166 = group_from_named_curve 6.
Proof. unfold group_from_nid. reflexivity. Qed.
Lemma default_curve : option_map Binary (group_from_nid 1166) = default_group.
Proof. exact (f_equal (option_map Binary) default_nid). Qed.
Lemma rel_curve : forall x o p g, rel x o -> x_group x = Some (p, g) -> curve_of o = Some g.
Proof.
  intros x o p g (R1 & R2 & R3) E. unfold curve_of. rewrite E in R3. destruct (o_curve o) as [g'|].
  - injection R3 as ->. reflexivity.
  - destruct R3 as [R3|R3]; [discriminate|]. exact (eq_trans default_curve (eq_sym R3)).
Qed.

Lemma pkey_ctrl_wp : forall x o type p1 p2 (post : bool -> heap -> Prop) F, rel x o ->
  (type = DSTU_SET_CUSTOM_SBOX -> p2 = ANull \/ p1 <> 64%Z \/ exists b, p2 = ABytes b /\ (64 <= length b)%nat) ->
  (type = DSTU_SET_CURVE -> p2 = ANull \/ exists g, p2 = AGroup g) ->
  (type = EVP_PKEY_CTRL_MD -> exists nid, p2 = AMd nid) ->
  (forall x' o', x_ptr x' = x_ptr x -> set_option o type p1 p2 = Some o' -> rel x' o' -> forall h, Permutation h (foot_c x' ++ F) -> post true h) ->
  (set_option o type p1 p2 = None \/ ~ full -> post false (foot_c x ++ F)) ->
  wp (pkey_ctrl malloc (Some (x_ptr x)) type p1 p2) post (foot_c x ++ F).
Proof.
  intros x o type p1 p2 post F R L1 L2 L3 H1 H2. unfold pkey_ctrl.
  destruct (Z.eqb_spec type DSTU_SET_CUSTOM_SBOX) as [->|N1].
  { destruct (L1 eq_refl) as [->|[Hp|(b & -> & Hb)]].
    - wps HA. apply H2. left. reflexivity.
    - assert ((64 =? p1)%Z = false) as E by (apply Z.eqb_neq; auto). rewrite E.
      assert (set_option o DSTU_SET_CUSTOM_SBOX p1 p2 = None) as Es.
      { unfold set_option. destruct p2; cbn; try reflexivity. rewrite Z.eqb_sym, E. reflexivity. }
      destruct p2; cbn [negb]; wps HA; apply H2; left; exact Es.
    - destruct (Z.eqb_spec 64 p1) as [<-|E]; cbn [negb].
      + assert ((length b <? 64)%nat = false) as -> by (apply Nat.ltb_ge; exact Hb).
        assert (set_option o DSTU_SET_CUSTOM_SBOX 64 (ABytes b) = Some (OPTS (o_type o) (o_curve o) (Some (firstn 64 b)))) as Es by reflexivity.
        destruct x as [p t [[gp gv]|] [[s sv]|]]; destruct R as (R1 & R2 & R3); cbn in R1, R2, R3; unfold ctx_set, foot_c, opt_cell; cbn [x_ptr x_type x_group x_sbox option_map fst app].
        all: wps HA; [|apply H2; right; assumption].
        1, 2: refine (H1 (CX p t (Some (gp, gv)) (Some (p0, firstn 64 b))) _ eq_refl Es _ _ _); [split; [exact R1|split; [reflexivity|exact R3]]|].
        3, 4: refine (H1 (CX p t None (Some (p0, firstn 64 b))) _ eq_refl Es _ _ _); [split; [exact R1|split; [reflexivity|exact R3]]|].
        all: unfold foot_c, opt_cell; cbn; perm.
      + wps HA. apply H2. left. unfold set_option. apply Z.eqb_neq in E. rewrite (Z.eqb_sym p1), E. reflexivity. }
  destruct (Z.eqb_spec type DSTU_SET_CURVE) as [->|N2].
  { destruct (L2 eq_refl) as [->|(g & ->)].
    - wps HA. apply H2. left. reflexivity.
    - assert (set_option o DSTU_SET_CURVE p1 (AGroup g) = Some (OPTS (o_type o) (Some g) (o_sbox o))) as Es by reflexivity.
      destruct x as [p t [[gp gv]|] [[sp sv]|]]; destruct R as (R1 & R2 & R3); cbn in R1, R2, R3; unfold ctx_set, foot_c, opt_cell; cbn [x_ptr x_type x_group x_sbox option_map fst app].
      all: wps HA; [|apply H2; right; assumption].
      1, 3: refine (H1 (CX p t (Some (p0, g)) (Some (sp, sv))) _ eq_refl Es _ _ _); [split; [exact R1|split; [exact R2|reflexivity]]|].
      3, 4: refine (H1 (CX p t (Some (p0, g)) None) _ eq_refl Es _ _ _); [split; [exact R1|split; [exact R2|reflexivity]]|].
      all: unfold foot_c, opt_cell; cbn; perm. }
  destruct (Z.eqb_spec type EVP_PKEY_CTRL_MD) as [->|N3].
  { destruct (L3 eq_refl) as (nid & ->). wps HA. destruct (Z.eqb_spec NID_dstu34311 nid) as [<-|E].
    - refine (H1 x o eq_refl eq_refl R _ _). perm.
    - apply H2. left. unfold set_option. apply Z.eqb_neq in E. change 1157%Z with NID_dstu34311. rewrite (Z.eqb_sym nid), E. reflexivity. }
  assert (set_option o type p1 p2 = if existsb (Z.eqb type) [3; 4; 5; 7; 11]%Z then Some o else None) as Es.
  { unfold set_option. apply Z.eqb_neq in N1, N2, N3. change 4097%Z with DSTU_SET_CUSTOM_SBOX. change 4098%Z with DSTU_SET_CURVE. change (type =? 1)%Z with (type =? EVP_PKEY_CTRL_MD)%Z. rewrite N1, N2, N3. destruct p2; reflexivity. }
  wps HA. change (EVP_PKEY_CTRL_PKCS7_ENCRYPT) with 3%Z. change (EVP_PKEY_CTRL_PKCS7_DECRYPT) with 4%Z. change EVP_PKEY_CTRL_PKCS7_SIGN with 5%Z.
  change EVP_PKEY_CTRL_DIGESTINIT with 7%Z. change EVP_PKEY_CTRL_CMS_SIGN with 11%Z.
  cbn [existsb] in Es. rewrite orb_false_r, !orb_assoc in Es.
  destruct (((((type =? 3) || (type =? 4)) || (type =? 5)) || (type =? 7)) || (type =? 11))%Z.
  - refine (H1 x o eq_refl Es R _ _). perm.
  - apply H2. left. exact Es.
Qed.
End Funcs.
