(** The calls of Model_Ctx on their cells. *)
From Coq Require Import ZArith Lia Permutation.
From Verif Require Import Base Lib Model_Gf2m Model_Compress Model_Ec Model_Params Model_Curves Model_Sign Model_Asn1 Model_Pmeth Model_Key Model_Ameth Model_Ctx Spec_Ctx Proof_Ctx.

Lemma perm_mid : forall (a : nat * obj) l r, Permutation (a :: l ++ r) (l ++ a :: r).
Proof. intros a l r. apply Permutation_middle. Qed.
Lemma sbox_option_length : forall v s, sbox_option v = Some s -> length s = 64%nat.
Proof.
  intros v s E. unfold sbox_option in E. destruct (hex2bn v) as [[n neg] x]. destruct (negb (n =? 128)); [discriminate|]. destruct neg; [discriminate|].
  unfold Model_Compress.bn_encode in E. destruct (64 <? num_bytes x); [discriminate|]. destruct (num_bytes x =? 0); [discriminate|]. injection E as <-.
  change (N.to_nat 64) with 64%nat. apply be_bytes_length.
Qed.
Definition foot_ok (y : option kx) : heap := match y with Some y => foot_k y | None => [] end.
Definition pkey_of (t : Z) (y : option kx) : pkey := PKEY t (option_map val_k y).
Definition evp_of (t : Z) (y : option kx) : evp_key := (t, option_map y_ptr y).

Section Calls.
Variable U : Prop.
Local Notation wp := (wpu U).
Variable malloc : nat -> heap -> option nat.
Variable sn2nid : list N -> Z.
Variable d2i : list N -> option params.
Variable d2o : list N -> option (list N).
Variable solve : N -> N -> option N.
Hypothesis HA : allocator malloc.
Let full := never_fails malloc.

Lemma pkey_ctrl_str_wp : forall x o type value (post : bool -> heap -> Prop) F, rel x o ->
  (forall x' o', x_ptr x' = x_ptr x -> set_string sn2nid o type value = Some o' -> rel x' o' -> forall h, Permutation h (foot_c x' ++ F) -> post true h) ->
  (set_string sn2nid o type value = None \/ ~ full -> forall h, Permutation h (foot_c x ++ F) -> post false h) ->
  wp (pkey_ctrl_str malloc sn2nid (Some (x_ptr x)) type value) post (foot_c x ++ F).
Proof.
  intros x o type value post F R H1 H2. unfold pkey_ctrl_str.
  unfold set_string in H1, H2. change same_text with str_eqb in H1, H2. assert (forall a b, str_eqb a b = str_eqb b a) as Sy.
  { intros a b. unfold str_eqb. destruct (list_eq_dec N.eq_dec a b) as [->|Hn]; [destruct (list_eq_dec N.eq_dec b b); congruence|].
    destruct (list_eq_dec N.eq_dec b a); congruence. }
  change [99; 117; 114; 118; 101] with str_curve in H1, H2. change [115; 98; 111; 120] with str_sbox in H1, H2.
  rewrite (Sy type str_curve), (Sy type str_sbox) in H1, H2.
  destruct (str_eqb str_curve type).
  { destruct (Z.eqb_spec (sn2nid value) 0) as [E0|E0].
    { wps HA. apply H2; [|apply Permutation_refl]. left. rewrite E0. reflexivity. }
    destruct (group_from_nid (sn2nid value)) as [g|] eqn:Eg; [|wps HA; apply H2; [left; reflexivity|apply Permutation_refl]].
    wps HA; [|apply H2; [right; assumption|apply Permutation_refl]].
    eapply wp_perm; [apply perm_mid|]. apply (pkey_ctrl_wp U malloc HA x o); [exact R|discriminate|right; eexists; reflexivity|discriminate| |].
    - intros x' o' Ex Es R' h P. change (set_option o DSTU_SET_CURVE 0 (AGroup (Binary g))) with (Some (OPTS (o_type o) (Some (Binary g)) (o_sbox o))) in Es. injection Es as <-.
      eapply wp_perm; [eapply perm_trans; [exact P|]; apply Permutation_sym; apply perm_mid|].
      wps HA. eapply H1; [exact Ex|reflexivity|exact R'|apply Permutation_refl].
    - intros [E|E]; [discriminate|]. eapply wp_perm; [apply Permutation_sym; apply perm_mid|]. wps HA. apply H2; [right; exact E|apply Permutation_refl]. }
  destruct (str_eqb str_sbox type); [|wps HA; apply H2; [left; reflexivity|apply Permutation_refl]].
  wps HA; [|apply H2; [right; assumption|apply Permutation_refl]].
  destruct (sbox_option value) as [s|] eqn:Es0; [|wps HA; apply H2; [left; reflexivity|apply Permutation_refl]].
  pose proof (sbox_option_length _ _ Es0) as Ls.
  eapply wp_perm; [apply perm_mid|]. apply (pkey_ctrl_wp U malloc HA x o); [exact R|intros _; right; right; exists s; split; [reflexivity|lia]|discriminate|discriminate| |].
  - intros x' o' Ex Es R' h P. change (set_option o DSTU_SET_CUSTOM_SBOX 64 (ABytes s)) with (Some (OPTS (o_type o) (o_curve o) (Some (firstn 64 s)))) in Es. pose proof (firstn_all s) as Fa. rewrite Ls in Fa. rewrite Fa in Es. injection Es as <-.
    eapply wp_perm; [eapply perm_trans; [exact P|]; apply Permutation_sym; apply perm_mid|].
    wps HA. eapply H1; [exact Ex|reflexivity|exact R'|apply Permutation_refl].
  - intros [E|E]; [discriminate|]. eapply wp_perm; [apply Permutation_sym; apply perm_mid|]. wps HA. apply H2; [right; exact E|apply Permutation_refl].
Qed.

Lemma assign_wp : forall t0 y0 t y (post : bool * evp_key -> heap -> Prop) F,
  post (true, (t, Some (y_ptr y))) (foot_k y ++ F) -> (~ full -> post (false, (t0, None)) (foot_k y ++ F)) ->
  wp (assign malloc (evp_of t0 y0) t (Some (y_ptr y))) post (foot_ok y0 ++ foot_k y ++ F).
Proof.
  intros t0 y0 t y post F H1 H2. unfold assign. apply wp_bind. apply pkey_free_wp. wps HA; [exact H1|apply H2; assumption].
Qed.

Lemma keygen_wp : forall x o t0 y0 fuel src (post : bool * evp_key -> heap -> Prop) F, rel x o ->
  (forall x' y, x_ptr x' = x_ptr x -> rel x' o -> generated o fuel src = Some (pkey_of (o_type o) (Some y)) ->
     forall h, Permutation h (foot_c x' ++ foot_k y ++ F) -> post (true, evp_of (o_type o) (Some y)) h) ->
  (forall x' y', x_ptr x' = x_ptr x -> rel x' o -> generated o fuel src = None \/ ~ full ->
     forall h, Permutation h (foot_c x' ++ foot_ok y' ++ F) -> post (false, evp_of t0 y') h) ->
  wp (pkey_keygen malloc (Some (x_ptr x)) (evp_of t0 y0) fuel src) post (foot_c x ++ foot_ok y0 ++ F).
Proof.
  intros x o t0 y0 fuel src post F R H1 H2. unfold pkey_keygen.
  assert (forall x', rel x' o -> x_ptr x' = x_ptr x -> forall gp gv, x_group x' = Some (gp, gv) -> forall pre, Permutation pre (foot_c x' ++ foot_ok y0 ++ F) ->
    wp (key <- key_new malloc ;;
        match key with
        | None => ret (false, evp_of t0 y0)
        | Some k =>
            '(e, _) <- get_key k ;; ec0 <- rd e ;; ec <- deref ec0 ;;
            '(_, g, s) <- get_ctx (x_ptr x) ;; gp0 <- rd g ;; gp <- deref gp0 ;; gv <- get_group gp ;;
            ok <- set_group malloc ec gv ;;
            if negb ok then key_free key ;;; ret (false, evp_of t0 y0)
            else
              ok <- ec_generate malloc fuel src ec ;;
              if negb ok then key_free key ;;; ret (false, evp_of t0 y0)
              else
                sp <- rd s ;;
                ok <- match sp with
                      | None => ret true
                      | Some sp => sv <- get_sbox sp ;; sbox <- copy_sbox malloc sv ;;
                                   match sbox with None => ret false | Some _ => key_set k None sbox ;;; ret true end
                      end ;;
                if negb ok then key_free key ;;; ret (false, evp_of t0 y0)
                else
                  '(t, _, _) <- get_ctx (x_ptr x) ;;
                  '(ok, pk') <- assign malloc (evp_of t0 y0) t key ;;
                  if negb ok then key_free key ;;; ret (false, pk') else ret (true, pk')
        end) post pre) as Main.
  { intros x' R' Ex gp gv Eg pre P. pose proof (rel_curve _ _ _ _ R' Eg) as Ec. rewrite <- Ex.
    eapply wp_perm; [exact P|]. clear pre P. apply wp_bind. apply (key_new_wp U malloc HA).
    2: { intros OOM. wps HA. apply (H2 x' y0 Ex R' (or_intror OOM)). apply Permutation_refl. }
    intros p e. destruct x' as [xp xt xg xs]. cbn in Eg, Ex. subst xg. pose proof R' as (R1 & R2 & R3). cbn in R1, R2, R3.
    assert (forall k, generate_key fuel (ECKEY (Some gv) None None) src = Done k -> generated o fuel src = Some (PKEY (o_type o) (Some (DKEY k (o_sbox o))))) as G1
      by (intros k Ek; unfold generated; rewrite Ec, Ek; reflexivity).
    assert (generate_key fuel (ECKEY (Some gv) None None) src = Failed -> generated o fuel src = None) as G2
      by (intros Ek; unfold generated; rewrite Ec, Ek; reflexivity).
    unfold foot_c at 1, foot_k at 1. destruct xs as [[sp sv]|]; cbn [x_ptr x_type x_group x_sbox y_ptr y_ec y_val y_sbox option_map fst snd opt_cell app].
    all: wps HA; unfold ec_generate; wps HA; cbn [ek_priv ek_pub].
    all: try (unfold key_free; wps HA; eapply H2; [ |exact R'|right; assumption| ]; [exact Ex|unfold foot_c, opt_cell; cbn; perm]).
    all: destruct (generate_key fuel (ECKEY (Some gv) None None) src) as [| |k] eqn:Ek; wps HA.
    all: try (unfold key_free; wps HA; eapply H2; [ |exact R'|left; exact (G2 eq_refl)| ]; [exact Ex|unfold foot_c, opt_cell; cbn; perm]).
    all: specialize (G1 _ eq_refl).
    1: unfold key_set; wps HA.
    all: try (unfold key_free; wps HA; eapply H2; [ |exact R'|right; assumption| ]; [exact Ex|unfold foot_c, opt_cell; cbn; perm]).
    - set (X := CX xp xt (Some (gp, gv)) (Some (sp, sv))) in *. set (Y := KX p e k (Some (p0, sv))).
      eapply wp_perm with (pre' := foot_ok y0 ++ foot_k Y ++ foot_c X ++ F).
      { eapply perm_trans; [|apply Permutation_app_swap_app]. rewrite app_assoc. eapply perm_trans; [|apply Permutation_app_swap_app].
        unfold foot_k, foot_c, Y, X, opt_cell. cbn. perm. }
      apply (assign_wp t0 y0 xt Y); cbn [negb].
      + wps HA. rewrite R1. change (Some (y_ptr Y)) with (option_map y_ptr (Some Y)). apply (H1 X Y Ex R').
        * rewrite G1. unfold pkey_of, val_k, Y. cbn. rewrite <- R2. reflexivity.
        * rewrite !app_assoc. apply Permutation_app_tail. apply Permutation_app_comm.
      + intros OOM. apply wp_bind. apply (key_free_wp U Y). wps HA. apply (H2 X None Ex R' (or_intror OOM)). apply Permutation_refl.
    - set (X := CX xp xt (Some (gp, gv)) None) in *. set (Y := KX p e k None).
      eapply wp_perm with (pre' := foot_ok y0 ++ foot_k Y ++ foot_c X ++ F).
      { eapply perm_trans; [|apply Permutation_app_swap_app]. rewrite app_assoc. eapply perm_trans; [|apply Permutation_app_swap_app].
        unfold foot_k, foot_c, Y, X, opt_cell. cbn. perm. }
      apply (assign_wp t0 y0 xt Y); cbn [negb].
      + wps HA. rewrite R1. change (Some (y_ptr Y)) with (option_map y_ptr (Some Y)). apply (H1 X Y Ex R').
        * rewrite G1. unfold pkey_of, val_k, Y. cbn. rewrite <- R2. reflexivity.
        * rewrite !app_assoc. apply Permutation_app_tail. apply Permutation_app_comm.
      + intros OOM. apply wp_bind. apply (key_free_wp U Y). wps HA. apply (H2 X None Ex R' (or_intror OOM)). apply Permutation_refl.
  }
  destruct x as [xp xt [[gp gv]|] xs] eqn:Ex.
  - destruct xs as [[sp sv]|]; unfold foot_c, opt_cell; cbn [x_ptr x_type x_group x_sbox option_map fst app]; wps HA;
      (eapply Main; [exact R|reflexivity|reflexivity|unfold foot_c, opt_cell; cbn; perm]).
  - destruct R as (R1 & R2 & R3). unfold get_default_group, new_group. cbn in R1, R2, R3.
    assert (o_curve o = None) as Eo by (destruct (o_curve o); [discriminate|reflexivity]).
    destruct default_group as [g|] eqn:Ed.
    + destruct xs as [[sp sv]|]; unfold foot_c, opt_cell; cbn [x_ptr x_type x_group x_sbox option_map fst app]; wps HA.
      1: eapply (Main (CX xp xt (Some (p, g)) (Some (sp, sv)))); [|reflexivity|reflexivity|unfold foot_c, opt_cell; cbn; perm].
      3: eapply (Main (CX xp xt (Some (p, g)) None)); [|reflexivity|reflexivity|unfold foot_c, opt_cell; cbn; perm].
      1, 3: split; [exact R1|split; [exact R2|rewrite Eo; right; symmetry; exact Ed]].
      1: eapply (H2 (CX xp xt None (Some (sp, sv)))). 5: eapply (H2 (CX xp xt None None)).
      1, 5: reflexivity. 1, 4: split; [exact R1|split; [exact R2|rewrite Eo; left; reflexivity]].
      1, 3: right; exact OOM. all: unfold foot_c, opt_cell; cbn; perm.
    + assert (generated o fuel src = None) as G.
      { unfold generated, curve_of. rewrite Eo. rewrite default_curve, Ed. reflexivity. }
      destruct xs as [[sp sv]|]; unfold foot_c, opt_cell; cbn [x_ptr x_type x_group x_sbox option_map fst app]; wps HA.
      1: eapply (H2 (CX xp xt None (Some (sp, sv)))). 5: eapply (H2 (CX xp xt None None)).
      1, 5: reflexivity. 1, 4: split; [exact R1|split; [exact R2|rewrite Eo; left; reflexivity]].
      1, 3: left; exact G. all: unfold foot_c, opt_cell; cbn; perm.
Qed.

(** Decoding. *)
Lemma key_from_asn1_wp : forall p le (post : option nat -> heap -> Prop) F,
  (forall y, key_from_asn1 solve p le = Some (val_k y) -> forall h, Permutation h (foot_k y ++ F) -> post (Some (y_ptr y)) h) ->
  (key_from_asn1 solve p le = None \/ ~ full -> post None F) ->
  wp (h_key_from_asn1 malloc solve p le) post F.
Proof.
  intros p le post F H1 H2. unfold h_key_from_asn1. apply wp_bind. apply (key_new_wp U malloc HA); [|intros OOM; wps HA; apply H2; right; exact OOM].
  intros k e. unfold key_from_asn1 in *. unfold foot_k, opt_cell; cbn [y_ptr y_ec y_val y_sbox option_map fst app].
  destruct (ap_sbox p) as [s|].
  - destruct (negb (length s =? 64)%nat); [wps HA; unfold key_free; wps HA; apply H2; left; reflexivity|].
    destruct (is_default_sbox s).
    + destruct (match ap_curve p with Named o => group_from_nid (curve_obj2nid o) | Custom c => group_from_asn1 solve c le end) as [g|];
        wps HA; unfold key_free; wps HA; try (apply H2; solve [auto]).
      eapply (H1 (KX k e _ None)); [reflexivity|]. unfold foot_k, opt_cell; cbn. perm.
    + wps HA; unfold key_free; wps HA; try (apply H2; solve [auto]).
      destruct (match ap_curve p with Named o => group_from_nid (curve_obj2nid o) | Custom c => group_from_asn1 solve c le end) as [g|];
        wps HA; unfold key_free; wps HA; try (apply H2; solve [auto]).
      eapply (H1 (KX k e _ (Some (p0, s)))); [reflexivity|]. unfold foot_k, opt_cell; cbn. perm.
  - destruct (match ap_curve p with Named o => group_from_nid (curve_obj2nid o) | Custom c => group_from_asn1 solve c le end) as [g|];
      wps HA; unfold key_free; wps HA; try (apply H2; solve [auto]).
    eapply (H1 (KX k e _ None)); [reflexivity|]. unfold foot_k, opt_cell; cbn. perm.
Qed.
Lemma param_decode_wp : forall t der (post : bool * evp_key -> heap -> Prop) F,
  (forall y, param_decode d2i solve t der = Some (val_k y) -> forall h, Permutation h (foot_k y ++ F) -> post (true, evp_of t (Some y)) h) ->
  (param_decode d2i solve t der = None \/ ~ full -> post (false, evp_of t None) F) ->
  wp (h_param_decode malloc d2i solve (evp_of t None) der) post F.
Proof.
  intros t der post F H1 H2. unfold h_param_decode, param_decode in *. destruct (d2i der) as [p|]; [|wps HA; apply H2; left; reflexivity].
  wps HA; [|apply H2; right; exact OOM]. apply key_from_asn1_wp.
  - intros y E h P. eapply wp_perm; [exact P|]. apply wp_bind. eapply wp_perm; [|apply (assign_wp t None t y)]; [apply Permutation_refl| |].
    + eapply wp_perm; [apply Permutation_sym; apply perm_mid|]. wps HA. apply (H1 y E). apply Permutation_refl.
    + intros OOM. eapply wp_perm; [apply Permutation_sym; apply perm_mid|]. wps HA. apply (key_free_wp U y). wps HA. apply H2. right. exact OOM.
  - intros E. wps HA. apply H2. exact E.
Qed.
Lemma add_public_wp : forall e k (post : bool -> heap -> Prop) pre rest, Permutation pre ((e, OEc k) :: rest) ->
  (forall k', add_public_key k = Some k' -> post true ((e, OEc k') :: rest)) -> (add_public_key k = None \/ ~ full -> post false pre) ->
  wp (h_add_public_key malloc e) post pre.
Proof.
  intros e k post pre rest P H1 H2. unfold h_add_public_key. apply wp_bind. unfold get_ec. apply wp_bind. eapply wp_get; [exact P|]. wps HA.
  - destruct (add_public_key k) as [k'|]; [|wps HA; apply H2; left; reflexivity]. apply wp_bind. eapply wp_put; [exact P|]. wps HA. apply H1. reflexivity.
  - apply H2. right. exact OOM.
Qed.
Lemma priv_decode_wp : forall t0 p8 (post : bool * evp_key -> heap -> Prop) F,
  (forall t y, priv_decode d2i solve p8 = Some (pkey_of t (Some y)) -> forall h, Permutation h (foot_k y ++ F) -> post (true, evp_of t (Some y)) h) ->
  (forall t y, priv_decode d2i solve p8 = None \/ ~ full -> forall h, Permutation h (foot_ok y ++ F) -> post (false, evp_of t y) h) ->
  wp (h_priv_decode malloc d2i solve (evp_of t0 None) p8) post F.
Proof.
  intros t0 p8 post F H1 H2. unfold h_priv_decode. unfold priv_decode in H1, H2. cbv zeta in H1, H2.
  assert (forall t, priv_decode d2i solve p8 = None \/ ~ full -> post (false, (t, None)) F) as H0
    by (intros t E; apply (H2 t None E); apply Permutation_refl).
  unfold priv_decode in H0. cbv zeta in H0.
  destruct (negb (is_dstu (al_nid (ki_alg p8)))); [wps HA; apply H0; left; reflexivity|].
  set (nid := al_nid (ki_alg p8)) in *. unfold set_type. unfold pkey_free. cbn [evp_of option_map snd]. wps HA; [|apply H0; right; exact OOM].
  destruct (al_params (ki_alg p8)) as [prm|]; [|wps HA; apply H0; left; reflexivity].
  apply wp_bind. apply param_decode_wp.
  - intros y E h P. eapply wp_perm; [exact P|]. clear h P. rewrite E in H1, H2, H0. wps HA. destruct (ki_key p8) as [|b bs] eqn:Eb.
    + wps HA. apply (H2 nid (Some y)); [left; reflexivity|apply Permutation_refl].
    + destruct y as [k e v s]. cbn [val_k y_val dk_ec y_sbox dk_sbox] in H1, H2. unfold foot_k. cbn [y_ptr y_ec y_val y_sbox].
      assert (forall v', ~ full -> forall h, Permutation h ((k, OKey (Ptr (Some e)) (Ptr (option_map fst s))) :: (e, OEc v') :: opt_cell OSbox s ++ F) -> post (false, evp_of nid (Some (KX k e v s))) h) as H3.
      { intros v' O h P. apply (H2 nid (Some (KX k e v' s)) (or_intror O)). exact P. }
      wps HA; cbn [evp_of option_map snd y_ptr]; unfold key_ec; wps HA; unfold set_private; wps HA; try (eapply H3; [assumption|perm]).
      eapply add_public_wp; [cell| |].
      * intros k' Ek. rewrite Ek in H1. wps HA. apply (H1 nid (KX k e k' s)); [reflexivity|]. unfold foot_k. cbn. perm.
      * intros Ek. wps HA. apply (H2 nid (Some (KX k e (ECKEY (ek_group v) (Some (be_val (rev (b :: bs)))) (ek_pub v)) s))).
        { destruct Ek as [Ek|O]; [rewrite Ek; left; reflexivity|right; exact O]. }
        unfold foot_ok, foot_k. cbn. perm.
  - intros E. wps HA. apply H0. destruct E as [E|E]; [rewrite E; left; reflexivity|right; exact E].
Qed.
End Calls.
