(** The options of a context are those last set in the history. *)
From Coq Require Import ZArith Lia List.
Import ListNotations.
From Verif Require Import Base Model_Compress Model_Ec Model_Params Model_Curves Model_Sign Model_Asn1 Model_Pmeth Model_Key Model_Ameth Model_Ctx Spec_Ctx Spec_Hist Proof_Ctx4 Proof_Ctx5.

Section Opts.
Variable malloc : nat -> heap -> option nat.
Variable sn2nid : list N -> Z.
Variable d2i : list N -> option params.
Variable d2o : list N -> option (list N).
Variable solve : N -> N -> option N.
Notation success := (success sn2nid d2i d2o solve).
Notation next := (next sn2nid d2i d2o solve).
Notation follow := (follow sn2nid d2i d2o solve).
Notation last_curve := (last_curve sn2nid).

Definition tracks (s : state) (h : list (op * answer)) : Prop :=
  forall c o, s_ctx s c = Some o -> o_curve o = last_curve h c /\ o_sbox o = last_sbox h c.

Ltac same H := let c := fresh in let o := fresh in let E := fresh in intros c o E; exact (H c o E).
Lemma tracks_step : forall full s h o a, tracks s h -> permitted sn2nid d2i d2o solve full s o a -> tracks (next s o a) ((o, a) :: h).
Proof.
  intros full s h o a H P. destruct a as [[|]|b|i].
  2: { unfold next, after_failure. destruct o; cbn [last_curve last_sbox]; try same H; try (destruct p2; same H). }
  2: { unfold next. destruct P as [P|[[P _]|[_ P]]]; [|discriminate|destruct o; cbn [degraded] in P; try contradiction; [destruct P as (? & _ & P); discriminate|destruct P as (? & _ & _ & P); discriminate]].
       destruct o; cbn [Spec_Ctx.success] in P |- *; unfold on_ctx, on_key in *; try discriminate; try same H; try (destruct p2; same H).
       - destruct (s_ctx s src); discriminate.
       - destruct (s_ctx s c); [|discriminate]. destruct (set_option _ _ _ _); discriminate.
       - destruct (s_ctx s c); [|discriminate]. destruct (set_string _ _ _ _); discriminate.
       - destruct (s_ctx s c); [|discriminate]. destruct (generated _ _ _); discriminate.
       - destruct (param_decode _ _ _ _); discriminate.
       - destruct (priv_decode _ _ _); discriminate.
       - destruct (pub_decode _ _ _ _); discriminate.
       - destruct (s_key s k); [|same H]. destruct (of_result (param_encode p)); same H.
       - destruct (s_key s k); [|same H]. destruct (of_result (priv_encode p)); same H.
       - destruct (s_key s k); [|same H]. destruct (of_result (pub_encode p)); same H.
       - destruct (s_key s k); [|same H]. destruct (pkey_sign _ _ _ _ _ _) as [| |[[[|] ?] ?]]; same H.
       - destruct (s_key s k); [|same H]. destruct (pkey_verify _ _ _ _); same H. }
  2: { unfold next.
       assert (forall X, s_ctx (match success s o with Some (_, s') => s' | None => s end) = X -> X = s_ctx s -> tracks (match success s o with Some (_, s') => s' | None => s end) ((o, Info i) :: h)) as G.
       { intros X E1 E2 c w E. rewrite E1, E2 in E. destruct o; cbn [last_curve last_sbox]; try exact (H c w E). destruct p2; exact (H c w E). }
       destruct P as [P|[[P _]|[_ P]]]; [|discriminate|].
       - destruct (success s o) as [[a s']|] eqn:E; [|discriminate]. injection P as ->. eapply G; [reflexivity|]. clear G.
         destruct o; cbn [Spec_Ctx.success] in E; unfold on_ctx, on_key in E; try discriminate.
         + destruct (s_ctx s src); discriminate.
         + destruct (s_ctx s c); [|discriminate]. destruct (set_option _ _ _ _); discriminate.
         + destruct (s_ctx s c); [|discriminate]. destruct (set_string _ _ _ _); discriminate.
         + destruct (s_ctx s c); [|discriminate]. destruct (generated _ _ _); discriminate.
         + destruct (param_decode _ _ _ _); discriminate.
         + destruct (priv_decode _ _ _); discriminate.
         + destruct (pub_decode _ _ _ _); discriminate.
         + destruct (s_key s k); [|discriminate]. destruct (of_result (param_encode p)); discriminate.
         + destruct (s_key s k); [|discriminate]. destruct (of_result (priv_encode p)); [|discriminate]. injection E as _ <-. reflexivity.
         + destruct (s_key s k); [|discriminate]. destruct (of_result (pub_encode p)); [|discriminate]. injection E as _ <-. reflexivity.
         + destruct (s_key s k); [|discriminate]. destruct (pkey_sign _ _ _ _ _ _) as [| |[[[|] ?] ?]]; discriminate.
         + destruct (s_key s k); [|discriminate]. destruct (pkey_verify _ _ _ _); discriminate.
       - destruct o; cbn [degraded] in P; try contradiction; [|destruct P as (? & _ & _ & P); discriminate].
         eapply G; [reflexivity|]. cbn [Spec_Ctx.success]. unfold on_key. destruct (s_key s k); [|reflexivity]. destruct (of_result (priv_encode p)); reflexivity. }
  assert (success s o = None \/ exists a s', success s o = Some (a, s')) as [Es|(a & s' & Es)] by (destruct (success s o) as [[a s']|]; [right; eauto|left; reflexivity]).
  { destruct P as [P|[[P _]|[_ P]]]; [rewrite Es in P; discriminate|discriminate|]. destruct o; cbn [degraded] in P; try contradiction; [destruct P as (? & _ & P); discriminate|].
    unfold next. rewrite Es. same H. }
  unfold next. rewrite Es. destruct o; cbn [Spec_Ctx.success] in Es; unfold on_ctx, on_key in Es; unfold tracks; cbn [Spec_Hist.last_curve last_sbox].
  - injection Es as _ <-. intros c' o E. cbn [s_ctx set_ctx] in E. unfold upd in E. rewrite Nat.eqb_sym in E. destruct (Nat.eqb c c'); [injection E as <-; split; reflexivity|exact (H c' o E)].
  - destruct (s_ctx s src) as [v|] eqn:Ev; [|discriminate]. injection Es as _ <-. intros c' o E. cbn [s_ctx set_ctx] in E. unfold upd in E. rewrite Nat.eqb_sym in E. destruct (Nat.eqb dst c'); [injection E as <-; exact (H src v Ev)|exact (H c' o E)].
  - injection Es as _ <-. intros c' o E. cbn [s_ctx set_ctx] in E. unfold upd in E. destruct (Nat.eqb c' c); [discriminate|exact (H c' o E)].
  - destruct (s_ctx s c) as [v|] eqn:Ev; [|discriminate]. destruct (set_option v type p1 p2) as [v'|] eqn:Eo; [|discriminate]. injection Es as _ <-. intros c' o E. cbn [s_ctx set_ctx] in E. unfold upd in E. rewrite Nat.eqb_sym in E.
    destruct (Nat.eqb_spec c c') as [X|X]; cbn [andb].
    + subst c'. injection E as <-. destruct (H c v Ev) as [H1 H2]. unfold set_option in Eo. destruct p2 as [|b|g|nid].
      * destruct (existsb _ _); [injection Eo as <-; split; assumption|discriminate].
      * destruct (Z.eqb_spec type 4097) as [Y|Y]; cbn [andb] in Eo.
        -- subst type. destruct (p1 =? 64)%Z; [injection Eo as <-; split; [exact H1|reflexivity]|discriminate].
        -- destruct (existsb _ _); [injection Eo as <-; split; assumption|discriminate].
      * destruct (type =? 4098)%Z; [injection Eo as <-; split; [reflexivity|exact H2]|]. destruct (existsb _ _); [injection Eo as <-; split; assumption|discriminate].
      * destruct (_ || _); [injection Eo as <-; split; assumption|discriminate].
    + destruct (H c' o E) as [H1 H2]. destruct p2; split; assumption.
  - destruct (s_ctx s c) as [v|] eqn:Ev; [|discriminate]. destruct (set_string sn2nid v type value) as [v'|] eqn:Eo; [|discriminate]. injection Es as _ <-. intros c' o E. cbn [s_ctx set_ctx] in E. unfold upd in E. rewrite Nat.eqb_sym in E.
    destruct (Nat.eqb_spec c c') as [X|X]; cbn [andb]; [|exact (H c' o E)].
    subst c'. injection E as <-. destruct (H c v Ev) as [H1 H2]. unfold set_string in Eo. change same_text with str_eqb in *. change [99; 117; 114; 118; 101] with str_curve in *. change [115; 98; 111; 120] with str_sbox in *. destruct (str_eqb type str_curve) eqn:T1.
    + assert (str_eqb type str_sbox = false) as ->. { destruct (str_eqb type str_sbox) eqn:T2; [|reflexivity]. unfold str_eqb in T1, T2. destruct (list_eq_dec N.eq_dec type str_curve) as [->|]; [|discriminate]. destruct (list_eq_dec N.eq_dec str_curve str_sbox) as [X|]; [|discriminate]. vm_compute in X. discriminate. }
      destruct (group_from_nid (sn2nid value)) as [g|]; [|discriminate]. injection Eo as <-. split; [reflexivity|exact H2].
    + destruct (str_eqb type str_sbox); [|discriminate]. destruct (sbox_option value); [|discriminate]. injection Eo as <-. split; [exact H1|reflexivity].
  - destruct (s_ctx s c); [|discriminate]. destruct (generated _ _ _); [|discriminate]. injection Es as _ <-. same H.
  - injection Es as _ <-. same H.
  - injection Es as _ <-. same H.
  - destruct (param_decode _ _ _ _); [|discriminate]. injection Es as _ <-. same H.
  - destruct (priv_decode _ _ _); [|discriminate]. injection Es as _ <-. same H.
  - destruct (pub_decode _ _ _ _); [|discriminate]. injection Es as _ <-. same H.
  - destruct (s_key s k); [|discriminate]. destruct (of_result (param_encode p)); [|discriminate]. injection Es as _ <-. same H.
  - destruct (s_key s k); [|discriminate]. destruct (of_result (priv_encode p)); [|discriminate]. injection Es as _ <-. same H.
  - destruct (s_key s k); [|discriminate]. destruct (of_result (pub_encode p)); [|discriminate]. injection Es as _ <-. same H.
  - destruct (s_key s k); [|discriminate]. destruct (pkey_sign _ _ _ _ _ _) as [| |[[[|] ?] ?]]; try discriminate. injection Es as _ <-. same H.
  - destruct (s_key s k); [|discriminate]. destruct (pkey_verify _ _ _ _); [|discriminate]. injection Es as _ <-. same H.
Qed.
Lemma tracks_all : forall full l ans s h, tracks s h -> all_permitted sn2nid d2i d2o solve full s l ans -> tracks (follow s l ans) (rev (combine l ans) ++ h).
Proof.
  induction l as [|o t IH]; intros [|a u] s h H P; cbn in P; try contradiction; [exact H|]. destruct P as [P1 P2]. cbn [Spec_Ctx.follow combine rev]. rewrite <- app_assoc. cbn [app]. apply IH; [|exact P2]. exact (tracks_step _ _ _ _ _ H P1).
Qed.
Lemma history_options : allocator malloc -> forall l ans w, run malloc sn2nid d2i d2o solve world0 l = Ret (ans, w) -> forall c o, s_ctx (follow state0 l ans) c = Some o ->
  o_curve o = last_curve (rev (combine l ans)) c /\ o_sbox o = last_sbox (rev (combine l ans)) c.
Proof.
  intros HA l ans w E. destruct (history_permitted malloc sn2nid d2i d2o solve HA l ans w E) as [P _]. intros c o Ho. rewrite <- (app_nil_r (rev _)).
  apply (tracks_all _ l ans state0 [] ltac:(intros ? ? X; discriminate X) P c o Ho).
Qed.
Lemma generated_shape : forall o fuel src pk, generated o fuel src = Some pk ->
  exists d Q, pk = PKEY (o_type o) (Some (DKEY (ECKEY (curve_of o) (Some d) Q) (o_sbox o))).
Proof.
  intros o fuel src pk E. unfold generated in E. destruct (generate_key _ _ _) as [| |ec] eqn:G; try discriminate. injection E as <-.
  unfold generate_key in G. cbn [ek_group] in G. destruct (curve_of o) as [[g|g]|] eqn:Eg; try discriminate. destruct (g_order g =? 0); [discriminate|].
  destruct (prk_loop _ _ _) as [| |d]; try discriminate. destruct (add_public_key _) as [k|] eqn:A; [|discriminate]. injection G as <-.
  unfold add_public_key in A. cbn [ek_group ek_priv] in A. injection A as <-. eauto.
Qed.
Lemma keygen_options : allocator malloc -> forall l ans w c k fuel src w', run malloc sn2nid d2i d2o solve world0 l = Ret (ans, w) -> exec malloc sn2nid d2i d2o solve w (Keygen c k fuel src) = Ret (Bool true, w') ->
  exists t d Q, s_key (next (follow state0 l ans) (Keygen c k fuel src) (Bool true)) k =
    Some (PKEY t (Some (DKEY (ECKEY (match last_curve (rev (combine l ans)) c with Some g => Some g | None => option_map Binary (group_from_nid 1166) end) (Some d) Q) (last_sbox (rev (combine l ans)) c)))).
Proof.
  intros HA l ans w c k fuel src w' E X. destruct (run_good malloc sn2nid d2i d2o solve HA _ _ _ _ _ _ R0 E) as (_ & L' & HR & _).
  destruct (exec_good malloc sn2nid d2i d2o solve HA _ _ _ (Keygen c k fuel src) HR) as [Y|[[_ Y]|(a & w1 & L1 & Y & Pm & _)]]; [congruence|congruence|].
  rewrite X in Y. injection Y as <- _. destruct Pm as [Pm|[[Pm _]|[_ []]]]; [|discriminate]. unfold next. destruct (success _ _) as [[a s']|] eqn:Es; [|discriminate]. cbn [Spec_Ctx.success] in Es. unfold on_ctx in Es.
  destruct (s_ctx (follow state0 l ans) c) as [o|] eqn:Eo; [|discriminate]. destruct (generated o fuel src) as [pk|] eqn:Eg; [|discriminate]. injection Es as _ <-. cbn [set_pkey s_key]. unfold upd. rewrite Nat.eqb_refl.
  destruct (generated_shape _ _ _ _ Eg) as (d & Q & ->). destruct (history_options HA l ans w E c o Eo) as [E1 E2]. exists (o_type o), d, Q. unfold curve_of. rewrite E1, E2. reflexivity.
Qed.
End Opts.
(** A digest argument of NULL is dereferenced. *)
Lemma null_digest : forall malloc sn2nid d2i d2o solve, allocator malloc -> forall l ans w c o p1, run malloc sn2nid d2i d2o solve world0 l = Ret (ans, w) ->
  s_ctx (Spec_Ctx.follow sn2nid d2i d2o solve state0 l ans) c = Some o -> exec malloc sn2nid d2i d2o solve w (Ctrl c EVP_PKEY_CTRL_MD p1 ANull) = Undef.
Proof.
  intros malloc sn2nid d2i d2o solve HA l ans w c o p1 E Ho. destruct (run_good malloc sn2nid d2i d2o solve HA _ _ _ _ _ _ R0 E) as (_ & L' & (cs & ks & HI) & _).
  pose proof (i_sc _ _ _ _ _ HI c) as S. cbn [exec]. unfold with_ctx. rewrite (ctx_handle _ _ _ _ _ c HI). destruct (assoc cs c) as [x|]; [reflexivity|]. rewrite Ho in S. discriminate.
Qed.
Lemma null_control : forall malloc sn2nid d2i d2o solve, allocator malloc -> forall l ans w c o type p1, run malloc sn2nid d2i d2o solve world0 l = Ret (ans, w) ->
  s_ctx (Spec_Ctx.follow sn2nid d2i d2o solve state0 l ans) c = Some o -> type <> EVP_PKEY_CTRL_MD -> exists r w', exec malloc sn2nid d2i d2o solve w (Ctrl c type p1 ANull) = Ret (Bool r, w') /\
    (r = true <-> In type [EVP_PKEY_CTRL_PKCS7_ENCRYPT; EVP_PKEY_CTRL_PKCS7_DECRYPT; EVP_PKEY_CTRL_PKCS7_SIGN; EVP_PKEY_CTRL_DIGESTINIT; EVP_PKEY_CTRL_CMS_SIGN]).
Proof.
  intros malloc sn2nid d2i d2o solve HA l ans w c o type p1 E Ho Nt. destruct (run_good malloc sn2nid d2i d2o solve HA _ _ _ _ _ _ R0 E) as (_ & L' & (cs & ks & HI) & _).
  pose proof (i_sc _ _ _ _ _ HI c) as S. cbn [exec]. unfold with_ctx. rewrite (ctx_handle _ _ _ _ _ c HI). destruct (assoc cs c) as [x|]; [|rewrite Ho in S; discriminate]. cbn [option_map].
  unfold call, pkey_ctrl. apply Z.eqb_neq in Nt. rewrite Nt.
  destruct (Z.eqb_spec type DSTU_SET_CUSTOM_SBOX) as [->|N1]; [eexists _, _; split; [reflexivity|]; split; [discriminate|intros X; vm_compute in X; repeat destruct X as [X|X]; try discriminate; contradiction]|].
  destruct (Z.eqb_spec type DSTU_SET_CURVE) as [->|N2]; [eexists _, _; split; [reflexivity|]; split; [discriminate|intros X; vm_compute in X; repeat destruct X as [X|X]; try discriminate; contradiction]|].
  eexists _, _. split; [reflexivity|]. rewrite !Bool.orb_true_iff, !Z.eqb_eq. cbn [In]. intuition.
Qed.
(** Calls that do not encode a key do not crash without memory. *)
Lemma no_crash : forall malloc sn2nid d2i d2o solve, allocator malloc -> forall l ans w o, run malloc sn2nid d2i d2o solve world0 l = Ret (ans, w) ->
  (forall k, o <> ParamEncode k /\ o <> PrivEncode k /\ o <> PubEncode k) -> legal True (Spec_Ctx.follow sn2nid d2i d2o solve state0 l ans) o ->
  exec malloc sn2nid d2i d2o solve w o <> Undef /\
  forall a w', exec malloc sn2nid d2i d2o solve w o = Ret (a, w') ->
    option_map fst (Spec_Ctx.success sn2nid d2i d2o solve (Spec_Ctx.follow sn2nid d2i d2o solve state0 l ans) o) = Some a \/ a = Bool false \/ exists k sig tbs, o = Verify k sig tbs.
Proof.
  intros malloc sn2nid d2i d2o solve HA l ans w o E N HL. destruct (run_good malloc sn2nid d2i d2o solve HA _ _ _ _ _ _ R0 E) as (_ & L' & HR & _).
  set (s := Spec_Ctx.follow _ _ _ _ _ _ _) in *. clearbody s. split.
  - intros X. destruct (exec_good malloc sn2nid d2i d2o solve HA _ _ _ o HR) as [Y|[[Y _]|(a' & w1 & L1 & Y & _)]]; [congruence| |congruence]. apply Y. clear X Y HR.
    destruct o; try exact HL; exfalso; destruct (N k) as (N1 & N2 & N3); [exact (N1 eq_refl)|exact (N2 eq_refl)|exact (N3 eq_refl)].
  - intros a w' X. destruct (exec_good malloc sn2nid d2i d2o solve HA _ _ _ o HR) as [Y|[[_ Y]|(a' & w1 & L1 & Y & Pm & _)]]; [congruence|congruence|]. rewrite X in Y. injection Y as <- _.
    destruct Pm as [Pm|[[Pm _]|[_ Pm]]]; [left; exact Pm|right; left; exact Pm|]. destruct o; cbn [degraded] in Pm; try contradiction; [exfalso; exact (proj1 (proj2 (N k)) eq_refl)|right; right; eauto].
Qed.
