(** Proofs about engine/dstu.c when memory may run out. *)
From Coq Require Import Lia ZArith.
From Verif Require Import Base Lib Model_Err Model_Engine Spec_Engine Spec_EngineMem Proof_Engine.

Section Mem.
Variable malloc : mheap -> option nat.
Hypothesis Hf : malloc_fresh malloc.
Variable next_lib : nat -> N.

(** The same allocator, with memory where it had none. *)
Definition full (h : mheap) : option nat := match malloc h with Some p => Some p | None => Some (S (list_max (map fst h))) end.
Lemma full_good : malloc_good full.
Proof.
  intros h. unfold full. destruct (malloc h) as [p|] eqn:E; [exists p; split; [reflexivity|apply Hf, E]|].
  eexists. split; [reflexivity|]. apply live_none. intros H.
  pose proof (proj1 (list_max_le (map fst h) (list_max (map fst h))) (le_n _)) as F. rewrite Forall_forall in F. specialize (F _ H). lia.
Qed.
Lemma mnew_full h m : malloc h <> None -> mnew malloc h m = mnew full h m.
Proof. unfold mnew, full. destruct (malloc h); [reflexivity|congruence]. Qed.
Lemma md_full s : malloc (g_heap s) <> None -> md_get malloc s = md_get full s.
Proof. intros H. unfold md_get. rewrite mnew_full by exact H. reflexivity. Qed.
Lemma cipher_full s : malloc (g_heap s) <> None -> cipher_get malloc s = cipher_get full s.
Proof. intros H. unfold cipher_get. rewrite mnew_full by exact H. reflexivity. Qed.
Lemma slot_full h mk n : malloc h <> None -> forall nids sl, slot_get malloc h mk n nids sl = slot_get full h mk n nids sl.
Proof.
  intros H nids. induction nids as [|k nids IH]; intros [|x sl]; cbn [slot_get]; try reflexivity.
  rewrite mnew_full by exact H. rewrite IH. reflexivity.
Qed.
Lemma pkey_full s n : malloc (g_heap s) <> None -> pkey_meth_get malloc s n = pkey_meth_get full s n.
Proof. intros H. unfold pkey_meth_get. rewrite slot_full by exact H. reflexivity. Qed.
Lemma asn1_full s n : malloc (g_heap s) <> None -> asn1_meth_get malloc s n = asn1_meth_get full s n.
Proof. intros H. unfold asn1_meth_get, asn1_found. rewrite slot_full by exact H. reflexivity. Qed.

(** Without memory a get finds what is there, or finds nothing and changes nothing. *)
Lemma md_dry s : malloc (g_heap s) = None -> md_get malloc s = (s, g_md s).
Proof. intros H. unfold md_get, mnew. destruct s as [h md ci pm am er]. cbn in *. rewrite H. destruct md; reflexivity. Qed.
Lemma cipher_dry s : malloc (g_heap s) = None -> cipher_get malloc s = (s, g_cipher s).
Proof. intros H. unfold cipher_get, mnew. destruct s as [h md ci pm am er]. cbn in *. rewrite H. destruct ci; reflexivity. Qed.
Lemma pkey_dry s n : inv s -> malloc (g_heap s) = None -> pkey_meth_get malloc s n = (s, slot s (MPkey n)).
Proof.
  intros I H. pose proof (v_pm _ I) as L. unfold pkey_meth_get. destruct s as [h md ci pm am er]. cbn [g_heap g_pm g_md g_cipher g_am g_err slot] in *.
  destruct pm as [|p0 [|p1 [|]]]; try discriminate L. unfold dstu_nids. cbn [slot_get nth]. unfold mnew. rewrite H.
  destruct (n =? NID_dstu4145le)%Z; [destruct p0; reflexivity|]. destruct (n =? NID_dstu4145be)%Z; [destruct p1; reflexivity|reflexivity].
Qed.
Lemma asn1_dry s n : inv s -> malloc (g_heap s) = None -> asn1_meth_get malloc s n = match slot s (MAsn1 n) with Some p => Some (s, Some p) | None => if adv n then None else Some (s, None) end.
Proof.
  intros I H. pose proof (v_am _ I) as L. unfold asn1_meth_get, asn1_found. destruct s as [h md ci pm am er]. cbn [g_heap g_pm g_md g_cipher g_am g_err slot] in *.
  destruct am as [|p0 [|p1 [|]]]; try discriminate L. unfold adv, dstu_nids. cbn [slot_get nth existsb]. unfold mnew. rewrite H, orb_false_r.
  destruct (n =? NID_dstu4145le)%Z eqn:E1; [destruct p0; reflexivity|]. destruct (n =? NID_dstu4145be)%Z eqn:E2; [destruct p1; reflexivity|]. reflexivity.
Qed.

(** A lookup that found no memory. *)
Definition short (o : eng_op) (a : answer) : Prop := (algorithm_lookup o /\ empty_success a) \/ (key_lookup o /\ refused a).
Definition answered' (s : eng) (o : eng_op) (a : answer) : Prop := answered s o a \/ wanted o <> None /\ short o a.
Lemma answered'_grows s s' o a : grows s s' -> answered' s o a -> answered' s' o a.
Proof. intros G [H|H]; [left; eapply answered_grows; eassumption|right; exact H]. Qed.

(** Binding: as with memory, or undefined for want of it. *)
Definition dry (s : eng) : Prop := malloc (g_heap s) = None \/ exists p, malloc (g_heap s) = Some p /\ malloc ((p, MDigest) :: g_heap s) = None.
Definition step_end (s : eng) (o : eng_op) : Prop :=
  match eng_step malloc next_lib s o with
  | Some (s', a) => inv s' /\ grows s s' /\ answered' s' o a
  | None => fragile o /\ dry s
  end.
Lemma bind_end s i b : inv s -> match bind malloc next_lib s i b with
  | Some (s', r) => inv s' /\ grows s s'
  | None => i = true /\ dry s end.
Proof.
  intros I. unfold bind. destruct i; cbn [negb]; [|split; [exact I|apply grows_refl]].
  destruct (b_setup b); cbn [negb]; [|cbn [bind_fail]; split; [apply set_err, I|apply grows_err, grows_refl]].
  destruct (malloc (g_heap s)) as [p|] eqn:E.
  2:{ rewrite md_dry by exact E. remember (g_md s) as md eqn:Ed; symmetry in Ed; destruct md as [d|]; cbn [deref]; [|split; [reflexivity|left; exact E]].
      rewrite (v_live _ I MDigest d Ed). destruct (b_digest b); cbn [negb]; [|cbn [bind_fail]; split; [apply set_err, I|apply grows_err, grows_refl]].
      rewrite cipher_dry by exact E. remember (g_cipher s) as ci eqn:Ec; symmetry in Ec; destruct ci as [c|]; cbn [deref]; [|split; [reflexivity|left; exact E]].
      rewrite (v_live _ I MCipher c Ec). rewrite <- Ec. try rewrite <- Ed.
      destruct (b_cipher b); cbn [negb]; [|cbn [bind_fail]; split; [apply set_err, I|apply grows_err, grows_refl]].
      destruct (b_pbe b); cbn [negb bind_fail]; split; [apply set_err, I|apply grows_err, grows_refl|apply set_err, I|apply grows_err, grows_refl]. }
  rewrite md_full by congruence. pose proof (md_get_ok full full_good s I) as (I1 & G1 & _ & p1 & E1 & S1).
  assert (Hheap : g_heap (fst (md_get full s)) = g_heap s \/ g_heap (fst (md_get full s)) = (p, MDigest) :: g_heap s).
  { unfold md_get, mnew, full. rewrite E. destruct (g_md s); [left; reflexivity|right; reflexivity]. }
  destruct (md_get full s) as [s1 q1]. cbn [fst snd] in *. subst q1.
  cbn [deref]. rewrite (v_live _ I1 _ _ S1).
  destruct (b_digest b); cbn [negb]; [|cbn [bind_fail]; split; [apply set_err, I1|apply grows_err, G1]].
  destruct (malloc (g_heap s1)) as [p'|] eqn:E'.
  2:{ rewrite cipher_dry by exact E'. remember (g_cipher s1) as ci eqn:Ec; symmetry in Ec; destruct ci as [c|]; cbn [deref].
      2:{ split; [reflexivity|]. right. exists p. split; [exact E|]. destruct Hheap as [Hh|Hh]; rewrite Hh in E'; [congruence|exact E']. }
      rewrite (v_live _ I1 MCipher c Ec). rewrite <- Ec.
      destruct (b_cipher b); cbn [negb]; [|cbn [bind_fail]; split; [apply set_err, I1|apply grows_err, G1]].
      destruct (b_pbe b); cbn [negb bind_fail]; split; [apply set_err, I1|apply grows_err, G1|apply set_err, I1|apply grows_err, G1]. }
  rewrite cipher_full by congruence. pose proof (cipher_get_ok full full_good s1 I1) as (I2 & G2 & _ & p2 & E2 & S2).
  destruct (cipher_get full s1) as [s2 q2]. cbn [fst snd] in *. subst q2. cbn [deref]. rewrite (v_live _ I2 _ _ S2).
  assert (G : grows s s2) by (eapply grows_trans; eassumption).
  destruct (b_cipher b); cbn [negb]; [|cbn [bind_fail]; split; [apply set_err, I2|apply grows_err, G]].
  destruct (b_pbe b); cbn [negb bind_fail]; split; [apply set_err, I2|apply grows_err, G|apply set_err, I2|apply grows_err, G].
Qed.
Lemma step_same s o s' a : eng_step full next_lib s o = Some (s', a) -> inv s -> before_finish o -> eng_step malloc next_lib s o = eng_step full next_lib s o -> step_end s o.
Proof.
  intros E I Hb H. unfold step_end. rewrite H, E. destruct (step_ok full full_good next_lib s o I Hb) as (s1 & a1 & E1 & I1 & G1 & A1 & _).
  rewrite E in E1. injection E1 as <- <-. split; [exact I1|]. split; [exact G1|]. left. exact A1.
Qed.
Lemma step_end_ok s o : inv s -> before_finish o -> step_end s o.
Proof.
  intros I Hb. destruct (step_ok full full_good next_lib s o I Hb) as (s' & a & E & I' & G' & A' & _).
  destruct o as [i b| |out nids n|out nids n|out nids n|out nids n|p| |]; cbn [before_finish] in Hb; try contradiction.
  - pose proof (bind_end s i b I) as H. unfold step_end. cbn [eng_step]. destruct (bind malloc next_lib s i b) as [[s1 r]|].
    + destruct H as [I1 G1]. split; [exact I1|]. split; [exact G1|]. left. unfold answered. cbn. split; [discriminate|auto].
    + destruct H as [-> D]. split; [reflexivity|exact D].
  - eapply step_same; try eassumption. reflexivity.
  - destruct (malloc (g_heap s)) as [p|] eqn:Em.
    { eapply step_same; try eassumption. cbn [eng_step]. unfold digests. rewrite md_full by congruence. reflexivity. }
    unfold step_end. cbn [eng_step]. unfold digests. rewrite md_dry by exact Em.
    destruct (out && negb (n =? 0)%Z) eqn:Eo.
    + apply andb_prop in Eo. destruct Eo as [-> E0]. apply negb_true_iff in E0. unfold answered', answered, wanted. change 1157%Z with NID_dstu34311. rewrite (Z.eqb_sym n).
      destruct (NID_dstu34311 =? n)%Z eqn:En.
      * split; [exact I|]. split; [apply grows_refl|]. cbn [a_ret a_meth]. destruct (g_md s) as [d|] eqn:Ed; [left; split; [reflexivity|]; exists d; split; [reflexivity|exact Ed]|].
        right. split; [discriminate|]. left. repeat split.
      * split; [exact I|]. split; [apply grows_refl|]. left. unfold listed. rewrite E0. cbn [andb negb]. destruct nids; cbn; (split; [intros _; lia|auto]).
    + assert (W : wanted (GDigests out nids n) = None).
      { cbn [wanted]. destruct out; [|reflexivity]. cbn [andb] in Eo. apply negb_false_iff, Z.eqb_eq in Eo. subst n. reflexivity. }
      destruct nids; cbn [negb]; (split; [exact I|]; split; [apply grows_refl|]); left; unfold answered; rewrite W; cbn [listed]; rewrite ?Eo; cbn; [auto|split; [intros _; lia|auto]].
  - destruct (malloc (g_heap s)) as [p|] eqn:Em.
    { eapply step_same; try eassumption. cbn [eng_step]. unfold ciphers. rewrite cipher_full by congruence. reflexivity. }
    unfold step_end. cbn [eng_step]. unfold ciphers. rewrite cipher_dry by exact Em.
    destruct (out && negb (n =? 0)%Z) eqn:Eo.
    + apply andb_prop in Eo. destruct Eo as [-> E0]. apply negb_true_iff in E0. unfold answered', answered, wanted. change 1154%Z with NID_dstu28147_cfb. rewrite (Z.eqb_sym n).
      destruct (NID_dstu28147_cfb =? n)%Z eqn:En.
      * split; [exact I|]. split; [apply grows_refl|]. cbn [a_ret a_meth]. destruct (g_cipher s) as [d|] eqn:Ed; [left; split; [reflexivity|]; exists d; split; [reflexivity|exact Ed]|].
        right. split; [discriminate|]. left. repeat split.
      * split; [exact I|]. split; [apply grows_refl|]. left. unfold listed. rewrite E0. cbn [andb negb]. destruct nids; cbn; (split; [intros _; lia|auto]).
    + assert (W : wanted (GCiphers out nids n) = None).
      { cbn [wanted]. destruct out; [|reflexivity]. cbn [andb] in Eo. apply negb_false_iff, Z.eqb_eq in Eo. subst n. reflexivity. }
      destruct nids; cbn [negb]; (split; [exact I|]; split; [apply grows_refl|]); left; unfold answered; rewrite W; cbn [listed]; rewrite ?Eo; cbn; [auto|split; [intros _; lia|auto]].
  - destruct (malloc (g_heap s)) as [p|] eqn:Em.
    { eapply step_same; try eassumption. cbn [eng_step]. unfold pkey_meths. rewrite pkey_full by congruence. reflexivity. }
    destruct out; [|eapply step_same; try eassumption; reflexivity].
    unfold step_end. cbn [eng_step]. unfold pkey_meths. cbn [negb]. rewrite pkey_dry by assumption.
    split; [exact I|]. split; [apply grows_refl|]. unfold answered', answered, wanted. change 1158%Z with NID_dstu4145le. change 1159%Z with NID_dstu4145be. fold (adv n). cbn [a_ret a_meth].
    destruct (adv n) eqn:Ha.
    + destruct (slot s (MPkey n)) as [q|] eqn:Eq; [left; split; [reflexivity|]; exists q; auto|]. right. split; [discriminate|]. right. repeat split.
    + left. assert (Eq : slot s (MPkey n) = None) by (cbn [slot]; unfold adv in Ha; apply orb_false_iff in Ha; destruct Ha as [-> ->]; reflexivity).
      rewrite Eq. destruct nids; cbn; (split; [intros _; lia|auto]).
  - destruct (malloc (g_heap s)) as [p|] eqn:Em.
    { eapply step_same; try eassumption. cbn [eng_step]. unfold asn1_meths. rewrite asn1_full by congruence. reflexivity. }
    destruct out; [|eapply step_same; try eassumption; reflexivity].
    unfold step_end. cbn [eng_step]. unfold asn1_meths. cbn [negb]. rewrite asn1_dry by assumption.
    unfold answered', answered, wanted. change 1158%Z with NID_dstu4145le. change 1159%Z with NID_dstu4145be. fold (adv n).
    destruct (slot s (MAsn1 n)) as [q|] eqn:Eq.
    + split; [exact I|]. split; [apply grows_refl|]. left. cbn [a_ret a_meth].
      assert (Ha : adv n = true) by (cbn [slot] in Eq; unfold adv; destruct (n =? NID_dstu4145le)%Z; [reflexivity|destruct (n =? NID_dstu4145be)%Z; [reflexivity|discriminate]]).
      rewrite Ha. split; [reflexivity|]. exists q. auto.
    + destruct (adv n) eqn:Ha.
      * split; [|left; exact Em]. split; [reflexivity|]. unfold adv in Ha. apply orb_prop in Ha. destruct Ha as [Ha|Ha]; apply Z.eqb_eq in Ha; auto.
      * split; [exact I|]. split; [apply grows_refl|]. left. destruct nids; cbn; (split; [intros _; lia|auto]).
Qed.
Lemma run_end ops : forall s, inv s -> Forall before_finish ops ->
  match eng_run malloc next_lib s ops with
  | Some (s', l) => inv s' /\ grows s s' /\ Forall2 (answered' s') ops l
  | None => exists pre o post s' l, ops = pre ++ o :: post /\ eng_run malloc next_lib s pre = Some (s', l) /\ eng_step malloc next_lib s' o = None /\ fragile o /\ dry s'
  end.
Proof.
  induction ops as [|o ops IH]; intros s I Hb.
  - cbn [eng_run]. split; [exact I|]. split; [apply grows_refl|constructor].
  - inversion Hb as [|? ? H1 H2]. subst. cbn [eng_run]. pose proof (step_end_ok s o I H1) as St. unfold step_end in St.
    destruct (eng_step malloc next_lib s o) as [[s1 a]|] eqn:E.
    + destruct St as (I1 & G1 & A1). specialize (IH s1 I1 H2). destruct (eng_run malloc next_lib s1 ops) as [[s2 l]|].
      * destruct IH as (I2 & G2 & A2). split; [exact I2|]. split; [eapply grows_trans; eassumption|]. constructor; [eapply answered'_grows; eassumption|exact A2].
      * destruct IH as (pre & o' & post & s' & l & -> & E1 & E2 & F & D). exists (o :: pre), o', post, s', (a :: l). split; [reflexivity|].
        split; [cbn [eng_run]; rewrite E, E1; reflexivity|]. auto.
    + destruct St as [F D]. exists [], o, ops, s, []. split; [reflexivity|]. split; [reflexivity|]. auto.
Qed.
Lemma any_memory ops : Forall before_finish ops ->
  match eng_run malloc next_lib eng0 ops with
  | Some (s, l) => exists addr, Forall2 (fun o a => right_answer (g_heap s) addr o a \/ wanted o <> None /\ ((algorithm_lookup o /\ empty_success a) \/ (key_lookup o /\ refused a))) ops l
  | None => exists pre o post s l, ops = pre ++ o :: post /\ eng_run malloc next_lib eng0 pre = Some (s, l) /\ eng_step malloc next_lib s o = None /\ fragile o /\
      (malloc (g_heap s) = None \/ exists p, malloc (g_heap s) = Some p /\ malloc ((p, MDigest) :: g_heap s) = None)
  end.
Proof.
  intros H. pose proof (run_end ops eng0 inv0 H) as R. destruct (eng_run malloc next_lib eng0 ops) as [[s l]|]; [|exact R].
  destruct R as (I & _ & A). exists (fun m => match slot s m with Some p => p | None => 0%nat end).
  clear H. induction A as [|o a ops l A1 A2 IH]; constructor; [|exact IH]. destruct A1 as [A1|A1]; [left|right; exact A1].
  unfold answered in A1. unfold right_answer. destruct (wanted o) as [m|]; [|exact A1]. destruct A1 as (R & p & M & S). rewrite S.
  split; [exact R|]. split; [exact M|]. apply (v_live _ I), S.
Qed.

(** The three ways to go wrong, from every state before the objects are made. *)
Lemma cipher_oom s nids : g_cipher s = None -> malloc (g_heap s) = None -> ciphers malloc s true nids NID_dstu28147_cfb = (s, ANS 1 (Some None) None).
Proof.
  intros H1 H2. unfold ciphers. rewrite cipher_dry by exact H2. cbn [andb negb]. replace (NID_dstu28147_cfb =? 0)%Z with false by reflexivity. cbn [negb]. rewrite Z.eqb_refl, H1. reflexivity.
Qed.
Lemma asn1_oom ops s l nids n : Forall before_finish ops -> eng_run malloc next_lib eng0 ops = Some (s, l) -> (forall b, ~ In (GAsn1 true b n) ops) ->
  n = NID_dstu4145le \/ n = NID_dstu4145be -> malloc (g_heap s) = None -> eng_run malloc next_lib eng0 (ops ++ [GAsn1 true nids n]) = None.
Proof.
  intros Hb E Hn Hc Hm. rewrite (eng_run_app malloc next_lib ops), E. cbn [eng_run eng_step].
  pose proof (run_end ops eng0 inv0 Hb) as R. rewrite E in R. destruct R as (I & _ & _).
  assert (Hs : slot s (MAsn1 n) = None).
  { clear Hm. assert (K : forall ops s0, inv s0 -> slot s0 (MAsn1 n) = None -> Forall before_finish ops -> (forall b, ~ In (GAsn1 true b n) ops) ->
      forall s l, eng_run malloc next_lib s0 ops = Some (s, l) -> slot s (MAsn1 n) = None).
    { clear - Hf Hc. induction ops as [|o ops IH]; intros s0 I0 S0 Hb Hn s l E; cbn [eng_run] in E; [injection E as <- <-; exact S0|].
      inversion Hb as [|? ? H1 H2]. subst. pose proof (step_end_ok s0 o I0 H1) as St. unfold step_end in St.
      destruct (eng_step malloc next_lib s0 o) as [[s1 a]|] eqn:Es; [|discriminate]. destruct St as (I1 & _ & _).
      destruct (eng_run malloc next_lib s1 ops) as [[s2 l2]|] eqn:Er; [|discriminate]. injection E as <- <-.
      refine (IH s1 I1 _ H2 (fun b X => Hn b (or_intror X)) s2 l2 Er). clear IH Er I1 H2.
      assert (Hne : forall b k, o = GAsn1 true b k -> k <> n) by (intros b k -> ->; apply (Hn b); left; reflexivity).
      assert (Same : forall s1, g_am s1 = g_am s0 -> slot s1 (MAsn1 n) = None) by (intros s1' X; cbn [slot] in S0 |- *; rewrite X; exact S0).
      assert (Am : forall t, g_am (fst (md_get malloc t)) = g_am t) by (intros t; unfold md_get; destruct (g_md t); [reflexivity|]; destruct (mnew malloc (g_heap t) MDigest); reflexivity).
      assert (Ac : forall t, g_am (fst (cipher_get malloc t)) = g_am t) by (intros t; unfold cipher_get; destruct (g_cipher t); [reflexivity|]; destruct (mnew malloc (g_heap t) MCipher); reflexivity).
      destruct o as [i b| |out nids k|out nids k|out nids k|out nids k|p| |]; cbn [eng_step before_finish] in *; try contradiction.
      - destruct (bind malloc next_lib s0 i b) as [[s' r]|] eqn:Eb; [|discriminate]. injection Es as <- <-. apply Same. unfold bind in Eb.
        destruct i; cbn [negb] in Eb; [|injection Eb as <- <-; reflexivity].
        destruct (b_setup b); cbn [negb] in Eb; [|injection Eb as <- <-; reflexivity].
        pose proof (Am s0) as A1. destruct (md_get malloc s0) as [t1 q1]. cbn [fst] in A1. destruct (deref (g_heap t1) q1); [|discriminate].
        destruct (b_digest b); cbn [negb] in Eb; [|injection Eb as <- <-; exact A1].
        pose proof (Ac t1) as A2. destruct (cipher_get malloc t1) as [t2 q2]. cbn [fst] in A2. destruct (deref (g_heap t2) q2); [|discriminate].
        destruct (b_cipher b); cbn [negb] in Eb; [|injection Eb as <- <-; cbn; congruence].
        destruct (b_pbe b); cbn [negb] in Eb; injection Eb as <- <-; cbn; congruence.
      - injection Es as <- <-. exact S0.
      - apply (f_equal (option_map fst)) in Es. injection Es as <-. apply Same. unfold digests. destruct (out && negb (k =? 0)%Z); [|destruct nids; reflexivity].
        destruct (NID_dstu34311 =? k)%Z; [|reflexivity]. rewrite <- (Am s0). destruct (md_get malloc s0); reflexivity.
      - apply (f_equal (option_map fst)) in Es. injection Es as <-. apply Same. unfold ciphers. destruct (out && negb (k =? 0)%Z); [|destruct nids; reflexivity].
        destruct (NID_dstu28147_cfb =? k)%Z; [|reflexivity]. rewrite <- (Ac s0). destruct (cipher_get malloc s0); reflexivity.
      - unfold pkey_meths in Es. destruct out; cbn [negb] in Es; [|destruct nids; [injection Es as <- <-; exact S0|discriminate]].
        unfold pkey_meth_get in Es. destruct (slot_get malloc (g_heap s0) MPkey k dstu_nids (g_pm s0)) as [[h' pm'] q]. injection Es as <- <-. apply Same. reflexivity.
      - unfold asn1_meths in Es. destruct out; cbn [negb] in Es; [|destruct nids; [injection Es as <- <-; exact S0|discriminate]].
        assert (Hk : k <> n) by (eapply Hne; reflexivity).
        destruct (malloc (g_heap s0)) as [pp|] eqn:Em.
        + rewrite asn1_full in Es by congruence. destruct (adv k) eqn:Ha.
          * destruct (asn1_some full full_good s0 k (v_pm _ I0) (v_am _ I0) Ha) as (r & Er & Ds). rewrite Er in Es. destruct r as [s' q]. injection Es as <- <-.
            destruct Ds as [(p & _ & X)|(p & s'' & X & _ & _ & _ & _ & _ & _ & Sl)]; injection X as -> ->; [exact S0|].
            rewrite Sl. cbn [msame]. destruct (Z.eqb_spec k n); [contradiction|exact S0].
          * rewrite (asn1_get_no full s0 k I0 Ha) in Es. injection Es as <- <-. exact S0.
        + rewrite asn1_dry in Es by assumption. destruct (slot s0 (MAsn1 k)); [injection Es as <- <-; exact S0|]. destruct (adv k); [discriminate|]. injection Es as <- <-. exact S0. }
    refine (K ops eng0 inv0 _ Hb Hn s l E). cbn [slot eng0 g_am nth]. destruct (n =? NID_dstu4145le)%Z, (n =? NID_dstu4145be)%Z; reflexivity. }
  unfold asn1_meths. cbn [negb]. rewrite asn1_dry by assumption. rewrite Hs.
  replace (adv n) with true by (unfold adv; destruct Hc as [-> | ->]; reflexivity). reflexivity.
Qed.
Lemma bind_oom s b : g_md s = None -> malloc (g_heap s) = None -> b_setup b = true -> bind malloc next_lib s true b = None.
Proof. intros H1 H2 Hb. unfold bind. rewrite Hb. cbn [negb]. rewrite md_dry by exact H2. rewrite H1. reflexivity. Qed.
End Mem.
