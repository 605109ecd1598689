(** Proofs about engine/dstu.c. *)
From Coq Require Import Lia ZArith.
From Verif Require Import Base Lib Model_Err Model_Engine Spec_Engine.

Definition slot (s : eng) (m : method) : option nat :=
  match m with
  | MDigest => g_md s
  | MCipher => g_cipher s
  | MPkey n => if (n =? NID_dstu4145le)%Z then nth 0 (g_pm s) None else if (n =? NID_dstu4145be)%Z then nth 1 (g_pm s) None else None
  | MAsn1 n => if (n =? NID_dstu4145le)%Z then nth 0 (g_am s) None else if (n =? NID_dstu4145be)%Z then nth 1 (g_am s) None else None
  end.
Record inv (s : eng) : Prop := {
  v_nodup : NoDup (map fst (g_heap s));
  v_live : forall m p, slot s m = Some p -> live (g_heap s) p = Some m;
  v_pm : length (g_pm s) = 2%nat; v_am : length (g_am s) = 2%nat }.
Definition grows (s s' : eng) : Prop := forall m p, slot s m = Some p -> slot s' m = Some p.

Lemma live_none h p : live h p = None <-> ~ In p (map fst h).
Proof.
  induction h as [|[q m] h IH]; [cbn; tauto|]. cbn [live map fst In]. destruct (Nat.eqb_spec p q) as [->|E].
  - split; [discriminate|]. intros H. exfalso. apply H. left. reflexivity.
  - rewrite IH. split; intros H; [intros [X|X]; [congruence|contradiction]|tauto].
Qed.
Lemma live_release h p : NoDup (map fst h) -> live (release h p) p = None.
Proof.
  induction h as [|[q m] h IH]; intros Hn; [reflexivity|]. cbn [release]. cbn [map fst] in Hn. inversion Hn as [|? ? H1 H2]. subst.
  destruct (Nat.eqb_spec p q) as [->|E]; [apply live_none; exact H1|]. cbn [live]. destruct (Nat.eqb_spec p q); [contradiction|]. apply IH, H2.
Qed.
Lemma live_release_other h p q : q <> p -> live (release h p) q = live h q.
Proof.
  intros Hq. induction h as [|[r m] h IH]; [reflexivity|]. cbn [release]. destruct (Nat.eqb_spec p r) as [->|E].
  - cbn [live]. destruct (Nat.eqb_spec q r); [contradiction|reflexivity].
  - cbn [live]. destruct (Nat.eqb q r); [reflexivity|exact IH].
Qed.
Lemma release_in h p x : In x (map fst (release h p)) -> In x (map fst h).
Proof.
  induction h as [|[q m] h IH]; [tauto|]. cbn [release]. destruct (Nat.eqb p q); cbn [map fst In]; tauto.
Qed.
Lemma release_nodup h p : NoDup (map fst h) -> NoDup (map fst (release h p)).
Proof.
  induction h as [|[q m] h IH]; intros Hn; [constructor|]. cbn [release]. cbn [map fst] in Hn. inversion Hn as [|? ? H1 H2]. subst.
  destruct (Nat.eqb p q); [exact H2|]. cbn [map fst]. constructor; [|apply IH, H2]. intros H. apply H1. eapply release_in, H.
Qed.

Section Engine.
Variable malloc : mheap -> option nat.
Hypothesis Hm : malloc_good malloc.
Variable next_lib : nat -> N.

Lemma mnew_ok h m : exists p, mnew malloc h m = ((p, m) :: h, Some p) /\ live h p = None.
Proof. unfold mnew. destruct (Hm h) as (p & -> & H). exists p. auto. Qed.

(** A lookup: the new state is good, keeps every object, and the slot asked for is filled. *)
Definition got (s : eng) (m : method) (r : eng * option nat) : Prop :=
  inv (fst r) /\ grows s (fst r) /\ g_err (fst r) = g_err s /\ exists p, snd r = Some p /\ slot (fst r) m = Some p.

(** Adding one object in an empty slot. *)
Lemma add_ok s m p s' : inv s -> live (g_heap s) p = None -> slot s m = None ->
  g_heap s' = (p, m) :: g_heap s -> length (g_pm s') = 2%nat -> length (g_am s') = 2%nat -> g_err s' = g_err s ->
  (forall m', slot s' m' = if match m, m' with
     | MDigest, MDigest | MCipher, MCipher => true | MPkey a, MPkey b | MAsn1 a, MAsn1 b => (a =? b)%Z | _, _ => false end then Some p else slot s m') ->
  got s m (s', Some p).
Proof.
  intros I Hp Hs Hh L1 L2 He Hsl.
  assert (Heq : forall m', (match m, m' with
     | MDigest, MDigest | MCipher, MCipher => true | MPkey a, MPkey b | MAsn1 a, MAsn1 b => (a =? b)%Z | _, _ => false end) = true <-> m' = m).
  { intros m'. destruct m, m'; try (split; [discriminate|intros X; discriminate]); try (split; reflexivity).
    - rewrite Z.eqb_eq. split; [intros ->; reflexivity|intros X; congruence].
    - rewrite Z.eqb_eq. split; [intros ->; reflexivity|intros X; congruence]. }
  split; [|split; [|split]]; cbn [fst snd].
  - constructor; try assumption.
    + rewrite Hh. cbn [map fst]. constructor; [apply live_none, Hp|apply (v_nodup _ I)].
    + intros m' q. rewrite Hsl, Hh. specialize (Heq m'). destruct (match m, m' with MDigest, MDigest | MCipher, MCipher => true | MPkey a, MPkey b | MAsn1 a, MAsn1 b => (a =? b)%Z | _, _ => false end) eqn:E.
      * intros X. injection X as <-. cbn [live]. rewrite Nat.eqb_refl. f_equal. symmetry. apply Heq. reflexivity.
      * intros X. pose proof (v_live _ I _ _ X) as Y. cbn [live]. destruct (Nat.eqb_spec q p) as [->|]; [congruence|exact Y].
  - intros m' q X. rewrite Hsl. specialize (Heq m'). destruct (match m, m' with MDigest, MDigest | MCipher, MCipher => true | MPkey a, MPkey b | MAsn1 a, MAsn1 b => (a =? b)%Z | _, _ => false end) eqn:E; [|exact X].
    assert (m' = m) as -> by (apply Heq; reflexivity). congruence.
  - exact He.
  - exists p. split; [reflexivity|]. rewrite Hsl. replace (match m, m with MDigest, MDigest | MCipher, MCipher => true | MPkey a, MPkey b | MAsn1 a, MAsn1 b => (a =? b)%Z | _, _ => false end) with true; [reflexivity|].
    symmetry. apply Heq. reflexivity.
Qed.
Lemma same_ok s m p : inv s -> slot s m = Some p -> got s m (s, Some p).
Proof. intros I H. split; [exact I|]. split; [intros m' q X; exact X|]. split; [reflexivity|]. exists p. auto. Qed.

Lemma md_get_ok s : inv s -> got s MDigest (md_get malloc s).
Proof.
  intros I. unfold md_get. destruct (g_md s) as [p|] eqn:E; [apply same_ok; assumption|].
  destruct (mnew_ok (g_heap s) MDigest) as (p & -> & Hp).
  apply (add_ok s MDigest p); try assumption; try reflexivity; [apply (v_pm _ I)|apply (v_am _ I)|].
  intros [| |n|n]; reflexivity.
Qed.
Lemma cipher_get_ok s : inv s -> got s MCipher (cipher_get malloc s).
Proof.
  intros I. unfold cipher_get. destruct (g_cipher s) as [p|] eqn:E; [apply same_ok; assumption|].
  destruct (mnew_ok (g_heap s) MCipher) as (p & -> & Hp).
  apply (add_ok s MCipher p); try assumption; try reflexivity; [apply (v_pm _ I)|apply (v_am _ I)|].
  intros [| |n|n]; reflexivity.
Qed.
Lemma le_be : (NID_dstu4145le =? NID_dstu4145be)%Z = false /\ (NID_dstu4145be =? NID_dstu4145le)%Z = false.
Proof. split; reflexivity. Qed.
Definition adv (n : Z) : bool := ((n =? NID_dstu4145le) || (n =? NID_dstu4145be))%Z.
Definition msame (m m' : method) : bool :=
  match m, m' with MDigest, MDigest | MCipher, MCipher => true | MPkey a, MPkey b | MAsn1 a, MAsn1 b => (a =? b)%Z | _, _ => false end.
Definition desc (s : eng) (m : method) (r : eng * option nat) : Prop :=
  (exists p, slot s m = Some p /\ r = (s, Some p)) \/
  (exists p s', r = (s', Some p) /\ slot s m = None /\ live (g_heap s) p = None /\ g_heap s' = (p, m) :: g_heap s /\
     length (g_pm s') = 2%nat /\ length (g_am s') = 2%nat /\ g_err s' = g_err s /\ forall m', slot s' m' = if msame m m' then Some p else slot s m').
Lemma desc_got s m r : inv s -> desc s m r -> got s m r.
Proof.
  intros I [(p & H1 & ->)|(p & s' & -> & H1 & H2 & H3 & H4 & H5 & H6 & H7)]; [apply same_ok; assumption|].
  apply (add_ok s m p s'); assumption.
Qed.
Lemma pkey_desc s n : length (g_pm s) = 2%nat -> length (g_am s) = 2%nat -> adv n = true -> desc s (MPkey n) (pkey_meth_get malloc s n).
Proof.
  intros L1 L2 Hn. unfold pkey_meth_get. destruct s as [h md ci pm am er]. cbn [g_heap g_md g_cipher g_pm g_am g_err].
  cbn [g_pm g_am] in L1, L2.
  destruct pm as [|p0 [|p1 [|]]]; try discriminate L1. unfold dstu_nids. cbn [slot_get]. unfold adv in Hn.
  destruct (Z.eqb_spec n NID_dstu4145le) as [->|N1].
  - destruct p0 as [p0|]; [left; eexists; split; [|reflexivity]; reflexivity|].
    destruct (mnew_ok h (MPkey NID_dstu4145le)) as (p & -> & Hp).
    right. exists p. eexists. split; [reflexivity|]. split; [reflexivity|]. split; [exact Hp|]. split; [reflexivity|]. split; [assumption||reflexivity|]. split; [assumption||reflexivity|]. split; [reflexivity|].
    intros [| |k|k]; try reflexivity. unfold msame. cbn [slot g_pm]. rewrite (Z.eqb_sym NID_dstu4145le k). destruct (k =? NID_dstu4145le)%Z; reflexivity.
  - cbn [orb] in Hn. apply Z.eqb_eq in Hn. subst n. rewrite Z.eqb_refl.
    destruct p1 as [p1|]; [left; eexists; split; [|reflexivity]; reflexivity|].
    destruct (mnew_ok h (MPkey NID_dstu4145be)) as (p & -> & Hp).
    right. exists p. eexists. split; [reflexivity|]. split; [reflexivity|]. split; [exact Hp|]. split; [reflexivity|]. split; [assumption||reflexivity|]. split; [assumption||reflexivity|]. split; [reflexivity|].
    intros [| |k|k]; try reflexivity. unfold msame. cbn [slot g_pm nth]. rewrite (Z.eqb_sym NID_dstu4145be k).
    destruct (Z.eqb_spec k NID_dstu4145le) as [->|]; [reflexivity|]. destruct (k =? NID_dstu4145be)%Z; reflexivity.
Qed.
Lemma asn1_desc s n : length (g_pm s) = 2%nat -> length (g_am s) = 2%nat -> adv n = true -> desc s (MAsn1 n) (asn1_found malloc s n).
Proof.
  intros L1 L2 Hn. unfold asn1_found. destruct s as [h md ci pm am er]. cbn [g_heap g_md g_cipher g_pm g_am g_err].
  cbn [g_pm g_am] in L1, L2.
  destruct am as [|p0 [|p1 [|]]]; try discriminate L2. unfold dstu_nids. cbn [slot_get]. unfold adv in Hn.
  destruct (Z.eqb_spec n NID_dstu4145le) as [->|N1].
  - destruct p0 as [p0|]; [left; eexists; split; [|reflexivity]; reflexivity|].
    destruct (mnew_ok h (MAsn1 NID_dstu4145le)) as (p & -> & Hp).
    right. exists p. eexists. split; [reflexivity|]. split; [reflexivity|]. split; [exact Hp|]. split; [reflexivity|]. split; [assumption||reflexivity|]. split; [assumption||reflexivity|]. split; [reflexivity|].
    intros [| |k|k]; try reflexivity. unfold msame. cbn [slot g_am]. rewrite (Z.eqb_sym NID_dstu4145le k). destruct (k =? NID_dstu4145le)%Z; reflexivity.
  - cbn [orb] in Hn. apply Z.eqb_eq in Hn. subst n. rewrite Z.eqb_refl.
    destruct p1 as [p1|]; [left; eexists; split; [|reflexivity]; reflexivity|].
    destruct (mnew_ok h (MAsn1 NID_dstu4145be)) as (p & -> & Hp).
    right. exists p. eexists. split; [reflexivity|]. split; [reflexivity|]. split; [exact Hp|]. split; [reflexivity|]. split; [assumption||reflexivity|]. split; [assumption||reflexivity|]. split; [reflexivity|].
    intros [| |k|k]; try reflexivity. unfold msame. cbn [slot g_am nth]. rewrite (Z.eqb_sym NID_dstu4145be k).
    destruct (Z.eqb_spec k NID_dstu4145le) as [->|]; [reflexivity|]. destruct (k =? NID_dstu4145be)%Z; reflexivity.
Qed.
Lemma pkey_get_ok s n : inv s -> adv n = true -> got s (MPkey n) (pkey_meth_get malloc s n).
Proof. intros I Hn. apply desc_got; [exact I|]. apply pkey_desc; [apply (v_pm _ I)|apply (v_am _ I)|exact Hn]. Qed.
Lemma asn1_get_ok s n : inv s -> adv n = true -> got s (MAsn1 n) (asn1_found malloc s n).
Proof. intros I Hn. apply desc_got; [exact I|]. apply asn1_desc; [apply (v_pm _ I)|apply (v_am _ I)|exact Hn]. Qed.
Lemma asn1_meth_some s n : snd (asn1_found malloc s n) <> None -> asn1_meth_get malloc s n = Some (asn1_found malloc s n).
Proof. unfold asn1_meth_get. destruct (asn1_found malloc s n) as [s' [p|]]; cbn; [reflexivity|congruence]. Qed.
Lemma desc_some s m r : desc s m r -> snd r <> None.
Proof. intros [(p & _ & ->)|(p & s' & -> & _)]; discriminate. Qed.
Lemma pkey_get_no s n : inv s -> adv n = false -> pkey_meth_get malloc s n = (s, None).
Proof.
  intros I Hn. unfold pkey_meth_get. destruct s as [h md ci pm am er]. pose proof (v_pm _ I) as L1. cbn [g_heap g_md g_cipher g_pm g_am g_err] in *.
  destruct pm as [|p0 [|p1 [|]]]; try discriminate L1. unfold dstu_nids. cbn [slot_get]. unfold adv in Hn. apply orb_false_iff in Hn. destruct Hn as [-> ->]. reflexivity.
Qed.
Lemma asn1_get_no s n : inv s -> adv n = false -> asn1_meth_get malloc s n = Some (s, None).
Proof.
  intros I Hn. unfold asn1_meth_get, asn1_found. destruct s as [h md ci pm am er]. pose proof (v_am _ I) as L1. cbn [g_heap g_md g_cipher g_pm g_am g_err] in *.
  destruct am as [|p0 [|p1 [|]]]; try discriminate L1. unfold dstu_nids. cbn [slot_get]. unfold adv in Hn. apply orb_false_iff in Hn. destruct Hn as [E1 E2]. cbn [existsb]. rewrite E1, E2. reflexivity.
Qed.
Lemma set_err s e : inv s -> inv (ENG (g_heap s) (g_md s) (g_cipher s) (g_pm s) (g_am s) e).
Proof. intros [A B C D]. constructor; cbn; assumption. Qed.
Lemma grows_refl s : grows s s. Proof. intros m p H. exact H. Qed.
Lemma grows_trans a b c : grows a b -> grows b c -> grows a c.
Proof. intros H1 H2 m p H. apply H2, H1, H. Qed.
Lemma grows_err s s' e : grows s s' -> grows s (ENG (g_heap s') (g_md s') (g_cipher s') (g_pm s') (g_am s') e).
Proof. intros H m p X. specialize (H m p X). destruct m; exact H. Qed.

Lemma bind_ok s i b : inv s -> exists s' r, bind malloc next_lib s i b = Some (s', r) /\ inv s' /\ grows s s' /\
  (GBind i b = good_bind -> r = 1%Z /\ slot s' MDigest <> None /\ slot s' MCipher <> None).
Proof.
  intros I. unfold bind. destruct i; cbn [negb].
  2:{ exists s, 0%Z. split; [reflexivity|]. split; [exact I|]. split; [apply grows_refl|]. intros X. discriminate X. }
  assert (Bad : forall s1, inv s1 -> grows s s1 -> b <> BENV true true true true -> exists s' r, bind_fail next_lib s1 = Some (s', r) /\ inv s' /\ grows s s' /\
    (GBind true b = good_bind -> r = 1%Z /\ slot s' MDigest <> None /\ slot s' MCipher <> None)).
  { intros s1 I1 G1 Hb. eexists. eexists. split; [reflexivity|]. split; [apply set_err, I1|]. split; [apply grows_err, G1|]. intros X. injection X as X. contradiction. }
  destruct b as [b1 b2 b3 b4]. cbn [b_setup b_digest b_cipher b_pbe].
  destruct b1; cbn [negb]; [|apply Bad; [exact I|apply grows_refl|discriminate]].
  pose proof (md_get_ok s I) as (I1 & G1 & _ & p1 & E1 & S1). destruct (md_get malloc s) as [s1 q1]. cbn [fst snd] in *. subst q1.
  cbn [deref]. rewrite (v_live _ I1 _ _ S1).
  destruct b2; cbn [negb]; [|apply Bad; [exact I1|exact G1|discriminate]].
  pose proof (cipher_get_ok s1 I1) as (I2 & G2 & _ & p2 & E2 & S2). destruct (cipher_get malloc s1) as [s2 q2]. cbn [fst snd] in *. subst q2.
  cbn [deref]. rewrite (v_live _ I2 _ _ S2).
  assert (G : grows s s2) by (eapply grows_trans; eassumption).
  destruct b3; cbn [negb]; [|apply Bad; [exact I2|exact G|discriminate]].
  destruct b4; cbn [negb]; [|apply Bad; [exact I2|exact G|discriminate]].
  eexists. eexists. split; [reflexivity|]. split; [apply set_err, I2|]. split; [apply grows_err, G|]. intros _. split; [reflexivity|].
  pose proof (G2 _ _ S1) as S1'. cbn [slot g_md g_cipher] in *. rewrite S1', S2. split; discriminate.
Qed.

(** The answer of one call, relative to the state after it. *)
Definition answered (s : eng) (o : eng_op) (a : answer) : Prop :=
  match wanted o with
  | Some m => a_ret a = 1%Z /\ exists p, a_meth a = Some (Some p) /\ slot s m = Some p
  | None =>
      match listed o with
      | Some l => a_ret a = Z.of_nat (length l) /\ a_nids a = Some l /\ a_meth a = None
      | None => (lookup o = true -> (a_ret a <= 0)%Z) /\ (a_meth a = None \/ a_meth a = Some None)
      end
  end.
Lemma answered_grows s s' o a : grows s s' -> answered s o a -> answered s' o a.
Proof.
  intros G. unfold answered. destruct (wanted o) as [m|]; [|tauto]. intros (H1 & p & H2 & H3). split; [exact H1|]. exists p. split; [exact H2|]. apply G, H3.
Qed.
Lemma step_ok s o : inv s -> before_finish o -> exists s' a, eng_step malloc next_lib s o = Some (s', a) /\ inv s' /\ grows s s' /\ answered s' o a /\
  (o = good_bind -> slot s' MDigest <> None /\ slot s' MCipher <> None).
Proof.
  intros I Hb. destruct o as [i b| |out nids n|out nids n|out nids n|out nids n|p| |]; cbn [eng_step before_finish] in *; try contradiction.
  - destruct (bind_ok s i b I) as (s' & r & -> & I' & G & H). exists s', (ANS r None None). split; [reflexivity|]. split; [exact I'|]. split; [exact G|].
    split; [split; [intros X; discriminate X|left; reflexivity]|]. intros X. apply H, X.
  - exists s, (ANS 1 None None). split; [reflexivity|]. split; [exact I|]. split; [apply grows_refl|]. split; [split; [intros X; discriminate X|left; reflexivity]|intros X; discriminate X].
  - unfold digests. destruct out; cbn [andb].
    + destruct (Z.eqb_spec n 0) as [->|N0]; cbn [negb].
      * destruct nids; cbn [negb]; eexists; eexists; (split; [reflexivity|]; split; [exact I|]; split; [apply grows_refl|]; split; [|intros X; discriminate X]).
        -- unfold answered. cbn. auto.
        -- unfold answered. cbn. split; [intros _; lia|auto].
      * unfold answered, wanted. fold NID_dstu34311. rewrite (Z.eqb_sym n). destruct (NID_dstu34311 =? n)%Z.
        -- pose proof (md_get_ok s I) as (I1 & G1 & _ & p1 & E1 & S1). destruct (md_get malloc s) as [s1 q1]. cbn [fst snd] in *. subst q1.
           eexists. eexists. split; [reflexivity|]. split; [exact I1|]. split; [exact G1|]. split; [|intros X; discriminate X]. split; [reflexivity|]. exists p1. split; [reflexivity|exact S1].
        -- eexists. eexists. split; [reflexivity|]. split; [exact I|]. split; [apply grows_refl|]. split; [|intros X; discriminate X].
           unfold listed. cbn [andb]. replace (n =? 0)%Z with false by lia. cbn [negb]. destruct nids; cbn; (split; [intros _; lia|auto]).
    + destruct nids; cbn [negb]; eexists; eexists; (split; [reflexivity|]; split; [exact I|]; split; [apply grows_refl|]; split; [|intros X; discriminate X]).
      * unfold answered. cbn. auto.
      * unfold answered. cbn. split; [intros _; lia|auto].
  - unfold ciphers. destruct out; cbn [andb].
    + destruct (Z.eqb_spec n 0) as [->|N0]; cbn [negb].
      * destruct nids; cbn [negb]; eexists; eexists; (split; [reflexivity|]; split; [exact I|]; split; [apply grows_refl|]; split; [|intros X; discriminate X]).
        -- unfold answered. cbn. auto.
        -- unfold answered. cbn. split; [intros _; lia|auto].
      * unfold answered, wanted. fold NID_dstu28147_cfb. rewrite (Z.eqb_sym n). destruct (NID_dstu28147_cfb =? n)%Z.
        -- pose proof (cipher_get_ok s I) as (I1 & G1 & _ & p1 & E1 & S1). destruct (cipher_get malloc s) as [s1 q1]. cbn [fst snd] in *. subst q1.
           eexists. eexists. split; [reflexivity|]. split; [exact I1|]. split; [exact G1|]. split; [|intros X; discriminate X]. split; [reflexivity|]. exists p1. split; [reflexivity|exact S1].
        -- eexists. eexists. split; [reflexivity|]. split; [exact I|]. split; [apply grows_refl|]. split; [|intros X; discriminate X].
           unfold listed. cbn [andb]. replace (n =? 0)%Z with false by lia. cbn [negb]. destruct nids; cbn; (split; [intros _; lia|auto]).
    + destruct nids; cbn [negb]; eexists; eexists; (split; [reflexivity|]; split; [exact I|]; split; [apply grows_refl|]; split; [|intros X; discriminate X]).
      * unfold answered. cbn. auto.
      * unfold answered. cbn. split; [intros _; lia|auto].
  - unfold pkey_meths. destruct out; cbn [negb].
    + destruct (adv n) eqn:Ha.
      * pose proof (pkey_get_ok s n I Ha) as (I1 & G1 & _ & p1 & E1 & S1). destruct (pkey_meth_get malloc s n) as [s1 q1]. cbn [fst snd] in *. subst q1.
        eexists. eexists. split; [reflexivity|]. split; [exact I1|]. split; [exact G1|]. split; [|intros X; discriminate X].
        unfold answered, wanted. fold NID_dstu4145le NID_dstu4145be. fold (adv n). rewrite Ha. split; [reflexivity|]. exists p1. split; [reflexivity|exact S1].
      * rewrite pkey_get_no by assumption. eexists. eexists. split; [reflexivity|]. split; [exact I|]. split; [apply grows_refl|]. split; [|intros X; discriminate X].
        unfold answered, wanted. fold NID_dstu4145le NID_dstu4145be. fold (adv n). rewrite Ha. destruct nids; cbn; (split; [intros _; lia|auto]).
    + destruct Hb as [Hb| ->]; [discriminate|]. eexists. eexists. split; [reflexivity|]. split; [exact I|]. split; [apply grows_refl|]. split; [|intros X; discriminate X].
      unfold answered. cbn. auto.
  - unfold asn1_meths. destruct out; cbn [negb].
    + destruct (adv n) eqn:Ha.
      * pose proof (asn1_get_ok s n I Ha) as (I1 & G1 & _ & p1 & E1 & S1). rewrite asn1_meth_some by (rewrite E1; discriminate). destruct (asn1_found malloc s n) as [s1 q1]. cbn [fst snd] in *. subst q1.
        eexists. eexists. split; [reflexivity|]. split; [exact I1|]. split; [exact G1|]. split; [|intros X; discriminate X].
        unfold answered, wanted. fold NID_dstu4145le NID_dstu4145be. fold (adv n). rewrite Ha. split; [reflexivity|]. exists p1. split; [reflexivity|exact S1].
      * rewrite asn1_get_no by assumption. eexists. eexists. split; [reflexivity|]. split; [exact I|]. split; [apply grows_refl|]. split; [|intros X; discriminate X].
        unfold answered, wanted. fold NID_dstu4145le NID_dstu4145be. fold (adv n). rewrite Ha. destruct nids; cbn; (split; [intros _; lia|auto]).
    + destruct Hb as [Hb| ->]; [discriminate|]. eexists. eexists. split; [reflexivity|]. split; [exact I|]. split; [apply grows_refl|]. split; [|intros X; discriminate X].
      unfold answered. cbn. auto.
Qed.
Lemma run_ok ops : forall s, inv s -> Forall before_finish ops -> exists s' l, eng_run malloc next_lib s ops = Some (s', l) /\ inv s' /\ grows s s' /\
  Forall2 (answered s') ops l /\ (In good_bind ops -> slot s' MDigest <> None /\ slot s' MCipher <> None).
Proof.
  induction ops as [|o ops IH]; intros s I Hf.
  - exists s, []. split; [reflexivity|]. split; [exact I|]. split; [apply grows_refl|]. split; [constructor|intros []].
  - inversion Hf as [|? ? H1 H2]. subst. cbn [eng_run]. destruct (step_ok s o I H1) as (s1 & a & -> & I1 & G1 & A1 & B1).
    destruct (IH s1 I1 H2) as (s2 & l & -> & I2 & G2 & A2 & B2). exists s2, (a :: l). split; [reflexivity|]. split; [exact I2|].
    split; [eapply grows_trans; eassumption|]. split; [constructor; [eapply answered_grows; eassumption|exact A2]|].
    intros [->|X]; [|apply B2, X]. destruct (B1 eq_refl) as [X1 X2]. split.
    + destruct (slot s1 MDigest) as [p|] eqn:E; [|contradiction]. rewrite (G2 _ _ E). discriminate.
    + destruct (slot s1 MCipher) as [p|] eqn:E; [|contradiction]. rewrite (G2 _ _ E). discriminate.
Qed.
Lemma inv0 : inv eng0.
Proof.
  constructor; try reflexivity; [constructor|]. intros [| |n|n] p; cbn [slot eng0 g_md g_cipher g_pm g_am nth]; try discriminate;
    destruct (n =? NID_dstu4145le)%Z; try discriminate; destruct (n =? NID_dstu4145be)%Z; discriminate.
Qed.

Lemma lookups_ok ops : Forall before_finish ops -> exists s l addr, eng_run malloc next_lib eng0 ops = Some (s, l) /\ Forall2 (right_answer (g_heap s) addr) ops l.
Proof.
  intros H. destruct (run_ok ops eng0 inv0 H) as (s & l & E & I & _ & A & _).
  exists s, l, (fun m => match slot s m with Some p => p | None => 0%nat end). split; [exact E|].
  clear E H. induction A as [|o a ops l A1 A2 IH]; constructor; [|exact IH].
  unfold answered in A1. unfold right_answer. destruct (wanted o) as [m|]; [|exact A1]. destruct A1 as (R & p & M & S). rewrite S.
  split; [exact R|]. split; [exact M|]. apply (v_live _ I), S.
Qed.

(** ** After finish *)
Lemma finish_ok s : inv s -> exists s', engine_finish s = Some (s', 1%Z) /\ g_md s' = g_md s /\ g_cipher s' = g_cipher s /\ g_pm s' = g_pm s /\ g_am s' = g_am s /\
  NoDup (map fst (g_heap s')) /\
  (forall p, Some p = g_md s \/ Some p = g_cipher s -> live (g_heap s') p = None) /\
  (forall p, Some p <> g_md s -> Some p <> g_cipher s -> live (g_heap s') p = live (g_heap s) p).
Proof.
  intros I. unfold engine_finish.
  assert (Hd : forall p, g_md s = Some p -> g_cipher s = Some p -> False).
  { intros p H1 H2. pose proof (v_live _ I MDigest p H1) as A. pose proof (v_live _ I MCipher p H2) as B. congruence. }
  destruct (g_cipher s) as [c|] eqn:Ec.
  - cbn [mfree]. rewrite (v_live _ I MCipher c Ec). destruct (g_md s) as [d|] eqn:Ed.
    + assert (d <> c) by (intros ->; eapply Hd; reflexivity).
      cbn [mfree]. rewrite live_release_other by assumption. rewrite (v_live _ I MDigest d Ed).
      eexists. split; [reflexivity|]. cbn [g_md g_cipher g_pm g_am g_heap]. repeat (split; [reflexivity|]).
      split; [apply release_nodup, release_nodup, (v_nodup _ I)|]. split.
      * intros p [X|X]; injection X as ->; [apply live_release, release_nodup, (v_nodup _ I)|].
        rewrite live_release_other by (intros ->; contradiction). apply live_release, (v_nodup _ I).
      * intros p X Y. rewrite !live_release_other; [reflexivity|congruence|congruence].
    + cbn [mfree]. eexists. split; [reflexivity|]. cbn [g_md g_cipher g_pm g_am g_heap]. repeat (split; [reflexivity|]).
      split; [apply release_nodup, (v_nodup _ I)|]. split.
      * intros p [X|X]; [discriminate|injection X as ->]. apply live_release, (v_nodup _ I).
      * intros p X Y. rewrite live_release_other; [reflexivity|congruence].
  - cbn [mfree]. destruct (g_md s) as [d|] eqn:Ed.
    + cbn [mfree]. rewrite (v_live _ I MDigest d Ed).
      eexists. split; [reflexivity|]. cbn [g_md g_cipher g_pm g_am g_heap]. repeat (split; [reflexivity|]).
      split; [apply release_nodup, (v_nodup _ I)|]. split.
      * intros p [X|X]; [injection X as ->|discriminate]. apply live_release, (v_nodup _ I).
      * intros p X Y. rewrite live_release_other; [reflexivity|congruence].
    + cbn [mfree]. eexists. split; [reflexivity|]. cbn [g_md g_cipher g_pm g_am g_heap]. repeat (split; [reflexivity|]).
      split; [apply (v_nodup _ I)|]. split; [intros p [X|X]; discriminate|reflexivity].
Qed.
Lemma eng_run_app a b s : eng_run malloc next_lib s (a ++ b) =
  match eng_run malloc next_lib s a with None => None | Some (s1, l1) => match eng_run malloc next_lib s1 b with None => None | Some (s2, l2) => Some (s2, l1 ++ l2) end end.
Proof.
  revert s. induction a as [|o a IH]; intros s; cbn [app eng_run].
  - destruct (eng_run malloc next_lib s b) as [[s2 l2]|]; reflexivity.
  - destruct (eng_step malloc next_lib s o) as [[s1 x]|]; [|reflexivity]. rewrite IH.
    destruct (eng_run malloc next_lib s1 a) as [[s2 l2]|]; [|reflexivity]. destruct (eng_run malloc next_lib s2 b) as [[s3 l3]|]; reflexivity.
Qed.
Lemma step_finish_twice s s' : inv s -> engine_finish s = Some (s', 1%Z) -> g_md s <> None \/ g_cipher s <> None -> engine_finish s' = None.
Proof.
  intros I E H. destruct (finish_ok s I) as (s1 & E1 & M1 & C1 & _ & _ & N1 & D1 & _). rewrite E in E1. injection E1 as <-.
  unfold engine_finish. rewrite M1, C1. destruct (g_cipher s) as [c|] eqn:Ec.
  - cbn [mfree]. rewrite (D1 c (or_intror eq_refl)). reflexivity.
  - cbn [mfree]. destruct (g_md s) as [d|] eqn:Ed; [|destruct H; contradiction]. cbn [mfree]. rewrite (D1 d (or_introl eq_refl)). reflexivity.
Qed.
Lemma bind_then_finish ops b : Forall before_finish ops -> In good_bind ops -> b_setup b = true ->
  eng_run malloc next_lib eng0 (ops ++ [GFinish]) <> None /\
  eng_run malloc next_lib eng0 (ops ++ [GFinish; GFinish]) = None /\
  eng_run malloc next_lib eng0 (ops ++ [GFinish; GBind true b]) = None /\
  exists s l p, eng_run malloc next_lib eng0 (ops ++ [GFinish; GDigests true false NID_dstu34311]) = Some (s, l ++ [ANS 1 (Some (Some p)) None]) /\ live (g_heap s) p = None.
Proof.
  intros H HB Hb. destruct (run_ok ops eng0 inv0 H) as (s & l & E & I & _ & _ & B). destruct (B HB) as [B1 B2]. cbn [slot] in B1, B2.
  destruct (finish_ok s I) as (s1 & E1 & M1 & C1 & _ & _ & N1 & D1 & _).
  rewrite !eng_run_app, E. cbn [eng_run eng_step]. rewrite E1.
  assert (E2 : engine_finish s1 = None) by (apply (step_finish_twice s s1 I E1); left; exact B1). rewrite E2.
  destruct (g_md s) as [d|] eqn:Ed; [|contradiction].
  assert (Hl : live (g_heap s1) d = None) by (apply D1; left; reflexivity).
  split; [discriminate|]. split; [reflexivity|]. split.
  - unfold bind. cbn [negb]. rewrite Hb. cbn [negb]. unfold md_get. rewrite M1. cbn [deref]. rewrite Hl. reflexivity.
  - cbn [eng_step]. unfold digests. cbn [andb negb]. replace (NID_dstu34311 =? 0)%Z with false by reflexivity. cbn [negb]. rewrite Z.eqb_refl. unfold md_get. rewrite M1.
    exists s1, (l ++ [ANS 1 None None]), d. split; [|exact Hl]. rewrite <- app_assoc. reflexivity.
Qed.
(** Everything handed out can be used until the engine is finished, and it can be finished. *)
Lemma until_finish ops : Forall before_finish ops -> exists s l, eng_run malloc next_lib eng0 ops = Some (s, l) /\
  (forall a p, In a l -> a_meth a = Some (Some p) -> eng_step malloc next_lib s (GUse p) <> None) /\
  eng_step malloc next_lib s GFinish <> None.
Proof.
  intros H. destruct (run_ok ops eng0 inv0 H) as (s & l & E & I & _ & A & _). exists s, l. split; [exact E|]. split.
  - intros a p Ha Hp. assert (Hx : exists m, slot s m = Some p).
    { clear E H. revert Ha. induction A as [|o b ops l A1 A2 IH]; [intros []|]. intros [->|X]; [|apply IH, X].
      unfold answered in A1. destruct (wanted o) as [m|] eqn:W.
      - destruct A1 as (_ & q & Q & S). exists m. rewrite S. congruence.
      - destruct (listed o) as [ls|]; [destruct A1 as (_ & _ & X); congruence|]. exfalso.
destruct A1 as [_ [X|X]]; congruence. }
    destruct Hx as [m Hx]. cbn [eng_step]. rewrite (v_live _ I _ _ Hx). discriminate.
  - cbn [eng_step]. destruct (finish_ok s I) as (s1 & -> & _). discriminate.
Qed.

(** ** Destruction of the engine object *)
Definition meth_dec : forall a b : method, {a = b} + {a <> b}.
Proof. decide equality; apply Z.eq_dec. Defined.
Lemma msame_spec m m' : msame m m' = true <-> m = m'.
Proof.
  destruct m, m'; cbn [msame]; try (split; [discriminate|intros X; discriminate]); try (split; reflexivity);
    rewrite Z.eqb_eq; (split; [intros ->; reflexivity|intros X; congruence]).
Qed.
Record dinv (done : list method) (s : eng) : Prop := {
  d_nodup : NoDup (map fst (g_heap s));
  d_pm : length (g_pm s) = 2%nat; d_am : length (g_am s) = 2%nat;
  d_live : forall m p, slot s m = Some p -> live (g_heap s) p = if in_dec meth_dec m done then None else Some m;
  d_done : forall m, In m done -> slot s m <> None }.
Definition seth (s : eng) (h : mheap) : eng := ENG h (g_md s) (g_cipher s) (g_pm s) (g_am s) (g_err s).
Lemma slot_seth s h m : slot (seth s h) m = slot s m. Proof. reflexivity. Qed.

Lemma get_free s m r done : dinv done s -> ~ In m done -> desc s m r ->
  exists p h, snd r = Some p /\ mfree (g_heap (fst r)) (snd r) = Some h /\ dinv (m :: done) (seth (fst r) h) /\ grows s (seth (fst r) h).
Proof.
  intros D Hd [(p & H1 & ->)|(p & s' & -> & H1 & H2 & H3 & H4 & H5 & _ & H7)]; cbn [fst snd].
  - exists p, (release (g_heap s) p). pose proof (d_live _ _ D _ _ H1) as HL. destruct (in_dec meth_dec m done); [contradiction|].
    split; [reflexivity|]. split; [cbn [mfree]; rewrite HL; reflexivity|]. split; [|intros m' q X; exact X].
    constructor; cbn [seth g_heap g_pm g_am]; [apply release_nodup, (d_nodup _ _ D)|apply (d_pm _ _ D)|apply (d_am _ _ D)| |].
    + intros m' q X. rewrite slot_seth in X. pose proof (d_live _ _ D _ _ X) as HL'. destruct (in_dec meth_dec m' (m :: done)) as [Y|Y].
      * destruct (Nat.eq_dec q p) as [->|E]; [apply live_release, (d_nodup _ _ D)|]. rewrite live_release_other by exact E.
        destruct Y as [<-|Y]; [congruence|]. rewrite HL'. destruct (in_dec meth_dec m' done); [reflexivity|contradiction].
      * assert (m' <> m /\ ~ In m' done) as [Y1 Y2] by (split; intros Z; apply Y; [left; congruence|right; exact Z]).
        destruct (in_dec meth_dec m' done); [contradiction|]. rewrite live_release_other; [exact HL'|]. intros ->. congruence.
    + intros m' [<-|X]; rewrite slot_seth; [congruence|]. apply (d_done _ _ D), X.
  - exists p, (g_heap s). assert (HR : release (g_heap s') p = g_heap s) by (rewrite H3; cbn [release]; rewrite Nat.eqb_refl; reflexivity).
    split; [reflexivity|]. split; [cbn [mfree]; rewrite H3; cbn [live]; rewrite Nat.eqb_refl; rewrite <- H3, HR; reflexivity|].
    assert (Hs' : forall m', slot (seth s' (g_heap s)) m' = if msame m m' then Some p else slot s m') by (intros m'; rewrite slot_seth; apply H7).
    split.
    + constructor; cbn [seth g_heap g_pm g_am]; [apply (d_nodup _ _ D)|exact H4|exact H5| |].
      * intros m' q X. change (slot (seth s' (g_heap s)) m' = Some q) in X. rewrite Hs' in X. destruct (msame m m') eqn:Em.
        -- apply msame_spec in Em. subst m'. injection X as <-. destruct (in_dec meth_dec m (m :: done)) as [_|Y]; [exact H2|]. exfalso. apply Y. left. reflexivity.
        -- pose proof (d_live _ _ D _ _ X) as HL. destruct (in_dec meth_dec m' (m :: done)) as [[<-|Y]|Y].
           ++ exfalso. rewrite (proj2 (msame_spec m m) eq_refl) in Em. discriminate.
           ++ destruct (in_dec meth_dec m' done); [exact HL|contradiction].
           ++ destruct (in_dec meth_dec m' done) as [Z|Z]; [exfalso; apply Y; right; exact Z|exact HL].
      * intros m' [<-|X]; change (slot (seth s' (g_heap s)) ?a) with (slot (seth s' (g_heap s)) a); rewrite Hs'.
        -- rewrite (proj2 (msame_spec m m) eq_refl). discriminate.
        -- destruct (msame m m'); [discriminate|]. apply (d_done _ _ D), X.
    + intros m' q X. rewrite Hs'. destruct (msame m m') eqn:Em; [|exact X]. apply msame_spec in Em. subst m'. congruence.
Qed.
Lemma free_two get mk s done : (forall s n, length (g_pm s) = 2%nat -> length (g_am s) = 2%nat -> adv n = true -> exists r, get s n = Some r /\ desc s (mk n) r) ->
  mk NID_dstu4145le <> mk NID_dstu4145be -> dinv done s -> ~ In (mk NID_dstu4145le) done -> ~ In (mk NID_dstu4145be) done ->
  exists s', free_all get s dstu_nids = Some s' /\ dinv (mk NID_dstu4145be :: mk NID_dstu4145le :: done) s'.
Proof.
  intros Hg Hne D N1 N2. unfold dstu_nids. cbn [free_all].
  destruct (Hg s NID_dstu4145le (d_pm _ _ D) (d_am _ _ D) eq_refl) as ([s1 q] & -> & Ds).
  pose proof (get_free s _ _ done D N1 Ds) as (p & h & E1 & E2 & D1 & _). cbn [fst snd] in *. rewrite E2. fold (seth s1 h).
  assert (N3 : ~ In (mk NID_dstu4145be) (mk NID_dstu4145le :: done)) by (intros [X|X]; [congruence|contradiction]).
  destruct (Hg (seth s1 h) NID_dstu4145be (d_pm _ _ D1) (d_am _ _ D1) eq_refl) as ([s2 q'] & -> & Ds').
  pose proof (get_free (seth s1 h) _ _ _ D1 N3 Ds') as (p' & h' & E1' & E2' & D2 & _).
  cbn [fst snd] in *. rewrite E2'. fold (seth s2 h'). exists (seth s2 h'). split; [reflexivity|exact D2].
Qed.
Lemma pkey_some s n : length (g_pm s) = 2%nat -> length (g_am s) = 2%nat -> adv n = true -> exists r, Some (pkey_meth_get malloc s n) = Some r /\ desc s (MPkey n) r.
Proof. intros L1 L2 Hn. eexists. split; [reflexivity|apply pkey_desc; assumption]. Qed.
Lemma asn1_some s n : length (g_pm s) = 2%nat -> length (g_am s) = 2%nat -> adv n = true -> exists r, asn1_meth_get malloc s n = Some r /\ desc s (MAsn1 n) r.
Proof.
  intros L1 L2 Hn. pose proof (asn1_desc s n L1 L2 Hn) as Ds. eexists. split; [apply asn1_meth_some, (desc_some _ _ _ Ds)|exact Ds].
Qed.
Definition all4 : list method := [MAsn1 NID_dstu4145be; MAsn1 NID_dstu4145le; MPkey NID_dstu4145be; MPkey NID_dstu4145le].
Lemma destroy_ok s : inv s -> exists s', engine_destroy malloc s = Some s' /\ dinv all4 s'.
Proof.
  intros I. assert (D : dinv [] s).
  { constructor; [apply (v_nodup _ I)|apply (v_pm _ I)|apply (v_am _ I)| |intros m []]. intros m p H. cbn. apply (v_live _ I), H. }
  destruct (free_two (fun s n => Some (pkey_meth_get malloc s n)) MPkey s [] pkey_some) as (s1 & E1 & D1); [discriminate|exact D|intros []|intros []|].
  destruct (free_two (asn1_meth_get malloc) MAsn1 s1 [MPkey NID_dstu4145be; MPkey NID_dstu4145le] asn1_some) as (s2 & E2 & D2); [discriminate|exact D1|..].
  1,2: intros [X|[X|[]]]; discriminate X.
  exists s2. unfold engine_destroy. rewrite E1. split; [exact E2|exact D2].
Qed.
Lemma after_destroy ops n : Forall before_finish ops -> n = NID_dstu4145le \/ n = NID_dstu4145be ->
  eng_run malloc next_lib eng0 (ops ++ [GDestroy; GDestroy]) = None /\
  (exists s l p, eng_run malloc next_lib eng0 (ops ++ [GDestroy; GPkey true false n]) = Some (s, l ++ [ANS 1 (Some (Some p)) None]) /\ live (g_heap s) p = None) /\
  (exists s l p, eng_run malloc next_lib eng0 (ops ++ [GDestroy; GAsn1 true false n]) = Some (s, l ++ [ANS 1 (Some (Some p)) None]) /\ live (g_heap s) p = None).
Proof.
  intros H Hn. destruct (run_ok ops eng0 inv0 H) as (s & l & E & I & _). destruct (destroy_ok s I) as (s1 & E1 & D).
  rewrite !eng_run_app, E. cbn [eng_run eng_step]. rewrite E1.
  assert (Ha : adv n = true) by (unfold adv; destruct Hn as [-> | ->]; reflexivity).
  assert (K : forall mk get, (forall s n, length (g_pm s) = 2%nat -> length (g_am s) = 2%nat -> adv n = true -> desc s (mk n) (get s n)) -> In (mk n) all4 ->
    exists p, get s1 n = (s1, Some p) /\ live (g_heap s1) p = None).
  { intros mk get Hg Hin. destruct (Hg s1 n (d_pm _ _ D) (d_am _ _ D) Ha) as [(p & X & Y)|(p & s' & _ & X & _)].
    - exists p. split; [exact Y|]. rewrite (d_live _ _ D _ _ X). destruct (in_dec meth_dec (mk n) all4); [reflexivity|contradiction].
    - exfalso. exact (d_done _ _ D _ Hin X). }
  assert (Hi1 : In (MPkey n) all4) by (destruct Hn as [-> | ->]; cbn; tauto).
  assert (Hi2 : In (MAsn1 n) all4) by (destruct Hn as [-> | ->]; cbn; tauto).
  split; [|split].
  - unfold engine_destroy, dstu_nids. cbn [free_all].
    destruct (pkey_desc s1 NID_dstu4145le (d_pm _ _ D) (d_am _ _ D) eq_refl) as [(p & X & ->)|(p & s' & _ & X & _)].
    + cbn [mfree]. rewrite (d_live _ _ D _ _ X). cbn. reflexivity.
    + exfalso. apply (d_done _ _ D (MPkey NID_dstu4145le)); [cbn; tauto|exact X].
  - destruct (K _ _ pkey_desc Hi1) as (p & X & Y). unfold pkey_meths. cbn [negb]. rewrite X. exists s1, (l ++ [ANS 1 None None]), p. split; [|exact Y].
    rewrite <- app_assoc. reflexivity.
  - destruct (K _ _ asn1_desc Hi2) as (p & X & Y). unfold asn1_meths. cbn [negb]. rewrite asn1_meth_some by (rewrite X; discriminate). rewrite X. exists s1, (l ++ [ANS 1 None None]), p. split; [|exact Y].
    rewrite <- app_assoc. reflexivity.
Qed.
End Engine.

(** ** No memory *)
Lemma digest_oom malloc s nids : g_md s = None -> malloc (g_heap s) = None -> digests malloc s true nids NID_dstu34311 = (s, ANS 1 (Some None) None).
Proof.
  intros H1 H2. unfold digests, md_get, mnew. cbn [andb negb]. replace (NID_dstu34311 =? 0)%Z with false by reflexivity. cbn [negb]. rewrite Z.eqb_refl, H1, H2.
  destruct s. cbn in *. subst. reflexivity.
Qed.

(** ** Threads *)
Definition at2 (i j : nat) (w : lworld) (sl : option nat) (n : nat) (a b : lpc) : Prop :=
  lw_slot w = sl /\ lw_nobj w = n /\ lw_pc w i = a /\ lw_pc w j = b.
Lemma lstep_i i j w sl n a b : i <> j -> at2 i j w sl n a b ->
  match a with
  | LCheck => at2 i j (lstep w i) sl n (match sl with None => LNew | Some _ => LRead end) b
  | LNew => at2 i j (lstep w i) sl (S n) (LStore n) b
  | LStore p => at2 i j (lstep w i) (Some p) n LRead b
  | LRead => at2 i j (lstep w i) sl n (LDone sl) b
  | LDone _ => True
  end.
Proof.
  intros Hij (H1 & H2 & H3 & H4). assert (E : Nat.eqb j i = false) by (apply Nat.eqb_neq; congruence).
  unfold lstep, at2. rewrite H3. destruct a; cbn [lw_slot lw_nobj lw_pc]; rewrite ?Nat.eqb_refl, ?E, ?H1, ?H2; auto.
Qed.
Lemma at2_sym i j w sl n a b : at2 i j w sl n a b -> at2 j i w sl n b a.
Proof. unfold at2. tauto. Qed.
Lemma race i j n : i <> j -> let w := lrun (lstart None n) [i; j; i; j; i; i; j; j] in
  lw_pc w i = LDone (Some n) /\ lw_pc w j = LDone (Some (S n)) /\ lw_slot w = Some (S n).
Proof.
  intros Hij. assert (Hji : j <> i) by congruence. cbv zeta. unfold lrun. cbn [fold_left].
  assert (A0 : at2 i j (lstart None n) None n LCheck LCheck) by (unfold at2; auto). revert A0. generalize (lstart None n). intros w A0.
  pose proof (lstep_i i j _ _ _ _ _ Hij A0) as A1. cbn beta iota in A1. clear A0. revert A1. generalize (lstep w i). clear w. intros w A1.
  pose proof (lstep_i j i _ _ _ _ _ Hji (at2_sym _ _ _ _ _ _ _ A1)) as A2. cbn beta iota in A2. clear A1. revert A2. generalize (lstep w j). clear w. intros w A2.
  pose proof (lstep_i i j _ _ _ _ _ Hij (at2_sym _ _ _ _ _ _ _ A2)) as A3. cbn beta iota in A3. clear A2. revert A3. generalize (lstep w i). clear w. intros w A3.
  pose proof (lstep_i j i _ _ _ _ _ Hji (at2_sym _ _ _ _ _ _ _ A3)) as A4. cbn beta iota in A4. clear A3. revert A4. generalize (lstep w j). clear w. intros w A4.
  pose proof (lstep_i i j _ _ _ _ _ Hij (at2_sym _ _ _ _ _ _ _ A4)) as A5. cbn beta iota in A5. clear A4. revert A5. generalize (lstep w i). clear w. intros w A5.
  pose proof (lstep_i i j _ _ _ _ _ Hij A5) as A6. cbn beta iota in A6. clear A5. revert A6. generalize (lstep w i). clear w. intros w A6.
  pose proof (lstep_i j i _ _ _ _ _ Hji (at2_sym _ _ _ _ _ _ _ A6)) as A7. cbn beta iota in A7. clear A6. revert A7. generalize (lstep w j). clear w. intros w A7.
  pose proof (lstep_i j i _ _ _ _ _ Hji A7) as A8. cbn beta iota in A8. destruct A8 as (B1 & _ & B2 & B3). auto.
Qed.
Lemma after_first sched : forall w p, lw_slot w = Some p -> (forall i, lw_pc w i = LCheck \/ lw_pc w i = LRead \/ lw_pc w i = LDone (Some p)) ->
  let w' := lrun w sched in lw_slot w' = Some p /\ lw_nobj w' = lw_nobj w /\ forall i, lw_pc w' i = LCheck \/ lw_pc w' i = LRead \/ lw_pc w' i = LDone (Some p).
Proof.
  induction sched as [|i sched IH]; intros w p Hs Hp; [cbv zeta; cbn; auto|].
  cbv zeta. unfold lrun. cbn [fold_left]. fold (lrun (lstep w i) sched).
  assert (HS : lw_slot (lstep w i) = Some p /\ lw_nobj (lstep w i) = lw_nobj w /\ forall k, lw_pc (lstep w i) k = LCheck \/ lw_pc (lstep w i) k = LRead \/ lw_pc (lstep w i) k = LDone (Some p)).
  { unfold lstep. destruct (Hp i) as [E|[E|E]]; rewrite E; cbn [lw_slot lw_nobj lw_pc]; rewrite ?Hs; (split; [first [reflexivity|exact Hs]|split; [reflexivity|]]).
    - intros k. destruct (Nat.eqb k i); [auto|apply Hp].
    - intros k. destruct (Nat.eqb k i); [auto|apply Hp].
    - exact Hp. }
  destruct HS as (H1 & H2 & H3). destruct (IH _ _ H1 H3) as (A & B & C). split; [exact A|]. split; [congruence|exact C].
Qed.
Lemma first_done sched p n i : lw_pc (lrun (lstart (Some p) n) sched) i = LCheck \/ lw_pc (lrun (lstart (Some p) n) sched) i = LRead \/ lw_pc (lrun (lstart (Some p) n) sched) i = LDone (Some p).
Proof. apply (after_first sched (lstart (Some p) n) p eq_refl). intros k. left. reflexivity. Qed.
Lemma single_done i sched p n q : lw_pc (lrun (lstart (Some p) n) sched) i = LDone q -> q = Some p.
Proof. intros H. destruct (first_done sched p n i) as [E|[E|E]]; congruence. Qed.

Lemma bind_reports malloc next_lib s id_ok b s' r : bind malloc next_lib s id_ok b = Some (s', r) -> r = (if id_ok && b_setup b && b_digest b && b_cipher b && b_pbe b then 1 else 0)%Z.
Proof.
  unfold bind, bind_fail. destruct id_ok; cbn [negb andb]; [|intros [= _ <-]; reflexivity]. destruct (b_setup b); cbn [negb andb]; [|intros [= _ <-]; reflexivity].
  destruct (md_get malloc s) as [s1 md]. destruct (deref (g_heap s1) md); [|discriminate]. destruct (b_digest b); cbn [negb andb]; [|intros [= _ <-]; reflexivity].
  destruct (cipher_get malloc s1) as [s2 ci]. destruct (deref (g_heap s2) ci); [|discriminate]. destruct (b_cipher b); cbn [negb andb]; [|intros [= _ <-]; reflexivity].
  destruct (b_pbe b); cbn [negb andb]; intros [= _ <-]; reflexivity.
Qed.
