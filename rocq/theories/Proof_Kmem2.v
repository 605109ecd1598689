(** PKCS#8 data, Key-6 and PKCS#12 containers in memory. *)
From Coq Require Import List Lia Permutation.
Import ListNotations.
From Verif Require Import Base Model_KeyStore Model_Utils Model_Key6 Model_Pkcs12 Model_ReadBio Model_Kmem Spec_Keylib Spec_Key6 Spec_Pkcs12 Spec_Kmem Proof_Keylib Proof_Pkcs12 Proof_Kmem.

Section Store.
Variable malloc : nat -> kheap -> option nat.
Hypothesis HA : kallocator malloc.
Variable from : nat.
Notation full := (Proof_Kmem.full malloc from).
Notation tri := (Proof_Kmem.tri from).

Lemma attr_loop_tri o1 o2 F : (o1 = None -> ~ full) -> (o2 = None -> ~ full) -> forall l c k, tri (~ full) False (h_attr_loop l o1 o2 c k) F (fun r F' => F' = F /\ r = attr_loop l c k).
Proof.
  intros H1 H2. induction l as [|[a|] l IH]; intros c k; cbn [h_attr_loop attr_loop]; [t1; auto| |apply IH].
  destruct (at_obj a) as [o|]; [|apply IH]. t1. apply tri_deref. destruct o1; [|auto]. destruct (oid_eqb o _); [apply IH|].
  t1. apply tri_deref. destruct o2; [|auto]. destruct (oid_eqb o _); apply IH.
Qed.
Section Attr.
Context {spec grp : Type} (ae : attr_env spec grp).
(** The second key: made if it can be, unless there is no memory. *)
Lemma attrs_tri l F : tri (~ full) False (h_pkeyFromAttributes malloc ae l) F
  (fun r F' => match r with
               | Some p => exists v, pkeyFromAttributes ae l = Some v /\ F' = (p, KPkey v) :: F
               | None => F' = F /\ (pkeyFromAttributes ae l = None \/ ~ full)
               end).
Proof.
  unfold h_pkeyFromAttributes.
  assert (G : forall o1 o2 R, (o1 = None -> ~ full) -> (o2 = None -> ~ full) ->
    R = match o2 with Some p => [(p, KTemp)] | None => [] end ++ match o1 with Some p => [(p, KTemp)] | None => [] end ++ F ->
    tri (~ full) False ('(c, k) <- h_attr_loop l o1 o2 None None ;; kfree_opt o2 ;;; kfree_opt o1 ;;;
      match c, k with Some c, Some k => kmake malloc (option_map KPkey (makePKey ae c k)) | _, _ => kret None end) R
      (fun r F' => match r with
               | Some p => exists v, pkeyFromAttributes ae l = Some v /\ F' = (p, KPkey v) :: F
               | None => F' = F /\ (pkeyFromAttributes ae l = None \/ ~ full)
               end)).
  { intros o1 o2 R H1 H2 ->. eapply tri_seq; [apply attr_loop_tri; assumption|]. cbv beta. intros r F' [-> ->].
    unfold pkeyFromAttributes. destruct (attr_loop l None None) as [[c|] [k|]].
    2, 3, 4: destruct o1, o2; cbn [app]; do 5 t1; auto.
    assert (K : tri (~ full) False (kmake malloc (option_map KPkey (makePKey ae c k))) F
      (fun r F' => match r with Some p => exists v, makePKey ae c k = Some v /\ F' = (p, KPkey v) :: F | None => F' = F /\ (makePKey ae c k = None \/ ~ full) end)).
    { apply tri_make; [exact HA|..].
      - intros x p. destruct (makePKey ae c k) as [v|]; [|discriminate]. intros [= <-]. exists v. auto.
      - intros [E|E]; [|auto]. destruct (makePKey ae c k); [discriminate|auto]. }
    destruct o1, o2; cbn [app]; do 4 t1; exact K. }
  t1. t1; t1; t1; apply G; try discriminate; auto.
Qed.
(** keysFromPKCS8: a new store with the first key and, unless there is no memory, the second. *)
Definition keys_made (i : p8info) (l : list nat) : Prop :=
  exists k1, p8_pkey i = Some k1 /\ (l = k1 :: match pkeyFromAttributes ae (p8_attrs i) with Some k => [k] | None => [] end \/ ~ full /\ l = [k1]).
Definition not_made (i : option p8info) : Prop := match i with None => True | Some i => p8_pkey i = None end.
Lemma keys_tri info F : tri (~ full) False (h_keysFromPKCS8 malloc ae info) F
  (fun r F' => match r with
               | Some q => exists i l c, info = Some i /\ keys_made i l /\ stores q (map Some l) [] c /\ F' = c ++ F
               | None => F' = F /\ (not_made info \/ ~ full)
               end).
Proof.
  destruct info as [i|]; cbn [h_keysFromPKCS8]; [|t1; cbn; auto].
  t1. t1; [|t1; auto]. t1. apply tri_make; [exact HA|..].
  2: { intros E. do 3 t1. split; [reflexivity|]. destruct E as [E|E]; [left; cbn; destruct (p8_pkey i); [discriminate|reflexivity]|auto]. }
  intros x pk E. destruct (p8_pkey i) as [k1|] eqn:E1; [|discriminate]. injection E as <-.
  eapply tri_seq; [apply attrs_tri|]. cbv beta. intros [p2|] F'.
  - intros [k2 [E2 ->]]. t1. t1. eapply tri_seq; [apply ks_new_tri; exact HA|]. cbv beta. intros q F1 [c1 [S1 ->]].
    eapply tri_seq; [eapply tri_perm; [|apply (set_key_tri _ from q [] [None] [] c1 pk k1 ((p2, KPkey k2) :: F) S1)]; perm|]. cbv beta. intros _ F2 [c2 [S2 ->]].
    eapply tri_seq; [eapply tri_perm; [|apply (set_key_tri _ from q [Some k1] [] [] c2 p2 k2 F S2)]; perm|]. cbv beta. intros _ F3 [c3 [S3 ->]].
    t1. exists i, [k1; k2], c3. split; [reflexivity|]. split; [exists k1; rewrite E2; auto|auto].
  - intros [-> E2]. t1. t1. eapply tri_seq; [apply ks_new_tri; exact HA|]. cbv beta. intros q F1 [c1 [S1 ->]].
    eapply tri_seq; [eapply tri_perm; [|apply (set_key_tri _ from q [] [] [] c1 pk k1 F S1)]; perm|]. cbv beta. intros _ F2 [c2 [S2 ->]].
    t1. exists i, [k1], c2. split; [reflexivity|]. split; [exists k1; split; [exact E1|]; destruct E2 as [-> |]; auto|auto].
Qed.

Section Key6.
Variable p8 : list N -> option p8info.
Lemma decryptKey6_tri r data pad password F : decrypt_bytes r data pad password <> None ->
  tri (~ full) False (h_decryptKey6 malloc ae p8 r data pad password) F
  (fun o F' => exists bytes, decrypt_bytes r data pad password = Some bytes /\ match o with
               | Some q => exists i l c, p8 bytes = Some i /\ keys_made i l /\ stores q (map Some l) [] c /\ F' = c ++ F
               | None => F' = F /\ (not_made (p8 bytes) \/ ~ full)
               end).
Proof.
  intros Hd. unfold h_decryptKey6. set (n := (length data + match pad with None => 0 | Some p => length p end)%nat).
  destruct (decrypt_bytes r data pad password) as [bytes|]; [|contradiction]. clear Hd.
  t1. apply tri_buffer; [exact HA|..].
  - intros s Hn. t1. t1; [|destruct n; [contradiction|]; do 4 t1; t1; t1; assumption].
    destruct n as [|n']; [contradiction|]. do 4 t1. t1. t1. t1. t1. 
    eapply tri_seq; [apply keys_tri|]. cbv beta. intros [q|] F'.
    + intros [i [l [c [E [Hk [S1 ->]]]]]]. do 2 t1. t1. exists bytes. split; [reflexivity|]. exists i, l, c. auto.
    + intros [-> E]. do 3 t1. exists bytes. auto.
  - intros Hn. 
    assert (K : forall res R, match res with Some p => R = (p, KTemp) :: F | None => R = F /\ ~ full end -> tri (~ full) False
       (match n with O => kret tt | S _ => kderef None ;;; kret tt end ;;; res <- kderef res ;; kfree_opt None ;;; ks <- h_keysFromPKCS8 malloc ae (p8 bytes) ;; kfree res ;;; kret ks) R
       (fun o F' => exists bytes0, Some bytes = Some bytes0 /\ match o with
               | Some q => exists i l c, p8 bytes0 = Some i /\ keys_made i l /\ stores q (map Some l) [] c /\ F' = c ++ F
               | None => F' = F /\ (not_made (p8 bytes0) \/ ~ full)
               end)).
    { intros res R HR. t1. destruct n as [|n']; [|do 2 t1; destruct Hn; [discriminate|assumption]]. t1. t1.
      destruct res as [res|]; [|t1; apply HR]. subst R. do 3 t1.
      eapply tri_seq; [apply keys_tri|]. cbv beta. intros [q|] F'.
      + intros [i [l [c [E [Hk [S1 ->]]]]]]. do 2 t1. t1. exists bytes. split; [reflexivity|]. exists i, l, c. auto.
      + intros [-> E]. do 3 t1. exists bytes. auto. }
    t1. t1; apply K; auto.
Qed.
Lemma parseKey6_tri r mac data pad password F : decrypt_bytes r data pad password <> None ->
  tri (~ full) False (h_parseKey6 malloc ae p8 r (Some (key6_store mac data pad)) password) F
  (fun o F' => exists bytes, decrypt_bytes r data pad password = Some bytes /\ match o with
               | Some q => exists i l c, p8 bytes = Some i /\ keys_made i l /\ stores q (map Some l) [] c /\ F' = c ++ F
               | None => F' = F /\ (not_made (p8 bytes) \/ ~ full)
               end).
Proof.
  intros Hd. unfold h_parseKey6, key6_store. cbn [is_header is_data ih_type ih_params ip_pad].
  assert (Hb : exists bytes, decrypt_bytes r data pad password = Some bytes) by (destruct (decrypt_bytes r data pad password) as [b|]; [eauto|contradiction]).
  t1. t1; [|t1; destruct Hb as [b Hb]; exists b; auto]. t1. t1; [|t1; t1; assumption]. t1. t1. t1. t1.
  change (oid_eqb [1; 3; 6; 1; 4; 1; 19398; 1; 1; 1; 2] iitStoreOID) with true. cbn [negb].
  replace (match pad with None => h_decryptKey6 malloc ae p8 r data None password | Some pad0 => h_decryptKey6 malloc ae p8 r data (Some pad0) password end)
    with (h_decryptKey6 malloc ae p8 r data pad password) by (destruct pad; reflexivity).
  eapply tri_seq; [apply decryptKey6_tri, Hd|]. cbv beta. intros o F' [bytes [Eb G]]. destruct o as [q|].
  - destruct G as [i [l [c [E [Hk [S1 ->]]]]]]. do 3 t1. exists bytes. split; [exact Eb|]. exists i, l, c. auto.
  - destruct G as [-> G]. do 3 t1. exists bytes. auto.
Qed.
Lemma parseKey6_refused r s password F : (forall st, s = Some st -> forall hd, is_header st = Some hd -> ih_type hd <> Some [1;3;6;1;4;1;19398;1;1;1;2] \/ is_data st = None \/ ih_params hd = None) ->
  tri (~ full) False (h_parseKey6 malloc ae p8 r s password) F (fun o F' => o = None /\ F' = F).
Proof.
  intros H. unfold h_parseKey6. destruct s as [st|]; [|t1; auto]. specialize (H st eq_refl). t1. t1; [|t1; auto].
  destruct (is_header st) as [hd|]; [|do 3 t1; auto]. specialize (H hd eq_refl). destruct (is_data st) as [data|]; [|do 3 t1; auto].
  destruct (ih_type hd) as [ty|]; [|do 3 t1; auto]. destruct (ih_params hd) as [pa|]; [|do 3 t1; auto].
  t1. t1; [|t1; t1; assumption]. do 4 t1. destruct (oid_eqb ty iitStoreOID) eqn:E.
  - exfalso. apply oid_eqb_spec in E. subst ty. destruct H as [H|[H|H]]; [apply H; reflexivity|discriminate..].
  - cbn [negb]. do 3 t1. auto.
Qed.
End Key6.
End Attr.

(** * PKCS#12 *)
Lemma count_tri : forall l kc F, tri (~ full) False (h_count_safes malloc l kc) F (fun r F' => F' = F /\ (r = count_safes l kc \/ ~ full /\ fst r = false)).
Proof.
  assert (K : forall (b : list bag) l kc F, (forall kc F, tri (~ full) False (h_count_safes malloc l kc) F (fun r F' => F' = F /\ (r = count_safes l kc \/ ~ full /\ fst r = false))) ->
    tri (~ full) False (bags <- knew malloc KTemp ;;
          match bags with
          | None => kret (false, kc)
          | Some bags => let '(r, kc) := count_bags b kc in kfree bags ;;; if r then h_count_safes malloc l kc else kret (false, kc)
          end) F (fun r F' => F' = F /\ (r = (let '(r, kc') := count_bags b kc in if r then count_safes l kc' else (false, kc')) \/ ~ full /\ fst r = false))).
  { intros b l kc F IH. t1. t1; [|t1; auto]. destruct (count_bags b kc) as [[|] kc'].
    - t1. t1. apply IH.
    - do 3 t1. auto. }
  induction l as [|[|[b|]|[b|]|] l IH]; intros kc F; cbn [h_count_safes count_safes]; try (t1; auto; fail); try apply IH; apply K, IH.
Qed.

Definition conv (its : list item) : Prop := Forall (fun i : item => snd i <> None) its.
(** Reading these bags into the store at [q]. *)
Definition reads (q : nat) (its : list item) (m : nat * nat -> KM (nat * nat * bool)) : Prop :=
  forall ks cs rk rc c F, stores q (map Some ks ++ repeat None (cnt Keys its + rk)) (map Some cs ++ repeat None (cnt Certs its + rc)) c ->
  tri (~ full) False (m (length ks, length cs)) (c ++ F)
    (fun '(kc, r) F' => exists ks' cs' c', stores q ks' cs' c' /\ F' = c' ++ F /\
       (if r : bool then conv its /\ kc = (length (ks ++ objs Keys its), length (cs ++ objs Certs its)) /\
          ks' = map Some (ks ++ objs Keys its) ++ repeat None rk /\ cs' = map Some (cs ++ objs Certs its) ++ repeat None rc
        else ~ conv its \/ ~ full)).
Lemma objs_app d a b : objs d (a ++ b) = objs d a ++ objs d b.
Proof. unfold objs. apply flat_map_app. Qed.
Lemma reads_nil q : reads q [] (fun kc => kret (kc, true)).
Proof.
  intros ks cs rk rc c F Hs. t1. eexists _, _, c. split; [exact Hs|]. split; [reflexivity|]. cbn [objs flat_map]. rewrite !app_nil_r. repeat split. constructor.
Qed.
Lemma reads_app q a b m1 m2 : reads q a m1 -> reads q b m2 ->
  reads q (a ++ b) (fun kc => '(kc, r) <- m1 kc ;; if r : bool then m2 kc else kret (kc, false)).
Proof.
  intros H1 H2 ks cs rk rc c F Hs. rewrite !cnt_app, <- !Nat.add_assoc in Hs.
  eapply tri_seq; [apply (H1 ks cs _ _ c F Hs)|]. cbv beta. intros [kc [|]] F'.
  - intros [ks' [cs' [c' [S1 [-> [Hc [-> [-> ->]]]]]]]]. eapply tri_mono; [apply (H2 _ _ _ _ c' F S1)|]. cbv beta. intros [kc r] F' [ks2 [cs2 [c2 [S2 [-> G]]]]].
    exists (c2 ++ F). split; [reflexivity|]. exists ks2, cs2, c2. split; [exact S2|]. split; [reflexivity|]. destruct r.
    + destruct G as [G1 [-> [-> ->]]]. rewrite !objs_app, !app_assoc. repeat split. apply Forall_app. auto.
    + destruct G as [G|G]; [left|auto]. intros Hx. apply Forall_app in Hx. tauto.
  - intros [ks' [cs' [c' [S1 [-> G]]]]]. t1. exists ks', cs', c'. split; [exact S1|]. split; [reflexivity|]. destruct G as [G|G]; [left|auto]. intros Hx. apply Forall_app in Hx. tauto.
Qed.
Lemma reads_key q o (X : option (kheap -> kheap)) : reads q [(Keys, o)] (fun kc => pkey <- kmake malloc (option_map KPkey o) ;;
      match pkey with None => kret (kc, false) | Some p => h_set_key q (fst kc) p ;;; kret (S (fst kc), snd kc, true) end).
Proof.
  intros ks cs rk rc c F Hs. t1. apply tri_make; [exact HA|..].
  - intros x p. destruct o as [n|]; [|discriminate]. intros [= <-]. cbn [fst snd cnt filter length side_eqb Nat.add] in *. 
    eapply tri_seq; [eapply tri_perm; [|rewrite <- (map_length Some ks); apply (set_key_tri _ from q (map Some ks) (repeat None rk) (map Some cs ++ repeat None rc) c p n F Hs)]; perm|].
    cbv beta. intros _ F' [c' [S1 ->]]. t1. eexists _, _, c'. split; [exact S1|]. split; [reflexivity|].
    cbn [objs flat_map side_eqb fst snd app]. rewrite app_nil_r, map_app, app_length, <- app_assoc. cbn. repeat split; [repeat constructor; discriminate|]. f_equal; lia.
  - intros E. t1. eexists _, _, c. split; [exact Hs|]. split; [reflexivity|]. destruct E as [E|E]; [|auto]. left. destruct o; [discriminate|]. intros H. inversion H as [|? ? H1 _]. apply H1. reflexivity.
Qed.
Lemma reads_cert q o : reads q [(Certs, o)] (fun kc => x509 <- kmake malloc (option_map KCert o) ;;
      match x509 with None => kret (kc, false) | Some p => h_set_cert q (snd kc) p ;;; kret (fst kc, S (snd kc), true) end).
Proof.
  intros ks cs rk rc c F Hs. t1. apply tri_make; [exact HA|..].
  - intros x p. destruct o as [n|]; [|discriminate]. intros [= <-]. cbn [fst snd cnt filter length side_eqb Nat.add] in *. 
    eapply tri_seq; [eapply tri_perm; [|rewrite <- (map_length Some cs); apply (set_cert_tri _ from q (map Some ks ++ repeat None rk) (map Some cs) (repeat None rc) c p n F Hs)]; perm|].
    cbv beta. intros _ F' [c' [S1 ->]]. t1. eexists _, _, c'. split; [exact S1|]. split; [reflexivity|].
    cbn [objs flat_map side_eqb fst snd app]. rewrite app_nil_r, map_app, app_length, <- app_assoc. cbn. repeat split; [repeat constructor; discriminate|]. f_equal; lia.
  - intros E. t1. eexists _, _, c. split; [exact Hs|]. split; [reflexivity|]. destruct E as [E|E]; [|auto]. left. destruct o; [discriminate|]. intros H. inversion H as [|? ? H1 _]. apply H1. reflexivity.
Qed.
Lemma reads_shrouded q o : reads q (items (ShroudedKeyBag o)) (h_from_bag malloc (ShroudedKeyBag o) q).
Proof.
  destruct o as [o|]; cbn [items h_from_bag].
  - intros ks cs rk rc c F Hs. t1. t1; [|t1; eexists _, _, c; split; [exact Hs|]; auto]. t1. apply tri_make; [exact HA|..].
    + intros x p' E. destruct o as [n|]; [|discriminate]. injection E as <-. cbn [fst snd cnt filter length side_eqb Nat.add] in *. 
      eapply tri_seq; [eapply tri_perm; [|rewrite <- (map_length Some ks); apply (set_key_tri _ from q (map Some ks) (repeat None rk) (map Some cs ++ repeat None rc) c p' n ((p, KTemp) :: F) Hs)]; perm|].
      cbv beta. intros _ F' [c' [S1 ->]]. t1. t1. t1. eexists _, _, c'. split; [exact S1|]. split; [reflexivity|].
      cbn [objs flat_map side_eqb fst snd app]. rewrite app_nil_r, map_app, app_length, <- app_assoc. cbn. repeat split; [repeat constructor; discriminate|]. f_equal; lia.
    + intros E. do 3 t1. eexists _, _, c. split; [exact Hs|]. split; [reflexivity|]. destruct E as [E|E]; [|auto]. left. destruct o; [discriminate|]. intros Hx. inversion Hx as [|? ? H1 _]. apply H1. reflexivity.
  - intros ks cs rk rc c F Hs. t1. eexists _, _, c. split; [exact Hs|]. split; [reflexivity|]. left. intros Hx. inversion Hx as [|? ? H1 _]. apply H1. reflexivity.
Qed.
Lemma reads_bag q : forall b, reads q (items b) (h_from_bag malloc b q).
Proof.
  induction b as [o|o|o|l IH|] using bag_ind'.
  - apply (reads_key q o None).
  - apply reads_shrouded.
  - apply reads_cert.
  - cbn [items]. induction IH as [|b l Hb Hl IHl]; [exact (reads_nil q)|]. exact (reads_app q (items b) (flat_map items l) (h_from_bag malloc b q) (h_from_bag malloc (SafeContentsBag l) q) Hb IHl).
  - exact (reads_nil q).
Qed.
Lemma reads_bags q : forall l, reads q (flat_map items l) (h_from_bags malloc l q).
Proof.
  induction l as [|b l IH]; [exact (reads_nil q)|]. exact (reads_app q (items b) (flat_map items l) (h_from_bag malloc b q) (h_from_bags malloc l q) (reads_bag q b) IH).
Qed.
Lemma safes_tri q : forall l ks cs rk rc c F, stores q (map Some ks ++ repeat None (cnt Keys (items_of l) + rk)) (map Some cs ++ repeat None (cnt Certs (items_of l) + rc)) c ->
  Forall p7_ok l ->
  tri (~ full) False (h_from_safes malloc l q (length ks, length cs)) (c ++ F)
    (fun r F' => exists ks' cs' c', stores q ks' cs' c' /\ F' = c' ++ F /\
       (if r : bool then conv (items_of l) /\ ks' = map Some (ks ++ objs Keys (items_of l)) ++ repeat None rk /\ cs' = map Some (cs ++ objs Certs (items_of l)) ++ repeat None rc
        else ~ conv (items_of l) \/ ~ full)).
Proof.
  induction l as [|p7 l IH]; intros ks cs rk rc c F Hs Hok.
  - cbn [h_from_safes]. t1. eexists _, _, c. split; [exact Hs|]. split; [reflexivity|]. cbn [items_of objs flat_map]. rewrite !app_nil_r. repeat split. constructor.
  - inversion Hok as [|? ? Hp Hl]. subst. unfold items_of in Hs |- *. cbn [flat_map] in Hs |- *. fold (items_of l) in Hs |- *.
    assert (K : forall b, items_p7 p7 = flat_map items b -> tri (~ full) False (bags <- knew malloc KTemp ;;
          match bags with
          | None => kret false
          | Some bags => '(kc, r) <- h_from_bags malloc b q (length ks, length cs) ;; kfree bags ;;; if r : bool then h_from_safes malloc l q kc else kret false
          end) (c ++ F) (fun r F' => exists ks' cs' c', stores q ks' cs' c' /\ F' = c' ++ F /\
       (if r : bool then conv (items_p7 p7 ++ items_of l) /\ ks' = map Some (ks ++ objs Keys (items_p7 p7 ++ items_of l)) ++ repeat None rk /\ cs' = map Some (cs ++ objs Certs (items_p7 p7 ++ items_of l)) ++ repeat None rc
        else ~ conv (items_p7 p7 ++ items_of l) \/ ~ full))).
    { intros b E. rewrite E, !cnt_app, <- !Nat.add_assoc in *. t1. t1; [|t1; eexists _, _, c; split; [exact Hs|]; auto].
      eapply tri_seq; [eapply tri_perm; [|apply (reads_bags q b ks cs _ _ c ((p, KTemp) :: F) Hs)]; perm|]. cbv beta. intros [kc [|]] F'.
      - intros [ks' [cs' [c' [S1 [-> [Hc [-> [-> ->]]]]]]]]. t1. t1. eapply tri_mono; [apply (IH _ _ _ _ c' F S1 Hl)|]. cbv beta. intros r F' [ks2 [cs2 [c2 [S2 [-> G]]]]].
        exists (c2 ++ F). split; [reflexivity|]. exists ks2, cs2, c2. split; [exact S2|]. split; [reflexivity|]. destruct r.
        + destruct G as [G1 [-> ->]]. rewrite !objs_app, !app_assoc. repeat split. apply Forall_app. auto.
        + destruct G as [G|G]; [left|auto]. intros Hx. apply Forall_app in Hx. tauto.
      - intros [ks' [cs' [c' [S1 [-> G]]]]]. do 3 t1. exists ks', cs', c'. split; [exact S1|]. split; [reflexivity|]. destruct G as [G|G]; [left|auto]. intros Hx. apply Forall_app in Hx. tauto. }
    destruct p7 as [|[b|]|[b|]|]; cbn in Hp; try contradiction; cbn [h_from_safes]; try (apply (K b eq_refl)); apply IH; assumption.
Qed.

Lemma pkcs12_tri p F : tri (~ full) False (h_parsePKCS12 malloc p) F
  (fun '(r, q) F' => if r : bool then exists safes a c, readable p safes /\ q = Some a /\ stores a (map Some (objs Keys (items_of safes))) (map Some (objs Certs (items_of safes))) c /\ F' = c ++ F
                     else F' = F /\ ((~ exists safes, readable p safes) \/ ~ full)).
Proof.
  destruct p as [p|]; cbn [h_parsePKCS12]; [|t1; split; [reflexivity|]; left; intros [s [H _]]; discriminate].
  t1. t1; [|t1; auto]. t1. t1; cbn [andb]; [|cbn [negb]; do 3 t1; auto].
  destruct (p12_mac p) eqn:Em; cbn [negb]; [|do 3 t1; split; [reflexivity|]; left; intros [s [E _]]; injection E as ->; discriminate].
  t1. apply tri_make; [exact HA|..].
  - intros x sf. destruct (p12_safes p) as [l|] eqn:El; [|discriminate]. intros [= <-].
    eapply tri_seq; [apply count_tri|]. cbv beta. intros [r [nk nc]] F' [-> G].
    destruct r; cbn [negb orb]; [|do 5 t1; split; [reflexivity|]].
    2: { destruct G as [G|G]; [left|right; apply G]. intros [s [E [Hok _]]]. injection E as ->. cbn in El. injection El as ->. rewrite count_safes_ok in G by assumption. discriminate. }
    destruct G as [G|[_ G]]; [|discriminate].
    assert (Hok : Forall p7_ok l).
    { destruct (Forall_dec p7_ok) with (l := l) as [Hf|Hf]; [intros [|[]|[]|]; cbn; auto|exact Hf|]. pose proof (count_safes_bad l (0, 0)%nat Hf) as B. rewrite <- G in B. discriminate. }
    rewrite count_safes_ok in G by assumption. cbn [fst snd Nat.add] in G. injection G as -> ->.
    destruct (Nat.eqb_spec (cnt Keys (items_of l)) 0) as [E1|E1]; [destruct (Nat.eqb_spec (cnt Certs (items_of l)) 0) as [E2|E2]|]; cbn [andb].
    { do 5 t1. split; [reflexivity|]. left. intros [s [E [_ [Hne _]]]]. injection E as ->. cbn in El. injection El as ->. apply Hne, cnt_total. auto. }
    1, 2: assert (Hne : items_of l <> []) by (rewrite cnt_total; tauto).
    all: eapply tri_seq; [apply ks_new_tri; exact HA|]; cbv beta; intros q F1 [c [S1 ->]];
      eapply tri_seq; [apply (safes_tri q l [] [] 0 0 c ((sf, KTemp) :: (p0, KTemp) :: F)); [cbn [map app]; rewrite !Nat.add_0_r; exact S1|exact Hok]|];
      cbv beta; intros [|] F2 [ks' [cs' [c' [S2 [-> G]]]]]; cbn [negb].
    1, 3: destruct G as [Hc [-> ->]]; do 5 t1; exists l, q, c'; cbn [repeat app] in S2; rewrite !app_nil_r in S2; split; [|auto]; split; [destruct p; cbn in *; congruence|auto].
    all: eapply tri_seq; [eapply ks_free_tri; exact S2|]; cbv beta; intros _ F3 ->; do 5 t1; split; [reflexivity|]; destruct G as [G|G]; [left|auto];
      intros [s [E [_ [_ Hc]]]]; injection E as ->; cbn in El; injection El as ->; contradiction.
  - intros E. do 3 t1. split; [reflexivity|]. destruct E as [E|E]; [|auto]. left. intros [s [E1 _]]. injection E1 as ->. discriminate.
Qed.

(** * Streams *)
Lemma bio_new_tri U F : tri U False (bio_new malloc) F (fun r F' => match r with Some p => exists b, F' = (p, KBio b) :: (b, KTemp) :: F | None => F' = F /\ ~ full end).
Proof. unfold bio_new. t1. t1; [|t1; auto]. t1. t1; [t1; eauto|]. do 3 t1. auto. Qed.
Lemma bio_free_tri U L p b F : tri U L (bio_free (Some p)) ((p, KBio b) :: (b, KTemp) :: F) (fun _ F' => F' = F).
Proof. cbn [bio_free]. do 5 t1. reflexivity. Qed.
Lemma read_loop_tri U L mem F tl : (mem = None -> ~ full) -> forall chunks got total, Forall (fun b => b <> []) chunks -> (0 < total \/ got = []) -> (total = 0 -> got = []) ->
  (hd RdEnd tl = RdEnd \/ hd RdEnd tl = RdError \/ exists w, hd RdEnd tl = RdData [] w) -> tl <> [] ->
  tri U L (h_read_loop malloc (map (fun b => RdData b true) chunks ++ tl) mem got total) F
    (fun r F' => F' = F /\ (r = Some (got ++ concat chunks) \/ r = None /\ (got ++ concat chunks = [] \/ ~ full))).
Proof.
  intros Hm. induction chunks as [|b chunks IH]; intros got total Hc Hg Hz Ht Hne.
  - cbn [map app concat]. rewrite app_nil_r. destruct tl as [|[b w| |] tl]; [contradiction|..]; cbn [hd] in Ht; cbn [h_read_loop].
    + destruct Ht as [Ht|[Ht|[w' Ht]]]; [discriminate..|]. injection Ht as -> <-. change (N.of_nat (length (@nil N)) =? 0) with true. cbv iota. t1. auto.
    + destruct (N.ltb_spec 0 total); t1; auto. split; [reflexivity|]. right. split; [reflexivity|]. left. apply Hz. lia.
    + destruct (N.ltb_spec 0 total); t1; auto. split; [reflexivity|]. right. split; [reflexivity|]. left. apply Hz. lia.
  - inversion Hc as [|? ? Hb Hc']. subst. cbn [map app h_read_loop concat].
    destruct (N.eqb_spec (N.of_nat (length b)) 0) as [E|E]; [destruct b; [contradiction|cbn in E; lia]|].
    t1. destruct mem as [mem|].
    + t1; cbn [negb]; [|t1; auto]. rewrite app_assoc. apply IH; try assumption; [left; lia|lia].
    + t1. cbn [negb]. t1. pose proof (Hm eq_refl). auto.
Qed.
(** The stream delivers [data]: chunks that are not empty, up to the end, an error or an empty chunk. *)
Lemma read_bio_tri U A (parse : list N -> KM A) evs data F (post : A -> kheap -> Prop) : delivers evs data ->
  (forall G, tri U False (parse data) (G ++ F) (fun a F' => exists F2, F' = G ++ F2 /\ post a F2)) ->
  tri U False (h_read_bio malloc parse evs) F
    (fun r F' => match r with Some a => data <> [] /\ post a F' | None => F' = F /\ (data = [] \/ ~ full) end).
Proof.
  intros [chunks [last [tl [-> [Hc [-> Hl]]]]]] Hp. unfold h_read_bio. eapply tri_seq; [apply bio_new_tri|]. cbv beta. intros mem F0 Hm.
  assert (Hm' : mem = None -> ~ full) by (intros ->; apply Hm).
  eapply tri_seq; [apply (read_loop_tri U False mem F0 (last :: tl) Hm' chunks [] 0 Hc); [auto|auto| |discriminate]|].
  { cbn [hd]. destruct Hl as [-> |[-> |[w ->]]]; eauto. }
  cbv beta. cbn [app]. intros got F1 [-> G].
  assert (Hf : tri U False (bio_free mem ;;; kret (@None A)) F0 (fun r F' => match r with Some a => concat chunks <> [] /\ post a F' | None => F' = F /\ r = None end)).
  { destruct mem as [mem|].
    - destruct Hm as [b ->]. eapply tri_seq; [apply bio_free_tri|]. cbv beta. intros _ F' ->. t1. auto.
    - destruct Hm as [-> _]. cbn [bio_free]. do 3 t1. auto. }
  assert (Hf2 : concat chunks = [] \/ ~ full -> tri U False (bio_free mem ;;; kret (@None A)) F0 (fun r F' => match r with Some a => concat chunks <> [] /\ post a F' | None => F' = F /\ (concat chunks = [] \/ ~ full) end)).
  { intros H. eapply tri_mono; [exact Hf|]. cbv beta. intros [a|] F' H1; exists F'; (split; [reflexivity|]); [exact H1|tauto]. }
  destruct G as [-> |[-> G]]; [|apply Hf2, G].
  destruct (concat chunks) as [|x d] eqn:E; [apply Hf2; auto|]. destruct mem as [mem|].
  - destruct Hm as [b ->]. eapply tri_seq; [apply (Hp [(mem, KBio b); (b, KTemp)])|]. cbv beta. intros a F' [F2 [-> H2]].
    eapply tri_seq; [apply bio_free_tri|]. cbv beta. intros _ F3 ->. t1. split; [discriminate|exact H2].
  - destruct Hm as [-> _]. eapply tri_seq; [apply (Hp [])|]. cbv beta. intros a F' [F2 [-> H2]]. cbn [bio_free app]. do 3 t1. split; [discriminate|exact H2].
Qed.
End Store.
