(** Reading containers when memory runs out. *)
From Coq Require Import List Lia Permutation.
Import ListNotations.
From Verif Require Import Base Lib Spec_Md Model_Gost89 Model_KeyStore Model_Utf16 Model_Utils Model_Jks Model_Key6 Model_Pkcs12 Model_ReadBio Model_Kmem Spec_KeyStore Spec_Keylib Spec_Key6 Spec_Pkcs12 Spec_Jks Spec_Kmem Proof_KeyStore Proof_Keylib Proof_Key6 Proof_Pkcs12 Proof_Jks Proof_Kmem Proof_Kmem2 Proof_Kmem3 Proof_Kmem4.

Lemma kabove_fresh (h : kheap) p : In p (map fst h) -> (p < kabove h)%nat.
Proof. induction h as [|[q o] h IH]; cbn [map fst In kabove fold_right]; [intros []|]. fold (kabove h). intros [-> |H]; [lia|]. specialize (IH H). lia. Qed.
Lemma kmalloc_ok ok : kallocator (kmalloc ok).
Proof. intros n h p. unfold kmalloc. destruct (ok n); [|discriminate]. intros H. injection H as <-. intros Hi. apply kabove_fresh in Hi. lia. Qed.
Lemma kfails_full k from : (k < from)%nat -> full (kfails_at k) from.
Proof. intros H n h Hn. unfold kfails_at, kmalloc. replace (Nat.eqb n k) with false by (symmetry; apply Nat.eqb_neq; lia). discriminate. Qed.
Lemma kfails_some k n h : n <> k -> kfails_at k n h = Some (kabove h).
Proof. intros H. unfold kfails_at, kmalloc. replace (Nat.eqb n k) with false by (symmetry; apply Nat.eqb_neq; exact H). reflexivity. Qed.
Lemma kfails_none k h : kfails_at k k h = None.
Proof. unfold kfails_at, kmalloc. rewrite Nat.eqb_refl. reflexivity. Qed.
Lemma knew_some k n h o : n <> k -> knew (kfails_at k) o (h, n) = KRet (Some (kabove h), ((kabove h, o) :: h, S n)).
Proof. intros H. unfold knew. rewrite kfails_some by exact H. reflexivity. Qed.
Lemma knew_none k h o : knew (kfails_at k) o (h, k) = KRet (None, (h, S k)).
Proof. unfold knew. rewrite kfails_none. reflexivity. Qed.
Lemma ktry_some k n h : n <> k -> ktry (kfails_at k) (h, n) = KRet (true, (h, S n)).
Proof. intros H. unfold ktry. rewrite kfails_some by exact H. reflexivity. Qed.
Lemma ktry_none k h : ktry (kfails_at k) (h, k) = KRet (false, (h, S k)).
Proof. unfold ktry. rewrite kfails_none. reflexivity. Qed.
Lemma kfree_top p o h n : kfree p ((p, o) :: h, n) = KRet (tt, (h, n)).
Proof. unfold kfree. cbn [klive krelease]. rewrite Nat.eqb_refl. reflexivity. Qed.
Lemma run_bind A B (m : KM A) (f : A -> KM B) s a s' : m s = KRet (a, s') -> kbind m f s = f a s'.
Proof. intros E. unfold kbind. rewrite E. reflexivity. Qed.
Lemma run_undef A B (m : KM A) (f : A -> KM B) s : m s = KUndef -> kbind m f s = KUndef.
Proof. intros E. unfold kbind. rewrite E. reflexivity. Qed.

(** ** PKCS#12: KeyStoreNew *)
Definition opened (l : list pkcs7) : nat := length (filter (fun p => match p with P7Data _ | P7Enc _ => true | _ => false end) l).
Lemma count_run k : forall l kc h n, Forall p7_ok l -> (n + opened l <= k)%nat -> fst (count_safes l kc) = true ->
  h_count_safes (kfails_at k) l kc (h, n) = KRet (count_safes l kc, (h, (n + opened l)%nat)).
Proof.
  assert (K : forall (b : list bag) l kc h n, (forall kc h n, (n + opened l <= k)%nat -> fst (count_safes l kc) = true -> h_count_safes (kfails_at k) l kc (h, n) = KRet (count_safes l kc, (h, (n + opened l)%nat))) ->
    (S n + opened l <= k)%nat -> fst (let '(r, kc) := count_bags b kc in if r then count_safes l kc else (false, kc)) = true ->
    (bags <- knew (kfails_at k) KTemp ;; match bags with None => kret (false, kc) | Some bags => let '(r, kc) := count_bags b kc in kfree bags ;;; if r then h_count_safes (kfails_at k) l kc else kret (false, kc) end) (h, n)
    = KRet (let '(r, kc) := count_bags b kc in if r then count_safes l kc else (false, kc), (h, (S n + opened l)%nat))).
  { intros b l kc h n IH Hn Hr. erewrite run_bind; [|apply knew_some; lia]. cbv beta iota. destruct (count_bags b kc) as [r kc']. destruct r; [|discriminate].
    erewrite run_bind; [|apply kfree_top]. apply IH; assumption. }
  induction l as [|x l IH]; intros kc h n Hf Hn Hr; cbn [h_count_safes count_safes] in *; [unfold kret, opened; cbn; rewrite Nat.add_0_r; reflexivity|].
  inversion Hf as [|? ? Hx Hl]; subst. unfold opened in Hn |- *. cbn [filter] in Hn |- *. destruct x as [|[b|]|[b|]|]; try contradiction; cbn [length] in Hn |- *; fold (opened l) in *.
  all: try (apply IH; assumption).
  all: rewrite Nat.add_succ_r; apply (K b l kc h n); [intros; apply IH; assumption|cbn; lia|exact Hr].
Qed.
Lemma pkcs12_new_fails p safes h n : readable p safes -> exists k, (n <= k)%nat /\ h_parsePKCS12 (kfails_at k) p (h, n) = KUndef.
Proof.
  intros [-> [Hok [Hne Hall]]]. exists (S (S (S (n + opened safes)))). split; [lia|]. unfold h_parsePKCS12. cbn [p12_mac p12_safes].
  erewrite run_bind; [|apply knew_some; lia]. cbv beta iota. erewrite run_bind; [|apply ktry_some; lia]. cbn [andb negb]. cbv beta iota. unfold kmake. cbn [option_map].
  erewrite run_bind; [|apply knew_some; lia]. cbv beta iota.
  erewrite run_bind; [|apply count_run; [exact Hok|lia|rewrite count_safes_ok by exact Hok; reflexivity]]. rewrite count_safes_ok by exact Hok. cbn [fst snd Nat.add negb orb].
  replace (Nat.eqb _ 0 && Nat.eqb _ 0) with false.
  - erewrite run_undef; [reflexivity|]. unfold h_ks_new. erewrite run_bind; [|apply knew_none]. reflexivity.
  - symmetry. apply andb_false_iff. destruct (Nat.eqb_spec (cnt Keys (items_of safes)) 0) as [E1|E1]; [|auto]. destruct (Nat.eqb_spec (cnt Certs (items_of safes)) 0) as [E2|E2]; [|auto].
    exfalso. apply Hne, cnt_total. auto.
Qed.

(** ** Key-6: the copy of the ciphertext; the second key *)
Section Key6.
Context {spec grp : Type} (ae : attr_env spec grp) (p8 : list N -> option p8info).
Lemma attr_loop_run a b : forall l c k s, h_attr_loop l (Some a) (Some b) c k s = KRet (attr_loop l c k, s).
Proof.
  induction l as [|[x|] l IH]; intros c k s; cbn [h_attr_loop attr_loop]; [reflexivity| |apply IH]. destruct (at_obj x) as [o|]; [|apply IH].
  change (kderef (Some a) ;;; ?f) with f. unfold kbind at 1. cbn [kderef kret]. destruct (oid_eqb o _); [apply IH|]. unfold kbind. cbn [kderef kret]. destruct (oid_eqb o _); apply IH.
Qed.
Lemma attrs_fail l k2 h n : pkeyFromAttributes ae l = Some k2 -> h_pkeyFromAttributes (kfails_at (n + 2)) ae l (h, n) = KRet (None, (h, (n + 3)%nat)).
Proof.
  intros E. unfold pkeyFromAttributes in E. unfold h_pkeyFromAttributes. erewrite run_bind; [|apply knew_some; lia]. cbv beta. erewrite run_bind; [|apply knew_some; lia]. cbv beta.
  erewrite run_bind; [|apply attr_loop_run]. destruct (attr_loop l None None) as [[c|] [k|]]; try discriminate. cbn [kfree_opt].
  erewrite run_bind; [|apply kfree_top]. erewrite run_bind; [|apply kfree_top]. rewrite E. cbn [option_map kmake]. replace (S (S n)) with (n + 2)%nat by lia. rewrite knew_none. repeat f_equal. lia.
Qed.
Lemma keys_fail i k1 k2 h n : kheap_ok h -> p8_pkey i = Some k1 -> pkeyFromAttributes ae (p8_attrs i) = Some k2 ->
  exists q h' n', h_keysFromPKCS8 (kfails_at (n + 4)) ae (Some i) (h, n) = KRet (Some q, (h', n')) /\ store_added q [k1] [] h h' /\ (n + 4 < n')%nat /\ kheap_ok h'.
Proof.
  intros Hh E1 E2. unfold h_keysFromPKCS8. erewrite run_bind; [|apply knew_some; lia]. cbv beta iota. rewrite E1. cbn [option_map kmake]. erewrite run_bind; [|apply knew_some; lia]. cbv beta iota.
  set (pk := kabove ((kabove h, KTemp) :: h)). replace (n + 4)%nat with (S (S n) + 2)%nat by lia. erewrite run_bind; [|eapply attrs_fail; exact E2]. replace (S (S n) + 2)%nat with (n + 4)%nat by lia. replace (S (S n) + 3)%nat with (n + 5)%nat by lia.
  set (p8a := kabove h). pose (m := kfree p8a ;;; ks <- h_ks_new (kfails_at (n + 4)) 1 0 ;; h_set_key ks 0 pk ;;; kret (Some ks)). pose (hh := (pk, KPkey k1) :: (p8a, KTemp) :: h : kheap).
  change (exists q h' n', m (hh, (n + 5)%nat) = KRet (Some q, (h', n')) /\ store_added q [k1] [] h h' /\ (n + 4 < n')%nat /\ kheap_ok h').
  assert (T : tri (n + 5) (~ full (kfails_at (n + 4)) (n + 5)) False m hh (fun o F' => exists q c, o = Some q /\ stores q [Some k1] [] c /\ F' = c ++ h)).
  { unfold m, hh. t1. t1. eapply tri_seq; [apply ks_new_tri, kmalloc_ok|]. cbv beta. intros q F1 [c1 [S1 ->]].
    eapply tri_seq; [eapply tri_perm; [|apply (set_key_tri _ (n + 5) q [] [] [] c1 pk k1 h S1)]; perm|]. cbv beta. intros _ F2 [c2 [S2 ->]]. t1. exists q, c2. auto. }
  assert (Hd : NoDup (map fst hh)).
  { unfold hh. cbn [map fst]. constructor; [|constructor; [|exact Hh]].
    - intros Hi. change (In pk (map fst ((p8a, KTemp) :: h))) in Hi. apply kabove_fresh in Hi. unfold pk in Hi. fold p8a in Hi. lia.
    - intros Hi. apply kabove_fresh in Hi. unfold p8a in Hi. lia. }
  specialize (T (n + 5)%nat hh (Nat.le_refl _) Hd (Permutation_refl _)). clearbody m.
  destruct (m (hh, (n + 5)%nat)) as [| |[o [h' n']]] eqn:E; [|contradiction|].
  - exfalso. apply T. apply kfails_full. lia.
  - destruct T as [Hn [Hd' [F' [P [q [c [-> [S1 ->]]]]]]]]. exists q, h', n'. split; [reflexivity|]. split; [exists c; split; [exact S1|symmetry; exact P]|]. split; [lia|exact Hd'].
Qed.
Lemma key6_source_fails r mac data pad password h n : key6_cipher data pad <> [] ->
  h_parseKey6 (kfails_at (n + 2)) ae p8 r (Some (key6_store mac data pad)) password (h, n) = KUndef.
Proof.
  intros Hne. unfold h_parseKey6, key6_store. cbn [is_header is_data ih_type ih_params ip_pad].
  erewrite run_bind; [|apply knew_some; lia]. cbv beta iota. erewrite run_bind; [|apply knew_some; lia]. cbv beta iota. erewrite run_bind; [|reflexivity]. erewrite run_bind; [|apply kfree_top].
  change (oid_eqb [1; 3; 6; 1; 4; 1; 19398; 1; 1; 1; 2] iitStoreOID) with true. cbn [negb]. apply run_undef.
  replace (match pad with None => h_decryptKey6 (kfails_at (n + 2)) ae p8 r data None password | Some pad0 => h_decryptKey6 (kfails_at (n + 2)) ae p8 r data (Some pad0) password end)
    with (h_decryptKey6 (kfails_at (n + 2)) ae p8 r data pad password) by (destruct pad; reflexivity).
  unfold h_decryptKey6. set (sz := (length data + _)%nat). assert (Hs : sz <> O).
  { unfold key6_cipher in Hne. unfold sz. intros E. apply Hne. destruct data; [|discriminate]. destruct pad as [[|]|]; try reflexivity. discriminate. }
  destruct sz as [|m]; [contradiction|]. cbn [kbuffer]. replace (S (S n)) with (n + 2)%nat by lia. erewrite run_bind; [|apply knew_none]. erewrite run_bind; [|apply knew_some; lia]. cbv beta iota. apply run_undef. reflexivity.
Qed.
Lemma free_run p o h h' F n : kheap_ok h -> Permutation (F ++ (p, o) :: h') h -> exists h1, kfree p (h, n) = KRet (tt, (h1, n)) /\ Permutation (F ++ h') h1 /\ kheap_ok h1.
Proof.
  intros Hh P. assert (T : tri 0 False False (kfree p) (F ++ (p, o) :: h') (fun _ F' => F' = F ++ h')) by (eapply tri_free; [|reflexivity]; perm).
  assert (En : forall q, kfree p (h, n) = KRet q -> snd (snd q) = n).
  { unfold kfree. destruct (klive h p); [|discriminate]. intros q Hq. injection Hq as <-. reflexivity. }
  specialize (T n h (Nat.le_0_l n) Hh (Permutation_sym P)). destruct (kfree p (h, n)) as [| |[[] [h1 n1]]] eqn:E; [contradiction..|]. specialize (En _ eq_refl). cbn in En. subst n1.
  destruct T as [_ [Hd [F' [P' ->]]]]. exists h1. split; [reflexivity|]. split; [symmetry; exact P'|exact Hd].
Qed.
Lemma above_ok (h : kheap) o : kheap_ok h -> kheap_ok ((kabove h, o) :: h).
Proof. intros H. unfold kheap_ok. cbn [map fst]. constructor; [|exact H]. intros Hi. apply kabove_fresh in Hi. lia. Qed.
Lemma decrypt_second_lost r data pad password i k1 k2 h n : kheap_ok h -> key6_cipher data pad <> [] ->
  decrypt_bytes r data pad password = Some (key6_seen r data pad password) ->
  p8 (key6_seen r data pad password) = Some i -> p8_pkey i = Some k1 -> pkeyFromAttributes ae (p8_attrs i) = Some k2 ->
  exists q h' n', h_decryptKey6 (kfails_at (n + 6)) ae p8 r data pad password (h, n) = KRet (Some q, (h', n')) /\ store_added q [k1] [] h h' /\ kheap_ok h'.
Proof.
  intros Hh Hne E Ei E1 E2. unfold h_decryptKey6. set (sz := (length data + _)%nat). assert (Hs : sz <> O).
  { unfold key6_cipher in Hne. unfold sz. intros E0. apply Hne. destruct data; [|discriminate]. destruct pad as [[|]|]; try reflexivity. discriminate. }
  destruct sz as [|m]; [contradiction|]. cbn [kbuffer].
  erewrite run_bind; [|apply knew_some; lia]. cbv beta iota. erewrite run_bind; [|apply knew_some; lia]. cbv beta iota. erewrite run_bind; [|reflexivity]. cbv beta iota. erewrite run_bind; [|reflexivity]. cbv beta iota. rewrite E.
  set (src := kabove h). set (hs := (src, KTemp) :: h). set (res := kabove hs). cbn [kfree_opt].
  assert (O1 : kheap_ok hs) by (apply above_ok, Hh). assert (O2 : kheap_ok ((res, KTemp) :: hs)) by (apply above_ok, O1).
  destruct (free_run src KTemp ((res, KTemp) :: hs) h [(res, KTemp)] (S (S n)) O2) as [h1 [F1 [P1 D1]]]; [reflexivity|]. erewrite run_bind; [|exact F1]. rewrite Ei. cbv beta.
  replace (n + 6)%nat with (S (S n) + 4)%nat by lia. destruct (keys_fail i k1 k2 h1 (S (S n)) D1 E1 E2) as [q [h2 [n2 [E3 [[c [S3 P3]] [Hn2 D3]]]]]]. erewrite run_bind; [|exact E3]. cbv beta.
  destruct (free_run res KTemp h2 h c n2 D3) as [h3 [F3 [P4 D4]]]; [rewrite <- P3; rewrite <- P1; reflexivity|]. erewrite run_bind; [|exact F3].
  exists q, h3, n2. split; [reflexivity|]. split; [exists c; auto|exact D4].
Qed.
Lemma key6_second_lost r mac data pad password i k1 k2 h n : kheap_ok h -> key6_cipher data pad <> [] ->
  bytes password -> hashable (length password) -> mask_wf (k6_mask r) -> bytes (key6_cipher data pad) -> apart r (length (key6_cipher data pad)) ->
  p8 (key6_seen r data pad password) = Some i -> attrs_bytes (p8_attrs i) -> p8_pkey i = Some k1 -> second_key ae (p8_attrs i) k2 ->
  exists q h' n', h_parseKey6 (kfails_at (n + 8)) ae p8 r (Some (key6_store mac data pad)) password (h, n) = KRet (Some q, (h', n')) /\ store_added q [k1] [] h h'.
Proof.
  intros Hh Hne H1 H2 H3 H4 H5 Ei Hat E1 E2. apply (pkeyFromAttributes_spec ae) in E2; [|exact Hat].
  pose proof (decrypt_bytes_ok r data pad password H1 H2 H3 H4 H5) as E. cbv zeta in E. fold (key6_seen r data pad password) in E.
  unfold h_parseKey6, key6_store. cbn [is_header is_data ih_type ih_params ip_pad].
  erewrite run_bind; [|apply knew_some; lia]. cbv beta iota. erewrite run_bind; [|apply knew_some; lia]. cbv beta iota. erewrite run_bind; [|reflexivity]. erewrite run_bind; [|apply kfree_top].
  change (oid_eqb [1; 3; 6; 1; 4; 1; 19398; 1; 1; 1; 2] iitStoreOID) with true. cbn [negb].
  replace (match pad with None => h_decryptKey6 (kfails_at (n + 8)) ae p8 r data None password | Some pad0 => h_decryptKey6 (kfails_at (n + 8)) ae p8 r data (Some pad0) password end)
    with (h_decryptKey6 (kfails_at (n + 8)) ae p8 r data pad password) by (destruct pad; reflexivity).
  set (st := kabove h). replace (n + 8)%nat with (S (S n) + 6)%nat by lia.
  destruct (decrypt_second_lost r data pad password i k1 k2 ((st, KTemp) :: h) (S (S n)) (above_ok h KTemp Hh) Hne E Ei E1 E2) as [q [h' [n' [E3 [[c [S1 P1]] D1]]]]].
  erewrite run_bind; [|exact E3]. cbv beta. destruct (free_run st KTemp h' h c n' D1 P1) as [h2 [F2 [P2 _]]]. erewrite run_bind; [|exact F2].
  exists q, h2, n'. split; [reflexivity|]. exists c. auto.
Qed.
End Key6.

(** ** Passwords of Java key stores *)
Lemma some_refl {A} (l : list A) : some_of l l.
Proof. induction l; constructor; assumption. Qed.
Lemma some_none {A} (l : list A) : some_of [] l.
Proof. induction l; constructor; assumption. Qed.
Lemma some_app {A} (a a' b b' : list A) : some_of a a' -> some_of b b' -> some_of (a ++ b) (a' ++ b').
Proof. induction 1; intros Hb; cbn; [exact Hb|constructor; auto..]. Qed.
Lemma conv_loop_some malloc : forall fuel cs ok size buf res acc s, match h_conv_loop malloc fuel cs ok size buf res acc s with
  | KRet ((_, Some out), _) => exists l, some_of l cs /\ out = acc ++ concat l
  | _ => True end.
Proof.
  induction fuel as [|fuel IH]; intros cs ok size buf res acc s; cbn [h_conv_loop]; [exact I|].
  assert (K : match (let '(o, r, st) := iconv_call cs ok size in
     acc <- match o with
            | [] => kret acc
            | _ => kderef buf ;;; match res with None => kret acc | Some _ => w <- ktry malloc ;; kret (if w : bool then acc ++ o else acc) end
            end ;;
     match st with
     | IcDone => kret (buf, Some acc)
     | IcBad => kret (buf, None)
     | IcE2BIG =>
         buf' <- knew malloc KTemp ;;
         match buf' with
         | None => h_conv_loop malloc fuel r ok (2 * size) None res acc
         | Some _ => kfree_opt buf ;;; h_conv_loop malloc fuel r ok (2 * size) buf' res acc
         end
     end) s with KRet ((_, Some out), _) => exists l, some_of l cs /\ out = acc ++ concat l | _ => True end).
  { destruct (iconv_call_spec cs ok size) as [k [Hk [E _]]]. destruct (iconv_call cs ok size) as [[o r] st]. injection E as Eo Er Es.
    match goal with |- context [kbind ?m _ s] => assert (A : match m s with KRet (a, _) => exists l, some_of l (firstn k cs) /\ a = acc ++ concat l | _ => True end); [|unfold kbind at 1; destruct (m s) as [| |[acc' s1]]] end.
    - assert (N0 : exists l, some_of l (firstn k cs) /\ acc = acc ++ concat l) by (exists []; rewrite app_nil_r; split; [apply some_none|reflexivity]).
      destruct o as [|x o]; [exact N0|]. destruct buf as [b|]; [|exact I]. cbn [kderef]. unfold kbind, kret. destruct res as [res|]; [|exact N0].
      unfold ktry. destruct s as [h n]. destruct (malloc n h); [|exact N0]. rewrite Eo. exists (firstn k cs). split; [apply some_refl|reflexivity].
    - exact I.
    - exact I.
    - destruct A as [l1 [Hl1 ->]]. assert (Hcs : cs = firstn k cs ++ skipn k cs) by (symmetry; apply firstn_skipn).
      assert (R : forall buf s, match h_conv_loop malloc fuel r ok (2 * size) buf res (acc ++ concat l1) s with KRet ((_, Some out), _) => exists l, some_of l cs /\ out = acc ++ concat l | _ => True end).
      { intros buf0 s0. specialize (IH r ok (2 * size)%nat buf0 res (acc ++ concat l1) s0). destruct (h_conv_loop malloc fuel r ok (2 * size) buf0 res (acc ++ concat l1) s0) as [| |[[b [out|]] s2]]; try exact I.
        destruct IH as [l2 [Hl2 ->]]. exists (l1 ++ l2). rewrite concat_app, app_assoc. split; [|reflexivity]. rewrite Hcs. apply some_app; [exact Hl1|]. rewrite <- Er. exact Hl2. }
      destruct st.
      + cbn. exists l1. split; [|reflexivity]. rewrite Hcs. rewrite <- (app_nil_r l1). apply some_app; [exact Hl1|apply some_none].
      + unfold kbind at 1. unfold knew. destruct s1 as [h n]. destruct (malloc n h) as [p|]; [|apply R]. unfold kbind. destruct (kfree_opt buf _) as [| |[[] s2]]; [exact I..|]. apply R.
      + exact I. }
  destruct cs as [|c cs]; [destruct ok; [|exact K]|exact K]. cbn. exists []. split; [constructor|rewrite app_nil_r; reflexivity].
Qed.
Lemma utf16_some malloc cs ok size s : match h_toUTF16BE malloc (cs, ok) size s with
  | KRet (Some (_, out), _) => exists l, some_of l cs /\ l <> [] /\ out = concat l
  | _ => True end.
Proof.
  unfold h_toUTF16BE. cbn [fst snd]. unfold kbind at 1. destruct (bio_new malloc s) as [| |[res s1]]; try exact I. unfold kbind at 1. destruct (kbuffer malloc (2 * size) s1) as [| |[buf s2]]; try exact I.
  unfold kbind at 1. destruct (knew malloc KTemp s2) as [| |[[cd|] s3]]; try exact I.
  2: { unfold kbind. destruct (kfree_opt res s3) as [| |[[] s4]]; exact I. }
  pose proof (conv_loop_some malloc (length cs + 3) cs ok size buf res [] s3) as C.
  unfold kbind at 1. destruct (h_conv_loop malloc (length cs + 3) cs ok size buf res [] s3) as [| |[[b [out|]] s4]]; try exact I.
  2: { unfold kbind. destruct (kfree cd s4) as [| |[[] s5]]; try exact I. destruct (kfree_opt b s5) as [| |[[] s6]]; try exact I. destruct (bio_free res s6) as [| |[[] s7]]; exact I. }
  destruct C as [l [Hl ->]]. cbn [app]. unfold kbind at 1. destruct (kfree_opt b s4) as [| |[[] s5]]; try exact I. unfold kbind at 1. destruct (kfree cd s5) as [| |[[] s6]]; try exact I.
  destruct (concat l) as [|x out] eqn:Ec.
  - unfold kbind. destruct (bio_free res s6) as [| |[[] s7]]; exact I.
  - unfold kbind. destruct (knew malloc KTemp s6) as [| |[d s7]]; try exact I. destruct (kderef d s7) as [| |[d' s8]]; try exact I. destruct (bio_free res s8) as [| |[[] s9]]; try exact I.
    exists l. split; [exact Hl|]. split; [intros ->; discriminate|]. cbn. congruence.
Qed.
(** The first write fails. *)
Lemma iconv_half (cs : list (list N)) : Forall (fun c => length c = 2%nat) cs -> (2 <= length cs)%nat ->
  iconv_call cs true (length cs) = (concat (firstn (length cs / 2) cs), skipn (length cs / 2) cs, IcE2BIG).
Proof.
  intros Hc. assert (K : forall room, (room / 2 < length cs)%nat -> iconv_call cs true room = (concat (firstn (room / 2) cs), skipn (room / 2) cs, IcE2BIG)).
  { induction Hc as [|c cs Hc Hcs IH]; intros room Hr; [cbn in Hr; lia|]. cbn [iconv_call]. rewrite Hc. destruct (Nat.leb_spec 2 room) as [L|L].
    - assert (E : (room / 2 = S ((room - 2) / 2))%nat) by (replace room with (1 * 2 + (room - 2))%nat at 1 by lia; rewrite Nat.div_add_l by lia; reflexivity).
      rewrite E in *. rewrite IH by (cbn [length] in Hr; lia). reflexivity.
    - replace (room / 2)%nat with 0%nat; [reflexivity|]. symmetry. apply Nat.div_small. lia. }
  intros Hl. apply K. apply Nat.div_lt; lia.
Qed.
Lemma utf16_half_lost (cs : list (list N)) h n : kheap_ok h -> Forall (fun c => length c = 2%nat) cs -> (2 <= length cs)%nat ->
  exists d h' n', h_toUTF16BE (kfails_at (n + 4)) (cs, true) (length cs) (h, n) = KRet (Some (d, concat (skipn (length cs / 2) cs)), (h', n')) /\
    (n + 5 <= n')%nat /\ kheap_ok h' /\ Permutation h' ((d, KTemp) :: h).
Proof.
  intros Hh Hc Hl. set (k := (length cs / 2)%nat). set (mal := kfails_at (n + 4)). pose proof (iconv_half cs Hc Hl) as Ei. fold k in Ei.
  assert (Hk : (1 <= k)%nat) by (apply Nat.div_le_lower_bound; lia). assert (Hk2 : (k < length cs)%nat) by (apply Nat.div_lt; lia).
  unfold h_toUTF16BE. cbn [fst snd].
  assert (Eb : bio_new mal (h, n) = KRet (Some (kabove ((kabove h, KTemp) :: h)), ((kabove ((kabove h, KTemp) :: h), KBio (kabove h)) :: (kabove h, KTemp) :: h, S (S n)))).
  { unfold bio_new, mal. erewrite run_bind; [|apply knew_some; lia]. cbv beta iota. erewrite run_bind; [|apply knew_some; lia]. reflexivity. }
  erewrite run_bind; [|exact Eb]. cbv beta. clear Eb. set (b := kabove h). set (res := kabove ((b, KTemp) :: h)). set (h1 := (res, KBio b) :: (b, KTemp) :: h : kheap).
  erewrite run_bind; [|unfold mal; destruct (2 * length cs)%nat eqn:E2; [lia|]; apply knew_some; lia]. cbv beta. set (buf := kabove h1). set (h2 := (buf, KTemp) :: h1 : kheap).
  erewrite run_bind; [|apply knew_some; lia]. cbv beta iota. set (cd := kabove h2). set (h3 := (cd, KTemp) :: h2 : kheap).
  set (f := (length cs + 2)%nat). replace (length cs + 3)%nat with (S f) by (unfold f; lia).
  set (rest2 := buf' <- knew mal KTemp ;; match buf' with None => h_conv_loop mal f (skipn k cs) true (2 * length cs) None (Some res) [] | Some _ => kfree_opt (Some buf) ;;; h_conv_loop mal f (skipn k cs) true (2 * length cs) buf' (Some res) [] end).
  assert (E1 : h_conv_loop mal (S f) cs true (length cs) (Some buf) (Some res) [] (h3, S (S (S (S n)))) = rest2 (h3, (n + 5)%nat)).
  { cbn [h_conv_loop]. destruct cs as [|c0 cs']; [cbn in Hl; lia|]. rewrite Ei. destruct (concat (firstn k (c0 :: cs'))) as [|x o] eqn:Eo.
    { exfalso. destruct k; [lia|]. inversion Hc as [|? ? H0 _]; subst. destruct c0; [discriminate|]. discriminate. }
    erewrite run_bind; [|erewrite run_bind; [|reflexivity]; cbv beta iota; erewrite run_bind; [|unfold mal; replace (S (S (S (S n)))) with (n + 4)%nat by lia; apply ktry_none]; cbv beta iota; reflexivity].
    replace (S (n + 4)) with (n + 5)%nat by lia. reflexivity. }
  match goal with |- exists d h' n', kbind ?X ?K ?s = _ /\ _ => pose (m := kbind rest2 K); assert (Em : kbind X K s = m (h3, (n + 5)%nat)) by
    (unfold m, kbind at 1 2; change (X s) with (h_conv_loop mal (S f) cs true (length cs) (Some buf) (Some res) [] (h3, S (S (S (S n))))); rewrite E1; reflexivity) end.
  assert (HA : kallocator mal) by apply kmalloc_ok. assert (Hfull : full mal (n + 5)) by (apply kfails_full; lia).
  assert (T : tri (n + 5) False False m h3 (fun r F' => exists d, r = Some (d, concat (skipn k cs)) /\ F' = (d, KTemp) :: h)).
  { assert (Ec : conv_loop f (skipn k cs) true (2 * length cs) [] = Some (Some (concat (skipn k cs)))).
    { apply (conv_loop_spec f (skipn k cs) true (2 * length cs) []); [|lia|].
      - apply Forall_forall. intros c Hi. left. rewrite Forall_forall in Hc. apply Hc. rewrite <- (firstn_skipn k cs). apply in_or_app. auto.
      - rewrite skipn_length. unfold slack, f. replace (4 <=? 2 * length cs)%nat with true by (symmetry; apply Nat.leb_le; lia). lia. }
    unfold m, rest2, h3, h2, h1. t1. t1. apply (tri_new1 mal HA (n + 5) Hfull). intros buf2. cbv beta iota. t1. t1.
    eapply tri_mono; [eapply tri_perm; [|eapply (tri_out (n + 5) False _ False False); [auto| |apply (conv_loop_tri mal HA (n + 5) Hfull f (skipn k cs) true (2 * length cs) (Some buf2) (Some res) [] ((cd, KTemp) :: (res, KBio b) :: (b, KTemp) :: h)); [left; discriminate|discriminate]]]; [perm|]|].
    - rewrite Ec. discriminate.
    - cbv beta. rewrite Ec. intros [buf' r] F' [E ->]. assert (Er : r = Some (concat (skipn k cs))) by congruence. subst r. eexists. split; [reflexivity|]. cbv beta iota.
      t1. apply free_temp. t1. t1. destruct (concat (skipn k cs)) as [|x o] eqn:Ex.
      { exfalso. destruct (skipn k cs) as [|c0 t] eqn:Es; [apply (f_equal (@length _)) in Es; rewrite skipn_length in Es; clear -Es Hk2; clearbody k; cbn [length] in Es; lia|].
        assert (Hi : In c0 cs) by (rewrite <- (firstn_skipn k cs), Es; apply in_or_app; right; left; reflexivity). rewrite Forall_forall in Hc. specialize (Hc _ Hi). destruct c0; discriminate. }
      t1. apply (tri_new1 mal HA (n + 5) Hfull). intros d. cbv beta iota. t1. t1.
      eapply tri_seq; [eapply tri_perm; [|apply (bio_free_tri (n + 5) _ _ res b ((d, KTemp) :: h))]; perm|]. cbv beta. intros _ F' ->. t1. exists d. auto. }
  assert (Hd : kheap_ok h3) by (unfold h3, cd, h2, buf, h1, res, b; repeat apply above_ok; exact Hh).
  specialize (T (n + 5)%nat h3 (Nat.le_refl _) Hd (Permutation_refl _)).
  rewrite Em. destruct (m (h3, (n + 5)%nat)) as [| |[o [h' n']]]; [contradiction..|]. destruct T as [Hn [Hd' [F' [P [d [-> ->]]]]]]. exists d, h', n'. auto.
Qed.

Section Jks.
Context {spec grp : Type} (e : jks_env spec grp) (He : env_ok e).
Lemma jks_buf_fails magic data n0 sp kp k c cs h n : slice data 0 4 = Some magic -> is_magic magic -> read32 data 8 = Some n0 -> slice data 4 4 = Some [0; 0; 0; 2] ->
  je_utf e sp = (c :: cs, true) -> (0 < length c <= length sp)%nat ->
  h_parseJKS (kfails_at (n + 2)) e data sp kp k (h, n) = KUndef.
Proof.
  intros E1 Hm E2 E3 Eu Hc. unfold h_parseJKS. rewrite E1, E2, E3.
  replace (negb (oid_eqb magic [254; 237; 254; 237]) && negb (oid_eqb magic [206; 206; 206; 206])) with false by (destruct Hm as [-> | ->]; reflexivity).
  cbv iota. change (negb (oid_eqb [0; 0; 0; 2] [0; 0; 0; 2])) with false. cbv iota. apply run_undef. rewrite Eu. unfold h_toUTF16BE. cbn [fst snd].
  erewrite run_bind; [|unfold bio_new; erewrite run_bind; [|apply knew_some; lia]; cbv beta iota; erewrite run_bind; [|apply knew_some; lia]; reflexivity].
  erewrite run_bind; [|destruct (2 * length sp)%nat eqn:E; [lia|]; cbn [kbuffer]; replace (S (S n)) with (n + 2)%nat by lia; apply knew_none]. cbv beta.
  erewrite run_bind; [|apply knew_some; lia]. cbv beta iota. apply run_undef. replace (length (c :: cs) + 3)%nat with (S (length cs + 3)) by reflexivity. cbn [h_conv_loop iconv_call].
  replace (length c <=? length sp)%nat with true by (symmetry; apply Nat.leb_le; lia). destruct (iconv_call cs true _) as [[o r] s]. destruct c as [|x c]; [cbn in Hc; lia|]. reflexivity.
Qed.
Lemma jks_open_fails magic data n0 sp kp k h n : slice data 0 4 = Some magic -> is_magic magic -> read32 data 8 = Some n0 -> slice data 4 4 = Some [0; 0; 0; 2] ->
  kheap_ok h -> sp <> [] ->
  exists h' n', h_parseJKS (kfails_at (n + 3)) e data sp kp k (h, n) = KRet ((k, false, None), (h', n')) /\ two_buffers_left h h'.
Proof.
  intros E1 Hm E2 E3 Hh Hs. unfold h_parseJKS. rewrite E1, E2, E3.
  replace (negb (oid_eqb magic [254; 237; 254; 237]) && negb (oid_eqb magic [206; 206; 206; 206])) with false by (destruct Hm as [-> | ->]; reflexivity).
  cbv iota. change (negb (oid_eqb [0; 0; 0; 2] [0; 0; 0; 2])) with false. cbv iota.
  set (b := kabove h). set (r := kabove ((b, KTemp) :: h)). set (c := kabove ((r, KBio b) :: (b, KTemp) :: h)).
  assert (Hd : kheap_ok ((c, KTemp) :: (r, KBio b) :: (b, KTemp) :: h)) by (apply above_ok, above_ok, above_ok, Hh).
  destruct (free_run r (KBio b) _ ((b, KTemp) :: h) [(c, KTemp)] (S (S (S (S n)))) Hd (Permutation_refl _)) as [h1 [Ef [P1 _]]].
  assert (Eu : h_toUTF16BE (kfails_at (n + 3)) (je_utf e sp) (length sp) (h, n) = KRet (None, (h1, S (S (S (S n)))))).
  { unfold h_toUTF16BE. erewrite run_bind; [|unfold bio_new; erewrite run_bind; [|apply knew_some; lia]; cbv beta iota; erewrite run_bind; [|apply knew_some; lia]; reflexivity].
    erewrite run_bind; [|destruct sp as [|x sp]; [contradiction|]; cbn [length Nat.mul Nat.add kbuffer]; apply knew_some; lia]. cbv beta.
    erewrite run_bind; [|replace (S (S (S n))) with (n + 3)%nat by lia; apply knew_none]. cbv beta iota. cbn [kfree_opt]. erewrite run_bind; [reflexivity|].
    replace (S (n + 3)) with (S (S (S (S n)))) by lia. exact Ef. }
  erewrite run_bind; [|exact Eu]. cbv beta iota. exists h1, (S (S (S (S n)))). split; [reflexivity|]. exists c, b. exact P1.
Qed.
Lemma jks_half magic l dg post sp cs kp k keys certs k' h n : kheap_ok h -> is_magic magic -> N.of_nat (length l) < 2 ^ 32 -> Forall entry_fits l -> entries_read e kp k l keys certs k' ->
  je_utf e sp = (cs, true) -> Forall (fun c => length c = 2%nat) cs -> length cs = length sp -> (2 <= length cs)%nat -> length dg = 20%nat ->
  exists r q h' n', h_parseJKS (kfails_at (n + 4)) e (enc_store magic l ++ dg ++ post) sp kp k (h, n) = KRet ((k', r, Some q), (h', n')) /\
    if r : bool then dg = digest_of e (concat (skipn (length cs / 2) cs)) (enc_store magic l) /\ store_added q keys certs h h'
    else dg <> digest_of e (concat (skipn (length cs / 2) cs)) (enc_store magic l) /\ unchanged h h'.
Proof.
  intros Hh Hm Hl Hf Hr Eu Hc Hlen H2 Hdg. set (data := enc_store magic l ++ dg ++ post). set (half := concat (skipn (length cs / 2) cs)). set (mal := kfails_at (n + 4)).
  assert (Lm : length magic = 4%nat) by (destruct Hm as [-> | ->]; reflexivity).
  destruct (header_eqs magic l (dg ++ post) Lm Hl) as [E1 [E2 E3]]. fold data in E1, E2, E3. unfold h_parseJKS. rewrite E1, E2, E3.
  replace (negb (oid_eqb magic [254; 237; 254; 237]) && negb (oid_eqb magic [206; 206; 206; 206])) with false by (destruct Hm as [-> | ->]; reflexivity).
  cbv iota. change (negb (oid_eqb [0; 0; 0; 2] [0; 0; 0; 2])) with false. cbv iota.
  rewrite Eu, <- Hlen. destruct (utf16_half_lost cs h n Hh Hc H2) as [d [h0 [n0 [Ec [Hn0 [D0 P0]]]]]]. fold mal half in Ec. erewrite run_bind; [|exact Ec]. clear Ec. cbv beta iota. rewrite Nat2N.id.
  assert (HA : kallocator mal) by apply kmalloc_ok. assert (Hfull : full mal (n + 5)) by (apply kfails_full; lia).
  destruct (parse_entries_ok e He kp (je_malloc e heap0) l data 12 (magic ++ [0; 0; 0; 2] ++ be_bytes 4 (N.of_nat (length l))) (dg ++ post) k keys certs k' (ks_new heap0 (je_malloc e heap0) 0 0) [] []) as [h1 [E4 [[Fk Fc] _]]];
    [unfold data, enc_store at 1; rewrite <- !app_assoc; reflexivity|rewrite !app_length, be_bytes_length, Lm; reflexivity|exact Hf|exact Hr|apply holds_new|].
  assert (Eo : 12 + N.of_nat (length (concat (map enc_entry l))) = N.of_nat (length (enc_store magic l))).
  { unfold enc_store. rewrite !app_length, be_bytes_length, Lm. cbn [length]. lia. }
  rewrite Eo in E4.
  match goal with |- exists r q h' n', ?m _ = _ /\ _ => assert (T : tri (n + 5) False False m ((d, KTemp) :: h) (fun '(x, r, o) F' => x = k' /\ exists q, o = Some q /\
     if r : bool then dg = digest_of e half (enc_store magic l) /\ exists c, stores q (map Some keys) (map Some certs) c /\ F' = c ++ h
     else dg <> digest_of e half (enc_store magic l) /\ F' = h)) end.
  { eapply tri_seq; [apply (tri_any mal (n + 5) Hfull), ks_new_tri, HA|]. cbv beta. intros q F1 [c [Hs ->]].
    eapply tri_seq; [eapply (tri_out (n + 5) _ False False False); [|auto|apply (entries_sim mal HA (n + 5) Hfull e He data kp (je_malloc e heap0) q ((d, KTemp) :: h) (length l) 12 _ k [] [] c (holds_new e heap0) Hs)]; rewrite E4; discriminate|].
    cbv beta. rewrite E4. intros [k1 o] F' [h2 [lk [lc [c' [E5 [[Hk Hc'] [S1 ->]]]]]]]. injection E5 as <- <- <-.
    rewrite (filled_same _ _ _ _ _ Hk Fk), (filled_same _ _ _ _ _ Hc' Fc) in S1. cbn [app] in S1.
    rewrite (slice_at data 0 _ [] (enc_store magic l) (dg ++ post)) by reflexivity.
    t1. apply (hash_tri mal HA (n + 5) Hfull). cbn [negb]. t1. t1.
    pose proof (cmp_digest_spec e He (white_hash e half (enc_store magic l)) data (N.of_nat (length (enc_store magic l))) (enc_store magic l) (dg ++ post) eq_refl eq_refl) as Hcmp.
    assert (Lw : length (white_hash e half (enc_store magic l)) = 20%nat) by apply He.
    destruct (cmp_digest _ data _) as [[|]|].
    - t1. split; [reflexivity|]. exists q. split; [reflexivity|]. split; [|exists c'; auto]. destruct Hcmp as [z Hz]. apply (f_equal (firstn 20)) in Hz. rewrite !firstn_app, Hdg, Lw, Nat.sub_diag, !firstn_O, !app_nil_r, !firstn_all2 in Hz by lia. exact Hz.
    - eapply tri_seq; [apply (tri_any mal (n + 5) Hfull); eapply ks_free_tri; exact S1|]. cbv beta. intros _ F' ->. t1. split; [reflexivity|]. exists q. split; [reflexivity|]. split; [|reflexivity].
      intros ->. apply Hcmp. exists post. reflexivity.
    - exfalso. destruct Hcmp as [Hcmp _]. rewrite app_length in Hcmp. lia. }
  specialize (T n0 h0 Hn0 D0 P0).
  match goal with |- exists r q h' n', ?m = _ /\ _ => destruct m as [| |[[[x r] o] [h' n']]] end; [contradiction..|]. destruct T as [_ [_ [F' [P [-> [q [-> T]]]]]]]. exists r, q, h', n'. split; [reflexivity|]. destruct r.
  - destruct T as [T1 [c [S1 ->]]]. split; [exact T1|]. exists c. split; [exact S1|symmetry; exact P].
  - destruct T as [T1 ->]. split; [exact T1|]. symmetry. exact P.
Qed.
End Jks.
