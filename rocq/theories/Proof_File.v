(** Reading open files. *)
From Coq Require Import List Lia Permutation.
Import ListNotations.
From Verif Require Import Base Lib Spec_Md Model_Gost89 Spec_Gost89 Spec_Params Spec_Hash Model_KeyStore Model_Utils Model_Jks Model_Key6 Model_Pkcs12 Model_ReadBio Model_Kmem Model_File Spec_Keylib Spec_Key6 Spec_Pkcs12 Spec_Jks Spec_Kmem Spec_File
  Proof_Kmem Proof_Kmem2 Proof_Kmem4.

Lemma left_after f n : f_left (FILE (f_data f) (f_pos f + n) (f_fails f) (f_open f)) = skipn n (f_left f).
Proof. unfold f_left. cbn [f_data f_pos f_fails]. apply skipn_add. Qed.
Lemma left_length f : (length (f_left f) <= length (f_data f))%nat.
Proof. unfold f_left. rewrite skipn_length. destruct (f_fails f) as [p|]; [rewrite firstn_length; lia|lia]. Qed.
Lemma same_refl f : same_file f f. Proof. repeat split. Qed.
Lemma same_trans f g h : same_file f g -> same_file g h -> same_file f h.
Proof. intros (A & B & C) (D & E & F). unfold same_file. rewrite D, E, F. auto. Qed.
Lemma file_read_spec f : (f_left f = [] /\ exists e, file_read read_size f = (e, f) /\ (e = RdEnd \/ e = RdError)) \/
  exists b f', file_read read_size f = (RdData b true, f') /\ b <> [] /\ f_left f = b ++ f_left f' /\ same_file f f' /\ f_pos f' = (f_pos f + length b)%nat.
Proof.
  unfold file_read. destruct (firstn read_size (f_left f)) as [|x b] eqn:E.
  - left. split; [destruct (f_left f); [reflexivity|discriminate E]|]. destruct (f_fails f); eauto.
  - right. exists (x :: b), (FILE (f_data f) (f_pos f + length (x :: b)) (f_fails f) (f_open f)). split; [reflexivity|]. split; [discriminate|].
    split; [|split; [repeat split|reflexivity]]. rewrite left_after. rewrite <- (firstn_skipn read_size (f_left f)) at 1. rewrite E. f_equal.
    rewrite <- E, firstn_length. destruct (Nat.min_spec read_size (length (f_left f))) as [[_ ->]|[L ->]]; [reflexivity|]. rewrite !skipn_all2; [reflexivity|lia|exact L].
Qed.
Lemma through_step f g h b : f_left f = b ++ f_left g -> same_file f g -> f_pos g = (f_pos f + length b)%nat -> read_through g h -> read_through f h.
Proof. intros L S1 P (S2 & P2 & E). split; [exact (same_trans _ _ _ S1 S2)|]. split; [|exact E]. rewrite P2, P, L, app_length. lia. Qed.
Lemma some_step f g h b : f_left f = b ++ f_left g -> same_file f g -> f_pos g = (f_pos f + length b)%nat -> read_some g h -> read_some f h.
Proof. intros L S1 P (S2 & P2). split; [exact (same_trans _ _ _ S1 S2)|]. rewrite L, app_length. lia. Qed.
Lemma through_some f g : read_through f g -> read_some f g.
Proof. intros (S1 & P & _). split; [exact S1|lia]. Qed.

Section M.
Variable malloc : nat -> kheap -> option nat.
Hypothesis HA : kallocator malloc.
Notation tri := (tri 0).
Lemma file_loop_tri U L mem F : (mem = None -> ~ full malloc 0) -> forall fuel f got total, (length (f_left f) < fuel)%nat -> (0 < total \/ got = []) -> (total = 0 -> got = []) ->
  tri U L (h_file_loop malloc fuel f mem got total) F
    (fun r F' => F' = F /\ read_some f (snd r) /\ (fst r = Some (got ++ f_left f) /\ read_through f (snd r) \/ fst r = None /\ (got ++ f_left f = [] /\ read_through f (snd r) \/ ~ full malloc 0))).
Proof.
  intros Hm. induction fuel as [|fuel IH]; intros f got total Lf Hg Hz; [lia|]. cbn [h_file_loop]. destruct (file_read_spec f) as [(E & e & -> & He)|(b & f' & -> & Nb & El & S1 & P1)].
  - assert (T : read_through f f) by (split; [apply same_refl|]; rewrite E; cbn; split; [lia|reflexivity]).
    destruct He as [-> | ->]; (t1; cbn [fst snd]; split; [reflexivity|]; split; [apply through_some, T|]; rewrite E, app_nil_r; destruct (N.ltb_spec 0 total); [left; auto|right; split; [reflexivity|]; left; split; [apply Hz; lia|exact T]]).
  - destruct (N.eqb_spec (N.of_nat (length b)) 0) as [E|E]; [destruct b; [contradiction|cbn in E; lia]|].
    assert (RS : read_some f f') by (split; [exact S1|]; rewrite El, app_length; lia).
    t1. destruct mem as [mem|].
    + t1; cbn [negb]; [|t1; cbn [fst snd]; auto 6]. eapply tri_mono; [apply (IH f' (got ++ b)); [rewrite El, app_length in Lf; destruct b; [contradiction|cbn [length] in Lf; lia]|left; lia|lia]|].
      cbv beta. intros r F' (-> & R1 & R2). exists F. split; [reflexivity|]. split; [reflexivity|]. split; [exact (some_step _ _ _ _ El S1 P1 R1)|]. rewrite El, app_assoc.
      destruct R2 as [(R2 & R3)|(R2 & [(R3 & R4)|R3])]; [left; split; [exact R2|exact (through_step _ _ _ _ El S1 P1 R3)]|right; split; [exact R2|]; left; split; [exact R3|exact (through_step _ _ _ _ El S1 P1 R4)]|right; auto].
    + t1. cbn [negb]. t1. cbn [fst snd]. pose proof (Hm eq_refl). auto 6.
Qed.
Lemma read_file_tri U A (parse : list N -> KM A) f F (post : A -> kheap -> Prop) :
  (forall G, tri U False (parse (f_left f)) (G ++ F) (fun a F' => exists F2, F' = G ++ F2 /\ post a F2)) ->
  tri U False (h_read_file malloc parse f) F
    (fun r F' => read_some f (snd r) /\ match fst r with Some a => f_left f <> [] /\ read_through f (snd r) /\ post a F' | None => F' = F /\ (f_left f = [] /\ read_through f (snd r) \/ ~ full malloc 0) end).
Proof.
  intros Hp. assert (RF : read_some f f) by (split; [apply same_refl|lia]). unfold h_read_file. t1. t1; [|t1; cbn [fst snd]; auto]. rename p into bio. unfold bio_close. change (0 =? BIO_NOCLOSE) with true. cbv iota.
  eapply tri_seq with (p := fun r F' => read_some f (snd r) /\ match fst r with Some a => f_left f <> [] /\ read_through f (snd r) /\ exists F2, F' = (bio, KTemp) :: F2 /\ post a F2 | None => F' = (bio, KTemp) :: F /\ (f_left f = [] /\ read_through f (snd r) \/ ~ full malloc 0) end).
  2:{ cbv beta. intros [[a|] f'] F' (R1 & R2); cbn [fst snd] in *.
      - destruct R2 as (R2 & R3 & F2 & -> & R4). t1. t1. t1. cbn [fst snd]. auto.
      - destruct R2 as (-> & R2). t1. t1. t1. cbn [fst snd]. auto. }
  unfold h_read_file_bio. eapply tri_seq; [apply bio_new_tri, HA|]. cbv beta. intros mem F0 Hm. assert (Hm' : mem = None -> ~ full malloc 0) by (intros ->; apply Hm).
  eapply tri_seq; [apply (file_loop_tri U False mem F0 Hm' (S (length (f_data f))) f [] 0); [pose proof (left_length f); lia|auto|auto]|].
  cbv beta. cbn [app]. intros [got f'] F1 (-> & R1 & R2). cbn [fst snd] in *.
  assert (Hf : (f_left f = [] /\ read_through f f' \/ ~ full malloc 0) -> tri U False (bio_free mem ;;; kret (@None A, f')) F0
    (fun r F' => read_some f (snd r) /\ match fst r with Some a => f_left f <> [] /\ read_through f (snd r) /\ exists F2, F' = (bio, KTemp) :: F2 /\ post a F2 | None => F' = (bio, KTemp) :: F /\ (f_left f = [] /\ read_through f (snd r) \/ ~ full malloc 0) end)).
  { intros C. destruct mem as [mem|].
    - destruct Hm as [b ->]. eapply tri_seq; [apply bio_free_tri|]. cbv beta. intros _ F' ->. t1. cbn [fst snd]. auto.
    - destruct Hm as [-> _]. cbn [bio_free]. do 3 t1. cbn [fst snd]. split; [exact R1|]. split; [reflexivity|exact C]. }
  destruct R2 as [(-> & R2)|(-> & R2)]; [|apply Hf, R2].
  destruct (f_left f) as [|x d] eqn:E; [apply Hf; auto|]. destruct mem as [mem|].
  - destruct Hm as [b ->]. eapply tri_seq; [apply (Hp [(mem, KBio b); (b, KTemp); (bio, KTemp)])|]. cbv beta. intros a F' [F2 [-> H2]].
    eapply tri_seq; [apply bio_free_tri|]. cbv beta. intros _ F3 ->. t1. cbn [fst snd]. split; [exact R1|]. split; [discriminate|]. split; [exact R2|]. exists F2. auto.
  - destruct Hm as [-> _]. eapply tri_seq; [apply (Hp [(bio, KTemp)])|]. cbv beta. intros a F' [F2 [-> H2]]. cbn [bio_free app]. do 3 t1. cbn [fst snd]. split; [exact R1|]. split; [discriminate|]. split; [exact R2|]. exists F2. auto.
Qed.
Lemma frames_file U A (parse : list N -> KM A) Q f : frames U (parse (f_left f)) Q ->
  frames U (h_read_file malloc parse f)
    (fun r c => read_some f (snd r) /\ match fst r with Some a => f_left f <> [] /\ read_through f (snd r) /\ Q a c | None => c = [] /\ (f_left f = [] /\ read_through f (snd r) \/ ~ kenough malloc) end).
Proof.
  intros H F. pose proof (read_file_tri U A parse f F (fun a F' => exists c, F' = c ++ F /\ Q a c)) as T. eapply tri_mono; [apply T|].
  - intros G. eapply tri_mono; [apply (H (G ++ F))|]. cbv beta. intros a F' [c [-> Q1]]. exists (G ++ c ++ F). split; [perm|]. exists (c ++ F). split; [reflexivity|]. exists c. auto.
  - cbv beta. intros [[a|] f'] F'; cbn [fst snd].
    + intros [R [Hne [R2 [c [-> Q1]]]]]. exists (c ++ F). split; [reflexivity|]. exists c. auto.
    + intros [R [-> G]]. exists F. split; [reflexivity|]. exists []. split; [reflexivity|]. split; [exact R|]. split; [reflexivity|]. destruct G; [auto|right; apply not_enough; assumption].
Qed.
Lemma or_both (P Q R : Prop) : P /\ Q \/ ~ R -> R -> P. Proof. tauto. Qed.

Lemma pkcs12_file (d : list N -> option pkcs12) f h n : kheap_ok h ->
  match h_read_file malloc (fun x => h_parsePKCS12 malloc (d x)) f (h, n) with
  | KRet (Some (true, Some q), f', (h', _)) => read_through f f' /\ exists safes, readable (d (f_left f)) safes /\ store_added q (objs Keys (items_of safes)) (objs Certs (items_of safes)) h h'
  | KRet (Some (false, _), f', (h', _)) => read_through f f' /\ unchanged h h' /\ (kenough malloc -> ~ exists safes, readable (d (f_left f)) safes)
  | KRet (None, f', (h', _)) => read_some f f' /\ unchanged h h' /\ (kenough malloc -> f_left f = [])
  | KUndef => ~ kenough malloc
  | _ => False
  end.
Proof.
  intros Hh. pose proof (frames_run _ _ _ _ h n (frames_file _ _ (fun x => h_parsePKCS12 malloc (d x)) _ f (p12_frames malloc (d (f_left f)) HA)) Hh) as T.
  destruct (h_read_file malloc _ f (h, n)) as [| |[[[[[|] q]|] f'] [h' n']]]; [exact T..| | |]; destruct T as [c [P [R Q]]]; cbn [fst snd] in *.
  - destruct Q as [_ [R2 [safes [a [R3 [-> S1]]]]]]. split; [exact R2|]. exists safes. split; [exact R3|]. exists c. auto.
  - destruct Q as [_ [R2 [-> Q]]]. split; [exact R2|]. split; [exact P|apply not_both, Q].
  - destruct Q as [-> Q]. split; [exact R|]. split; [exact P|]. exact (or_both _ _ _ Q).
Qed.
Lemma key6_file {spec grp} (ae : attr_env spec grp) (p8 : list N -> option p8info) : (forall x i, p8 x = Some i -> attrs_bytes (p8_attrs i)) ->
  forall (d : list N -> option iit_store) r mac data pad password f h n, kheap_ok h -> d (f_left f) = Some (key6_store mac data pad) ->
  bytes password -> hashable (length password) -> mask_wf (k6_mask r) -> bytes (key6_cipher data pad) -> apart r (length (key6_cipher data pad)) ->
  let seen := key6_seen r data pad password in
  match h_read_file malloc (fun x => h_parseKey6 malloc ae p8 r (d x) password) f (h, n) with
  | KRet (Some (Some q), f', (h', _)) => read_through f f' /\ exists i l, p8 seen = Some i /\ store_added q l [] h h' /\ (keys_in ae i l \/ ~ kenough malloc /\ exists k1, p8_pkey i = Some k1 /\ l = [k1])
  | KRet (Some None, f', (h', _)) => read_through f f' /\ unchanged h h' /\ (kenough malloc -> match p8 seen with None => True | Some i => p8_pkey i = None end)
  | KRet (None, f', (h', _)) => read_some f f' /\ unchanged h h' /\ (kenough malloc -> f_left f = [])
  | KUndef => ~ kenough malloc
  | _ => False
  end.
Proof.
  intros Hp8 d r mac data pad password f h n Hh Hi H1 H2 H3 H4 H5 seen.
  assert (T0 : frames (~ kenough malloc) ((fun x => h_parseKey6 malloc ae p8 r (d x) password) (f_left f)) (key6_post ae p8 malloc seen)) by (cbv beta; rewrite Hi; apply key6_frames; assumption).
  pose proof (frames_run _ _ _ _ h n (frames_file _ _ _ _ f T0) Hh) as T.
  destruct (h_read_file malloc _ f (h, n)) as [| |[[[[q|]|] f'] [h' n']]]; [exact T..| | |]; destruct T as [c [P [R Q]]]; cbn [fst snd] in *.
  - destruct Q as [_ [R2 [i [l [E [Hl S1]]]]]]. split; [exact R2|]. exists i, l. split; [exact E|]. split; [exists c; auto|exact Hl].
  - destruct Q as [_ [R2 [-> Q]]]. split; [exact R2|]. split; [exact P|apply not_both, Q].
  - destruct Q as [-> Q]. split; [exact R|]. split; [exact P|]. exact (or_both _ _ _ Q).
Qed.
Lemma jks_file {spec grp} (e : jks_env spec grp) : env_ok e -> forall sp kp k f h n, kenough malloc -> kheap_ok h -> bytes (f_left f) ->
  match h_read_file malloc (fun x => h_parseJKS malloc e x sp kp k) f (h, n) with
  | KRet (Some (k', true, Some q), f', (h', _)) => read_through f f' /\ exists magic l post store16 keys certs, f_left f = enc_store magic l ++ digest_of e store16 (enc_store magic l) ++ post /\ is_magic magic /\
       password16 e sp store16 /\ entries_read e kp k l keys certs k' /\ store_added q keys certs h h'
  | KRet (Some (_, false, _), f', (h', _)) => read_through f f' /\ (unchanged h h' \/ one_buffer_left h h')
  | KRet (None, f', (h', _)) => read_through f f' /\ unchanged h h' /\ f_left f = []
  | KUndef => parseJKS e (f_left f) sp kp (heap0, k) None = None
  | _ => False
  end.
Proof.
  intros He sp kp k f h n HE Hh Hb.
  pose proof (frames_run _ _ _ _ h n (frames_file _ _ (fun x => h_parseJKS malloc e x sp kp k) _ f (jks_frames e He malloc (f_left f) sp kp k _ HA HE Hb (fun E => E))) Hh) as T.
  destruct (h_read_file malloc _ f (h, n)) as [| |[[[[[k' [|]] o]|] f'] [h' n']]]; [exact T..| | |]; destruct T as [c [P [R Q]]]; cbn [fst snd] in *.
  - destruct Q as [_ [R2 [magic [l [post [s16 [keys [certs [q [E [Hm [_ [Hp [Hr [-> S1]]]]]]]]]]]]]]]. split; [exact R2|]. exists magic, l, post, s16, keys, certs. split; [exact E|]. split; [exact Hm|]. split; [exact Hp|]. split; [exact Hr|]. exists c. auto.
  - destruct Q as [_ [R2 [-> |[d ->]]]]; (split; [exact R2|]); [left; exact P|right; exists d; exact P].
  - destruct Q as [-> [[Q1 Q2]|Q]]; [|contradiction]. auto.
Qed.
End M.
