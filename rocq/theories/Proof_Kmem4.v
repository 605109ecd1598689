(** What reading containers leaves in memory. *)
From Coq Require Import List Lia Permutation.
Import ListNotations.
From Verif Require Import Base Lib Spec_Md Model_Gost89 Model_KeyStore Model_Utf16 Model_Utils Model_Jks Model_Key6 Model_Pkcs12 Model_ReadBio Model_Kmem Spec_KeyStore Spec_Keylib Spec_Key6 Spec_Pkcs12 Spec_Jks Spec_Kmem Proof_KeyStore Proof_Keylib Proof_Key6 Proof_Pkcs12 Proof_Jks Proof_Kmem Proof_Kmem2 Proof_Kmem3.

(** ** From triples to runs: [Q a c] if the cells [c] were added. *)
Definition frames (U : Prop) {A} (m : KM A) (Q : A -> kheap -> Prop) : Prop :=
  forall F, tri 0 U False m F (fun a F' => exists c, F' = c ++ F /\ Q a c).
Lemma frames_run U A (m : KM A) (Q : A -> kheap -> Prop) h n : frames U m Q -> kheap_ok h ->
  match m (h, n) with KUndef => U | KLoop => False | KRet (a, (h', _)) => exists c, Permutation (c ++ h) h' /\ Q a c end.
Proof.
  intros H Hd. specialize (H h n h (Nat.le_0_l n) Hd (Permutation_refl _)). destruct (m (h, n)) as [| |[a [h' n']]]; [exact H..|].
  destruct H as [_ [_ [F' [P [c [-> Q1]]]]]]. exists c. split; [symmetry; exact P|exact Q1].
Qed.
Lemma enough_full malloc : kenough malloc <-> full malloc 0.
Proof. split; intros H n h; [intros _; apply H|apply H; lia]. Qed.
Lemma not_enough malloc : ~ full malloc 0 -> ~ kenough malloc.
Proof. intros H G. apply H, enough_full, G. Qed.
Lemma frames_stream malloc U A (parse : list N -> KM A) Q evs data : kallocator malloc -> delivers evs data -> frames U (parse data) Q ->
  frames U (h_read_bio malloc parse evs)
    (fun r c => match r with Some a => data <> [] /\ Q a c | None => c = [] /\ (data = [] \/ ~ kenough malloc) end).
Proof.
  intros HA Hd H F.
  pose proof (read_bio_tri malloc HA 0 U A parse evs data F (fun a F' => exists c, F' = c ++ F /\ Q a c) Hd) as T.
  eapply tri_mono; [apply T|].
  - intros G. eapply tri_mono; [apply (H (G ++ F))|]. cbv beta. intros a F' [c [-> Q1]]. exists (G ++ c ++ F). split; [perm|]. exists (c ++ F). split; [reflexivity|]. exists c. auto.
  - cbv beta. intros [a|] F'.
    + intros [Hne [c [-> Q1]]]. exists (c ++ F). split; [reflexivity|]. exists c. auto.
    + intros [-> G]. assert (G' : data = [] \/ ~ kenough malloc) by (destruct G; [auto|right; apply not_enough; assumption]). exists F. split; [reflexivity|]. exists []. auto.
Qed.

(** ** PKCS#12 *)
Definition p12_post malloc p (x : bool * option nat) (c : kheap) : Prop :=
  let '(r, q) := x in
  if r then exists safes a, readable p safes /\ q = Some a /\ stores a (map Some (objs Keys (items_of safes))) (map Some (objs Certs (items_of safes))) c
  else c = [] /\ ((~ exists safes, readable p safes) \/ ~ kenough malloc).
Lemma p12_frames malloc p : kallocator malloc -> frames (~ kenough malloc) (h_parsePKCS12 malloc p) (p12_post malloc p).
Proof.
  intros HA F. apply (tri_out 0 (~ full malloc 0) False); [exact (not_enough malloc)|intros []|]. eapply tri_mono; [apply (pkcs12_tri malloc HA 0 p F)|]. cbv beta. unfold p12_post. intros [[|] q] F'.
  - intros [safes [a [c [R [-> [S1 ->]]]]]]. exists (c ++ F). split; [reflexivity|]. exists c. split; [reflexivity|]. exists safes, a. auto.
  - intros [-> G]. exists F. split; [reflexivity|]. exists []. split; [reflexivity|]. split; [reflexivity|]. destruct G; [auto|right; apply not_enough; assumption].
Qed.
Lemma not_both (P Q : Prop) : P \/ ~ Q -> Q -> P.
Proof. tauto. Qed.
Lemma pkcs12_any malloc p h n : kallocator malloc -> kheap_ok h ->
  match h_parsePKCS12 malloc p (h, n) with
  | KRet ((true, Some q), (h', _)) => exists safes, readable p safes /\ store_added q (objs Keys (items_of safes)) (objs Certs (items_of safes)) h h'
  | KRet ((false, _), (h', _)) => unchanged h h' /\ (kenough malloc -> ~ exists safes, readable p safes)
  | KUndef => ~ kenough malloc
  | _ => False
  end.
Proof.
  intros HA Hh. pose proof (frames_run _ _ _ _ h n (p12_frames malloc p HA) Hh) as T.
  destruct (h_parsePKCS12 malloc p (h, n)) as [| |[[[|] q] [h' n']]]; [exact T..| |]; destruct T as [c [P Q]]; cbn [p12_post] in Q.
  - destruct Q as [safes [a [R [-> S1]]]]. exists safes. split; [exact R|]. exists c. auto.
  - destruct Q as [-> Q]. split; [exact P|apply not_both, Q].
Qed.
Lemma pkcs12_stream malloc (d : list N -> option pkcs12) evs data h n : kallocator malloc -> kheap_ok h -> delivers evs data ->
  match h_read_bio malloc (fun x => h_parsePKCS12 malloc (d x)) evs (h, n) with
  | KRet (Some (true, Some q), (h', _)) => exists safes, readable (d data) safes /\ store_added q (objs Keys (items_of safes)) (objs Certs (items_of safes)) h h'
  | KRet (Some (false, _), (h', _)) => unchanged h h' /\ (kenough malloc -> ~ exists safes, readable (d data) safes)
  | KRet (None, (h', _)) => unchanged h h' /\ (kenough malloc -> data = [])
  | KUndef => ~ kenough malloc
  | _ => False
  end.
Proof.
  intros HA Hh Hd. pose proof (frames_run _ _ _ _ h n (frames_stream malloc _ _ (fun x => h_parsePKCS12 malloc (d x)) _ evs data HA Hd (p12_frames malloc (d data) HA)) Hh) as T.
  destruct (h_read_bio malloc _ evs (h, n)) as [| |[[[[|] q]|] [h' n']]]; [exact T..| | |]; destruct T as [c [P Q]].
  - destruct Q as [_ [safes [a [R [-> S1]]]]]. exists safes. split; [exact R|]. exists c. auto.
  - destruct Q as [_ [-> Q]]. split; [exact P|apply not_both, Q].
  - destruct Q as [-> Q]. split; [exact P|apply not_both, Q].
Qed.

(** ** Key-6 *)
Lemma keys_in_spec {spec grp} (ae : attr_env spec grp) i k1 : attrs_bytes (p8_attrs i) -> p8_pkey i = Some k1 ->
  keys_in ae i (k1 :: match pkeyFromAttributes ae (p8_attrs i) with Some k => [k] | None => [] end).
Proof.
  intros Hb E1. exists k1. eexists. split; [exact E1|]. split; [reflexivity|]. destruct (pkeyFromAttributes ae (p8_attrs i)) as [k|] eqn:E.
  - left. exists k. split; [reflexivity|]. apply (pkeyFromAttributes_spec ae); assumption.
  - right. split; [reflexivity|]. intros [k2 H]. apply (pkeyFromAttributes_spec ae) in H; [congruence|exact Hb].
Qed.
Section Key6.
Context {spec grp : Type} (ae : attr_env spec grp) (p8 : list N -> option p8info).
Hypothesis Hp8 : forall x i, p8 x = Some i -> attrs_bytes (p8_attrs i).
Definition key6_post malloc (seen : list N) (o : option nat) (c : kheap) : Prop :=
  match o with
  | Some q => exists i l, p8 seen = Some i /\ (keys_in ae i l \/ ~ kenough malloc /\ exists k1, p8_pkey i = Some k1 /\ l = [k1]) /\ stores q (map Some l) [] c
  | None => c = [] /\ (match p8 seen with None => True | Some i => p8_pkey i = None end \/ ~ kenough malloc)
  end.
Lemma key6_frames malloc r mac data pad password : kallocator malloc ->
  bytes password -> hashable (length password) -> mask_wf (k6_mask r) -> bytes (key6_cipher data pad) -> apart r (length (key6_cipher data pad)) ->
  frames (~ kenough malloc) (h_parseKey6 malloc ae p8 r (Some (key6_store mac data pad)) password) (key6_post malloc (key6_seen r data pad password)).
Proof.
  intros HA H1 H2 H3 H4 H5 F. apply (tri_out 0 (~ full malloc 0) False); [exact (not_enough malloc)|intros []|]. pose proof (decrypt_bytes_ok r data pad password H1 H2 H3 H4 H5) as E. cbv zeta in E. fold (key6_seen r data pad password) in E.
  eapply tri_mono; [apply (parseKey6_tri malloc HA 0 ae p8 r mac data pad password F); rewrite E; discriminate|]. cbv beta. unfold key6_post. intros o F' [b [Eb G]]. rewrite E in Eb. injection Eb as <-. destruct o as [q|].
  - destruct G as [i [l [c [Ei [[k1 [E1 Hl]] [S1 ->]]]]]]. exists (c ++ F). split; [reflexivity|]. exists c. split; [reflexivity|]. exists i, l. split; [exact Ei|]. split; [|exact S1].
    destruct Hl as [-> |[Hf ->]]; [left; apply keys_in_spec; [eapply Hp8, Ei|exact E1]|right; split; [apply not_enough, Hf|eauto]].
  - destruct G as [-> G]. exists F. split; [reflexivity|]. exists []. split; [reflexivity|]. split; [reflexivity|]. destruct G; [auto|right; apply not_enough; assumption].
Qed.
Lemma key6_any malloc r mac data pad password h n : kallocator malloc -> kheap_ok h ->
  bytes password -> hashable (length password) -> mask_wf (k6_mask r) -> bytes (key6_cipher data pad) -> apart r (length (key6_cipher data pad)) ->
  let seen := key6_seen r data pad password in
  match h_parseKey6 malloc ae p8 r (Some (key6_store mac data pad)) password (h, n) with
  | KRet (Some q, (h', _)) => exists i l, p8 seen = Some i /\ store_added q l [] h h' /\ (keys_in ae i l \/ ~ kenough malloc /\ exists k1, p8_pkey i = Some k1 /\ l = [k1])
  | KRet (None, (h', _)) => unchanged h h' /\ (kenough malloc -> match p8 seen with None => True | Some i => p8_pkey i = None end)
  | KUndef => ~ kenough malloc
  | _ => False
  end.
Proof.
  intros HA Hh H1 H2 H3 H4 H5 seen. pose proof (frames_run _ _ _ _ h n (key6_frames malloc r mac data pad password HA H1 H2 H3 H4 H5) Hh) as T. fold seen in T.
  destruct (h_parseKey6 malloc ae p8 r _ password (h, n)) as [| |[[q|] [h' n']]]; [exact T..| |]; destruct T as [c [P Q]]; cbn [key6_post] in Q.
  - destruct Q as [i [l [E [Hl S1]]]]. exists i, l. split; [exact E|]. split; [exists c; auto|exact Hl].
  - destruct Q as [-> Q]. split; [exact P|apply not_both, Q].
Qed.
Lemma key6_refused malloc r s password h n : kallocator malloc -> kheap_ok h ->
  (forall st, s = Some st -> forall hd, is_header st = Some hd -> ih_type hd <> Some [1;3;6;1;4;1;19398;1;1;1;2] \/ is_data st = None \/ ih_params hd = None) ->
  match h_parseKey6 malloc ae p8 r s password (h, n) with
  | KRet (None, (h', _)) => unchanged h h'
  | KUndef => ~ kenough malloc
  | _ => False
  end.
Proof.
  intros HA Hh Hs. assert (T : frames (~ kenough malloc) (h_parseKey6 malloc ae p8 r s password) (fun o c => o = None /\ c = [])).
  { intros F. apply (tri_out 0 (~ full malloc 0) False); [exact (not_enough malloc)|intros []|]. eapply tri_mono; [apply (parseKey6_refused malloc HA 0 ae p8 r s password F Hs)|]. cbv beta. intros o F' [-> ->]. exists F. split; [reflexivity|]. exists []. auto. }
  pose proof (frames_run _ _ _ _ h n T Hh) as T2. destruct (h_parseKey6 malloc ae p8 r s password (h, n)) as [| |[[q|] [h' n']]]; [exact T2..| |]; destruct T2 as [c [P [Q1 ->]]]; [discriminate|exact P].
Qed.
Lemma key6_stream malloc (d : list N -> option iit_store) r mac data pad password evs input h n : kallocator malloc -> kheap_ok h -> delivers evs input -> d input = Some (key6_store mac data pad) ->
  bytes password -> hashable (length password) -> mask_wf (k6_mask r) -> bytes (key6_cipher data pad) -> apart r (length (key6_cipher data pad)) ->
  let seen := key6_seen r data pad password in
  match h_read_bio malloc (fun x => h_parseKey6 malloc ae p8 r (d x) password) evs (h, n) with
  | KRet (Some (Some q), (h', _)) => exists i l, p8 seen = Some i /\ store_added q l [] h h' /\ (keys_in ae i l \/ ~ kenough malloc /\ exists k1, p8_pkey i = Some k1 /\ l = [k1])
  | KRet (Some None, (h', _)) => unchanged h h' /\ (kenough malloc -> match p8 seen with None => True | Some i => p8_pkey i = None end)
  | KRet (None, (h', _)) => unchanged h h' /\ (kenough malloc -> input = [])
  | KUndef => ~ kenough malloc
  | _ => False
  end.
Proof.
  intros HA Hh Hd Hi H1 H2 H3 H4 H5 seen.
  assert (T0 : frames (~ kenough malloc) ((fun x => h_parseKey6 malloc ae p8 r (d x) password) input) (key6_post malloc seen)) by (cbv beta; rewrite Hi; apply key6_frames; assumption).
  pose proof (frames_run _ _ _ _ h n (frames_stream malloc _ _ _ _ evs input HA Hd T0) Hh) as T.
  destruct (h_read_bio malloc _ evs (h, n)) as [| |[[[q|]|] [h' n']]]; [exact T..| | |]; destruct T as [c [P Q]].
  - destruct Q as [_ [i [l [E [Hl S1]]]]]. exists i, l. split; [exact E|]. split; [exists c; auto|exact Hl].
  - destruct Q as [_ [-> Q]]. split; [exact P|apply not_both, Q].
  - destruct Q as [-> Q]. split; [exact P|apply not_both, Q].
Qed.
End Key6.

(** ** Java key stores *)
Lemma filled_same h a d l l' : filled h a d l 0 -> filled h a d l' 0 -> l = l'.
Proof.
  intros [x [E [N1 A1]]] [y [E' [N2 A2]]]. rewrite E in E'. injection E' as <-. cbn [repeat] in *. rewrite app_nil_r in N1, A1, N2, A2. rewrite map_length in N1, N2.
  destruct A1 as [A1|[A1 E1]].
  - destruct A2 as [A2|[A2 _]]; [|congruence]. rewrite A1 in A2. injection A2 as A2. clear -A2. revert l' A2. induction l as [|v l IH]; intros [|w l']; cbn; try discriminate; [reflexivity|]. intros H. injection H as -> H. f_equal. apply IH, H.
  - apply map_eq_nil in E1. subst l. destruct l'; [reflexivity|]. cbn in *. lia.
Qed.
Section Jks.
Context {spec grp : Type} (e : jks_env spec grp) (He : env_ok e).
Definition jks_post (data sp kp : list N) (k : nat) (x : nat * bool * option nat) (c : kheap) : Prop :=
  let '(k', r, o) := x in
  if r then exists magic l post store16 keys certs q, data = enc_store magic l ++ digest_of e store16 (enc_store magic l) ++ post /\ is_magic magic /\ Forall entry_fits l /\
         password16 e sp store16 /\ entries_read e kp k l keys certs k' /\ o = Some q /\ stores q (map Some keys) (map Some certs) c
  else c = [] \/ exists d, c = [(d, KTemp)].
Lemma jks_frames malloc data sp kp k (U : Prop) : kallocator malloc -> kenough malloc -> bytes data -> (parseJKS e data sp kp (heap0, k) None = None -> U) ->
  frames U (h_parseJKS malloc e data sp kp k) (jks_post data sp kp k).
Proof.
  intros HA HE Hb HU F. apply enough_full in HE. apply (tri_out 0 (parseJKS e data sp kp (heap0, k) None = None) False); [exact HU|intros []|]. eapply tri_mono; [apply (jks_tri malloc HA 0 HE e He data sp kp heap0 k None F)|].
  cbv beta. intros [[k' r] o] F'. unfold jks_done, jks_post. destruct r.
  - intros [h' [a [q [lk [lc [c [E [-> [[Hk Hc] [S1 ->]]]]]]]]]]. exists (c ++ F). split; [reflexivity|]. exists c. split; [reflexivity|].
    destruct (parse_jks_inv e He _ _ _ _ _ _ _ _ Hb E) as [magic [l [post [s16 [ks [cs [k1 [Ed [Hm [Hl [Fl [Hp Hr]]]]]]]]]]]].
    destruct (parse_jks_ok e He magic l post sp s16 kp k ks cs k1 heap0 None Hm Hl Fl Hp Hr) as [h1 [E1 [[Fk Fc] _]]]. rewrite <- Ed, E in E1. injection E1 as -> -> ->.
    rewrite (filled_same _ _ _ _ _ Hk Fk), (filled_same _ _ _ _ _ Hc Fc) in S1. exists magic, l, post, s16, ks, cs, q. auto 10.
  - intros [_ [-> |[d ->]]]; [exists F|exists ((d, KTemp) :: F)]; (split; [reflexivity|]); [exists []|exists [(d, KTemp)]]; eauto.
Qed.
Lemma jks_any malloc data sp kp k h n : kallocator malloc -> kenough malloc -> kheap_ok h -> bytes data ->
  match h_parseJKS malloc e data sp kp k (h, n) with
  | KRet ((k', true, Some q), (h', _)) => exists magic l post store16 keys certs, data = enc_store magic l ++ digest_of e store16 (enc_store magic l) ++ post /\ is_magic magic /\
       password16 e sp store16 /\ entries_read e kp k l keys certs k' /\ store_added q keys certs h h'
  | KRet ((_, false, _), (h', _)) => unchanged h h' \/ one_buffer_left h h'
  | KUndef => parseJKS e data sp kp (heap0, k) None = None
  | _ => False
  end.
Proof.
  intros HA HE Hh Hb. pose proof (frames_run _ _ _ _ h n (jks_frames malloc data sp kp k _ HA HE Hb (fun E => E)) Hh) as T.
  destruct (h_parseJKS malloc e data sp kp k (h, n)) as [| |[[[k' [|]] o] [h' n']]]; [exact T..| |]; destruct T as [c [P Q]]; cbn [jks_post] in Q.
  - destruct Q as [magic [l [post [s16 [keys [certs [q [E [Hm [_ [Hp [Hr [-> S1]]]]]]]]]]]]]. exists magic, l, post, s16, keys, certs. split; [exact E|]. split; [exact Hm|]. split; [exact Hp|]. split; [exact Hr|]. exists c. auto.
  - destruct Q as [-> |[d ->]]; [left; exact P|right; exists d; exact P].
Qed.
Lemma jks_good malloc magic l post sp s16 kp k keys certs k' h n : kallocator malloc -> kenough malloc -> kheap_ok h ->
  is_magic magic -> N.of_nat (length l) < 2 ^ 32 -> Forall entry_fits l -> password16 e sp s16 -> entries_read e kp k l keys certs k' ->
  exists q h' n', h_parseJKS malloc e (enc_store magic l ++ digest_of e s16 (enc_store magic l) ++ post) sp kp k (h, n) = KRet ((k', true, Some q), (h', n')) /\ store_added q keys certs h h'.
Proof.
  intros HA HE Hh Hm Hl Hf Hp Hr. apply enough_full in HE. set (data := enc_store magic l ++ _).
  destruct (parse_jks_ok e He magic l post sp s16 kp k keys certs k' heap0 None Hm Hl Hf Hp Hr) as [h1 [E1 [[Fk Fc] _]]]. fold data in E1.
  pose proof (jks_tri malloc HA 0 HE e He data sp kp heap0 k None h n h (Nat.le_0_l n) Hh (Permutation_refl _)) as T. rewrite E1 in T.
  destruct (h_parseJKS malloc e data sp kp k (h, n)) as [| |[[[k2 [|]] o] [h' n']]]; [discriminate|contradiction| |].
  - destruct T as [_ [_ [F' [P [h2 [a [q [lk [lc [c [E [-> [[Hk Hc] [S1 ->]]]]]]]]]]]]]]. injection E as <- <- <-.
    rewrite (filled_same _ _ _ _ _ Hk Fk), (filled_same _ _ _ _ _ Hc Fc) in S1. exists q, h', n'. split; [reflexivity|]. exists c. split; [exact S1|]. symmetry. exact P.
  - destruct T as [_ [_ [F' [_ [T _]]]]]. exfalso. eapply T. reflexivity.
Qed.
Lemma jks_stream malloc data sp kp k evs h n : kallocator malloc -> kenough malloc -> kheap_ok h -> bytes data -> delivers evs data ->
  match h_read_bio malloc (fun x => h_parseJKS malloc e x sp kp k) evs (h, n) with
  | KRet (Some (k', true, Some q), (h', _)) => exists magic l post store16 keys certs, data = enc_store magic l ++ digest_of e store16 (enc_store magic l) ++ post /\ is_magic magic /\
       password16 e sp store16 /\ entries_read e kp k l keys certs k' /\ store_added q keys certs h h'
  | KRet (Some (_, false, _), (h', _)) => unchanged h h' \/ one_buffer_left h h'
  | KRet (None, (h', _)) => unchanged h h' /\ data = []
  | KUndef => parseJKS e data sp kp (heap0, k) None = None
  | _ => False
  end.
Proof.
  intros HA HE Hh Hb Hd.
  pose proof (frames_run _ _ _ _ h n (frames_stream malloc _ _ (fun x => h_parseJKS malloc e x sp kp k) _ evs data HA Hd (jks_frames malloc data sp kp k _ HA HE Hb (fun E => E))) Hh) as T.
  destruct (h_read_bio malloc _ evs (h, n)) as [| |[[[[k' [|]] o]|] [h' n']]]; [exact T..| | |]; destruct T as [c [P Q]].
  - destruct Q as [_ [magic [l [post [s16 [keys [certs [q [E [Hm [_ [Hp [Hr [-> S1]]]]]]]]]]]]]]. exists magic, l, post, s16, keys, certs. split; [exact E|]. split; [exact Hm|]. split; [exact Hp|]. split; [exact Hr|]. exists c. auto.
  - destruct Q as [_ [-> |[d ->]]]; [left; exact P|right; exists d; exact P].
  - destruct Q as [-> Q]. split; [exact P|]. apply (not_both _ (kenough malloc)); assumption.
Qed.
(** An entry that is refused. *)
Lemma refused_stops data off pre bad post kp k h a : data = pre ++ bad ++ post -> off = N.of_nat (length pre) -> refused e kp k bad -> forall lk lc, holds h a lk lc ->
  exists s', parse_entry e data off kp a (h, k) = Some (s', None).
Proof.
  intros -> -> Hr lk lc Hh. unfold parse_entry. destruct Hr as [k tag H1 H2 H3|k alias stamp blob chain p16 salt enc check [Fa [Fs [Fb [Fc Fl]]]] Hp Hsig Ls Lc Hne|k c [F1 F2] Hx].
  - rewrite (read32_at _ _ pre tag post H1 eq_refl eq_refl). replace (tag =? 1) with false by lia. replace (tag =? 2) with false by lia. eauto.
  - cbn [enc_entry]. rewrite <- !app_assoc. erewrite (read32_at _ _ pre 1); [|reflexivity|reflexivity|reflexivity]. change (1 =? 1) with true. cbv iota. unfold parse_key.
    erewrite (read16_at _ _ (pre ++ be_bytes 4 1) (N.of_nat (length alias)) _ Fa); [|rewrite <- !app_assoc; reflexivity|lens].
    erewrite (read32_at _ _ (pre ++ be_bytes 4 1 ++ be_bytes 2 (N.of_nat (length alias)) ++ alias ++ stamp) (N.of_nat (length blob)) _ Fb); [|rewrite <- !app_assoc; reflexivity|lens].
    erewrite (read32_at _ _ (pre ++ be_bytes 4 1 ++ be_bytes 2 (N.of_nat (length alias)) ++ alias ++ stamp ++ be_bytes 4 (N.of_nat (length blob)) ++ blob) (N.of_nat (length chain)) _ Fc); [|rewrite <- !app_assoc; reflexivity|lens].
    rewrite (slice_at _ _ _ (pre ++ be_bytes 4 1 ++ be_bytes 2 (N.of_nat (length alias)) ++ alias ++ stamp ++ be_bytes 4 (N.of_nat (length blob))) blob (be_bytes 4 (N.of_nat (length chain)) ++ concat (map enc_cert chain) ++ post)); [|rewrite <- !app_assoc; reflexivity|lens|reflexivity].
    unfold decrypt_key. rewrite (to_utf16_ok e He _ _ Hp), Hsig. rewrite oid_eqb_refl. rewrite (fkp_refused e He p16 salt enc check k h a Ls Lc Hne). eauto.
  - cbn [enc_entry]. rewrite <- !app_assoc. erewrite (read32_at _ _ pre 2); [|reflexivity|reflexivity|reflexivity]. change (2 =? 1) with false. change (2 =? 2) with true. cbv iota. unfold parse_cert, enc_cert. rewrite <- !app_assoc.
    erewrite (read16_at _ _ (pre ++ be_bytes 4 2) (N.of_nat (length (c_type c))) _ F1); [|rewrite <- !app_assoc; reflexivity|lens].
    erewrite (read32_at _ _ (pre ++ be_bytes 4 2 ++ be_bytes 2 (N.of_nat (length (c_type c))) ++ c_type c) (N.of_nat (length (c_der c))) _ F2); [|rewrite <- !app_assoc; reflexivity|lens].
    rewrite (slice_at _ _ _ (pre ++ be_bytes 4 2 ++ be_bytes 2 (N.of_nat (length (c_type c))) ++ c_type c ++ be_bytes 4 (N.of_nat (length (c_der c)))) (c_der c) post); [|rewrite <- !app_assoc; reflexivity|lens|reflexivity].
    rewrite Hx. eauto.
Qed.
Lemma entries_stop data bad post kp a k' : forall l n off pre k ks cs h lk lc, data = pre ++ concat (map enc_entry l) ++ bad ++ post -> off = N.of_nat (length pre) -> Forall entry_fits l ->
  entries_read e kp k l ks cs k' -> refused e kp k' bad -> (length l < n)%nat -> holds h a lk lc ->
  exists s', parse_entries e n data off kp a (h, k) = Some (s', None).
Proof.
  induction l as [|x l IH]; intros n off pre k ks cs h lk lc Hd Ho Hf Hr Hb Hn Hh; (destruct n as [|n]; [cbn in Hn; lia|]); cbn [parse_entries]; inversion Hr as [|? ? ? ks1 cs1 k1 ks2 cs2 ? Hx Hl]; subst.
  - cbn [map concat app]. destruct (refused_stops _ _ pre bad post kp k' h a eq_refl eq_refl Hb lk lc Hh) as [s' ->]. eauto.
  - inversion Hf as [|? ? Fx Fl]. subst. cbn [map concat length] in *. rewrite <- app_assoc in IH |- *.
    destruct (parse_entry_ok e He _ _ pre (concat (map enc_entry l) ++ bad ++ post) x kp k ks1 cs1 k1 h a lk lc eq_refl eq_refl Fx Hx Hh) as [h1 [E1 [H1 R1]]]. rewrite E1.
    eapply (IH n _ (pre ++ enc_entry x)); [rewrite <- !app_assoc; reflexivity|rewrite app_length; lia|exact Fl|exact Hl|exact Hb|lia|exact H1].
Qed.
Lemma jks_leaks malloc magic n l bad post sp s16 kp k keys certs k' h m : kallocator malloc -> kenough malloc -> kheap_ok h ->
  is_magic magic -> n < 2 ^ 32 -> N.of_nat (length l) < n -> Forall entry_fits l -> password16 e sp s16 -> entries_read e kp k l keys certs k' -> refused e kp k' bad ->
  exists x q h' m', h_parseJKS malloc e (magic ++ [0; 0; 0; 2] ++ be_bytes 4 n ++ concat (map enc_entry l) ++ bad ++ post) sp kp k (h, m) = KRet ((x, false, q), (h', m')) /\ one_buffer_left h h'.
Proof.
  intros HA HE Hh Hm Hn Hl Hf Hp Hr Hb. apply enough_full in HE. set (data := magic ++ _). assert (Lm : length magic = 4%nat) by (destruct Hm as [-> | ->]; reflexivity).
  destruct (entries_stop data bad post kp (je_malloc e heap0) k' l (N.to_nat n) 12 (magic ++ [0; 0; 0; 2] ++ be_bytes 4 n) k keys certs (ks_new heap0 (je_malloc e heap0) 0 0) [] []) as [s' E];
    [unfold data; rewrite <- !app_assoc; reflexivity|rewrite !app_length, be_bytes_length, Lm; reflexivity|exact Hf|exact Hr|exact Hb|lia|apply holds_new|].
  assert (T : tri 0 False False (h_parseJKS malloc e data sp kp k) h (fun '(_, r, _) F' => r = false /\ exists d, F' = (d, KTemp) :: h)).
  { apply (jks_refused_tri malloc HA 0 HE e He data sp s16 kp heap0 k h magic n s').
    - apply (slice_at _ _ _ [] magic ([0; 0; 0; 2] ++ be_bytes 4 n ++ concat (map enc_entry l) ++ bad ++ post)); [reflexivity|reflexivity|rewrite Lm; reflexivity].
    - exact Hm.
    - apply (read32_at _ _ (magic ++ [0; 0; 0; 2]) n (concat (map enc_entry l) ++ bad ++ post)); [exact Hn|unfold data; rewrite <- !app_assoc; reflexivity|rewrite app_length, Lm; reflexivity].
    - apply (slice_at _ _ _ magic [0; 0; 0; 2] (be_bytes 4 n ++ concat (map enc_entry l) ++ bad ++ post)); [reflexivity|rewrite Lm; reflexivity|reflexivity].
    - exact Hp.
    - exact E. }
  specialize (T m h (Nat.le_0_l m) Hh (Permutation_refl _)). destruct (h_parseJKS malloc e data sp kp k (h, m)) as [| |[[[x r] q] [h' m']]]; [contradiction..|].
  destruct T as [_ [_ [F' [P [-> [d ->]]]]]]. exists x, q, h', m'. split; [reflexivity|]. exists d. symmetry. exact P.
Qed.
End Jks.

(** ** KeyStoreFree *)
Lemma release q keys certs h h' n : kheap_ok h' -> store_added q keys certs h h' ->
  match h_ks_free (Some q) (h', n) with KRet (_, (h'', _)) => unchanged h h'' | _ => False end.
Proof.
  intros Hh [c [S1 P]]. assert (T : tri 0 (~ full (kmalloc (fun _ => true)) 0) False (h_ks_free (Some q)) (c ++ h) (fun _ F' => F' = h)) by (eapply ks_free_tri; exact S1).
  specialize (T n h' (Nat.le_0_l n) Hh (Permutation_sym P)). destruct (h_ks_free (Some q) (h', n)) as [| |[[] [h'' n'']]]; [|contradiction|].
  - apply T. intros i g _. discriminate.
  - destruct T as [_ [_ [F' [P' ->]]]]. symmetry. exact P'.
Qed.
