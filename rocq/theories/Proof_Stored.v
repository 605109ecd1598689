(** Proofs about keys in containers. *)
From Coq Require Import Lia ZArith Znumtheory.
From Verif Require Import Base Lib Model_Gost89 Model_Params Spec_Params Spec_Md
  Model_Gf2m Model_Compress Model_Ec Model_Curves Model_Sign Model_Asn1 Model_Pmeth Model_Key Model_Ameth Model_Evp
  Spec_Gf2m Spec_Compress Spec_Curves Spec_Asn1 Spec_Sign Spec_Pmeth Spec_Key Proof_Evp.
From Verif Require Import Spec_Gost89 Model_KeyStore Model_Utils Model_Utf16 Model_Jks Model_Key6 Model_Pkcs12 Spec_Keylib Spec_Pkcs12 Spec_Jks Spec_Key6 Spec_Stored.
From Verif Require Proof_Keylib Proof_Jks Proof_Key6 Proof_Pkcs12.

Section Stored.
Variables (d2i : list N -> option params) (d2o : list N -> option (list N)) (solve : N -> N -> option N).
Variables (nid : Z) (g : group) (t : Z) (sb : option (list N)) (fuel : nat) (d0 : option N) (q0 : option point) (src : source) (k : eckey).
Hypotheses (Hp : reads_params d2i) (Ho : reads_octets d2o) (Hg : group_from_nid nid = Some g) (Hs : good_solver (c_p (g_curve g)) solve)
  (Ht : key_type t) (Hsb : sbox_ok sb) (Hr : ranged (g_order g) src) (Hk : generate_key fuel (ECKEY (Some (Binary g)) d0 q0) src = Done k)
  (Hc : (nid <> 1160 /\ nid <> 1168)%Z \/ (forall P, ek_pub k = Some P -> has_compressed_form (g_curve g) P)).

Lemma life : exists info pub kd kv, priv_encode (PKEY t (Some (DKEY k sb))) = Ok info /\ pub_encode (PKEY t (Some (DKEY k sb))) = Ok pub /\
  priv_decode d2i solve info = Some kd /\ pub_decode d2i d2o solve pub = Some kv /\ signs_for d2o g kd kv.
Proof.
  destruct (message_lifetime d2i d2o solve nid g t sb fuel d0 q0 src k Hp Ho Hg Hs Ht Hsb Hr Hk Hc) as (info & pub & kd & kv & A & B & C & D & E).
  exists info, pub, kd, kv. split; [exact A|]. split; [exact B|]. split; [exact C|]. split; [exact D|].
  intros h h' c c' v v' x x' f ds ds' siglen src' len w H1 H2 H3 H4 H5 H6.
  exact (proj1 (E h h' c c' v v' x x' f ds ds' siglen src' len w H1 H2 H3 H4 H5 H6)).
Qed.

Lemma opens_der read obj der info attrs kd i rest : is_der read der info attrs -> priv_decode d2i solve info = Some kd ->
  opens d2i solve read obj (der ++ rest) i -> exists p a, i = Some p /\ p8_attrs p = attrs /\ p8_pkey p = Some a /\ obj a = kd.
Proof.
  intros Hd Hkd. unfold opens. rewrite (Hd rest), Hkd. intros (p & A & B & a & C & D). exists p, a. auto.
Qed.

Lemma stored_key6 : exists info pub kv, priv_encode (PKEY t (Some (DKEY k sb))) = Ok info /\ pub_encode (PKEY t (Some (DKEY k sb))) = Ok pub /\
  pub_decode d2i d2o solve pub = Some kv /\
  forall read obj der attrs, is_der read der info attrs -> attrs_bytes attrs ->
  forall spec grp (e : attr_env spec grp) p8 malloc r mac data pad password padding b h ks, (forall u, opens d2i solve read obj (der ++ u) (p8 (der ++ u))) -> malloc_ok malloc ->
    bytes password -> hashable (length password) -> mask_wf (k6_mask r) -> bytes (der ++ padding) -> length (der ++ padding) = (8 * b)%nat ->
    data ++ match pad with None => [] | Some p => p end = key6_encrypt (key6_key password) (der ++ padding) -> apart r (length (der ++ padding)) ->
  exists h' st a others, parseKey6 e p8 malloc r (Some (key6_store mac data pad)) password h ks = Some (h', true, Some st) /\
    shows h' st Keys (a :: others) /\ shows h' st Certs [] /\ signs_for d2o g (obj a) kv.
Proof.
  destruct life as (info & pub & kd & kv & A & B & C & D & E). exists info, pub, kv. split; [exact A|]. split; [exact B|]. split; [exact D|].
  intros read obj der attrs Hd Hab spec grp e p8 malloc r mac data pad password padding b h ks Hop Hm Hpw Hh Hmk Hby Hl Hct Hap.
  destruct (Proof_Key6.parse_plain e p8 malloc r mac data pad password (der ++ padding) b h ks Hpw Hh Hmk Hby Hl Hct Hap) as (slack & _ & _ & ->).
  rewrite <- app_assoc. destruct (opens_der read obj der info attrs kd _ (padding ++ slack) Hd C (Hop _)) as (p & a & Ep & Ea & Ek & Eo). rewrite Ep.
  pose proof (Proof_Keylib.keysFromPKCS8_api e malloc h p ks Hm) as K. rewrite Ea in K. specialize (K Hab). rewrite Ek in K.
  destruct K as (h' & st & second & K1 & _ & K2 & K3 & _). exists h', st, a, second. split; [exact K1|]. split; [exact K2|]. split; [exact K3|].
  rewrite Eo. exact E.
Qed.

Lemma pass16_fun {spec grp} (e : jks_env spec grp) p a b : password16 e p a -> password16 e p b -> a = b.
Proof. intros (cs & E & _ & ->) (cs' & E' & _ & ->). congruence. Qed.
Lemma stored_in {spec grp} (e : jks_env spec grp) read obj der info attrs kd : env_ok e -> (forall j u, opens d2i solve read obj (der ++ u) (je_p8 e j (der ++ u))) ->
  is_der read der info attrs -> priv_decode d2i solve info = Some kd ->
  forall keyPass k0 l keys certs k', entries_read e keyPass k0 l keys certs k' ->
  forall alias stamp blob chain key16 salt padding, In (KeyEntry alias stamp blob chain) l -> password16 e keyPass key16 -> length salt = 20%nat ->
    je_sig e blob = Some (keyProtectorOID, protect (je_sha1 e) key16 salt (der ++ padding)) -> exists a, In a keys /\ obj a = kd.
Proof.
  intros He Hop Hd Hkd keyPass k0 l keys certs k' H. induction H as [|k0 x l ks cs k1 ks' cs' k2 Hx _ IH]; intros alias stamp blob chain key16 salt padding Hin Hpw Hsl Hsig; [contradiction|].
  destruct Hin as [->|Hin].
  - inversion Hx as [? ? ? ? ? pwd16 salt' plain i ? ? Hpw' Hsig' Hsl' Hp8 Hko Hch|? ? ? ? ? pwd16 algo y ? Hpw' Hsig' Hn|]; subst.
    + rewrite Hsig in Hsig'. injection Hsig' as Hpr. rewrite (pass16_fun e keyPass pwd16 key16 Hpw' Hpw) in Hpr.
      pose proof (Proof_Jks.kp_decrypt_protect e (proj1 (proj2 He)) salt (der ++ padding) key16 Hsl) as P1.
      rewrite Hpr, (Proof_Jks.kp_decrypt_protect e (proj1 (proj2 He)) salt' plain key16 Hsl') in P1. injection P1 as ->.
      destruct (opens_der read obj der info attrs kd _ padding Hd Hkd (Hop k0 _)) as (p & a & Ep & _ & Ek & Eo).
      assert (p = i) as -> by congruence. destruct Hko as (k1' & second & E1 & -> & _). exists a. split; [|exact Eo].
      apply in_or_app. left. left. congruence.
    + rewrite Hsig in Hsig'. injection Hsig' as <- _. contradiction.
  - destruct (IH _ _ _ _ _ _ _ Hin Hpw Hsl Hsig) as (a & Ha & Eo). exists a. split; [apply in_or_app; right; exact Ha|exact Eo].
Qed.
Lemma stored_jks : exists info pub kv, priv_encode (PKEY t (Some (DKEY k sb))) = Ok info /\ pub_encode (PKEY t (Some (DKEY k sb))) = Ok pub /\
  pub_decode d2i d2o solve pub = Some kv /\
  forall read obj der attrs, is_der read der info attrs ->
  forall spec grp (e : jks_env spec grp) magic l post storagePass store16 keyPass k0 keys certs k' h ks, env_ok e -> (forall j u, opens d2i solve read obj (der ++ u) (je_p8 e j (der ++ u))) ->
    is_magic magic -> N.of_nat (length l) < 2 ^ 32 -> Forall entry_fits l -> password16 e storagePass store16 -> entries_read e keyPass k0 l keys certs k' ->
  exists h' st, parseJKS e (enc_store magic l ++ digest_of e store16 (enc_store magic l) ++ post) storagePass keyPass (h, k0) ks = Some ((h', k'), true, Some st) /\
    shows h' st Keys keys /\
    forall alias stamp blob chain key16 salt padding, In (KeyEntry alias stamp blob chain) l -> password16 e keyPass key16 -> length salt = 20%nat ->
      je_sig e blob = Some (keyProtectorOID, protect (je_sha1 e) key16 salt (der ++ padding)) -> exists a, In a keys /\ signs_for d2o g (obj a) kv.
Proof.
  destruct life as (info & pub & kd & kv & A & B & C & D & E). exists info, pub, kv. split; [exact A|]. split; [exact B|]. split; [exact D|].
  intros read obj der attrs Hd spec grp e magic l post storagePass store16 keyPass k0 keys certs k' h ks He Hop Hm Hl Hf Hpw Hread.
  destruct (Proof_Jks.jks_round_trip e He magic l post storagePass store16 keyPass k0 keys certs k' h ks Hm Hl Hf Hpw Hread) as (h' & st & K1 & K2 & _).
  exists h', st. split; [exact K1|]. split; [exact K2|]. intros alias stamp blob chain key16 salt padding Hin Hp16 Hsl Hsig.
  destruct (stored_in e read obj der info attrs kd He Hop Hd C keyPass k0 l keys certs k' Hread alias stamp blob chain key16 salt padding Hin Hp16 Hsl Hsig) as (a & Ha & <-).
  exists a. split; [exact Ha|exact E].
Qed.
Lemma stored_pkcs12 : exists info pub kv, priv_encode (PKEY t (Some (DKEY k sb))) = Ok info /\ pub_encode (PKEY t (Some (DKEY k sb))) = Ok pub /\
  pub_decode d2i d2o solve pub = Some kv /\
  forall obj m h p ks safes a, malloc_ok m -> p12_fresh h p -> readable p safes -> In (Keys, Some a) (items_of safes) -> Some (obj a) = priv_decode d2i solve info ->
  exists h' st l, parsePKCS12 m h p ks = Some (h', true, Some st) /\ shows h' st Keys l /\ In a l /\ signs_for d2o g (obj a) kv.
Proof.
  destruct life as (info & pub & kd & kv & A & B & C & D & E). exists info, pub, kv. split; [exact A|]. split; [exact B|]. split; [exact D|].
  intros obj m h p ks safes a Hm Hf Hrd Hin Hob. rewrite C in Hob. injection Hob as ->.
  destruct (Proof_Pkcs12.pkcs12_total m h p ks Hm Hf) as (h' & r & ks' & K1 & K2 & _ & K3 & _).
  destruct (K3 safes Hrd) as (st & -> & _ & S1 & _). assert (r = true) as -> by (apply K2; eauto).
  exists h', st, (objs Keys (items_of safes)). split; [exact K1|]. split; [exact S1|]. split; [|exact E].
  unfold objs. apply in_flat_map. exists (Keys, Some a). split; [exact Hin|]. cbn. auto.
Qed.
End Stored.
