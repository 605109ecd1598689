(** What the engine writes into PKCS#8 and public key structures is read back. *)
From Coq Require Import ZArith List Lia.
Import ListNotations.
From Verif Require Import Base Lib Model_Gost89 Model_Params Spec_Params Spec_Md
  Model_Gf2m Model_Compress Model_Ec Model_Curves Model_Sign Model_Asn1 Model_Pmeth Model_Key Model_Ameth Model_Evp
  Spec_Gf2m Spec_Compress Spec_Curves Spec_Asn1 Spec_Sign Spec_Pmeth Spec_Key.
From Verif Require Import Spec_Gost89 Model_KeyStore Model_Utils Model_Utf16 Model_Jks Model_Key6 Model_Pkcs12 Model_Iit Model_KeyFile Model_P8
  Spec_Keylib Spec_Pkcs12 Spec_Jks Spec_Key6 Spec_Stored Spec_Iit Spec_Ber Spec_KeyFile Spec_P8.
From Verif Require Import Proof_Asn1 Proof_Ber Proof_KeyFile Proof_P8.
From Verif Require Proof_Key Proof_Life Proof_Sign2 Proof_Stored.
Open Scope N_scope.

Lemma bytes_small n : n < 2 ^ 31 -> num_bytes n <= 4.
Proof.
  intros H. unfold num_bytes, num_bits. destruct (N.eq_dec n 0) as [->|Z0]; [cbn; lia|]. rewrite N.size_log2 by exact Z0.
  assert (N.log2 n < 31) by (apply N.log2_lt_pow2; lia). apply N.lt_succ_r. apply N.div_lt_upper_bound; lia.
Qed.
Lemma num_bytes_bound n : n < 256 ^ num_bytes n.
Proof.
  change 256 with (2 ^ 8). rewrite <- N.pow_mul_r. unfold num_bytes, num_bits. apply N.lt_le_trans with (2 ^ N.size n); [apply N.size_gt|].
  apply N.pow_le_mono_r; [lia|]. pose proof (N.div_mod (N.size n + 7) 8 ltac:(lia)). pose proof (N.mod_lt (N.size n + 7) 8 ltac:(lia)). lia.
Qed.
Lemma definite_der (c : list N) : N.of_nat (length c) < 2 ^ 31 -> definite true (length c) (der_len (N.of_nat (length c))).
Proof.
  intros H. unfold der_len. destruct (N.ltb_spec (N.of_nat (length c)) 128) as [L|L]; [left; split; [lia|reflexivity]|]. right.
  set (n := N.of_nat (length c)) in *. pose proof (bytes_small n H) as B. pose proof (num_bytes_bound n) as Hn.
  exists (be_bytes (N.to_nat (num_bytes n)) n). rewrite be_bytes_length, N2Nat.id. split; [reflexivity|].
  split; [|split; [lia|split; [apply be_bytes_bytes|split; [apply be_val_be_bytes; rewrite N2Nat.id; exact Hn|unfold n in L; lia]]]].
  intros E. apply (f_equal (@length N)) in E. rewrite be_bytes_length in E. cbn in E.
  assert (num_bytes n = 0) as Z0 by lia. rewrite Z0 in Hn. cbn in Hn. lia.
Qed.
Lemma prim_der tag c : In tag [2; 3; 4; 6] -> N.of_nat (length c) < 2 ^ 31 -> ber_primitive true tag c (tlv tag c).
Proof.
  intros Ht H. exists [tag], (der_len (N.of_nat (length c))). split; [|split; [apply definite_der, H|reflexivity]].
  exists tag, [], tag. cbn in Ht. destruct Ht as [<-|[<-|[<-|[<-|[]]]]]; repeat split; left; repeat split; discriminate.
Qed.
Lemma seq_id : identifier true (Some 16) true [48].
Proof. exists 48, [], 16. repeat split. left. repeat split. discriminate. Qed.
Lemma cons_der c : N.of_nat (length c) < 2 ^ 31 -> ber_constructed true (Some 16) c (tlv 0x30 c).
Proof. intros H. exists [48]. split; [exact seq_id|]. left. exists (der_len (N.of_nat (length c))). split; [apply definite_der, H|reflexivity]. Qed.
Lemma tlv_longer tag (c : list N) : (length c < length (tlv tag c))%nat.
Proof. unfold tlv. cbn [length]. rewrite app_length. lia. Qed.
Lemma octets_der c : N.of_nat (length c) < 2 ^ 31 -> ber_octets true c (enc_octets c).
Proof. intros H. destruct (prim_der 4 c ltac:(cbn; auto) H) as (id & l & I1 & D & E). unfold enc_octets. rewrite E. apply ber_prim; assumption. Qed.

(** The algorithm. *)
Definition key_ids (nid : Z) : list (list N) := [[0x2A]; [0x86; 0x24]; [2]; [1]; [1]; [1]; [1]; [3]; [1]; [1]] ++ if (nid =? NID_dstu4145le)%Z then [] else [[1]; [1]].
Lemma sub1 b : b < 128 -> subidentifier [b].
Proof. intros H. exists [], b. repeat split; [constructor|exact H|cbn; lia]. Qed.
Lemma ids_ok nid : Forall subidentifier (key_ids nid) /\ concat (key_ids nid) = key_oid nid.
Proof.
  assert (S2 : subidentifier [0x86; 0x24]) by (exists [0x86], 0x24; repeat split; [repeat constructor; discriminate|cbn; discriminate]).
  unfold key_ids, key_oid. destruct (nid =? NID_dstu4145le)%Z; (split; [|reflexivity]); cbn [app];
    repeat (apply Forall_cons; [first [exact S2|apply sub1; reflexivity]|]); constructor.
Qed.
Lemma key_type_named nid : is_dstu nid = true -> exists o, oid_says (key_oid nid) o /\ names_type o nid /\ oid_content (key_oid nid).
Proof.
  intros H. unfold is_dstu in H. apply orb_true_iff in H. destruct (ids_ok nid) as [S1 E].
  assert (OC : oid_content (key_oid nid)) by (exists (key_ids nid); split; [discriminate|]; split; [exact S1|symmetry; exact E]).
  destruct H as [H|H]; apply Z.eqb_eq in H; subst nid.
  - exists type_le. split; [|split; [left; split; reflexivity|exact OC]]. split; [repeat constructor|]. exists (key_ids NID_dstu4145le), 1, 2, [804; 2; 1; 1; 1; 1; 3; 1; 1].
    split; [exact S1|]. split; [symmetry; exact E|]. repeat split; try reflexivity; discriminate.
  - exists type_be. split; [|split; [right; left; split; reflexivity|exact OC]]. split; [repeat constructor|]. exists (key_ids NID_dstu4145be), 1, 2, [804; 2; 1; 1; 1; 1; 3; 1; 1; 1; 1].
    split; [exact S1|]. split; [symmetry; exact E|]. repeat split; try reflexivity; discriminate.
Qed.
Lemma algor_der nid p : is_dstu nid = true -> N.of_nat (length (enc_algor (ALGOR nid (Some (enc_params p))))) < 2 ^ 31 ->
  exists o, names_type o nid /\ ber_algor true o (Some (enc_params p)) (enc_algor (ALGOR nid (Some (enc_params p)))).
Proof.
  intros T L. destruct (key_type_named nid T) as (o & O1 & O2 & O3). exists o. split; [exact O2|]. unfold enc_algor in *. cbn [al_nid al_params] in *.
  set (c := enc_oid (key_oid nid) ++ enc_params p) in *. pose proof (tlv_longer 0x30 c). assert (Lc : N.of_nat (length c) < 2 ^ 31) by lia.
  assert (Lp : N.of_nat (length (enc_params p)) < 2 ^ 31) by (unfold c in Lc; rewrite app_length in Lc; lia).
  exists (key_oid nid), (enc_oid (key_oid nid)), [enc_params p]. split; [exact O1|]. split.
  { split; [exact O3|]. apply prim_der; [cbn; auto|]. unfold key_oid. destruct (_ =? _)%Z; reflexivity. }
  split.
  - split; [reflexivity|]. unfold enc_params in *. set (d := enc_curvespec (ap_curve p) ++ _) in *. pose proof (tlv_longer 0x30 d).
    change (tlv 0x30 d) with ([48] ++ der_len (N.of_nat (length d)) ++ d). apply el_known; [exact seq_id|]. apply definite_der. lia.
  - unfold ber_sequence. cbn [concat]. rewrite app_nil_r. apply cons_der, Lc.
Qed.
Lemma int0_der : ber_integer true 0 (enc_int 0).
Proof. exists [0]. split; [|split; [reflexivity|apply prim_der; [cbn; auto|reflexivity]]]. split; [discriminate|]. intros b b' t [=]. Qed.

Lemma priv_shape pk i : priv_encode pk = Ok i -> exists nid p, is_dstu nid = true /\ ki_alg i = ALGOR nid (Some (enc_params p)).
Proof.
  unfold priv_encode. destruct (is_dstu (pk_type pk)) eqn:T; [|discriminate]. cbn [negb]. unfold param_encode. destruct (pk_key pk) as [key|]; [|discriminate].
  destruct (asn1_from_key key _) as [| |p]; cbn [bind]; try discriminate. destruct (ek_priv (dk_ec key)) as [d|]; [|discriminate]. destruct (d =? 0); [discriminate|].
  intros [= <-]. exists (pk_type pk), p. split; [exact T|reflexivity].
Qed.
Lemma priv_der pk i : priv_encode pk = Ok i -> N.of_nat (length (enc_p8 i)) < 2 ^ 31 -> ber_p8 true i [] (enc_p8 i).
Proof.
  intros E L. destruct (priv_shape pk i E) as (nid & p & T & Ea). unfold enc_p8 in *. set (c := enc_int 0 ++ enc_algor (ki_alg i) ++ enc_octets (ki_key i)) in *.
  pose proof (tlv_longer 0x30 c). assert (Lc : N.of_nat (length c) < 2 ^ 31) by lia. pose proof (tlv_longer 4 (ki_key i)).
  assert (La : N.of_nat (length (enc_algor (ki_alg i))) < 2 ^ 31 /\ N.of_nat (length (ki_key i)) < 2 ^ 31) by (unfold c in Lc; rewrite !app_length in Lc; unfold enc_octets in Lc; lia).
  destruct La as [La Lk]. rewrite Ea in La. destruct (algor_der nid p T La) as (o & O1 & O2).
  exists 0%Z, (enc_int 0), o, (enc_algor (ki_alg i)), (enc_octets (ki_key i)), [], [], []. rewrite Ea. cbn [al_nid al_params].
  split; [exact int0_der|]. split; [exact O1|]. split; [exact O2|]. split; [apply octets_der, Lk|]. split; [reflexivity|]. split; [constructor|]. split; [left; split; reflexivity|].
  unfold ber_sequence. rewrite <- Ea. replace (concat _) with c by (unfold c; cbn [concat]; rewrite app_nil_r; reflexivity). apply cons_der, Lc.
Qed.
Lemma written_priv pk i t : priv_encode pk = Ok i -> N.of_nat (length (enc_p8 i)) < 2 ^ 31 -> d2i_p8 (enc_p8 i ++ t) = Some (i, []).
Proof. intros E L. apply d2i_p8_complete; [exact (priv_der pk i E L)|exact L]. Qed.

Lemma bytes_app_i (l r : list N) : bytes l -> bytes r -> bytes (l ++ r).
Proof. intros A B. apply Forall_app. split; assumption. Qed.
Lemma der_len_bytes n : n < 2 ^ 31 -> bytes (der_len n).
Proof. intros H. unfold der_len. destruct (N.ltb_spec n 128); [apply Forall_cons; [unfold is_byte; lia|constructor]|]. apply Forall_cons; [pose proof (bytes_small n H); unfold is_byte; lia|apply be_bytes_bytes]. Qed.
Lemma pub_shape pk i : pub_encode pk = Ok i -> exists nid p g out, is_dstu nid = true /\ ki_alg i = ALGOR nid (Some (enc_params p)) /\ ki_key i = enc_octets out /\ bytes out /\
  N.of_nat (length out) = field_size (g_curve g) /\ exists key, pk_key pk = Some key /\ ek_group (dk_ec key) = Some (Binary g).
Proof.
  unfold pub_encode. destruct (is_dstu (pk_type pk)) eqn:T; [|discriminate]. cbn [negb]. unfold param_encode. destruct (pk_key pk) as [key|]; [|discriminate].
  destruct (asn1_from_key key _) as [| |p]; cbn [bind]; try discriminate. destruct (ek_group (dk_ec key)) as [[g|]|] eqn:G; try discriminate. destruct (ek_pub (dk_ec key)) as [Q|]; [|discriminate].
  cbv zeta. destruct (field_size (g_curve g) =? 0); [discriminate|]. destruct (compress _ Q _) as [out|] eqn:C; [|discriminate]. apply Proof_Key.compress_bytes in C. destruct C as [B L].
  intros [= <-]. exists (pk_type pk), p, g, (if is_le (pk_type pk) then rev out else out). split; [exact T|]. split; [reflexivity|]. split; [reflexivity|].
  split; [destruct (is_le _); [apply Forall_rev|]; exact B|]. split; [|exists key; split; [reflexivity|exact G]]. destruct (is_le _); rewrite ?rev_length, L, N2Nat.id; reflexivity.
Qed.
Lemma pub_der pk i : pub_encode pk = Ok i -> N.of_nat (length (enc_pub i)) < 2 ^ 31 -> ber_pub true i (enc_pub i).
Proof.
  intros E L. destruct (pub_shape pk i E) as (nid & p & g & out & T & Ea & Ek & B & _). unfold enc_pub in *. set (c := enc_algor (ki_alg i) ++ tlv 3 (0 :: ki_key i)) in *.
  pose proof (tlv_longer 0x30 c). assert (Lc : N.of_nat (length c) < 2 ^ 31) by lia. pose proof (tlv_longer 3 (0 :: ki_key i)).
  assert (La : N.of_nat (length (enc_algor (ki_alg i))) < 2 ^ 31 /\ N.of_nat (length (0 :: ki_key i)) < 2 ^ 31) by (unfold c in Lc; rewrite !app_length in Lc; lia).
  destruct La as [La Lk]. rewrite Ea in La. destruct (algor_der nid p T La) as (o & O1 & O2).
  exists o, (enc_algor (ki_alg i)), (tlv 3 (0 :: ki_key i)). rewrite Ea. cbn [al_nid al_params]. split; [exact O1|]. split; [exact O2|]. split.
  - exists 0, (ki_key i). split; [|apply prim_der; [cbn; auto|exact Lk]]. split; [lia|].
    assert (Bk : bytes (ki_key i)).
    { rewrite Ek in *. unfold enc_octets, tlv in *. apply Forall_cons; [reflexivity|]. apply bytes_app_i; [|exact B]. apply der_len_bytes. cbn [length] in Lk. rewrite app_length in Lk. lia. }
    split; [exact Bk|]. right. assert (NE : ki_key i <> []) by (rewrite Ek; discriminate). destruct (exists_last NE) as (u & b & Eu). exists u, b. split; [exact Eu|].
    rewrite N.pow_0_r, N.mod_1_r, N.sub_0_r. exact Eu.
  - unfold ber_sequence. rewrite <- Ea. replace (concat _) with c by (unfold c; cbn [concat]; rewrite app_nil_r; reflexivity). apply cons_der, Lc.
Qed.
Lemma written_pub pk i t : pub_encode pk = Ok i -> N.of_nat (length (enc_pub i)) < 2 ^ 31 -> d2i_pub (enc_pub i ++ t) = Some i.
Proof. intros E L. apply d2i_pub_complete; [exact (pub_der pk i E L)|exact L]. Qed.

(** Keys on the standard curves are short. *)
Lemma tlv_short tag (c : list N) m : N.of_nat (length c) <= m -> m < 2 ^ 31 -> N.of_nat (length (tlv tag c)) <= m + 6.
Proof. intros H M. rewrite tlv_length. unfold object_size. destruct (_ <? 128); [lia|]. pose proof (bytes_small (N.of_nat (length c)) ltac:(lia)). lia. Qed.
Lemma params_short key le p g : ek_group (dk_ec key) = Some (Binary g) -> curve_nid_from_group g <> 0%Z -> sbox_ok (dk_sbox key) -> asn1_from_key key le = Ok p -> N.of_nat (length (enc_params p)) <= 200.
Proof.
  intros G NI SB E. unfold asn1_from_key in E. rewrite G in E. cbv zeta in E. destruct (Z.eqb_spec (curve_nid_from_group g) 0) as [Z0|_]; [contradiction|].
  destruct (curve_nid2obj _) as [o|] eqn:Eo; [|discriminate]. injection E as <-. unfold curve_nid2obj in Eo. destruct (_ && _)%bool; [|discriminate]. injection Eo as <-.
  unfold enc_params. cbn [ap_curve ap_sbox enc_curvespec]. eapply N.le_trans; [apply (tlv_short _ _ 130); [|lia]|lia].
  rewrite app_length, Nat2N.inj_add. apply (N.le_trans _ (19 + 70)); [|lia]. apply N.add_le_mono.
  - apply (tlv_short 6 _ 13); [|lia]. cbn. lia.
  - destruct (dk_sbox key) as [s|]; [|cbn; lia]. destruct (is_default_sbox s); [cbn; lia|]. destruct SB as [_ Ls]. apply (tlv_short 4 s 64); [|lia]. rewrite Ls. lia.
Qed.
Lemma algor_short nid (prm : list N) : N.of_nat (length prm) <= 200 -> N.of_nat (length (enc_algor (ALGOR nid (Some prm)))) <= 300.
Proof.
  intros H. unfold enc_algor. cbn [al_nid al_params]. eapply N.le_trans; [apply (tlv_short _ _ 220); [|lia]|lia].
  rewrite app_length, Nat2N.inj_add. apply (N.le_trans _ (19 + 200)); [|lia]. apply N.add_le_mono; [|exact H]. apply (tlv_short 6 _ 13); [|lia]. unfold key_oid. destruct (_ =? _)%Z; cbn; lia.
Qed.
Lemma priv_short t key g i m : ek_group (dk_ec key) = Some (Binary g) -> curve_nid_from_group g <> 0%Z -> sbox_ok (dk_sbox key) -> priv_encode (PKEY t (Some key)) = Ok i ->
  (forall d, ek_priv (dk_ec key) = Some d -> num_bytes d <= m) -> m <= 2 ^ 30 -> N.of_nat (length (enc_p8 i)) < 2 ^ 31.
Proof.
  intros G NI SB E Hd Hm. unfold priv_encode in E. cbn [pk_type pk_key] in E. destruct (negb (is_dstu t)); [discriminate|]. unfold param_encode in E. cbn [pk_type pk_key] in E.
  destruct (asn1_from_key key (is_le t)) as [| |p] eqn:Ep; cbn [bind] in E; try discriminate. destruct (ek_priv (dk_ec key)) as [d|]; [|discriminate]. destruct (d =? 0); [discriminate|]. injection E as <-.
  specialize (Hd d eq_refl). pose proof (params_short key _ p g G NI SB Ep) as Lp. pose proof (algor_short t _ Lp) as La. unfold enc_p8. cbn [ki_alg ki_key].
  apply N.le_lt_trans with ((m + 400) + 6); [|lia]. apply tlv_short; [|lia]. rewrite !app_length, !Nat2N.inj_add.
  assert (Lk : N.of_nat (length (enc_octets (rev (be_bytes (N.to_nat (num_bytes d)) d)))) <= m + 6) by (apply tlv_short; [rewrite rev_length, be_bytes_length; lia|lia]).
  change (N.of_nat (length (enc_int 0))) with 3. lia.
Qed.
Lemma pub_short t key g i : ek_group (dk_ec key) = Some (Binary g) -> curve_nid_from_group g <> 0%Z -> sbox_ok (dk_sbox key) -> pub_encode (PKEY t (Some key)) = Ok i ->
  degree (c_p (g_curve g)) < 2 ^ 30 -> N.of_nat (length (enc_pub i)) < 2 ^ 31.
Proof.
  intros G NI SB E Hd. destruct (pub_shape _ _ E) as (nid & p' & g' & out & _ & _ & Ek & _ & Lo & key' & [= <-] & G'). rewrite G in G'. injection G' as <-.
  unfold pub_encode in E. cbn [pk_type pk_key] in E. destruct (negb (is_dstu t)); [discriminate|]. unfold param_encode in E. cbn [pk_type pk_key] in E.
  destruct (asn1_from_key key (is_le t)) as [| |p] eqn:Ep; cbn [bind] in E; try discriminate. rewrite G in E. destruct (ek_pub (dk_ec key)) as [Q|]; [|discriminate].
  cbv zeta in E. destruct (field_size (g_curve g) =? 0); [discriminate|]. destruct (compress _ Q _) as [o|]; [|discriminate].
  assert (Ea : ki_alg i = ALGOR t (Some (enc_params p))) by (injection E as <-; reflexivity). clear E.
  pose proof (params_short key _ p g G NI SB Ep) as Lp. pose proof (algor_short t _ Lp) as La. unfold enc_pub. rewrite Ea, Ek. clear Ea Ek.
  assert (F : field_size (g_curve g) <= 2 ^ 30) by (unfold field_size; apply N.lt_succ_r, N.div_lt_upper_bound; lia).
  apply N.le_lt_trans with ((2 ^ 30 + 400) + 6); [|lia]. apply tlv_short; [|lia]. rewrite !app_length, !Nat2N.inj_add.
  assert (Lk : N.of_nat (length (tlv 3 (0 :: enc_octets out))) <= (2 ^ 30 + 7) + 6).
  { apply tlv_short; [|lia]. cbn [length]. rewrite Nat2N.inj_succ. assert (N.of_nat (length (enc_octets out)) <= 2 ^ 30 + 6) by (apply tlv_short; [rewrite Lo; exact F|lia]). lia. }
  lia.
Qed.

(** The life of a key in bytes. *)
Section Bytes.
Variables (solve : N -> N -> option N).
Variables (nid : Z) (g : group) (t : Z) (sb : option (list N)) (fuel : nat) (d0 : option N) (q0 : option point) (src : source) (k : eckey).
Hypotheses (Hg : group_from_nid nid = Some g) (Hs : good_solver (c_p (g_curve g)) solve)
  (Ht : key_type t) (Hsb : sbox_ok sb) (Hr : ranged (g_order g) src) (Hk : generate_key fuel (ECKEY (Some (Binary g)) d0 q0) src = Done k)
  (Hc : (nid <> 1160 /\ nid <> 1168)%Z \/ (forall P, ek_pub k = Some P -> has_compressed_form (g_curve g) P)).
Let hp : reads_params d2i_params := d2i_params_reads.
Let ho : reads_octets d2i_octets := d2i_octets_reads.

Lemma sizes info pub : priv_encode (PKEY t (Some (DKEY k sb))) = Ok info -> pub_encode (PKEY t (Some (DKEY k sb))) = Ok pub ->
  N.of_nat (length (enc_p8 info)) < 2 ^ 31 /\ N.of_nat (length (enc_pub pub)) < 2 ^ 31.
Proof.
  intros E1 E2. destruct (Proof_Life.nid_facts nid g Hg) as (W & AG & CO & NB & NI & P). destruct (Proof_Sign2.generate_pair fuel g d0 q0 src k W Hr Hk) as (d & Q & Ek & L & K). subst k. split.
  - apply (priv_short t (DKEY (ECKEY (Some (Binary g)) (Some d) (Some Q)) sb) g info (num_bytes (g_order g))); [reflexivity|exact NI|exact Hsb|exact E1| |lia].
    cbn [dk_ec ek_priv]. intros d' [= <-]. unfold num_bytes. apply N.div_le_mono; [lia|]. unfold num_bits.
    assert (N.size d <= N.size (g_order g)); [|lia]. destruct (N.eq_dec d 0) as [->|]; [apply N.le_0_l|]. rewrite !N.size_log2 by lia. pose proof (N.log2_le_mono d (g_order g) ltac:(lia)). lia.
  - apply (pub_short t (DKEY (ECKEY (Some (Binary g)) (Some d) (Some Q)) sb) g pub); [reflexivity|exact NI|exact Hsb|exact E2|]. destruct AG as (_ & _ & _ & D). exact D.
Qed.
Lemma life_bytes : exists info pub, priv_encode (PKEY t (Some (DKEY k sb))) = Ok info /\ pub_encode (PKEY t (Some (DKEY k sb))) = Ok pub /\
  forall r r', exists kd kv, d2i_p8 (enc_p8 info ++ r) = Some (info, []) /\ d2i_pub (enc_pub pub ++ r') = Some pub /\
    priv_decode d2i_params solve info = Some kd /\ pub_decode d2i_params d2i_octets solve pub = Some kv /\ signs_for d2i_octets g kd kv.
Proof.
  destruct (Proof_Stored.life d2i_params d2i_octets solve nid g t sb fuel d0 q0 src k hp ho Hg Hs Ht Hsb Hr Hk Hc) as (info & pub & kd & kv & A & B & C & D & E).
  destruct (sizes info pub A B) as [L1 L2]. exists info, pub. split; [exact A|]. split; [exact B|]. intros r r'. exists kd, kv.
  split; [exact (written_priv _ _ r A L1)|]. split; [exact (written_pub _ _ r' B L2)|]. auto.
Qed.
Lemma life_key6 : exists info pub kv, priv_encode (PKEY t (Some (DKEY k sb))) = Ok info /\ pub_encode (PKEY t (Some (DKEY k sb))) = Ok pub /\
  d2i_pub (enc_pub pub) = Some pub /\ pub_decode d2i_params d2i_octets solve pub = Some kv /\
  forall obj der attrs, ber_p8 true info attrs der -> N.of_nat (length der) < 2 ^ 31 -> attrs_bytes attrs ->
  forall spec grp (e : attr_env spec grp) p8 malloc r mac data pad password padding b file rest h ks, (forall u, opens d2i_params solve d2i_p8 obj (der ++ u) (p8 (der ++ u))) -> malloc_ok malloc ->
    bytes password -> hashable (length password) -> mask_wf (k6_mask r) -> bytes (der ++ padding) -> length (der ++ padding) = (8 * b)%nat ->
    data ++ match pad with None => [] | Some p => p end = key6_encrypt (key6_key password) (der ++ padding) -> apart r (length (der ++ padding)) ->
    ber_iit true key6_type mac pad data file -> N.of_nat (length file) < 2 ^ 31 ->
  exists h' st a others, parseKey6 e p8 malloc r (d2i_IITStore (file ++ rest)) password h ks = Some (h', true, Some st) /\
    shows h' st Keys (a :: others) /\ shows h' st Certs [] /\ signs_for d2i_octets g (obj a) kv.
Proof.
  destruct (Proof_Stored.stored_key6 d2i_params d2i_octets solve nid g t sb fuel d0 q0 src k hp ho Hg Hs Ht Hsb Hr Hk Hc) as (info & pub & kv & A & B & D & E).
  destruct (sizes info pub A B) as [_ L2]. exists info, pub, kv. split; [exact A|]. split; [exact B|].
  split; [rewrite <- (app_nil_r (enc_pub pub)); exact (written_pub _ _ [] B L2)|]. split; [exact D|].
  intros obj der attrs Hd Hl Hab spec grp e p8 malloc r mac data pad password padding b file rest h ks Hop Hm Hpw Hh Hmk Hby Hlen Hct Hap Hf Hfl.
  rewrite (iit_complete _ _ _ _ _ rest Hf Hfl).
  exact (E d2i_p8 obj der attrs (fun u => d2i_p8_complete _ _ _ u Hd Hl) Hab spec grp e p8 malloc r mac data pad password padding b h ks Hop Hm Hpw Hh Hmk Hby Hlen Hct Hap).
Qed.
Lemma life_jks : exists info pub kv, priv_encode (PKEY t (Some (DKEY k sb))) = Ok info /\ pub_encode (PKEY t (Some (DKEY k sb))) = Ok pub /\
  d2i_pub (enc_pub pub) = Some pub /\ pub_decode d2i_params d2i_octets solve pub = Some kv /\
  forall obj der attrs, ber_p8 true info attrs der -> N.of_nat (length der) < 2 ^ 31 ->
  forall spec grp (e : jks_env spec grp) magic l post storagePass store16 keyPass k0 keys certs k' h ks, env_ok e -> (forall j u, opens d2i_params solve d2i_p8 obj (der ++ u) (je_p8 e j (der ++ u))) ->
    (forall x, je_sig e x = d2i_sig x) ->
    is_magic magic -> N.of_nat (length l) < 2 ^ 32 -> Forall entry_fits l -> password16 e storagePass store16 -> entries_read e keyPass k0 l keys certs k' ->
  exists h' st, parseJKS e (enc_store magic l ++ digest_of e store16 (enc_store magic l) ++ post) storagePass keyPass (h, k0) ks = Some ((h', k'), true, Some st) /\
    shows h' st Keys keys /\
    forall alias stamp blob rest chain key16 salt padding, In (KeyEntry alias stamp (blob ++ rest) chain) l -> password16 e keyPass key16 -> length salt = 20%nat ->
      ber_sig true keyProtectorOID (protect (je_sha1 e) key16 salt (der ++ padding)) blob -> N.of_nat (length blob) < 2 ^ 31 -> exists a, In a keys /\ signs_for d2i_octets g (obj a) kv.
Proof.
  destruct (Proof_Stored.stored_jks d2i_params d2i_octets solve nid g t sb fuel d0 q0 src k hp ho Hg Hs Ht Hsb Hr Hk Hc) as (info & pub & kv & A & B & D & E).
  destruct (sizes info pub A B) as [_ L2]. exists info, pub, kv. split; [exact A|]. split; [exact B|].
  split; [rewrite <- (app_nil_r (enc_pub pub)); exact (written_pub _ _ [] B L2)|]. split; [exact D|].
  intros obj der attrs Hd Hl spec grp e magic l post storagePass store16 keyPass k0 keys certs k' h ks He Hop Hsig Hma Hll Hfit Hp16 Her.
  destruct (E d2i_p8 obj der attrs (fun u => d2i_p8_complete _ _ _ u Hd Hl) spec grp e magic l post storagePass store16 keyPass k0 keys certs k' h ks He Hop Hma Hll Hfit Hp16 Her) as (h' & st & R1 & R2 & R3).
  exists h', st. split; [exact R1|]. split; [exact R2|]. intros alias stamp blob rest chain key16 salt padding Hin Hk16 Hsl Hb Hbl.
  apply (R3 alias stamp (blob ++ rest) chain key16 salt padding Hin Hk16 Hsl). rewrite Hsig. apply d2i_sig_complete; assumption.
Qed.
End Bytes.
