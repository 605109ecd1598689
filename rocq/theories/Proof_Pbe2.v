(** Sessions of HMAC, and PBES2 with the cipher of the engine. *)
From Coq Require Import ZArith List Lia.
Import ListNotations.
From Verif Require Import Base Lib Model_Gost89 Spec_Gost89 Model_Params Spec_Params Model_Cipher Spec_Cipher Spec_CipherHist Model_Hash Spec_Hash Spec_Md Model_Pbe Spec_Pbe Proof_Md Proof_Key6 Proof_Pbe.
From Verif Require Proof_Gost89.
From Verif Require Import Proof_Params Proof_CipherApi Proof_CipherHist.
From Verif Require Import Proof_Md Proof_Pbe.
Open Scope N_scope.

Lemma after_inv os : forall a st st' outs, inv a st -> legal a os -> md_run st os = Some (st', outs) -> inv (fold_left (fun a o => fst (spec_op a o)) os a) st'.
Proof.
  induction os as [|o os IH]; intros a st st' outs Hi Hl E; [injection E as <- _; exact Hi|].
  destruct Hl as [L1 L2]. cbn [md_run] in E. destruct (sim a st o Hi L1) as (s1 & E1 & H1). rewrite E1 in E. cbn [fold_left].
  destruct (md_run s1 os) as [[s2 o2]|] eqn:E2; [|discriminate]. injection E as <- _. eapply IH; eassumption.
Qed.
Lemma empty_inv : inv no_slots md_empty.
Proof. intros p. split; reflexivity. Qed.
Lemma intact mine os b st : same_but mine (after os) b -> inv b st -> others_intact mine os st.
Proof.
  intros S Hi p sb m Hp E. rewrite <- (S p Hp) in E. destruct (sim b st (MFinal p) Hi) as (st1 & E1 & _); [cbn; rewrite E; exact I|]. cbn [md_step spec_op fst snd] in E1. rewrite E in E1.
  destruct (md_final st p) as [[s d]|]; [|discriminate]. injection E1 as -> ->. eauto.
Qed.
Lemma same_sset l a b p v : In p l -> same_but l a b -> same_but l a (sset b p v).
Proof. intros Hp S q Hq. rewrite sset_other by (intros ->; auto). apply S, Hq. Qed.
Lemma messages_ok x K ms : apart3 x -> bytes K -> Forall (Forall bytes) ms -> Forall (fun m => hashable (32 + length (concat m))) ms -> forall a st, inv a st -> keyed a x K -> a (hm_md x) = Active default_sbox (ipad K) ->
  exists st' b, hmac_messages st x ms = Some (st', map (fun m => hmac_dstu K (concat m)) ms) /\ inv b st' /\ same_but (cells3 x) a b.
Proof.
  intros D B. induction ms as [|m ms IH]; intros Bm Lm a st Hi Hk Hm.
  - exists st, a. split; [reflexivity|]. split; [exact Hi|intros q _; reflexivity].
  - inversion Bm as [|? ? B1 B2]; subst. inversion Lm as [|? ? L1 L2]; subst. pose proof D as D'. unfold apart3 in D. inversion D as [|? ? D1 D2]; subst.
    assert (N1 : hm_md x <> hm_i x) by (intros X; apply D1; left; auto). assert (N2 : hm_md x <> hm_o x) by (intros X; apply D1; right; left; auto).
    destruct (pad_bytesn K 0x36 ltac:(reflexivity) B) as [_ Li]. fold (ipad K) in Li. destruct Hk as [Ki Ko].
    cbn [hmac_messages map]. destruct (hmac_updates_ok x m a st (ipad K) Hi Hm B1) as (st1 & -> & H1); [rewrite app_length, Li; exact L1|].
    destruct (hmac_final_ok _ st1 x K (concat m) H1 D' B) as (st2 & -> & H2); [rewrite sset_other by congruence; exact Ko|apply sset_same|].
    unfold hmac_again. destruct (copy_ok _ st2 (hm_md x) (hm_i x) default_sbox (ipad K) H2) as (st3 & -> & H3); [rewrite !sset_other by congruence; exact Ki|exact N1|].
    destruct (IH B2 L2 _ st3 H3) as (st4 & b & -> & H4 & S4); [split; rewrite !sset_other by congruence; assumption|apply sset_same|].
    exists st4, b. split; [reflexivity|]. split; [exact H4|]. eapply same_but_trans; [|exact S4]. apply same_sset; [left; reflexivity|]. apply same_sset; [left; reflexivity|]. apply same_sset; [left; reflexivity|]. intros q _. reflexivity.
Qed.
Lemma session_ok os st outs x K ms : legal no_slots os -> md_run md_empty os = Some (st, outs) -> apart3 x -> bytes K -> hashable (length K) -> Forall (Forall bytes) ms -> Forall (fun m => hashable (32 + length (concat m))) ms ->
  exists st', hmac_session st x K ms = Some (st', map (fun m => hmac_dstu K (concat m)) ms) /\ others_intact (cells3 x) os st'.
Proof.
  intros Hl E D B L Bm Lm. pose proof (after_inv os _ _ _ _ empty_inv Hl E) as Hi. fold (after os) in Hi. unfold hmac_session.
  destruct (hmac_init_ok _ st x K Hi D B L) as (st1 & b1 & -> & H1 & K1 & M1 & S1). destruct (messages_ok x K ms D B Bm Lm b1 st1 H1 K1 M1) as (st2 & b2 & E2 & H2 & S2).
  exists st2. split; [exact E2|]. eapply intact; [|exact H2]. eapply same_but_trans; eassumption.
Qed.
Lemma free_ok a st p : inv a st -> inv (sset a p Absent) (md_free st p).
Proof. intros Hi. destruct (sim a st (MFree p) Hi I) as (st1 & E1 & H1). cbn [md_step spec_op fst snd] in E1, H1. injection E1 as <-. exact H1. Qed.
Lemma frees_ok mine l : incl l mine -> forall a0 a st, same_but mine a0 a -> inv a st -> exists b, inv b (fold_left md_free l st) /\ same_but mine a0 b.
Proof.
  induction l as [|p l IH]; intros Hl a0 a st S Hi; [exists a; auto|]. cbn [fold_left]. apply (IH (fun q Hq => Hl q (or_intror Hq)) a0 (sset a p Absent)); [|apply free_ok, Hi].
  apply same_sset; [apply Hl; left; reflexivity|exact S].
Qed.
Lemma same_incl l l' a b : incl l l' -> same_but l a b -> same_but l' a b.
Proof. intros H S q Hq. apply S. auto. Qed.
Lemma pbkdf2_full a st x tpl P S c n : inv a st -> NoDup (cells3 x ++ cells3 tpl) -> bytes P -> hashable (length P) -> bytes S -> hashable (36 + length S) -> N.of_nat n < 2 ^ 31 ->
  exists st' b, pbkdf2_hmac st x tpl P S c n = Some (st', pbkdf2_dstu P S c n) /\ inv b st' /\ same_but (cells3 x ++ cells3 tpl) a b.
Proof.
  intros Hi D B L BS LS Hn. unfold pbkdf2_hmac.
  assert (Dt : apart3 tpl) by (clear - D; unfold apart3; fold (cells3 tpl); induction (cells3 x) as [|y l IH]; [exact D|]; cbn [app] in D; inversion D; auto).
  destruct (hmac_init_ok a st tpl P Hi Dt B L) as (st1 & b1 & -> & H1 & K1 & M1 & S1).
  destruct (blocks_ok x tpl P S c D B BS LS n n 1 b1 st1) as (st2 & b2 & -> & H2 & S2); [lia|change (2 ^ 32) with 4294967296; change (2 ^ 31) with 2147483648 in Hn; lia|exact H1|split; assumption|].
  destruct (frees_ok (cells3 x ++ cells3 tpl) [hm_i x; hm_o x; hm_md x; hm_i tpl; hm_o tpl; hm_md tpl]) with (a0 := a) (a := b2) (st := st2) as (b3 & H3 & S3).
  - intros q Hq. cbn in Hq |- *. tauto.
  - eapply same_but_trans; [eapply same_incl; [|exact S1]; intros q Hq; apply in_or_app; auto|eapply same_incl; [|exact S2]; intros q Hq; apply in_or_app; auto].
  - exact H2.
  - eexists _, b3. split; [|split; [exact H3|exact S3]]. do 2 apply f_equal. unfold pbkdf2_dstu, pbkdf2. rewrite <- seq_shift, map_map. replace (n + 32 - 1)%nat with (n + 31)%nat by lia. apply (f_equal (firstn n)), (f_equal (@concat N)), map_ext. intros k. apply (f_equal (F hmac_dstu P S c)). lia.
Qed.
Lemma pbkdf2_run os st outs x tpl P S c n : legal no_slots os -> md_run md_empty os = Some (st, outs) -> NoDup (cells3 x ++ cells3 tpl) -> bytes P -> hashable (length P) -> bytes S -> hashable (36 + length S) -> N.of_nat n < 2 ^ 31 ->
  exists st', pbkdf2_hmac st x tpl P S c n = Some (st', pbkdf2_dstu P S c n) /\ others_intact (cells3 x ++ cells3 tpl) os st'.
Proof.
  intros Hl E D B L BS LS Hn. pose proof (after_inv os _ _ _ _ empty_inv Hl E) as Hi. destruct (pbkdf2_full _ st x tpl P S c n Hi D B L BS LS Hn) as (st' & b & E1 & H1 & S1).
  exists st'. split; [exact E1|]. eapply intact; eassumption.
Qed.

(** ** PBES2 *)
Lemma set_ok rnd stale iv salt iter : bytesn 8 iv -> rows16 stale -> pbe2_set rnd stale iv salt iter = PBE2 (ASN1 V_ASN1_SEQUENCE (der_params iv default_sbox)) salt iter PrfDstu34311.
Proof.
  intros Hiv Hst. unfold pbe2_set. cbn [cipher_ctrl]. change (cipher_ctrl ?c EVP_CTRL_PBE_PRF_NID 0 (Some (zeros 4))) with (c, 1%Z, true). cbv iota beta. cbn [andb].
  change ((0 <? 1)%Z && true) with true. cbv iota. rewrite evp_init_v, fresh_dflt. f_equal. unfold set_asn1. cbn [c_oiv c_g]. rewrite get_sbox_api by (assumption || apply unpack_wf). rewrite pack_unpack by apply default64.
  unfold der_params, der. destruct Hiv as [_ Hiv]. rewrite app_length. cbn [length]. rewrite Hiv. reflexivity.
Qed.
Lemma one_update c d : update c d = (fst (fst (updates c [d])), hd 0%Z (snd (fst (updates c [d]))), snd (updates c [d])).
Proof. cbn [updates]. destruct (update c d) as [[c1 r] o]. cbn [fst snd hd]. rewrite app_nil_r. reflexivity. Qed.

Lemma F_bytes P S c i : bytes (F hmac_dstu P S c i).
Proof.
  unfold F. assert (X : forall l w, bytes w -> Forall bytes l -> bytes (fold_left xorl l w)).
  { induction l as [|y l IH]; intros w Hw Hl; [exact Hw|]. inversion Hl; subst. apply IH; [apply xorl_bytes|]; assumption. }
  apply X; [apply U_bytes|]. apply Forall_map, Forall_forall. intros j _. apply U_bytes.
Qed.
Lemma key_bytesn P S c : bytesn 32 (pbkdf2_dstu P S c 32).
Proof.
  unfold pbkdf2_dstu, pbkdf2. change ((32 + 32 - 1) / 32)%nat with 1%nat. cbn [seq map concat]. rewrite app_nil_r. split; [apply bytes_firstn, F_bytes|rewrite firstn_length_le; rewrite ?F_length; lia].
Qed.
Lemma crypt_ok a st x tpl pass salt iter r1 rnd iv sb enc data : inv a st -> NoDup (cells3 x ++ cells3 tpl) -> bytes pass -> hashable (length pass) -> bytes salt -> hashable (36 + length salt) ->
  mask_wf rnd -> bytesn 8 iv -> bytesn 64 sb -> bytes data -> data <> [] -> N.of_nat (length data) < 2 ^ 31 ->
  pbe2_crypt r1 rnd st x tpl (PBE2 (ASN1 V_ASN1_SEQUENCE (der_params iv sb)) salt iter PrfDstu34311) pass enc data =
  Some (Some (if (length data <? 8)%nat then xorl data (encrypt (packed_sbox sb) (zeros 32) iv) else cfb_stream enc (encrypt (packed_sbox default_sbox) (pbkdf2_dstu pass salt iter 32)) iv data)).
Proof.
  intros Hi D B L BS LS Hr Hiv Hsb Bd Nd Ld. unfold pbe2_crypt. cbn [pb_prf pb_scheme pb_salt pb_iter].
  destruct (pbkdf2_full a st x tpl pass salt iter 32 Hi D B L BS LS) as (st' & b & E & _); [reflexivity|].
  pose proof (key_bytesn pass salt iter) as Hk. revert E Hk. generalize (pbkdf2_dstu pass salt iter 32). intros k E Hk.
  assert (HP : pieces [data]) by (constructor; [auto|constructor]).
  assert (E2 : get_asn1 (evp_init r1 fresh_ctx None None enc) (ASN1 V_ASN1_SEQUENCE (der_params iv sb)) = (fst (get_asn1 (evp_init r1 fresh_ctx None None enc) (ASN1 V_ASN1_SEQUENCE (der_params iv sb))), 1%Z)) by (rewrite import_der by assumption; reflexivity).
  rewrite E2. cbv iota beta. change (1 <=? 0)%Z with false. cbv iota. rewrite E.
  assert (Eo : snd (update (evp_init rnd (fst (get_asn1 (evp_init r1 fresh_ctx None None enc) (ASN1 V_ASN1_SEQUENCE (der_params iv sb)))) (Some k) None enc) data) =
    (if (length data <? 8)%nat then xorl data (encrypt (packed_sbox sb) (zeros 32) iv) else cfb_stream enc (encrypt (packed_sbox default_sbox) k) iv data)).
  { rewrite one_update. cbn [snd]. destruct (Nat.ltb_spec (length data) 8) as [Q|Q].
    - rewrite params_key_short by assumption. cbn [concat]. rewrite app_nil_r. unfold cfb_resume. change (8 - 0)%nat with 8%nat. rewrite (@firstn_all2 N 8 data), (@skipn_all2 N 8 data) by lia. rewrite skipn_O. replace (cfb_stream _ _ _ []) with (@nil N) by (destruct enc; reflexivity). apply app_nil_r.
    - rewrite params_key_long by assumption. cbn [concat]. rewrite app_nil_r. reflexivity. }
  assert (En : snd (fst (update (evp_init rnd (fst (get_asn1 (evp_init r1 fresh_ctx None None enc) (ASN1 V_ASN1_SEQUENCE (der_params iv sb)))) (Some k) None enc) data)) = Z.of_nat (length data)).
  { destruct (params_ctx r1 enc iv sb Hiv Hsb) as (g0 & -> & HE). rewrite evp_init_k. rewrite Proof_CipherApi.update_ok; [reflexivity| |split; assumption].
    cbn [c_num c_iv c_oiv c_buf c_g c_enc]. destruct Hiv, HE. split; [reflexivity|]. split; assumption. }
  destruct (update _ data) as [[c n] o]. cbn [fst snd] in Eo, En. subst n o. destruct (Z.ltb_spec (Z.of_nat (length data)) 0); [lia|]. reflexivity.
Qed.
Lemma crypt_run os st outs x tpl pass salt iter r1 rnd iv sb enc data : legal no_slots os -> md_run md_empty os = Some (st, outs) -> NoDup (cells3 x ++ cells3 tpl) -> bytes pass -> hashable (length pass) -> bytes salt -> hashable (36 + length salt) ->
  mask_wf rnd -> bytesn 8 iv -> bytesn 64 sb -> bytes data -> data <> [] -> N.of_nat (length data) < 2 ^ 31 ->
  pbe2_crypt r1 rnd st x tpl (PBE2 (ASN1 V_ASN1_SEQUENCE (der_params iv sb)) salt iter PrfDstu34311) pass enc data =
  Some (Some (if (length data <? 8)%nat then xorl data (encrypt (packed_sbox sb) (zeros 32) iv) else cfb_stream enc (encrypt (packed_sbox default_sbox) (pbkdf2_dstu pass salt iter 32)) iv data)).
Proof. intros Hl E. eapply crypt_ok. exact (after_inv os _ _ _ _ empty_inv Hl E). Qed.
Lemma xorl_len8 (d g : list N) : (length d < 8)%nat -> length g = 8%nat -> length (xorl d g) = length d.
Proof. intros H1 H2. rewrite Lib.xorl_length. lia. Qed.
Lemma enc_ok sb k iv : length (encrypt sb k iv) = 8%nat.
Proof. apply encrypt_length. Qed.
Lemma chunks_bytes l : bytes l -> Forall bytes (chunks 8 l).
Proof. intros H. unfold chunks. generalize (length l). intros f. revert l H. induction f as [|f IH]; intros l H; [constructor|]. destruct l as [|b l]; [constructor|]. cbn [chunks_fuel]. constructor; [apply bytes_firstn, H|apply IH, bytes_skipn, H]. Qed.
Lemma cfb_bytes e S k iv d : bytes d -> bytes (cfb_stream e (encrypt S k) iv d).
Proof.
  intros H. unfold cfb_stream. apply chunks_bytes in H. revert iv. induction H as [|c t Hc Ht IH]; intros iv; [destruct e; constructor|].
  destruct e; cbn [cfb_encrypt cfb_decrypt concat]; cbv zeta; (apply bytes_app; [apply xorl_bytes; [exact Hc|apply Proof_Gost89.encrypt_bytesn]|apply IH]).
Qed.
Lemma xorl_nil (a b : list N) : a <> [] -> length b = 8%nat -> xorl a b <> [].
Proof. destruct a, b; try discriminate; intros; congruence. Qed.
Lemma set_crypt os st outs x tpl pass salt iter iv rnd0 stale r1 rnd enc data : legal no_slots os -> md_run md_empty os = Some (st, outs) -> NoDup (cells3 x ++ cells3 tpl) -> bytes pass -> hashable (length pass) -> bytes salt -> hashable (36 + length salt) ->
  bytesn 8 iv -> rows16 stale -> mask_wf rnd -> bytes data -> (8 <= length data)%nat -> N.of_nat (length data) < 2 ^ 31 ->
  pbe2_crypt r1 rnd st x tpl (pbe2_set rnd0 stale iv salt iter) pass enc data = Some (Some (cfb_stream enc (encrypt (packed_sbox default_sbox) (pbkdf2_dstu pass salt iter 32)) iv data)).
Proof.
  intros Hl E D B L BS LS Hiv Hst Hr Bd L8 Ld. rewrite set_ok by assumption. rewrite (crypt_run os st outs) by (first [assumption | apply default64 | (intros ->; cbn in L8; lia)]). destruct (Nat.ltb_spec (length data) 8); [lia|reflexivity].
Qed.
Lemma set_roundtrip os st outs x tpl os' st' outs' x' tpl' pass salt iter iv rnd0 stale r1 r2 r3 r4 data : legal no_slots os -> md_run md_empty os = Some (st, outs) -> legal no_slots os' -> md_run md_empty os' = Some (st', outs') ->
  NoDup (cells3 x ++ cells3 tpl) -> NoDup (cells3 x' ++ cells3 tpl') -> bytes pass -> hashable (length pass) -> bytes salt -> hashable (36 + length salt) ->
  bytesn 8 iv -> rows16 stale -> mask_wf r2 -> mask_wf r4 -> bytes data -> data <> [] -> N.of_nat (length data) < 2 ^ 31 ->
  let p := pbe2_set rnd0 stale iv salt iter in
  exists ct, pbe2_crypt r1 r2 st x tpl p pass true data = Some (Some ct) /\ length ct = length data /\ pbe2_crypt r3 r4 st' x' tpl' p pass false ct = Some (Some data).
Proof.
  intros Hl E Hl' E' D D' B L BS LS Hiv Hst Hr Hr' Bd Nd Ld p. unfold p. rewrite set_ok by assumption.
  rewrite (crypt_run os st outs) by (assumption || apply default64). eexists. split; [reflexivity|].
  destruct (Nat.ltb_spec (length data) 8) as [Q|Q].
  - pose proof (xorl_len8 data _ Q (enc_ok (packed_sbox default_sbox) (zeros 32) iv)) as Lx. split; [exact Lx|].
    rewrite (crypt_run os' st' outs'); try assumption; try apply default64.
    + rewrite Lx. destruct (Nat.ltb_spec (length data) 8); [|lia]. do 2 apply f_equal. apply xorl_cancel. rewrite enc_ok. lia.
    + apply xorl_bytes; [exact Bd|apply Proof_Gost89.encrypt_bytesn].
    + apply xorl_nil; [exact Nd|apply enc_ok].
    + rewrite Lx. exact Ld.
  - set (k := pbkdf2_dstu pass salt iter 32). assert (Lc : length (cfb_stream true (encrypt (packed_sbox default_sbox) k) iv data) = length data) by (apply cfb_stream_length; intros; apply enc_ok). split; [exact Lc|].
    rewrite (crypt_run os' st' outs'); try assumption; try apply default64.
    + rewrite Lc. destruct (Nat.ltb_spec (length data) 8); [lia|]. do 2 apply f_equal. fold k. apply cfb_stream_inverse. intros; apply enc_ok.
    + apply cfb_bytes, Bd.
    + intros X. rewrite X in Lc. destruct data; [congruence|discriminate].
    + rewrite Lc. exact Ld.
Qed.
Lemma short_any os st outs x tpl pass salt iter iv rnd0 stale r1 rnd enc data : legal no_slots os -> md_run md_empty os = Some (st, outs) -> NoDup (cells3 x ++ cells3 tpl) -> bytes pass -> hashable (length pass) -> bytes salt -> hashable (36 + length salt) ->
  bytesn 8 iv -> rows16 stale -> mask_wf rnd -> bytes data -> (0 < length data < 8)%nat ->
  pbe2_crypt r1 rnd st x tpl (pbe2_set rnd0 stale iv salt iter) pass enc data = Some (Some (xorl data (encrypt (packed_sbox default_sbox) (zeros 32) iv))).
Proof.
  intros Hl E D B L BS LS Hiv Hst Hr Bd L8. rewrite set_ok by assumption. rewrite (crypt_run os st outs); try assumption; try apply default64.
  - destruct (Nat.ltb_spec (length data) 8); [reflexivity|lia].
  - intros ->. cbn in L8. lia.
  - change (2 ^ 31) with 2147483648. lia.
Qed.
Lemma foreign os st outs x tpl pass salt iter iv sb r1 rnd enc data : legal no_slots os -> md_run md_empty os = Some (st, outs) -> NoDup (cells3 x ++ cells3 tpl) -> bytes pass -> hashable (length pass) -> bytes salt -> hashable (36 + length salt) ->
  bytesn 8 iv -> bytesn 64 sb -> mask_wf rnd -> bytes data -> (8 <= length data)%nat -> N.of_nat (length data) < 2 ^ 31 ->
  pbe2_crypt r1 rnd st x tpl (PBE2 (ASN1 V_ASN1_SEQUENCE (der_params iv sb)) salt iter PrfDstu34311) pass enc data = Some (Some (cfb_stream enc (encrypt (packed_sbox default_sbox) (pbkdf2_dstu pass salt iter 32)) iv data)).
Proof.
  intros Hl E D B L BS LS Hiv Hsb Hr Bd L8 Ld. rewrite (crypt_run os st outs) by (first [assumption | (intros ->; cbn in L8; lia)]). destruct (Nat.ltb_spec (length data) 8); [lia|reflexivity].
Qed.
