(** Proofs about keylib/key6.c. *)
From Coq Require Import Lia ZArith.
From Verif Require Import Base Lib Spec_Gost89 Spec_Hash Spec_Params Spec_Md Model_Gost89 Model_Hash Model_Params Model_KeyStore Model_Utils Model_Key6 Spec_Key6.
From Verif Require Import Proof_Gost89 Proof_Gost89Modes Proof_Params Proof_CipherApi Proof_Hash Proof_HashStream Proof_Md Proof_Keylib.
#[local] Opaque gostcrypt gostdecrypt encrypt decrypt unpack_sbox gost_init gost_key hash_block finish_hash chi N.to_nat default_sbox.

Lemma digest_bytesn S m : bytesn 32 (digest S m).
Proof. split; [apply le_bytes_bytes|apply le_bytes_length]. Qed.

#[local] Opaque digest.
Lemma key6_hash_ok junk data : bytes data -> hashable (length data) -> key6_hash junk data = Some (digest key6_sbox data).
Proof.
  intros Hb Hh. unfold key6_hash. unfold hashable in Hh.
  set (cm := cset _ _ _).
  assert (Hr : rep key6_sbox cm 0 (HC 0 (Some 0%nat) 0 (zeros 32) (zeros 32) (zeros 32)) []).
  { apply (fresh_rep default_sbox cm 0 junk); [apply default_bytesn|apply cset_same]. }
  destruct (hash_block_ok _ _ _ _ _ data Hr Hb) as (cm1 & h1 & E1 & R1 & _); [cbn [length]; unfold LLONG_MAX; lia|].
  rewrite E1. cbn [app] in R1.
  destruct (finish_ok _ _ _ _ _ R1) as (cm2 & E2 & _); [unfold LLONG_MAX; lia|]. rewrite E2. reflexivity.
Qed.

Lemma times_shift {A} n (f : A -> A) x : times n f (f x) = f (times n f x).
Proof. induction n as [|n IH]; [reflexivity|]. cbn [times]. now rewrite IH. Qed.
Lemma pkdf_loop_ok n : forall junk i key, bytesn 32 key -> pkdf_loop n junk i key = Some (times n (digest key6_sbox) key).
Proof.
  induction n as [|n IH]; intros junk i key [Hb Hl]; [reflexivity|]. cbn [pkdf_loop].
  rewrite <- Hl at 1. rewrite firstn_all.
  rewrite key6_hash_ok; [|exact Hb|rewrite Hl; unfold hashable; reflexivity].
  rewrite IH by apply digest_bytesn. cbn [times]. f_equal. apply times_shift.
Qed.
Lemma pkdf_ok junk password : bytes password -> hashable (length password) -> pkdf junk password = Some (key6_key password).
Proof.
  intros Hb Hh. unfold pkdf. rewrite key6_hash_ok by assumption. rewrite pkdf_loop_ok by apply digest_bytesn.
  rewrite times_shift. unfold key6_key. replace (N.to_nat 10000) with (S (N.to_nat 9999)); [reflexivity|].
  rewrite <- N2Nat.inj_succ. reflexivity.
Qed.
Lemma key6_key_bytesn password : bytesn 32 (key6_key password).
Proof.
  unfold key6_key. replace (N.to_nat 10000) with (S (N.to_nat 9999)) by (rewrite <- N2Nat.inj_succ; reflexivity).
  cbn [times]. apply digest_bytesn.
Qed.

Lemma decrypt_ext6 S S' k b : (forall i v, (i < 8)%nat -> v < 16 -> S i v = S' i v) -> decrypt S k b = decrypt S' k b.
Proof. intros H. Transparent decrypt. unfold decrypt, block_cipher. now rewrite (feistel_fold_ext S S' _ _ H). Qed.
#[local] Opaque decrypt.

Lemma dec_blocks rnd c0 key l : mask_wf rnd -> bytesn 32 key -> bytes l -> forall k, length l = (8 * k)%nat ->
  concat (map (gostdecrypt (gost_key rnd (gost_init c0 (Some (unpack_sbox default_sbox))) key)) (chunks 8 l)) = key6_decrypt key l.
Proof.
  intros Hm Hk Hb n Hl. unfold key6_decrypt. f_equal. apply map_ext_in. intros x Hx.
  pose proof (chunks_pieces n l Hl Hb) as HF. rewrite Forall_forall in HF.
  destruct (block_is_gost c0 (unpack_sbox default_sbox) rnd key x (unpack_wf _) Hm Hk (HF x Hx)) as (_ & H & _). cbv zeta in H.
  rewrite H. apply decrypt_ext6. apply packed_sbox_unpack, default_bytesn.
Qed.

Lemma source_mem m a data pad : let n := (length data + match pad with None => 0 | Some p => length p end)%nat in
  let m1 := wr m a data in
  let m2 := match pad with None => m1 | Some p => if (0 <? match pad with None => 0 | Some p => length p end)%nat then wr m1 (a + N.of_nat (length data)) p else m1 end in
  rd m2 a n = key6_cipher data pad /\ (forall x, x < a \/ a + N.of_nat n <= x -> m2 x = m x).
Proof.
  cbv zeta. unfold key6_cipher. destruct pad as [p|].
  - destruct (Nat.ltb_spec 0 (length p)) as [Hp|Hp].
    + rewrite <- wr_app. rewrite <- app_length. split; [apply rd_wr_same|]. intros x Hx. apply wr_out. exact Hx.
    + assert (p = []) as -> by (destruct p; [reflexivity|cbn in Hp; lia]). cbn [length]. rewrite Nat.add_0_r, app_nil_r.
      split; [apply rd_wr_same|intros x Hx; apply wr_out; exact Hx].
  - rewrite Nat.add_0_r, app_nil_r. split; [apply rd_wr_same|intros x Hx; apply wr_out; exact Hx].
Qed.

Lemma div8 n : (8 * (n / 8) <= n)%nat. Proof. apply Nat.mul_div_le. lia. Qed.

(** What the decoder is given. *)
Lemma decrypt_bytes_ok r data pad password : let c := key6_cipher data pad in
  bytes password -> hashable (length password) -> mask_wf (k6_mask r) -> bytes c -> apart r (length c) ->
  let whole := (8 * (length c / 8))%nat in
  decrypt_bytes r data pad password =
    Some (key6_decrypt (key6_key password) (firstn whole c) ++ rd (k6_mem r) (k6_res r + N.of_nat whole) (length c + 8 - whole)).
Proof.
  intros c Hp Hh Hm Hb Ha whole. unfold decrypt_bytes. rewrite pkdf_ok by assumption.
  destruct (source_mem (k6_mem r) (k6_src r) data pad) as [Hrd Hout]. cbv zeta in *.
  set (m2 := match pad with None => _ | Some _ => _ end) in *.
  assert (Hn : (length data + match pad with None => 0 | Some p => length p end)%nat = length c).
  { unfold c, key6_cipher. rewrite app_length. destruct pad; reflexivity. }
  rewrite Hn in *. clearbody m2. fold c in Hrd.
  set (ctx := gost_key _ _ _).
  pose proof (div8 (length c)) as Hd. fold whole in Hd.
  destruct (gost_dec_ok ctx m2 (k6_src r) (k6_res r) (Z.of_nat (length c / 8))) as [H1 H2].
  { rewrite Nat2Z.id. destruct Ha as [Ha|Ha]; [left|right]; unfold whole in Hd; lia. }
  rewrite Nat2Z.id in H1, H2. cbv zeta in H1, H2. fold whole in H1.
  f_equal. replace (length c + 8)%nat with (whole + (length c + 8 - whole))%nat at 1 by lia. rewrite rd_app. f_equal.
  - rewrite H1. replace (rd m2 (k6_src r) whole) with (firstn whole c).
    2:{ rewrite <- Hrd. replace (length c) with (whole + (length c - whole))%nat at 1 by lia. rewrite rd_app.
        rewrite firstn_app, rd_length. replace (whole - whole)%nat with 0%nat by lia. rewrite firstn_all2 by (rewrite rd_length; lia).
        cbn [firstn]. apply app_nil_r. }
    unfold ctx. apply (dec_blocks (k6_mask r) (k6_ctx r) (key6_key password) (firstn whole c) Hm (key6_key_bytesn password)) with (k := (length c / 8)%nat).
    + apply bytes_firstn, Hb.
    + rewrite firstn_length_le by exact Hd. reflexivity.
  - apply rd_ext. intros x Hx. rewrite H2 by (right; unfold whole in *; lia).
    apply Hout. unfold apart in Ha. lia.
Qed.


(** The specification's two directions are inverse: seen through a context of the model. *)
Lemma spec_roundtrip key x : bytesn 32 key -> bytesn 8 x -> decrypt key6_sbox key (encrypt key6_sbox key x) = x.
Proof.
  intros Hk Hx.
  set (c0 := CTX (repeat 0 8) (repeat 0 8) (repeat 0 256) (repeat 0 256) (repeat 0 256) (repeat 0 256)).
  set (rnd := repeat 0 8).
  assert (Hm : mask_wf rnd) by (split; [reflexivity|apply Forall_forall; intros y Hy; apply repeat_spec in Hy; subst y; reflexivity]).
  pose proof (block_roundtrip_api c0 (Some (unpack_sbox default_sbox)) rnd key x Hm Hx) as [H _]. cbv zeta in H.
  destruct (block_is_gost c0 (unpack_sbox default_sbox) rnd key x (unpack_wf _) Hm Hk Hx) as (H1 & _ & _). cbv zeta in H1.
  rewrite H1 in H.
  destruct (block_is_gost c0 (unpack_sbox default_sbox) rnd key (encrypt (sb_fun (unpack_sbox default_sbox)) key x) (unpack_wf _) Hm Hk) as (_ & H2 & _); [apply encrypt_bytesn|].
  cbv zeta in H2. rewrite H2 in H.
  assert (HS : forall i v, (i < 8)%nat -> v < 16 -> sb_fun (unpack_sbox default_sbox) i v = key6_sbox i v) by apply packed_sbox_unpack, default_bytesn.
  rewrite <- H at 2. rewrite (encrypt_ext _ _ key x HS). symmetry. apply decrypt_ext6, HS.
Qed.
Lemma concat_bytesn8 (f : list N -> list N) ls : (forall b, bytesn 8 (f b)) -> bytesn (8 * length ls) (concat (map f ls)).
Proof.
  intros Hf. induction ls as [|x l IH]; [split; [constructor|reflexivity]|].
  cbn [map concat length]. destruct IH as [I1 I2], (Hf x) as [F1 F2]. split; [apply bytes_app; assumption|].
  rewrite app_length. lia.
Qed.
Lemma enc_ok key l k : length l = (8 * k)%nat -> bytes l -> bytesn 32 key ->
  key6_decrypt key (key6_encrypt key l) = l /\ bytesn (8 * k) (key6_encrypt key l).
Proof.
  intros Hl Hb Hk. unfold key6_decrypt, key6_encrypt.
  pose proof (chunks_pieces k l Hl Hb) as HF. rewrite Forall_forall in HF.
  split.
  - rewrite chunks_of_concat by (apply map_len8; intros b; apply encrypt_bytesn). rewrite map_map.
    rewrite (map_ext_in _ (fun x => x)); [rewrite map_id; apply chunks_concat; lia|].
    intros x Hx. apply spec_roundtrip; [exact Hk|apply HF, Hx].
  - replace (8 * k)%nat with (8 * length (chunks 8 l))%nat; [apply concat_bytesn8; intros b; apply encrypt_bytesn|].
    assert (He : length (concat (chunks 8 l)) = (8 * length (chunks 8 l))%nat).
    { clear Hl Hb. induction (chunks 8 l) as [|x t IH]; [reflexivity|]. cbn [concat length]. rewrite app_length, IH by (intros y Hy; apply HF; right; exact Hy).
      destruct (HF x (or_introl eq_refl)) as [_ ->]. lia. }
    rewrite <- He, chunks_concat by lia. exact Hl.
Qed.

Section Parse.
Context {spec grp : Type} (e : attr_env spec grp) (p8 : list N -> option p8info) (malloc : heap -> nat).
Lemma parse_store r mac data pad password h ks :
  parseKey6 e p8 malloc r (Some (key6_store mac data pad)) password h ks = decryptKey6 e p8 malloc r data pad password h ks.
Proof. destruct pad; reflexivity. Qed.
Lemma parse_bytes r mac data pad password h ks : let c := key6_cipher data pad in
  bytes password -> hashable (length password) -> mask_wf (k6_mask r) -> bytes c -> apart r (length c) ->
  let whole := (8 * (length c / 8))%nat in
  parseKey6 e p8 malloc r (Some (key6_store mac data pad)) password h ks =
    keysFromPKCS8 e malloc h (p8 (key6_decrypt (key6_key password) (firstn whole c) ++ rd (k6_mem r) (k6_res r + N.of_nat whole) (length c + 8 - whole))) ks.
Proof.
  intros c H1 H2 H3 H4 H5 whole. rewrite parse_store. unfold decryptKey6.
  rewrite (decrypt_bytes_ok r data pad password) by assumption. reflexivity.
Qed.
Lemma parse_plain r mac data pad password plain k h ks :
  bytes password -> hashable (length password) -> mask_wf (k6_mask r) -> bytes plain -> length plain = (8 * k)%nat ->
  data ++ match pad with None => [] | Some p => p end = key6_encrypt (key6_key password) plain -> apart r (length plain) ->
  exists slack, length slack = 8%nat /\ slack = rd (k6_mem r) (k6_res r + N.of_nat (length plain)) 8 /\
    parseKey6 e p8 malloc r (Some (key6_store mac data pad)) password h ks = keysFromPKCS8 e malloc h (p8 (plain ++ slack)) ks.
Proof.
  intros H1 H2 H3 H4 H5 Hc Ha. destruct (enc_ok (key6_key password) plain k H5 H4 (key6_key_bytesn password)) as [He [Hb Hl]].
  eexists. split; [apply rd_length|]. split; [reflexivity|].
  assert (Hcc : key6_cipher data pad = key6_encrypt (key6_key password) plain) by exact Hc.
  rewrite parse_bytes; try assumption.
  - rewrite Hcc. rewrite Hl. replace (8 * k / 8)%nat with k by (rewrite Nat.mul_comm, Nat.div_mul by lia; reflexivity).
    rewrite firstn_all2 by lia. rewrite He. rewrite <- H5. do 5 f_equal. lia.
  - rewrite Hcc. exact Hb.
  - rewrite Hcc, Hl, <- H5. exact Ha.
Qed.
Lemma parse_refused r s password h ks :
  (forall st, s = Some st -> forall hd, is_header st = Some hd -> ih_type hd <> Some [1;3;6;1;4;1;19398;1;1;1;2] \/ is_data st = None \/ ih_params hd = None) ->
  parseKey6 e p8 malloc r s password h ks = Some (h, false, ks).
Proof.
  intros H. unfold parseKey6. destruct s as [[hd da]|]; [|reflexivity]. cbn [is_header is_data].
  destruct hd as [[ty pa]|]; [|reflexivity]. destruct da as [da|]; [|reflexivity]. cbn [ih_type ih_params].
  destruct ty as [ty|]; [|reflexivity]. destruct pa as [pa|]; [|reflexivity].
  destruct (oid_eqb ty iitStoreOID) eqn:E; [|reflexivity]. apply oid_eqb_spec in E. subst ty. exfalso.
  destruct (H _ eq_refl _ eq_refl) as [X|[X|X]]; [|discriminate..]. apply X. reflexivity.
Qed.
Lemma parse_mac r mac mac' data pad password h ks :
  parseKey6 e p8 malloc r (Some (key6_store mac data pad)) password h ks = parseKey6 e p8 malloc r (Some (key6_store mac' data pad)) password h ks.
Proof. rewrite !parse_store. reflexivity. Qed.
End Parse.
