(** Lemmas about cipher sessions. *)
From Verif Require Import Lib Proof_Gost89 Proof_Gost89Modes Proof_Params Proof_Cipher.
From Verif Require Export Spec_Params.
#[local] Opaque gostcrypt.
Lemma gost_init_key g b0 b rnd k : gost_init (gost_key rnd (gost_init g b0) k) (Some b) = gost_key rnd (gost_init g (Some b)) k.
Proof. reflexivity. Qed.
Lemma default_bytesn : bytesn 64 default_sbox.
Proof. split; [repeat constructor|reflexivity]. Qed.
#[local] Opaque gost_init gost_key unpack_sbox default_sbox.

Lemma refill_synced c : synced c -> c_num c = 0 -> refill c = c.
Proof. intros Hs Hn. specialize (Hs Hn). destruct c. ctxs. subst. reflexivity. Qed.
Lemma presync_synced c n : synced c -> presync c n = c.
Proof.
  intros Hs. unfold presync. destruct (N.eqb_spec (c_num c) 0) as [E|E]; [|reflexivity].
  cbn [andb]. destruct (8 <=? n); [|reflexivity]. apply refill_synced; assumption.
Qed.
Lemma presync_cwf c n : cwf c -> cwf (presync c n).
Proof.
  intros Hc. unfold presync. destruct (_ && _); [|assumption].
  destruct Hc as (H1 & H2 & H3). unfold cwf. ctxs. rewrite gostcrypt_length. lia.
Qed.

Ltac cbvc := cbv beta iota zeta delta [evp_init cipher_init refill set_iv set_num set_buf set_oiv set_g set_enc
  c_enc c_iv c_g c_num c_buf c_oiv].
Definition dflt (g : gost_ctx) : gost_ctx := gost_init g (Some (unpack_sbox default_sbox)).
Lemma evp_init_kv rnd c k v e : evp_init rnd c (Some k) (Some v) e =
  let g := gost_key rnd (dflt (c_g c)) k in CIPH e 0 v v (gostcrypt g v) g.
Proof. destruct c. unfold dflt. cbvc. reflexivity. Qed.
Lemma evp_init_k rnd c k e : evp_init rnd c (Some k) None e =
  CIPH e (c_num c) (c_iv c) (c_oiv c) (c_buf c) (gost_key rnd (dflt (c_g c)) k).
Proof. destruct c. unfold dflt. cbvc. reflexivity. Qed.
Lemma evp_init_v rnd c v e : evp_init rnd c None (Some v) e = CIPH e 0 v v (gostcrypt (dflt (c_g c)) v) (dflt (c_g c)).
Proof. destruct c. unfold dflt. cbvc. reflexivity. Qed.
Lemma evp_init_0 rnd c e : evp_init rnd c None None e = CIPH e (c_num c) (c_iv c) (c_oiv c) (c_buf c) (dflt (c_g c)).
Proof. destruct c. unfold dflt. cbvc. reflexivity. Qed.
Lemma dflt_key rnd g k : dflt (gost_key rnd (dflt g) k) = gost_key rnd (dflt g) k.
Proof. apply gost_init_key. Qed.
Ltac evp := rewrite ?evp_init_kv, ?evp_init_k, ?evp_init_v, ?evp_init_0; cbv zeta; cbn [c_enc c_iv c_g c_num c_buf c_oiv].

Definition upd_ok (d : list N) : Prop := d <> [] /\ N.of_nat (length d) < 2 ^ 31.

Lemma update_ok c d : cwf c -> upd_ok d ->
  let r := bsteps (presync c (N.of_nat (length d))) d in
  update c d = (fst r, Z.of_nat (length d), snd r).
Proof.
  intros Hc [Hne Hl] r. unfold update.
  assert (length d <> 0%nat) by (destruct d; [congruence|discriminate]).
  rewrite do_cipher_ok by (assumption || lia).
  rewrite Nat2N.id. rewrite rd_wr_same. fold r.
  replace (length d) with (length (snd r)) at 4 by (unfold r; apply bsteps_length).
  rewrite rd_wr_same. f_equal. f_equal. lia.
Qed.
Lemma update_empty c : update c [] = (c, (-1)%Z, []).
Proof. reflexivity. Qed.

Lemma updates_ok ds : forall c, cwf c -> synced c -> Forall upd_ok ds ->
  let r := bsteps c (concat ds) in
  updates c ds = (fst r, map (fun d => Z.of_nat (length d)) ds, snd r).
Proof.
  induction ds as [|d ds IH]; intros c Hc Hs HF; [reflexivity|].
  inversion HF as [|? ? H1 H2]; subst. cbn [updates concat map].
  rewrite update_ok by assumption. rewrite presync_synced by assumption.
  rewrite IH by (try apply cwf_bsteps; try apply synced_bsteps; assumption).
  rewrite bsteps_app. destruct (bsteps c d) as [c1 o1]. cbn [fst snd]. destruct (bsteps c1 (concat ds)); reflexivity.
Qed.

Lemma bsteps_stream c msg : cwf c -> synced c -> c_num c = 0 ->
  snd (bsteps c msg) = cfb_stream (c_enc c) (gostcrypt (c_g c)) (c_iv c) msg.
Proof.
  remember (length msg) as n eqn:Hn. assert (Hle : (length msg <= n)%nat) by lia. clear Hn.
  revert c msg Hle; induction n as [|n IH]; intros c msg Hle Hc Hs Hn0.
  - destruct msg; [|cbn [length] in Hle; lia]. unfold cfb_stream. rewrite chunks_nil. destruct (c_enc c); reflexivity.
  - destruct (Nat.lt_ge_cases (length msg) 8) as [Hlt|Hge].
    + destruct msg as [|b t]; [unfold cfb_stream; rewrite chunks_nil; destruct (c_enc c); reflexivity|].
      assert (Ho : offn c = 0%nat) by (unfold offn; rewrite Hn0; reflexivity).
      pose proof (bsteps_part (b :: t) c Hc ltac:(discriminate) ltac:(rewrite Ho; lia)) as Hbs. cbv zeta in Hbs.
      rewrite Hbs. clear Hbs. cbn [snd]. rewrite Ho. cbn [skipn].
      unfold cfb_stream. rewrite chunks_cons by (lia || discriminate).
      rewrite firstn_all2 by lia. rewrite skipn_all2 by lia. rewrite chunks_nil. fold (cfb_fun (c_enc c)). rewrite cfb_fun_cons.
      rewrite (Hs Hn0). destruct (c_enc c); cbn [cfb_fun cfb_encrypt cfb_decrypt concat]; now rewrite app_nil_r.
    + rewrite <- (firstn_skipn 8 msg). set (a := firstn 8 msg). set (b := skipn 8 msg).
      assert (Ha : length a = 8%nat) by (unfold a; rewrite firstn_length; lia).
      assert (Hb : (length b <= n)%nat) by (unfold b; rewrite skipn_length; lia).
      rewrite bsteps_app, (bsteps_block c a Hc Hs Hn0 Ha).
      set (o := xorl a (gostcrypt (c_g c) (c_iv c))).
      set (c1 := refill (set_iv c (if c_enc c then o else a))).
      assert (Hlo : length o = 8%nat) by (unfold o; rewrite xorl_length, gostcrypt_length; lia).
      assert (Hc1 : cwf c1) by (apply refill_set_cwf; [assumption..|destruct (c_enc c); assumption]).
      specialize (IH c1 b Hb Hc1 (refill_iv_synced _ _) Hn0).
      destruct (bsteps c1 b) as [c2 o2]. cbn [snd] in *. rewrite IH.
      change (c_enc c1) with (c_enc c). change (c_g c1) with (c_g c). change (c_iv c1) with (if c_enc c then o else a).
      unfold cfb_stream. rewrite chunks_app by lia. fold (cfb_fun (c_enc c)). rewrite cfb_fun_cons. reflexivity.
Qed.

(** ** Replacing the block function by its specification *)
Lemma cfb_stream_ext e E E' iv msg : (forall b, bytesn 8 b -> E b = E' b) -> (forall b, bytesn 8 b -> bytesn 8 (E b)) ->
  bytesn 8 iv -> bytes msg -> cfb_stream e E iv msg = cfb_stream e E' iv msg.
Proof.
  intros HE HE8. unfold cfb_stream. fold (cfb_fun e).
  remember (length msg) as n eqn:Hn. assert (Hle : (length msg <= n)%nat) by lia. clear Hn.
  revert iv msg Hle; induction n as [|n IH]; intros iv msg Hle Hiv Hm.
  - destruct msg; [|cbn [length] in Hle; lia]. rewrite chunks_nil. destruct e; reflexivity.
  - destruct msg as [|b t]; [rewrite chunks_nil; destruct e; reflexivity|].
    rewrite chunks_cons by (lia || discriminate). set (m := b :: t) in *. rewrite !cfb_fun_cons. cbn [concat].
    rewrite <- HE by assumption. f_equal.
    destruct (Nat.lt_ge_cases (length m) 8) as [Hlt|Hge].
    + rewrite skipn_all2 by lia. rewrite chunks_nil. destruct e; reflexivity.
    + apply IH.
      * rewrite skipn_length. unfold m in *. cbn [length] in *. lia.
      * assert (Hf : bytesn 8 (firstn 8 m)) by (split; [apply bytes_firstn, Hm|rewrite firstn_length; lia]).
        destruct e; [|exact Hf]. destruct Hf as [Hf1 Hf2]. destruct (HE8 iv Hiv) as [He1 He2]. split; [apply xorl_bytes; assumption|].
        rewrite xorl_length. lia.
      * apply bytes_skipn, Hm.
Qed.
Lemma xorl_len_chunk m x : length x = 8%nat -> length (xorl (firstn 8 m) x) = length (firstn 8 m).
Proof. intros H. rewrite xorl_length, firstn_length. lia. Qed.

Lemma cfb_stream_length e E iv msg : (forall b, length (E b) = 8%nat) -> length (cfb_stream e E iv msg) = length msg.
Proof.
  intros HE. unfold cfb_stream. fold (cfb_fun e).
  remember (length msg) as n eqn:Hn. assert (Hle : (length msg <= n)%nat) by lia. revert Hn. 
  revert iv msg Hle. induction n as [n IH] using (well_founded_induction lt_wf). intros iv msg Hle Hn.
  destruct msg as [|b t]; [rewrite chunks_nil; destruct e; cbn [cfb_fun cfb_encrypt cfb_decrypt concat length] in *; lia|].
  rewrite chunks_cons by (lia || discriminate). set (m := b :: t) in *. rewrite !cfb_fun_cons. cbn [concat].
  rewrite app_length, xorl_len_chunk by apply HE.
  assert (Hs : length (skipn 8 m) = (length m - 8)%nat) by apply skipn_length.
  assert (Hp : (length m - 8 < n)%nat) by (unfold m in *; cbn [length] in *; lia).
  rewrite (IH (length m - 8)%nat Hp _ (skipn 8 m)) by lia. rewrite firstn_length. lia.
Qed.

Lemma cfb_stream_inverse E iv msg : (forall b, length (E b) = 8%nat) ->
  cfb_stream false E iv (cfb_stream true E iv msg) = msg.
Proof.
  intros HE.
  remember (length msg) as n eqn:Hn. assert (Hle : (length msg <= n)%nat) by lia. clear Hn.
  revert iv msg Hle; induction n as [|n IH]; intros iv msg Hle.
  - destruct msg; [|cbn [length] in Hle; lia]. reflexivity.
  - destruct msg as [|b t]; [reflexivity|]. set (m := b :: t) in *.
    assert (Hm : chunks 8 m = firstn 8 m :: chunks 8 (skipn 8 m)) by (apply chunks_cons; [lia|discriminate]).
    unfold cfb_stream at 2. rewrite Hm. cbn [cfb_encrypt concat].
    set (o := xorl (firstn 8 m) (E iv)).
    change (concat (cfb_encrypt E o (chunks 8 (skipn 8 m)))) with (cfb_stream true E o (skipn 8 m)).
    destruct (Nat.lt_ge_cases (length m) 8) as [Hlt|Hge].
    + rewrite skipn_all2 by lia. change (cfb_stream true E o []) with (@nil N). rewrite app_nil_r.
      assert (Ho : length o = length m) by (unfold o; rewrite xorl_len_chunk by apply HE; rewrite firstn_all2 by lia; reflexivity).
      unfold cfb_stream. rewrite chunks_cons; [|lia|destruct o; [unfold m in Ho; discriminate|discriminate]].
      rewrite firstn_all2, skipn_all2 by lia. rewrite chunks_nil. cbn [cfb_decrypt concat]. rewrite app_nil_r.
      unfold o. rewrite firstn_all2 by lia. rewrite xorl_cancel by (rewrite HE; lia). reflexivity.
    + assert (Ho : length o = 8%nat) by (unfold o; rewrite xorl_len_chunk by apply HE; rewrite firstn_length; lia).
      unfold cfb_stream at 1. rewrite chunks_app by lia. cbn [cfb_decrypt concat].
      change (concat (cfb_decrypt E o (chunks 8 (cfb_stream true E o (skipn 8 m))))) with (cfb_stream false E o (cfb_stream true E o (skipn 8 m))).
      rewrite IH by (rewrite skipn_length; unfold m in *; cbn [length] in *; lia).
      unfold o. rewrite xorl_cancel by (rewrite HE, firstn_length; lia). apply firstn_skipn.
Qed.

(** S-boxes that agree on nibbles give the same cipher. *)
Lemma subst32_ext S S' x : (forall i v, (i < 8)%nat -> v < 16 -> S i v = S' i v) -> subst32 S x = subst32 S' x.
Proof.
  intros H. unfold subst32. cbn [seq fold_right].
  rewrite !H by (try lia; apply N.mod_lt; discriminate). reflexivity.
Qed.
Lemma F_ext S S' k x : (forall i v, (i < 8)%nat -> v < 16 -> S i v = S' i v) -> F S k x = F S' k x.
Proof. intros H. unfold F. now rewrite (subst32_ext S S' _ H). Qed.
Lemma feistel_fold_ext S S' ks ab : (forall i v, (i < 8)%nat -> v < 16 -> S i v = S' i v) ->
  fold_left (feistel S) ks ab = fold_left (feistel S') ks ab.
Proof.
  intros H. apply fold_ext_in. intros a k _. unfold feistel. now rewrite (F_ext S S' _ _ H).
Qed.
Lemma encrypt_ext S S' k b : (forall i v, (i < 8)%nat -> v < 16 -> S i v = S' i v) -> encrypt S k b = encrypt S' k b.
Proof. intros H. unfold encrypt, block_cipher. now rewrite (feistel_fold_ext S S' _ _ H). Qed.
Lemma packed_sbox_unpack p : bytesn 64 p -> forall i v, (i < 8)%nat -> v < 16 ->
  sb_fun (unpack_sbox p) i v = packed_sbox p i v.
Proof. intros Hp i v Hi Hv. unfold sb_fun, packed_sbox. apply unpack_entry; [assumption|assumption|lia]. Qed.

(** ** Contexts set up with key, IV and S-box *)
Definition setup (p k oiv : list N) (e : bool) (c : cipher_ctx) : Prop :=
  exists rnd g0, mask_wf rnd /\ c_g c = gost_key rnd (gost_init g0 (Some (unpack_sbox p))) k /\ c_oiv c = oiv /\ c_enc c = e.
Lemma setup_crypt p k oiv e c b : setup p k oiv e c -> bytesn 64 p -> bytesn 32 k -> bytesn 8 b ->
  gostcrypt (c_g c) b = encrypt (packed_sbox p) k b.
Proof.
  intros (rnd & g0 & Hr & Hg & _) Hp Hk Hb. rewrite Hg.
  destruct (block_is_gost g0 (unpack_sbox p) rnd k b (unpack_wf p) Hr Hk Hb) as [H _]. cbv zeta in H. rewrite H.
  apply encrypt_ext. apply packed_sbox_unpack, Hp.
Qed.
Lemma setup_bsteps p k oiv e l : forall c, setup p k oiv e c -> setup p k oiv e (fst (bsteps c l)).
Proof.
  induction l as [|b l IH]; intros c Hc; [exact Hc|]. cbn [bsteps].
  assert (Hc1 : setup p k oiv e (fst (bstep c b))).
  { destruct Hc as (rnd & g0 & H1 & H2 & H3 & H4). exists rnd, g0. unfold bstep. cbn [fst].
    destruct (Nat.eqb (offn c) 7); ctxs; auto. }
  destruct (bstep c b) as [c1 v]. cbn [fst] in Hc1. specialize (IH c1 Hc1). destruct (bsteps c1 l). exact IH.
Qed.

Lemma stream_ok p k oiv e c ds : setup p k oiv e c -> cwf c -> synced c -> c_num c = 0 ->
  bytesn 64 p -> bytesn 32 k -> bytesn 8 (c_iv c) -> Forall upd_ok ds -> Forall bytes ds ->
  updates c ds = (fst (bsteps c (concat ds)), map (fun d => Z.of_nat (length d)) ds,
                  cfb_stream e (encrypt (packed_sbox p) k) (c_iv c) (concat ds)).
Proof.
  intros Hset Hc Hs Hn Hp Hk Hiv Hds Hb. rewrite updates_ok by assumption. cbv zeta. f_equal.
  rewrite bsteps_stream by assumption.
  pose proof Hset as (_ & _ & _ & _ & _ & ->).
  apply cfb_stream_ext; [|intros; apply gostcrypt_bytesn|assumption|].
  - intros b Hb8. eapply setup_crypt; eassumption.
  - clear - Hb. induction Hb as [|d ds H _ IH]; [constructor|]. cbn [concat]. apply bytes_app; assumption.
Qed.


Lemma init_setup rnd c0 k iv e : mask_wf rnd -> length iv = 8%nat ->
  let c := evp_init rnd c0 (Some k) (Some iv) e in
  setup default_sbox k iv e c /\ cwf c /\ synced c /\ c_num c = 0 /\ c_iv c = iv.
Proof.
  intros Hr Hiv c. unfold c. evp. split; [exists rnd, (c_g c0); auto|].
  split; [split; [cbn; lia|split; [exact Hiv|apply gostcrypt_length]]|].
  split; [intros _; reflexivity|]. split; reflexivity.
Qed.
Lemma ctrl_sbox_eq c p : cipher_ctrl c DSTU_SET_CUSTOM_SBOX 64 (Some p) =
  (refill (set_iv (set_g c (gost_init (c_g c) (Some (unpack_sbox p)))) (c_oiv c)), 1%Z, false).
Proof. reflexivity. Qed.
Lemma ctrl_setup p0 k oiv e c p : setup p0 k oiv e c -> cwf c -> length oiv = 8%nat ->
  let c' := fst (fst (cipher_ctrl c DSTU_SET_CUSTOM_SBOX 64 (Some p))) in
  setup p k oiv e c' /\ cwf c' /\ synced c' /\ c_num c' = c_num c /\ c_iv c' = oiv.
Proof.
  intros (rnd & g0 & H1 & H2 & H3 & H4) (Hn & Hi & Hb) Hl c'. unfold c'. rewrite ctrl_sbox_eq. cbn [fst].
  rewrite H2, gost_init_key, H3.
  split; [exists rnd, g0; ctxs; auto|]. split; [unfold cwf; ctxs; rewrite gostcrypt_length; lia|].
  split; [intros _; ctxs; reflexivity|split; ctxs; reflexivity].
Qed.

Lemma start_setup rnd c0 k iv sb e : mask_wf rnd -> length iv = 8%nat ->
  let c := start rnd c0 k iv sb e in
  setup (the_sbox sb) k iv e c /\ cwf c /\ synced c /\ c_num c = 0 /\ c_iv c = iv.
Proof.
  intros Hr Hiv. destruct (init_setup rnd c0 k iv e Hr Hiv) as (H1 & H2 & H3 & H4 & H5).
  destruct sb as [p|]; cbn [start the_sbox]; [|auto].
  unfold start. destruct (ctrl_setup _ _ _ _ _ p H1 H2 Hiv) as (A1 & A2 & A3 & A4 & A5).
  cbv zeta. rewrite A4, H4. auto.
Qed.

(** ** Reachable contexts *)
Lemma fresh_cwf : cwf fresh_ctx.
Proof. unfold cwf, fresh_ctx. cbn [c_num c_iv c_buf]. split; [lia|]. split; reflexivity. Qed.
Definition cwf2 (c : cipher_ctx) : Prop := cwf c /\ length (c_oiv c) = 8%nat.
Lemma oiv_bsteps l : forall c, c_oiv (fst (bsteps c l)) = c_oiv c.
Proof.
  induction l as [|b l IH]; intros c; [reflexivity|]. cbn [bsteps].
  assert (Hc1 : c_oiv (fst (bstep c b)) = c_oiv c) by (unfold bstep; cbn [fst]; destruct (Nat.eqb (offn c) 7); ctxs; reflexivity).
  destruct (bstep c b) as [c1 v]. cbn [fst] in Hc1. specialize (IH c1). destruct (bsteps c1 l). cbn [fst] in *. congruence.
Qed.
Lemma ctrl_cwf c cmd p1 p2 : cwf2 c -> cwf2 (fst (fst (cipher_ctrl c cmd p1 p2))).
Proof.
  intros [Hc Ho]. unfold cipher_ctrl.
  destruct (cmd =? DSTU_SET_CUSTOM_SBOX)%Z; [|destruct (cmd =? EVP_CTRL_PBE_PRF_NID)%Z; [destruct p2|]; split; assumption].
  destruct p2; [|split; assumption]. destruct (negb (p1 =? 64)%Z); [split; assumption|].
  destruct Hc as (H1 & H2 & H3). cbn [fst]. split; [|ctxs; assumption]. unfold cwf. ctxs. rewrite gostcrypt_length. lia.
Qed.
Lemma get_asn1_cases c v :
  (a_type v = V_ASN1_SEQUENCE /\ length (a_data v) = 78%nat /\
   nth 2 (a_data v) 0 = 4 /\ nth 3 (a_data v) 0 = 8 /\ nth 12 (a_data v) 0 = 4 /\ nth 13 (a_data v) 0 = 64 /\
   get_asn1 c v = (fst (fst (cipher_ctrl (set_oiv c (firstn 8 (skipn 4 (a_data v)))) DSTU_SET_CUSTOM_SBOX 64 (Some (skipn 14 (a_data v))))), 1%Z))
  \/
  (~ (a_type v = V_ASN1_SEQUENCE /\ length (a_data v) = 78%nat /\
      nth 2 (a_data v) 0 = 4 /\ nth 3 (a_data v) 0 = 8 /\ nth 12 (a_data v) 0 = 4 /\ nth 13 (a_data v) 0 = 64) /\
   get_asn1 c v = (c, (-1)%Z)).
Proof.
  unfold get_asn1. rewrite ctrl_sbox_eq.
  destruct (Z.eqb_spec (a_type v) V_ASN1_SEQUENCE); cbn [negb]; [|right; split; [tauto|reflexivity]].
  destruct (Nat.eqb_spec (length (a_data v)) 78); cbn [negb]; [|right; split; [tauto|reflexivity]].
  destruct (N.eqb_spec (nth 2 (a_data v) 0) 4); cbn [andb negb]; [|right; split; [tauto|reflexivity]].
  destruct (N.eqb_spec (nth 3 (a_data v) 0) 8); cbn [andb negb]; [|right; split; [tauto|reflexivity]].
  destruct (N.eqb_spec (nth 12 (a_data v) 0) 4); cbn [andb negb]; [|right; split; [tauto|reflexivity]].
  destruct (N.eqb_spec (nth 13 (a_data v) 0) 64); cbn [andb negb]; [|right; split; [tauto|reflexivity]].
  left. repeat split; assumption.
Qed.
Lemma run_op_cwf c o : op_ok o -> cwf2 c -> cwf2 (run_op c o).
Proof.
  intros Ho [Hc Hl]. destruct o as [rnd key iv enc|d|cmd p1 p2|v]; cbn [run_op op_ok] in *.
  - destruct Ho as (_ & _ & Hiv). destruct Hc as (H1 & H2 & H3). unfold evp_init, cipher_init.
    destruct key as [k|], iv as [v|]; ctxs; unfold cwf2, cwf; cbn [c_num c_iv c_buf c_oiv];
      try (destruct (Hiv v eq_refl) as [_ Hv8]; rewrite ?gostcrypt_length); repeat split; lia.
  - destruct Ho as [Hb Hd]. destruct d as [|b t]; [rewrite update_empty; split; assumption|].
    assert (Hne : b :: t <> []) by discriminate. set (d := b :: t) in *. clearbody d.
    rewrite (update_ok c d Hc (conj Hne Hd)). cbn [fst].
    split; [apply cwf_bsteps, presync_cwf, Hc|]. rewrite oiv_bsteps. unfold presync. destruct (_ && _); [ctxs|]; assumption.
  - apply ctrl_cwf. split; assumption.
  - destruct (get_asn1_cases c v) as [(_ & H78 & _ & _ & _ & _ & ->)|[_ ->]]; cbn [fst]; [|split; assumption].
    apply ctrl_cwf. split; [exact Hc|]. ctxs. rewrite firstn_length, skipn_length. lia.
Qed.
Lemma reachable_cwf c : reachable c -> cwf2 c.
Proof.
  intros (ops & HF & ->). assert (Hf : cwf2 fresh_ctx) by (split; [apply fresh_cwf|reflexivity]).
  revert Hf. generalize fresh_ctx as c. induction HF as [|o ops Ho _ IH]; intros c Hc; [exact Hc|].
  cbn [fold_left]. apply IH, run_op_cwf; assumption.
Qed.

(** ** API statements *)
Lemma cipher_stream rnd c0 k iv sb e ds : mask_wf rnd -> bytesn 32 k -> bytesn 8 iv -> bytesn 64 (the_sbox sb) ->
  Forall (fun d => bytes d /\ d <> [] /\ N.of_nat (length d) < 2 ^ 31) ds ->
  let r := updates (start rnd c0 k iv sb e) ds in
  snd r = cfb_stream e (encrypt (packed_sbox (the_sbox sb)) k) iv (concat ds) /\
  snd (fst r) = map (fun d => Z.of_nat (length d)) ds.
Proof.
  intros Hr Hk Hiv Hp Hds r. unfold r.
  destruct (start_setup rnd c0 k iv sb e Hr (proj2 Hiv)) as (H1 & H2 & H3 & H4 & H5).
  rewrite (stream_ok _ _ _ _ _ ds H1 H2 H3 H4 Hp Hk); [|rewrite H5; assumption|eapply Forall_impl; [|exact Hds]; intros a (A & B & C); split; assumption
    |eapply Forall_impl; [|exact Hds]; intros a (A & B & C); assumption].
  cbn [fst snd]. rewrite H5. split; reflexivity.
Qed.

Lemma encrypt_length S k b : length (encrypt S k b) = 8%nat.
Proof. unfold encrypt, block_cipher. rewrite app_length, !le_bytes_length. reflexivity. Qed.

Lemma cipher_roundtrip rnd1 rnd2 c1 c2 k iv sb ds ds' : mask_wf rnd1 -> mask_wf rnd2 -> bytesn 32 k -> bytesn 8 iv -> bytesn 64 (the_sbox sb) ->
  Forall (fun d => bytes d /\ d <> [] /\ N.of_nat (length d) < 2 ^ 31) ds ->
  Forall (fun d => bytes d /\ d <> [] /\ N.of_nat (length d) < 2 ^ 31) ds' ->
  concat ds' = snd (updates (start rnd1 c1 k iv sb true) ds) ->
  snd (updates (start rnd2 c2 k iv sb false) ds') = concat ds.
Proof.
  intros Hr1 Hr2 Hk Hiv Hp Hds Hds' He.
  destruct (cipher_stream rnd1 c1 k iv sb true ds Hr1 Hk Hiv Hp Hds) as [E1 _].
  destruct (cipher_stream rnd2 c2 k iv sb false ds' Hr2 Hk Hiv Hp Hds') as [E2 _].
  rewrite E2, He, E1. apply cfb_stream_inverse. intros b. apply encrypt_length.
Qed.

Lemma do_cipher_codes c m dst src inl :
  (src = None -> inl = 0 -> do_cipher c m dst src inl = (c, m, 0%Z)) /\
  (src = None -> inl <> 0 -> do_cipher c m dst src inl = (c, m, (-1)%Z)) /\
  (src <> None -> inl = 0 -> do_cipher c m dst src inl = (c, m, (-1)%Z)).
Proof.
  unfold do_cipher. split; [|split]; intros H1 H2.
  - subst. reflexivity.
  - subst src. destruct (N.eqb_spec inl 0); [congruence|reflexivity].
  - destruct src; [|congruence]. subst. reflexivity.
Qed.
Lemma do_cipher_writes c m dst src inl : reachable c -> 0 < inl < 2 ^ 31 -> dst = src \/ dst + inl <= src \/ src + inl <= dst ->
  let r := do_cipher c m dst (Some src) inl in
  snd r = Z.of_N inl /\ (forall x, x < dst \/ dst + inl <= x -> snd (fst r) x = m x).
Proof.
  intros Hr Hl Hd. destruct (reachable_cwf c Hr) as [Hc _]. cbv zeta. rewrite do_cipher_ok by (assumption || lia).
  cbn [fst snd]. split; [reflexivity|]. intros x Hx. apply wr_out. rewrite bsteps_length, rd_length. lia.
Qed.
Lemma do_cipher_layout c m dst src inl : reachable c -> 0 < inl < 2 ^ 31 -> dst = src \/ dst + inl <= src \/ src + inl <= dst ->
  let n := N.to_nat inl in
  let r := do_cipher c m dst (Some src) inl in
  let u := update c (rd m src n) in
  fst (fst r) = fst (fst u) /\ snd r = snd (fst u) /\ rd (snd (fst r)) dst n = snd u /\
  (forall x, x < dst \/ dst + inl <= x -> snd (fst r) x = m x).
Proof.
  intros Hr Hl Hd n r u. destruct (do_cipher_writes c m dst src inl Hr Hl Hd) as [_ Hw].
  destruct (reachable_cwf c Hr) as [Hc _].
  assert (Hlen : length (rd m src n) = n) by apply rd_length.
  assert (Hne : rd m src n <> []) by (intros E; rewrite E in Hlen; cbn [length] in Hlen; unfold n in Hlen; lia).
  assert (HinlN : N.of_nat n = inl) by (unfold n; lia).
  assert (Hok : upd_ok (rd m src n)) by (split; [assumption|rewrite Hlen; lia]).
  pose proof (update_ok c (rd m src n) Hc Hok) as Hu. cbv zeta in Hu.
  rewrite Hlen, HinlN in Hu. unfold u. rewrite Hu. clear Hu u.
  pose proof (do_cipher_ok c m src dst inl Hc Hl ltac:(lia)) as Hdc. cbv zeta in Hdc. fold n in Hdc.
  unfold r in *. rewrite Hdc in *. cbn [fst snd] in *.
  split; [reflexivity|]. split; [lia|]. split; [|exact Hw].
  set (o := snd (bsteps (presync c inl) (rd m src n))).
  assert (Ho : length o = n) by (unfold o; rewrite bsteps_length; assumption).
  rewrite <- Ho. apply rd_wr_same.
Qed.

(** The S-box control at a block boundary. *)
Lemma ctrl_stream p0 k oiv e c p ds : setup p0 k oiv e c -> cwf c -> c_num c = 0 ->
  bytesn 32 k -> bytesn 8 oiv -> bytesn 64 p ->
  Forall (fun d => bytes d /\ d <> [] /\ N.of_nat (length d) < 2 ^ 31) ds ->
  snd (updates (fst (fst (cipher_ctrl c DSTU_SET_CUSTOM_SBOX 64 (Some p)))) ds) =
  cfb_stream e (encrypt (packed_sbox p) k) oiv (concat ds).
Proof.
  intros Hset Hc Hn Hk Hiv Hp Hds. destruct (ctrl_setup _ _ _ _ _ p Hset Hc (proj2 Hiv)) as (A1 & A2 & A3 & A4 & A5).
  rewrite Hn in A4. cbv zeta in *. set (c' := fst (fst (cipher_ctrl c DSTU_SET_CUSTOM_SBOX 64 (Some p)))) in *.
  rewrite (stream_ok _ _ _ _ _ ds A1 A2 A3 A4 Hp Hk); [|rewrite A5; assumption|eapply Forall_impl; [|exact Hds]; intros a (A & B & C); split; assumption
    |eapply Forall_impl; [|exact Hds]; intros a (A & B & C); assumption].
  cbn [snd]. now rewrite A5.
Qed.
Lemma updates_state rnd c0 k iv sb e ds : mask_wf rnd -> bytesn 8 iv ->
  Forall (fun d => bytes d /\ d <> [] /\ N.of_nat (length d) < 2 ^ 31) ds ->
  let c := fst (fst (updates (start rnd c0 k iv sb e) ds)) in
  setup (the_sbox sb) k iv e c /\ cwf c /\ synced c /\ c_num c = (7 * N.of_nat (length (concat ds))) mod 8.
Proof.
  intros Hr Hiv Hds c. destruct (start_setup rnd c0 k iv sb e Hr (proj2 Hiv)) as (H1 & H2 & H3 & H4 & H5).
  unfold c. rewrite updates_ok; [|assumption..|eapply Forall_impl; [|exact Hds]; intros a (A & B & C); split; assumption].
  cbn [fst]. split; [apply setup_bsteps, H1|]. split; [apply cwf_bsteps, H2|]. split; [apply synced_bsteps, H3|].
  rewrite bsteps_num by apply H2. rewrite H4. reflexivity.
Qed.
Lemma ctrl_restart rnd c0 k iv sb e ds p ds' : mask_wf rnd -> bytesn 32 k -> bytesn 8 iv -> bytesn 64 p ->
  Forall (fun d => bytes d /\ d <> [] /\ N.of_nat (length d) < 2 ^ 31) ds ->
  Forall (fun d => bytes d /\ d <> [] /\ N.of_nat (length d) < 2 ^ 31) ds' ->
  (length (concat ds) mod 8 = 0)%nat ->
  let c := fst (fst (updates (start rnd c0 k iv sb e) ds)) in
  let r := cipher_ctrl c DSTU_SET_CUSTOM_SBOX 64 (Some p) in
  snd (fst r) = 1%Z /\ snd (updates (fst (fst r)) ds') = cfb_stream e (encrypt (packed_sbox p) k) iv (concat ds').
Proof.
  intros Hr Hk Hiv Hp Hds Hds' Hal c r. destruct (updates_state rnd c0 k iv sb e ds Hr Hiv Hds) as (H1 & H2 & H3 & H4).
  split; [reflexivity|]. unfold r. eapply ctrl_stream; try eassumption. fold c in H4. rewrite H4.
  lia.
Qed.

(** Export and import of parameters. *)
Lemma export_ok rnd c0 k iv sb e ds stale : mask_wf rnd -> bytesn 8 iv -> bytesn 64 (the_sbox sb) ->
  Forall (fun d => bytes d /\ d <> [] /\ N.of_nat (length d) < 2 ^ 31) ds -> rows16 stale ->
  set_asn1 (fst (fst (updates (start rnd c0 k iv sb e) ds))) stale = ASN1 V_ASN1_SEQUENCE (der_params iv (the_sbox sb)).
Proof.
  intros Hr Hiv Hp Hds Hst. destruct (updates_state rnd c0 k iv sb e ds Hr Hiv Hds) as ((rnd' & g0 & H1 & H2 & H3 & H4) & _ & _ & _).
  unfold set_asn1. rewrite H2, H3, get_sbox_api by (assumption || apply unpack_wf). rewrite pack_unpack by assumption.
  unfold der_params, der. destruct Hiv as [_ Hiv], Hp as [_ Hp].
  rewrite app_length. cbn [length]. rewrite Hiv, Hp. reflexivity.
Qed.
Lemma import_der c iv p : bytesn 8 iv -> bytesn 64 p ->
  get_asn1 c (ASN1 V_ASN1_SEQUENCE (der_params iv p)) =
  (fst (fst (cipher_ctrl (set_oiv c iv) DSTU_SET_CUSTOM_SBOX 64 (Some p))), 1%Z).
Proof.
  intros [_ Hiv] [_ Hp]. explode iv.
  match goal with |- get_asn1 _ ?v = _ => destruct (get_asn1_cases c v) as [(_ & _ & _ & _ & _ & _ & E)|[E _]] end.
  - rewrite E. reflexivity.
  - exfalso. apply E. unfold der_params, der. cbn [a_type a_data app length nth]. rewrite Hp. repeat split.
Qed.
Lemma import_stream rnd c0 k iv0 e iv p ds : mask_wf rnd -> bytesn 32 k -> bytesn 8 iv -> bytesn 64 p ->
  (iv0 = None -> c_num c0 = 0 /\ length (c_iv c0) = 8%nat /\ length (c_buf c0) = 8%nat) -> (forall v, iv0 = Some v -> bytesn 8 v) ->
  Forall (fun d => bytes d /\ d <> [] /\ N.of_nat (length d) < 2 ^ 31) ds ->
  let r := get_asn1 (evp_init rnd c0 (Some k) iv0 e) (ASN1 V_ASN1_SEQUENCE (der_params iv p)) in
  snd r = 1%Z /\ snd (updates (fst r) ds) = cfb_stream e (encrypt (packed_sbox p) k) iv (concat ds).
Proof.
  intros Hr Hk Hiv Hp Hn0 Hiv0 Hds r. unfold r. rewrite import_der by assumption. cbn [fst snd]. split; [reflexivity|].
  apply ctrl_stream with (p0 := default_sbox) (k := k); try assumption.
  - destruct iv0; evp; (exists rnd, (c_g c0); auto).
  - destruct iv0 as [v|]; evp; unfold cwf; cbn [c_num c_iv c_buf set_oiv].
    + destruct (Hiv0 v eq_refl) as [_ Hv]. rewrite gostcrypt_length. lia.
    + destruct (Hn0 eq_refl) as (A & B & C). lia.
  - destruct iv0 as [v|]; evp; [reflexivity|apply Hn0; reflexivity].
Qed.

Lemma refill_num c : c_num (refill c) = c_num c. Proof. reflexivity. Qed.
Lemma updates_refill c d ds : cwf c -> c_num c = 0 -> upd_ok d -> (8 <= length d)%nat ->
  updates c (d :: ds) = updates (refill c) (d :: ds).
Proof.
  intros Hc Hn Hok Hd. cbn [updates].
  assert (Hcr : cwf (refill c)) by (destruct Hc as (A & B & C); unfold cwf; ctxs; rewrite gostcrypt_length; lia).
  rewrite (update_ok c d Hc Hok), (update_ok (refill c) d Hcr Hok).
  assert (Hp : presync (refill c) (N.of_nat (length d)) = presync c (N.of_nat (length d))).
  { unfold presync. rewrite refill_num, Hn.
    destruct (N.leb_spec 8 (N.of_nat (length d))); [|lia]. cbn [N.eqb andb]. apply refill_refill. }
  rewrite Hp. reflexivity.
Qed.
Lemma cfb_session rnd g0 k iv e ds p : mask_wf rnd -> bytesn 32 k -> bytesn 8 iv -> bytesn 64 p ->
  Forall (fun d => bytes d /\ d <> [] /\ N.of_nat (length d) < 2 ^ 31) ds ->
  let g := gost_key rnd (gost_init g0 (Some (unpack_sbox p))) k in
  snd (updates (CIPH e 0 iv iv (gostcrypt g iv) g) ds) = cfb_stream e (encrypt (packed_sbox p) k) iv (concat ds).
Proof.
  intros Hr Hk Hiv Hp Hds g. set (c := CIPH _ _ _ _ _ _).
  assert (H1 : setup p k iv e c) by (exists rnd, g0; auto).
  rewrite (stream_ok p k iv e c ds H1); try assumption; [reflexivity| |intros _; reflexivity|reflexivity
    |eapply Forall_impl; [|exact Hds]; intros a (A & B & C); split; assumption
    |eapply Forall_impl; [|exact Hds]; intros a (A & B & C); assumption].
  split; [reflexivity|]. split; [apply Hiv|]. apply gostcrypt_length.
Qed.
(** Orders of key and IV. *)
Lemma key_then_iv rnd r2 c0 k iv0 e0 iv e ds : mask_wf rnd -> bytesn 32 k -> bytesn 8 iv ->
  Forall (fun d => bytes d /\ d <> [] /\ N.of_nat (length d) < 2 ^ 31) ds ->
  snd (updates (evp_init r2 (evp_init rnd c0 (Some k) iv0 e0) None (Some iv) e) ds) =
  cfb_stream e (encrypt (packed_sbox default_sbox) k) iv (concat ds).
Proof.
  intros Hr Hk Hiv Hds.
  assert (Hc : evp_init r2 (evp_init rnd c0 (Some k) iv0 e0) None (Some iv) e =
    let g := gost_key rnd (dflt (c_g c0)) k in CIPH e 0 iv iv (gostcrypt g iv) g).
  { destruct iv0; evp; rewrite dflt_key; reflexivity. }
  rewrite Hc. apply (cfb_session rnd (c_g c0) k iv e ds default_sbox Hr Hk Hiv default_bytesn Hds).
Qed.
Lemma iv_then_key rnd r1 c0 k iv e0 e d ds : mask_wf rnd -> bytesn 32 k -> bytesn 8 iv ->
  Forall (fun d => bytes d /\ d <> [] /\ N.of_nat (length d) < 2 ^ 31) (d :: ds) -> (8 <= length d)%nat ->
  snd (updates (evp_init rnd (evp_init r1 c0 None (Some iv) e0) (Some k) None e) (d :: ds)) =
  cfb_stream e (encrypt (packed_sbox default_sbox) k) iv (concat (d :: ds)).
Proof.
  intros Hr Hk Hiv Hds Hd. evp. pose proof (Forall_inv Hds) as (A & B & C).
  rewrite updates_refill; [|split; [reflexivity|split; [apply Hiv|apply gostcrypt_length]]|reflexivity|split; assumption|assumption].
  cbv beta iota zeta delta [refill set_buf c_enc c_iv c_g c_num c_buf c_oiv].
  apply (cfb_session rnd (dflt (c_g c0)) k iv e (d :: ds) default_sbox Hr Hk Hiv default_bytesn Hds).
Qed.

(** ** Counterexamples *)
Definition wk : list N := map N.of_nat (seq 0 32).
Definition wiv : list N := [7;6;5;4;3;2;1;0].
Lemma wk_ok : bytesn 32 wk. Proof. split; [repeat constructor|reflexivity]. Qed.
Lemma wiv_ok : bytesn 8 wiv. Proof. split; [repeat constructor|reflexivity]. Qed.
Lemma wmask_ok : mask_wf (zeros 8). Proof. split; [reflexivity|repeat constructor]. Qed.
Lemma wp_ok : bytesn 64 (rev default_sbox).
Proof. destruct default_bytesn as [A B]. split; [apply bytes_rev, A|rewrite rev_length; exact B]. Qed.
#[local] Transparent gostcrypt gost_init gost_key unpack_sbox default_sbox.
Lemma iv_then_key_bad : ~ (forall rnd r1 k iv enc ds, mask_wf rnd -> bytesn 32 k -> bytesn 8 iv -> pieces ds ->
  snd (updates (evp_init rnd (evp_init r1 fresh_ctx None (Some iv) enc) (Some k) None enc) ds) =
  cfb_stream enc (encrypt (packed_sbox default_sbox) k) iv (concat ds)).
Proof.
  intros H. specialize (H (zeros 8) (zeros 8) wk wiv true [[1;2;3]] wmask_ok wk_ok wiv_ok).
  assert (Hp : pieces [[1;2;3]]) by (constructor; [split; [repeat constructor|split; [discriminate|reflexivity]]|constructor]).
  specialize (H Hp). vm_compute in H. discriminate.
Qed.
Lemma params_then_key_bad : ~ (forall rnd r1 k iv p enc d, mask_wf rnd -> bytesn 32 k -> bytesn 8 iv -> bytesn 64 p ->
  pieces [d] -> (8 <= length d)%nat ->
  let c1 := fst (get_asn1 (evp_init r1 fresh_ctx None None enc) (ASN1 V_ASN1_SEQUENCE (der_params iv p))) in
  snd (updates (evp_init rnd c1 (Some k) None enc) [d]) =
  cfb_stream enc (encrypt (packed_sbox p) k) iv d).
Proof.
  intros H. specialize (H (zeros 8) (zeros 8) wk wiv (rev default_sbox) true wiv wmask_ok wk_ok wiv_ok wp_ok).
  assert (Hp : pieces [wiv]) by (constructor; [split; [repeat constructor|split; [discriminate|reflexivity]]|constructor]).
  specialize (H Hp ltac:(reflexivity)). vm_compute in H. discriminate.
Qed.
Lemma ctrl_restart_bad : ~ (forall rnd k iv enc ds p ds',
  mask_wf rnd -> bytesn 32 k -> bytesn 8 iv -> bytesn 64 p -> pieces ds -> pieces ds' ->
  let c := fst (fst (updates (start rnd fresh_ctx k iv None enc) ds)) in
  snd (updates (fst (fst (cipher_ctrl c DSTU_SET_CUSTOM_SBOX 64 (Some p)))) ds') =
  cfb_stream enc (encrypt (packed_sbox p) k) iv (concat ds')).
Proof.
  intros H.
  assert (Hp : pieces [[1;2;3]]) by (constructor; [split; [repeat constructor|split; [discriminate|reflexivity]]|constructor]).
  specialize (H (zeros 8) wk wiv true [[1;2;3]] (rev default_sbox) [[1;2;3]] wmask_ok wk_ok wiv_ok wp_ok Hp Hp).
  vm_compute in H. discriminate.
Qed.
