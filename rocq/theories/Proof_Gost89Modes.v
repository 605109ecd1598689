(** ECB, CFB, MAC and key meshing of gost89.c. *)
From Verif Require Import Lib Proof_Gost89.

Lemma rd_bytes m a n : (forall x, is_byte (m x)) -> bytes (rd m a n).
Proof. intros H. revert a; induction n; intros a; simpl; constructor; auto. apply IHn. Qed.

(** ** ECB *)
Lemma ecb_loop_ok (g : list N -> list N) n m src dst :
  (forall b, length (g b) = 8%nat) ->
  dst <= src \/ src + 8 * N.of_nat n <= dst ->
  let m' := ecb_loop (fun m a b => wr m b (g (rd m a 8))) n m src dst in
  rd m' dst (8 * n) = concat (map g (chunks 8 (rd m src (8 * n)))) /\
  (forall x, x < dst \/ dst + 8 * N.of_nat n <= x -> m' x = m x).
Proof.
  intros Hg. revert m src dst. induction n as [|n IH]; intros m src dst Hd m'; [split; [reflexivity|reflexivity]|].
  subst m'. cbn [ecb_loop]. set (m1 := wr m dst (g (rd m src 8))).
  destruct (IH m1 (src + 8) (dst + 8)) as [IH1 IH2]; [lia|].
  set (m' := ecb_loop _ n m1 _ _) in *.
  assert (Hout : forall x, x < dst \/ dst + 8 <= x -> m1 x = m x).
  { intros x Hx. apply wr_out. rewrite Hg. lia. }
  split.
  - replace (8 * S n)%nat with (8 + 8 * n)%nat by lia. rewrite !rd_app.
    rewrite chunks_app by (rewrite ?rd_length; lia). cbn [map concat].
    change (N.of_nat 8) with 8. rewrite IH1. f_equal.
    + rewrite (rd_ext m' m1) by (intros x Hx; apply IH2; lia).
      unfold m1. pose proof (rd_wr_same m dst (g (rd m src 8))) as Hw. rewrite Hg in Hw. exact Hw.
    + do 3 f_equal. apply rd_ext. intros x Hx. apply Hout. lia.
  - intros x Hx. rewrite IH2 by lia. apply Hout. lia.
Qed.

Lemma gost_enc_ok c m src dst blocks : let n := Z.to_nat blocks in
  dst <= src \/ src + 8 * N.of_nat n <= dst ->
  let m' := gost_enc c m src dst blocks in
  rd m' dst (8 * n) = concat (map (gostcrypt c) (chunks 8 (rd m src (8 * n)))) /\
  (forall x, x < dst \/ dst + 8 * N.of_nat n <= x -> m' x = m x).
Proof. intros n Hd. apply (ecb_loop_ok (gostcrypt c) n m src dst); [intros b; apply gostcrypt_bytesn|exact Hd]. Qed.
Lemma gost_dec_ok c m src dst blocks : let n := Z.to_nat blocks in
  dst <= src \/ src + 8 * N.of_nat n <= dst ->
  let m' := gost_dec c m src dst blocks in
  rd m' dst (8 * n) = concat (map (gostdecrypt c) (chunks 8 (rd m src (8 * n)))) /\
  (forall x, x < dst \/ dst + 8 * N.of_nat n <= x -> m' x = m x).
Proof. intros n Hd. apply (ecb_loop_ok (gostdecrypt c) n m src dst); [intros b; apply gostdecrypt_bytesn|exact Hd]. Qed.

(** pieces of 8 bytes *)
Lemma chunks_pieces k l : length l = (8 * k)%nat -> bytes l -> Forall (bytesn 8) (chunks 8 l).
Proof.
  revert l; induction k as [|k IH]; intros l Hl Hb.
  - destruct l; [constructor|simpl in Hl; lia].
  - rewrite chunks_cons by (try lia; intros ->; simpl in Hl; lia). constructor.
    + split; [apply bytes_firstn, Hb|rewrite firstn_length; lia].
    + apply IH; [rewrite skipn_length; lia|apply bytes_skipn, Hb].
Qed.
Lemma chunks_of_concat ls : Forall (fun l => length l = 8%nat) ls -> chunks 8 (concat ls) = ls.
Proof.
  induction 1 as [|l ls Hl H IH]; [reflexivity|]. cbn [concat].
  rewrite chunks_app, IH by (assumption || lia). reflexivity.
Qed.
Lemma map_len8 (g : list N -> list N) (Hg : forall b, length (g b) = 8%nat) (ls : list (list N)) : Forall (fun l => length l = 8%nat) (map g ls).
Proof. apply Forall_map. apply Forall_forall. intros; apply Hg. Qed.

Lemma ecb_roundtrip c l k : ctx_wf c -> length l = (8 * k)%nat -> bytes l ->
  concat (map (gostdecrypt c) (chunks 8 (concat (map (gostcrypt c) (chunks 8 l))))) = l.
Proof.
  intros Hc Hl Hb. rewrite chunks_of_concat by (apply map_len8; intros b; apply gostcrypt_bytesn).
  rewrite map_map. rewrite (map_ext_in _ (fun x => x)).
  - rewrite map_id. apply chunks_concat. lia.
  - intros x Hx. apply gost_dec_enc; [exact Hc|]. pose proof (chunks_pieces k l Hl Hb) as HF.
    rewrite Forall_forall in HF. apply HF, Hx.
Qed.

(** ** CFB *)
Lemma cfb_enc_bytes_ok g : forall m src dst, dst <= src \/ src + N.of_nat (length g) <= dst ->
  cfb_enc_bytes m src dst g =
  (wr m dst (xorl (rd m src (length g)) g), xorl (rd m src (length g)) g).
Proof.
  induction g as [|x g IH]; intros m src dst Hd; [reflexivity|].
  cbn [cfb_enc_bytes length rd xorl wr]. rewrite IH by (cbn [length] in Hd; lia).
  assert (He : rd (upd m dst (N.lxor (m src) x)) (src + 1) (length g) = rd m (src + 1) (length g)).
  { apply rd_ext. intros y Hy. apply upd_other. cbn [length] in Hd. lia. }
  rewrite He. reflexivity.
Qed.
Lemma cfb_dec_bytes_ok g : forall m src dst, dst <= src \/ src + N.of_nat (length g) <= dst ->
  cfb_dec_bytes m src dst g =
  (wr m dst (xorl (rd m src (length g)) g), rd m src (length g)).
Proof.
  induction g as [|x g IH]; intros m src dst Hd; [reflexivity|].
  cbn [cfb_dec_bytes length rd xorl wr]. rewrite IH by (cbn [length] in Hd; lia).
  assert (He : rd (upd m dst (N.lxor (m src) x)) (src + 1) (length g) = rd m (src + 1) (length g)).
  { apply rd_ext. intros y Hy. apply upd_other. cbn [length] in Hd. lia. }
  rewrite He. reflexivity.
Qed.

Lemma cfb_loop_ok bytef step c (go : list N -> list (list N) -> list (list N)) :
  (forall iv, go iv [] = []) ->
  (forall iv p t, go iv (p :: t) = xorl p (gostcrypt c iv) :: go (step p (gostcrypt c iv)) t) ->
  (forall m src dst g, length g = 8%nat -> dst <= src \/ src + 8 <= dst ->
     let p := rd m src 8 in bytef m src dst g = (wr m dst (xorl p g), step p g)) ->
  forall n iv m src dst,
  dst <= src \/ src + 8 * N.of_nat n <= dst ->
  let m' := cfb_loop bytef c n iv m src dst in
  rd m' dst (8 * n) = concat (go iv (chunks 8 (rd m src (8 * n)))) /\
  (forall x, x < dst \/ dst + 8 * N.of_nat n <= x -> m' x = m x).
Proof.
  intros Hgo0 Hgo1 Hbf. induction n as [|n IH]; intros iv m src dst Hd m'; [rewrite Hgo0; split; reflexivity|].
  subst m'. cbn [cfb_loop].
  assert (Hg : length (gostcrypt c iv) = 8%nat) by apply gostcrypt_bytesn.
  rewrite Hbf by (auto; lia).
  set (m1 := wr m dst (xorl (rd m src 8) (gostcrypt c iv))).
  set (iv1 := step (rd m src 8) (gostcrypt c iv)).
  destruct (IH iv1 m1 (src + 8) (dst + 8)) as [IH1 IH2]; [lia|].
  set (m' := cfb_loop bytef c n iv1 m1 (src + 8) (dst + 8)) in *.
  assert (Hx8 : length (xorl (rd m src 8) (gostcrypt c iv)) = 8%nat) by (rewrite xorl_length, rd_length, Hg; reflexivity).
  assert (Hout : forall x, x < dst \/ dst + 8 <= x -> m1 x = m x) by (intros x Hx; apply wr_out; rewrite Hx8; lia).
  split.
  - replace (8 * S n)%nat with (8 + 8 * n)%nat by lia. rewrite !rd_app.
    rewrite chunks_app by (rewrite ?rd_length; lia). rewrite Hgo1. cbn [concat].
    change (N.of_nat 8) with 8. rewrite IH1. f_equal.
    + rewrite (rd_ext m' m1) by (intros x Hx; apply IH2; lia).
      unfold m1. pose proof (rd_wr_same m dst (xorl (rd m src 8) (gostcrypt c iv))) as Hw. rewrite Hx8 in Hw. exact Hw.
    + do 3 f_equal. apply rd_ext. intros x Hx. apply Hout. lia.
  - intros x Hx. rewrite IH2 by lia. apply Hout. lia.
Qed.

Lemma gost_enc_cfb_ok c iv m src dst blocks : let n := Z.to_nat blocks in
  dst <= src \/ src + 8 * N.of_nat n <= dst ->
  let m' := gost_enc_cfb c iv m src dst blocks in
  rd m' dst (8 * n) = concat (cfb_encrypt (gostcrypt c) iv (chunks 8 (rd m src (8 * n)))) /\
  (forall x, x < dst \/ dst + 8 * N.of_nat n <= x -> m' x = m x).
Proof.
  intros n Hd.
  apply (cfb_loop_ok cfb_enc_bytes (fun p g => xorl p g) c (cfb_encrypt (gostcrypt c))); [reflexivity|reflexivity| |exact Hd].
  intros m0 s d g Hg Hsd p. rewrite cfb_enc_bytes_ok by (rewrite Hg; lia). rewrite Hg. reflexivity.
Qed.
Lemma gost_dec_cfb_ok c iv m src dst blocks : let n := Z.to_nat blocks in
  dst <= src \/ src + 8 * N.of_nat n <= dst ->
  let m' := gost_dec_cfb c iv m src dst blocks in
  rd m' dst (8 * n) = concat (cfb_decrypt (gostcrypt c) iv (chunks 8 (rd m src (8 * n)))) /\
  (forall x, x < dst \/ dst + 8 * N.of_nat n <= x -> m' x = m x).
Proof.
  intros n Hd.
  apply (cfb_loop_ok cfb_dec_bytes (fun p g => p) c (cfb_decrypt (gostcrypt c))); [reflexivity|reflexivity| |exact Hd].
  intros m0 s d g Hg Hsd p. rewrite cfb_dec_bytes_ok by (rewrite Hg; lia). rewrite Hg. reflexivity.
Qed.

Lemma cfb_dec_enc E iv ps : (forall b, length (E b) = 8%nat) -> Forall (fun p => (length p <= 8)%nat) ps ->
  cfb_decrypt E iv (cfb_encrypt E iv ps) = ps.
Proof.
  intros HE. revert iv; induction ps as [|p ps IH]; intros iv HF; [reflexivity|].
  inversion HF; subst. cbn [cfb_encrypt cfb_decrypt]. rewrite IH by assumption.
  rewrite xorl_cancel by (rewrite HE; assumption). reflexivity.
Qed.
Lemma cfb_enc_dec E iv cs : (forall b, length (E b) = 8%nat) -> Forall (fun p => (length p <= 8)%nat) cs ->
  cfb_encrypt E iv (cfb_decrypt E iv cs) = cs.
Proof.
  intros HE. revert iv; induction cs as [|p ps IH]; intros iv HF; [reflexivity|].
  inversion HF; subst. cbn [cfb_encrypt cfb_decrypt].
  rewrite xorl_cancel by (rewrite HE; assumption). rewrite IH by assumption. reflexivity.
Qed.

(** [encrypt] only looks at loaded contexts *)
Lemma cfb_encrypt_ext E E' iv ps : (forall b, bytesn 8 b -> E b = E' b) -> (forall b, bytesn 8 (E' b)) ->
  bytesn 8 iv -> Forall (bytesn 8) ps -> cfb_encrypt E iv ps = cfb_encrypt E' iv ps.
Proof.
  intros He HE. revert iv; induction ps as [|p ps IH]; intros iv Hiv HF; [reflexivity|].
  inversion HF; subst. cbn [cfb_encrypt]. rewrite He by assumption. f_equal. apply IH; [|assumption].
  apply xorl_bytesn; auto.
Qed.
Lemma cfb_decrypt_ext E E' iv ps : (forall b, bytesn 8 b -> E b = E' b) ->
  bytesn 8 iv -> Forall (bytesn 8) ps -> cfb_decrypt E iv ps = cfb_decrypt E' iv ps.
Proof.
  intros He. revert iv; induction ps as [|p ps IH]; intros iv Hiv HF; [reflexivity|].
  inversion HF; subst. cbn [cfb_decrypt]. rewrite He by assumption. f_equal. apply IH; assumption.
Qed.

(** ** MAC *)
Lemma mac_loop_ok c fuel : forall pre rest buffer,
  let data := pre ++ rest in let len := N.of_nat (length data) in
  len < 2 ^ 32 - 8 -> (length rest / 8 < fuel)%nat ->
  let q := (length rest / 8)%nat in
  mac_loop fuel c data len (N.of_nat (length pre)) buffer =
  LDone (N.of_nat (length pre + 8 * q)) (fold_left (mac_block c) (chunks 8 (firstn (8 * q) rest)) buffer).
Proof.
  induction fuel as [|fuel IH]; intros pre rest buffer data len Hlen Hf q; [lia|].
  cbn [mac_loop]. assert (HL : length data = (length pre + length rest)%nat) by apply app_length.
  unfold w32. rewrite N.mod_small by lia.
  destruct (N.leb_spec (N.of_nat (length pre) + 8) len) as [Hle|Hgt].
  - assert (Hr : (8 <= length rest)%nat) by lia.
    unfold data_blk. fold len. destruct (N.leb_spec (N.of_nat (length pre) + 8) len); [|lia].
    rewrite Nat2N.id. unfold data at 2. rewrite skipn_app, skipn_all, Nat.sub_diag. cbn [app]. change (skipn 0 rest) with rest.
    assert (Hspl : data = (pre ++ firstn 8 rest) ++ skipn 8 rest) by (rewrite <- app_assoc, firstn_skipn; reflexivity).
    assert (Hf8 : length (firstn 8 rest) = 8%nat) by (rewrite firstn_length; lia).
    assert (Hs8 : length (skipn 8 rest) = (length rest - 8)%nat) by apply skipn_length.
    assert (Hq : q = S (length (skipn 8 rest) / 8)) by lia.
    specialize (IH (pre ++ firstn 8 rest) (skipn 8 rest) (mac_block c buffer (firstn 8 rest))).
    cbv zeta in IH. rewrite <- Hspl in IH. fold len in IH.
    rewrite app_length, Hf8 in IH.
    replace (N.of_nat (length pre + 8)) with (N.of_nat (length pre) + 8) in IH by lia.
    rewrite IH by lia. f_equal; [lia|].
    assert (Hfn : firstn (8 * q) rest = firstn 8 rest ++ firstn (8 * (length (skipn 8 rest) / 8)) (skipn 8 rest)).
    { rewrite <- (firstn_skipn 8 rest) at 1. rewrite firstn_app, Hf8.
      rewrite firstn_all2 by lia. do 2 f_equal. lia. }
    rewrite Hfn, chunks_app by (assumption || lia). reflexivity.
  - assert (q = 0%nat) by lia. rewrite H. cbn [Nat.mul firstn fold_left]. rewrite chunks_nil.
    cbn [fold_left]. f_equal. lia.
Qed.

Definition pad8 (b : list N) : list N := b ++ zeros (8 - length b).
Lemma pad8_full b : length b = 8%nat -> pad8 b = b.
Proof. intros H. unfold pad8. rewrite H. apply app_nil_r. Qed.
Lemma pad8_bytesn b : bytes b -> (length b <= 8)%nat -> bytesn 8 (pad8 b).
Proof. intros Hb Hl. split; [apply bytes_app; [exact Hb|apply bytes_zeros]|unfold pad8; rewrite app_length, length_zeros; lia]. Qed.

Lemma map_pad8_full ls : Forall (bytesn 8) ls -> map pad8 ls = ls.
Proof. induction 1 as [|l ls [_ Hl] H IH]; [reflexivity|]. cbn [map]. rewrite pad8_full, IH by assumption. reflexivity. Qed.

Lemma fold_mac_ext S k c ls : loaded S k c -> Forall (bytesn 8) ls -> forall st, bytesn 8 st ->
  fold_left (mac_block c) ls st = fold_left (mac_step S k) ls st.
Proof.
  intros HL. induction 1 as [|l ls Hl H IH]; intros st Hst; [reflexivity|]. cbn [fold_left].
  rewrite (mac_block_spec S k) by assumption. apply IH. apply mac_step_bytesn.
Qed.
Lemma fold_mac_bytesn S k ls st : bytesn 8 st -> bytesn 8 (fold_left (mac_step S k) ls st).
Proof. revert st; induction ls as [|l ls IH]; intros st H; [exact H|]. cbn [fold_left]. apply IH, mac_step_bytesn. Qed.

Lemma mac_blocks_split data : let q := (length data / 8)%nat in
  map pad8 (chunks 8 data) =
  chunks 8 (firstn (8 * q) data) ++ (match skipn (8 * q) data with [] => [] | r => [pad8 r] end).
Proof.
  intros q. remember (length data) as n eqn:Hn. revert data Hn q.
  induction n as [n IH] using lt_wf_ind. intros data Hn q.
  destruct (Nat.lt_ge_cases (length data) 8) as [Hlt|Hge].
  - assert (q = 0%nat) by lia. rewrite H. cbn [Nat.mul firstn skipn]. rewrite chunks_nil. cbn [app].
    destruct data as [|x data]; [reflexivity|].
    rewrite chunks_cons by (lia || discriminate). rewrite firstn_all2, skipn_all2 by lia. reflexivity.
  - assert (Hne : data <> []) by (intros ->; simpl in Hge; lia).
    assert (Hf8 : length (firstn 8 data) = 8%nat) by (rewrite firstn_length; lia).
    assert (Hs8 : length (skipn 8 data) = (n - 8)%nat) by (rewrite skipn_length; lia).
    specialize (IH (n - 8)%nat ltac:(lia) (skipn 8 data) (eq_sym Hs8)). cbv zeta in IH.
    rewrite chunks_cons by (lia || assumption). cbn [map]. rewrite pad8_full, IH by assumption.
    assert (Hq : (8 * q = 8 + 8 * ((n - 8) / 8))%nat) by lia.
    assert (Hfn : firstn (8 * q) data = firstn 8 data ++ firstn (8 * ((n - 8) / 8)) (skipn 8 data)).
    { rewrite <- (firstn_skipn 8 data) at 1. rewrite firstn_app, Hf8, Hq.
      rewrite firstn_all2 by lia. do 2 f_equal. lia. }
    assert (Hsn : skipn (8 * q) data = skipn (8 * ((n - 8) / 8)) (skipn 8 data)).
    { rewrite Hq, skipn_add. reflexivity. }
    rewrite Hfn, Hsn, chunks_app by (assumption || lia). reflexivity.
Qed.

Lemma chunks8_length q l : length l = (8 * q)%nat -> length (chunks 8 l) = q.
Proof.
  revert l; induction q as [|q IH]; intros l Hl.
  - destruct l; [reflexivity|simpl in Hl; lia].
  - rewrite chunks_cons by (try lia; intros ->; simpl in Hl; lia). cbn [length].
    rewrite IH by (rewrite skipn_length; lia). reflexivity.
Qed.

Lemma get_mac_whole buffer nb : length buffer = 8%nat -> (nb <= 8)%nat ->
  get_mac buffer (8 * Z.of_nat nb) = Some (firstn nb buffer).
Proof.
  intros Hl Hnb. do 9 (destruct nb as [|nb]; [reflexivity|]). lia.
Qed.

(** The whole MAC computation. *)
Lemma mac_from_ok S k c fuel nb buf0 data : loaded S k c -> bytesn 8 buf0 -> bytes data ->
  N.of_nat (length data) < 2 ^ 32 - 8 -> (length data / 8 < fuel)%nat -> (nb <= 8)%nat ->
  mac_from fuel c (8 * Z.of_nat nb) buf0 data = MacOk (firstn nb (mac_full S k buf0 data)).
Proof.
  intros HL Hbuf Hd Hlen Hf Hnb. unfold mac_from. cbv zeta.
  pose proof (mac_loop_ok c fuel [] data buf0) as Hloop. cbv zeta in Hloop.
  cbn [app length Nat.add] in Hloop. change (N.of_nat 0) with 0 in Hloop.
  rewrite Hloop by assumption. clear Hloop.
  set (q := (length data / 8)%nat).
  set (ws := chunks 8 (firstn (8 * q) data)).
  assert (Hq : (8 * q <= length data)%nat) by lia.
  assert (Hws : Forall (bytesn 8) ws).
  { apply (chunks_pieces q); [rewrite firstn_length; lia|apply bytes_firstn, Hd]. }
  assert (Hwl : length ws = q) by (apply chunks8_length; rewrite firstn_length; lia).
  unfold mac_full, mac_blocks. fold pad8.
  change (fun b : list N => b ++ zeros (8 - length b)) with pad8.
  rewrite mac_blocks_split. fold q. fold ws.
  rewrite Nat2N.id.
  rewrite (fold_mac_ext S k c ws) by assumption.
  set (st := fold_left (mac_step S k) ws buf0).
  assert (Hst : bytesn 8 st) by (apply fold_mac_bytesn, Hbuf).
  assert (Hz8 : bytesn 8 (zeros 8)) by (split; [apply bytes_zeros|reflexivity]).
  destruct (skipn (8 * q) data) as [|x r] eqn:Hr.
  - assert (Hlq : (length data = 8 * q)%nat) by (pose proof (skipn_length (8 * q) data) as H; rewrite Hr in H; cbn [length] in H; lia).
    destruct (N.ltb_spec (N.of_nat (8 * q)) (N.of_nat (length data))) as [Hlt|_]; [lia|].
    rewrite app_nil_r.
    destruct (N.eqb_spec (N.of_nat (8 * q)) 8) as [H8|H8].
    + assert (Hq1 : q = 1%nat) by lia. rewrite Hq1 in Hwl. subst st.
      destruct ws as [|w [|w2 ws']]; try discriminate Hwl. cbn [fold_left].
      rewrite (mac_block_spec S k) by (auto using mac_step_bytesn). 
      rewrite get_mac_whole by (auto; apply mac_step_bytesn). reflexivity.
    + assert (Hq1 : q <> 1%nat) by lia. rewrite <- Hwl in Hq1.
      rewrite get_mac_whole by (auto; apply Hst).
      destruct ws as [|w [|w2 ws']]; [reflexivity|cbn [length] in Hq1; lia|reflexivity].
  - assert (Hlr : length (x :: r) = (length data - 8 * q)%nat) by (rewrite <- Hr; apply skipn_length).
    destruct (N.ltb_spec (N.of_nat (8 * q)) (N.of_nat (length data))) as [_|Hge]; [|cbn [length] in Hlr; lia].
    change ((x :: r) ++ zeros (8 - length (x :: r))) with (pad8 (x :: r)).
    assert (Hp : bytesn 8 (pad8 (x :: r))).
    { apply pad8_bytesn; [rewrite <- Hr; apply bytes_skipn, Hd|lia]. }
    rewrite (mac_block_spec S k c st (pad8 (x :: r))) by assumption.
    assert (Hst' : bytesn 8 (mac_step S k st (pad8 (x :: r)))) by apply mac_step_bytesn.
    unfold w32. rewrite N.mod_small by lia.
    destruct (N.eqb_spec (N.of_nat (8 * q) + 8) 8) as [H8|H8].
    + assert (Hq0 : q = 0%nat) by lia. rewrite Hq0 in Hwl. subst st.
      destruct ws as [|w ws']; [|discriminate Hwl]. cbn [fold_left app].
      rewrite (mac_block_spec S k) by (auto using mac_step_bytesn).
      rewrite get_mac_whole by (auto; apply mac_step_bytesn). reflexivity.
    + assert (Hq0 : q <> 0%nat) by lia. rewrite <- Hwl in Hq0.
      rewrite get_mac_whole by (auto; apply Hst').
      assert (Hfl : fold_left (mac_step S k) (ws ++ [pad8 (x :: r)]) buf0 = mac_step S k st (pad8 (x :: r))).
      { rewrite fold_left_app. reflexivity. }
      destruct ws as [|w [|w2 ws']]; [cbn [length] in Hq0; lia| |]; cbn [app] in *; rewrite Hfl; reflexivity.
Qed.

(** ** MAC lengths that are not whole bytes *)
Lemma get_mac_actual_ok buffer nbits : bytesn 8 buffer -> (nbits <= 64)%nat ->
  get_mac buffer (Z.of_nat nbits) = Some (get_mac_actual buffer nbits).
Proof.
  intros [Hb Hl] Hn. unfold get_mac, get_mac_actual.
  assert (Hm : forall x, Z.to_N (Z.land (Z.of_N x) (-1)) = x) by (intros x; rewrite Z.land_m1_r; lia).
  assert (Hm0 : forall x, Z.to_N (Z.land (Z.of_N x) 0) = 0) by (intros x; rewrite Z.land_0_r; reflexivity).
  set (q := (nbits / 8)%nat). set (r := (nbits mod 8)%nat).
  assert (Hs : Z.shiftr (Z.of_nat nbits) 3 = Z.of_nat q).
  { rewrite Z.shiftr_div_pow2 by lia. change (2 ^ 3)%Z with 8%Z. subst q. lia. }
  assert (Hr : Z.land (Z.of_nat nbits) 7 = Z.of_nat r).
  { change 7%Z with (Z.ones 3). rewrite Z.land_ones by lia. change (2 ^ 3)%Z with 8%Z. subst r. lia. }
  rewrite Hs, Hr. rewrite Nat2Z.id. assert (Hq8 : (q <= 8)%nat) by lia. assert (Hr8 : (r < 8)%nat) by lia.
  destruct (Z.ltb_spec 8 (Z.of_nat q)); [lia|].
  assert (Hqr : nbits = (8 * q + r)%nat) by (subst q r; lia).
  clearbody q r. destruct r as [|r].
  - cbn. rewrite app_nil_r. reflexivity.
  - assert (Hq : (q < 8)%nat) by lia.
    destruct (Z.eqb_spec (Z.of_nat (S r)) 0); [lia|].
    rewrite (nth_error_nth' buffer 0) by lia.
    destruct r as [|r].
    + cbn [Z.of_nat]. change ((if (1 <? Z.pos (Pos.of_succ_nat 0))%Z then 1 else 0) - 1)%Z with (-1)%Z. rewrite Hm. reflexivity.
    + destruct (Z.ltb_spec 1 (Z.of_nat (S (S r)))); [|lia]. change (1 - 1)%Z with 0%Z. rewrite Hm0. reflexivity.
Qed.

(** ** the length wrap *)
Lemma mac_loop_wrap c data fuel : 2 ^ 32 - 8 <= N.of_nat (length data) < 2 ^ 32 ->
  forall j buffer, 8 * j < 2 ^ 32 ->
  match mac_loop fuel c data (N.of_nat (length data)) (8 * j) buffer with
  | LDone _ _ => False
  | LFuel => (N.of_nat fuel < 2 ^ 29 - j)
  | LOOB => True
  end.
Proof.
  intros Hl. induction fuel as [|fuel IH]; intros j buffer Hj; cbn [mac_loop]; [lia|].
  assert (Hle : w32 (8 * j + 8) <=? N.of_nat (length data) = true).
  { unfold w32. destruct (N.eq_dec (8 * j) (2 ^ 32 - 8)) as [He|Hne].
    - rewrite He. change ((2 ^ 32 - 8 + 8) mod 2 ^ 32) with 0. lia.
    - rewrite N.mod_small by lia. lia. }
  rewrite Hle. unfold data_blk.
  destruct (N.leb_spec (8 * j + 8) (N.of_nat (length data))) as [Hin|Hout]; [|exact I].
  unfold w32. rewrite N.mod_small by lia. replace (8 * j + 8) with (8 * (j + 1)) by lia.
  specialize (IH (j + 1) (mac_block c buffer (firstn 8 (skipn (N.to_nat (8 * j)) data))) ltac:(lia)).
  destruct (mac_loop _ _ _ _ _ _); [exact IH|exact I|lia].
Qed.
Lemma mac_from_wrap c data buf0 mac_len : 2 ^ 32 - 8 <= N.of_nat (length data) < 2 ^ 32 ->
  (forall fuel m, mac_from fuel c mac_len buf0 data <> MacOk m) /\
  (forall fuel, 2 ^ 29 <= N.of_nat fuel -> mac_from fuel c mac_len buf0 data = MacOOB).
Proof.
  intros Hl. split; intros fuel.
  - intros m. pose proof (mac_loop_wrap c data fuel Hl 0 buf0 ltac:(lia)) as H. rewrite N.mul_0_r in H.
    unfold mac_from. destruct (mac_loop _ _ _ _ _ _); [contradiction|discriminate|discriminate].
  - intros Hf. pose proof (mac_loop_wrap c data fuel Hl 0 buf0 ltac:(lia)) as H. rewrite N.mul_0_r in H.
    unfold mac_from. destruct (mac_loop _ _ _ _ _ _); [contradiction|reflexivity|lia].
Qed.

(** ** key meshing *)
Lemma rd_wr_prefix m a l : rd (wr m a l) a (length l) = l.
Proof. apply rd_wr_same. Qed.
Lemma dec4_ok c src : bytesn 32 src -> dec4 c src = concat (map (gostdecrypt c) (chunks 8 src)).
Proof.
  intros [Hb Hl]. unfold dec4.
  destruct (gost_dec_ok c (wr (fun _ => 0) 0 src) 0 32 4) as [H _]; [right; reflexivity|].
  change (8 * Z.to_nat 4)%nat with 32%nat in H. rewrite H.
  rewrite <- Hl at 1. rewrite rd_wr_same. reflexivity.
Qed.
Lemma meshing_const_bytesn : bytesn 32 CryptoProKeyMeshingKey.
Proof. split; [apply bytesb_ok|]; reflexivity. Qed.

Lemma decrypt_all_bytesn S k l n : length l = (8 * n)%nat ->
  bytesn (8 * n) (concat (map (decrypt S k) (chunks 8 l))).
Proof.
  intros Hl. pose proof (chunks8_length n l Hl) as Hc. rewrite <- Hc. clear.
  induction (chunks 8 l) as [|x ls [IHb IHl]]; [split; [constructor|reflexivity]|].
  cbn [map concat length]. destruct (decrypt_bytesn S k x) as [Hb Hl]. split; [apply bytes_app; assumption|].
  rewrite app_length, Hl, IHl. lia.
Qed.

Lemma cryptopro_meshing_ok S k rnd c iv : loaded S k c -> has_sbox S c -> mask_wf rnd ->
  match iv with Some v => bytesn 8 v | None => True end ->
  let k' := concat (map (decrypt S k) (chunks 8 CryptoProKeyMeshingKey)) in
  let r := cryptopro_key_meshing rnd c iv in
  loaded S k' (fst r) /\ has_sbox S (fst r) /\
  snd r = match iv with Some v => Some (encrypt S k' v) | None => None end.
Proof.
  intros HL HS Hm Hiv k' r.
  assert (Hk' : bytesn 32 k') by (apply (decrypt_all_bytesn S k _ 4); reflexivity).
  assert (Hd : dec4 c CryptoProKeyMeshingKey = k').
  { rewrite dec4_ok by apply meshing_const_bytesn. unfold k'. f_equal. apply map_ext_in.
    intros x Hx. apply gostdecrypt_spec; [exact HL|].
    pose proof (chunks_pieces 4 CryptoProKeyMeshingKey eq_refl (proj1 meshing_const_bytesn)) as HF.
    rewrite Forall_forall in HF. apply HF, Hx. }
  assert (HL' : loaded S k' (fst r)).
  { unfold r, cryptopro_key_meshing. rewrite Hd. cbn [fst]. apply gost_key_loaded; assumption. }
  split; [exact HL'|]. split.
  - unfold r, cryptopro_key_meshing. cbn [fst]. apply loaded_has_sbox_key, HS.
  - unfold r, cryptopro_key_meshing in *. rewrite Hd in *. cbn [fst snd] in *.
    destruct iv as [v|]; [|reflexivity]. f_equal. apply gostcrypt_spec; assumption.
Qed.

Lemma concat_bytesn8 ls : Forall (bytesn 8) ls -> bytesn (8 * length ls) (concat ls).
Proof.
  induction 1 as [|l ls [Hb Hl] H [IHb IHl]]; [split; [constructor|reflexivity]|].
  cbn [concat length]. split; [apply bytes_app; assumption|]. rewrite app_length, IHl, Hl. lia.
Qed.

Lemma acpkm_meshing_ok S k rnd c : loaded S k c -> has_sbox S c -> mask_wf rnd ->
  let k' := swap4 (concat (map (magma_block S k) (chunks 8 ACPKM_D_const))) in
  let c' := acpkm_magma_key_meshing rnd c in
  loaded S k' c' /\ has_sbox S c'.
Proof.
  intros HL HS Hm k' c'.
  assert (He : forall a b d e g h i j, bytes [a;b;d;e;g;h;i;j] ->
            let kb := gostcrypt c [j;i;h;g;e;d;b;a] in
            sub_bytes kb 4 4 ++ sub_bytes kb 0 4 = swap4 (magma_block S k [a;b;d;e;g;h;i;j])).
  { intros a b d e g h i j Hb kb. unfold kb. rewrite (gostcrypt_spec S k).
    - unfold magma_block. cbn [rev app]. destruct (encrypt_bytesn S k [j;i;h;g;e;d;b;a]) as [_ Hl].
      destruct (encrypt S k _) as [|x0 [|x1 [|x2 [|x3 [|x4 [|x5 [|x6 [|x7 [|]]]]]]]]]; try discriminate Hl. reflexivity.
    - exact HL.
    - split; [apply (bytes_rev [a;b;d;e;g;h;i;j]); exact Hb|reflexivity]. }
  assert (Hk : flat_map (fun i =>
      let buf := map (fun j => nth (8 * i + 7 - j) ACPKM_D_const 0) (seq 0 8) in
      let keybuf := gostcrypt c buf in
      sub_bytes keybuf 4 4 ++ sub_bytes keybuf 0 4) (seq 0 4) = k').
  { change (seq 0 4) with [0;1;2;3]%nat. cbn [flat_map]. cbv zeta.
    cbn [seq map nth Nat.mul Nat.add Nat.sub ACPKM_D_const].
    rewrite !He by (apply bytesb_ok; reflexivity). rewrite app_nil_r.
    unfold k'. change (chunks 8 ACPKM_D_const) with
      [[0x80;0x81;0x82;0x83;0x84;0x85;0x86;0x87];[0x88;0x89;0x8A;0x8B;0x8C;0x8D;0x8E;0x8F];
       [0x90;0x91;0x92;0x93;0x94;0x95;0x96;0x97];[0x98;0x99;0x9A;0x9B;0x9C;0x9D;0x9E;0x9F]].
    cbn [map concat]. unfold swap4. rewrite app_nil_r.
    assert (Hl8 : forall b, length (magma_block S k b) = (2 * 4)%nat) by (intros b; unfold magma_block; rewrite rev_length; apply encrypt_bytesn).
    rewrite !(chunks_map_app (k := 2) 4) by (lia || apply Hl8). rewrite !map_app, !concat_app. reflexivity. }
  assert (Hk' : bytesn 32 k').
  { apply swap4_bytesn. unfold magma_block.
    assert (Hr : forall b, bytesn 8 (rev (encrypt S k (rev b)))).
    { intros b. destruct (encrypt_bytesn S k (rev b)) as [H1 H2]. split; [apply bytes_rev, H1|rewrite rev_length; exact H2]. }
    apply (concat_bytesn8 (map (fun b => rev (encrypt S k (rev b))) (chunks 8 ACPKM_D_const))).
    apply Forall_map, Forall_forall. intros b _. apply Hr. }
  unfold c', acpkm_magma_key_meshing. cbv zeta. cbv zeta in Hk. rewrite Hk.
  split; [apply gost_key_loaded; assumption|apply loaded_has_sbox_key, HS].
Qed.

(** ** statements as used by the property file *)
Lemma init_key_wf c0 b rnd k : mask_wf rnd -> ctx_wf (gost_key rnd (gost_init c0 b) k).
Proof. intros Hm. apply gost_key_wf; [exact Hm|apply kboxinit_tables]. Qed.

Lemma block_roundtrip c blk : ctx_wf c -> bytesn 8 blk ->
  bytesn 8 (gostcrypt c blk) /\ bytesn 8 (gostdecrypt c blk) /\
  gostdecrypt c (gostcrypt c blk) = blk /\ gostcrypt c (gostdecrypt c blk) = blk.
Proof.
  intros Hc Hb. split; [apply gostcrypt_bytesn|]. split; [apply gostdecrypt_bytesn|].
  split; [apply gost_dec_enc|apply gost_enc_dec]; assumption.
Qed.
Lemma block_roundtrip_api c0 b rnd k blk : mask_wf rnd -> bytesn 8 blk ->
  let c := gost_key rnd (gost_init c0 b) k in
  gostdecrypt c (gostcrypt c blk) = blk /\ gostcrypt c (gostdecrypt c blk) = blk.
Proof. intros Hm Hb c. apply block_roundtrip; [apply init_key_wf, Hm|exact Hb]. Qed.

Lemma block_is_gost c0 b rnd k blk : sb_wf b -> mask_wf rnd -> bytesn 32 k -> bytesn 8 blk ->
  let c := gost_key rnd (gost_init c0 (Some b)) k in
  gostcrypt c blk = encrypt (sb_fun b) k blk /\
  gostdecrypt c blk = decrypt (sb_fun b) k blk /\
  snd (gost_enc_with_key (gost_init c0 (Some b)) k blk) = encrypt (sb_fun b) k blk.
Proof.
  intros Hb Hm Hk Hblk c.
  assert (HL : loaded (sb_fun b) k c) by (apply gost_key_loaded; [apply kboxinit_has_sbox|..]; assumption).
  split; [apply gostcrypt_spec; assumption|]. split; [apply gostdecrypt_spec; assumption|].
  cbn [gost_enc_with_key snd]. apply gostcrypt_spec; [|assumption].
  apply gost_key_nomask_loaded; [apply kboxinit_has_sbox|]; assumption.
Qed.

Lemma gost_mac_spec S k c fuel nb data : loaded S k c -> bytes data ->
  N.of_nat (length data) < 2 ^ 32 - 8 -> (length data / 8 < fuel)%nat -> (nb <= 8)%nat ->
  gost_mac fuel c (8 * Z.of_nat nb) data = MacOk (firstn nb (mac_full S k (zeros 8) data)).
Proof. intros. apply mac_from_ok; auto. split; [apply bytes_zeros|reflexivity]. Qed.
Lemma api_loaded c0 b rnd k : sb_wf b -> mask_wf rnd -> bytesn 32 k ->
  loaded (sb_fun b) k (gost_key rnd (gost_init c0 (Some b)) k).
Proof. intros. apply gost_key_loaded; [apply kboxinit_has_sbox|..]; assumption. Qed.
Lemma api_has_sbox c0 b rnd k : sb_wf b -> has_sbox (sb_fun b) (gost_key rnd (gost_init c0 (Some b)) k).
Proof. intros. apply loaded_has_sbox_key, kboxinit_has_sbox. assumption. Qed.
Lemma get_mac_bits_refuted : exists buffer nbits, bytesn 8 buffer /\ (nbits <= 64)%nat /\
  get_mac buffer (Z.of_nat nbits) <> Some (mac_prefix_bits buffer nbits).
Proof.
  exists [1;2;3;4;0xff;6;7;8], 34%nat. split; [split; [apply bytesb_ok; reflexivity|reflexivity]|].
  split; [lia|]. vm_compute. discriminate.
Qed.
Lemma mac_length_refuted : exists data : list N, bytes data /\ N.of_nat (length data) < 2 ^ 32 /\
  forall c mac_len, (forall fuel m, gost_mac fuel c mac_len data <> MacOk m) /\
                    (exists fuel, gost_mac fuel c mac_len data = MacOOB).
Proof.
  exists (zeros (N.to_nat (2 ^ 32 - 8))). split; [apply bytes_zeros|].
  rewrite length_zeros, N2Nat.id. split; [lia|]. intros c mac_len.
  destruct (mac_from_wrap c (zeros (N.to_nat (2 ^ 32 - 8))) (zeros 8) mac_len) as [H1 H2].
  { rewrite length_zeros, N2Nat.id. lia. }
  split; [exact H1|]. exists (N.to_nat (2 ^ 29)). apply H2. rewrite N2Nat.id. lia.
Qed.

(** API-level forms *)
Lemma api_mac c0 b rnd k fuel nb data : sb_wf b -> mask_wf rnd -> bytesn 32 k -> bytes data ->
  N.of_nat (length data) < 2 ^ 32 - 8 -> (length data / 8 < fuel)%nat -> (nb <= 8)%nat ->
  gost_mac fuel (gost_key rnd (gost_init c0 (Some b)) k) (8 * Z.of_nat nb) data =
  MacOk (firstn nb (mac_full (sb_fun b) k (zeros 8) data)).
Proof. intros. apply gost_mac_spec; auto. apply api_loaded; assumption. Qed.
Lemma api_mac_iv c0 b rnd k fuel nb iv data : sb_wf b -> mask_wf rnd -> bytesn 32 k -> bytesn 8 iv -> bytes data ->
  N.of_nat (length data) < 2 ^ 32 - 8 -> (length data / 8 < fuel)%nat -> (nb <= 8)%nat ->
  gost_mac_iv fuel (gost_key rnd (gost_init c0 (Some b)) k) (8 * Z.of_nat nb) iv data =
  MacOk (firstn nb (mac_full (sb_fun b) k iv data)).
Proof. intros. apply mac_from_ok; auto. apply api_loaded; assumption. Qed.


Lemma mesh_many_ok S rnds : Forall mask_wf rnds -> forall c k iv, loaded S k c -> has_sbox S c -> bytesn 8 iv ->
  let r := mesh_many rnds c iv in let s := mesh_key_iv S (length rnds) k iv in
  snd r = snd s /\ loaded S (fst s) (fst r) /\ has_sbox S (fst r).
Proof.
  induction 1 as [|r t Hr Ht IH]; intros c k iv HL HS Hiv; cbn [mesh_many mesh_key_iv length]; [auto|].
  destruct (cryptopro_meshing_ok S k r c (Some iv) HL HS Hr Hiv) as (H1 & H2 & H3).
  destruct (cryptopro_key_meshing r c (Some iv)) as [c' iv'] eqn:E. cbn [fst snd] in *. subst iv'.
  apply IH; [exact H1|exact H2|apply encrypt_bytesn].
Qed.
Lemma api_mesh c0 b rnd k rnds iv : sb_wf b -> mask_wf rnd -> bytesn 32 k -> Forall mask_wf rnds -> bytesn 8 iv ->
  let S := sb_fun b in
  let r := mesh_many rnds (gost_key rnd (gost_init c0 (Some b)) k) iv in
  let s := mesh_key_iv S (length rnds) k iv in
  snd r = snd s /\
  forall blk, bytesn 8 blk -> gostcrypt (fst r) blk = encrypt S (fst s) blk /\ gostdecrypt (fst r) blk = decrypt S (fst s) blk.
Proof.
  intros Hb Hm Hk Hr Hiv S r s.
  destruct (mesh_many_ok S rnds Hr _ k iv (api_loaded c0 b rnd k Hb Hm Hk) (api_has_sbox c0 b rnd k Hb) Hiv) as (H1 & H2 & H3).
  split; [exact H1|]. intros blk Hblk. split; [apply gostcrypt_spec|apply gostdecrypt_spec]; assumption.
Qed.
Lemma api_mesh_null c0 b rnd k rnd' : sb_wf b -> mask_wf rnd -> bytesn 32 k -> mask_wf rnd' ->
  let S := sb_fun b in
  let r := cryptopro_key_meshing rnd' (gost_key rnd (gost_init c0 (Some b)) k) None in
  let k' := concat (map (decrypt S k) (chunks 8 CryptoProKeyMeshingKey)) in
  snd r = None /\ forall blk, bytesn 8 blk -> gostcrypt (fst r) blk = encrypt S k' blk.
Proof.
  intros Hb Hm Hk Hm' S r k'.
  destruct (cryptopro_meshing_ok S k rnd' _ None (api_loaded c0 b rnd k Hb Hm Hk) (api_has_sbox c0 b rnd k Hb) Hm' I) as (H1 & H2 & H3).
  split; [exact H3|]. intros blk Hblk. apply gostcrypt_spec; assumption.
Qed.
Lemma acpkm_many_ok S rnds : Forall mask_wf rnds -> forall c k, loaded S k c -> has_sbox S c ->
  loaded S (acpkm_key S (length rnds) k) (acpkm_many rnds c).
Proof.
  induction 1 as [|r t Hr Ht IH]; intros c k HL HS; cbn [acpkm_many acpkm_key length]; [exact HL|].
  destruct (acpkm_meshing_ok S k r c HL HS Hr) as [H1 H2]. apply IH; assumption.
Qed.
Lemma api_acpkm c0 b rnd k rnds blk : sb_wf b -> mask_wf rnd -> bytesn 32 k -> Forall mask_wf rnds -> bytesn 8 blk ->
  let S := sb_fun b in
  gostcrypt (acpkm_many rnds (gost_key rnd (gost_init c0 (Some b)) k)) blk = encrypt S (acpkm_key S (length rnds) k) blk.
Proof.
  intros Hb Hm Hk Hr Hblk S. apply gostcrypt_spec; [|exact Hblk].
  apply acpkm_many_ok; [exact Hr|apply api_loaded; assumption|apply api_has_sbox; assumption].
Qed.
