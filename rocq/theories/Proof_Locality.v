(** Proofs about the locality of the CFB stream. *)
From Verif Require Import Base Lib Model_Gost89 Spec_Gost89 Proof_Gost89 Proof_Gost89Modes Model_Params Spec_Params Proof_Params Proof_Md Model_Cipher Spec_Cipher Proof_CipherApi Spec_Locality.

#[local] Opaque encrypt gostcrypt gostdecrypt gost_init gost_key_nomask unpack_sbox.

Lemma nth_xorl a : forall b j, (j < length a)%nat -> (j < length b)%nat -> nth j (xorl a b) 0 = N.lxor (nth j a 0) (nth j b 0).
Proof.
  induction a as [|x a IH]; intros [|y b] [|j] Ha Hb; cbn [length] in *; try lia; cbn [xorl nth]; [reflexivity|].
  apply IH; lia.
Qed.
Lemma nth_skipn (l : list N) : forall n j, nth j (skipn n l) 0 = nth (n + j) l 0.
Proof. induction l as [|x l IH]; intros [|n] j; cbn [skipn]; [reflexivity|destruct j; reflexivity|reflexivity|]. cbn [Nat.add nth]. apply IH. Qed.
Lemma nth_firstn_lt (l : list N) : forall n j, (j < n)%nat -> nth j (firstn n l) 0 = nth j l 0.
Proof. induction l as [|x l IH]; intros [|n] [|j] Hj; try lia; cbn [firstn nth]; try reflexivity. apply IH; lia. Qed.

Lemma cfb_step e E iv m : m <> [] ->
  let o := xorl (firstn 8 m) (E iv) in
  cfb_stream e E iv m = o ++ cfb_stream e E (if e then o else firstn 8 m) (skipn 8 m).
Proof.
  intros Hm o. unfold cfb_stream. rewrite chunks_cons by (auto; lia).
  destruct e; cbn [cfb_encrypt cfb_decrypt concat]; reflexivity.
Qed.
Lemma cfb_nil e E iv : cfb_stream e E iv [] = [].
Proof. unfold cfb_stream. rewrite chunks_nil. destruct e; reflexivity. Qed.

Section Loc.
Context (E : list N -> list N) (HE : forall b, length (E b) = 8%nat).

Lemma cfb_prefix e : forall f m iv n, (length m <= f)%nat ->
  firstn n (cfb_stream e E iv m) = cfb_stream e E iv (firstn n m).
Proof.
  induction f as [|f IH]; intros m iv n Hf.
  { destruct m; [|cbn in Hf; lia]. rewrite firstn_nil, cfb_nil, firstn_nil. reflexivity. }
  destruct m as [|x t]; [rewrite firstn_nil, cfb_nil, firstn_nil; reflexivity|].
  destruct n as [|n]; [cbn [firstn]; rewrite cfb_nil; reflexivity|].
  rewrite (cfb_step e E iv (x :: t)) by discriminate.
  rewrite (cfb_step e E iv (firstn (S n) (x :: t))) by discriminate.
  set (m := x :: t) in *. set (k := S n).
  assert (Lm : (1 <= length m)%nat) by (cbn [m length]; lia).
  assert (Lo : length (xorl (firstn 8 m) (E iv)) = Nat.min 8 (length m)) by (rewrite xorl_length, firstn_length, HE; lia).
  rewrite firstn_app, Lo. rewrite firstn_firstn.
  destruct (Nat.le_gt_cases 8 k) as [Hk|Hk].
  - rewrite firstn_all2 by lia. replace (Nat.min 8 k) with 8%nat by lia. f_equal.
    destruct (Nat.le_gt_cases 8 (length m)) as [Hl|Hl].
    + replace (Nat.min 8 (length m)) with 8%nat by lia.
      rewrite IH by (rewrite skipn_length; cbn [m length] in *; lia).
      rewrite firstn_skipn_comm. replace (8 + (k - 8))%nat with k by lia. reflexivity.
    + rewrite !skipn_all2 by (rewrite ?firstn_length; lia). rewrite !cfb_nil, firstn_nil. reflexivity.
  - replace (Nat.min 8 k) with k by lia. rewrite (skipn_all2 (firstn k m)) by (rewrite firstn_length; lia). rewrite cfb_nil, app_nil_r.
    rewrite <- xorl_firstn, firstn_firstn. replace (Nat.min k 8) with k by lia.
    destruct (Nat.le_gt_cases 8 (length m)) as [Hl|Hl].
    + replace (k - Nat.min 8 (length m))%nat with 0%nat by lia. cbn [firstn]. apply app_nil_r.
    + rewrite skipn_all2 by lia. rewrite cfb_nil, firstn_nil. apply app_nil_r.
Qed.

Lemma cfb_resync : forall i iv a b t, length a = (8 * i)%nat -> length b = 8%nat ->
  skipn (8 * S i) (cfb_stream false E iv (a ++ b ++ t)) = cfb_stream false E b t.
Proof.
  induction i as [|i IH]; intros iv a b t Ha Hb.
  - destruct a; [|cbn in Ha; lia]. rewrite app_nil_l. rewrite cfb_step by (destruct b; [cbn in Hb; lia|discriminate]).
    assert (F : firstn 8 (b ++ t) = b) by (rewrite firstn_app, Hb, Nat.sub_diag, firstn_O, app_nil_r; apply firstn_all2; lia).
    assert (K : skipn 8 (b ++ t) = t) by (rewrite skipn_app, Hb, Nat.sub_diag, skipn_O, skipn_all2 by lia; reflexivity).
    rewrite F, K. rewrite skipn_app, (skipn_all2 (xorl b (E iv))) by (rewrite xorl_length, HE; lia).
    rewrite xorl_length, Hb, HE. reflexivity.
  - rewrite cfb_step by (destruct a; [cbn in Ha; lia|discriminate]).
    assert (L8 : (8 <= length a)%nat) by lia.
    rewrite firstn_app, (skipn_app 8). replace (8 - length a)%nat with 0%nat by lia.
    rewrite firstn_O, app_nil_r. rewrite skipn_O.
    rewrite skipn_app. rewrite xorl_length, firstn_length, HE.
    rewrite skipn_all2 by (rewrite xorl_length, firstn_length, HE; lia). cbn [app].
    replace (8 * S (S i) - Nat.min (Nat.min 8 (length a)) 8)%nat with (8 * S i)%nat by lia.
    apply IH; [rewrite skipn_length; lia|assumption].
Qed.

(** One byte of either direction in terms of the ciphertext. *)
Lemma cfb_byte e : forall f m iv j, (length m <= f)%nat -> length iv = 8%nat -> (j < length m)%nat ->
  let out := cfb_stream e E iv m in
  nth j out 0 = N.lxor (nth j m 0) (nth (j mod 8) (E (block_before iv (if e then out else m) (j / 8))) 0).
Proof.
  induction f as [|f IH]; intros m iv j Hf Hiv Hj; [lia|]. cbv zeta.
  rewrite (cfb_step e E iv m) by (destruct m; [cbn in Hj; lia|discriminate]).
  set (o := xorl (firstn 8 m) (E iv)).
  assert (Lo : length o = Nat.min 8 (length m)) by (unfold o; rewrite xorl_length, firstn_length, HE; lia).
  set (v := if e then o else firstn 8 m).
  destruct (Nat.lt_ge_cases j 8) as [H8|H8].
  - rewrite app_nth1 by lia. rewrite Nat.div_small, Nat.mod_small by lia.
    unfold block_before. rewrite Nat.mul_0_r, skipn_O, firstn_app, Hiv, Nat.sub_diag, firstn_O, app_nil_r, firstn_all2 by lia.
    unfold o. rewrite nth_xorl by (rewrite ?firstn_length, ?HE; lia). rewrite nth_firstn_lt by lia. reflexivity.
  - rewrite app_nth2 by lia. rewrite Lo. replace (Nat.min 8 (length m)) with 8%nat by lia.
    assert (Hv : length v = 8%nat) by (unfold v; destruct e; [lia|rewrite firstn_length; lia]).
    rewrite (IH (skipn 8 m) v (j - 8)%nat) by (rewrite ?skipn_length; lia || assumption).
    rewrite nth_skipn. replace (8 + (j - 8))%nat with j by lia.
    assert (Hd : (j = 8 + (j - 8))%nat) by lia.
    assert (Hq : (j / 8 = S ((j - 8) / 8))%nat).
    { rewrite Hd at 1. replace (8 + (j - 8))%nat with (1 * 8 + (j - 8))%nat by lia. rewrite Nat.div_add_l by lia. lia. }
    assert (Hr : (j mod 8 = (j - 8) mod 8)%nat).
    { rewrite Hd at 1. replace (8 + (j - 8))%nat with ((j - 8) + 1 * 8)%nat by lia. now rewrite Nat.mod_add by lia. }
    rewrite Hq, Hr. do 3 f_equal. unfold block_before. f_equal.
    replace (8 * S ((j - 8) / 8))%nat with (8 + 8 * ((j - 8) / 8))%nat by lia.
    rewrite skipn_add.
    rewrite (skipn_app 8 iv), (skipn_all2 iv) by lia. rewrite Hiv, Nat.sub_diag, skipn_O. cbn [app].
    unfold v. destruct e; [reflexivity|]. rewrite firstn_skipn. reflexivity.
Qed.
End Loc.

(** ** the block function is one-to-one *)
Lemma encrypt_inj p k a b : bytesn 64 p -> bytesn 32 k -> bytesn 8 a -> bytesn 8 b ->
  encrypt (packed_sbox p) k a = encrypt (packed_sbox p) k b -> a = b.
Proof.
  intros Hp Hk Ha Hb H.
  set (z := CTX (repeat 0 8) (repeat 0 8) (repeat 0 256) (repeat 0 256) (repeat 0 256) (repeat 0 256)).
  pose proof (gost_key_nomask_loaded _ _ _ (sbox_loaded p z Hp) Hk) as Hl.
  set (c := gost_key_nomask _ k) in Hl. clearbody c.
  rewrite <- (gostcrypt_spec _ _ c a Hl Ha), <- (gostcrypt_spec _ _ c b Hl Hb) in H.
  rewrite <- (gost_dec_enc c a (proj1 Hl) Ha), <- (gost_dec_enc c b (proj1 Hl) Hb). now rewrite H.
Qed.

(** ** API statements *)
Lemma api_prefix rnd rnd' c0 c0' k iv sb e ds ds' n :
  mask_wf rnd -> mask_wf rnd' -> bytesn 32 k -> bytesn 8 iv -> bytesn 64 (the_sbox sb) -> pieces ds -> pieces ds' ->
  firstn n (concat ds) = firstn n (concat ds') ->
  firstn n (snd (updates (start rnd c0 k iv sb e) ds)) = firstn n (snd (updates (start rnd' c0' k iv sb e) ds')) /\
  length (snd (updates (start rnd c0 k iv sb e) ds)) = length (concat ds).
Proof.
  intros Hr Hr' Hk Hiv Hp Hd Hd' H.
  destruct (cipher_stream rnd c0 k iv sb e ds Hr Hk Hiv Hp Hd) as [-> _].
  destruct (cipher_stream rnd' c0' k iv sb e ds' Hr' Hk Hiv Hp Hd') as [-> _].
  split; [|apply cfb_stream_length, encrypt_length].
  rewrite !(cfb_prefix _ (encrypt_length _ _) e _ _ _ _ (Nat.le_refl _)). now rewrite H.
Qed.

Lemma api_byte rnd c0 k iv sb e ds j :
  mask_wf rnd -> bytesn 32 k -> bytesn 8 iv -> bytesn 64 (the_sbox sb) -> pieces ds -> (j < length (concat ds))%nat ->
  let out := snd (updates (start rnd c0 k iv sb e) ds) in
  nth j out 0 = N.lxor (nth j (concat ds) 0)
    (nth (j mod 8) (encrypt (packed_sbox (the_sbox sb)) k (block_before iv (if e then out else concat ds) (j / 8))) 0).
Proof.
  intros Hr Hk Hiv Hp Hd Hj. cbv zeta.
  destruct (cipher_stream rnd c0 k iv sb e ds Hr Hk Hiv Hp Hd) as [-> _].
  apply (cfb_byte _ (encrypt_length _ _) e _ _ _ _ (Nat.le_refl _)); [apply Hiv|exact Hj].
Qed.

Lemma api_resync rnd rnd' c0 c0' k iv sb i a b t ds ds' :
  mask_wf rnd -> mask_wf rnd' -> bytesn 32 k -> bytesn 8 iv -> bytesn 64 (the_sbox sb) -> pieces ds -> pieces ds' ->
  length a = (8 * i)%nat -> bytesn 8 b -> concat ds = a ++ b ++ t -> concat ds' = t ->
  skipn (8 * S i) (snd (updates (start rnd c0 k iv sb false) ds)) = snd (updates (start rnd' c0' k b sb false) ds').
Proof.
  intros Hr Hr' Hk Hiv Hp Hd Hd' Ha Hb E1 E2.
  destruct (cipher_stream rnd c0 k iv sb false ds Hr Hk Hiv Hp Hd) as [-> _].
  destruct (cipher_stream rnd' c0' k b sb false ds' Hr' Hk Hb Hp Hd') as [-> _].
  rewrite E1, E2. apply cfb_resync; [apply encrypt_length|exact Ha|apply Hb].
Qed.

Lemma before_same iv a b i q : length iv = 8%nat -> differ_in_block i a b -> (q <> S i)%nat ->
  block_before iv a q = block_before iv b q.
Proof.
  intros Hiv [HL HD] Hq. unfold block_before. apply nth_ext with (d := 0) (d' := 0).
  { rewrite !firstn_length, !skipn_length, !app_length. lia. }
  intros n Hn. rewrite firstn_length in Hn. rewrite !nth_firstn_lt, !nth_skipn by lia.
  destruct (Nat.lt_ge_cases (8 * q + n) 8) as [H8|H8]; [rewrite !app_nth1 by lia; reflexivity|].
  rewrite !app_nth2 by lia. rewrite Hiv. apply HD.
  replace (8 * q + n - 8)%nat with ((q - 1) * 8 + n)%nat by lia.
  rewrite Nat.div_add_l by lia. rewrite (Nat.div_small n) by lia. lia.
Qed.

Lemma pieces_bytes ds : pieces ds -> bytes (concat ds).
Proof. induction 1 as [|d ds (Hb & _) _ IH]; [constructor|]. apply bytes_app; assumption. Qed.

Lemma api_error rnd rnd' c0 c0' k iv sb ds ds' i j :
  mask_wf rnd -> mask_wf rnd' -> bytesn 32 k -> bytesn 8 iv -> bytesn 64 (the_sbox sb) -> pieces ds -> pieces ds' ->
  differ_in_block i (concat ds) (concat ds') ->
  let p := snd (updates (start rnd c0 k iv sb false) ds) in
  let p' := snd (updates (start rnd' c0' k iv sb false) ds') in
  ((j / 8 <> i)%nat -> (j / 8 <> S i)%nat -> nth j p 0 = nth j p' 0) /\
  ((j / 8 = i)%nat -> N.lxor (nth j p 0) (nth j p' 0) = N.lxor (nth j (concat ds) 0) (nth j (concat ds') 0)).
Proof.
  intros Hr Hr' Hk Hiv Hp Hd Hd' HD p p'.
  assert (Lp : length p = length (concat ds)) by (eapply api_prefix with (n := 0%nat) (ds' := ds); eauto).
  assert (Lp' : length p' = length (concat ds')) by (eapply api_prefix with (n := 0%nat) (ds' := ds'); eauto).
  pose proof (proj1 HD) as HL.
  destruct (Nat.lt_ge_cases j (length (concat ds))) as [Hj|Hj].
  2:{ rewrite (nth_overflow p), (nth_overflow p'), (nth_overflow (concat ds)), (nth_overflow (concat ds')) by lia. split; reflexivity. }
  assert (Q : (j / 8 <> S i)%nat -> block_before iv (concat ds) (j / 8) = block_before iv (concat ds') (j / 8))
    by (intros Hq; eapply before_same; [apply Hiv|exact HD|exact Hq]).
  unfold p, p'. rewrite (api_byte rnd c0 k iv sb false ds j), (api_byte rnd' c0' k iv sb false ds' j) by (assumption || lia).
  split.
  - intros H1 H2. rewrite Q by assumption. now rewrite (proj2 HD) by assumption.
  - intros H1. rewrite Q by lia.
    set (g := nth _ (encrypt _ _ _) 0). rewrite <- !N.lxor_assoc. rewrite (N.lxor_assoc _ g), (N.lxor_comm g), <- !N.lxor_assoc.
    rewrite (N.lxor_assoc _ g g), N.lxor_nilpotent, N.lxor_0_r. reflexivity.
Qed.

Lemma api_error_shows rnd rnd' c0 c0' k iv sb ds ds' i :
  mask_wf rnd -> mask_wf rnd' -> bytesn 32 k -> bytesn 8 iv -> bytesn 64 (the_sbox sb) -> pieces ds -> pieces ds' ->
  differ_in_block i (concat ds) (concat ds') -> concat ds <> concat ds' -> (8 * (i + 2) <= length (concat ds))%nat ->
  let p := snd (updates (start rnd c0 k iv sb false) ds) in
  let p' := snd (updates (start rnd' c0' k iv sb false) ds') in
  exists j, (j / 8 = S i)%nat /\ nth j p 0 <> nth j p' 0.
Proof.
  intros Hr Hr' Hk Hiv Hp Hd Hd' HD Hne Hlen p p'. pose proof HD as [HL Hoff].
  set (E := encrypt (packed_sbox (the_sbox sb)) k).
  set (a := block_before iv (concat ds) (S i)). set (b := block_before iv (concat ds') (S i)).
  assert (B8 : forall ct, bytes ct -> (8 * (i + 2) <= length ct)%nat -> bytesn 8 (block_before iv ct (S i))).
  { intros ct Hc Hl. unfold block_before. split; [apply bytes_firstn, bytes_skipn, bytes_app; [apply Hiv|exact Hc]|].
    rewrite firstn_length, skipn_length, app_length, (proj2 Hiv). lia. }
  assert (Ba : bytesn 8 a) by (apply B8; [apply pieces_bytes|]; assumption).
  assert (Bb : bytesn 8 b) by (apply B8; [apply pieces_bytes; assumption|lia]).
  assert (Nab : a <> b).
  { intros Eab. apply Hne. apply nth_ext with (d := 0) (d' := 0); [exact HL|]. intros n Hn.
    destruct (Nat.eq_dec (n / 8) i) as [Hi|Hi]; [|apply Hoff; assumption].
    assert (Hm : (n = 8 * i + n mod 8)%nat) by (rewrite <- Hi; apply Nat.div_mod; lia).
    assert (Hlt : (n mod 8 < 8)%nat) by (apply Nat.mod_upper_bound; lia).
    pose proof (f_equal (fun l => nth (n mod 8) l 0) Eab) as H. unfold a, b, block_before in H. cbv beta in H.
    rewrite !nth_firstn_lt, !nth_skipn in H by assumption.
    rewrite !app_nth2 in H by (rewrite (proj2 Hiv); lia). rewrite (proj2 Hiv) in H.
    replace (8 * S i + n mod 8 - 8)%nat with n in H by lia. exact H. }
  assert (NE : E a <> E b) by (intros H; apply Nab; eapply encrypt_inj; [| |exact Ba|exact Bb|exact H]; assumption).
  assert (Hx : exists t, (t < 8)%nat /\ nth t (E a) 0 <> nth t (E b) 0).
  { assert (La : length (E a) = 8%nat) by apply encrypt_length. assert (Lb : length (E b) = 8%nat) by apply encrypt_length.
    revert NE La Lb. generalize (E a), (E b). clear. intros l l' NE La Lb.
    assert (D : forall n, (n <= 8)%nat -> (exists t, (t < n)%nat /\ nth t l 0 <> nth t l' 0) \/ forall t, (t < n)%nat -> nth t l 0 = nth t l' 0).
    { induction n as [|n IH]; intros Hn; [right; lia|]. destruct IH as [(t & Ht & Hne)|IH]; [lia|left; exists t; split; [lia|exact Hne]|].
      destruct (N.eq_dec (nth n l 0) (nth n l' 0)) as [e|ne]; [right|left; exists n; split; [lia|exact ne]].
      intros t Ht. destruct (Nat.eq_dec t n) as [->|]; [exact e|apply IH; lia]. }
    destruct (D 8%nat (Nat.le_refl _)) as [H|H]; [exact H|]. exfalso. apply NE, nth_ext with (d := 0) (d' := 0); [lia|].
    intros n Hn. apply H. lia. }
  destruct Hx as (t & Ht & Hxt). exists (8 * S i + t)%nat.
  assert (Hq : ((8 * S i + t) / 8 = S i)%nat) by (rewrite (Nat.mul_comm 8), Nat.div_add_l by lia; rewrite (Nat.div_small t) by lia; lia).
  assert (Hm : ((8 * S i + t) mod 8 = t)%nat) by (rewrite Nat.add_comm, (Nat.mul_comm 8), Nat.mod_add by lia; apply Nat.mod_small; lia).
  split; [exact Hq|]. unfold p, p'.
  rewrite (api_byte rnd c0 k iv sb false ds), (api_byte rnd' c0' k iv sb false ds') by (assumption || lia).
  cbv iota. rewrite Hq, Hm. fold a b. fold E. rewrite (Hoff (8 * S i + t)%nat) by lia.
  intros H. apply Hxt. apply (f_equal (N.lxor (nth (8 * S i + t) (concat ds') 0))) in H.
  rewrite <- !N.lxor_assoc, N.lxor_nilpotent, !N.lxor_0_l in H. exact H.
Qed.

Lemma api_reuse rnd rnd' c0 c0' k iv sb ds ds' i j :
  mask_wf rnd -> mask_wf rnd' -> bytesn 32 k -> bytesn 8 iv -> bytesn 64 (the_sbox sb) -> pieces ds -> pieces ds' ->
  firstn (8 * i) (concat ds) = firstn (8 * i) (concat ds') -> (8 * i <= j < 8 * (i + 1))%nat ->
  (j < length (concat ds))%nat -> (j < length (concat ds'))%nat ->
  N.lxor (nth j (snd (updates (start rnd c0 k iv sb true) ds)) 0) (nth j (snd (updates (start rnd' c0' k iv sb true) ds')) 0) =
  N.lxor (nth j (concat ds) 0) (nth j (concat ds') 0).
Proof.
  intros Hr Hr' Hk Hiv Hp Hd Hd' HD Hij Hj Hj'.
  pose proof (api_prefix rnd rnd' c0 c0' k iv sb true ds ds' (8 * i) Hr Hr' Hk Hiv Hp Hd Hd' HD) as [HP HL].
  assert (HL' : length (snd (updates (start rnd' c0' k iv sb true) ds')) = length (concat ds')) by (eapply api_prefix with (n := 0%nat) (ds' := ds'); eauto).
  rewrite (api_byte rnd c0 k iv sb true ds j), (api_byte rnd' c0' k iv sb true ds' j) by (assumption || lia). cbv iota.
  set (p := snd (updates (start rnd c0 k iv sb true) ds)) in *. set (p' := snd (updates (start rnd' c0' k iv sb true) ds')) in *.
  assert (Hq : (j / 8 = i)%nat) by (replace j with (i * 8 + (j - 8 * i))%nat by lia; rewrite Nat.div_add_l, Nat.div_small by lia; lia).
  rewrite Hq.
  assert (HB : block_before iv p i = block_before iv p' i).
  { assert (Cut : forall f x, length f = (8 * i)%nat -> block_before iv (f ++ x) i = block_before iv f i).
    { intros f x Lf. unfold block_before. rewrite app_assoc, (skipn_app (8 * i) (iv ++ f)).
      rewrite firstn_app, skipn_length, app_length, (proj2 Hiv), Lf.
      replace (8 - (8 + 8 * i - 8 * i))%nat with 0%nat by lia. rewrite firstn_O, app_nil_r. reflexivity. }
    rewrite <- (firstn_skipn (8 * i) p), Cut by (rewrite firstn_length; lia).
    rewrite <- (firstn_skipn (8 * i) p'), Cut by (rewrite firstn_length; lia). now rewrite HP. }
  rewrite HB.
  set (g := nth _ (encrypt _ _ _) 0). rewrite <- !N.lxor_assoc. rewrite (N.lxor_assoc _ g), (N.lxor_comm g), <- !N.lxor_assoc.
  rewrite (N.lxor_assoc _ g g), N.lxor_nilpotent, N.lxor_0_r. reflexivity.
Qed.
