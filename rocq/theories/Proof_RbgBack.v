(** Proofs: the generator's memory gives away what it has delivered; its states form cycles. *)
From Coq Require Import Lia Permutation.
From Verif Require Import Base Lib Model_Gost89 Spec_Gost89 Proof_Gost89 Model_Params Spec_Params Proof_Params Proof_Md
  Model_Rbg Spec_Rbg Spec_RbgApi Spec_RbgBack Proof_Rbg.

#[local] Opaque gostcrypt gostdecrypt encrypt unpack_sbox gost_init gost_key_nomask.

Section B.
Variables E D : list N -> list N.
Variable I : list N.
Hypothesis HI : bytesn 8 I.
Hypothesis HE : forall b, bytesn 8 (E b).
Hypothesis HDE : forall b, bytesn 8 b -> D (E b) = b.

Lemma xl8 a : bytesn 8 a -> xorl (xorl a I) I = a.
Proof. intros [_ L]. apply xorl_cancel. destruct HI as [_ LI]. lia. Qed.
Lemma xl8' a : bytesn 8 a -> xorl (xorl I a) I = a.
Proof. intros H. rewrite (xorl_comm I a). now apply xl8. Qed.
Lemma last_x_next s : bytesn 8 s -> last_x D I (gen_next E I s) = gen_x E I s.
Proof.
  intros H. unfold last_x, gen_next, gen_x. rewrite HDE by (apply xorl_bytesn; auto). apply xl8. apply HE.
Qed.
Lemma before_next s : bytesn 8 s -> before D I (gen_next E I s) = s.
Proof.
  intros H. unfold before. rewrite last_x_next by assumption. unfold gen_x. rewrite HDE by (apply xorl_bytesn; auto). now apply xl8'.
Qed.
Lemma last_bit_next s : bytesn 8 s -> last_bit D I (gen_next E I s) = gen_bit E I s.
Proof. intros H. unfold last_bit, gen_bit. now rewrite last_x_next. Qed.
Lemma after_b n : forall s, bytesn 8 s -> bytesn 8 (gen_after E I n s).
Proof. induction n; intros s H; cbn [gen_after]; auto. apply IHn. apply HE. Qed.
Lemma after_S n s : gen_after E I (S n) s = gen_next E I (gen_after E I n s).
Proof. revert s. induction n; intros s; [reflexivity|]. cbn [gen_after] in *. apply IHn. Qed.
Lemma bits_S n s : gen_bits E I (S n) s = gen_bits E I n s ++ [gen_bit E I (gen_after E I n s)].
Proof. revert s. induction n; intros s; [reflexivity|]. cbn [gen_bits gen_after app] in *. f_equal. apply IHn. Qed.
Lemma ago_after n : forall s, bytesn 8 s -> ago D I n (gen_after E I n s) = s.
Proof.
  induction n; intros s H; [reflexivity|]. rewrite after_S. cbn [ago]. rewrite before_next by (apply after_b; exact H). now apply IHn.
Qed.
Lemma last_bits_after n : forall s, bytesn 8 s -> last_bits D I n (gen_after E I n s) = gen_bits E I n s.
Proof.
  induction n; intros s H; [reflexivity|]. rewrite after_S, bits_S. cbn [last_bits].
  rewrite before_next, last_bit_next by (apply after_b; exact H). now rewrite IHn.
Qed.
Lemma after_add a b s : gen_after E I (a + b) s = gen_after E I b (gen_after E I a s).
Proof. revert s. induction a; intros s; cbn; auto. Qed.
Lemma last_bytes_after n s : bytesn 8 s -> last_bytes D I n (gen_after E I (8 * n) s) = gen_stream E I s n.
Proof.
  intros H. unfold gen_stream. induction n; [reflexivity|].
  replace (8 * S n)%nat with (8 * n + 8)%nat by lia. rewrite after_add, seq_S, map_app. cbn [last_bytes map].
  pose proof (after_b (8 * n) s H) as Hb. rewrite ago_after, last_bits_after by exact Hb. now rewrite IHn.
Qed.
(** cycles *)
Lemma next_inj a b : bytesn 8 a -> bytesn 8 b -> gen_next E I a = gen_next E I b -> a = b.
Proof. intros Ha Hb H. rewrite <- (before_next a Ha), <- (before_next b Hb). now rewrite H. Qed.
Lemma after_inj n a b : bytesn 8 a -> bytesn 8 b -> gen_after E I n a = gen_after E I n b -> a = b.
Proof. intros Ha Hb H. rewrite <- (ago_after n a Ha), <- (ago_after n b Hb). now rewrite H. Qed.
End B.

Lemma pigeon (f : nat -> nat) m : (forall i, (f i < m)%nat) -> exists i j, (i < j <= m)%nat /\ f i = f j.
Proof.
  intros Hf.
  assert (Hn : ~ NoDup (map f (seq 0 (S m)))).
  { intros Hn. assert (L : (length (map f (seq 0 (S m))) <= length (seq 0 m))%nat).
    { apply NoDup_incl_length; [exact Hn|]. intros x Hx. apply in_map_iff in Hx. destruct Hx as (i & <- & _). apply in_seq. pose proof (Hf i). lia. }
    rewrite map_length, !seq_length in L. lia. }
  assert (G : forall n, NoDup (map f (seq 0 n)) \/ exists i j, (i < j < n)%nat /\ f i = f j).
  { induction n as [|n IH]; [left; constructor|]. destruct IH as [IH|(i & j & Hij & Eij)]; [|right; exists i, j; split; [lia|exact Eij]].
    destruct (in_dec Nat.eq_dec (f n) (map f (seq 0 n))) as [Hi|Hi].
    - right. apply in_map_iff in Hi. destruct Hi as (i & Ei & Hi). apply in_seq in Hi. exists i, n. split; [lia|exact Ei].
    - left. rewrite seq_S, map_app. cbn [map]. eapply Permutation_NoDup; [apply Permutation_cons_append|]. constructor; [exact Hi|exact IH]. }
  destruct (G (S m)) as [C|(i & j & Hij & Eij)]; [contradiction|]. exists i, j. split; [lia|exact Eij].
Qed.

Lemma cycle E D I s : bytesn 8 I -> (forall b, bytesn 8 (E b)) -> (forall b, bytesn 8 b -> D (E b) = b) -> bytesn 8 s ->
  exists p, 0 < p <= 2 ^ 64 /\ gen_after E I (N.to_nat p) s = s.
Proof.
  intros HI HE HD Hs.
  assert (Lt : forall i, le_val (gen_after E I i s) < 2 ^ 64).
  { intros i. destruct (after_b E I HE i s Hs) as [Hb L]. pose proof (le_val_lt _ Hb) as H. rewrite L in H. exact H. }
  revert Lt. generalize (2 ^ 64). intros M Lt.
  destruct (pigeon (fun i => N.to_nat (le_val (gen_after E I i s))) (N.to_nat M)) as (i & j & Hij & Eij).
  { intros i. pose proof (Lt i). lia. }
  apply N2Nat.inj in Eij.
  assert (Es : gen_after E I i s = gen_after E I j s).
  { destruct (after_b E I HE i s Hs) as [B1 L1]. destruct (after_b E I HE j s Hs) as [B2 L2]. apply le_val_inj; auto; congruence. }
  exists (N.of_nat (j - i)). split; [lia|]. rewrite Nat2N.id.
  replace j with (j - i + i)%nat in Es by lia. rewrite after_add in Es.
  symmetry. eapply (after_inj E D I HI HE HD i); auto. apply after_b; auto.
Qed.
Lemma cycle_mul E I s p k : gen_after E I p s = s -> gen_after E I (k * p) s = s.
Proof. intros H. induction k; [reflexivity|]. cbn [Nat.mul]. rewrite after_add, H. exact IHk. Qed.

(** ** with the model's context *)
Lemma dec_of_enc S k c b : loaded S k c -> bytesn 8 b -> gostdecrypt c (encrypt S k b) = b.
Proof. intros HL Hb. rewrite <- (gostcrypt_spec S k c b HL Hb). apply gost_dec_enc; [apply HL|exact Hb]. Qed.

Lemma seq_map_add p n : forall a, seq (p + a) n = map (fun i => (p + 0 + i)%nat) (seq a n).
Proof. induction n; intros a; cbn [seq map]; [reflexivity|]. f_equal; [lia|]. rewrite <- IHn. f_equal. lia. Qed.
Lemma stream_period seed time : bytesn 40 seed -> bytesn 8 time ->
  exists p, 0 < p <= 2 ^ 64 /\ forall n, rbg_stream seed time (N.to_nat p + n) = rbg_stream seed time (N.to_nat p) ++ rbg_stream seed time n.
Proof.
  intros Hs Ht.
  assert (Hk : bytesn 32 (dkey seed)) by (apply (bytesn_firstn 32 8); exact Hs).
  assert (Hd : bytesn 64 default_sbox) by (split; [apply bytesb_ok|]; reflexivity).
  pose proof (gost_key_nomask_loaded _ _ _ (sbox_loaded default_sbox zero_gost Hd) Hk) as Hl.
  assert (HV : bytesn 8 (skipn 32 seed)) by (apply (bytesn_skipn 32 8); exact Hs).
  destruct (cycle (dE seed) (gostdecrypt (gost_key_nomask (gost_init zero_gost (Some (unpack_sbox default_sbox))) (dkey seed))) (dE seed time) (skipn 32 seed))
    as (p & Hp & Ep); auto.
  - apply encrypt_bytesn.
  - intros b. apply encrypt_bytesn.
  - intros b Hb. apply dec_of_enc; auto.
  - exists p. split; [exact Hp|]. intros n. unfold rbg_stream. fold (dkey seed). fold (dE seed). rewrite gen_stream_split. f_equal.
    unfold gen_stream. replace (seq (N.to_nat p) n) with (map (fun i => (N.to_nat p + i)%nat) (seq 0 n)).
    2:{ symmetry. rewrite <- (Nat.add_0_r (N.to_nat p)). apply seq_map_add. }
    rewrite map_map. apply map_ext. intros i. unfold gen_byte.
    replace (8 * (N.to_nat p + i))%nat with (8 * N.to_nat p + 8 * i)%nat by lia. rewrite after_add.
    rewrite (cycle_mul _ _ _ _ 8 Ep). reflexivity.
Qed.

(** the context holds the key *)
Lemma sub32_0 x : x < 2 ^ 32 -> sub32 x 0 = x.
Proof. intros H. unfold sub32, w32. change (0 mod 2 ^ 32) with 0. rewrite N.sub_0_r. replace (x + 2 ^ 32) with (x + 1 * 2 ^ 32) by lia. rewrite N.mod_add by lia. now apply N.mod_small. Qed.
Lemma key_of_ctx c k : bytesn 32 k -> concat (map (le_bytes 4) (key (gost_key_nomask c k))) = k.
Proof.
  Transparent gost_key_nomask.
  intros Hk. unfold gost_key_nomask, gost_key_impl, set_mask. cbn [key mask].
  assert (W : forall i, (i < 8)%nat -> le_bytes 4 (sub32 (word_of k (N.of_nat i)) (at_ (zeros 8) (N.of_nat i))) = firstn 4 (skipn (4 * i) k)).
  { intros i Hi. rewrite word_of_val by assumption. destruct Hk as [Hb L].
    assert (B : bytesn 4 (firstn 4 (skipn (4 * i) k))).
    { split; [now apply bytes_firstn, bytes_skipn|]. rewrite firstn_length, skipn_length. lia. }
    replace (at_ (zeros 8) (N.of_nat i)) with 0.
    2:{ unfold at_. rewrite Nat2N.id. do 8 (destruct i; [reflexivity|]). lia. }
    rewrite sub32_0; [now apply le_bytes_le_val_n|]. destruct B as [Bb BL]. pose proof (le_val_lt _ Bb) as H. rewrite BL in H. exact H. }
  rewrite map_map. change idx8 with (map N.of_nat (seq 0 8)). rewrite map_map.
  rewrite (map_ext_in _ (fun i => firstn 4 (skipn (4 * i) k))) by (intros i Hi; apply in_seq in Hi; apply W; lia).
  clear W. destruct Hk as [_ L]. do 32 (destruct k as [|? k]; [discriminate|]). destruct k; [reflexivity|discriminate].
Qed.
#[local] Opaque gost_key_nomask.

(** a seeded generator keeps its key and I *)
Definition kst (seed time : list N) (n : nat) (r : rbg) : Prop :=
  sst seed time n r /\ concat (map (le_bytes 4) (key (r_c r))) = firstn 32 seed.
Lemma get_bit_c r : r_c (fst (get_bit r)) = r_c r.
Proof. reflexivity. Qed.
Lemma byte_bits_c k : forall r j b, r_c (fst (byte_bits k r j b)) = r_c r.
Proof. induction k; intros r j b; [reflexivity|]. cbn [byte_bits]. pose proof (get_bit_c r). destruct (get_bit r) as [r' v]. rewrite IHk. assumption. Qed.
Lemma bytes_loop_c n : forall r, r_c (fst (get_bytes_loop n r)) = r_c r.
Proof.
  induction n; intros r; [reflexivity|]. cbn [get_bytes_loop]. pose proof (byte_bits_c 8 r 0 0) as H. unfold get_byte. destruct (byte_bits 8 r 0 0) as [r1 b].
  specialize (IHn r1). destruct (get_bytes_loop n r1). cbn [fst] in *. congruence.
Qed.
Lemma body_c r e o : r_init r = true -> o <> RCleanup -> r_c (fst (body r e o)) = r_c r.
Proof.
  intros Hi Ho. destruct o as [|n|]; [| |congruence]; cbn [body].
  - unfold status_nolock. rewrite Hi, andb_false_r. reflexivity.
  - unfold bytes_body. rewrite Hi. pose proof (bytes_loop_c (loop_bound n) r) as H. destruct (get_bytes_loop (loop_bound n) r). exact H.
Qed.
Lemma kst_run seed time h : forall p r, bytesn 40 seed -> kst seed time (8 * p) r -> no_cleanup h -> Forall op_size_ok (map snd h) ->
  kst seed time (8 * (p + length (concat (map o_data (snd (brun r h)))))) (fst (brun r h)).
Proof.
  induction h as [|[e o] h IH]; intros p r Hsd H Hc Hn; [cbn [brun snd map concat fst length]; now rewrite Nat.add_0_r|].
  cbn [brun]. inversion Hc as [|? ? Hc1 Hc2]; subst. inversion Hn as [|? ? Hn1 Hn2]; subst.
  destruct H as [H Hk]. pose proof (body_c r e o (proj1 (proj1 H)) Hc1) as Ec.
  destruct (sst_body seed time p r e o Hsd H Hc1 Hn1) as (r' & out & E & _ & Hst & Hd). rewrite E in *. cbn [fst] in Ec.
  assert (K' : kst seed time (8 * (p + length (o_data out))) r') by (split; [exact Hst|now rewrite Ec]).
  specialize (IH _ r' Hsd K' Hc2 Hn2). destruct (brun r' h) as [r2 outs]. cbn [snd fst map concat] in *.
  rewrite app_length, Nat.add_assoc. exact IH.
Qed.
Lemma rbg_init_k r e seed r' b : e_seed e = Some seed -> env_ok e -> rbg_init r e = (r', b) ->
  concat (map (le_bytes 4) (key (r_c r'))) = firstn 32 seed.
Proof.
  intros Es [Hs Ht] Er. specialize (Hs _ Es). unfold rbg_init in Er. rewrite Es in Er. inversion Er; subst. cbn [r_c].
  apply key_of_ctx. apply (bytesn_firstn 32 8). exact Hs.
Qed.
Lemma seed_call_k e o seed : e_seed e = Some seed -> e_status e = true -> env_ok e -> o <> RCleanup ->
  exists r', body rbg0 e o = body r' e o /\ kst seed (e_time e) 0 r'.
Proof.
  intros Es Hst Ho Hc. destruct (rbg_init_ok rbg0 e seed Es Ho) as (r' & E & H). exists r'.
  split; [|split; [exact H|exact (rbg_init_k _ _ _ _ _ Es Ho E)]].
  assert (Hi : r_init r' = true) by apply H.
  destruct o; [| |congruence]; cbn [body]; unfold bytes_body, status_nolock; rewrite Hst, Hi; cbn [andb negb r_init rbg0]; rewrite E; reflexivity.
Qed.

Lemma history_back h0 e o h1 seed :
  defined_history (h0 ++ (e, o) :: h1) -> no_cleanup (h0 ++ (e, o) :: h1) ->
  Forall op_size_ok (map snd ((e, o) :: h1)) ->
  Forall (fun eo => seeds (fst eo) = false) h0 -> seeds e = true -> e_seed e = Some seed -> env_ok e ->
  exists l r outs0 outs1, rrun LNone rbg0 (h0 ++ (e, o) :: h1) = Some (l, r, outs0 ++ outs1) /\
    length outs0 = length h0 /\ Forall2 served ((e, o) :: h1) outs1 /\
    let d := concat (map o_data outs1) in
    let D := gostdecrypt (r_c r) in
    last_bytes D (r_I r) (length d) (r_s r) = d /\
    concat (map (le_bytes 4) (key (r_c r))) ++ ago D (r_I r) (8 * length d) (r_s r) = seed.
Proof.
  intros Hdef Hc Hn H0 Hs Es Hok. apply rrun_defined in Hdef.
  destruct (rrun LNone rbg0 (h0 ++ (e, o) :: h1)) as [[[l r] outs]|] eqn:E; [|congruence].
  pose proof (rrun_brun _ _ _ _ _ _ E) as B. rewrite brun_app in B.
  pose proof (unseeded_run h0 H0) as U. pose proof (brun_len h0 rbg0) as L0. destruct (brun rbg0 h0) as [r0 outs0]. cbn [fst snd] in *. subst r0.
  apply Forall_app in Hc. destruct Hc as [_ Hc]. inversion Hc as [|? ? Hc1 Hc2]; subst.
  apply andb_prop in Hs. destruct Hs as [Hs _].
  destruct (seed_call_k e o seed Es Hs Hok Hc1) as (r' & Eb & Hst).
  assert (Hsd : bytesn 40 seed) by (apply Hok; exact Es).
  pose proof (kst_run seed (e_time e) ((e, o) :: h1) 0 r' Hsd Hst Hc Hn) as K.
  destruct (sst_run seed (e_time e) ((e, o) :: h1) 0 r' Hsd (proj1 Hst) Hc Hn) as [S1 S2].
  cbn [brun] in B, S1, S2, K. rewrite Eb in B. destruct (body r' e o) as [r1 out]. destruct (brun r1 h1) as [r2 outs1].
  cbn [snd fst] in S1, S2, K. inversion B; subst. exists l, r, outs0, (out :: outs1). split; [reflexivity|]. split; [exact L0|]. split; [exact S1|].
  cbn zeta in *. rewrite Nat.add_0_l in K. destruct K as [[(_ & Hl & HIr) Hsr] Hkey].
  assert (HV : bytesn 8 (skipn 32 seed)) by (apply (bytesn_skipn 32 8); exact Hsd).
  assert (DE : forall b, bytesn 8 b -> gostdecrypt (r_c r) (dE seed b) = b) by (intros b Hb; now apply (dec_of_enc (packed_sbox default_sbox) (dkey seed))).
  rewrite HIr, Hsr, Hkey. split.
  - rewrite (last_bytes_after (dE seed) (gostdecrypt (r_c r)) (dE seed (e_time e)) (encrypt_bytesn _ _ _) (encrypt_bytesn _ _) DE _ _ HV). symmetry. exact S2.
  - rewrite (ago_after (dE seed) (gostdecrypt (r_c r)) (dE seed (e_time e)) (encrypt_bytesn _ _ _) (encrypt_bytesn _ _) DE _ _ HV). apply firstn_skipn.
Qed.
Lemma served_len h : forall o1 o2, Forall2 served h o1 -> Forall2 served h o2 -> length (concat (map o_data o1)) = length (concat (map o_data o2)).
Proof.
  induction h as [|[e o] h IH]; intros o1 o2 H1 H2; inversion H1 as [|? x1 ? t1 S1 T1]; inversion H2 as [|? x2 ? t2 S2 T2]; subst; [reflexivity|].
  cbn [map concat]. rewrite !app_length. rewrite (IH t1 t2 T1 T2). f_equal. unfold served in S1, S2. cbn [snd] in S1, S2.
  destruct o; [congruence|destruct S1, S2; congruence|congruence].
Qed.
Lemma served_ext h h' o1 : map snd h = map snd h' -> Forall2 served h o1 -> Forall2 served h' o1.
Proof.
  revert h' o1. induction h as [|[e o] h IH]; intros [|[e' o'] h'] o1 E H; try discriminate; [inversion H; constructor|].
  inversion H; subst. cbn [map snd] in E. injection E as E0 E. subst. constructor; [assumption|]. apply IH; auto.
Qed.
Lemma states_apart h0 e o h1 seed h0' e' h1' seed' l r outs l' r' outs' :
  let ok h0 e h1 seed := defined_history (h0 ++ (e, o) :: h1) /\ no_cleanup (h0 ++ (e, o) :: h1) /\
    Forall op_size_ok (map snd ((e, o) :: h1)) /\
    Forall (fun eo => seeds (fst eo) = false) h0 /\ seeds e = true /\ e_seed e = Some seed /\ env_ok e in
  ok h0 e h1 seed -> ok h0' e' h1' seed' -> map snd h1 = map snd h1' -> seed <> seed' ->
  rrun LNone rbg0 (h0 ++ (e, o) :: h1) = Some (l, r, outs) ->
  rrun LNone rbg0 (h0' ++ (e', o) :: h1') = Some (l', r', outs') -> r <> r'.
Proof.
  intros ok (A1 & A2 & A3 & A4 & A5 & A6 & A7) (B1 & B2 & B3 & B4 & B5 & B6 & B7) Hm Hne E1 E2 Err.
  destruct (history_back _ _ _ _ _ A1 A2 A3 A4 A5 A6 A7) as (l1 & r1 & x1 & y1 & F1 & _ & Sv1 & _ & G1).
  destruct (history_back _ _ _ _ _ B1 B2 B3 B4 B5 B6 B7) as (l2 & r2 & x2 & y2 & F2 & _ & Sv2 & _ & G2).
  rewrite F1 in E1. rewrite F2 in E2. inversion E1; inversion E2; subst. apply Hne.
  apply served_ext with (h' := (e', o) :: h1') in Sv1; [|cbn [map snd]; now f_equal].
  rewrite (served_len _ _ _ Sv1 Sv2). cbn zeta. reflexivity.
Qed.
